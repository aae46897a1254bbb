(** Whole requests: framing for any content and version, the header version table, the
    bodies together, re-sending. *)
From Verif Require Import Base BaseFacts Wire WireFacts Prims PrimsFacts Records Requests RequestSpec RequestFacts RequestBodies RequestFlex.

Lemma Ok_inj {A} (a b : A) : Ok a = Ok b -> a = b.
Proof. congruence. Qed.

(** ** Header version *)
Lemma hv_flexible key ver n : In (key, n) flexible_from -> 0 <= ver ->
  hv_switch key ver = Some (if flexibleb key ver then 2 else 1).
Proof.
  intros H Hv. unfold flexible_from in H. cbn [In] in H.
  repeat (destruct H as [H|H]; [injection H as <- <-; unfold hv_switch, hv_from, flexibleb, flexible_from; cbn [existsb fst snd Z.eqb Pos.eqb andb orb];
     rewrite ?orb_false_r; first [reflexivity | (destruct (Z.leb_spec 0 ver); [reflexivity|lia])]|]).
  contradiction.
Qed.
Lemma keys b : kafka_key b = api_key b.
Proof. destruct b; reflexivity. Qed.
Lemma api_key_known b : exists n, In (api_key b, n) flexible_from.
Proof. destruct b; cbn [api_key]; eexists; unfold flexible_from; cbn [In]; repeat (first [left; reflexivity | right]). Qed.
Lemma hv_request b v : 0 <= v -> hv_switch (api_key b) v = Some (if flexibleb (api_key b) v then 2 else 1).
Proof. intros Hv. destruct (api_key_known b) as [n Hn]. exact (hv_flexible _ _ n Hn Hv). Qed.
Lemma flexibleb_spec key ver : flexibleb key ver = true <-> is_flexible key ver.
Proof.
  unfold flexibleb, is_flexible. rewrite existsb_exists. split.
  - intros [[k [n|]] [Hin Hb]]; cbn [fst snd] in Hb; [|lia]. exists n. split; [|lia].
    replace key with k by lia. exact Hin.
  - intros [n [Hin Hn]]. exists (key, Some n). split; [exact Hin|]. cbn [fst snd]. lia.
Qed.

(** ** Framing, whatever the content *)
Lemma wrun_len ops : forall room w r, wrun room ops = Ok (w, r) -> (length w + r = room)%nat.
Proof.
  induction ops as [|o ops IH]; intros room w r H; cbn [wrun] in H; [injection H as <- <-; reflexivity|].
  destruct (Nat.leb_spec (length (wbytes o)) room) as [Hl|Hl].
  - destruct (wrun (room - length (wbytes o)) ops) as [[w' r']| | |] eqn:E; try discriminate. injection H as <- <-.
    apply IH in E. rewrite app_length. lia.
  - destruct o as [b|b|b]; cbn [wbytes] in *; [discriminate| |].
    + destruct ops; [|discriminate]. injection H as <- <-. rewrite firstn_length. lia.
    + destruct (wrun 0 ops) as [[w' r']| | |] eqn:E; try discriminate. injection H as <- <-. apply IH in E.
      rewrite app_length, firstn_length. lia.
Qed.
Lemma wrun_app a b : forall room, (length (wcat a) <= room)%nat ->
  wrun room (a ++ b) = match wrun (room - length (wcat a)) b with Ok (w, r) => Ok (wcat a ++ w, r) | x => x end.
Proof.
  induction a as [|o a IH]; intros room H; cbn [app wcat flat_map length wrun] in *.
  - rewrite Nat.sub_0_r. destruct (wrun room b) as [[w r]| | |]; reflexivity.
  - change (flat_map wbytes a) with (wcat a) in *. rewrite app_length in H.
    destruct (Nat.leb_spec (length (wbytes o)) room) as [Hl|Hl]; [|lia].
    rewrite IH by lia. rewrite app_length, Nat.sub_add_distr. destruct (wrun _ b) as [[w r]| | |]; try reflexivity.
    rewrite app_assoc. reflexivity.
Qed.

Definition framed (hb : bytes) (x : res bytes) : Prop := forall out, x = Ok out -> exists body, out = frame (hb ++ body).
Section Framed.
Variables (flex : bool) (h : rhdr).
Notation hv := (if flex then 2 else 1).
Notation hb := (header_bytes flex (h_key h) (h_ver h) (h_corr h) (h_client h)).
Lemma framed_wpatch size ops : 4 + hlen hv h <= size -> framed hb (wpatch size (hops hv h ++ ops)).
Proof.
  intros Hs out H. unfold wpatch in H. destruct (Z.ltb_spec size 4); [discriminate|].
  pose proof (hlen_bytes flex h) as Hl. rewrite <- hops_bytes in Hl. unfold zlen in Hl.
  rewrite wrun_app in H by lia. destruct (wrun _ ops) as [[w r]| | |]; try discriminate. apply Ok_inj in H; subst out.
  exists w. rewrite hops_bytes. unfold frame. rewrite be4_uint. reflexivity.
Qed.
Lemma framed_wframe size ops : hlen hv h <= size -> framed hb (wframe size (hops hv h ++ ops)).
Proof.
  intros Hs out H. unfold wframe, wfull in H.
  pose proof (hlen_bytes flex h) as Hl. pose proof (zlen_nonneg hb) as Hp. rewrite <- hops_bytes in Hl, Hp. unfold zlen in Hl, Hp.
  change (Put (be 4 (uint 32 size)) :: hops hv h ++ ops) with ((Put (be 4 (uint 32 size)) :: hops hv h) ++ ops) in H.
  assert (Hc : wcat (Put (be 4 (uint 32 size)) :: hops hv h) = be 4 (uint 32 size) ++ hb) by (rewrite wcat_cons, hops_bytes; reflexivity).
  assert (Hcl : length (wcat (Put (be 4 (uint 32 size)) :: hops hv h)) = (4 + Z.to_nat (hlen hv h))%nat).
  { rewrite Hc, app_length, <- hops_bytes. pose proof (zlen_be 4 (uint 32 size)) as G. unfold zlen in G. lia. }
  rewrite wrun_app in H by lia. destruct (wrun _ ops) as [[w r]| | |] eqn:E; try discriminate. apply Ok_inj in H; subst out.
  apply wrun_len in E. exists (w ++ repeat 0 r). rewrite Hc, <- !app_assoc. unfold frame. f_equal. rewrite be4_uint. f_equal.
  rewrite !zlen_app, <- hlen_bytes. unfold zlen. rewrite repeat_length. lia.
Qed.
End Framed.

Ltac nn := repeat match goal with
  | |- context [sumz ?f ?l] => lazymatch goal with H : 0 <= sumz f l |- _ => fail | _ =>
      assert (0 <= sumz f l) by (apply sumz_nonneg; let x := fresh "x" in intros x _; split_pairs; nn) end
  | |- context [@zlen ?A ?l] => lazymatch goal with H : 0 <= @zlen A l |- _ => fail | _ => pose proof (@zlen_nonneg A l) end
  | |- context [olen ?l] => lazymatch goal with H : 0 <= olen l |- _ => fail | _ =>
        assert (0 <= olen l) by (destruct l as [l|]; cbn [olen]; [apply zlen_nonneg|lia]) end
  end; try lia.
Ltac fr := first [apply framed_wframe | apply framed_wpatch];
  unfold len_strs, len_topic_pids, ct_len, cp_len, apr_len, ca_len, da_len, tags_len; nn.

Lemma encode_framed zip (flex : bool) h v b : framed (header_bytes flex (h_key h) (h_ver h) (h_corr h) (h_client h))
    (encode_body zip (if flex then 2 else 1) h v b).
Proof.
  destruct b; cbn [encode_body].
  - unfold enc_metadata. fr. destruct (4 <=? v); nn.
  - intros out H. rewrite enc_apiversions_0 in H. apply Ok_inj in H; subst out. eexists. reflexivity.
  - fr.
  - fr.
  - fr.
  - unfold enc_joingroup. fr. destruct ((h_ver h =? 1) || (h_ver h =? 2)); nn.
  - fr.
  - unfold enc_offsetcommit. fr. destruct (h_ver h =? 2); nn.
  - fr.
  - unfold enc_listoffsets. destruct (h_client h) as [c|] eqn:Hc; [|intros ? ?; discriminate]. rewrite <- Hc. fr.
    unfold hlen. rewrite Hc. cbn [olen]. destruct (flexible _); nn.
  - fr.
  - fr.
  - fr.
  - fr.
  - fr.
  - fr.
  - fr.
  - fr.
  - fr.
  - unfold enc_describeconfigs. fr.
  - intros out H. rewrite enc_describelogdirs_0 in H. apply Ok_inj in H; subst out. eexists. reflexivity.
  - unfold enc_createpartitions. fr. destruct (v =? 2); nn.
  - unfold enc_fetch. apply framed_wpatch. assert (0 <= hlen (if flex then 2 else 1) h) by (rewrite hlen_bytes; apply zlen_nonneg). nn.
  - fr.
  - fr.
  - fr.
  - intros out H. unfold enc_describeacls in H.
    rewrite wcut_ok in H by (rewrite hops_bytes, <- hlen_bytes; lia). cbn [rbind] in H. apply Ok_inj in H; subst out. rewrite hops_bytes.
    eexists. rewrite be4_uint. reflexivity.
  - fr.
  - fr.
  - intros out H. unfold enc_produce in H. destruct (rcat _ _) as [tb| | |]; try discriminate. cbn [rbind] in H. apply Ok_inj in H; subst out.
    unfold hwrite. rewrite hops_bytes, be4_uint. eexists. reflexivity.
Qed.

Lemma prepare_ok zip corr v client b out r' : 0 <= v ->
  prepare zip corr v (new_request client b) = Ok (out, r') ->
  exists body, out = frame (header_bytes (flexibleb (api_key b) v) (api_key b) v corr client ++ body).
Proof.
  intros Hv H. unfold prepare, new_request, encode, headerVersion in H. cbn [h_hv h_key h_client h_ver] in H.
  rewrite hv_request in H by exact Hv. cbn [rbind] in H.
  destruct (encode_body _ _ _ _ _) as [w| | |] eqn:E; try discriminate. cbn [rbind fst snd] in H. injection H as <- _.
  destruct (encode_framed _ _ _ _ _ _ E) as [body Hb]. exists body. exact Hb.
Qed.

(** ** All bodies together *)
(** Limits under which the client's encoders follow the protocol (each of them is a
    limit of the code, not of the protocol). *)
Definition fits (client : option bytes) (b : rbody) (v : Z) : Prop :=
  match b with
  | QListOffsets _ _ => client <> None
  | QListGroups s t => Forall (fun n => zlen n < 2 ^ 14 - 1) (olist s) /\ Forall (fun n => zlen n < 2 ^ 14 - 1) (olist t)
  | QCreatePartitions ts _ _ =>
      if v =? 0 then Forall (fun x : bytes * (Z * option (list (list Z))) => snd (snd x) <> None) ts
      else Forall (fun x : bytes * (Z * option (list (list Z))) =>
             zlen (olist (snd (snd x))) < 2 ^ 14 - 1 /\ Forall (fun a => zlen a < 2 ^ 28 - 1) (olist (snd (snd x)))) ts
  | QFetch _ _ _ _ _ _ _ ts _ => Forall (fun t : bytes * list (Z * (Z * (Z * (Z * Z)))) => zlen (snd t) <= 1) ts
  | QListPartitionReassignments _ ts => zlen (olist ts) < 2 ^ 28 - 1 /\
      Forall (fun x : bytes * list Z => zlen (snd x) < 2 ^ 21 - 1) (olist ts)
  | QDescribeAcls _ _ _ _ _ _ _ | QCreateAcls _ => 2 <= v
  | _ => True
  end.

(** the versions with a protocol value *)
Definition versions (b : rbody) : list Z :=
  match b with
  | QMetadata _ _ => [1; 4; 7] | QJoinGroup _ _ _ _ _ _ => [0; 1; 2] | QOffsetCommit _ _ _ _ _ => [0; 2]
  | QOffsetFetch _ _ => [0; 1] | QListOffsets _ _ => [0; 1] | QListGroups _ _ => [0; 1; 2; 3; 4; 5] | QSaslHandshake _ => [0; 1]
  | QCreatePartitions _ _ _ => [0; 2] | QFetch _ _ _ _ _ _ _ _ _ => [0; 7; 10]
  | QDescribeAcls _ _ _ _ _ _ _ => [0; 1; 2] | QCreateAcls _ => [0; 1; 2; 3] | QDeleteAcls _ => [0; 1; 2; 3]
  | _ => [0]
  end.
Lemma request_value_ver b v x : request_value b v = Some x -> In v (versions b).
Proof.
  intros H. destruct v as [|p|p]; [|do 4 (try destruct p as [p|p|])|]; revert H; cbn [request_value]; destruct b as [| | | | | | | | | | |[] []| | | | | | | | | | | | | | | | | |];
    cbn [versions In]; intros H; first [discriminate H | tauto | idtac].
Qed.

Definition sent_header (client : option bytes) (b : rbody) (v corr : Z) : rhdr :=
  mkH (Some (if flexibleb (kafka_key b) v then 2 else 1)) (kafka_key b) v corr client.

Lemma Some_inj {A} (a b : A) : Some a = Some b -> a = b.
Proof. congruence. Qed.
Ltac hx Hx := cbn [request_value] in Hx; apply Some_inj in Hx; rewrite <- Hx in *; clear Hx; cbn [projT1 projT2 V] in *.

Lemma body_value zip (flex : bool) h b v x : request_value b v = Some x -> val_wf x -> fits (h_client h) b v ->
  h_ver h = v -> flex = flexibleb (api_key b) v ->
  encode_body zip (if flex then 2 else 1) h v b =
  Ok (frame (header_bytes flex (h_key h) (h_ver h) (h_corr h) (h_client h) ++ enc (projT1 x) (projT2 x))).
Proof.
  intros Hx Hwf Hf Hv Hflex. apply request_value_ver in Hx as Hver. unfold val_wf in Hwf.
  destruct b; cbn [versions In] in Hver; cbn [encode_body]; cbn [fits] in Hf;
    repeat (destruct Hver as [Hver|Hver]; [rewrite <- Hver in *; clear Hver|]); try contradiction.
  - hx Hx. apply enc_metadata_1.
  - hx Hx. apply enc_metadata_4. lia.
  - hx Hx. apply enc_metadata_4. lia.
  - hx Hx. apply enc_apiversions_0.
  - hx Hx. apply enc_findcoordinator_0.
  - hx Hx. apply enc_heartbeat_0.
  - hx Hx. apply enc_leavegroup_0.
  - hx Hx. apply enc_joingroup_0. exact Hv.
  - hx Hx. apply enc_joingroup_1. left. exact Hv.
  - hx Hx. apply enc_joingroup_1. right. exact Hv.
  - hx Hx. apply enc_syncgroup_0.
  - hx Hx. apply enc_offsetcommit_0. exact Hv.
  - hx Hx. apply enc_offsetcommit_2. exact Hv.
  - hx Hx. apply enc_offsetfetch_0.
  - hx Hx. apply enc_offsetfetch_0.
  - hx Hx. destruct (h_client h) as [c|] eqn:Hc; [|contradiction Hf; reflexivity]. rewrite <- Hc. apply (enc_listoffsets_0 _ _ c); [exact Hc|exact Hflex].
  - hx Hx. destruct (h_client h) as [c|] eqn:Hc; [|contradiction Hf; reflexivity]. rewrite <- Hc. apply (enc_listoffsets_1 _ _ c); [exact Hc|exact Hflex].
  - hx Hx. apply enc_describegroups_0.
  - destruct states, types; hx Hx; (apply enc_listgroups_0; [lia|exact Hflex]).
  - destruct states, types; hx Hx; (apply enc_listgroups_0; [lia|exact Hflex]).
  - destruct states, types; hx Hx; (apply enc_listgroups_0; [lia|exact Hflex]).
  - destruct states, types; hx Hx; (apply enc_listgroups_3; [exact Hv|exact Hflex]).
  - destruct states as [s|]; [|destruct types; discriminate Hx]. destruct Hf as [F1 F2]. cbn [olist] in F1.
    destruct types; hx Hx; cbn [wf fst snd S_ListGroups_4] in Hwf; (apply enc_listgroups_4; [exact Hv|exact Hflex|apply Hwf|exact F1]).
  - destruct states as [s|]; [|destruct types; discriminate Hx]. destruct types as [t|]; [|discriminate Hx]. hx Hx.
    cbn [wf fst snd S_ListGroups_5] in Hwf. destruct Hf as [F1 F2]. cbn [olist] in *.
    apply enc_listgroups_5; [exact Hv|exact Hflex|apply Hwf|exact F1|apply Hwf|exact F2].
  - hx Hx. apply enc_deletegroups_0.
  - hx Hx. apply enc_deletetopics_0.
  - hx Hx. apply enc_saslhandshake_0.
  - hx Hx. apply enc_saslhandshake_0.
  - hx Hx. apply enc_saslauthenticate_0.
  - hx Hx. apply enc_createtopics_0.
  - hx Hx. apply enc_alterconfigs_0.
  - hx Hx. apply enc_incremental_0.
  - hx Hx. apply enc_describeconfigs_0.
  - hx Hx. apply enc_describelogdirs_0.
  - hx Hx. apply enc_createpartitions_0. exact Hf.
  - hx Hx. cbn [wf fst snd S_CreatePartitions_2] in Hwf. destruct Hwf as ((Hl & Hn) & _). rewrite zlen_map in Hl.
    apply enc_createpartitions_2; [exact Hl|]. change (2 =? 0) with false in Hf. cbv iota in Hf. rewrite Forall_forall in *. intros [n [c a]] Hin. specialize (Hf _ Hin).
    specialize (Hn _ (in_map _ _ _ Hin)). cbn [fst snd] in *. split; [apply Hn|exact Hf].
  - hx Hx. apply enc_fetch_0. exact Hf.
  - hx Hx. apply enc_fetch_7; [lia|exact Hf].
  - hx Hx. apply enc_fetch_10; [lia|exact Hf].
  - hx Hx. apply enc_electleaders_0.
  - hx Hx. apply enc_alterreassign_0. exact Hwf.
  - destruct Hf as [F1 F2]. hx Hx. apply enc_listreassign_0; [exact F1|]. destruct topics as [ts|]; [|constructor].
    cbn [wf fst snd S_ListReassign_0 option_map olist] in *. destruct Hwf as (_ & (_ & Hn) & _). rewrite Forall_forall in *. intros [n ps] Hin. specialize (F2 _ Hin).
    specialize (Hn _ (in_map _ _ _ Hin)). cbn [fst snd] in *. split; [apply Hn|exact F2].
  - hx Hx. apply enc_describeacls_2.
  - hx Hx. apply enc_createacls_2; [exact Hflex|lia|exact Hwf].
  - hx Hx. apply enc_createacls_2; [exact Hflex|lia|exact Hwf].
  - hx Hx. apply enc_deleteacls_0; [exact Hflex|exact Hv].
  - hx Hx. apply enc_deleteacls_1; [exact Hflex|lia].
  - hx Hx. apply enc_deleteacls_2; [exact Hflex|lia|exact Hwf].
  - hx Hx. apply enc_deleteacls_2; [exact Hflex|lia|exact Hwf].
  - discriminate Hx.
Qed.

Lemma prepare_value zip corr client b v x : request_value b v = Some x -> val_wf x -> fits client b v ->
  prepare zip corr v (new_request client b) = Ok (request_bytes b v corr client x, (sent_header client b v corr, b)).
Proof.
  intros Hx Hwf Hf. assert (Hv : 0 <= v).
  { apply request_value_ver in Hx. destruct b; cbn [versions In] in Hx; lia. }
  unfold prepare, new_request, encode, headerVersion. cbn [h_hv h_key h_client h_ver].
  rewrite hv_request by exact Hv. cbn [rbind].
  rewrite (body_value zip (flexibleb (api_key b) v) (mkH None (api_key b) v corr client) b v x Hx Hwf Hf eq_refl eq_refl).
  reflexivity.
Qed.

(** What a broker that follows the protocol reads from a request: the length, the
    header, the body, nothing left over. *)
Definition broker_reads (key ver : Z) (t : ty) (s : bytes) : option (Z * (Z * Z * Z * option bytes) * den t * bytes) :=
  match dec TI32 s with
  | Some (n, s1) =>
      match (if flexibleb key ver
             then match dec Header2 s1 with Some ((k, (w, (c, (cl, tg)))), r) => Some ((k, w, c, cl), r) | None => None end
             else match dec Header1 s1 with Some ((k, (w, (c, cl))), r) => Some ((k, w, c, cl), r) | None => None end) with
      | Some (hd, s2) => match dec t s2 with Some (v, s3) => Some (n, hd, v, s3) | None => None end
      | None => None
      end
  | None => None
  end.
Definition wf_client (c : option bytes) : Prop := match c with Some c => zlen c < 2 ^ 15 | None => True end.
Lemma broker_reads_request b v corr client x rest : val_wf x -> i16 v -> i32 corr -> wf_client client ->
  zlen (request_bytes b v corr client x) < 2 ^ 31 ->
  broker_reads (api_key b) v (projT1 x) (request_bytes b v corr client x ++ rest) =
  Some (zlen (request_bytes b v corr client x) - 4, (api_key b, v, corr, client), projT2 x, rest).
Proof.
  intros Hx Hv Hc Hcl Hl. unfold broker_reads, request_bytes, frame. rewrite keys, <- !app_assoc.
  unfold request_bytes, frame in Hl. rewrite keys in Hl. rewrite zlen_app, zlen_be in Hl. 
  set (hd := header_bytes (flexibleb (api_key b) v) (api_key b) v corr client) in *. pose proof (zlen_nonneg (hd ++ val_bytes x)) as Hn.
  assert (Hw : wf TI32 (zlen (hd ++ val_bytes x))) by (cbn [wf]; unfold i32; lia).
  pose proof (dec_enc TI32 _ (hd ++ val_bytes x ++ rest) Hw) as E1. cbn [enc] in E1. rewrite E1. clear E1.
  assert (Hk : i16 (api_key b)) by (destruct b; cbn [api_key]; unfold i16; lia).
  rewrite !zlen_app, zlen_be. replace (Z.of_nat 4 + (zlen hd + zlen (val_bytes x)) - 4) with (zlen hd + zlen (val_bytes x)) by lia.
  rewrite zlen_app in *. subst hd. unfold header_bytes. destruct (flexibleb (api_key b) v).
  - rewrite dec_enc; [|refine (conj Hk (conj Hv (conj Hc (conj Hcl (conj _ (Forall_nil _))))));  reflexivity]. unfold val_bytes. rewrite dec_enc by exact Hx. reflexivity.
  - rewrite dec_enc; [|exact (conj Hk (conj Hv (conj Hc Hcl)))]. unfold val_bytes. rewrite dec_enc by exact Hx. reflexivity.
Qed.

(** ** Produce *)
(** [payloads zip ts ts']: [ts'] is [ts] with each list of batches replaced by the
    concatenation of the encoded batches *)
Definition batch_list zip (bs : list RecordBatch) (out : bytes) : Prop :=
  exists outs, Forall2 (fun b o => batch_encode zip b = Ok o) bs outs /\ out = concat outs.
Definition payloads zip (ts : list (bytes * list (Z * list RecordBatch))) (ts' : list (bytes * list (Z * bytes))) : Prop :=
  Forall2 (fun t t' => fst t = fst t' /\ Forall2 (fun p p' => fst p = fst p' /\ batch_list zip (snd p) (snd p')) (snd t) (snd t')) ts ts'.
Definition produce_value_9 (txn : option bytes) (acks timeout : Z) (ts : list (bytes * list (Z * bytes))) : den S_Produce_9 :=
  (txn, (acks, (timeout, (map (fun t => (fst t, (map (fun p => (fst p, (Some (snd p), []))) (snd t), []))) ts, [])))).
(** versions 3 to 8: as version 0, with the transactional id in front *)
Definition S_Produce_3 : ty := TPair TNStr S_Produce_0.
Definition produce_value_3 (txn : option bytes) (acks timeout : Z) (ts : list (bytes * list (Z * bytes))) : den S_Produce_3 :=
  (txn, (acks, (timeout, map (fun t => (fst t, map (fun p => (fst p, Some (snd p))) (snd t))) ts))).
Definition produce_value_0 (acks timeout : Z) (ts : list (bytes * list (Z * bytes))) : den S_Produce_0 :=
  (acks, (timeout, map (fun t => (fst t, map (fun p => (fst p, Some (snd p))) (snd t))) ts)).

Lemma batches_ok zip bs out : batch_list zip bs out <-> batches zip bs = Ok out.
Proof.
  split.
  - intros [outs [H ->]]. induction H as [|b o bs outs Hb _ IH]; cbn [batches concat]; [reflexivity|]. rewrite Hb. cbn [rbind]. rewrite IH. reflexivity.
  - revert out. induction bs as [|b bs IH]; intros out H; cbn [batches] in H.
    + apply Ok_inj in H; subst out. exists []. split; [constructor|reflexivity].
    + destruct (batch_encode zip b) as [o| | |] eqn:Eb; try discriminate. cbn [rbind] in H.
      destruct (batches zip bs) as [y| | |] eqn:Ey; try discriminate. apply Ok_inj in H; subst out.
      destruct (IH _ eq_refl) as [outs [H1 ->]]. exists (o :: outs). split; [constructor; assumption|reflexivity].
Qed.
Lemma encodeString_enc s : encodeString s = enc TStr s.
Proof. unfold encodeString. cbn [enc]. rewrite be2_uint. reflexivity. Qed.
Lemma rcat_ok {A B} (f : A -> res bytes) (g : B -> bytes) l l' : Forall2 (fun a b => f a = Ok (g b)) l l' -> rcat f l = Ok (flat_map g l').
Proof. induction 1 as [|a b l l' Ha _ IH]; cbn [rcat flat_map]; [reflexivity|]. rewrite Ha. cbn [rbind]. rewrite IH. reflexivity. Qed.
Lemma Forall2_zlen {A B} (R : A -> B -> Prop) l l' : Forall2 R l l' -> zlen l = zlen l'.
Proof. induction 1; [reflexivity|]. rewrite !zlen_cons. lia. Qed.
Lemma Forall2_impl {A B} (R R' : A -> B -> Prop) l l' : (forall a b, R a b -> R' a b) -> Forall2 R l l' -> Forall2 R' l l'.
Proof. intros H. induction 1; constructor; auto. Qed.
Lemma Forall2_impl_in {A B} (R R' : A -> B -> Prop) l l' : (forall a b, In b l' -> R a b -> R' a b) -> Forall2 R l l' -> Forall2 R' l l'.
Proof. intros H G. induction G; constructor; [apply H; [left; reflexivity|assumption]|apply IHG; intros; apply H; [right|]; assumption]. Qed.

Lemma enc_produce_9 zip h txn acks timeout ts ts' : payloads zip ts ts' ->
  wf S_Produce_9 (produce_value_9 txn acks timeout ts') ->
  enc_produce zip 2 h txn acks timeout ts =
  Ok (frame (header_bytes true (h_key h) (h_ver h) (h_corr h) (h_client h) ++ enc S_Produce_9 (produce_value_9 txn acks timeout ts'))).
Proof.
  intros Hp Hwf. unfold enc_produce. change (flexible 2) with true. cbv iota. destruct p31_35 as (P1 & P2 & P3 & P4).
  cbn [wf S_Produce_9 produce_value_9 fst snd] in Hwf. destruct Hwf as (_ & _ & _ & (Hl & Hts) & _). rewrite zlen_map in Hl. rewrite Forall_forall in Hts.
  pose (ep := fun p : Z * bytes => enc (TPair TI32 (TPair TCNBytes TTags)) (fst p, (Some (snd p), []))).
  pose (et := fun t : bytes * list (Z * bytes) => enc (TPair TCStr (TPair (TCArr (TPair TI32 (TPair TCNBytes TTags))) TTags))
           (fst t, (map (fun p => (fst p, (Some (snd p), []))) (snd t), []))).
  assert (E : rcat (pr_topic zip true) ts = Ok (flat_map et ts')).
  { apply rcat_ok. revert Hp. apply Forall2_impl_in. intros [n ps] [n' ps'] Hin [Hn Hps]. cbn [fst snd] in *. subst n'.
    specialize (Hts _ (in_map _ _ _ Hin)). cbn [fst snd] in Hts. destruct Hts as (_ & (Hl2 & Hparts) & _). rewrite zlen_map in Hl2. rewrite Forall_forall in Hparts.
    unfold pr_topic. cbn [fst snd].
    assert (E2 : rcat (pr_part zip true) ps = Ok (flat_map ep ps')).
    { apply rcat_ok. revert Hps. apply Forall2_impl_in. intros [i bs] [i' o] Hin2 [Hi Ho]. cbn [fst snd] in *. subst i'.
      specialize (Hparts _ (in_map _ _ _ Hin2)). cbn [fst snd] in Hparts. destruct Hparts as (_ & Ho2 & _).
      apply batches_ok in Ho. unfold pr_part. cbn [fst snd]. rewrite Ho. cbn [rbind]. unfold ep. cbn [fst snd enc].
      pose proof (zlen_nonneg o). rewrite be4_uint, cal_uvarint by lia. rewrite <- !app_assoc. reflexivity. }
    rewrite E2. cbn [rbind]. unfold et. cbn [fst snd]. unfold pr_count. pose proof (zlen_nonneg ps'). rewrite (Forall2_zlen _ _ _ Hps), cal_uvarint by lia.
    rewrite encodeCompactString_wire. cbn [enc fst snd]. rewrite zlen_map, flat_map_map. rewrite <- !app_assoc. reflexivity. }
  rewrite E. cbn [rbind]. unfold hwrite. pose proof (hops_bytes true h) as Hh. cbv iota in Hh. rewrite Hh. rewrite be4_uint, !be2_uint, be4_uint, writeCompactNullableString_wire.
  unfold pr_count. pose proof (zlen_nonneg ts'). rewrite (Forall2_zlen _ _ _ Hp), cal_uvarint by lia.
  unfold frame.
  assert (Ev : forall v1 v2 v3 v4, enc TCNStr v1 ++ be 2 v2 ++ be 4 v3 ++ (uvarint (zlen v4 + 1) ++ flat_map et v4) ++ [0] =
      enc S_Produce_9 (produce_value_9 v1 v2 v3 v4)).
  { intros. unfold S_Produce_9, produce_value_9, et. cbn [enc fst snd]. rewrite zlen_map, flat_map_map. reflexivity. }
  rewrite <- Ev. rewrite <- !app_assoc. reflexivity.
Qed.

Lemma enc_produce_3 zip h txn acks timeout ts ts' : payloads zip ts ts' ->
  enc_produce zip 1 h txn acks timeout ts =
  Ok (frame (header_bytes false (h_key h) (h_ver h) (h_corr h) (h_client h) ++ enc S_Produce_3 (produce_value_3 txn acks timeout ts'))).
Proof.
  intros Hp. unfold enc_produce. change (flexible 1) with false. cbv iota.
  pose (ep := fun p : Z * bytes => enc (TPair TI32 TNBytes) (fst p, Some (snd p))).
  pose (et := fun t : bytes * list (Z * bytes) => enc (TPair TStr (TArr (TPair TI32 TNBytes))) (fst t, map (fun p => (fst p, Some (snd p))) (snd t))).
  assert (E : rcat (pr_topic zip false) ts = Ok (flat_map et ts')).
  { apply rcat_ok. revert Hp. apply Forall2_impl_in. intros [n ps] [n' ps'] Hin [Hn Hps]. cbn [fst snd] in *. subst n'.
    unfold pr_topic. cbn [fst snd].
    assert (E2 : rcat (pr_part zip false) ps = Ok (flat_map ep ps')).
    { apply rcat_ok. revert Hps. apply Forall2_impl_in. intros [i bs] [i' o] Hin2 [Hi Ho]. cbn [fst snd] in *. subst i'.
      apply batches_ok in Ho. unfold pr_part. cbn [fst snd]. rewrite Ho. cbn [rbind]. unfold ep. cbn [fst snd enc].
      rewrite !be4_uint, app_nil_r. reflexivity. }
    rewrite E2. cbn [rbind]. unfold et. cbn [fst snd]. unfold pr_count. rewrite (Forall2_zlen _ _ _ Hps).
    rewrite encodeString_enc, be4_uint, app_nil_r. cbn [enc fst snd]. rewrite zlen_map, flat_map_map. rewrite <- !app_assoc. reflexivity. }
  rewrite E. cbn [rbind]. unfold hwrite. pose proof (hops_bytes false h) as Hh. cbv iota in Hh. rewrite Hh. rewrite !be4_uint, !be2_uint, encodeNullableString_enc.
  unfold pr_count. rewrite (Forall2_zlen _ _ _ Hp), be4_uint, app_nil_r. unfold frame.
  assert (Ev : forall v1 v2 v3 v4, enc TNStr v1 ++ be 2 v2 ++ be 4 v3 ++ be 4 (zlen v4) ++ flat_map et v4 =
      enc S_Produce_3 (produce_value_3 v1 v2 v3 v4)).
  { intros. unfold S_Produce_3, S_Produce_0, produce_value_3, et. cbn [enc fst snd]. rewrite zlen_map, flat_map_map. reflexivity. }
  rewrite <- Ev. rewrite <- ?app_assoc. reflexivity.
Qed.

Lemma prepare_produce_9 zip corr client txn acks timeout ts ts' : payloads zip ts ts' ->
  wf S_Produce_9 (produce_value_9 txn acks timeout ts') ->
  prepare zip corr 9 (new_request client (QProduce txn acks timeout ts)) =
  Ok (request_bytes (QProduce txn acks timeout ts) 9 corr client (V S_Produce_9 (produce_value_9 txn acks timeout ts')),
      (sent_header client (QProduce txn acks timeout ts) 9 corr, QProduce txn acks timeout ts)).
Proof.
  intros Hp Hwf. unfold prepare, new_request, encode, headerVersion. cbn [h_hv h_key h_client h_ver api_key].
  change (hv_switch 0 9) with (Some 2). cbn [rbind encode_body]. rewrite (enc_produce_9 _ _ _ _ _ _ _ Hp Hwf). reflexivity.
Qed.
Lemma prepare_produce_3 zip corr client txn acks timeout ts ts' v : payloads zip ts ts' -> 0 <= v < 9 ->
  prepare zip corr v (new_request client (QProduce txn acks timeout ts)) =
  Ok (request_bytes (QProduce txn acks timeout ts) v corr client (V S_Produce_3 (produce_value_3 txn acks timeout ts')),
      (sent_header client (QProduce txn acks timeout ts) v corr, QProduce txn acks timeout ts)).
Proof.
  intros Hp Hv. unfold prepare, new_request, encode, headerVersion. cbn [h_hv h_key h_client h_ver api_key].
  assert (Hf : flexibleb 0 v = false) by (unfold flexibleb, flexible_from; cbn [existsb fst snd Z.eqb Pos.eqb andb orb]; lia).
  pose proof (hv_request (QProduce txn acks timeout ts) v ltac:(lia)) as E. cbn [api_key] in E. rewrite E, Hf. cbn [rbind encode_body].
  rewrite (enc_produce_3 _ _ _ _ _ _ _ Hp). cbn [rbind fst snd]. unfold request_bytes, sent_header. cbn [kafka_key]. rewrite Hf. reflexivity.
Qed.

(** ** Sending the same request object again *)
(** [resent zip r r']: [r'] is [r] after having been sent any number of times, each time
    at a version whose header kind is the same as that of [v] *)
Inductive resent (zip : Z -> bytes -> res bytes) (r : request) (v : Z) : request -> Prop :=
| RS_refl : resent zip r v r
| RS_step r1 r2 c w out : resent zip r v r1 -> 0 <= w -> flexibleb (h_key (fst r)) w = flexibleb (h_key (fst r)) v ->
    prepare zip c w r1 = Ok (out, r2) -> resent zip r v r2.
Lemma encode_body_hv zip hv a a' k ver c cl v b : encode_body zip hv (mkH a k ver c cl) v b = encode_body zip hv (mkH a' k ver c cl) v b.
Proof. destruct b; reflexivity. Qed.
Lemma resend_same zip client b v r c : 0 <= v -> resent zip (new_request client b) v r ->
  prepare zip c v r = prepare zip c v (new_request client b).
Proof.
  intros Hv H.
  assert (G : snd r = b /\ h_key (fst r) = api_key b /\ h_client (fst r) = client /\
     (h_hv (fst r) = None \/ h_hv (fst r) = Some (if flexibleb (api_key b) v then 2 else 1))).
  { induction H as [|r1 r2 c' w out Hr IH Hw Hf Hp]; [cbn; tauto|]. destruct IH as (I1 & I2 & I3 & I4). destruct r1 as [h1 b1]. cbn [fst snd] in *.
    unfold prepare, encode, headerVersion in Hp. cbn [h_hv h_key h_ver h_client] in Hp.
    destruct I4 as [I4|I4]; rewrite I4 in Hp.
    - rewrite I2 in Hp. rewrite hv_request in Hp by exact Hw. unfold new_request in Hf. cbn [fst h_key] in Hf. rewrite Hf in Hp. cbn [rbind] in Hp.
      destruct (encode_body _ _ _ _ _) as [o| | |]; try discriminate. cbn [rbind fst snd] in Hp. apply Ok_inj in Hp. injection Hp as _ <-.
      cbn [fst snd hv_cache h_hv h_key h_client]. tauto.
    - cbn [rbind] in Hp.
      destruct (encode_body _ _ _ _ _) as [o| | |]; try discriminate. cbn [rbind fst snd] in Hp. apply Ok_inj in Hp. injection Hp as _ <-.
      cbn [fst snd hv_cache h_hv h_key h_client]. tauto. }
  destruct r as [h b']. cbn [fst snd] in G. destruct G as (-> & I2 & I3 & I4). unfold prepare, new_request, encode, headerVersion. cbn [h_hv h_key h_ver h_client].
  rewrite I2, I3, hv_request by exact Hv. destruct I4 as [-> | ->]; cbn [rbind].
  - reflexivity.
  - rewrite (encode_body_hv zip (if flexibleb (api_key b) v then 2 else 1) (Some _) None). reflexivity.
Qed.

(** the header kind is always the one of the first version sent *)
Lemma resend_header zip client b c1 v1 out1 r1 c2 v2 out2 r2 : 0 <= v1 ->
  prepare zip c1 v1 (new_request client b) = Ok (out1, r1) -> prepare zip c2 v2 r1 = Ok (out2, r2) ->
  exists body, out2 = frame (header_bytes (flexibleb (api_key b) v1) (api_key b) v2 c2 client ++ body).
Proof.
  intros Hv H1 H2. unfold prepare, new_request, encode, headerVersion in H1. cbn [h_hv h_key h_ver h_client] in H1.
  rewrite hv_request in H1 by exact Hv. cbn [rbind] in H1. destruct (encode_body _ _ _ _ _) as [o| | |]; try discriminate. cbn [rbind fst snd] in H1.
  apply Ok_inj in H1. injection H1 as _ <-. unfold prepare, encode, headerVersion in H2. cbn [h_hv h_key h_ver h_client hv_cache rbind] in H2.
  destruct (encode_body _ _ _ _ _) as [o2| | |] eqn:E; try discriminate. cbn [rbind fst snd] in H2. apply Ok_inj in H2. injection H2 as <- _.
  exact (encode_framed _ _ _ _ _ _ E).
Qed.
