(** What [prepare] sends is read back by the request decoders. *)
From Verif Require Import Base BaseFacts Wire WireFacts Prims PrimsFacts Group Records Requests RequestSpec RequestFacts RequestBodies RequestFlex RequestPrep
  Responses ResponseSpec ResponseFacts ResponseDecode ReqDecode ReqDecodeFacts.
Local Open Scope ty_scope.

Definition flex_of (b : rbody) (v : Z) : bool := flexibleb (api_key b) v.
Lemma prepared zip corr client b v body : 0 <= v ->
  encode_body zip (if flex_of b v then 2 else 1) (mkH None (api_key b) v corr client) v b =
  Ok (frame (header_bytes (flex_of b v) (api_key b) v corr client ++ body)) ->
  prepare zip corr v (new_request client b) = Ok (sent (flex_of b v) (api_key b) v corr client [] body, (sent_header client b v corr, b)).
Proof.
  intros Hv E. unfold prepare, new_request, encode, headerVersion. cbn [h_hv h_key h_client h_ver]. rewrite hv_request by exact Hv. cbn [rbind].
  unfold flex_of in E. rewrite E. reflexivity.
Qed.
Lemma sent_hdr_ok b v corr client : 0 <= v < 2 ^ 16 -> u32 corr -> wf_client client ->
  hdr_ok (flex_of b v) (api_key b) v corr client [].
Proof.
  intros Hv Hc Hcl. unfold hdr_ok. split; [apply hv_request; lia|]. split; [destruct b; cbn [api_key]; unfold u16; lia|].
  split; [exact Hv|]. split; [exact Hc|]. split; [exact Hcl|]. split; [split; [reflexivity|constructor]|reflexivity].
Qed.
(** a request that was prepared is read as [x] *)
Definition reads_back {X} zip (corr v : Z) (client : option bytes) (b : rbody) (decode : bytes -> res X) (x : X) : Prop :=
  exists out, prepare zip corr v (new_request client b) = Ok (out, (sent_header client b v corr, b)) /\
              (zlen out < 2 ^ 31 -> decode out = Ok x).

Lemma carr_same {A} t u (f : A -> den t) (g : A -> den u) l : (forall x, enc t (f x) = enc u (g x)) ->
  enc (TCArr t) (map f l) = enc (TCNArr u) (Some (map g l)).
Proof.
  intros H. change (enc (TCNArr u) (Some (map g l))) with (enc (TCArr u) (map g l)). cbn [enc]. rewrite !zlen_map, !flat_map_map. f_equal.
  apply flat_map_ext_in. intros; apply H.
Qed.

(** ** ListGroups *)
Definition filter_ok (o : option (list bytes)) : Prop :=
  match o with Some l => zlen l < 2 ^ 31 - 1 /\ Forall (fun s => zlen s < 2 ^ 14 - 1) l | None => True end.
Lemma filter_wf o : filter_ok o -> wf (TCNArr TCStr) o.
Proof.
  destruct o as [l|]; [|exact (fun x => x)]. intros [H1 H2]. split; [exact H1|]. eapply Forall_impl; [|exact H2].
  intros s Hs. cbn beta in Hs. cbn [wf]. assert (2 ^ 14 - 1 < 2 ^ 15) by reflexivity. lia.
Qed.
Lemma W_lg_opt o : filter_ok o -> W (lg_filter true o) (TCNArr TCStr) o.
Proof.
  destruct o as [l|]; [|reflexivity]. intros [H _]. assert (2 ^ 31 < 2 ^ 63) by reflexivity. apply (W_lg_filter l). lia.
Qed.
Lemma lg_opt_size o : filter_ok o -> zlen (enc (TCNArr TCStr) o) <= 5 + sumz (fun s => 2 + zlen s) (olist o).
Proof.
  destruct o as [l|]; [|cbn; unfold zlen; cbn; lia]. intros [H1 H2]. pose proof (lg_size l H2).
  change (enc (TCNArr TCStr) (Some l)) with (uvarint (zlen l + 1) ++ flat_map (enc TCStr) l). cbn [olist].
  pose proof (zlen_nonneg l). pose proof (uv5 (zlen l + 1)). assert (2 ^ 31 < 2 ^ 35) by reflexivity.
  rewrite zlen_app, zlen_flat_map. cbn [den] in *. lia.
Qed.
Definition lg_body (v : Z) (s t : option (list bytes)) : bytes :=
  if 5 <=? v then enc (TCNArr TCStr *** TCNArr TCStr *** TTags) (s, (t, []))
  else if 4 <=? v then enc (TCNArr TCStr *** TTags) (s, [])
  else if 3 <=? v then enc TTags [] else [].
Lemma listgroups_flex v : flexibleb 16 v = (3 <=? v).
Proof. unfold flexibleb, flexible_from. cbn [existsb fst snd Z.eqb Pos.eqb andb orb]. apply orb_false_r. Qed.
Lemma listgroups_sent zip corr client s t v : 0 <= v -> filter_ok s -> filter_ok t ->
  prepare zip corr v (new_request client (QListGroups s t)) =
  Ok (sent (3 <=? v) 16 v corr client [] (lg_body v s t), (sent_header client (QListGroups s t) v corr, QListGroups s t)).
Proof.
  intros Hv Hs Ht. rewrite <- listgroups_flex. apply (prepared zip corr client (QListGroups s t) v); [exact Hv|].
  unfold flex_of. cbn [api_key encode_body]. rewrite listgroups_flex. unfold enc_listgroups. rewrite flexible_if. cbn [h_ver].
  pose proof (lg_opt_size s Hs) as Ls. pose proof (lg_opt_size t Ht) as Lt.
  pose proof (zlen_nonneg (enc (TCNArr TCStr) s)). pose proof (zlen_nonneg (enc (TCNArr TCStr) t)).
  unfold lg_body, len_strs, tags_len. set (h := mkH None 16 v corr client).
  destruct (5 <=? v) eqn:E5; [|destruct (4 <=? v) eqn:E4; [|destruct (3 <=? v) eqn:E3]].
  - replace (4 <=? v) with true by lia. replace (3 <=? v) with true by lia.
    apply (wpatch_W _ true h); [apply W_app; [apply W_lg_opt; exact Hs|apply W_app; [apply W_lg_opt; exact Ht|exact W_tags_uv]]|].
    rewrite !enc_pair, !zlen_app. change (zlen (enc TTags [])) with 1. lia.
  - replace (3 <=? v) with true by lia.
    apply (wpatch_W _ true h); [apply W_app; [apply W_lg_opt; exact Hs|exact W_tags_uv]|].
    rewrite !enc_pair, !zlen_app. change (zlen (enc TTags [])) with 1. lia.
  - apply (wpatch_W _ true h _ TTags); [exact W_tags_uv|]. change (zlen (enc TTags [])) with 1. lia.
  - apply (wpatch_W _ false h _ TUnit tt); [exact W_nil|]. change (zlen (enc TUnit tt)) with 0. lia.
Qed.
Lemma listgroups_rt zip corr client s t v : 0 <= v < 2 ^ 16 -> u32 corr -> wf_client client -> filter_ok s -> filter_ok t ->
  reads_back zip corr v client (QListGroups s t) decodeListGroups
    ((sent_header client (QListGroups s t) v corr, []), (if 4 <=? v then s else None, (if 5 <=? v then t else None, []))).
Proof.
  intros Hv Hc Hcl Hs Ht. eexists. split; [apply listgroups_sent; [lia|assumption|assumption]|]. intros Hz.
  pose proof (sent_hdr_ok (QListGroups s t) v corr client Hv Hc Hcl) as Hh. unfold flex_of in Hh. cbn [api_key] in Hh. rewrite listgroups_flex in Hh.
  pose proof (listgroups_read 16 v corr client [] s t [] ltac:(lia) Hh (filter_wf s Hs) (filter_wf t Ht) ltac:(split; [reflexivity|constructor]) Hz) as E.
  cbv zeta in E. etransitivity; [exact E|]. unfold sent_header, read_header. rewrite ?keys. cbn [api_key]. rewrite listgroups_flex. destruct (3 <=? v); reflexivity.
Qed.

(** ** AlterPartitionReassignments *)
Definition alter_got (ts : list (bytes * list (Z * list Z))) : list atopic :=
  map (fun x : bytes * list (Z * list Z) => (fst x, (Some (map (fun p : Z * list Z => (fst p, (Some (snd p), []))) (snd x)), []))) ts.
Definition alter_ok (timeout : Z) (ts : list (bytes * list (Z * list Z))) : Prop :=
  i32 timeout /\ zlen ts < 2 ^ 31 - 1 /\
  Forall (fun x => zlen (fst x) < 2 ^ 15 /\ zlen (snd x) < 2 ^ 31 - 1 /\
                   Forall (fun p => i32 (fst p) /\ zlen (snd p) < 2 ^ 31 - 1 /\ Forall i32 (snd p)) (snd x)) ts.
Lemma alterreassign_rt zip corr client timeout ts v : 0 <= v < 2 ^ 16 -> u32 corr -> wf_client client -> alter_ok timeout ts ->
  reads_back zip corr v client (QAlterPartitionReassignments timeout ts) decodeAlterReassign
    ((sent_header client (QAlterPartitionReassignments timeout ts) v corr, []), (timeout, (Some (alter_got ts), []))).
Proof.
  intros Hv Hc Hcl (Hto & Hl & Hts). set (b := QAlterPartitionReassignments timeout ts).
  assert (Hf : flex_of b v = true). { unfold flex_of, flexibleb, flexible_from, b. cbn [existsb fst snd Z.eqb Pos.eqb andb orb api_key]. lia. }
  set (x := (timeout, (map (fun x : bytes * list (Z * list Z) =>
        (fst x, (map (fun p : Z * list Z => (fst p, (Some (snd p), []))) (snd x), []))) ts, [])) : den S_AlterReassign_0).
  assert (Hwf : wf S_AlterReassign_0 x).
  { assert (T : wf TTags []) by (split; [reflexivity|constructor]).
    split; [exact Hto|]. split; [|exact T]. cbn [x fst snd]. split; [rewrite zlen_map; exact Hl|]. rewrite Forall_map. eapply Forall_impl; [|exact Hts].
    intros [n ps] (A & B & C). cbn [fst snd] in *. split; [exact A|]. split; [|exact T]. cbn [fst snd]. split; [rewrite zlen_map; exact B|]. rewrite Forall_map. eapply Forall_impl; [|exact C].
    intros [pid rs] (D & E & F). cbn [fst snd] in *. split; [exact D|]. split; [|exact T]. cbn [fst snd]. split; assumption. }
  eexists. split.
  - apply (prepared zip corr client b v (enc S_AlterReassign_0 x)); [lia|]. rewrite Hf. cbn [encode_body b]. exact (enc_alterreassign_0 true _ timeout ts Hwf).
  - intros Hz. rewrite Hf in *. pose proof (sent_hdr_ok b v corr client Hv Hc Hcl) as Hh. rewrite Hf in Hh.
    set (y := (timeout, (Some (alter_got ts), [])) : den P_alter).
    assert (Ey : enc S_AlterReassign_0 x = enc P_alter y).
    { unfold x, y, S_AlterReassign_0, P_alter. rewrite !enc_pair. f_equal. f_equal. apply carr_same. intros [n ps]. unfold P_atopic. rewrite !enc_pair. cbn [fst snd].
      apply f_equal. apply (f_equal (fun z => z ++ _)). apply carr_same. intros [pid rs]. reflexivity. }
    rewrite Ey in *. pose proof (alter_read (api_key b) v corr client [] y Hh) as R. rewrite R; [unfold sent_header; change (kafka_key b) with (api_key b); unfold flex_of in Hf; rewrite Hf; reflexivity| |exact Hz].
    assert (T : wf TTags []) by (split; [reflexivity|constructor]).
    split; [exact Hto|]. split; [|exact T]. cbn [y fst snd]. split; [unfold alter_got; rewrite zlen_map; exact Hl|]. unfold alter_got. rewrite Forall_map. eapply Forall_impl; [|exact Hts].
    intros [n ps] (A & B & C). cbn [fst snd] in *. split; [exact A|]. split; [|exact T]. cbn [fst snd]. split; [rewrite zlen_map; exact B|]. rewrite Forall_map. eapply Forall_impl; [|exact C].
    intros [pid rs] (D & E & F). cbn [fst snd] in *. split; [exact D|]. split; [|exact T]. cbn [fst snd]. split; assumption.
Qed.

(** ** CreateAcls *)
Definition acl_0 (a : acl) : den P_acl_0 := let '(rt, (rn, (pt, (pr, (ho, (op, pe)))))) := a in (rt, (rn, (pr, (ho, (op, (pe, [])))))).
Definition acl_1 (a : acl) : den P_acl_1 := let '(rt, (rn, (pt, (pr, (ho, (op, pe)))))) := a in (rt, (rn, (pt, (pr, (ho, (op, (pe, []))))))).
Definition acl_ok (a : acl) : Prop :=
  let '(rt, (rn, (pt, (pr, (ho, (op, pe)))))) := a in
  i8 rt /\ zlen rn < 2 ^ 15 /\ i8 pt /\ zlen pr < 2 ^ 15 /\ zlen ho < 2 ^ 15 /\ i8 op /\ i8 pe.
Lemma no_tags : wf TTags [].
Proof. split; [reflexivity|constructor]. Qed.
Ltac wfp := repeat first [assumption | exact no_tags | refine (conj _ _); cbn [fst snd]].
Lemma acl_0_wf a : acl_ok a -> wf P_acl_0 (acl_0 a).
Proof. destruct a as [rt [rn [pt [pr [ho [op pe]]]]]]. intros (A & B & C & D & E & F & G). unfold acl_0, P_acl_0. wfp. Qed.
Lemma acl_1_wf a : acl_ok a -> wf P_acl_1 (acl_1 a).
Proof. destruct a as [rt [rn [pt [pr [ho [op pe]]]]]]. intros (A & B & C & D & E & F & G). unfold acl_1, P_acl_1. wfp. Qed.
Lemma acl_2_wf a : acl_ok a -> wf P_acl_2 (acl_1 a).
Proof. destruct a as [rt [rn [pt [pr [ho [op pe]]]]]]. intros (A & B & C & D & E & F & G). unfold acl_1, P_acl_2. wfp. Qed.
Lemma W_acl_0 a : W (ca_ops 1 0 a) P_acl_0 (acl_0 a).
Proof.
  destruct a as [rt [rn [pt [pr [ho [op pe]]]]]]. unfold ca_ops. cbn [Z.ltb Z.leb Z.compare Pos.compare Pos.compare_cont app].
  repeat (apply W_cons; [first [apply W_p8|apply W_str_enc]|]). exact W_tags.
Qed.
Lemma W_acl_1 ver a : 1 <= ver -> W (ca_ops 1 ver a) P_acl_1 (acl_1 a).
Proof.
  intros Hv. destruct a as [rt [rn [pt [pr [ho [op pe]]]]]]. unfold ca_ops. replace (1 <=? ver) with true by lia. cbn [Z.ltb Z.compare Pos.compare Pos.compare_cont app].
  repeat (apply W_cons; [first [apply W_p8|apply W_str_enc]|]). exact W_tags.
Qed.
Lemma createacls_flex v : flexibleb 30 v = (2 <=? v).
Proof. unfold flexibleb, flexible_from. cbn [existsb fst snd Z.eqb Pos.eqb andb orb]. apply orb_false_r. Qed.
Definition pt_seen (v : Z) (a : acl) : acl * taggedFields :=
  let '(rt, (rn, (pt, (pr, (ho, (op, pe)))))) := a in ((rt, (rn, (if 1 <=? v then pt else 0, (pr, (ho, (op, pe)))))), []).
Lemma createacls_old zip corr client l v t (g : acl -> den t) : 0 <= v < 2 ->
  (forall a, In a l -> W (ca_ops 1 v a) t (g a)) -> (forall a, In a l -> zlen (enc t (g a)) <= ca_len a) ->
  prepare zip corr v (new_request client (QCreateAcls l)) =
  Ok (sent false 30 v corr client [] (arr_enc false t (map g l) ++ enc TTags []), (sent_header client (QCreateAcls l) v corr, QCreateAcls l)).
Proof.
  intros Hv Hw Hs. assert (Hf : flex_of (QCreateAcls l) v = false) by (unfold flex_of; cbn [api_key]; rewrite createacls_flex; lia).
  rewrite <- Hf. apply (prepared zip corr client (QCreateAcls l) v); [lia|]. rewrite Hf. cbn [api_key encode_body]. unfold enc_createacls. cbn [h_ver].
  change (1 <? 2) with true. cbv iota.
  apply (wpatch_W _ false (mkH None 30 v corr client) _ (TArr t *** TTags) (map g l, [])).
  - apply (W_app ([p32 (zlen l)] ++ flat_map (ca_ops 1 v) l)); [|exact W_tags]. exact (W_arr (ca_ops 1 v) t g l Hw).
  - rewrite enc_pair, zlen_app. change (zlen (enc TTags [])) with 1. cbn [enc]. rewrite zlen_app, zlen_be, zlen_flat_map, sumz_map.
    pose proof (sumz_le _ _ l Hs). unfold tags_len. lia.
Qed.
Lemma createacls_rt zip corr client l v : 0 <= v <= 3 -> u32 corr -> wf_client client -> zlen l < 2 ^ 31 - 1 -> Forall acl_ok l ->
  reads_back zip corr v client (QCreateAcls l) decodeCreateAcls
    ((sent_header client (QCreateAcls l) v corr, []), (map (pt_seen v) l, [])).
Proof.
  intros Hv Hc Hcl Hl Ha. assert (Hv' : 0 <= v < 2 ^ 16) by lia.
  pose proof (sent_hdr_ok (QCreateAcls l) v corr client Hv' Hc Hcl) as Hh. unfold flex_of in Hh. cbn [api_key] in Hh. rewrite createacls_flex in Hh.
  assert (Hhd : forall f, f = (2 <=? v) -> read_header f 30 v corr client = sent_header client (QCreateAcls l) v corr).
  { intros f ->. unfold sent_header, read_header. rewrite ?keys. cbn [api_key]. rewrite createacls_flex. reflexivity. }
  assert (Hw : forall t (g : acl -> den t), (forall a, acl_ok a -> wf t (g a)) -> arr_wf t (map g l)).
  { intros t g H. split; [rewrite zlen_map; exact Hl|]. rewrite Forall_map. eapply Forall_impl; [|exact Ha]. exact H. }
  rewrite Forall_forall in Ha.
  assert (Hz8 : forall x, zlen (enc TI8 x) = 1) by reflexivity.
  assert (C : v = 0 \/ v = 1 \/ 2 <= v) by lia. destruct C as [->|[->|C]].
  - eexists. split; [apply (createacls_old zip corr client l 0 P_acl_0 acl_0); [lia|intros; apply W_acl_0|]|].
    + intros [rt [rn [pt [pr [ho [op pe]]]]]] _. unfold acl_0, P_acl_0, ca_len, tags_len. rewrite !enc_pair, !zlen_app, !Hz8.
      change (zlen (enc TTags [])) with 1. cbn [enc]. rewrite !zlen_app, !zlen_be. lia.
    + intros Hz. rewrite (createacls_read 30 0 corr client [] false P_acl_0 got_0 (map acl_0 l) []); [|intros; apply creation_0; assumption|exact Hh|apply Hw; exact acl_0_wf|exact no_tags|exact Hz].
      rewrite Hhd by reflexivity. rewrite map_map. erewrite map_ext; [reflexivity|]. intros [rt [rn [pt [pr [ho [op pe]]]]]]. reflexivity.
  - eexists. split; [apply (createacls_old zip corr client l 1 P_acl_1 acl_1); [lia|intros; apply W_acl_1; lia|]|].
    + intros [rt [rn [pt [pr [ho [op pe]]]]]] _. unfold acl_1, P_acl_1, ca_len, tags_len. rewrite !enc_pair, !zlen_app, !Hz8.
      change (zlen (enc TTags [])) with 1. cbn [enc]. rewrite !zlen_app, !zlen_be. lia.
    + intros Hz. rewrite (createacls_read 30 1 corr client [] false P_acl_1 got_1 (map acl_1 l) []); [|intros; apply creation_1; [lia|assumption]|exact Hh|apply Hw; exact acl_1_wf|exact no_tags|exact Hz].
      rewrite Hhd by reflexivity. rewrite map_map. erewrite map_ext; [reflexivity|]. intros [rt [rn [pt [pr [ho [op pe]]]]]]. reflexivity.
  - assert (E2 : (2 <=? v) = true) by lia. rewrite E2 in Hh. eexists. split.
    + apply (prepared zip corr client (QCreateAcls l) v (arr_enc true P_acl_2 (map acl_1 l) ++ enc TTags [])); [lia|].
      unfold flex_of. cbn [api_key]. rewrite createacls_flex, E2. cbn [encode_body].
      apply (enc_createacls_2 true (mkH None 30 v corr client) l eq_refl); [cbn; lia|].
      split; [|exact no_tags]. apply (Hw P_acl_2 acl_1). exact acl_2_wf.
    + unfold flex_of. cbn [api_key]. rewrite createacls_flex, E2. intros Hz.
      rewrite (createacls_read 30 v corr client [] true P_acl_2 got_1 (map acl_1 l) []); [|intros; apply creation_2; [lia|assumption]|exact Hh|apply (Hw P_acl_2); exact acl_2_wf|exact no_tags|exact Hz].
      rewrite Hhd by lia. rewrite map_map. erewrite map_ext; [reflexivity|]. intros [rt [rn [pt [pr [ho [op pe]]]]]]. unfold pt_seen. replace (1 <=? v) with true by lia. reflexivity.
Qed.

(** ** DescribeAcls *)
Definition aclf_ok (a : aclf) : Prop :=
  let '(rt, (rn, (pt, (pr, (ho, (op, pe)))))) := a in
  i8 rt /\ wf TNStr rn /\ i8 pt /\ wf TNStr pr /\ wf TNStr ho /\ i8 op /\ i8 pe.
Lemma nstr_cnstr s : wf TNStr s -> wf TCNStr s.
Proof. destruct s; exact (fun x => x). Qed.
Lemma describeacls_flex v : flexibleb 29 v = (2 <=? v).
Proof. unfold flexibleb, flexible_from. cbn [existsb fst snd Z.eqb Pos.eqb andb orb]. apply orb_false_r. Qed.
Definition ptf_seen (v : Z) (a : aclf) : aclf :=
  let '(rt, (rn, (pt, (pr, (ho, (op, pe)))))) := a in (rt, (rn, (if 1 <=? v then pt else 0, (pr, (ho, (op, pe)))))).
Definition QDescribe (a : aclf) : rbody := let '(rt, (rn, (pt, (pr, (ho, (op, pe)))))) := a in QDescribeAcls rt rn pt pr ho op pe.
Definition da_body (v : Z) (a : aclf) : bytes :=
  let '(rt, (rn, (pt, (pr, (ho, (op, pe)))))) := a in
  if 2 <=? v then enc P_DescribeAcls_2 (rt, (rn, (pt, (pr, (ho, (op, pe))))))
  else if 1 <=? v then enc S_DescribeAcls_1 (rt, (rn, (pt, (pr, (ho, (op, pe))))))
  else enc S_DescribeAcls_0 (rt, (rn, (pr, (ho, (op, pe))))).
Lemma describeacls_sent zip corr client a v : 0 <= v ->
  prepare zip corr v (new_request client (QDescribe a)) =
  Ok (sent (2 <=? v) 29 v corr client [] (da_body v a ++ [0]), (sent_header client (QDescribe a) v corr, QDescribe a)).
Proof.
  intros Hv. destruct a as [rt [rn [pt [pr [ho [op pe]]]]]]. cbn [QDescribe].
  rewrite <- describeacls_flex. apply (prepared zip corr client (QDescribeAcls rt rn pt pr ho op pe) v); [exact Hv|].
  unfold flex_of. cbn [api_key encode_body]. rewrite describeacls_flex. unfold enc_describeacls.
  set (h := mkH None 29 v corr client). rewrite wcut_ok by (rewrite hops_bytes, <- hlen_bytes; lia). rewrite hops_bytes. cbn [rbind].
  change (h_key h) with 29. change (h_ver h) with v. change (h_corr h) with corr. change (h_client h) with client.
  set (hb := header_bytes _ _ _ _ _). unfold frame. rewrite be4_uint.
  match goal with |- Ok (be 4 (zlen ?x) ++ ?x) = Ok (be 4 (zlen ?y) ++ ?y) => assert (E : x = y); [|rewrite E; reflexivity] end.
  apply f_equal. unfold da_body, P_DescribeAcls_2, S_DescribeAcls_1, S_DescribeAcls_0. rewrite !be1_uint.
  replace (v <? 2) with (negb (2 <=? v)) by lia. destruct (2 <=? v) eqn:E2; [|destruct (1 <=? v) eqn:E1]; cbn [negb].
  - replace (1 <=? v) with true by lia. rewrite !writeCompactNullableString_wire. rewrite !enc_pair, <- !app_assoc. reflexivity.
  - rewrite !encodeNullableString_enc, !enc_pair, <- !app_assoc. reflexivity.
  - rewrite !encodeNullableString_enc, !enc_pair, <- !app_assoc. reflexivity.
Qed.
Lemma describeacls_rt zip corr client a v : 0 <= v < 2 ^ 16 -> u32 corr -> wf_client client -> aclf_ok a ->
  reads_back zip corr v client (QDescribe a) (decodeDescribeAcls v) ((sent_header client (QDescribe a) v corr, []), ptf_seen v a).
Proof.
  intros Hv Hc Hcl Ha. eexists. split; [apply describeacls_sent; lia|]. intros Hz.
  assert (K : api_key (QDescribe a) = 29) by (destruct a as [rt [rn [pt [pr [ho [op pe]]]]]]; reflexivity).
  pose proof (sent_hdr_ok (QDescribe a) v corr client Hv Hc Hcl) as Hh. unfold flex_of in Hh. rewrite K, describeacls_flex in Hh.
  assert (Hhd : read_header (2 <=? v) 29 v corr client = sent_header client (QDescribe a) v corr).
  { unfold sent_header, read_header. rewrite ?keys. rewrite K, describeacls_flex. reflexivity. }
  rewrite <- Hhd. clear Hhd K. destruct a as [rt [rn [pt [pr [ho [op pe]]]]]]. destruct Ha as (A & B & C & D & E & F & G).
  apply nstr_cnstr in B as B'. apply nstr_cnstr in D as D'. apply nstr_cnstr in E as E'.
  unfold da_body, ptf_seen in *. destruct (2 <=? v) eqn:E2; [|destruct (1 <=? v) eqn:E1].
  - replace (1 <=? v) with true by lia. apply describeacls_read_2; [lia|exact Hh|unfold P_DescribeAcls_2; wfp|exact Hz].
  - assert (v = 1) as -> by lia. apply describeacls_read_1; [exact Hh|unfold S_DescribeAcls_1; wfp|exact Hz].
  - assert (v = 0) as -> by lia. apply (describeacls_read_0 29 0 corr client [] (rt, (rn, (pr, (ho, (op, pe)))))); [exact Hh|unfold S_DescribeAcls_0; wfp|exact Hz].
Qed.

(** ** DeleteAcls from version 2 on *)
Definition aclf_2 (a : aclf) : den P_aclf_2 := let '(rt, (rn, (pt, (pr, (ho, (op, pe)))))) := a in (rt, (rn, (pt, (pr, (ho, (op, (pe, []))))))).
Lemma aclf_2_wf a : aclf_ok a -> wf P_aclf_2 (aclf_2 a).
Proof.
  destruct a as [rt [rn [pt [pr [ho [op pe]]]]]]. intros (A & B & C & D & E & F & G). apply nstr_cnstr in B, D, E. unfold aclf_2, P_aclf_2. wfp.
Qed.
Lemma deleteacls_flex v : flexibleb 31 v = (2 <=? v).
Proof. unfold flexibleb, flexible_from. cbn [existsb fst snd Z.eqb Pos.eqb andb orb]. apply orb_false_r. Qed.
Lemma deleteacls_rt zip corr client l v : 2 <= v < 2 ^ 16 -> u32 corr -> wf_client client -> zlen l < 2 ^ 31 - 1 -> Forall aclf_ok l ->
  reads_back zip corr v client (QDeleteAcls l) decodeDeleteAcls
    ((sent_header client (QDeleteAcls l) v corr, []), Some (map (fun a => (a, [])) l)).
Proof.
  intros Hv Hc Hcl Hl Ha. set (b := QDeleteAcls l).
  pose proof (sent_hdr_ok b v corr client ltac:(lia) Hc Hcl) as Hh. assert (Hf : flex_of b v = true) by (unfold flex_of, b; cbn [api_key]; rewrite deleteacls_flex; lia).
  assert (Hw : wf (TCArr P_aclf_2) (map aclf_2 l)).
  { split; [rewrite zlen_map; exact Hl|]. rewrite Forall_map. eapply Forall_impl; [|exact Ha]. exact aclf_2_wf. }
  rewrite Hf in Hh. eexists. split.
  - apply (prepared zip corr client b v (enc (TCArr P_aclf_2) (map aclf_2 l) ++ enc TTags [])); [lia|]. rewrite Hf. cbn [encode_body b].
    apply (enc_deleteacls_2 true (mkH None 31 v corr client) l eq_refl); [cbn; lia|]. exact (conj Hw no_tags).
  - rewrite Hf. intros Hz. rewrite deleteacls_read; [|lia|exact Hh|exact Hw|exact Hz]. unfold sent_header, read_header. change (kafka_key b) with (api_key b). unfold flex_of in Hf. rewrite Hf.
    rewrite map_map. erewrite map_ext; [reflexivity|]. intros [rt [rn [pt [pr [ho [op pe]]]]]]. reflexivity.
Qed.

(** ** IncrementalAlterConfigs *)
Definition ires_of (r : Z * (bytes * list icfg)) : Prop :=
  0 <= fst r < 256 /\ zlen (fst (snd r)) < 2 ^ 15 /\ zlen (snd (snd r)) < 2 ^ 31 - 1 /\
  Forall (fun c : icfg => zlen (fst c) < 2 ^ 15 /\ i8 (fst (snd c)) /\ zlen (snd (snd c)) < 2 ^ 15) (snd (snd r)).
Lemma incremental_rt zip corr client rs bb v : 0 <= v < 2 ^ 16 -> u32 corr -> wf_client client -> zlen rs < 2 ^ 31 -> Forall ires_of rs ->
  reads_back zip corr v client (QIncrementalAlterConfigs rs bb) decodeIncremental
    ((sent_header client (QIncrementalAlterConfigs rs bb) v corr, []), (rs, bb)).
Proof.
  intros Hv Hc Hcl Hl Hr. set (b := QIncrementalAlterConfigs rs bb). pose proof (sent_hdr_ok b v corr client Hv Hc Hcl) as Hh.
  set (x := map (fun r : Z * (bytes * list icfg) => (fst r, (fst (snd r), map (fun c : icfg => (fst c, (fst (snd c), Some (snd (snd c))))) (snd (snd r))))) rs).
  assert (Ex : enc S_IncrementalAlterConfigs_0 (x, bb) = enc (TArr P_ires *** TBool) (rs, bb)).
  { unfold S_IncrementalAlterConfigs_0. rewrite !enc_pair. apply (f_equal (fun z => z ++ _)). unfold x. cbn [enc]. rewrite zlen_map, flat_map_map. apply f_equal.
    apply flat_map_ext_in. intros [rt [rn es]] _. cbn [fst snd]. unfold P_ires. rewrite enc_pair. apply f_equal. rewrite enc_pair. apply f_equal.
    cbn [enc]. rewrite zlen_map, flat_map_map. apply f_equal. reflexivity. }
  eexists. split.
  - apply (prepared zip corr client b v (enc S_IncrementalAlterConfigs_0 (x, bb))); [lia|]. cbn [encode_body b].
    apply (enc_incremental_0 (flex_of b v) (mkH None 44 v corr client) rs bb).
  - intros Hz. rewrite Ex, <- (app_nil_r (enc (TArr P_ires *** TBool) (rs, bb))). rewrite incremental_read; [reflexivity|exact Hh|exact Hl|].
    eapply Forall_impl; [|exact Hr]. intros [rt [rn es]] (A & B & C & D). cbn [fst snd] in *. split; [exact A|]. split; [exact B|]. split; [exact C|].
    eapply Forall_impl; [|exact D]. intros [n [o w]] (E & F & G). unfold P_icfg. wfp.
Qed.

(** ** Metadata, topics given *)
Lemma metadata_rt zip corr client ts bb v : 0 <= v < 2 ^ 16 -> u32 corr -> wf_client client -> zlen ts < 2 ^ 31 - 1 -> Forall (fun t => zlen t < 2 ^ 15) ts ->
  reads_back zip corr v client (QMetadata (Some ts) bb) decodeMetadata
    ((sent_header client (QMetadata (Some ts) bb) v corr, []), (ts, if 4 <=? v then bb else false)).
Proof.
  intros Hv Hc Hcl Hl Hr. set (b := QMetadata (Some ts) bb). pose proof (sent_hdr_ok b v corr client Hv Hc Hcl) as Hh.
  eexists. split.
  - apply (prepared zip corr client b v (enc (TArr TStr) ts ++ (if 4 <=? v then enc TBool bb else []) ++ [])); [lia|]. cbn [encode_body b]. rewrite app_nil_r.
    change (api_key (QMetadata (Some ts) bb)) with 3. change (api_key b) with 3. destruct (4 <=? v) eqn:E4.
    + apply (enc_metadata_4 (flex_of b v) (mkH None 3 v corr client) v (Some ts) bb). lia.
    + rewrite app_nil_r. etransitivity; [|exact (enc_metadata_1 (flex_of b v) (mkH None 3 v corr client) (Some ts) bb)]. unfold enc_metadata. rewrite E4. reflexivity.
  - intros Hz. rewrite metadata_read; [reflexivity|exact Hh|exact (conj Hl Hr)|exact Hz].
Qed.

(** ** The header of any request *)
Lemma header_rt zip corr v client b out r' : 0 <= v < 2 ^ 16 -> u32 corr -> wf_client client ->
  prepare zip corr v (new_request client b) = Ok (out, r') ->
  exists body, skipn 4 out = header_bytes (flexibleb (api_key b) v) (api_key b) v corr client ++ body /\
               decodeRequestHeader (skipn 4 out) = Ok ((sent_header client b v corr, []), body).
Proof.
  intros Hv Hc Hcl H. destruct (prepare_ok _ _ _ _ _ _ _ (proj1 Hv) H) as [body ->]. exists body.
  assert (E : skipn 4 (frame (header_bytes (flexibleb (api_key b) v) (api_key b) v corr client ++ body)) =
              header_bytes (flexibleb (api_key b) v) (api_key b) v corr client ++ body) by reflexivity.
  rewrite E. split; [reflexivity|]. rewrite <- hdr_nil.
  destruct (sent_hdr_ok b v corr client Hv Hc Hcl) as (H1 & H2 & H3 & H4 & H5 & H6 & H7). rewrite header_read; [reflexivity|assumption..].
Qed.
