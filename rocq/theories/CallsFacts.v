(** Proofs about the calls. *)
From Coq Require Import Permutation ListDec.
From Verif Require Import Base BaseFacts Wire WireFacts Prims Records Requests RequestSpec RequestFacts RequestBodies RequestFlex RequestPrep
  Builders BuildersSpec BuildersFacts Names NamesFacts Calls CallsSpec.

Lemma map_keys_once pids : each_once (map_keys pids) pids.
Proof.
  unfold map_keys, each_once. induction pids as [|q pids IH] using rev_ind; [split; [constructor|tauto]|].
  rewrite fold_left_app. cbn [fold_left]. destruct IH as [N I]. split; [apply add_pid_nodup, N|].
  intros p. rewrite add_pid_in, in_app_iff, I. cbn [In]. intuition.
Qed.
Lemma ord_once (ord : list Z -> list Z) pids : (forall l, Permutation (ord l) l) -> each_once (ord (map_keys pids)) pids.
Proof.
  intros P. destruct (map_keys_once pids) as [N I]. split; [exact (Permutation_NoDup (Permutation_sym (P _)) N)|].
  intros p. rewrite <- I. split; apply Permutation_in; [apply P|apply Permutation_sym, P].
Qed.

Lemma logdirs_run tps : forall h ts,
  fold_left logdirs_add tps (h, QDescribeLogDirs ts) = (h, QDescribeLogDirs (fold_left (fun r a => ld_add r (fst a) (snd a)) tps ts)).
Proof. induction tps as [|a tps IH]; intros h ts; cbn [fold_left]; [reflexivity|]. unfold logdirs_add at 2. cbn [snd fst]. apply IH. Qed.
Lemma elect_run to tps : forall h ts,
  fold_left elect_add tps (h, QElectLeaders ts to) = (h, QElectLeaders (fold_left (fun r a => el_add r (fst a) (snd a)) tps ts) to).
Proof. induction tps as [|a tps IH]; intros h ts; cbn [fold_left]; [reflexivity|]. unfold elect_add at 2. cbn [snd fst]. apply IH. Qed.
Lemma reassign_run to l : forall h ts,
  fold_left reassign_add l (h, QAlterPartitionReassignments to ts) =
  (h, QAlterPartitionReassignments to (fold_left (fun r a => ar_add r (fst a) (fst (snd a)) (snd (snd a))) l ts)).
Proof. induction l as [|a l IH]; intros h ts; cbn [fold_left]; [reflexivity|]. unfold reassign_add at 2. cbn [snd fst]. apply IH. Qed.
Lemma listing_run to tps : forall h ts,
  fold_left listing_add tps (h, QListPartitionReassignments to (Some ts)) =
  (h, QListPartitionReassignments to (Some (fold_left (fun r a => lr_add r (fst a) (snd a)) tps ts))).
Proof. induction tps as [|a tps IH]; intros h ts; cbn [fold_left]; [reflexivity|]. unfold listing_add at 2. cbn [snd fst olist]. apply IH. Qed.

Lemma by_topic_size tps ts : by_topic tps ts -> zlen ts <= zlen tps /\ Forall (fun x => zlen (snd x) <= zlen tps) ts.
Proof.
  intros [[N F] I]. unfold zlen. split.
  - assert (L : (length (map fst ts) <= length (map fst tps))%nat).
    { apply NoDup_incl_length; [exact N|]. intros t Ht. apply in_map_iff in Ht as [[t' ps] [<- Hin]]. cbn [fst].
      rewrite Forall_forall in F. destruct (F _ Hin) as [E _]. cbn [snd] in E. destruct ps as [|p ps]; [congruence|].
      apply (in_map fst tps (t', p)). apply I. exists (p :: ps). split; [exact Hin|left; reflexivity]. }
    rewrite !map_length in L. lia.
  - rewrite Forall_forall in F |- *. intros [t ps] Hin. destruct (F _ Hin) as [_ D]. cbn [snd] in *.
    assert (L : (length ps <= length (map snd tps))%nat).
    { apply NoDup_incl_length; [exact D|]. intros p Hp. apply (in_map snd tps (t, p)). apply I. exists ps. auto. }
    rewrite map_length in L. lia.
Qed.

Lemma add_topics_ok ts n rf : forall h done to, NoDup (map fst done ++ ts) ->
  add_topics ts n rf (h, QCreateTopics done to) = Some (h, QCreateTopics (done ++ map (fun t => (t, (n, (rf, ([], []))))) ts) to).
Proof.
  induction ts as [|t ts IH]; intros h done to N; cbn [add_topics map]; [rewrite app_nil_r; reflexivity|].
  unfold topic_add, ct_add. cbn [snd fst].
  assert (E : existsb (fun x : bytes * (Z * (Z * (list (Z * list Z) * list (bytes * bytes)))) => beqb (fst x) t) done = false).
  { apply not_true_iff_false. rewrite existsb_exists. intros [x [Hx E]]. apply beqb_true in E. subst t.
    apply NoDup_remove_2 in N. apply N. apply in_or_app. left. apply in_map. exact Hx. }
  rewrite E. rewrite IH; [rewrite <- app_assoc; reflexivity|]. rewrite map_app. cbn [map fst]. rewrite <- app_assoc. exact N.
Qed.

(** prepare does not see the version the header was made with *)
Lemma prepare_version zip corr v ver client b :
  prepare zip corr v (new_header (api_key b) ver client, b) = prepare zip corr v (new_request client b).
Proof. reflexivity. Qed.

Lemma wf_sint32 z : wf TI32 z -> sint 32 z = z.
Proof. intros H. apply sint_id; [lia|exact H]. Qed.

Ltac fold_out W := repeat match goal with
  | H : _ /\ _ |- _ => destruct H
  | H : Forall _ (_ :: _) |- _ => apply Forall_inv in H; cbn in H
  end; assumption.
Ltac vers v := destruct v as [|q|q]; [|do 4 (try destruct q as [q|q|])|]; cbn [says] in *; try contradiction.
Ltac give := eexists _, _, _; split; [reflexivity|]; split; [reflexivity|]; split; [reflexivity|]; split; [reflexivity|].
Lemma call_value ord client c v : (forall l, Permutation (ord l) l) -> call_limits c v -> (exists x, says c v x) ->
  (forall x, says c v x -> val_wf x) ->
  exists b ver x, let cl := if sends_client c then Some client else None in
    call_request ord client c = Some (new_header (call_key c) ver cl, b) /\
    api_key b = call_key c /\ kafka_key b = call_key c /\ request_value b v = Some x /\ says c v x /\ fits cl b v.
Proof.
  intros P L [x0 S0] W. cbv zeta.
  destruct c; cbn [call_limits call_request sends_client call_key] in *.
  all: try (vers v; give; split; [reflexivity|]; cbn [fits olist]; auto; fail).
  - vers v; give; (split; [reflexivity|]); cbn [fits olist]; split; constructor.
  - vers v; give; (split; [reflexivity|]); exact I.
  - vers v; give; (split; [eexists; split; [exact (ord_once ord pids P)|]; cbn [map fst snd]; rewrite ?map_map; reflexivity|]); cbn [fits]; discriminate.
  - vers v; (assert (E : sint 32 (0 + maxbytes) = maxbytes)
      by (apply wf_sint32; specialize (W _ eq_refl); cbn in W; fold_out W));
    give; rewrite E; (split; [reflexivity|]); cbn [fits snd]; repeat constructor; reflexivity.
  - vers v; give; (split; [reflexivity|]); exact I.
  - assert (E : (if storage =? 0 then Some (fetch_add topic pid (NewOffsetFetchRequest 0 client group))
        else if storage =? 1 then Some (fetch_add topic pid (NewOffsetFetchRequest 1 client group)) else None) =
        Some (new_header 9 storage (Some client), QOffsetFetch group [(topic, [pid])])) by (destruct L as [->| ->]; reflexivity).
    rewrite E. vers v; give; (split; [reflexivity|]); exact I.
  - destruct as_member as [[n m]|]; vers v; give; (split; [reflexivity|]); exact I.
  - vers v. unfold NewCreateTopicsRequest. rewrite add_topics_ok by exact L. give. split; [|exact I].
    cbn [app]. rewrite map_map. reflexivity.
  - vers v;
    (assert (E : sint 32 timeout = timeout) by (apply wf_sint32; specialize (W _ eq_refl); cbn in W; fold_out W));
    cbn [Z.eqb] in L; give; cbn [app fits Z.eqb snd]; rewrite E; (split; [reflexivity|]).
    + constructor; [exact L|constructor].
    + constructor; [|constructor]. cbn [snd]. destruct asg as [l|]; cbn [olist]; [exact (L l eq_refl)|split; [reflexivity|constructor]].
  - vers v; give; (split; [reflexivity|]); cbn [fits]; lia.
  - vers v; give; (split; [reflexivity|]); exact I.
  - vers v. unfold NewDescribeLogDirsRequest. cbn [map]. rewrite logdirs_run. give. split; [|exact I].
    eexists. split; [exact (pid_ok tps)|reflexivity].
  - vers v. unfold NewElectLeadersRequest. rewrite elect_run. give. split; [|exact I].
    eexists. split; [exact (kept_ok tps)|reflexivity].
  - vers v. unfold NewAlterPartitionReassignmentsRequest. rewrite reassign_run. give. split; [|exact I].
    eexists. split; [exact (ar_ok asgs)|reflexivity].
  - destruct tps as [|a tps]; [vers v; give; (split; [reflexivity|]); cbn [fits olist]; split; [reflexivity|constructor]|].
    vers v. cbn [fold_left]. unfold NewListPartitionReassignmentsRequest, listing_add at 2. cbn [snd fst olist]. rewrite listing_run. give.
    assert (B : by_topic (a :: tps) (fold_left (fun r a => lr_add r (fst a) (snd a)) tps (lr_add [] (fst a) (snd a)))) by exact (pid_ok (a :: tps)).
    split; [eexists; split; [exact B|reflexivity]|]. cbn [fits olist]. apply by_topic_size in B as [B1 B2]. split; [lia|].
    eapply Forall_impl; [|exact B2]. cbn beta. intros; lia.
  - vers v; give; (split; [reflexivity|]); exact I.
  - vers v. assert (E : newSaslAuthenticate user password mechanism = Some (QSaslAuthenticate ([0] ++ user ++ [0] ++ password))).
    { unfold newSaslAuthenticate, lower. rewrite L, plain_bytes. reflexivity. }
    rewrite E. give. split; [reflexivity|exact I].
Qed.

Lemma call_sent zip ord client c v corr rest : (forall l, Permutation (ord l) l) -> call_limits c v -> (exists x, says c v x) ->
  (forall x, says c v x -> val_wf x /\ zlen (val_bytes x) + zlen client + 15 < 2 ^ 31) ->
  i16 v -> i32 corr -> zlen client < 2 ^ 15 ->
  exists r out r' x, call_request ord client c = Some r /\ prepare zip corr v r = Ok (out, r') /\ says c v x /\
    broker_reads (call_key c) v (projT1 x) (out ++ rest) =
    Some (zlen out - 4, (call_key c, v, corr, if sends_client c then Some client else None), projT2 x, rest).
Proof.
  intros P L S W Hv Hc Hcl. destruct (call_value ord client c v P L S (fun x Hx => proj1 (W x Hx))) as (b & ver & x & E & Ka & Kk & Rv & Sx & F).
  cbv zeta in *. set (cl := if sends_client c then Some client else None) in *. destruct (W x Sx) as [Wx Sz].
  exists (new_header (call_key c) ver cl, b), (request_bytes b v corr cl x), (sent_header cl b v corr, b), x.
  split; [exact E|]. rewrite <- Ka, prepare_version. split; [exact (prepare_value zip corr cl b v x Rv Wx F)|]. split; [exact Sx|].
  rewrite Ka, <- Kk. apply broker_reads_request; try assumption.
  - unfold cl. destruct (sends_client c); cbn [wf_client]; [exact Hcl|exact I].
  - assert (H31 : 2 ^ 31 = 2147483648) by reflexivity.
    assert (Hh : zlen (header_bytes (flexibleb (kafka_key b) v) (kafka_key b) v corr cl) <= 11 + zlen client).
    { unfold header_bytes. pose proof (zlen_nonneg client). destruct (flexibleb (kafka_key b) v); unfold Header1, Header2;
        rewrite !zs_pair, !zs_i16, !zs_i32, zs_nstr, ?zs_tags; unfold cl; destruct (sends_client c); cbn [olen]; lia. }
    unfold request_bytes, frame. rewrite !zlen_app, zlen_be. lia.
Qed.

Lemma add_topics_none ts n rf : forall h done to, NoDup (map fst done) -> ~ NoDup (map fst done ++ ts) ->
  add_topics ts n rf (h, QCreateTopics done to) = None.
Proof.
  induction ts as [|t ts IH]; intros h done to N D; cbn [add_topics]; [rewrite app_nil_r in D; contradiction|].
  unfold topic_add, ct_add. cbn [snd fst].
  destruct (existsb (fun x : bytes * (Z * (Z * (list (Z * list Z) * list (bytes * bytes)))) => beqb (fst x) t) done) eqn:E; [reflexivity|].
  assert (Nt : ~ In t (map fst done)).
  { intros Ht. apply in_map_iff in Ht as [y [<- Hy]]. apply not_true_iff_false in E. apply E. rewrite existsb_exists. exists y.
    split; [exact Hy|apply beqb_refl]. }
  apply IH; rewrite map_app; cbn [map fst].
  - apply (Permutation_NoDup (Permutation_cons_append (map fst done) t)). constructor; assumption.
  - rewrite <- app_assoc. exact D.
Qed.

Lemma call_refused ord client c : call_request ord client c = None <-> refused c.
Proof.
  destruct c; cbn [call_request refused]; try (split; [discriminate|contradiction]).
  - destruct (storage =? 0) eqn:E0; [apply Z.eqb_eq in E0; split; [discriminate|lia]|].
    destruct (storage =? 1) eqn:E1; [apply Z.eqb_eq in E1; split; [discriminate|lia]|].
    apply Z.eqb_neq in E0. apply Z.eqb_neq in E1. tauto.
  - destruct (ListDec.NoDup_dec (list_eq_dec Z.eq_dec) topics) as [N|N].
    + unfold NewCreateTopicsRequest. rewrite add_topics_ok by exact N. split; [discriminate|contradiction].
    + split; [intros _; exact N|intros _; apply add_topics_none; [constructor|exact N]].
  - unfold newSaslAuthenticate, lower. set (m := map _ mechanism).
    destruct (beqb m [112; 108; 97; 105; 110]) eqn:E; [apply beqb_true in E|apply beqb_false in E]; cbv iota; split; congruence.
Qed.

Lemma call_no_client zip ord client c v corr rest : (forall l, Permutation (ord l) l) -> sends_client c = false -> v = 0 ->
  (forall x, says c v x -> val_wf x /\ zlen (val_bytes x) + zlen client + 15 < 2 ^ 31) -> i32 corr -> zlen client < 2 ^ 15 ->
  exists r out r' x, call_request ord client c = Some r /\ prepare zip corr v r = Ok (out, r') /\ says c v x /\
    broker_reads (call_key c) v (projT1 x) (out ++ rest) = Some (zlen out - 4, (call_key c, v, corr, None), projT2 x, rest).
Proof.
  intros P Hs -> W Hc Hcl.
  assert (S : call_limits c 0 /\ exists x, says c 0 x).
  { destruct c; try discriminate Hs; (split; [exact I|]); cbn [says].
    - eexists _, _. split; [exact (kept_ok tps)|reflexivity].
    - eexists _, _. split; [exact (ar_ok asgs)|reflexivity]. }
  destruct S as [L S]. pose proof (call_sent zip ord client c 0 corr rest P L S W ltac:(unfold i16; lia) Hc Hcl) as H.
  rewrite Hs in H. exact H.
Qed.

Lemma call_no_assignment zip (ord : list Z -> list Z) client topic n timeout validate corr rest :
  zlen topic < 2 ^ 15 -> i32 n -> 0 <= timeout < 2 ^ 31 -> i32 corr -> zlen client < 2 ^ 15 ->
  exists r out r', call_request ord client (CKCreatePartitions topic n None timeout validate) = Some r /\
    prepare zip corr 0 r = Ok (out, r') /\
    broker_reads 37 0 S_CreatePartitions_0 (out ++ rest) =
    Some (zlen out - 4, (37, 0, corr, Some client), ([(topic, (n, Some []))], (timeout, validate)), rest).
Proof.
  intros Ht Hn Hto Hc Hcl.
  assert (H15 : 2 ^ 15 = 32768) by reflexivity. assert (H31 : 2 ^ 31 = 2147483648) by reflexivity.
  destruct (call_sent zip (fun l => l) client (CKCreatePartitions topic n (Some []) timeout validate) 0 corr rest) as (r & out & r' & x & E & Ep & S & B);
    try assumption.
  - intros l. apply Permutation_refl.
  - cbn. discriminate.
  - eexists. reflexivity.
  - intros x ->. split.
    + cbn. unfold i32 in *. repeat split; try (constructor; [|constructor]); cbn; try lia. repeat split; try lia. constructor.
    + unfold val_bytes, S_CreatePartitions_0. cbn [projT1 projT2 V]. rewrite !zs_pair, zs_i32, zs_bool, zs_arr. cbn [sumz].
      rewrite !zs_pair, zs_str, zs_i32, zs_narr. cbn [sumz olist]. lia.
  - unfold i16. lia.
  - cbn [says] in S. subst x. cbn [projT1 projT2 V sends_client call_key] in B.
    cbn [call_request] in E. apply Some_inj in E.
    assert (Hs : sint 32 timeout = timeout) by (apply sint_id; cbn; lia).
    assert (Er : r = (new_header 37 0 (Some client), QCreatePartitions [(topic, (n, Some []))] timeout validate)).
    { rewrite <- E. unfold NewCreatePartitionsRequest. rewrite Hs. reflexivity. }
    rewrite Er in Ep. clear E Er r.
    exists (new_header 37 0 (Some client), QCreatePartitions [(topic, (n, None))] timeout validate), out.
    revert Ep. unfold prepare, new_header, encode. cbn [h_hv h_key h_ver h_client].
    change (headerVersion (mkH None 37 0 corr (Some client))) with (@Ok Z 1). cbn [rbind]. cbn [encode_body].
    change (enc_createpartitions 1 (mkH None 37 0 corr (Some client)) 0 [(topic, (n, Some []))] timeout validate)
      with (enc_createpartitions 1 (mkH None 37 0 corr (Some client)) 0 [(topic, (n, None))] timeout validate).
    destruct (enc_createpartitions 1 (mkH None 37 0 corr (Some client)) 0 [(topic, (n, None))] timeout validate) as [w| | |]; cbn [rbind fst snd]; try discriminate.
    intros Ep. injection Ep as -> _. eexists. split; [|split; [reflexivity|exact B]].
    unfold NewCreatePartitionsRequest, call_request, NewCreatePartitionsRequest. rewrite Hs. reflexivity.
Qed.

Lemma call_timeout zip (ord : list Z -> list Z) client topic n rf timeout corr rest :
  zlen topic < 2 ^ 15 -> i32 n -> i16 rf -> 2 ^ 31 <= timeout < 2 ^ 32 -> i32 corr -> zlen client < 2 ^ 15 ->
  exists r out r', call_request ord client (CKCreateTopics [topic] n rf timeout) = Some r /\
    prepare zip corr 0 r = Ok (out, r') /\
    broker_reads 19 0 S_CreateTopics_0 (out ++ rest) =
    Some (zlen out - 4, (19, 0, corr, Some client), ([(topic, (n, (rf, ([], []))))], timeout - 2 ^ 32), rest).
Proof.
  intros Ht Hn Hrf Hto Hc Hcl.
  assert (H15 : 2 ^ 15 = 32768) by reflexivity. assert (H31 : 2 ^ 31 = 2147483648) by reflexivity.
  assert (H32 : 2 ^ 32 = 4294967296) by reflexivity.
  destruct (call_sent zip (fun l => l) client (CKCreateTopics [topic] n rf (timeout - 2 ^ 32)) 0 corr rest) as (r & out & r' & x & E & Ep & S & B);
    try assumption.
  - intros l. apply Permutation_refl.
  - constructor; [intros []|constructor].
  - eexists. reflexivity.
  - intros x ->. split.
    + cbn. unfold i32, i16 in *. repeat split; try (constructor; [|constructor]); cbn; try lia. repeat split; try lia; constructor.
    + unfold val_bytes, S_CreateTopics_0. cbn [projT1 projT2 V map]. rewrite zs_pair, zs_i32, zs_arr. cbn [sumz].
      rewrite !zs_pair, zs_str, zs_i32, zs_i16, !zs_arr. cbn [sumz]. lia.
  - unfold i16. lia.
  - cbn [says] in S. subst x. cbn [projT1 projT2 V sends_client call_key map] in B.
    apply Some_inj in E. assert (Er : r = (new_header 19 0 (Some client), QCreateTopics [(topic, (n, (rf, ([], []))))] (timeout - 2 ^ 32))) by (rewrite <- E; reflexivity).
    rewrite Er in Ep. clear E Er r.
    exists (new_header 19 0 (Some client), QCreateTopics [(topic, (n, (rf, ([], []))))] timeout), out.
    revert Ep. unfold prepare, new_header, encode. cbn [h_hv h_key h_ver h_client].
    change (headerVersion (mkH None 19 0 corr (Some client))) with (@Ok Z 1). cbn [rbind]. cbn [encode_body].
    assert (Ee : forall ts, enc_createtopics 1 (mkH None 19 0 corr (Some client)) ts (timeout - 2 ^ 32) =
                 enc_createtopics 1 (mkH None 19 0 corr (Some client)) ts timeout).
    { intros ts. unfold enc_createtopics. replace (p32 (timeout - 2 ^ 32)) with (p32 timeout); [reflexivity|].
      unfold p32, uint. do 2 f_equal. rewrite <- (Z.mod_add (timeout - 2 ^ 32) 1 (2 ^ 32)) by lia. f_equal. lia. }
    cbn [app]. rewrite Ee.
    destruct (enc_createtopics 1 (mkH None 19 0 corr (Some client)) [(topic, (n, (rf, ([], []))))] timeout) as [w| | |]; cbn [rbind fst snd]; try discriminate.
    intros Ep. injection Ep as -> _. eexists. split; [reflexivity|split; [reflexivity|exact B]].
Qed.
