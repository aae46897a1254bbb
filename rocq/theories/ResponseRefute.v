(** Responses the client gets wrong. *)
From Verif Require Import Base BaseFacts Wire WireFacts Prims PrimsFacts Group GroupFacts Assign RequestSpec Responses ResponseSpec ResponseFacts ResponseDecode ResponseDecode2 ResponseDecode3 ResponseDecode4.
Local Open Scope ty_scope.

Ltac wfc := apply wfb_ok; vm_compute; reflexivity.

(** ** Metadata *)
Definition ex_metadata (cl : option bytes) : den R_Metadata_4 := (0, ([(1, ([104], (9092, None)))], (cl, (1, [])))).
Lemma cluster_wrong : exists cl r, wf R_Metadata_4 (ex_metadata (Some cl)) /\
  answer 3 4 (response_bytes 3 4 7 [] (enc R_Metadata_4 (ex_metadata (Some cl)))) = Ok r /\
  r = RMetadata 7 0 [(1, ([104], (9092, [])))] [0; 4; 65; 66] 1 [] /\ cl = [65; 66; 67; 68].
Proof. exists [65; 66; 67; 68]. eexists. split; [wfc|]. split; [vm_compute; reflexivity|]. split; reflexivity. Qed.
Lemma cluster_null : wf R_Metadata_4 (ex_metadata None) /\
  answer 3 4 (response_bytes 3 4 7 [] (enc R_Metadata_4 (ex_metadata None))) = Panic.
Proof. split; [wfc|vm_compute; reflexivity]. Qed.
(** whatever the cluster id is: the client takes the bytes from two positions too early *)
Lemma cluster_bytes cl r : zlen cl < 2 ^ 15 -> exists s, rd_cluster (enc TNStr (Some cl) ++ r) = Ok (firstn (length cl) (be 2 (zlen cl) ++ cl), s) /\ s = r.
Proof.
  intros H. destruct (cluster_e (Some cl) r H ltac:(congruence)) as [c E]. exists r. split; [|reflexivity]. rewrite E. do 2 f_equal.
  revert E. unfold rd_cluster. cbn [enc]. pose proof (zlen_nonneg cl). pose proof p15_16. rewrite <- app_assoc. rewrite rd_u16_be by (unfold u16; lia).
  assert (B : rd_bytes (zlen cl) (be 2 (zlen cl) ++ cl ++ r) = Ok (firstn (length cl) (be 2 (zlen cl) ++ cl ++ r), skipn (length cl) (be 2 (zlen cl) ++ cl ++ r))).
  { assert (L : zlen (firstn (length cl) (be 2 (zlen cl) ++ cl ++ r)) = zlen cl).
    { unfold zlen. rewrite firstn_length_le; [reflexivity|]. rewrite !app_length. lia. }
    rewrite <- L at 1. rewrite <- (firstn_skipn (length cl) (be 2 (zlen cl) ++ cl ++ r)) at 2. apply rd_bytes_app. }
  rewrite B. intros E.
  destruct (rd_skip (2 + Z.to_nat (zlen cl)) (be 2 (zlen cl) ++ cl ++ r)) as [[? ?]| | |]; try discriminate.
  assert (Ec : c = firstn (length cl) (be 2 (zlen cl) ++ cl ++ r)) by congruence. rewrite Ec, app_assoc, firstn_app.
  replace (length cl - length (be 2 (zlen cl) ++ cl))%nat with O by (rewrite app_length; lia). cbn [firstn]. rewrite app_nil_r. reflexivity.
Qed.

(** ** Errors that are lost *)
Lemma sasl_lost v ec (ms : list bytes) corr : rflexible 17 v = false -> wf R_SaslHandshake_0 (ec, ms) -> zlen ms < 2 ^ 16 -> u32 corr ->
  zlen (response_bytes 17 v corr [] (enc R_SaslHandshake_0 (ec, ms))) < 2 ^ 31 ->
  answer 17 v (response_bytes 17 v corr [] (enc R_SaslHandshake_0 (ec, ms))) = Ok (RSaslHandshake corr 0 ms).
Proof.
  intros Hv [H1 H2] Hl Hc. rewrite bytes_plain by exact Hv. intros Hsz. unfold answer. cbn [fst snd parse] in *. pose proof (zlen_nonneg ms).
  unfold dec_saslhandshake. rewrite whole_eq by (apply size_of; exact Hsz). unfold R_SaslHandshake_0. spread. step1.
  assert (P : exists w, rd_peek 4 (enc TI16 ec ++ enc (TArr TStr) ms ++ []) = Ok (w, enc TI16 ec ++ enc (TArr TStr) ms ++ []) /\ sint 16 w = 0).
  { cbn [enc]. unfold rd_peek, rd_u. cbn [be app length Nat.leb firstn unbe fold_left Nat.add].
    eexists. split; [reflexivity|]. change (Z.of_nat 3) with 3. change (Z.of_nat 2) with 2. change (Z.of_nat 1) with 1. change (Z.of_nat 0) with 0.
    change (256 ^ 3) with 16777216. change (256 ^ 2) with 65536. change (256 ^ 1) with 256. change (256 ^ 0) with 1. change (2 ^ 16) with 65536 in *.
    cbn [den] in *. rewrite (Z.div_small (zlen ms) 16777216), (Z.div_small (zlen ms) 65536) by lia.
    unfold sint. change (2 ^ 16) with 65536. change (2 ^ (16 - 1)) with 32768.
    match goal with |- context [?a mod 65536] => replace (a mod 65536) with 0; [reflexivity|] end.
    change (0 mod 256) with 0. match goal with |- 0 = ((((_ + ?a) * 256 + ?b) * 256 + 0) * 256 + 0) mod 65536 => generalize a b; intros p q end.
    symmetry. replace ((((0 * 256 + p) * 256 + q) * 256 + 0) * 256 + 0) with ((p * 256 + q) * 65536) by lia. apply Z.mod_mul. lia. }
  destruct P as [w [P Pw]].
  rewrite (bind_ok _ _ _ _ _ P). erewrite bind_ok by reflexivity.
  match goal with |- context [bind _ _ ?s] => change s with (enc (TArr TStr) ms ++ []) end.
  erewrite bind_ok by (apply (arr_e TStr _ (fun a : bytes => a)); [exact str_e|exact H2]). rewrite map_id, Pw. reflexivity.
Qed.
Lemma listgroups_lost corr ht th ec gs t : response_error (RListGroups corr ht th ec gs t) = Ok None.
Proof. reflexivity. Qed.
Lemma listgroups_ex : wf R_ListGroups_0 (15, []) /\ exists r, answer 16 0 (response_bytes 16 0 7 [] (enc R_ListGroups_0 (15, []))) = Ok r.
Proof. split; [wfc|]. eexists. vm_compute. reflexivity. Qed.
Lemma createacls_ex : wf R_CreateAcls_0 (0, [(31, Some [110; 111])]) /\
  answer 30 0 (response_bytes 30 0 7 [] (enc R_CreateAcls_0 (0, [(31, Some [110; 111])]))) = Ok (RCreateAcls 7 [] (Some []) []).
Proof. split; [wfc|]. vm_compute. reflexivity. Qed.
Definition ex_createacls_2 : den R_CreateAcls_2 := (0, ([(31, (Some [110; 111], []))], [])).
Lemma createacls2_ex : wf R_CreateAcls_2 ex_createacls_2 /\
  answer 30 2 (response_bytes 30 2 7 [] (enc R_CreateAcls_2 ex_createacls_2)) = Ok (RCreateAcls 7 [] None []).
Proof. split; [wfc|]. vm_compute. reflexivity. Qed.
Definition ex_listreassign : den R_ListReassignments_0 := (0, (41, (None, ([], [])))).
Lemma listreassign_ex : wf R_ListReassignments_0 ex_listreassign /\
  answer 46 0 (response_bytes 46 0 7 [] (enc R_ListReassignments_0 ex_listreassign)) = Ok (RListReassignments 7 0 0 None []).
Proof. split; [wfc|]. vm_compute. reflexivity. Qed.

(** ** Crashes on valid responses *)
Definition ex_createpartitions : den R_CreatePartitions_0 := (0, [([116], (37, None))]).
Lemma createpartitions_ex : wf R_CreatePartitions_0 ex_createpartitions /\
  answer 37 0 (response_bytes 37 0 7 [] (enc R_CreatePartitions_0 ex_createpartitions)) = Panic.
Proof. split; [wfc|]. vm_compute. reflexivity. Qed.
Definition ex_alterreassign : den R_AlterReassignments_0 := (0, (31, (None, ([], [])))).
Lemma alterreassign_ex : wf R_AlterReassignments_0 ex_alterreassign /\
  answer 45 0 (response_bytes 45 0 7 [] (enc R_AlterReassignments_0 ex_alterreassign)) = Panic.
Proof. split; [wfc|]. vm_compute. reflexivity. Qed.
Definition ex_deleteacls : den R_DeleteAcls_0 := (0, [(31, (None, []))]).
Lemma deleteacls_ex : wf R_DeleteAcls_0 ex_deleteacls /\
  answer 31 0 (response_bytes 31 0 7 [] (enc R_DeleteAcls_0 ex_deleteacls)) = Panic.
Proof. split; [wfc|]. vm_compute. reflexivity. Qed.
Definition ex_produce_0 : den R_Produce_0 := [([116], [(0, (0, 42))])].
Lemma produce0_ex : wf R_Produce_0 ex_produce_0 /\
  answer 0 0 (response_bytes 0 0 7 [] (enc R_Produce_0 ex_produce_0)) = Panic.
Proof. split; [wfc|]. vm_compute. reflexivity. Qed.
Definition ex_alterconfigs : den R_Configs_0 := (0, [(0, (None, (2, [116])))]).
Lemma alterconfigs_ex : wf R_Configs_0 ex_alterconfigs /\
  answer 33 0 (response_bytes 33 0 7 [] (enc R_Configs_0 ex_alterconfigs)) = Panic.
Proof. split; [wfc|]. vm_compute. reflexivity. Qed.
Definition ex_offsetfetch : den R_OffsetFetch_0 := [([116], [(0, (-1, (None, 0)))])].
Lemma offsetfetch_ex : wf R_OffsetFetch_0 ex_offsetfetch /\
  answer 9 1 (response_bytes 9 1 7 [] (enc R_OffsetFetch_0 ex_offsetfetch)) = Panic.
Proof. split; [wfc|]. vm_compute. reflexivity. Qed.
Definition ex_describeacls_1 : den R_DescribeAcls_1 := (0, (0, (None, []))).
Lemma describeacls1_ex : wf R_DescribeAcls_1 ex_describeacls_1 /\
  answer 29 1 (response_bytes 29 1 7 [] (enc R_DescribeAcls_1 ex_describeacls_1)) <> Ok (RDescribeAcls 7 0 0 None (Some []) []).
Proof. split; [wfc|]. vm_compute. discriminate. Qed.
(** a group in which a member has no assignment yet (the group is rebalancing) *)
Definition ex_rebalancing : den R_DescribeGroups_0 := [(0, ([103], ([80], ([99], ([114], [([109], ([99], ([104], ([], []))))])))))].
Lemma describegroups_ex : wf R_DescribeGroups_0 ex_rebalancing /\
  exists e, answer 15 0 (response_bytes 15 0 7 [] (enc R_DescribeGroups_0 ex_rebalancing)) = Err e /\ err_code e = None.
Proof. split; [wfc|]. eexists. split; [vm_compute; reflexivity|reflexivity]. Qed.
(** the metadata of the members of a group are not shown *)
Lemma member_metadata_lost s m e r : rd_member s = Ok ((m, e), r) -> fst (snd (snd (snd m))) = [].
Proof.
  unfold rd_member. repeat (let E := fresh in unfold bind at 1; match goal with |- match ?p with _ => _ end = _ -> _ => destruct p as [[? ?]| | |] eqn:E; try discriminate end).
  unfold ret, panic. destruct (newMemberAssignment _); intros K; try discriminate K; injection K as <- _ _; reflexivity.
Qed.

(** ** Several results *)
Lemma rd_n_stay {A} (p : parser A) s a r : p s = Ok (a, r) -> forall n, rd_n n (rd_stay p) s = Ok (repeat a n, s).
Proof.
  intros H. induction n as [|n IH]; [reflexivity|]. cbn [rd_n repeat]. erewrite bind_ok by (unfold rd_stay; rewrite H; reflexivity).
  rewrite (bind_ok _ _ _ _ _ IH). reflexivity.
Qed.
Lemma incremental_copies corr th (rs : list (Z * (option bytes * (Z * bytes)))) a rest :
  rs = a :: rest -> u32 corr -> wf R_Configs_0 (th, rs) ->
  zlen (response_bytes 44 0 corr [] (enc R_Configs_0 (th, rs))) < 2 ^ 31 ->
  parse 44 0 (response_bytes 44 0 corr [] (enc R_Configs_0 (th, rs))) =
  Ok (RIncrementalAlterConfigs corr (as_u 32 th) (repeat (v_config a) (length rs))).
Proof.
  intros E Hc [H1 H2]. rewrite bytes_plain by reflexivity. intros Hsz. cbn [parse fst snd] in *. unfold dec_incremental.
  rewrite whole_eq by (apply size_of; exact Hsz). unfold R_Configs_0. spread. repeat step1. unfold rd_arr.
  erewrite bind_ok.
  2:{ erewrite bind_ok by (apply count_u32; exact H2). unfold rd_make. pose proof (zlen_nonneg rs).
      cbn [den] in *. destruct (Z.ltb_spec (zlen rs) 0); [lia|]. rewrite to_nat_zlen. rewrite E at 2. cbn [flat_map]. rewrite <- app_assoc.
      eapply (rd_n_stay _ _ (v_config a)). destruct H2 as [_ H2]. rewrite E in H2. inversion H2 as [|? ? K _]; subst. revert K. clear.
      destruct a as [ec [m [ty n]]]. intros [K1 [K2 [K3 K4]]]. cbn [fst snd] in *. spread. repeat step1. reflexivity. }
  reflexivity.
Qed.
Definition ex_incremental : den R_Configs_0 := (0, [(0, (None, (2, [116; 49]))); (40, (Some [98], (2, [116; 50])))]).
Lemma incremental_ex : wf R_Configs_0 ex_incremental /\
  answer 44 0 (response_bytes 44 0 7 [] (enc R_Configs_0 ex_incremental)) =
  Ok (RIncrementalAlterConfigs 7 0 [(0, ([], (2, [116; 49]))); (0, ([], (2, [116; 49])))]).
Proof. split; [wfc|]. vm_compute. reflexivity. Qed.
Definition ex_produce_9 : den R_Produce_9 :=
  ([([116], ([(0, (0, (41, (-1, (0, ([], (None, []))))))); (1, (6, (-1, (-1, (-1, ([], (None, [])))))))], []))], (0, [])).
Lemma produce9_ex : wf R_Produce_9 ex_produce_9 /\
  answer 0 9 (response_bytes 0 9 7 [] (enc R_Produce_9 ex_produce_9)) =
  Ok (RProduce 7 [([116], [(0, (0, (41, (-1, (0, ([], None)))))); (0, (0, (41, (-1, (0, ([], None))))))])]).
Proof. split; [wfc|]. vm_compute. reflexivity. Qed.
Definition ex_createpartitions2 : den R_CreatePartitions_0 := (0, [([116], (0, None)); ([117], (37, Some [110]))]).
Lemma createpartitions2_ex : wf R_CreatePartitions_0 ex_createpartitions2 /\
  answer 37 0 (response_bytes 37 0 7 [] (enc R_CreatePartitions_0 ex_createpartitions2)) = Panic.
Proof. split; [wfc|]. vm_compute. reflexivity. Qed.

(** ** Corrupt responses *)
Definition implemented (key : Z) : bool :=
  existsb (Z.eqb key) [0; 2; 3; 8; 9; 10; 11; 12; 13; 14; 15; 16; 17; 18; 19; 20; 29; 30; 31; 32; 33; 35; 36; 37; 42; 43; 44; 45; 46].
Lemma empty_panics key v : implemented key = true -> answer key v [0; 0; 0; 0] = Panic.
Proof.
  intros H. apply existsb_exists in H. destruct H as [k [Hk E]]. apply Z.eqb_eq in E. subst key.
  repeat (destruct Hk as [<-|Hk]; [|]); [..|destruct Hk].
  all: unfold answer; try (vm_compute; reflexivity).
  all: cbn [parse].
  all: unfold dec_produce, dec_metadata, dec_offsets, dec_listgroups, dec_createpartitions, dec_createacls, dec_deleteacls, dec_describeacls; cbv zeta; reflexivity.
Qed.
Lemma not_implemented key v data : implemented key = false -> answer key v data = Err (EWrap ENotImplemented).
Proof.
  intros H. unfold answer. assert (E : parse key v data = Err ENotImplemented); [|rewrite E; reflexivity].
  destruct key as [|p|p]; [discriminate H| |reflexivity].
  do 6 (destruct p as [p|p|]; try discriminate H; try reflexivity).
Qed.
Lemma whole_short {A} (p : parser A) n s : u32 n -> n + 4 <> zlen (be 4 n ++ s) -> whole p (be 4 n ++ s) = Err ELength.
Proof. intros Hn H. unfold whole. rewrite rd_u32_be by exact Hn. destruct (Z.eqb_spec (n + 4) (zlen (be 4 n ++ s))); [congruence|reflexivity]. Qed.
Lemma sint_shift x : exists k, sint 32 x = x + k * 2 ^ 32.
Proof.
  unfold sint. change (2 ^ (32 - 1)) with 2147483648. change (2 ^ 32) with 4294967296.
  destruct (Z.ltb_spec (x mod 4294967296) 2147483648); [exists (- (x / 4294967296))|exists (- (x / 4294967296) - 1)]; lia.
Qed.
Lemma wrong_length key v n s : implemented key = true -> key <> 29 -> u32 n -> zlen (be 4 n ++ s) < 2 ^ 31 -> n + 4 <> zlen (be 4 n ++ s) ->
  answer key v (be 4 n ++ s) = Err (EWrap ELength).
Proof.
  intros H H29 Hn Hl Hne. unfold answer. assert (E : parse key v (be 4 n ++ s) = Err ELength); [|rewrite E; reflexivity].
  apply existsb_exists in H. destruct H as [k [Hk E]]. apply Z.eqb_eq in E. subst key.
  assert (S : rd_i32 (be 4 n ++ s) = Ok (sint 32 n, s)) by (apply (rd_i_be 4); lia).
  repeat (destruct Hk as [<-|Hk]; [|]); [..|destruct Hk].
  all: cbn [parse]; try (apply whole_short; assumption).
  - congruence.
  - unfold dec_deleteacls. cbv zeta. rewrite S. rewrite (sint_len (zlen _)) by (split; [apply zlen_nonneg|exact Hl]).
    destruct (Z.eqb_spec (sint 32 (sint 32 n + 4)) (zlen (be 4 n ++ s))) as [E|E]; [|reflexivity]. exfalso. apply Hne.
    destruct (sint_shift (sint 32 n + 4)) as [k Ek]. destruct (sint_shift n) as [k' Ek']. rewrite Ek, Ek' in E. unfold u32 in Hn.
    rewrite zlen_app, zlen_be in *. pose proof (zlen_nonneg s). change (2 ^ 32) with 4294967296 in *. change (2 ^ 31) with 2147483648 in *. lia.
  - unfold dec_alterreassignments. rewrite S. destruct (Z.eqb_spec (sint 32 n + 4) (zlen (be 4 n ++ s))) as [E|E]; [|reflexivity]. exfalso. apply Hne.
    destruct (sint_shift n) as [k' Ek']. rewrite Ek' in E. unfold u32 in Hn.
    rewrite zlen_app, zlen_be in *. pose proof (zlen_nonneg s). change (2 ^ 32) with 4294967296 in *. change (2 ^ 31) with 2147483648 in *. lia.
Qed.
