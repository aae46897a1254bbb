(** Each encoder against its layout. *)
From Verif Require Import Base BaseFacts Wire WireFacts Prims PrimsFacts Records Requests RequestSpec RequestFacts.

Ltac wleaf := lazymatch goal with
  | |- W [] _ _ => exact W_nil
  | |- W (pstr _) _ _ => first [apply W_str | apply W_nstr]
  | |- W (pbytes _) _ _ => apply W_bytes
  | |- W [p8 _] _ _ => apply W_p8
  | |- W [p16 _] _ _ => apply W_p16
  | |- W [p32 _] _ _ => apply W_p32
  | |- W [p64 _] _ _ => apply W_p64
  | |- W [pbool _] _ _ => apply W_pbool
  | |- W [ptags] _ _ => exact W_tags
  | |- W [puv 0] _ _ => exact W_tags_uv
  | |- W [CopyN (encodeCompactString _)] _ _ => apply W_cstr
  | |- W [p16 (zlen ?s); Copy ?s] _ _ => apply W_str_copy
  | |- W [p16 (zlen ?s); Put ?s] _ _ => apply W_str_put
  | |- W [p32 (zlen ?s); Copy ?s] _ _ => apply W_bytes_copy
  | |- W (pair_strs _) _ _ => apply W_pair_strs
  | |- W (topic_pids _) _ _ => apply W_topic_pids
  end.
Ltac split_pairs := repeat match goal with y : den _ |- _ => progress cbn [den] in y | y : (_ * _)%type |- _ => destruct y end; cbn [fst snd].
Ltac wgo := cbn [app]; first [wleaf | lazymatch goal with
  | |- W ((?a ++ ?b) ++ ?c) _ _ => rewrite <- (app_assoc a b c); wgo
  | |- W (_ ++ _) _ _ => apply W_app; wgo
  | |- W (_ :: _) _ _ => apply W_cons; wgo
  | |- W (ct_ops _) _ _ => cbn [ct_ops]; wgo
  | |- W (parr _ _) (TArr ?t) _ => first [apply W_arr | apply (W_arr_id t)]; let x := fresh "x" in intros x _; split_pairs; wgo
  | |- W (parr _ _) (TNArr ?t) _ => first [apply W_narr | apply (W_narr_id t)]; let x := fresh "x" in intros x _; split_pairs; wgo
  end | idtac].

Section Bodies.
Variables (flex : bool) (h : rhdr).
Notation hv := (if flex then 2 else 1).
Notation hb := (header_bytes flex (h_key h) (h_ver h) (h_corr h) (h_client h)).

Lemma enc_metadata_1 ts a : enc_metadata hv h 1 ts a = Ok (frame (hb ++ enc S_Metadata_1 ts)).
Proof.
  unfold enc_metadata. cbn [Z.leb Z.compare Pos.compare Pos.compare_cont]. rewrite app_nil_r.
  apply wframe_W; [apply W_nstrs; destruct ts; reflexivity|]. unfold S_Metadata_1. size.
Qed.
Lemma enc_metadata_4 v ts a : 4 <= v -> enc_metadata hv h v ts a = Ok (frame (hb ++ enc S_Metadata_4 (ts, a))).
Proof.
  intros Hv. unfold enc_metadata. destruct (Z.leb_spec 4 v); [|lia]. rewrite (app_assoc [_] _ [pbool a]).
  apply wframe_W; [apply W_app; [apply W_nstrs; destruct ts; reflexivity|apply W_pbool]|]. unfold S_Metadata_4. size.
Qed.
Lemma enc_apiversions_0 : enc_apiversions hv h = Ok (frame (hb ++ enc TUnit tt)).
Proof. unfold enc_apiversions. rewrite <- (app_nil_r (hops _ _)). apply wframe_W; [apply W_nil|size]. Qed.
Lemma enc_findcoordinator_0 g : enc_findcoordinator hv h g = Ok (frame (hb ++ enc S_FindCoordinator_0 g)).
Proof. apply wframe_W; [apply W_str_copy|unfold S_FindCoordinator_0; size]. Qed.
Lemma enc_heartbeat_0 g n m : enc_heartbeat hv h g n m = Ok (frame (hb ++ enc S_Heartbeat_0 (g, (n, m)))).
Proof. apply wframe_W; [repeat apply W_app; [apply W_str|apply W_p32|apply W_str_copy]|unfold S_Heartbeat_0; size]. Qed.
Lemma enc_leavegroup_0 g m : enc_leavegroup hv h g m = Ok (frame (hb ++ enc S_LeaveGroup_0 (g, m))).
Proof. apply wframe_W; [apply W_app; apply W_str|unfold S_LeaveGroup_0; size]. Qed.
Lemma W_proto (l : list (bytes * bytes)) :
  W (parr (fun gp : bytes * bytes => pstr (fst gp) ++ pbytes (snd gp)) l) (TArr (TPair TStr TBytes)) l.
Proof. apply (W_arr_id (TPair TStr TBytes)). intros [a b] _. apply W_app; [apply W_str|apply W_bytes]. Qed.

Lemma enc_joingroup_0 g s r m pt ps : h_ver h = 0 ->
  enc_joingroup hv h g s r m pt ps = Ok (frame (hb ++ enc S_JoinGroup_0 (g, (s, (m, (pt, ps)))))).
Proof.
  intros Hv. unfold enc_joingroup. replace ((h_ver h =? 1) || (h_ver h =? 2)) with false by (rewrite Hv; reflexivity).
  unfold S_JoinGroup_0; apply wframe_W; [wgo|size].
Qed.
Lemma enc_joingroup_1 g s r m pt ps : h_ver h = 1 \/ h_ver h = 2 ->
  enc_joingroup hv h g s r m pt ps = Ok (frame (hb ++ enc S_JoinGroup_1 (g, (s, (r, (m, (pt, ps))))))).
Proof.
  intros Hv. unfold enc_joingroup. replace ((h_ver h =? 1) || (h_ver h =? 2)) with true by (destruct Hv as [-> | ->]; reflexivity).
  unfold S_JoinGroup_1; apply wframe_W; [wgo|size].
Qed.
Lemma enc_syncgroup_0 g n m a : enc_syncgroup hv h g n m a = Ok (frame (hb ++ enc S_SyncGroup_0 (g, (n, (m, a))))).
Proof. unfold S_SyncGroup_0; apply wframe_W; [wgo|size]. Qed.
Lemma enc_offsetcommit_0 g n m r ts : h_ver h = 0 -> enc_offsetcommit hv h g n m r ts =
  Ok (frame (hb ++ enc S_OffsetCommit_0 (g, map (fun t => (fst t, map (fun p => (fst p, (fst (snd p), Some (snd (snd p))))) (snd t))) ts))).
Proof.
  intros Hv. unfold enc_offsetcommit. replace (h_ver h =? 2) with false by (rewrite Hv; reflexivity).
  unfold S_OffsetCommit_0; apply wframe_W; [wgo|size].
Qed.
Lemma enc_offsetcommit_2 g n m r ts : h_ver h = 2 -> enc_offsetcommit hv h g n m r ts =
  Ok (frame (hb ++ enc S_OffsetCommit_2 (g, (n, (m, (r, map (fun t => (fst t, map (fun p => (fst p, (fst (snd p), Some (snd (snd p))))) (snd t))) ts)))))).
Proof.
  intros Hv. unfold enc_offsetcommit. replace (h_ver h =? 2) with true by (rewrite Hv; reflexivity).
  unfold S_OffsetCommit_2; apply wframe_W; [wgo|size].
Qed.
Lemma enc_offsetfetch_0 g ts : enc_offsetfetch hv h g ts = Ok (frame (hb ++ enc S_OffsetFetch_0 (g, ts))).
Proof. unfold S_OffsetFetch_0; apply wframe_W; [wgo|size]. Qed.
Lemma enc_describegroups_0 gs : enc_describegroups hv h gs = Ok (frame (hb ++ enc S_DescribeGroups_0 gs)).
Proof. unfold S_DescribeGroups_0; apply wframe_W; [wgo|size]. Qed.
Lemma enc_deletegroups_0 gs : enc_deletegroups hv h gs = Ok (frame (hb ++ enc S_DeleteGroups_0 gs)).
Proof. unfold S_DeleteGroups_0; apply wframe_W; [wgo|size]. Qed.
Lemma enc_deletetopics_0 ts t : enc_deletetopics hv h ts t = Ok (frame (hb ++ enc S_DeleteTopics_0 (ts, t))).
Proof. unfold S_DeleteTopics_0; apply wframe_W; [wgo|size]. Qed.
Lemma enc_saslhandshake_0 m : enc_saslhandshake hv h m = Ok (frame (hb ++ enc S_SaslHandshake_0 m)).
Proof. unfold S_SaslHandshake_0; apply wframe_W; [wgo|size]. Qed.
Lemma enc_saslauthenticate_0 m : enc_saslauthenticate hv h m = Ok (frame (hb ++ enc S_SaslAuthenticate_0 m)).
Proof. unfold S_SaslAuthenticate_0; apply wframe_W; [wgo|size]. Qed.
Lemma enc_createtopics_0 ts t : enc_createtopics hv h ts t =
  Ok (frame (hb ++ enc S_CreateTopics_0 (map (fun x : bytes * (Z * (Z * (list (Z * list Z) * list (bytes * bytes)))) =>
        let '(name, (np, (rf, (ras, cfgs)))) := x in
        (name, (np, (rf, (ras, map (fun c => (fst c, Some (snd c))) cfgs))))) ts, t))).
Proof. unfold S_CreateTopics_0; apply wframe_W; [wgo|unfold ct_len; size]. Qed.
Lemma enc_alterconfigs_0 rs b : enc_alterconfigs hv h rs b =
  Ok (frame (hb ++ enc S_AlterConfigs_0 (map (fun r => (fst r, (fst (snd r), map (fun c => (fst c, Some (snd c))) (snd (snd r))))) rs, b))).
Proof. unfold S_AlterConfigs_0; apply wframe_W; [wgo|size]. Qed.
Lemma enc_incremental_0 rs b : enc_incremental hv h rs b =
  Ok (frame (hb ++ enc S_IncrementalAlterConfigs_0
        (map (fun r => (fst r, (fst (snd r), map (fun c => (fst c, (fst (snd c), Some (snd (snd c))))) (snd (snd r))))) rs, b))).
Proof. unfold S_IncrementalAlterConfigs_0; apply wframe_W; [wgo|size]. Qed.
Lemma enc_describeconfigs_0 rs : enc_describeconfigs hv h rs = Ok (frame (hb ++ enc S_DescribeConfigs_0 rs)).
Proof.
  apply wframe_W.
  - apply (W_arr_id (TPair TI8 (TPair TStr (TNArr TStr)))). intros [a [b c]] _. cbn [fst snd]. apply W_cons; [apply W_p8|].
    apply W_app; [apply W_str|]. apply W_nstrs. destruct c; reflexivity.
  - unfold S_DescribeConfigs_0. size.
Qed.
End Bodies.
