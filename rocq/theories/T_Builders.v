(** Properties of the request builders (C52, C53, C66, C67, C68). *)
From Verif Require Import Base Builders BuildersSpec BuildersFacts.

(** C52: after any additions an offset commit request holds every topic once, every
    partition of it once, and exactly the offsets and metadata added last. *)
Theorem C52_commit_one_entry : forall adds,
  unique_entries (oc_run adds) /\
  forall t p v, entry (oc_run adds) t p v <-> said_last adds t p v.
Proof. exact oc_ok. Qed.
Print Assumptions C52_commit_one_entry.
Example C52_commit_ex :
  oc_run [([97], 0, (5, [])); ([98], 0, (6, [])); ([97], 1, (7, [])); ([97], 0, (9, [120]))]
  = [([97], [(0, (9, [120])); (1, (7, []))]); ([98], [(0, (6, []))])].
Proof. reflexivity. Qed.

(** The same for offset fetch requests, which only name partitions. *)
Theorem C52_fetch_one_entry : forall adds,
  unique_names (of_run adds) /\
  forall t p, names (of_run adds) t p <-> In (t, p) adds.
Proof. exact pid_ok. Qed.
Print Assumptions C52_fetch_one_entry.
Example C52_fetch_ex :
  of_run [([97], 0); ([98], 0); ([97], 1); ([97], 0)] = [([97], [0; 1]); ([98], [0])].
Proof. reflexivity. Qed.

(** C53: adding a topic is refused exactly if it was added before. *)
Theorem C53_duplicate_topic_partial : forall ops t n rf,
  snd (ct_step (ct_run [] ops) (CAddTopic t n rf)) = false <->
  exists n' rf', In (CAddTopic t n' rf') ops.
Proof. exact ct_refused. Qed.
Print Assumptions C53_duplicate_topic_partial.

(** C53: the assignments of a topic stay ordered by partition, every topic is there once;
    an assignment is accepted exactly if its partition is above all earlier ones of the
    topic, and is then held as given. *)
Theorem C53_assignments_partial : forall ops t p rs,
  let ts := ct_run [] ops in
  (forall x, In x ts -> StronglySorted Z.lt (map fst (fst (snd (snd (snd x)))))) /\
  NoDup (map fst ts) /\
  (snd (ct_step ts (CAddReplicas t p rs)) = true <->
   exists n rf ras cs, In (t, (n, (rf, (ras, cs)))) ts /\ Forall (fun q => q < p) (map fst ras)) /\
  (forall n rf ras cs, In (t, (n, (rf, (ras, cs)))) ts -> Forall (fun q => q < p) (map fst ras) ->
   In (t, (n, (rf, (ras ++ [(p, rs)], cs)))) (ct_run [] (ops ++ [CAddReplicas t p rs]))).
Proof. exact ra_ok. Qed.
Print Assumptions C53_assignments_partial.
Example C53_ex :
  ct_run [] [CAddTopic [97] 2 (-1); CAddTopic [98] 1 1; CAddReplicas [97] 0 [1; 2]; CAddTopic [97] 9 9;
             CAddReplicas [97] 1 [2; 3]; CAddReplicas [99] 0 [1]]
  = [([97], (2, ((-1), ([(0, [1; 2]); (1, [2; 3])], [])))); ([98], (1, (1, ([], []))))].
Proof. reflexivity. Qed.

(** C53, the overwriting half is false: a second assignment for a partition is refused
    (create_topics_request.go:189 comes before 193). *)
Theorem C53_overwrite_refuted : exists ops t p rs rs',
  let ts := ct_run [] ops in
  snd (ct_step ts (CAddReplicas t p rs)) = true /\
  snd (ct_step (ct_run ts [CAddReplicas t p rs]) (CAddReplicas t p rs')) = false.
Proof. exact ra_overwrite_refuted. Qed.
Print Assumptions C53_overwrite_refuted.

(** C66: log directory and reassignment listing requests name every added partition, once. *)
Theorem C66_logdirs_one_entry : forall adds,
  unique_names (ld_run adds) /\
  forall t p, names (ld_run adds) t p <-> In (t, p) adds.
Proof. exact pid_ok. Qed.
Print Assumptions C66_logdirs_one_entry.
Theorem C66_reassignments_one_entry : forall adds,
  unique_names (lr_run adds) /\
  forall t p, names (lr_run adds) t p <-> In (t, p) adds.
Proof. exact pid_ok. Qed.
Print Assumptions C66_reassignments_one_entry.
Example C66_ex :
  ld_run [([97], 3); ([98], 0); ([97], 3); ([97], 1)] = [([97], [3; 1]); ([98], [0])] /\
  lr_run [([97], 3); ([98], 0); ([97], 3); ([97], 1)] = [([97], [3; 1]); ([98], [0])].
Proof. split; reflexivity. Qed.

(** C67: config change requests keep, for every resource and name, the value said first,
    once; an addition is refused exactly if it contradicts that value. *)
Theorem C67_alter_configs : forall adds a,
  cfg_unique (ac_run adds) /\
  (forall rt rn n v, cfg_entry (ac_run adds) rt rn n v <-> said_first (map ca_tuple adds) rt rn n v) /\
  (snd (ac_step (ac_run adds) a) = false <->
   exists v, said_first (map ca_tuple adds) (ca_type a) (ca_res a) (ca_name a) v /\ v <> ca_val a).
Proof. exact ac_ok. Qed.
Print Assumptions C67_alter_configs.
Theorem C67_incremental : forall adds a,
  cfg_unique (iac_run adds) /\
  (forall rt rn n u, cfg_entry (iac_run adds) rt rn n u <->
     fst u = 0 /\ said_first (map ca_tuple adds) rt rn n (snd u)) /\
  (snd (iac_step (iac_run adds) a) = false <->
   exists v, said_first (map ca_tuple adds) (ca_type a) (ca_res a) (ca_name a) v /\ v <> ca_val a).
Proof. exact iac_ok. Qed.
Print Assumptions C67_incremental.
Example C67_ex :
  ac_run [mkCA 2 [97] [1] [10]; mkCA 2 [98] [1] [11]; mkCA 2 [97] [1] [12]; mkCA 2 [97] [2] [13]; mkCA 4 [97] [1] [14]]
  = [(2, ([97], [([1], [10]); ([2], [13])])); (2, ([98], [([1], [11])])); (4, ([97], [([1], [14])]))] /\
  snd (ac_step (ac_run [mkCA 2 [97] [1] [10]]) (mkCA 2 [97] [1] [12])) = false.
Proof. split; reflexivity. Qed.

(** C68: leader election and reassignment requests hold every topic of the additions once
    and under it all its additions in order. *)
Theorem C68_elect_leaders : forall adds,
  NoDup (map fst (el_run adds)) /\
  (forall t, In t (map fst (el_run adds)) <-> In t (map fst adds)) /\
  forall t ps, In (t, ps) (el_run adds) -> ps = map snd (filter (fun a => beqb (fst a) t) adds).
Proof. exact kept_ok. Qed.
Print Assumptions C68_elect_leaders.
Theorem C68_reassignments : forall adds,
  NoDup (map fst (ar_run adds)) /\
  (forall t, In t (map fst (ar_run adds)) <-> In t (map fst adds)) /\
  forall t ps, In (t, ps) (ar_run adds) -> ps = map snd (filter (fun a => beqb (fst a) t) adds).
Proof. exact ar_ok. Qed.
Print Assumptions C68_reassignments.
Example C68_ex :
  ar_run [([97], (0, [1])); ([98], (0, [2])); ([97], (0, [3]))] = [([97], [(0, [1]); (0, [3])]); ([98], [(0, [2])])].
Proof. reflexivity. Qed.
