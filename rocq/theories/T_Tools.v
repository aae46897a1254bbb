(** Properties of the command line tools (C79 to C87). *)
From Verif Require Import Base Text Consumer Assign Builders BuildersSpec Config Tools ToolsSpec ToolsFacts.

(** C79: the lines are those of the topic's partitions in ascending order; where the answers
    name a partition once and the group has committed, the lag is the backlog. *)
Theorem C79_lag_partial : forall rs md cs rows tot, getPending (Ok rs) (Ok md) (Ok cs) = Ok (rows, tot) ->
  StronglySorted Z.le (map fst rows) /\ Permutation (map fst rows) (flat_map snd md) /\
  forall p o c l v last com mt, In (p, (o, (c, l))) rows ->
    told (flat_map (flat_map snd) rs) p v -> reports v last -> 0 <= last < 2 ^ 63 ->
    told (flat_map snd cs) p (com, mt) -> 0 <= com < 2 ^ 63 ->
    o = last /\ c = com /\ l = backlog last com.
Proof. exact pending_lines. Qed.
Print Assumptions C79_lag_partial.
Example C79_ex : getPending (Ok [[([97], [(1, (0, ([], (-1, 50))))])]; [([97], [(0, (0, ([40], (0, 0))))])]])
    (Ok [([97], [1; 0])]) (Ok [([97], [(0, (33, ([], 0))); (1, (50, ([], 0)))])]) =
  Ok ([(0, (40, (33, 7))); (1, (50, (50, 0)))], (90, (83, 7))).
Proof. reflexivity. Qed.
(** C79 is false for a group that never committed: the answer then is offset -1, and the lag
    shown is one more than there are messages. *)
Theorem C79_never_committed_refuted : exists rs md cs p o c l v last mt tot,
  getPending (Ok rs) (Ok md) (Ok cs) = Ok ([(p, (o, (c, l)))], tot) /\
  told (flat_map (flat_map snd) rs) p v /\ reports v last /\ 0 <= last < 2 ^ 63 /\
  told (flat_map snd cs) p (-1, mt) /\ l <> backlog last (-1) /\ l = last + 1.
Proof.
  exists [[([97], [(0, (0, ([], (-1, 40))))])]], [([97], [0])], [([97], [(0, (-1, ([], 0)))])], 0, 40, (-1), 41,
    (0, ([], (-1, 40))), 40, ([], 0), (40, (-1, 41)).
  repeat split; cbn; auto; try lia; repeat constructor; cbn; tauto.
Qed.
Print Assumptions C79_never_committed_refuted.
(** ... and the tool crashes if an old broker reports several offsets for a partition. *)
Theorem C79_several_offsets_refuted : exists rs md cs, getPending (Ok rs) (Ok md) (Ok cs) = Panic.
Proof. exists [[([97], [(0, (0, ([40; 20], (0, 0))))])]], [], []. reflexivity. Qed.
Print Assumptions C79_several_offsets_refuted.

(** C80: the TOTAL line has the sums of the columns (64 bit). *)
Theorem C80_total : forall rs md cs rows a b c, getPending rs md cs = Ok (rows, (a, (b, c))) ->
  a = sint 64 (total (map (fun r => fst (snd r)) rows)) /\
  b = sint 64 (total (map (fun r => fst (snd (snd r))) rows)) /\
  c = sint 64 (total (map (fun r => snd (snd (snd r))) rows)).
Proof. exact pending_total. Qed.
Print Assumptions C80_total.
Example C80_ex : exists rows, getPending (Ok [[([97], [(0, (0, ([], (0, 5)))); (1, (0, ([], (0, 2 ^ 63 - 2))))])]])
    (Ok [([97], [1; 0])]) (Ok [([97], [(0, (1, ([], 0))); (1, (1, ([], 0)))])]) =
  Ok (rows, (- 2 ^ 63 + 3, (2, - 2 ^ 63 + 1))).
Proof. eexists. vm_compute. reflexivity. Qed.

(** C81: a pattern with a star selects exactly the groups that match it, in the order listed;
    a name without a star selects itself. *)
Theorem C81_pattern_partial : forall g all, g <> [] -> In 42 g -> Forall plain_pat g -> Forall (fun s => ~ In 10 s) all ->
  exists l, getGroups g all = Ok l /\ (forall x, In x l <-> In x all /\ glob g x) /\
    exists f, l = filter f all.
Proof. exact getGroups_ok. Qed.
Print Assumptions C81_pattern_partial.
Theorem C81_name_partial : forall g all, g <> [] -> ~ In 42 g -> getGroups g all = Ok [g].
Proof. exact getGroups_name. Qed.
Print Assumptions C81_name_partial.
(** "a.*b" matches "a.xb" and "a.b", not "axb" *)
Example C81_ex : getGroups [97; 46; 42; 98] [[97; 46; 120; 98]; [97; 120; 98]; [97; 46; 98]; [97; 46; 98; 98; 99]] =
  Ok [[97; 46; 120; 98]; [97; 46; 98]].
Proof. reflexivity. Qed.
(** C81 is false for a pattern with a parenthesis, which group names may have: it crashes. *)
Theorem C81_parenthesis_refuted : exists g all, In g all /\ glob g g /\ getGroups g all = Panic.
Proof.
  exists [40; 42], [[40; 42]]. split; [left; reflexivity|]. split; [|reflexivity].
  apply g_lit; [lia|]. apply g_more, g_none, g_nil.
Qed.
Print Assumptions C81_parenthesis_refuted.

(** C82: whatever the order in which the map of offsets is traversed, the request commits
    exactly the offsets reported for the partitions selected, all if none is named. *)
Theorem C82_reset_partial : forall topic sel st rs coord order v req,
  (forall l, Permutation (order l) l) -> NoDup (map fst (flat_map (flat_map snd) rs)) ->
  reset_offset topic sel st (Ok tt) (Ok rs) coord order = Ok (v, req) ->
  unique_entries req /\
  forall t p x, entry req t p x <->
    t = topic /\ (sel = [] \/ In p sel) /\ exists w o, In (p, w) (flat_map (flat_map snd) rs) /\ reports w o /\ x = (o, []).
Proof. exact reset_ok. Qed.
Print Assumptions C82_reset_partial.
Example C82_ex : reset_offset [97] [2; 0] [] (Ok tt)
    (Ok [[([97], [(0, (0, ([], (5, 40)))); (1, (0, ([], (5, 41))))])]; [([97], [(2, (0, ([], (5, 42))))])]]) (Ok tt) (@rev _) =
  Ok (2, [([97], [(2, (42, [])); (0, (40, []))])]).
Proof. reflexivity. Qed.
(** C82: what is committed is not always an offset of the partition: for a time after the last
    message the broker reports -1, which is committed. *)
Theorem C82_no_message_refuted : exists rs p w req, In (p, w) (flat_map (flat_map snd) rs) /\ reports w (-1) /\
  reset_offset [97] [] [] (Ok tt) (Ok rs) (Ok tt) (fun l => l) = Ok (2, req) /\ entry req [97] p (-1, []).
Proof.
  exists [[([97], [(0, (0, ([], (-1, -1))))])]], 0, (0, ([], (-1, -1))), [([97], [(0, (-1, []))])].
  split; [left; reflexivity|]. split; [constructor|]. split; [reflexivity|].
  exists [(0, (-1, []))]. split; left; reflexivity.
Qed.
Print Assumptions C82_no_message_refuted.
(** ... and a partition named that does not exist is skipped without an error. *)
Theorem C82_unknown_partition_refuted : exists sel rs,
  ~ In 7 (map fst (flat_map (flat_map snd) rs)) /\ In 7 sel /\
  reset_offset [97] sel [] (Ok tt) (Ok rs) (Ok tt) (fun l => l) = Ok (2, []).
Proof.
  exists [7], [[([97], [(0, (0, ([], (-1, 40))))])]]. split; [cbn; lia|]. split; [left; reflexivity|reflexivity].
Qed.
Print Assumptions C82_unknown_partition_refuted.

(** C83 is false: the storage flag is read under another name than declared, so that
    Zookeeper is never chosen. *)
Theorem C83_storage_refuted : exists st, st = [122; 111; 111; 107; 101; 101; 112; 101; 114] (* zookeeper *) /\
  st = v_zookeeper /\ reset_version st <> 0.
Proof. exists v_zookeeper. split; [reflexivity|]. split; [reflexivity|]. vm_compute. discriminate. Qed.
Print Assumptions C83_storage_refuted.
Theorem C83_kafka_partial : forall st, reset_version st = 2.
Proof. reflexivity. Qed.
Print Assumptions C83_kafka_partial.
Example C83_ex : flag_text (reset_flags [] [] [] [] v_zookeeper) n_storage = v_zookeeper.
Proof. reflexivity. Qed.

(** C84: if the map of assignments is traversed in ascending order, the request has the
    assignment of every partition as written; *)
Theorem C84_ascending_partial : forall topic ls, well ls -> zlen ls < 2 ^ 31 ->
  create_topic topic (ptexts ls) (fun m => m) = Some [(topic, (-1, (-1, (numbered 0 ls, []))))].
Proof. exact create_topic_ok. Qed.
Print Assumptions C84_ascending_partial.
(** in any other order exactly those remain that are above all partitions traversed before. *)
Theorem C84_any_order_partial : forall topic ls order, well ls -> zlen ls < 2 ^ 31 ->
  exists ras, create_topic topic (ptexts ls) order = Some [(topic, (-1, (-1, (ras, []))))] /\
    forall x, In x ras <-> raised (order (numbered 0 ls)) x.
Proof. exact create_topic_any. Qed.
Print Assumptions C84_any_order_partial.
(** "1:2,0" *)
Example C84_ex : ptexts [[1; 2]; [0]] = [49; 58; 50; 44; 48] /\
  create_topic [97] [49; 58; 50; 44; 48] (fun m => m) = Some [([97], (-1, (-1, ([(0, [1; 2]); (1, [0])], []))))].
Proof. split; reflexivity. Qed.
(** C84 is false: Go traverses a map in no particular order, and the assignments of all smaller
    partitions are then left out of the request without an error. *)
Theorem C84_order_refuted : exists topic ls order, well ls /\ (forall l, Permutation (order l) l) /\
  create_topic topic (ptexts ls) order = Some [(topic, (-1, (-1, ([(1, [0])], []))))] /\ ls = [[1; 2]; [0]].
Proof.
  exists [97], [[1; 2]; [0]], (@rev _). split.
  - split; [discriminate|]. repeat constructor; try discriminate; unfold int32; lia.
  - split; [intros; apply Permutation_sym, Permutation_rev|]. split; reflexivity.
Qed.
Print Assumptions C84_order_refuted.

(** Finding: numbers beyond 32 bits become others: *)
Theorem C84_wrap_refuted : exists s, s = decimal 4294967297 /\ create_topic [97] s (fun m => m) = Some [([97], (-1, (-1, ([(0, [1])], []))))].
Proof. exists (decimal 4294967297). split; [reflexivity|]. vm_compute. reflexivity. Qed.
Print Assumptions C84_wrap_refuted.

(** C85: a list as described is understood. *)
Theorem C85_assignments_partial : forall ls, well ls -> genPartitionAssignments (ptexts ls) = Ok ls.
Proof. exact gen_ok. Qed.
Print Assumptions C85_assignments_partial.
Example C85_ex : genPartitionAssignments [49; 58; 50; 44; 45; 51] = Ok [[1; 2]; [-3]] /\
  exists e, genPartitionAssignments [49; 44; 120] = Err e.
Proof. split; [reflexivity|]. eexists. reflexivity. Qed.
(** C85 is false: a blank entry before another one crashes the tool (",1"), *)
Theorem C85_blank_refuted : genPartitionAssignments [44; 49] = Panic.
Proof. reflexivity. Qed.
Print Assumptions C85_blank_refuted.
(** and a number beyond 32 bits becomes another broker ("4294967297" is taken for 1). *)
Theorem C85_wrap_refuted : exists s, decimal 4294967297 = s /\ genPartitionAssignments s = Ok [[1]].
Proof. eexists. split; [reflexivity|]. vm_compute. reflexivity. Qed.
Print Assumptions C85_wrap_refuted.

(** C86: a resource name of printable bytes without quotes and backslashes is used as given. *)
Theorem C86_resource_partial : forall s, Forall plain_byte s -> acl_filter_arg s = Ok (Some s).
Proof. intros s F. unfold acl_filter_arg. rewrite json_plain by exact F. reflexivity. Qed.
Print Assumptions C86_resource_partial.
Example C86_ex : acl_filter_arg [111; 114; 100; 101; 114; 115; 45; 49] = Ok (Some [111; 114; 100; 101; 114; 115; 45; 49]).
Proof. reflexivity. Qed.
(** C86 is false: a quote in the name makes the filter match any resource, so that deleting the
    ACLs of the resource deletes those of all, *)
Theorem C86_any_refuted : exists s, s <> [] /\ acl_filter_arg s = Ok None.
Proof. exists [97; 34]. split; [discriminate|reflexivity]. Qed.
Print Assumptions C86_any_refuted.
(** and a backslash makes it another name. *)
Theorem C86_other_refuted : exists s t, acl_filter_arg s = Ok (Some t) /\ t <> s.
Proof. exists [97; 92; 110], [97; 10]. split; [reflexivity|discriminate]. Qed.
Print Assumptions C86_other_refuted.

(** C87: these three wait as long as asked; *)
Theorem C87_timeout_partial : forall t ms, 0 < ms ->
  t = CmdAlterReassign \/ t = CmdCreateTopicAssign \/ t = HttpAlterReassign -> tool_wait t ms = ms.
Proof. exact tool_wait_ok. Qed.
Print Assumptions C87_timeout_partial.
Example C87_ex : tool_wait CmdAlterReassign 120000 = 120000 /\ tool_wait CmdElect 120000 = 30000.
Proof. split; reflexivity. Qed.
(** C87 is false for all the others: they wait 30 seconds whatever is asked. *)
Theorem C87_ignored_refuted : forall t, t <> CmdAlterReassign -> t <> CmdCreateTopicAssign -> t <> HttpAlterReassign ->
  exists ms, 0 < ms /\ tool_wait t ms <> ms.
Proof.
  intros t A B C. exists 120000. split; [lia|]. rewrite tool_wait_other by assumption. discriminate.
Qed.
Print Assumptions C87_ignored_refuted.
