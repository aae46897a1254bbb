(** What the calls ask for, stated as protocol values: for every call and version, the
    values a broker should read. *)
From Verif Require Import Base Wire Records RequestSpec BuildersSpec Calls.

(** the distinct elements of a list, in any order *)
Definition each_once (ps pids : list Z) : Prop := NoDup ps /\ forall p, In p ps <-> In p pids.
(** partitions by topic: every topic once, every partition of it once *)
Definition by_topic (tps : list (bytes * Z)) (ts : list (bytes * list Z)) : Prop :=
  unique_names ts /\ forall t p, names ts t p <-> In (t, p) tps.
(** additions by topic: every topic once, its additions in order *)
Definition kept_by_topic {A} (adds : list (bytes * A)) (ts : list (bytes * list A)) : Prop :=
  NoDup (map fst ts) /\ (forall t, In t (map fst ts) <-> In t (map fst adds)) /\
  forall t l, In (t, l) ts -> l = map snd (filter (fun a => beqb (fst a) t) adds).

(** The API of a call. *)
Definition call_key (c : call) : Z :=
  match c with
  | CKFetch _ _ _ _ _ _ _ => 1 | CKOffsets _ _ _ _ => 2 | CKMetadata _ => 3 | CKCommit _ _ _ _ _ _ => 8 | CKCommitted _ _ _ _ => 9
  | CKFindCoordinator _ => 10 | CKJoinGroup _ _ _ _ _ => 11 | CKHeartbeat _ _ _ => 12 | CKLeaveGroup _ _ => 13
  | CKSyncGroup _ _ _ _ => 14 | CKDescribeGroup _ => 15 | CKListGroups => 16 | CKHandshake _ => 17 | CKApiVersions => 18
  | CKCreateTopics _ _ _ _ => 19 | CKDeleteTopics _ _ => 20 | CKDescribeAcls _ _ _ _ _ _ _ => 29 | CKCreateAcls _ => 30
  | CKDeleteAcls _ => 31 | CKDescribeConfigs _ _ _ => 32 | CKLogDirs _ => 35 | CKAuthenticate _ _ _ => 36
  | CKCreatePartitions _ _ _ _ _ => 37 | CKDeleteGroup _ => 42 | CKElectLeaders _ _ => 43 | CKAlterConfig _ _ _ _ => 44
  | CKAlterReassignments _ _ => 45 | CKListReassignments _ _ => 46
  end.

(** [says c v x]: at version [v] the value [x] asks what the call [c] should ask. *)
Definition says (c : call) (v : Z) (x : val) : Prop :=
  match c, v with
  | CKApiVersions, 0 => x = V TUnit tt
  | CKListGroups, 0 | CKListGroups, 1 | CKListGroups, 2 => x = V TUnit tt
  | CKListGroups, 3 => x = V S_ListGroups_3 []
  | CKListGroups, 4 => x = V S_ListGroups_4 ([], [])
  | CKListGroups, 5 => x = V S_ListGroups_5 ([], ([], []))
  | CKMetadata ts, 1 => x = V S_Metadata_1 ts
  | CKMetadata ts, 4 | CKMetadata ts, 7 => x = V S_Metadata_4 (ts, true)
  | CKOffsets t pids time num, 0 => exists ps, each_once ps pids /\ x = V S_ListOffsets_0 ((-1), [(t, map (fun p => (p, (time, num))) ps)])
  | CKOffsets t pids time num, 1 => exists ps, each_once ps pids /\ x = V S_ListOffsets_1 ((-1), [(t, map (fun p => (p, time)) ps)])
  | CKFetch t p off mw mi mb ep, 0 => x = V S_Fetch_0 ((-1), (mw, (mi, [(t, [(p, (off, mb))])])))
  | CKFetch t p off mw mi mb ep, 7 => x = V S_Fetch_7 ((-1), (mw, (mi, (mb, (0, (0, (0, ([(t, [(p, (off, (0, mb)))])], []))))))))
  | CKFetch t p off mw mi mb ep, 10 => x = V S_Fetch_10 ((-1), (mw, (mi, (mb, (0, (0, (0, ([(t, [(p, (ep, (off, (0, mb))))])], []))))))))
  | CKFindCoordinator g, 0 => x = V S_FindCoordinator_0 g
  | CKJoinGroup g s m pt gps, 0 => x = V S_JoinGroup_0 (g, (s, (m, (pt, gps))))
  | CKJoinGroup g s m pt gps, 1 | CKJoinGroup g s m pt gps, 2 => x = V S_JoinGroup_1 (g, (s, (60000, (m, (pt, gps)))))
  | CKSyncGroup g n m a, 0 => x = V S_SyncGroup_0 (g, (n, (m, a)))
  | CKHeartbeat g n m, 0 => x = V S_Heartbeat_0 (g, (n, m))
  | CKLeaveGroup g m, 0 => x = V S_LeaveGroup_0 (g, m)
  | CKCommitted _ g t p, 0 | CKCommitted _ g t p, 1 => x = V S_OffsetFetch_0 (g, [(t, [p])])
  | CKCommit _ g _ t p off, 0 => x = V S_OffsetCommit_0 (g, [(t, [(p, (off, Some []))])])
  | CKCommit _ g (Some (n, m)) t p off, 2 => x = V S_OffsetCommit_2 (g, (n, (m, ((-1), [(t, [(p, (off, Some []))])]))))
  | CKCommit _ g None t p off, 2 => x = V S_OffsetCommit_2 (g, ((-1), ([], ((-1), [(t, [(p, (off, Some []))])]))))
  | CKDeleteTopics ts to, 0 => x = V S_DeleteTopics_0 (ts, to)
  | CKCreateTopics ts n rf to, 0 => x = V S_CreateTopics_0 (map (fun t => (t, (n, (rf, ([], []))))) ts, to)
  | CKCreatePartitions t n a to va, 0 => x = V S_CreatePartitions_0 ([(t, (n, a))], (to, va))
  | CKCreatePartitions t n a to va, 2 =>
      x = V S_CreatePartitions_2 ([(t, (n, (option_map (map (fun l => (l, []))) a, [])))], (to, (va, [])))
  | CKDeleteGroup g, 0 => x = V S_DeleteGroups_0 [g]
  | CKDescribeGroup g, 0 => x = V S_DescribeGroups_0 [g]
  | CKDescribeAcls rt rn pt pr ho op pe, 0 => x = V S_DescribeAcls_0 (rt, (rn, (pr, (ho, (op, pe)))))
  | CKDescribeAcls rt rn pt pr ho op pe, 1 => x = V S_DescribeAcls_1 (rt, (rn, (pt, (pr, (ho, (op, pe))))))
  | CKDescribeAcls rt rn pt pr ho op pe, 2 => x = V S_DescribeAcls_2 (rt, (rn, (pt, (pr, (ho, (op, (pe, [])))))))
  | CKCreateAcls l, 1 => x = V S_CreateAcls_1 l
  | CKCreateAcls l, 2 | CKCreateAcls l, 3 =>
      x = V S_CreateAcls_2 (map (fun a : Z * (bytes * (Z * (bytes * (bytes * (Z * Z))))) =>
        let '(rt, (rn, (pt, (pr, (ho, (op, pe)))))) := a in (rt, (rn, (pt, (pr, (ho, (op, (pe, [])))))))) l, [])
  | CKDeleteAcls l, 1 => x = V S_DeleteAcls_1 l
  | CKDeleteAcls l, 2 | CKDeleteAcls l, 3 =>
      x = V S_DeleteAcls_2 (map (fun a : Z * (option bytes * (Z * (option bytes * (option bytes * (Z * Z))))) =>
        let '(rt, (rn, (pt, (pr, (ho, (op, pe)))))) := a in (rt, (rn, (pt, (pr, (ho, (op, (pe, [])))))))) l, [])
  | CKDescribeConfigs rt rn ks, 0 => x = V S_DescribeConfigs_0 [(rt, (rn, ks))]
  | CKAlterConfig rt rn n u, 0 => x = V S_IncrementalAlterConfigs_0 ([(rt, (rn, [(n, (0, Some u))]))], false)
  | CKLogDirs tps, 0 => exists ts, by_topic tps ts /\ x = V S_DescribeLogDirs_0 (Some ts)
  | CKElectLeaders to tps, 0 => exists ts, kept_by_topic tps ts /\ x = V S_ElectLeaders_0 (Some ts, to)
  | CKAlterReassignments to l, 0 => exists ts, kept_by_topic l ts /\
      x = V S_AlterReassign_0 (to, (map (fun y : bytes * list (Z * list Z) =>
        (fst y, (map (fun p : Z * list Z => (fst p, (Some (snd p), []))) (snd y), []))) ts, []))
  | CKListReassignments to [], 0 => x = V S_ListReassign_0 (to, (None, []))
  | CKListReassignments to tps, 0 => exists ts, by_topic tps ts /\
      x = V S_ListReassign_0 (to, (Some (map (fun y : bytes * list Z => (fst y, (snd y, []))) ts), []))
  | CKHandshake m, 0 | CKHandshake m, 1 => x = V S_SaslHandshake_0 m
  | CKAuthenticate u p m, 0 => x = V S_SaslAuthenticate_0 ([0] ++ u ++ [0] ++ p)
  | _, _ => False
  end.

(** the two calls that send no client id *)
Definition sends_client (c : call) : bool :=
  match c with CKElectLeaders _ _ | CKAlterReassignments _ _ => false | _ => true end.

(** Calls the package can make: [call_limits c v] leaves out what is refuted or refused. *)
Definition call_limits (c : call) (v : Z) : Prop :=
  match c with
  | CKDescribeAcls _ _ _ _ _ _ _ | CKCreateAcls _ => 2 <= v
  | CKCreatePartitions _ _ a _ _ =>
      if v =? 0 then a <> None else forall l, a = Some l -> zlen l < 2 ^ 14 - 1 /\ Forall (fun r => zlen r < 2 ^ 28 - 1) l
  | CKCreateTopics ts _ _ _ => NoDup ts
  | CKCommitted st _ _ _ => st = 0 \/ st = 1
  | CKListReassignments _ tps => zlen tps < 2 ^ 21 - 1
  | CKAuthenticate _ _ m => (* PLAIN in any case of its letters *)
      map (fun c => if (65 <=? c) && (c <=? 90) then c + 32 else c) m = [112; 108; 97; 105; 110]
  | _ => True
  end.

(** Calls for which no request is made. *)
Definition refused (c : call) : Prop :=
  match c with
  | CKCreateTopics ts _ _ _ => ~ NoDup ts
  | CKCommitted st _ _ _ => st <> 0 /\ st <> 1
  | CKAuthenticate _ _ m => map (fun c => if (65 <=? c) && (c <=? 90) then c + 32 else c) m <> [112; 108; 97; 105; 110]
  | _ => False
  end.
