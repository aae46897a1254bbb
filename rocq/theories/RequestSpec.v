(** Specification of the requests: the layouts of https://kafka.apache.org/protocol for
    the APIs and versions the client implements.  Only the type of request contents
    [rbody] comes from the model. *)
From Verif Require Import Base Wire Requests.
Local Open Scope ty_scope.

(** ** Headers *)
(** request header v1 and v2 *)
Definition Header1 : ty := TI16 *** TI16 *** TI32 *** TNStr.
Definition Header2 : ty := TI16 *** TI16 *** TI32 *** TNStr *** TTags.

(** The first version of each API that uses header v2 and compact fields ("flexibleVersions"
    in the protocol's message definitions); [None]: no such version. *)
Definition flexible_from : list (Z * option Z) :=
  [(0, Some 9); (1, Some 12); (2, Some 6); (3, Some 9); (8, Some 8); (9, Some 6); (10, Some 3); (11, Some 6);
   (12, Some 4); (13, Some 4); (14, Some 4); (15, Some 5); (16, Some 3); (17, None); (18, Some 3); (19, Some 5);
   (20, Some 4); (29, Some 2); (30, Some 2); (31, Some 2); (32, Some 4); (33, Some 2); (35, Some 2); (36, Some 2);
   (37, Some 2); (42, Some 2); (43, Some 2); (44, Some 1); (45, Some 0); (46, Some 0)].
Definition is_flexible (key ver : Z) : Prop := exists n, In (key, Some n) flexible_from /\ n <= ver.
Definition flexibleb (key ver : Z) : bool :=
  existsb (fun p => (fst p =? key) && match snd p with Some n => n <=? ver | None => false end) flexible_from.

Definition header_bytes (flex : bool) (key ver corr : Z) (client : option bytes) : bytes :=
  if flex then enc Header2 (key, (ver, (corr, (client, [])))) else enc Header1 (key, (ver, (corr, client))).

(** ** Bodies *)
Definition S_Metadata_1 : ty := TNArr TStr.
Definition S_Metadata_4 : ty := TNArr TStr *** TBool.
Definition S_FindCoordinator_0 : ty := TStr.
Definition S_Heartbeat_0 : ty := TStr *** TI32 *** TStr.
Definition S_LeaveGroup_0 : ty := TStr *** TStr.
Definition S_JoinGroup_0 : ty := TStr *** TI32 *** TStr *** TStr *** TArr (TStr *** TBytes).
Definition S_JoinGroup_1 : ty := TStr *** TI32 *** TI32 *** TStr *** TStr *** TArr (TStr *** TBytes).
Definition S_SyncGroup_0 : ty := TStr *** TI32 *** TStr *** TArr (TStr *** TBytes).
Definition S_OffsetCommit_0 : ty := TStr *** TArr (TStr *** TArr (TI32 *** TI64 *** TNStr)).
Definition S_OffsetCommit_2 : ty := TStr *** TI32 *** TStr *** TI64 *** TArr (TStr *** TArr (TI32 *** TI64 *** TNStr)).
Definition S_OffsetFetch_0 : ty := TStr *** TArr (TStr *** TArr TI32).
Definition S_ListOffsets_0 : ty := TI32 *** TArr (TStr *** TArr (TI32 *** TI64 *** TI32)).
Definition S_ListOffsets_1 : ty := TI32 *** TArr (TStr *** TArr (TI32 *** TI64)).
Definition S_DescribeGroups_0 : ty := TArr TStr.
Definition S_ListGroups_3 : ty := TTags.
Definition S_ListGroups_4 : ty := TCArr TCStr *** TTags.
Definition S_ListGroups_5 : ty := TCArr TCStr *** TCArr TCStr *** TTags.
Definition S_DeleteGroups_0 : ty := TArr TStr.
Definition S_DeleteTopics_0 : ty := TArr TStr *** TI32.
Definition S_SaslHandshake_0 : ty := TStr.
Definition S_SaslAuthenticate_0 : ty := TBytes.
Definition S_CreateTopics_0 : ty :=
  TArr (TStr *** TI32 *** TI16 *** TArr (TI32 *** TArr TI32) *** TArr (TStr *** TNStr)) *** TI32.
Definition S_AlterConfigs_0 : ty := TArr (TI8 *** TStr *** TArr (TStr *** TNStr)) *** TBool.
Definition S_IncrementalAlterConfigs_0 : ty := TArr (TI8 *** TStr *** TArr (TStr *** TI8 *** TNStr)) *** TBool.
Definition S_DescribeConfigs_0 : ty := TArr (TI8 *** TStr *** TNArr TStr).
Definition S_DescribeLogDirs_0 : ty := TNArr (TStr *** TArr TI32).
Definition S_CreatePartitions_0 : ty := TArr (TStr *** TI32 *** TNArr (TArr TI32)) *** TI32 *** TBool.
Definition S_CreatePartitions_2 : ty :=
  TCArr (TCStr *** TI32 *** TCNArr (TCArr TI32 *** TTags) *** TTags) *** TI32 *** TBool *** TTags.
Definition S_Fetch_0 : ty := TI32 *** TI32 *** TI32 *** TArr (TStr *** TArr (TI32 *** TI64 *** TI32)).
Definition S_Fetch_7 : ty :=
  TI32 *** TI32 *** TI32 *** TI32 *** TI8 *** TI32 *** TI32 ***
  TArr (TStr *** TArr (TI32 *** TI64 *** TI64 *** TI32)) *** TArr (TStr *** TArr TI32).
Definition S_Fetch_10 : ty :=
  TI32 *** TI32 *** TI32 *** TI32 *** TI8 *** TI32 *** TI32 ***
  TArr (TStr *** TArr (TI32 *** TI32 *** TI64 *** TI64 *** TI32)) *** TArr (TStr *** TArr TI32).
Definition S_ElectLeaders_0 : ty := TNArr (TStr *** TArr TI32) *** TI32.
Definition S_AlterReassign_0 : ty :=
  TI32 *** TCArr (TCStr *** TCArr (TI32 *** TCNArr TI32 *** TTags) *** TTags) *** TTags.
Definition S_ListReassign_0 : ty := TI32 *** TCNArr (TCStr *** TCArr TI32 *** TTags) *** TTags.
Definition S_DescribeAcls_0 : ty := TI8 *** TNStr *** TNStr *** TNStr *** TI8 *** TI8.
Definition S_DescribeAcls_1 : ty := TI8 *** TNStr *** TI8 *** TNStr *** TNStr *** TI8 *** TI8.
Definition S_DescribeAcls_2 : ty := TI8 *** TCNStr *** TI8 *** TCNStr *** TCNStr *** TI8 *** TI8 *** TTags.
Definition S_CreateAcls_0 : ty := TArr (TI8 *** TStr *** TStr *** TStr *** TI8 *** TI8).
Definition S_CreateAcls_1 : ty := TArr (TI8 *** TStr *** TI8 *** TStr *** TStr *** TI8 *** TI8).
Definition S_CreateAcls_2 : ty := TCArr (TI8 *** TCStr *** TI8 *** TCStr *** TCStr *** TI8 *** TI8 *** TTags) *** TTags.
Definition S_DeleteAcls_0 : ty := TArr (TI8 *** TNStr *** TNStr *** TNStr *** TI8 *** TI8).
Definition S_DeleteAcls_1 : ty := TArr (TI8 *** TNStr *** TI8 *** TNStr *** TNStr *** TI8 *** TI8).
Definition S_DeleteAcls_2 : ty := TCArr (TI8 *** TCNStr *** TI8 *** TCNStr *** TCNStr *** TI8 *** TI8 *** TTags) *** TTags.
Definition S_Produce_0 : ty := TI16 *** TI32 *** TArr (TStr *** TArr (TI32 *** TNBytes)).
Definition S_Produce_9 : ty :=
  TCNStr *** TI16 *** TI32 *** TCArr (TCStr *** TCArr (TI32 *** TCNBytes *** TTags) *** TTags) *** TTags.

(** A value of some layout. *)
Definition val : Type := { t : ty & den t }.
Definition V (t : ty) (v : den t) : val := existT den t v.
Definition val_bytes (v : val) : bytes := enc (projT1 v) (projT2 v).
Definition val_wf (v : val) : Prop := wf (projT1 v) (projT2 v).

(** The protocol value of a request at a version the client can negotiate (versions
    0.. of request.go:46-59).  Produce is treated on its own. *)
Definition request_value (b : rbody) (v : Z) : option val :=
  match b, v with
  | QMetadata ts a, 1 => Some (V S_Metadata_1 ts)
  | QMetadata ts a, 4 | QMetadata ts a, 7 => Some (V S_Metadata_4 (ts, a))
  | QApiVersions, 0 => Some (V TUnit tt)
  | QFindCoordinator g, 0 => Some (V S_FindCoordinator_0 g)
  | QHeartbeat g n m, 0 => Some (V S_Heartbeat_0 (g, (n, m)))
  | QLeaveGroup g m, 0 => Some (V S_LeaveGroup_0 (g, m))
  | QJoinGroup g s r m pt ps, 0 => Some (V S_JoinGroup_0 (g, (s, (m, (pt, ps)))))
  | QJoinGroup g s r m pt ps, 1 | QJoinGroup g s r m pt ps, 2 => Some (V S_JoinGroup_1 (g, (s, (r, (m, (pt, ps))))))
  | QSyncGroup g n m a, 0 => Some (V S_SyncGroup_0 (g, (n, (m, a))))
  | QOffsetCommit g n m r ts, 0 =>
      Some (V S_OffsetCommit_0 (g, map (fun t => (fst t, map (fun p => (fst p, (fst (snd p), Some (snd (snd p))))) (snd t))) ts))
  | QOffsetCommit g n m r ts, 2 =>
      Some (V S_OffsetCommit_2 (g, (n, (m, (r, map (fun t => (fst t, map (fun p => (fst p, (fst (snd p), Some (snd (snd p))))) (snd t))) ts)))))
  | QOffsetFetch g ts, 0 | QOffsetFetch g ts, 1 => Some (V S_OffsetFetch_0 (g, ts))
  | QListOffsets r ts, 0 => Some (V S_ListOffsets_0 (r, ts))
  | QListOffsets r ts, 1 => Some (V S_ListOffsets_1 (r, map (fun t => (fst t, map (fun p => (fst p, fst (snd p))) (snd t))) ts))
  | QDescribeGroups gs, 0 => Some (V S_DescribeGroups_0 gs)
  | QListGroups s t, 0 | QListGroups s t, 1 | QListGroups s t, 2 => Some (V TUnit tt)
  | QListGroups s t, 3 => Some (V S_ListGroups_3 [])
  | QListGroups (Some s) t, 4 => Some (V S_ListGroups_4 (s, []))
  | QListGroups (Some s) (Some t), 5 => Some (V S_ListGroups_5 (s, (t, [])))
  | QDeleteGroups gs, 0 => Some (V S_DeleteGroups_0 gs)
  | QDeleteTopics ts t, 0 => Some (V S_DeleteTopics_0 (ts, t))
  | QSaslHandshake m, 0 | QSaslHandshake m, 1 => Some (V S_SaslHandshake_0 m)
  | QSaslAuthenticate m, 0 => Some (V S_SaslAuthenticate_0 m)
  | QCreateTopics ts t, 0 =>
      Some (V S_CreateTopics_0 (map (fun x : bytes * (Z * (Z * (list (Z * list Z) * list (bytes * bytes)))) =>
        let '(name, (np, (rf, (ras, cfgs)))) := x in
        (name, (np, (rf, (ras, map (fun c => (fst c, Some (snd c))) cfgs))))) ts, t))
  | QAlterConfigs rs b, 0 =>
      Some (V S_AlterConfigs_0 (map (fun r => (fst r, (fst (snd r), map (fun c => (fst c, Some (snd c))) (snd (snd r))))) rs, b))
  | QIncrementalAlterConfigs rs b, 0 =>
      Some (V S_IncrementalAlterConfigs_0
        (map (fun r => (fst r, (fst (snd r), map (fun c => (fst c, (fst (snd c), Some (snd (snd c))))) (snd (snd r))))) rs, b))
  | QDescribeConfigs rs, 0 => Some (V S_DescribeConfigs_0 rs)
  | QDescribeLogDirs ts, 0 => Some (V S_DescribeLogDirs_0 (Some ts))
  | QCreatePartitions ts t b, 0 => Some (V S_CreatePartitions_0 (ts, (t, b)))
  | QCreatePartitions ts t b, 2 =>
      Some (V S_CreatePartitions_2
        (map (fun x : bytes * (Z * option (list (list Z))) => let '(name, (count, asg)) := x in
              (name, (count, (option_map (map (fun a => (a, []))) asg, [])))) ts, (t, (b, []))))
  | QFetch a b c d e f g ts fs, 0 =>
      Some (V S_Fetch_0 (a, (b, (c, map (fun t => (fst t, map (fun p : Z * (Z * (Z * (Z * Z))) =>
        let '(pid, (ep, (off, (st, mx)))) := p in (pid, (off, mx))) (snd t))) ts))))
  | QFetch a b c d e f g ts fs, 7 =>
      Some (V S_Fetch_7 (a, (b, (c, (d, (e, (f, (g, (map (fun t => (fst t, map (fun p : Z * (Z * (Z * (Z * Z))) =>
        let '(pid, (ep, (off, (st, mx)))) := p in (pid, (off, (st, mx)))) (snd t))) ts, fs)))))))))
  | QFetch a b c d e f g ts fs, 10 => Some (V S_Fetch_10 (a, (b, (c, (d, (e, (f, (g, (ts, fs)))))))))
  | QElectLeaders ts t, 0 => Some (V S_ElectLeaders_0 (Some ts, t))
  | QAlterPartitionReassignments t ts, 0 =>
      Some (V S_AlterReassign_0 (t, (map (fun x : bytes * list (Z * list Z) =>
        (fst x, (map (fun p : Z * list Z => (fst p, (Some (snd p), []))) (snd x), []))) ts, [])))
  | QListPartitionReassignments t ts, 0 =>
      Some (V S_ListReassign_0 (t, (option_map (map (fun x : bytes * list Z => (fst x, (snd x, [])))) ts, [])))
  | QDescribeAcls rt rn pt pr ho op pe, 0 => Some (V S_DescribeAcls_0 (rt, (rn, (pr, (ho, (op, pe))))))
  | QDescribeAcls rt rn pt pr ho op pe, 1 => Some (V S_DescribeAcls_1 (rt, (rn, (pt, (pr, (ho, (op, pe)))))))
  | QDescribeAcls rt rn pt pr ho op pe, 2 => Some (V S_DescribeAcls_2 (rt, (rn, (pt, (pr, (ho, (op, (pe, []))))))))
  | QCreateAcls l, 0 =>
      Some (V S_CreateAcls_0 (map (fun a : Z * (bytes * (Z * (bytes * (bytes * (Z * Z))))) =>
        let '(rt, (rn, (pt, (pr, (ho, (op, pe)))))) := a in (rt, (rn, (pr, (ho, (op, pe)))))) l))
  | QCreateAcls l, 1 => Some (V S_CreateAcls_1 l)
  | QCreateAcls l, 2 | QCreateAcls l, 3 =>
      Some (V S_CreateAcls_2 (map (fun a : Z * (bytes * (Z * (bytes * (bytes * (Z * Z))))) =>
        let '(rt, (rn, (pt, (pr, (ho, (op, pe)))))) := a in (rt, (rn, (pt, (pr, (ho, (op, (pe, [])))))))) l, []))
  | QDeleteAcls l, 0 =>
      Some (V S_DeleteAcls_0 (map (fun a : Z * (option bytes * (Z * (option bytes * (option bytes * (Z * Z))))) =>
        let '(rt, (rn, (pt, (pr, (ho, (op, pe)))))) := a in (rt, (rn, (pr, (ho, (op, pe)))))) l))
  | QDeleteAcls l, 1 => Some (V S_DeleteAcls_1 l)
  | QDeleteAcls l, 2 | QDeleteAcls l, 3 =>
      Some (V S_DeleteAcls_2 (map (fun a : Z * (option bytes * (Z * (option bytes * (option bytes * (Z * Z))))) =>
        let '(rt, (rn, (pt, (pr, (ho, (op, pe)))))) := a in (rt, (rn, (pt, (pr, (ho, (op, (pe, [])))))))) l, []))
  | _, _ => None
  end.

(** The protocol's numbers of the APIs. *)
Definition kafka_key (b : rbody) : Z :=
  match b with
  | QProduce _ _ _ _ => 0 | QFetch _ _ _ _ _ _ _ _ _ => 1 | QListOffsets _ _ => 2 | QMetadata _ _ => 3
  | QOffsetCommit _ _ _ _ _ => 8 | QOffsetFetch _ _ => 9 | QFindCoordinator _ => 10 | QJoinGroup _ _ _ _ _ _ => 11
  | QHeartbeat _ _ _ => 12 | QLeaveGroup _ _ => 13 | QSyncGroup _ _ _ _ => 14 | QDescribeGroups _ => 15 | QListGroups _ _ => 16
  | QSaslHandshake _ => 17 | QApiVersions => 18 | QCreateTopics _ _ => 19 | QDeleteTopics _ _ => 20
  | QDescribeAcls _ _ _ _ _ _ _ => 29 | QCreateAcls _ => 30 | QDeleteAcls _ => 31 | QDescribeConfigs _ => 32 | QAlterConfigs _ _ => 33
  | QDescribeLogDirs _ => 35 | QSaslAuthenticate _ => 36 | QCreatePartitions _ _ _ => 37 | QDeleteGroups _ => 42
  | QElectLeaders _ _ => 43 | QIncrementalAlterConfigs _ _ => 44
  | QAlterPartitionReassignments _ _ => 45 | QListPartitionReassignments _ _ => 46
  end.
(** What must be on the wire for a request: length, header, body. *)
Definition request_bytes (b : rbody) (v corr : Z) (client : option bytes) (x : val) : bytes :=
  frame (header_bytes (flexibleb (kafka_key b) v) (kafka_key b) v corr client ++ val_bytes x).
