(** Model of the functions that make requests: the New functions of the *_request.go files,
    the calls of broker.go and client.go that use them, and the requests the consumers and
    the commands build from them.  A call is modelled up to the request it hands to
    RequestAndGet (requestFetchStreamingly); where it goes and what comes back is in
    Brokers.v, Consumer.v, Gcons.v and Commands.v.  The client id is a Go string, so it is
    present even if empty. *)
From Verif Require Import Base Records Requests Builders Names.

(** request.go:62-69: a header with a key, a version and a client id; the rest is zero *)
Definition new_header (key ver : Z) (client : option bytes) : rhdr := mkH None key ver 0 client.

(** apiversions_request.go:9-18 *)
Definition NewApiVersionsRequest (client : bytes) : request := (new_header 18 0 (Some client), QApiVersions).
(** list_groups_request.go:19-30 *)
Definition NewListGroupsRequest (client : bytes) : request := (new_header 16 0 (Some client), QListGroups (Some []) (Some [])).
(** metadata_request.go:61-72 *)
Definition NewMetadataRequest (client : bytes) (topics : option (list bytes)) : request :=
  (new_header 3 0 (Some client), QMetadata topics true).
(** offset_request.go:25-31: the keys of the map after the loop, by the first time each was set *)
Definition map_keys (pids : list Z) : list Z := fold_left (fun m p => add_pid p m) pids [].
(** offset_request.go:19-42; [ord]: the order in which Encode walks the map of partitions
    (offset_request.go:44-91) *)
Definition NewOffsetsRequest (ord : list Z -> list Z) (topic : bytes) (pids : list Z) (time num : Z) (client : bytes) : request :=
  (new_header 2 0 (Some client), QListOffsets (-1) [(topic, map (fun p => (p, (time, num))) (ord (map_keys pids)))]).
(** fetch_request.go:31-48 *)
Definition NewFetchRequest (client : bytes) (maxwait minbytes : Z) : request :=
  (new_header 1 10 (Some client), QFetch (-1) maxwait minbytes 0 0 0 0 [] []).
(** fetch_request.go:50-65; MaxBytes is an int32 *)
Definition addPartition (r : request) (topic : bytes) (pid off maxbytes epoch : Z) : request :=
  match snd r with
  | QFetch re mw mi mb is se ep ts fs =>
      (fst r, QFetch re mw mi (sint 32 (mb + maxbytes)) is se ep
                (at_name topic (fun ps => ps ++ [(pid, (epoch, (off, (0, maxbytes))))]) [(pid, (epoch, (off, (0, maxbytes))))] ts) fs)
  | _ => r
  end.
(** findcoordinator_request.go:28-39 *)
Definition NewFindCoordinatorRequest (client group : bytes) : request := (new_header 10 0 (Some client), QFindCoordinator group).
(** joingroup_request.go:29-40 *)
Definition NewJoinGroupRequest (ver : Z) (client : bytes) : request := (new_header 11 ver (Some client), QJoinGroup [] 0 0 [] [] []).
(** sync_group_request.go:13-27; the assignment is already encoded *)
Definition NewSyncGroupRequest (client group : bytes) (gen : Z) (member : bytes) (asg : list (bytes * bytes)) : request :=
  (new_header 14 0 (Some client), QSyncGroup group gen member asg).
(** heartbeat_request.go:27-39 *)
Definition NewHeartbeatRequest (client group : bytes) (gen : Z) (member : bytes) : request :=
  (new_header 12 0 (Some client), QHeartbeat group gen member).
(** leave_group_request.go:22-34 *)
Definition NewLeaveGroupRequest (client group member : bytes) : request := (new_header 13 0 (Some client), QLeaveGroup group member).
(** offset_fetch_request.go:36-51 *)
Definition NewOffsetFetchRequest (ver : Z) (client group : bytes) : request := (new_header 9 ver (Some client), QOffsetFetch group []).
(** offset_commit_request.go:27-42 *)
Definition NewOffsetCommitRequest (ver : Z) (client group : bytes) : request :=
  (new_header 8 ver (Some client), QOffsetCommit group 0 [] 0 []).
(** offset_commit_request.go:44-46 SetGenerationID *)
Definition SetGenerationID (gen : Z) (r : request) : request :=
  match snd r with QOffsetCommit g _ m re ts => (fst r, QOffsetCommit g gen m re ts) | _ => r end.
(** offset_commit_request.go:48-50 SetMemberID *)
Definition SetMemberID (m : bytes) (r : request) : request :=
  match snd r with QOffsetCommit g n _ re ts => (fst r, QOffsetCommit g n m re ts) | _ => r end.
(** offset_commit_request.go:52-54 SetRetentionTime *)
Definition SetRetentionTime (t : Z) (r : request) : request :=
  match snd r with QOffsetCommit g n m _ ts => (fst r, QOffsetCommit g n m t ts) | _ => r end.
(** offset_commit_request.go:56-91 AddPartiton *)
Definition commit_add (t : bytes) (p off : Z) (md : bytes) (r : request) : request :=
  match snd r with QOffsetCommit g n m re ts => (fst r, QOffsetCommit g n m re (oc_add ts t p off md)) | _ => r end.
(** offset_fetch_request.go:53-79 AddPartiton *)
Definition fetch_add (t : bytes) (p : Z) (r : request) : request :=
  match snd r with QOffsetFetch g ts => (fst r, QOffsetFetch g (of_add ts t p)) | _ => r end.
(** delete_topics_request.go:15-26 *)
Definition NewDeleteTopicsRequest (client : bytes) (topics : list bytes) (timeout : Z) : request :=
  (new_header 20 0 (Some client), QDeleteTopics topics timeout).
(** create_topics_request.go:131-143; the timeout is a uint32 *)
Definition NewCreateTopicsRequest (client : bytes) (timeout : Z) : request := (new_header 19 0 (Some client), QCreateTopics [] timeout).
(** create_topics_request.go:150-164 AddTopic; [None]: errorDumplicatedTopic *)
Definition topic_add (t : bytes) (n rf : Z) (r : request) : option request :=
  match snd r with
  | QCreateTopics ts to => match ct_add ts t n rf with Some ts' => Some (fst r, QCreateTopics ts' to) | None => None end
  | _ => Some r
  end.
(** create_partitions_request.go:18-29: the uint32 timeout becomes an int32 *)
Definition NewCreatePartitionsRequest (client : bytes) (timeout : Z) (validate : bool) : request :=
  (new_header 37 0 (Some client), QCreatePartitions [] (sint 32 timeout) validate).
(** create_partitions_request.go:123-140 AddTopic *)
Definition partitions_add (t : bytes) (n : Z) (a : option (list (list Z))) (r : request) : request :=
  match snd r with QCreatePartitions ts to va => (fst r, QCreatePartitions (cp_add ts t n a) to va) | _ => r end.
(** delete_groups_request.go:14-24 *)
Definition NewDeleteGroupsRequest (client : bytes) (groups : list bytes) : request := (new_header 42 0 (Some client), QDeleteGroups groups).
(** delete_acls_request.go:80-90 *)
Definition NewDeleteAclsRequest (client : bytes) (filters : list (Z * (option bytes * (Z * (option bytes * (option bytes * (Z * Z))))))) : request :=
  (new_header 31 0 (Some client), QDeleteAcls filters).
(** describe_configs_request.go:58-68 *)
Definition NewDescribeConfigsRequest (client : bytes) (rs : list (Z * (bytes * option (list bytes)))) : request :=
  (new_header 32 0 (Some client), QDescribeConfigs rs).
(** describe_logdirs_request.go:18-29 *)
Definition NewDescribeLogDirsRequest (client : bytes) (topics : list bytes) : request :=
  (new_header 35 0 (Some client), QDescribeLogDirs (map (fun t => (t, [])) topics)).
(** describe_logdirs_request.go:32-50 AddTopicPartition *)
Definition logdirs_add (r : request) (tp : bytes * Z) : request :=
  match snd r with QDescribeLogDirs ts => (fst r, QDescribeLogDirs (ld_add ts (fst tp) (snd tp))) | _ => r end.
(** describe_groups_request.go:14-21 *)
Definition NewDescribeGroupsRequest (client : bytes) (groups : list bytes) : request := (new_header 15 0 (Some client), QDescribeGroups groups).
(** incremental_alter_config_request.go:66-73 *)
Definition NewIncrementalAlterConfigsRequest (client : bytes) : request := (new_header 44 0 (Some client), QIncrementalAlterConfigs [] false).
(** alter_config_request.go:62-68 *)
Definition NewAlterConfigsRequest (client : bytes) : request := (new_header 33 0 (Some client), QAlterConfigs [] false).
(** incremental_alter_config_request.go:82-115 AddConfig; a refused addition leaves the request as it is *)
Definition incremental_add (a : cfgadd) (r : request) : request :=
  match snd r with QIncrementalAlterConfigs rs va => (fst r, QIncrementalAlterConfigs (fst (iac_step rs a)) va) | _ => r end.
(** elect_leaders_request.go:19-27: no client id *)
Definition NewElectLeadersRequest (timeout : Z) : request := (new_header 43 0 None, QElectLeaders [] timeout).
(** elect_leaders_request.go:30-42 Add *)
Definition elect_add (r : request) (tp : bytes * Z) : request :=
  match snd r with QElectLeaders ts to => (fst r, QElectLeaders (el_add ts (fst tp) (snd tp)) to) | _ => r end.
(** alter_partition_reassignments_request.go:18-24: no client id *)
Definition NewAlterPartitionReassignmentsRequest (timeout : Z) : request :=
  (new_header 45 0 None, QAlterPartitionReassignments timeout []).
(** alter_partition_reassignments_request.go:28-48 AddAssignment *)
Definition reassign_add (r : request) (a : bytes * (Z * list Z)) : request :=
  match snd r with
  | QAlterPartitionReassignments to ts => (fst r, QAlterPartitionReassignments to (ar_add ts (fst a) (fst (snd a)) (snd (snd a))))
  | _ => r
  end.
(** list_partition_reassignments_request.go:20-31: Topics is nil *)
Definition NewListPartitionReassignmentsRequest (client : bytes) (timeout : Z) : request :=
  (new_header 46 0 (Some client), QListPartitionReassignments timeout None).
(** list_partition_reassignments_request.go:34-56 AddTP; append makes a slice of nil *)
Definition listing_add (r : request) (tp : bytes * Z) : request :=
  match snd r with
  | QListPartitionReassignments to ts => (fst r, QListPartitionReassignments to (Some (lr_add (olist ts) (fst tp) (snd tp))))
  | _ => r
  end.
(** sasl_handshake_request.go:32-38 *)
Definition NewSaslHandShakeRequest (client mechanism : bytes) : request := (new_header 17 0 (Some client), QSaslHandshake mechanism).

(** The calls.  Timeouts of CKCreateTopics and CKCreatePartitions and the number of offsets
    of CKOffsets are uint32. *)
Inductive call :=
| CKApiVersions
| CKListGroups
| CKMetadata (topics : option (list bytes))
| CKOffsets (topic : bytes) (pids : list Z) (time num : Z)
| CKFetch (topic : bytes) (pid off maxwait minbytes maxbytes epoch : Z)
| CKFindCoordinator (group : bytes)
| CKJoinGroup (group : bytes) (session : Z) (member ptype : bytes) (protos : list (bytes * bytes))
| CKSyncGroup (group : bytes) (gen : Z) (member : bytes) (asg : list (bytes * bytes))
| CKHeartbeat (group : bytes) (gen : Z) (member : bytes)
| CKLeaveGroup (group member : bytes)
| CKCommitted (storage : Z) (group topic : bytes) (pid : Z)
| CKCommit (storage : Z) (group : bytes) (as_member : option (Z * bytes)) (topic : bytes) (pid off : Z)
| CKDeleteTopics (topics : list bytes) (timeout : Z)
| CKCreateTopics (topics : list bytes) (n rf timeout : Z)
| CKCreatePartitions (topic : bytes) (n : Z) (asg : option (list (list Z))) (timeout : Z) (validate : bool)
| CKDeleteGroup (group : bytes)
| CKDescribeGroup (group : bytes)
| CKDescribeAcls (rtype : Z) (rname : option bytes) (ptype : Z) (principal host : option bytes) (op perm : Z)
| CKCreateAcls (acls : list (Z * (bytes * (Z * (bytes * (bytes * (Z * Z)))))))
| CKDeleteAcls (filters : list (Z * (option bytes * (Z * (option bytes * (option bytes * (Z * Z)))))))
| CKDescribeConfigs (rtype : Z) (rname : bytes) (keys : option (list bytes))
| CKAlterConfig (rtype : Z) (rname name value : bytes)
| CKLogDirs (tps : list (bytes * Z))
| CKElectLeaders (timeout : Z) (tps : list (bytes * Z))
| CKAlterReassignments (timeout : Z) (asgs : list (bytes * (Z * list Z)))
| CKListReassignments (timeout : Z) (tps : list (bytes * Z))
| CKHandshake (mechanism : bytes)
| CKAuthenticate (user password mechanism : bytes).

(** client.go:190-197: the topics are added one after the other; the first refusal ends the call *)
Fixpoint add_topics (ts : list bytes) (n rf : Z) (r : request) : option request :=
  match ts with
  | [] => Some r
  | t :: ts' => match topic_add t n rf r with Some r' => add_topics ts' n rf r' | None => None end
  end.

(** The request handed over for sending; [None]: there is none (duplicate topic, bad storage setting: the call
    returns an error; unknown mechanism: see Names.v).
    broker.go:322-328 requestAPIVersions, 339-342 RequestListGroups, 349-352 requestMetaData, 360-363 requestOffsets,
    391-394 findCoordinator, 401-411 requestJoinGroup (the protocol added at line 408 is replaced at 409),
    418-421 requestSyncGroup, 428-431 requestHeartbeat, 438-440 requestLeaveGroup;
    simple_consumer.go:412-415 (fetch), 226-235 (committed offset), 297-309 (commit of a consumer without group),
    group_consumer.go:336-346 (commit of a member);
    client.go:149-159 DeleteTopics, 164-173 CreateTopic, 187-204 CreateTopics, 212-221 CreatePartitions,
    232-241 CreatePartitionsWithAssignments, 279-280 DeleteGroups, 299-312 DescribeAcls, 320-334 CreateAcls,
    342-350 DeleteAcls, 357-365 and 383 DescribeConfigs, 104-107 DescribeLogDirs;
    command/healer/cmd/describe-groups.go:47-48, alter-configs.go:53-56, elect-leaders.go:34-44,
    alter-partition-assignments.go:48-52, list-partition-reassignments.go:53-66;
    broker.go:166-167, 176-177 sendSaslAuthenticate (the client id there is fixed) *)
Definition call_request (ord : list Z -> list Z) (client : bytes) (c : call) : option request :=
  match c with
  | CKApiVersions => Some (NewApiVersionsRequest client)
  | CKListGroups => Some (NewListGroupsRequest client)
  | CKMetadata ts => Some (NewMetadataRequest client ts)
  | CKOffsets t ps time num => Some (NewOffsetsRequest ord t ps time num client)
  | CKFetch t p off mw mi mb ep => Some (addPartition (NewFetchRequest client mw mi) t p off mb ep)
  | CKFindCoordinator g => Some (NewFindCoordinatorRequest client g)
  | CKJoinGroup g s m pt gps =>
      let r := NewJoinGroupRequest 1 client in Some (fst r, QJoinGroup g s 60000 m pt gps)
  | CKSyncGroup g n m a => Some (NewSyncGroupRequest client g n m a)
  | CKHeartbeat g n m => Some (NewHeartbeatRequest client g n m)
  | CKLeaveGroup g m => Some (NewLeaveGroupRequest client g m)
  | CKCommitted st g t p =>
      if st =? 0 then Some (fetch_add t p (NewOffsetFetchRequest 0 client g))
      else if st =? 1 then Some (fetch_add t p (NewOffsetFetchRequest 1 client g)) else None
  | CKCommit st g who t p off =>
      let r := NewOffsetCommitRequest (if st =? 1 then 2 else 0) client g in
      let r := match who with
               | Some (n, m) => SetGenerationID n (SetMemberID m r)
               | None => SetGenerationID (-1) (SetMemberID [] r)
               end in
      Some (commit_add t p off [] (SetRetentionTime (-1) r))
  | CKDeleteTopics ts to => Some (NewDeleteTopicsRequest client ts to)
  | CKCreateTopics ts n rf to => add_topics ts n rf (NewCreateTopicsRequest client to)
  | CKCreatePartitions t n a to va => Some (partitions_add t n a (NewCreatePartitionsRequest client to va))
  | CKDeleteGroup g => Some (NewDeleteGroupsRequest client [g])
  | CKDescribeGroup g => Some (NewDescribeGroupsRequest client [g])
  | CKDescribeAcls rt rn pt pr ho op pe => Some (new_header 29 0 (Some client), QDescribeAcls rt rn pt pr ho op pe)
  | CKCreateAcls l => Some (new_header 30 0 (Some client), QCreateAcls l)
  | CKDeleteAcls l => Some (NewDeleteAclsRequest client l)
  | CKDescribeConfigs rt rn ks => Some (NewDescribeConfigsRequest client [(rt, (rn, ks))])
  | CKAlterConfig rt rn n v => Some (incremental_add (mkCA rt rn n v) (NewIncrementalAlterConfigsRequest client))
  | CKLogDirs tps => Some (fold_left logdirs_add tps (NewDescribeLogDirsRequest client []))
  | CKElectLeaders to tps => Some (fold_left elect_add tps (NewElectLeadersRequest to))
  | CKAlterReassignments to l => Some (fold_left reassign_add l (NewAlterPartitionReassignmentsRequest to))
  | CKListReassignments to tps => Some (fold_left listing_add tps (NewListPartitionReassignmentsRequest client to))
  | CKHandshake m => Some (NewSaslHandShakeRequest client m)
  | CKAuthenticate u p m =>
      match newSaslAuthenticate u p m with Some b => Some (new_header 36 0 (Some client), b) | None => None end
  end.
