(** Model of the requests that a user of the package puts together from the exported functions: a New
    function, then the functions that set a field or add an entry, any number of times in any order.  The
    New functions and most of the others are those of Calls.v and Builders.v. *)
From Verif Require Import Base Records Requests Builders Calls.

(** alter_config_request.go:71-74, incremental_alter_config_request.go:76-79 SetValidateOnly *)
Definition SetValidateOnly (b : bool) (r : request) : request :=
  match snd r with
  | QAlterConfigs rs _ => (fst r, QAlterConfigs rs b)
  | QIncrementalAlterConfigs rs _ => (fst r, QIncrementalAlterConfigs rs b)
  | _ => r
  end.
(** alter_config_request.go:77-108 AddConfig; a refused addition leaves the request as it is *)
Definition alter_add (a : cfgadd) (r : request) : request :=
  match snd r with QAlterConfigs rs va => (fst r, QAlterConfigs (fst (ac_step rs a)) va) | _ => r end.
(** list_groups_request.go:32-34 SetStatesFilter; [None] is nil *)
Definition SetStatesFilter (l : option (list bytes)) (r : request) : request :=
  match snd r with QListGroups _ t => (fst r, QListGroups l t) | _ => r end.
(** list_groups_request.go:35-37 SetTypesFilter *)
Definition SetTypesFilter (l : option (list bytes)) (r : request) : request :=
  match snd r with QListGroups s _ => (fst r, QListGroups s l) | _ => r end.
(** create_topics_request.go:150-164 AddTopic, 172-207 AddReplicaAssignment; an error leaves the request as it is *)
Definition topics_step (r : request) (o : ctop) : request :=
  match snd r with QCreateTopics ts to => (fst r, QCreateTopics (fst (ct_step ts o)) to) | _ => r end.

(** calls of SetValidateOnly and AddConfig; SetStatesFilter and SetTypesFilter; SetGenerationID, SetMemberID,
    SetRetentionTime and AddPartiton *)
Inductive cfgstep := FValidate (b : bool) | FConfig (a : cfgadd).
Inductive lgstep := GStates (l : option (list bytes)) | GTypes (l : option (list bytes)).
Inductive ocstep := MGen (n : Z) | MMember (m : bytes) | MRetention (t : Z) | MPart (t : bytes) (p off : Z) (md : bytes).
(** alter_config_request.go:71-108 *)
Definition alter_step (r : request) (s : cfgstep) : request := match s with FValidate b => SetValidateOnly b r | FConfig a => alter_add a r end.
(** incremental_alter_config_request.go:76-115 *)
Definition incremental_step (r : request) (s : cfgstep) : request := match s with FValidate b => SetValidateOnly b r | FConfig a => incremental_add a r end.
(** list_groups_request.go:32-37 *)
Definition groups_step (r : request) (s : lgstep) : request := match s with GStates l => SetStatesFilter l r | GTypes l => SetTypesFilter l r end.
(** offset_commit_request.go:44-91 *)
Definition commit_step (r : request) (s : ocstep) : request :=
  match s with
  | MGen n => SetGenerationID n r | MMember m => SetMemberID m r | MRetention t => SetRetentionTime t r
  | MPart t p off md => commit_add t p off md r
  end.

(** what a user does *)
Inductive recipe :=
| RcAlterConfigs (l : list cfgstep)
| RcIncremental (l : list cfgstep)
| RcListGroups (l : list lgstep)
| RcCommit (ver : Z) (group : bytes) (l : list ocstep)
| RcCommitted (ver : Z) (group : bytes) (tps : list (bytes * Z))
| RcCreateTopics (timeout : Z) (l : list ctop)
| RcCreatePartitions (timeout : Z) (validate : bool) (l : list (bytes * (Z * option (list (list Z)))))
| RcLogDirs (topics : list bytes) (tps : list (bytes * Z))
| RcDescribeConfigs (l : list (Z * (bytes * option (list bytes))))
| RcDeleteGroups (groups : list bytes)
| RcDescribeGroups (groups : list bytes).
(** the request then: alter_config_request.go:62-108, incremental_alter_config_request.go:66-115,
    list_groups_request.go:19-37, offset_commit_request.go:27-91, offset_fetch_request.go:36-79,
    create_topics_request.go:131-207, create_partitions_request.go:18-29 and 123-140, describe_logdirs_request.go:18-50,
    describe_configs_request.go:58-68, delete_groups_request.go:14-24, describe_groups_request.go:14-21 *)
Definition compose (client : bytes) (rc : recipe) : request :=
  match rc with
  | RcAlterConfigs l => fold_left alter_step l (NewAlterConfigsRequest client)
  | RcIncremental l => fold_left incremental_step l (NewIncrementalAlterConfigsRequest client)
  | RcListGroups l => fold_left groups_step l (NewListGroupsRequest client)
  | RcCommit ver g l => fold_left commit_step l (NewOffsetCommitRequest ver client g)
  | RcCommitted ver g tps => fold_left (fun r a => fetch_add (fst a) (snd a) r) tps (NewOffsetFetchRequest ver client g)
  | RcCreateTopics to l => fold_left topics_step l (NewCreateTopicsRequest client to)
  | RcCreatePartitions to va l => fold_left (fun r a => partitions_add (fst a) (fst (snd a)) (snd (snd a)) r) l (NewCreatePartitionsRequest client to va)
  | RcLogDirs ts tps => fold_left logdirs_add tps (NewDescribeLogDirsRequest client ts)
  | RcDescribeConfigs l => NewDescribeConfigsRequest client l
  | RcDeleteGroups gs => NewDeleteGroupsRequest client gs
  | RcDescribeGroups gs => NewDescribeGroupsRequest client gs
  end.
