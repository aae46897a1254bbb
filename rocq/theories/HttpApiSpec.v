(** What requests to the HTTP interface are meant to ask (the comments of the handlers in
    apicontrollers/ and the routes of api.go). *)
From Coq Require Import String.
From Verif Require Import Base Text Http MoreSpec Calls Commands HttpApi.

(** ** How a client writes a URL (RFC 3986): everything but unreserved characters as %XX *)
Definition unreserved (c : Z) : bool :=
  ((48 <=? c) && (c <=? 57)) || ((65 <=? c) && (c <=? 90)) || ((97 <=? c) && (c <=? 122))
  || (c =? 45) || (c =? 46) || (c =? 95) || (c =? 126).
Definition hexdigit (d : Z) : Z := if d <? 10 then 48 + d else 55 + d.
Definition esc (s : bytes) : bytes :=
  flat_map (fun c => if unreserved c then [c] else [37; hexdigit (c / 16); hexdigit (c mod 16)]) s.
Definition url (path : list bytes) (q : list (bytes * bytes)) : bytes :=
  (47 :: join 47 (map esc path)) ++ 63 :: join 38 (map (fun kv => esc (fst kv) ++ 61 :: esc (snd kv)) q).

(** ** Parameters: [q] has exactly the values [vs] for [k], in this order, whatever else *)
Definition given (q : list (bytes * bytes)) (k : string) (vs : list bytes) : Prop :=
  filter (fun kv => beqb (fst kv) (lit k)) q = map (fun v => (lit k, v)) vs.

(** ** Bodies: the members of an object in any order, and others whose names differ from them
    by more than case *)
Definition case_of (c : Z) : Z := if (97 <=? c) && (c <=? 122) then c - 32 else c.
Definition object (fields : list (string * json)) (j : json) : Prop :=
  exists l extra, j = JObj l /\ Permutation (map (fun f => (lit (fst f), snd f)) fields ++ extra) l /\
    Forall (fun kv => Forall (fun f => map case_of (fst kv) <> map case_of (lit (fst f))) fields) extra.
Definition array {A} (R : A -> json -> Prop) (l : list A) (j : json) : Prop :=
  exists js, j = JArr js /\ Forall2 R l js.
Definition tp_object (tp : bytes * Z) (j : json) : Prop :=
  object [("topic"%string, JStr (fst tp)); ("partition"%string, JInt (snd tp))] j.
Definition reassign_object (a : bytes * (Z * list Z)) (j : json) : Prop :=
  object [("topic"%string, JStr (fst a)); ("partition"%string, JInt (fst (snd a))); ("replicas"%string, JArr (map JInt (snd (snd a))))] j.
Definition text_or_null (o : option bytes) : json := match o with Some s => JStr s | None => JNull end.
Definition filter_object (f : filter_t) (j : json) : Prop :=
  let '(rt, (rn, (pt, (pr, (ho, (op, pe)))))) := f in
  exists a b c d, says resource_texts (text_of a) rt /\ says pattern_texts (text_of b) pt /\
    says operation_texts (text_of c) op /\ says permission_texts (text_of d) pe /\
    object [("ResourceType"%string, JStr a); ("ResourceName"%string, text_or_null rn); ("PatternType"%string, JStr b);
            ("Principal"%string, text_or_null pr); ("Host"%string, text_or_null ho); ("Operation"%string, JStr c);
            ("PermissionType"%string, JStr d)] j.
Definition creation_object (f : creation_t) (j : json) : Prop :=
  let '(rt, (rn, (pt, (pr, (ho, (op, pe)))))) := f in
  exists a b c d, says resource_texts (text_of a) rt /\ says pattern_texts (text_of b) pt /\
    says operation_texts (text_of c) op /\ says permission_texts (text_of d) pe /\
    object [("ResourceType"%string, JStr a); ("ResourceName"%string, JStr rn); ("PatternType"%string, JStr b);
            ("Principal"%string, JStr pr); ("Host"%string, JStr ho); ("Operation"%string, JStr c); ("PermissionType"%string, JStr d)] j.

(** ** The operations *)
Inductive operation :=
| OpMetadata (topics : list bytes)                 (* none: of all topics *)
| OpOffsets (topic : bytes) (time : option Z)      (* "timestamp ... false": may be left out *)
| OpTopicLogDirs (topic : bytes)
| OpConfig (topic name : bytes)
| OpSetConfig (topic name value : bytes)
| OpTopicConfigs (topic : bytes)
| OpBrokerConfigs (id : Z)
| OpGroups
| OpGroup (group : bytes)
| OpPending (group topic : bytes)
| OpReassign (timeout : Z) (l : list (bytes * (Z * list Z)))
| OpElect (timeout : Z) (l : list (bytes * Z))
| OpReassignments (timeout : option Z) (l : list (bytes * Z))  (* none: all; a body may be left out then *)
| OpPartitions (topic : bytes) (count timeout : Z)
| OpLogDirs (topics : list bytes)
| OpDescribeAcls (f : filter_t)
| OpCreateAcls (l : list creation_t)
| OpDeleteAcls (l : list filter_t).

Definition op_method (o : operation) : method :=
  match o with
  | OpSetConfig _ _ _ | OpReassign _ _ | OpElect _ _ | OpReassignments _ _ | OpPartitions _ _ _ | OpLogDirs _ | OpDescribeAcls _ | OpCreateAcls _ => POST
  | OpDeleteAcls _ => DELETE
  | _ => GET
  end.
Definition op_path (o : operation) : list bytes :=
  match o with
  | OpMetadata _ => [lit "metadata"]
  | OpOffsets t _ => [lit "topic"; t; lit "offsets"]
  | OpTopicLogDirs t => [lit "topic"; t; lit "logdirs"]
  | OpConfig t n => [lit "topic"; t; lit "config"; n]
  | OpSetConfig t n v => [lit "topic"; t; lit "config"; n; v]
  | OpTopicConfigs t => [lit "configs"; lit "topic"; t]
  | OpBrokerConfigs n => [lit "configs"; lit "broker"; decimal n]
  | OpGroups => [lit "groups"]
  | OpGroup g => [lit "group"; g]
  | OpPending g t => [lit "group"; g; lit "pending"; t]
  | OpReassign _ _ => [lit "alter-partition-reassignments"]
  | OpElect _ _ => [lit "elect-leaders"]
  | OpReassignments _ _ => [lit "list-partition-reassignments"]
  | OpPartitions _ _ _ => [lit "create-partitions"]
  | OpLogDirs _ => [lit "describe-logdirs"]
  | OpDescribeAcls _ => [lit "describe-acls"]
  | OpCreateAcls _ => [lit "create-acls"]
  | OpDeleteAcls _ => [lit "delete-acls"]
  end.
Definition op_query (o : operation) (q : list (bytes * bytes)) : Prop :=
  match o with
  | OpMetadata ts => given q "topics" ts
  | OpOffsets _ t => given q "timestamp" (match t with Some t => [decimal t] | None => [] end)
  | OpReassign t _ | OpElect t _ => given q "timeout" [decimal t]
  | OpReassignments t _ => given q "timeout" (match t with Some t => [decimal t] | None => [] end)
  | _ => True
  end.
Definition op_body (o : operation) (b : hbody) : Prop :=
  match o with
  | OpReassign _ l => exists j, b = BJson j /\ array reassign_object l j
  | OpElect _ l => exists j, b = BJson j /\ array tp_object l j
  | OpReassignments _ l => (l = [] /\ b = BEmpty) \/ exists j, b = BJson j /\ array tp_object l j
  | OpPartitions t n ms => exists j, b = BJson j /\ object [("topic"%string, JStr t); ("count"%string, JInt n); ("timeout"%string, JInt ms)] j
  | OpLogDirs ts => exists j, b = BJson j /\ object [("topics"%string, JArr (map JStr ts))] j
  | OpDescribeAcls f => exists j, b = BJson j /\ filter_object f j
  | OpCreateAcls l => exists j, b = BJson j /\ array creation_object l j
  | OpDeleteAcls l => exists j, b = BJson j /\ array filter_object l j
  | _ => True
  end.
(** what the cluster is to be asked; resource types: 2 topic, 4 broker; offsets: -1 is the end *)
Definition op_wants (o : operation) : ask :=
  match o with
  | OpMetadata ts => ACall AnyBroker (CKMetadata (match ts with [] => None | _ => Some ts end))
  | OpOffsets t time => AOffsets t (match time with Some x => x | None => -1 end)
  | OpTopicLogDirs t => ALogDirs [t]
  | OpConfig t n => ACall TheController (CKDescribeConfigs 2 t (Some [n]))
  | OpSetConfig t n v => ACall TheController (CKAlterConfig 2 t n v)
  | OpTopicConfigs t => ACall TheController (CKDescribeConfigs 2 t None)
  | OpBrokerConfigs n => ACall (Node n) (CKDescribeConfigs 4 (decimal n) None)
  | OpGroups => ACall EveryBroker CKListGroups
  | OpGroup g => ACall (TheCoordinator g) (CKDescribeGroup g)
  | OpPending g t => APending g t
  | OpReassign ms l => ACall TheController (CKAlterReassignments ms l)
  | OpElect ms l => ACall TheController (CKElectLeaders ms l)
  | OpReassignments ms l => ACall TheController (CKListReassignments (match ms with Some ms => ms | None => 30000 end) l)
  | OpPartitions t n ms => ACall TheController (CKCreatePartitions t n None ms false)
  | OpLogDirs ts => ALogDirs ts
  | OpDescribeAcls (rt, (rn, (pt, (pr, (ho, (op, pe)))))) => ACall TheController (CKDescribeAcls rt rn pt pr ho op pe)
  | OpCreateAcls l => ACall TheController (CKCreateAcls l)
  | OpDeleteAcls l => ACall TheController (CKDeleteAcls l)
  end.
(** values are bytes and Kafka's integers *)
Definition int32 (z : Z) : Prop := - 2 ^ 31 <= z < 2 ^ 31.
Definition op_typed (o : operation) : Prop :=
  Forall bytes_ok (op_path o) /\
  match o with
  | OpOffsets _ (Some t) => - 2 ^ 63 <= t < 2 ^ 63
  | OpBrokerConfigs n => 0 <= n < 2 ^ 31
  | OpReassign ms l => int32 ms /\ Forall (fun a => int32 (fst (snd a)) /\ Forall int32 (snd (snd a))) l
  | OpElect ms l => int32 ms /\ Forall (fun a => int32 (snd a)) l
  | OpReassignments ms l => match ms with Some ms => int32 ms | None => True end /\ Forall (fun a => int32 (snd a)) l
  | OpPartitions _ n ms => int32 n /\ 0 <= ms < 2 ^ 31
  | _ => True
  end.
(** [op_served o b]: what is left out of the theorem, because it is refuted: names that do not fit in a
    piece of a path, offsets without a time, a listing without a body *)
Definition op_served (o : operation) (b : hbody) : Prop :=
  Forall (fun w => w <> [] /\ ~ In 47 w) (op_path o) /\
  match o with
  | OpOffsets _ None => False
  | OpReassignments _ _ => b <> BEmpty
  | _ => True
  end.

(** ** Requests that change something in the cluster.  A broker may create the topics a
    metadata request of version 4 or more names if the request allows it. *)
Definition changes (c : call) : Prop :=
  match c with
  | CKCreateTopics _ _ _ _ | CKDeleteTopics _ _ | CKCreatePartitions _ _ _ _ _ | CKDeleteGroup _ | CKCreateAcls _ | CKDeleteAcls _
  | CKAlterConfig _ _ _ _ | CKElectLeaders _ _ | CKAlterReassignments _ _ | CKCommit _ _ _ _ _ _ | CKJoinGroup _ _ _ _ _
  | CKSyncGroup _ _ _ _ | CKLeaveGroup _ _ => True
  | _ => False
  end.
