(** Model of how settings take effect: the version tags of structs (healer_tags.go), the names
    of APIs (apiversions_response.go), the settings of connections (config.go, broker.go), and
    the intervals of the tickers. *)
From Coq Require Import String Ascii.
From Verif Require Import Base Text SettingsSpec.

(** ** healer_tags.go *)

(** healer_tags.go:14-22: one field, given by its tag; [None]: no entry *)
Definition tag_version (tag : bytes) : option Z :=
  match tag with
  | [] => None
  | _ => match split 58 tag with
         | name :: v :: _ =>
             if negb (beqb v []) && beqb name (txt "minVersion")
             then match atoi v with Some x => Some (uint 16 x) | None => None end
             else None
         | _ => None
         end
  end.
(** writing into the map *)
Fixpoint tput (k : bytes) (v : Z) (m : list (bytes * Z)) : list (bytes * Z) :=
  match m with
  | [] => [(k, v)]
  | (k', v') :: m' => if beqb k' k then (k, v) :: m' else (k', v') :: tput k v m'
  end.
(** reading from it: 0 for a missing key *)
Fixpoint tget (k : bytes) (m : list (bytes * Z)) : Z :=
  match m with
  | [] => 0
  | (k', v) :: m' => if beqb k' k then v else tget k m'
  end.
(** healer_tags.go:9-25.  A struct is given by its fields in order: name, and the text of the
    healer tag ("" without one; the parsing of tag strings by package reflect is left out). *)
Definition healerTags (fields : list (bytes * bytes)) : list (bytes * Z) :=
  fold_left (fun m f => match tag_version (snd f) with Some v => tput (fst f) v m | None => m end) fields [].

(** the structs with tags *)
(** list_groups_request.go:10-15 *)
Definition s_ListGroupsRequest : list (bytes * bytes) :=
  [(txt "RequestHeader", []); (txt "StatesFilter", txt "minVersion:4"); (txt "TypesFilter", txt "minVersion:5"); (txt "TaggedFields", [])].
(** list_groups_response.go:12-18 *)
Definition s_Group : list (bytes * bytes) :=
  [(txt "GroupID", []); (txt "ProtocolType", []); (txt "GroupState", txt "minVersion:4"); (txt "GroupType", txt "minVersion:5"); (txt "TaggedFields", [])].
(** list_groups_response.go:19-25 *)
Definition s_ListGroupsResponse : list (bytes * bytes) :=
  [(txt "ResponseHeader", []); (txt "ThrottleTimeMS", txt "minVersion:1"); (txt "ErrorCode", []); (txt "Groups", []); (txt "TaggedFields", [])].
(** produce_request.go:24-31 *)
Definition s_ProduceRequest : list (bytes * bytes) :=
  [(txt "RequestHeader", []); (txt "transactionalID", txt "minVersion:3"); (txt "RequiredAcks", []); (txt "Timeout", []);
   (txt "TopicBlocks", []); (txt "TaggedFields", [])].
(** produce_response.go:15-28 *)
Definition s_produceResponseP : list (bytes * bytes) :=
  [(txt "PartitionID", []); (txt "ErrorCode", []); (txt "BaseOffset", []); (txt "LogAppendTimeMs", txt "minVersion:3");
   (txt "LogStartOffset", txt "minVersion:5"); (txt "RecordErrors", txt "minVersion:8"); (txt "ErrorMessage", txt "minVersion:8"); (txt "TaggedField", [])].

(** the conditions [version >= tags["..."]]: the struct, the key, and what is behind it *)
Definition tag_of (f : vfield) : list (bytes * bytes) * bytes :=
  match f with
  | VStatesFilter => (s_ListGroupsRequest, txt "StatesFilter")      (* list_groups_request.go:82 *)
  | VTypesFilter => (s_ListGroupsRequest, txt "TypesFilter")        (* list_groups_request.go:104 *)
  | VGroupState => (s_Group, txt "GroupState")                      (* list_groups_response.go:61, 74, 159, 168 *)
  | VGroupType => (s_Group, txt "GroupType")                        (* list_groups_response.go:65, 78, 162, 171 *)
  | VListThrottle => (s_ListGroupsResponse, txt "ThrottleTimeMS")   (* list_groups_response.go:106, 196 *)
  | VTransactionalId => (s_ProduceRequest, txt "StatesFilter")      (* produce_request.go:122 *)
  | VLogAppendTime => (s_produceResponseP, txt "GroupState")        (* produce_response.go:53 *)
  | VLogStartOffset => (s_produceResponseP, txt "LogStartOffset")   (* produce_response.go:58 *)
  | VRecordErrors => (s_produceResponseP, txt "RecordErrors")       (* produce_response.go:63 *)
  | VErrorMessage => (s_produceResponseP, txt "ErrorMessage")       (* produce_response.go:92 *)
  end.
(** whether the field is written or read *)
Definition present (f : vfield) (version : Z) : bool :=
  let (s, k) := tag_of f in tget k (healerTags s) <=? version.

(** ** apiversions_response.go *)

(** the cases of apiversions_response.go:11-129, in order *)
Definition api_cases : list (Z * string) :=
  [(0, "Produce"); (1, "Fetch"); (2, "ListOffsets"); (3, "Metadata"); (4, "LeaderAndIsr"); (5, "StopReplica"); (6, "UpdateMetadata");
   (7, "ControlledShutdown"); (8, "OffsetCommit"); (9, "OffsetFetch"); (10, "FindCoordinator"); (11, "JoinGroup"); (12, "Heartbeat");
   (13, "LeaveGroup"); (14, "SyncGroup"); (15, "DescribeGroups"); (16, "ListGroups"); (17, "SaslHandshake"); (18, "ApiVersions");
   (19, "CreateTopics"); (20, "DeleteTopics"); (21, "DeleteRecords"); (22, "InitProducerId"); (23, "OffsetForLeaderEpoch");
   (24, "AddPartitionsToTxn"); (25, "AddOffsetsToTxn"); (26, "EndTxn"); (27, "WriteTxnMarkers"); (28, "TxnOffsetCommit"); (29, "DescribeAcls");
   (30, "CreateAcls"); (31, "DeleteAcls"); (32, "DescribeConfigs"); (33, "AlterConfigs"); (34, "AlterReplicaLogDirs"); (35, "DescribeLogDirs");
   (36, "SaslAuthenticate"); (37, "CreatePartitions"); (38, "CreateDelegationToken"); (39, "RenewDelegationToken"); (40, "ExpireDelegationToken");
   (41, "DescribeDelegationToken"); (42, "DeleteGroups"); (43, "ElectLeaders"); (44, "IncrementalAlterConfigs"); (45, "AlterPartitionReassignments");
   (46, "ListPartitionReassignments"); (47, "OffsetDelete"); (48, "DescribeClientQuotas"); (49, "AlterClientQuotas");
   (50, "DescribeUserScramCredentials"); (51, "AlterUserScramCredentials"); (56, "AlterIsr"); (57, "UpdateFeatures"); (60, "DescribeCluster");
   (61, "DescribeProducers"); (65, "DescribeTransactions"); (66, "ListTransactions"); (67, "AllocateProducerIds")]%string.
(** apiversions_response.go:10-133 ApiKey.String *)
Definition api_string (k : Z) : bytes :=
  txt (match find (fun x => fst x =? k) api_cases with Some (_, n) => n | None => "Unknown"%string end).
(** broker.go:91-98: the text of the versions a broker announced *)
Definition version_text (v : Z * Z * Z) : bytes :=
  let '(k, lo, hi) := v in api_string k ++ [58] ++ decimal lo ++ [45] ++ decimal hi.
Fixpoint versions_text (i n : nat) (l : list (Z * Z * Z)) : bytes :=
  match l with
  | [] => []
  | v :: l' => (if Nat.eqb (S i) n then version_text v else version_text v ++ [44]) ++ versions_text (S i) n l'
  end.

(** ** connections *)

(** config.go:10-15 NetConfig, 17-23 TLSConfig, 25-29 SaslConfig *)
Record netconf := mkNet { n_connect : Z; n_timeout : Z; n_each : list Z; n_keepalive : Z }.
Record tlsconf := mkTls { t_cert : bytes; t_key : bytes; t_ca : bytes; t_skip : bool; t_name : bytes }.
Record saslconf := mkSasl { s_mechanism : bytes; s_user : bytes; s_password : bytes }.
(** config.go:31-37 BrokerConfig *)
Record bconf := mkB { b_net : netconf; b_sasl : saslconf; b_refresh : Z; b_on : bool; b_tls : option tlsconf }.
(** the fields of ConsumerConfig (config.go:84-108) and of ProducerConfig (192-222) about
    connections; they are the same.  [u_boot]: BootstrapServers *)
Record userconf := mkU { u_net : netconf; u_sasl : saslconf; u_refresh : Z; u_on : bool; u_tls : option tlsconf; u_boot : bytes }.

(** config.go:39-50 *)
Definition DefaultBrokerConfig : bconf := mkB (mkNet 10000 30000 [] 7200000) (mkSasl [] [] []) 300000 false None.
(** config.go:52-63 *)
Definition getBrokerConfigFromConsumerConfig (c : userconf) : bconf :=
  mkB (u_net c) (u_sasl c) (if 0 <? u_refresh c then u_refresh c else b_refresh DefaultBrokerConfig) (u_on c) (u_tls c).
(** config.go:65-75 *)
Definition getBrokerConfigFromProducerConfig (p : userconf) : bconf :=
  mkB (u_net p) (u_sasl p) (if 0 <? u_refresh p then u_refresh p else b_refresh DefaultBrokerConfig) (u_on p) (u_tls p).

(** time.Millisecond * time.Duration(x): nanoseconds in int64 *)
Definition millis (x : Z) : Z := sint 64 (1000000 * x).

(** crypto/tls DialWithDialer: without a ServerName the name to check is the host of the
    address, the text before the last colon *)
Fixpoint before_last (c : Z) (s : bytes) : option bytes :=
  match s with
  | [] => None
  | x :: s' => match before_last c s' with
               | Some p => Some (x :: p)
               | None => if x =? c then Some [] else None
               end
  end.
Definition host_of (address : bytes) : bytes := match before_last 58 address with Some h => h | None => address end.

(** broker.go:131-157; the result is the part of [dialing] about TLS *)
Definition createTLSConfig (d : disk) (address : bytes) (t : tlsconf) : res (bytes * bytes * list bytes * bool * bytes) :=
  if pair_ok d (t_cert t) (t_key t)
  then match file d (t_ca t) with
       | None => Err EConn
       | Some pem => Ok (t_cert t, t_key t, certs_in d pem, t_skip t, if beqb (t_name t) [] then host_of address else t_name t)
       end
  else Err EConn.
(** broker.go:110-129: what is dialed; EConn stands for all errors before that *)
Definition newConn (d : disk) (address : bytes) (c : bconf) : res dialing :=
  let dial := mkD (millis (n_connect (b_net c))) (millis (n_keepalive (b_net c))) in
  if b_on c
  then match b_tls c with
       | None => Err EConn
       | Some t => if beqb (t_cert t) [] || beqb (t_key t) [] || beqb (t_ca t) [] then Err EConn
                   else rbind (createTLSConfig d address t) (fun x => Ok (dial (Some x)))
       end
  else Ok (dial None).

(** The connections made for a client: one for each address, whoever needs it.  [mine]: made
    for a consumer (consumer.go:27-28, group_consumer.go:70-71, simple_consumer.go:101-104), a
    producer (simple_producer.go:39-40, producer.go:50-51) or a Client (client.go:25,
    brokers.go:63-65, no settings).  All handles get the settings of their Brokers
    (brokers.go:44, 119, 147, 184, 211), also when they are opened again (broker.go:212, 69-70). *)
Inductive owner := ForConsumer (c : userconf) | ForProducer (p : userconf) | ForClient.
Definition conf_of (o : owner) : bconf :=
  match o with
  | ForConsumer c => getBrokerConfigFromConsumerConfig c
  | ForProducer p => getBrokerConfigFromProducerConfig p
  | ForClient => DefaultBrokerConfig
  end.
Definition connect (d : disk) (o : owner) (address : bytes) : res dialing := newConn d address (conf_of o).

(** broker.go:101-106 and 158-164: who logs in on each of them, and how; [None]: nobody *)
Definition login (o : owner) : option (bytes * bytes * bytes) :=
  let s := b_sasl (conf_of o) in
  if beqb (s_mechanism s) [] then None else Some (s_mechanism s, s_user s, s_password s).

(** ** tickers *)

(** time.NewTicker: panics for an interval that is not positive *)
Definition newTicker (ns : Z) : res Z := if 0 <? ns then Ok ns else Panic.
(** the intervals settings ask for, in milliseconds; the session timeout is an int32 *)
Record intervals := mkI { i_flush : Z; i_age : Z; i_session : Z; i_commit : Z; i_auto : bool; i_group : bytes }.
(** simple_producer.go:117: flush; only reached with a valid configuration (config.go:297) *)
Definition flush_ticker (c : intervals) : res Z := newTicker (millis (i_flush c)).
(** producer.go:70 and group_consumer.go:438 *)
Definition meta_ticker (c : intervals) : res Z := newTicker (millis (i_age c)).
(** group_consumer.go:475: time.Millisecond * Duration / 10, Go division rounds to zero *)
Definition heartbeat_ticker (c : intervals) : res Z := newTicker (Z.quot (millis (i_session c)) 10).
(** simple_consumer.go:379-381: [None]: no automatic commits *)
Definition commit_ticker (c : intervals) : res (option Z) :=
  if i_auto c && negb (beqb (i_group c) []) then rbind (newTicker (millis (i_commit c))) (fun x => Ok (Some x)) else Ok None.
