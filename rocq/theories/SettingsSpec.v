(** Specification of names, struct tags, connections and intervals: what Kafka's documentation
    and the Go documentation say, without the model. *)
From Coq Require Import String Ascii.
From Verif Require Import Base Text.

(** text as bytes *)
Definition txt (s : string) : bytes := map (fun a => Z.of_nat (nat_of_ascii a)) (list_ascii_of_string s).

(** The APIs of Kafka 3.0 with their names (org.apache.kafka.common.protocol.ApiKeys). *)
Definition kafka_apis : list (Z * string) :=
  [(0, "Produce"); (1, "Fetch"); (2, "ListOffsets"); (3, "Metadata"); (4, "LeaderAndIsr"); (5, "StopReplica"); (6, "UpdateMetadata");
   (7, "ControlledShutdown"); (8, "OffsetCommit"); (9, "OffsetFetch"); (10, "FindCoordinator"); (11, "JoinGroup"); (12, "Heartbeat");
   (13, "LeaveGroup"); (14, "SyncGroup"); (15, "DescribeGroups"); (16, "ListGroups"); (17, "SaslHandshake"); (18, "ApiVersions");
   (19, "CreateTopics"); (20, "DeleteTopics"); (21, "DeleteRecords"); (22, "InitProducerId"); (23, "OffsetForLeaderEpoch");
   (24, "AddPartitionsToTxn"); (25, "AddOffsetsToTxn"); (26, "EndTxn"); (27, "WriteTxnMarkers"); (28, "TxnOffsetCommit");
   (29, "DescribeAcls"); (30, "CreateAcls"); (31, "DeleteAcls"); (32, "DescribeConfigs"); (33, "AlterConfigs"); (34, "AlterReplicaLogDirs");
   (35, "DescribeLogDirs"); (36, "SaslAuthenticate"); (37, "CreatePartitions"); (38, "CreateDelegationToken"); (39, "RenewDelegationToken");
   (40, "ExpireDelegationToken"); (41, "DescribeDelegationToken"); (42, "DeleteGroups"); (43, "ElectLeaders"); (44, "IncrementalAlterConfigs");
   (45, "AlterPartitionReassignments"); (46, "ListPartitionReassignments"); (47, "OffsetDelete"); (48, "DescribeClientQuotas");
   (49, "AlterClientQuotas"); (50, "DescribeUserScramCredentials"); (51, "AlterUserScramCredentials"); (52, "Vote"); (53, "BeginQuorumEpoch");
   (54, "EndQuorumEpoch"); (55, "DescribeQuorum"); (56, "AlterIsr"); (57, "UpdateFeatures"); (58, "Envelope"); (59, "FetchSnapshot");
   (60, "DescribeCluster"); (61, "DescribeProducers"); (62, "BrokerRegistration"); (63, "BrokerHeartbeat"); (64, "UnregisterBroker");
   (65, "DescribeTransactions"); (66, "ListTransactions"); (67, "AllocateProducerIds")]%string.
(** those that belong to the quorum of controllers and to the brokers, which brokers with
    ZooKeeper do not announce *)
Definition quorum_api (k : Z) : bool := existsb (Z.eqb k) [52; 53; 54; 55; 58; 59; 62; 63; 64].

(** The first version with a field (Kafka's message definitions, "versions" of the field). *)
Inductive vfield := VStatesFilter | VTypesFilter | VGroupState | VGroupType | VListThrottle
  | VTransactionalId | VLogStartOffset | VRecordErrors | VErrorMessage | VLogAppendTime.
Definition first_version (f : vfield) : Z :=
  match f with
  | VStatesFilter | VGroupState => 4
  | VTypesFilter | VGroupType => 5
  | VListThrottle => 1
  | VTransactionalId => 3
  | VLogAppendTime => 2
  | VLogStartOffset => 5
  | VRecordErrors | VErrorMessage => 8
  end.

(** A connection as it may be asked for.  Times are in nanoseconds. *)
Record dialing := mkD {
  d_timeout : Z; d_keepalive : Z;
  (** certificate and key to show, certificates to trust, whether the certificate of the broker
      is not checked, the name it has to have *)
  d_tls : option (bytes * bytes * list bytes * bool * bytes)
}.
(** the files a program can read: a certificate with its key, and the certificates in a file *)
Record disk := mkDisk {
  pair_ok : bytes -> bytes -> bool;          (** the two files hold a certificate and its key *)
  file : bytes -> option bytes;              (** the contents of a file *)
  certs_in : bytes -> list bytes             (** the certificates in a PEM text; ignores what is not *)
}.
