(** Model of errorcode.go. *)
From Coq Require Import String.
From Verif Require Import Base Responses.

(** errorcode.go:26-31 type Error; the description is left out *)
Record errrec := mkE { e_code : Z; e_msg : String.string; e_retriable : bool }.

(** errorcode.go:45-767 init: the assignments AllError[k] = &Error{...} in program order *)
Definition err_assigns : list (Z * errrec) := [
  ((-1), mkE (-1) "UNKNOWN_SERVER_ERROR" false);
  (1, mkE 1 "OFFSET_OUT_OF_RANGE" false);
  (2, mkE 2 "CORRUPT_MESSAGE" true);
  (3, mkE 3 "UNKNOWN_TOPIC_OR_PARTITION" true);
  (4, mkE 4 "INVALID_FETCH_SIZE" false);
  (5, mkE 5 "LEADER_NOT_AVAILABLE" true);
  (6, mkE 6 "NOT_LEADER_OR_FOLLOWER" true);
  (7, mkE 7 "REQUEST_TIMED_OUT" true);
  (8, mkE 8 "BROKER_NOT_AVAILABLE" false);
  (9, mkE 9 "REPLICA_NOT_AVAILABLE" true);
  (10, mkE 10 "MESSAGE_TOO_LARGE" false);
  (11, mkE 11 "STALE_CONTROLLER_EPOCH" false);
  (12, mkE 12 "OFFSET_METADATA_TOO_LARGE" false);
  (13, mkE 13 "NETWORK_EXCEPTION" true);
  (14, mkE 14 "COORDINATOR_LOAD_IN_PROGRESS" true);
  (15, mkE 15 "COORDINATOR_NOT_AVAILABLE" true);
  (16, mkE 16 "NOT_COORDINATOR" true);
  (17, mkE 17 "INVALID_TOPIC_EXCEPTION" false);
  (18, mkE 18 "RECORD_LIST_TOO_LARGE" false);
  (19, mkE 19 "NOT_ENOUGH_REPLICAS" true);
  (20, mkE 20 "NOT_ENOUGH_REPLICAS_AFTER_APPEND" true);
  (21, mkE 21 "INVALID_REQUIRED_ACKS" false);
  (22, mkE 22 "ILLEGAL_GENERATION" false);
  (23, mkE 23 "INCONSISTENT_GROUP_PROTOCOL" false);
  (24, mkE 24 "INVALID_GROUP_ID" false);
  (25, mkE 25 "UNKNOWN_MEMBER_ID" false);
  (26, mkE 26 "INVALID_SESSION_TIMEOUT" false);
  (27, mkE 27 "REBALANCE_IN_PROGRESS" false);
  (28, mkE 28 "INVALID_COMMIT_OFFSET_SIZE" false);
  (29, mkE 29 "TOPIC_AUTHORIZATION_FAILED" false);
  (30, mkE 30 "GROUP_AUTHORIZATION_FAILED" false);
  (31, mkE 31 "CLUSTER_AUTHORIZATION_FAILED" false);
  (32, mkE 32 "INVALID_TIMESTAMP" false);
  (33, mkE 33 "UNSUPPORTED_SASL_MECHANISM" false);
  (34, mkE 34 "ILLEGAL_SASL_STATE" false);
  (35, mkE 35 "UNSUPPORTED_VERSION" false);
  (36, mkE 36 "TOPIC_ALREADY_EXISTS" false);
  (37, mkE 37 "INVALID_PARTITIONS" false);
  (38, mkE 38 "INVALID_REPLICATION_FACTOR" false);
  (39, mkE 39 "INVALID_REPLICA_ASSIGNMENT" false);
  (40, mkE 40 "INVALID_CONFIG" false);
  (41, mkE 41 "NOT_CONTROLLER" true);
  (42, mkE 42 "INVALID_REQUEST" false);
  (43, mkE 43 "UNSUPPORTED_FOR_MESSAGE_FORMAT" false);
  (44, mkE 44 "POLICY_VIOLATION" false);
  (45, mkE 45 "OUT_OF_ORDER_SEQUENCE_NUMBER" false);
  (46, mkE 46 "DUPLICATE_SEQUENCE_NUMBER" false);
  (47, mkE 47 "INVALID_PRODUCER_EPOCH" false);
  (48, mkE 48 "INVALID_TXN_STATE" false);
  (49, mkE 49 "INVALID_PRODUCER_ID_MAPPING" false);
  (50, mkE 50 "INVALID_TRANSACTION_TIMEOUT" false);
  (51, mkE 51 "CONCURRENT_TRANSACTIONS" true);
  (52, mkE 52 "TRANSACTION_COORDINATOR_FENCED" false);
  (53, mkE 53 "TRANSACTIONAL_ID_AUTHORIZATION_FAILED" false);
  (54, mkE 54 "SECURITY_DISABLED" false);
  (55, mkE 55 "OPERATION_NOT_ATTEMPTED" false);
  (56, mkE 56 "KAFKA_STORAGE_ERROR" true);
  (57, mkE 57 "LOG_DIR_NOT_FOUND" false);
  (58, mkE 58 "SASL_AUTHENTICATION_FAILED" false);
  (59, mkE 59 "UNKNOWN_PRODUCER_ID" false);
  (60, mkE 60 "REASSIGNMENT_IN_PROGRESS" false);
  (61, mkE 61 "DELEGATION_TOKEN_AUTH_DISABLED" false);
  (62, mkE 62 "DELEGATION_TOKEN_NOT_FOUND" false);
  (63, mkE 63 "DELEGATION_TOKEN_OWNER_MISMATCH" false);
  (64, mkE 64 "DELEGATION_TOKEN_REQUEST_NOT_ALLOWED" false);
  (65, mkE 65 "DELEGATION_TOKEN_AUTHORIZATION_FAILED" false);
  (66, mkE 66 "DELEGATION_TOKEN_EXPIRED" false);
  (67, mkE 67 "INVALID_PRINCIPAL_TYPE" false);
  (68, mkE 68 "NON_EMPTY_GROUP" false);
  (69, mkE 69 "GROUP_ID_NOT_FOUND" false);
  (70, mkE 70 "FETCH_SESSION_ID_NOT_FOUND" true);
  (71, mkE 71 "INVALID_FETCH_SESSION_EPOCH" true);
  (72, mkE 72 "LISTENER_NOT_FOUND" true);
  (73, mkE 73 "TOPIC_DELETION_DISABLED" false);
  (74, mkE 74 "FENCED_LEADER_EPOCH" true);
  (75, mkE 75 "UNKNOWN_LEADER_EPOCH" true);
  (76, mkE 76 "UNSUPPORTED_COMPRESSION_TYPE" false);
  (77, mkE 77 "STALE_BROKER_EPOCH" false);
  (78, mkE 78 "OFFSET_NOT_AVAILABLE" true);
  (79, mkE 79 "MEMBER_ID_REQUIRED" false);
  (80, mkE 80 "PREFERRED_LEADER_NOT_AVAILABLE" true);
  (81, mkE 81 "GROUP_MAX_SIZE_REACHED" false);
  (82, mkE 82 "FENCED_INSTANCE_ID" false);
  (83, mkE 83 "ELIGIBLE_LEADERS_NOT_AVAILABLE" true);
  (84, mkE 84 "ELECTION_NOT_NEEDED" true);
  (85, mkE 85 "NO_REASSIGNMENT_IN_PROGRESS" false);
  (86, mkE 86 "GROUP_SUBSCRIBED_TO_TOPIC" false);
  (87, mkE 87 "INVALID_RECORD" false);
  (88, mkE 88 "UNSTABLE_OFFSET_COMMIT" true);
  (89, mkE 89 "THROTTLING_QUOTA_EXCEEDED" true);
  (90, mkE 90 "PRODUCER_FENCED" false);
  (91, mkE 91 "RESOURCE_NOT_FOUND" false);
  (92, mkE 92 "DUPLICATE_RESOURCE" false);
  (93, mkE 93 "UNACCEPTABLE_CREDENTIAL" false);
  (94, mkE 94 "INCONSISTENT_VOTER_SET" false);
  (95, mkE 95 "INVALID_UPDATE_VERSION" false);
  (96, mkE 96 "FEATURE_UPDATE_FAILED" false);
  (97, mkE 97 "PRINCIPAL_DESERIALIZATION_FAILURE" false);
  (98, mkE 98 "SNAPSHOT_NOT_FOUND" false);
  (99, mkE 99 "POSITION_OUT_OF_RANGE" false);
  (100, mkE 100 "UNKNOWN_TOPIC_ID" true);
  (101, mkE 101 "DUPLICATE_BROKER_REGISTRATION" false);
  (102, mkE 102 "BROKER_ID_NOT_REGISTERED" false);
  (103, mkE 103 "INCONSISTENT_TOPIC_ID" true);
  (104, mkE 104 "INCONSISTENT_CLUSTER_ID" false);
  (105, mkE 105 "TRANSACTIONAL_ID_NOT_FOUND" false);
  (106, mkE 106 "FETCH_SESSION_TOPIC_ID_ERROR" true);
  (107, mkE 107 "INELIGIBLE_REPLICA" false);
  (108, mkE 108 "NEW_LEADER_ELECTED" false);
  (109, mkE 109 "OFFSET_MOVED_TO_TIERED_STORAGE" false);
  (110, mkE 110 "FENCED_MEMBER_EPOCH" false);
  (111, mkE 111 "UNRELEASED_INSTANCE_ID" false);
  (112, mkE 112 "UNSUPPORTED_ASSIGNOR" false);
  (113, mkE 113 "STALE_MEMBER_EPOCH" false);
  (114, mkE 114 "MISMATCHED_ENDPOINT_TYPE" false);
  (115, mkE 115 "UNSUPPORTED_ENDPOINT_TYPE" false);
  (116, mkE 116 "UNKNOWN_CONTROLLER_ID" false);
  (117, mkE 117 "UNKNOWN_SUBSCRIPTION_ID" false);
  (118, mkE 118 "TELEMETRY_TOO_LARGE" false);
  (118, mkE 119 "INVALID_REGISTRATION" false)].

(** a map after a list of assignments: the last one to a key counts *)
Fixpoint map_get {A} (l : list (Z * A)) (k : Z) : option A :=
  match l with
  | [] => None
  | (k', v) :: l' => match map_get l' k with Some w => Some w | None => if k' =? k then Some v else None end
  end.
Definition AllError (k : Z) : option errrec := map_get err_assigns k.

(** errorcode.go:19-24 IsRetriable *)
Definition retriable (c : Z) : bool := match AllError c with Some e => e_retriable e | None => false end.
(** errorcode.go:9-17 KafkaError.Error, up to the description that follows the name *)
Inductive errtext := TNone | TName (n : String.string) | TUnknown (c : Z).
Definition err_text (c : Z) : errtext :=
  if c =? 0 then TNone else match AllError c with Some e => TName (e_msg e) | None => TUnknown c end.
(** errorcode.go:33-43 getErrorFromErrorCode *)
Definition getErrorFromErrorCode (c : Z) : option err :=
  if c =? 0 then None
  else match AllError c with Some _ => Some (EKafka c) | None => Some (EUnknownCode c) end.
