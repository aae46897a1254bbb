(** The error codes of the Kafka protocol (protocol guide, "Error Codes"). *)
From Coq Require Import String.
From Verif Require Import Base.

(** the names of the codes 1, 2, 3, ... in order; code -1 is UNKNOWN_SERVER_ERROR *)
Definition protocol_names : list string := [
  "OFFSET_OUT_OF_RANGE"%string; "CORRUPT_MESSAGE"%string; "UNKNOWN_TOPIC_OR_PARTITION"%string;
  "INVALID_FETCH_SIZE"%string; "LEADER_NOT_AVAILABLE"%string; "NOT_LEADER_OR_FOLLOWER"%string;
  "REQUEST_TIMED_OUT"%string; "BROKER_NOT_AVAILABLE"%string; "REPLICA_NOT_AVAILABLE"%string;
  "MESSAGE_TOO_LARGE"%string; "STALE_CONTROLLER_EPOCH"%string; "OFFSET_METADATA_TOO_LARGE"%string;
  "NETWORK_EXCEPTION"%string; "COORDINATOR_LOAD_IN_PROGRESS"%string; "COORDINATOR_NOT_AVAILABLE"%string;
  "NOT_COORDINATOR"%string; "INVALID_TOPIC_EXCEPTION"%string; "RECORD_LIST_TOO_LARGE"%string;
  "NOT_ENOUGH_REPLICAS"%string; "NOT_ENOUGH_REPLICAS_AFTER_APPEND"%string; "INVALID_REQUIRED_ACKS"%string;
  "ILLEGAL_GENERATION"%string; "INCONSISTENT_GROUP_PROTOCOL"%string; "INVALID_GROUP_ID"%string;
  "UNKNOWN_MEMBER_ID"%string; "INVALID_SESSION_TIMEOUT"%string; "REBALANCE_IN_PROGRESS"%string;
  "INVALID_COMMIT_OFFSET_SIZE"%string; "TOPIC_AUTHORIZATION_FAILED"%string;
  "GROUP_AUTHORIZATION_FAILED"%string; "CLUSTER_AUTHORIZATION_FAILED"%string; "INVALID_TIMESTAMP"%string;
  "UNSUPPORTED_SASL_MECHANISM"%string; "ILLEGAL_SASL_STATE"%string; "UNSUPPORTED_VERSION"%string;
  "TOPIC_ALREADY_EXISTS"%string; "INVALID_PARTITIONS"%string; "INVALID_REPLICATION_FACTOR"%string;
  "INVALID_REPLICA_ASSIGNMENT"%string; "INVALID_CONFIG"%string; "NOT_CONTROLLER"%string;
  "INVALID_REQUEST"%string; "UNSUPPORTED_FOR_MESSAGE_FORMAT"%string; "POLICY_VIOLATION"%string;
  "OUT_OF_ORDER_SEQUENCE_NUMBER"%string; "DUPLICATE_SEQUENCE_NUMBER"%string; "INVALID_PRODUCER_EPOCH"%string;
  "INVALID_TXN_STATE"%string; "INVALID_PRODUCER_ID_MAPPING"%string; "INVALID_TRANSACTION_TIMEOUT"%string;
  "CONCURRENT_TRANSACTIONS"%string; "TRANSACTION_COORDINATOR_FENCED"%string;
  "TRANSACTIONAL_ID_AUTHORIZATION_FAILED"%string; "SECURITY_DISABLED"%string; "OPERATION_NOT_ATTEMPTED"%string;
  "KAFKA_STORAGE_ERROR"%string; "LOG_DIR_NOT_FOUND"%string; "SASL_AUTHENTICATION_FAILED"%string;
  "UNKNOWN_PRODUCER_ID"%string; "REASSIGNMENT_IN_PROGRESS"%string; "DELEGATION_TOKEN_AUTH_DISABLED"%string;
  "DELEGATION_TOKEN_NOT_FOUND"%string; "DELEGATION_TOKEN_OWNER_MISMATCH"%string;
  "DELEGATION_TOKEN_REQUEST_NOT_ALLOWED"%string; "DELEGATION_TOKEN_AUTHORIZATION_FAILED"%string;
  "DELEGATION_TOKEN_EXPIRED"%string; "INVALID_PRINCIPAL_TYPE"%string; "NON_EMPTY_GROUP"%string;
  "GROUP_ID_NOT_FOUND"%string; "FETCH_SESSION_ID_NOT_FOUND"%string; "INVALID_FETCH_SESSION_EPOCH"%string;
  "LISTENER_NOT_FOUND"%string; "TOPIC_DELETION_DISABLED"%string; "FENCED_LEADER_EPOCH"%string;
  "UNKNOWN_LEADER_EPOCH"%string; "UNSUPPORTED_COMPRESSION_TYPE"%string; "STALE_BROKER_EPOCH"%string;
  "OFFSET_NOT_AVAILABLE"%string; "MEMBER_ID_REQUIRED"%string; "PREFERRED_LEADER_NOT_AVAILABLE"%string;
  "GROUP_MAX_SIZE_REACHED"%string; "FENCED_INSTANCE_ID"%string; "ELIGIBLE_LEADERS_NOT_AVAILABLE"%string;
  "ELECTION_NOT_NEEDED"%string; "NO_REASSIGNMENT_IN_PROGRESS"%string; "GROUP_SUBSCRIBED_TO_TOPIC"%string;
  "INVALID_RECORD"%string; "UNSTABLE_OFFSET_COMMIT"%string; "THROTTLING_QUOTA_EXCEEDED"%string;
  "PRODUCER_FENCED"%string; "RESOURCE_NOT_FOUND"%string; "DUPLICATE_RESOURCE"%string;
  "UNACCEPTABLE_CREDENTIAL"%string; "INCONSISTENT_VOTER_SET"%string; "INVALID_UPDATE_VERSION"%string;
  "FEATURE_UPDATE_FAILED"%string; "PRINCIPAL_DESERIALIZATION_FAILURE"%string; "SNAPSHOT_NOT_FOUND"%string;
  "POSITION_OUT_OF_RANGE"%string; "UNKNOWN_TOPIC_ID"%string; "DUPLICATE_BROKER_REGISTRATION"%string;
  "BROKER_ID_NOT_REGISTERED"%string; "INCONSISTENT_TOPIC_ID"%string; "INCONSISTENT_CLUSTER_ID"%string;
  "TRANSACTIONAL_ID_NOT_FOUND"%string; "FETCH_SESSION_TOPIC_ID_ERROR"%string; "INELIGIBLE_REPLICA"%string;
  "NEW_LEADER_ELECTED"%string; "OFFSET_MOVED_TO_TIERED_STORAGE"%string; "FENCED_MEMBER_EPOCH"%string;
  "UNRELEASED_INSTANCE_ID"%string; "UNSUPPORTED_ASSIGNOR"%string; "STALE_MEMBER_EPOCH"%string;
  "MISMATCHED_ENDPOINT_TYPE"%string; "UNSUPPORTED_ENDPOINT_TYPE"%string; "UNKNOWN_CONTROLLER_ID"%string;
  "UNKNOWN_SUBSCRIPTION_ID"%string; "TELEMETRY_TOO_LARGE"%string; "INVALID_REGISTRATION"%string].
Definition protocol_name (c : Z) : option string :=
  if c =? -1 then Some "UNKNOWN_SERVER_ERROR"%string
  else if c <=? 0 then None
  else nth_error protocol_names (Z.to_nat (c - 1)).

(** the codes the guide marks retriable *)
Definition protocol_retriable : list Z :=
  [2; 3; 5; 6; 7; 9; 13; 14; 15; 16; 19; 20; 41; 51; 56; 70; 71; 72; 74; 75; 78; 80; 83; 84; 88; 89; 100; 103; 106].
