(** What brokers answer a consumer of one partition when leaders and coordinators move
    (protocol: error codes 6 NOT_LEADER_OR_FOLLOWER, 16 NOT_COORDINATOR, 74
    FENCED_LEADER_EPOCH, 75 UNKNOWN_LEADER_EPOCH). *)
From Verif Require Import Base Responses.

(** The cluster: who can be reached, the partitions of the topic as every broker's metadata
    tells them, the coordinator of the group. *)
Record world := mkWorld { w_alive : Z -> bool; w_parts : list nopart; w_coord : Z }.
(** leader and epoch of a partition *)
Definition part_is (w : world) (pid leader epoch : Z) : Prop :=
  NoDup (map (fun p => fst (snd p)) (w_parts w)) /\
  exists ec rest, In (ec, (pid, (leader, (epoch, rest)))) (w_parts w).
(** no partition of the topic has an error *)
Definition all_healthy (w : world) : Prop := Forall (fun p => fst p = 0) (w_parts w).

(** what a broker tells about the topic *)
Definition tells (topic : bytes) (w : world) : option response :=
  Some (RMetadata 0 0 [] [] 0 [(0, (topic, (false, w_parts w)))]).

Inductive fanswer := NoConn | Code (c : Z) | Data.
(** The answers a fetch may get from a node, with the epoch it carries (-1: none).  A node
    that is not the leader may check the epoch first. *)
Definition may_answer (w : world) (leader epoch : Z) (node sent : Z) (a : fanswer) : Prop :=
  if w_alive w node then
    if node =? leader then
      a = if (sent =? -1) || (sent =? epoch) then Data else Code (if sent <? epoch then 74 else 75)
    else a = Code 6 \/ (a = Code 74 /\ sent <> -1 /\ sent < epoch)
  else a = NoConn.

(** the answer of a node to a request only the coordinator serves *)
Definition coord_answer {A} (w : world) (node : Z) (x : A) : res A :=
  if w_alive w node then if node =? w_coord w then Ok x else Err (EWrap (EKafka 16)) else Err EConn.
