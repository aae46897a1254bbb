(** Model of what group-consumer and console-consumer print with --json: encoding/json applied
    to a FullMessage. *)
From Coq Require Import String.
From Verif Require Import Base Text HttpApi Fetch JsonText Shown.

Local Open Scope string_scope.
(** encoding/json of the interface error: KafkaError (errorcode.go:7) is a number; what
    errors.New and fmt.Errorf make has no exported fields; errors of package net have some and
    are not modelled *)
Definition jerr (e : err) : option json :=
  match e with
  | EKafka c => Some (JInt c)
  | ETimeout | EPipe | EConn => None
  | _ => Some (jobj [])
  end.
(** message.go:13-18; an error comes with the topic "" and the partition -1
    (fetch_response.go:533-538) *)
Definition shown_event (e : event) : option json :=
  match e with
  | EvMsg t p m => Some (jobj [("TopicName", jstr t); ("PartitionID", JInt p); ("Error", JNull); ("Message", shown_message m)])
  | EvErr x =>
      match jerr x with
      | Some j => Some (jobj [("TopicName", jstr []); ("PartitionID", JInt (-1)); ("Error", j); ("Message", JNull)])
      | None => None
      end
  end.

(** sort.Strings *)
Fixpoint before (a b : bytes) : bool :=
  match a, b with
  | [], _ => true
  | _, [] => false
  | x :: a', y :: b' => if (x =? y)%Z then before a' b' else (x <? y)%Z
  end.
(** sort.Strings, by insertion *)
Fixpoint put_key (p : bytes * json) (l : list (bytes * json)) : list (bytes * json) :=
  match l with
  | [] => [p]
  | q :: t => if before (fst p) (fst q) then p :: l else q :: put_key p t
  end.
(** encoding/json mapEncoder: list-groups and describe-logdirs print a map from the ids of
    brokers (client.go:44, 65; list-groups.go:33, describe-logdirs.go:40); the keys become texts
    and are sorted as such.  [l] is the map in any order. *)
Definition by_node (l : list (Z * json)) : json :=
  JObj (fold_right put_key [] (map (fun p => (number (fst p), snd p)) l)).
