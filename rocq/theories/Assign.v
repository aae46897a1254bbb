(** Model of assign.go: the range assignment strategy. *)
From Verif Require Import Base Group.

(** Go maps keyed by strings, as association lists with distinct keys.  [mset] is
    m[k] = v.  Iteration order over a Go map is arbitrary: where the code ranges over
    a map, the model takes a function choosing the order. *)
Fixpoint mset {V} (k : bytes) (v : V) (m : list (bytes * V)) : list (bytes * V) :=
  match m with
  | [] => [(k, v)]
  | (k', v') :: m' => if beqb k k' then (k, v) :: m' else (k', v') :: mset k v m'
  end.
(** reading a Go map *)
Fixpoint mget {V} (k : bytes) (m : list (bytes * V)) : option V :=
  match m with
  | [] => None
  | (k', v') :: m' => if beqb k k' then Some v' else mget k m'
  end.

(** sort.Sort with ByPartitionID / ByMemberID (assign.go:44-54).  Equal elements are
    identical, so every correct sorting algorithm gives the same result as this
    insertion sort. *)
Fixpoint insert {A} (lt : A -> A -> bool) (x : A) (l : list A) : list A :=
  match l with
  | [] => [x]
  | y :: l' => if lt y x then y :: insert lt x l' else x :: y :: l'
  end.
(** sort.Sort (assign.go:44-54), as insertion sort *)
Definition isort {A} (lt : A -> A -> bool) (l : list A) : list A :=
  fold_right (insert lt) [] l.

(** assign.go:32-40: the loop; partitions[start : start+length] panics out of range *)
Fixpoint assign_loop (members : list bytes) (i : Z) (watershed ceil floor : Z) (start : Z)
    (partitions : list Z) (rst : list (bytes * list Z)) : res (list (bytes * list Z)) :=
  match members with
  | [] => Ok rst
  | m :: ms =>
      let length := if i <? watershed then ceil else floor in
      if zlen partitions <? start + length then Panic
      else assign_loop ms (i + 1) watershed ceil floor (start + length) partitions
             (mset m (firstn (Z.to_nat length) (skipn (Z.to_nat start) partitions)) rst)
  end.

(** assign.go:18-42 assignPartitions; % and / by len(members) panic when it is 0 *)
Definition assignPartitions (members : list bytes) (partitions : list Z) : res (list (bytes * list Z)) :=
  if zlen members =? 0 then Panic else
  let watershed := zlen partitions mod zlen members in
  let floor := zlen partitions / zlen members in
  let ceil := if 0 <? watershed then floor + 1 else floor in
  assign_loop members 0 watershed ceil floor 0 partitions [].

(** A member of the group as the leader sees it: id and raw subscription metadata
    (joingroup_response.go Member). *)
Notation member := (list Z * list Z)%type (only parsing).
(** What the strategy reads from a TopicMetadata: name and partition ids. *)
Notation topicMeta := (list Z * list Z)%type (only parsing).

(** assign.go:67-77: members whose subscription lists the topic, kept sorted.
    Sorting after every append gives the same final list as sorting once. *)
Fixpoint membersWithTopic (topic : bytes) (ms : list member) : res (list bytes) :=
  match ms with
  | [] => Ok []
  | m :: ms' =>
      rbind (newProtocolMetadata (snd m)) (fun pm =>
      rbind (membersWithTopic topic ms') (fun rest =>
      Ok (if existsb (beqb topic) (pm_subs pm) then fst m :: rest else rest)))
  end.

(** assign.go:59-79: topic -> member -> partitions *)
Fixpoint topicAssignments (ms : list member) (metas : list topicMeta)
    (acc : list (bytes * list (bytes * list Z))) : res (list (bytes * list (bytes * list Z))) :=
  match metas with
  | [] => Ok acc
  | (t, ps) :: metas' =>
      rbind (membersWithTopic t ms) (fun subs =>
      rbind (assignPartitions (isort bltb subs) (isort Z.ltb ps)) (fun a =>
      topicAssignments ms metas' (mset t a acc)))
  end.

(** assign.go:100-103: memberAssignments[member].PartitionAssignments = append(...).
    A missing member is a nil pointer dereference. *)
Definition madd (k : bytes) (x : bytes * list Z) (m : list (bytes * list (bytes * list Z)))
  : res (list (bytes * list (bytes * list Z))) :=
  match mget k m with
  | None => Panic
  | Some l => Ok (mset k (l ++ [x]) m)
  end.
(** assign.go:100-103: for all members *)
Fixpoint madd_all (topic : bytes) (l : list (bytes * list Z)) (m : list (bytes * list (bytes * list Z)))
  : res (list (bytes * list (bytes * list Z))) :=
  match l with
  | [] => Ok m
  | (k, ps) :: l' => rbind (madd k (topic, ps) m) (madd_all topic l')
  end.

Section Assign.
  (** iteration orders chosen by the Go runtime: over topics, over the members of one
      topic, over members *)
  Variable ordT : list (bytes * list (bytes * list Z)) -> list (bytes * list (bytes * list Z)).
  Variable ordI : list (bytes * list Z) -> list (bytes * list Z).
  Variable ordM : list (bytes * list (bytes * list Z)) -> list (bytes * list (bytes * list Z)).

  (** assign.go:98-105 *)
  Fixpoint merge_topics (l : list (bytes * list (bytes * list Z))) (m : list (bytes * list (bytes * list Z)))
    : res (list (bytes * list (bytes * list Z))) :=
    match l with
    | [] => Ok m
    | (t, a) :: l' => rbind (madd_all t (ordI a) m) (merge_topics l')
    end.

  (** assign.go:109-119: encode each member's assignment; the result slice has
      len(members) entries, unused ones stay zero values *)
  Fixpoint encode_all (l : list (bytes * list (bytes * list Z))) : res (list (bytes * bytes)) :=
    match l with
    | [] => Ok []
    | (k, ps) :: l' =>
        rbind (ma_encode (mkMA 0 ps [])) (fun b =>
        rbind (encode_all l') (fun r => Ok ((k, b) :: r)))
    end.

  (** assign.go:57-121 Assign *)
  Definition assign (ms : list member) (metas : list topicMeta) : res (list (bytes * bytes)) :=
    rbind (topicAssignments ms metas []) (fun ta =>
    let init := fold_left (fun acc m => mset (fst m) [] acc) ms [] in
    rbind (merge_topics (ordT ta) init) (fun ma =>
    rbind (encode_all (ordM ma)) (fun ga =>
    Ok (ga ++ repeat ([], []) (length ms - length ga))))).
End Assign.
