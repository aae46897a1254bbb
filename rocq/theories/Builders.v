(** Model of the functions that fill requests entry by entry. *)
From Verif Require Import Base Requests.

(** The loop all of them share: look for the first entry with the given name; if there is
    one, change it in place, else append a new entry. *)
Fixpoint at_name {A} (k : bytes) (f : A -> A) (new : A) (l : list (bytes * A)) : list (bytes * A) :=
  match l with
  | [] => [(k, new)]
  | (k', a) :: l' => if beqb k' k then (k', f a) :: l' else (k', a) :: at_name k f new l'
  end.

(** ** offset_commit_request.go:56-91 AddPartiton *)

(** lines 76-82 (overwrite) and 83-89 (append) *)
Fixpoint put_part (p : Z) (v : Z * bytes) (ps : list (Z * (Z * bytes))) : list (Z * (Z * bytes)) :=
  match ps with
  | [] => [(p, v)]
  | (q, w) :: ps' => if q =? p then (q, v) :: ps' else (q, w) :: put_part p v ps'
  end.
(** offset_commit_request.go:56-91 AddPartiton *)
Definition oc_add (ts : list (bytes * list (Z * (Z * bytes)))) (t : bytes) (p off : Z) (md : bytes) :=
  at_name t (put_part p (off, md)) (put_part p (off, md) []) ts.

(** ** offset_fetch_request.go:53-79 AddPartiton *)
Fixpoint add_pid (p : Z) (ps : list Z) : list Z :=
  match ps with
  | [] => [p]
  | q :: ps' => if q =? p then q :: ps' else q :: add_pid p ps'
  end.
(** offset_fetch_request.go:53-79 AddPartiton *)
Definition of_add (ts : list (bytes * list Z)) (t : bytes) (p : Z) := at_name t (add_pid p) (add_pid p []) ts.

(** ** describe_logdirs_request.go:32-50 AddTopicPartition *)
Definition ld_add (ts : list (bytes * list Z)) (t : bytes) (p : Z) := at_name t (add_pid p) [p] ts.

(** ** list_partition_reassignments_request.go:34-56 AddTP; the nil slice before the first
    call is the empty list here *)
Definition lr_add (ts : list (bytes * list Z)) (t : bytes) (p : Z) := at_name t (add_pid p) [p] ts.

(** ** elect_leaders_request.go:30-42 Add *)
Definition el_add (ts : list (bytes * list Z)) (t : bytes) (p : Z) := at_name t (fun ps => ps ++ [p]) [p] ts.

(** ** alter_partition_reassignments_request.go:28-48 AddAssignment *)
Definition ar_add (ts : list (bytes * list (Z * list Z))) (t : bytes) (p : Z) (rs : list Z) :=
  at_name t (fun ps => ps ++ [(p, rs)]) [(p, rs)] ts.

(** ** create_topics_request.go *)

Notation ctopic := (bytes * (Z * (Z * (list (Z * list Z) * list (bytes * bytes)))))%type.

(** create_topics_request.go:150-164 AddTopic.  A CreateTopicRequest is (topic, (partitions, (factor,
    (assignments, configs)))), as in Requests.v.  [None]: errorDumplicatedTopic. *)
Definition ct_add (ts : list ctopic) (t : bytes) (n rf : Z) : option (list ctopic) :=
  if existsb (fun x => beqb (fst x) t) ts then None
  else Some (ts ++ [(t, (n, (rf, ([], []))))]).

(** the errors of create_topics_request.go *)
Inductive cterr := CTNotFound (* errorTopicNotFound *) | CTRange (* errorPidOutOfRange *).

(** create_topics_request.go:187-204: the loop over the assignments of the topic; the comparison of line 193 is
    never reached with equal partitions because of line 189 *)
Fixpoint ra_put (p : Z) (rs : list Z) (l : list (Z * list Z)) : cterr + list (Z * list Z) :=
  match l with
  | [] => inr [(p, rs)]
  | (q, w) :: l' =>
      if q >=? p then inl CTRange
      else if q =? p then inr ((q, rs) :: l')
      else match ra_put p rs l' with inl e => inl e | inr l'' => inr ((q, w) :: l'') end
  end.
(** create_topics_request.go:172-207 AddReplicaAssignment *)
Fixpoint ra_add (ts : list ctopic) (t : bytes) (p : Z) (rs : list Z) : cterr + list ctopic :=
  match ts with
  | [] => inl CTNotFound
  | (t', (n, (rf, (ras, cs)))) :: ts' =>
      if beqb t' t
      then match ra_put p rs ras with
           | inl e => inl e
           | inr ras' => inr ((t', (n, (rf, (ras', cs)))) :: ts')
           end
      else match ra_add ts' t p rs with
           | inl e => inl e
           | inr ts'' => inr ((t', (n, (rf, (ras, cs)))) :: ts'')
           end
  end.

(** A caller's use of the two; a refused call leaves the request as it was. *)
Inductive ctop := CAddTopic (t : bytes) (n rf : Z) | CAddReplicas (t : bytes) (p : Z) (rs : list Z).
(** one call of AddTopic or AddReplicaAssignment (create_topics_request.go:150-207) *)
Definition ct_step (ts : list ctopic) (o : ctop) : list ctopic * bool :=
  match o with
  | CAddTopic t n rf => match ct_add ts t n rf with Some ts' => (ts', true) | None => (ts, false) end
  | CAddReplicas t p rs => match ra_add ts t p rs with inr ts' => (ts', true) | inl _ => (ts, false) end
  end.
(** a sequence of calls *)
Fixpoint ct_run (ts : list ctopic) (ops : list ctop) : list ctopic :=
  match ops with [] => ts | o :: ops' => ct_run (fst (ct_step ts o)) ops' end.

(** ** alter_config_request.go:77-108 AddConfig
    [None]: "config already exist with different value". *)
Fixpoint cfg_put {V} (val : V -> bytes) (n : bytes) (v : V) (es : list (bytes * V)) : option (list (bytes * V)) :=
  match es with
  | [] => Some [(n, v)]
  | (m, w) :: es' =>
      if beqb m n then (if beqb (val w) (val v) then Some ((m, w) :: es') else None)
      else match cfg_put val n v es' with Some r => Some ((m, w) :: r) | None => None end
  end.
(** alter_config_request.go:77-108, incremental_alter_config_request.go:82-115: what both AddConfig do *)
Fixpoint cfg_add {V} (val : V -> bytes) (rs : list (Z * (bytes * list (bytes * V)))) (rt : Z) (rn n : bytes) (v : V)
  : option (list (Z * (bytes * list (bytes * V)))) :=
  match rs with
  | [] => Some [(rt, (rn, [(n, v)]))]
  | (rt', (rn', es)) :: rs' =>
      if (rt' =? rt) && beqb rn' rn
      then match cfg_put val n v es with Some es' => Some ((rt', (rn', es')) :: rs') | None => None end
      else match cfg_add val rs' rt rn n v with Some r => Some ((rt', (rn', es)) :: r) | None => None end
  end.
(** alter_config_request.go:77-108 AddConfig *)
Definition ac_add rs (rt : Z) (rn n v : bytes) := @cfg_add bytes (fun x => x) rs rt rn n v.
(** ** incremental_alter_config_request.go:82-115 AddConfig; the operation is always 0 (set) *)
Definition iac_add rs (rt : Z) (rn n v : bytes) := @cfg_add (Z * bytes) snd rs rt rn n (0, v).

(** the arguments of AddConfig *)
Inductive cfgadd := mkCA { ca_type : Z; ca_res : bytes; ca_name : bytes; ca_val : bytes }.
(** one call of AddConfig; a refused one leaves the request as it is *)
Definition ac_step rs (a : cfgadd) : list (Z * (bytes * list (bytes * bytes))) * bool :=
  match ac_add rs (ca_type a) (ca_res a) (ca_name a) (ca_val a) with Some r => (r, true) | None => (rs, false) end.
(** one call of AddConfig; a refused one leaves the request as it is *)
Definition iac_step rs (a : cfgadd) : list (Z * (bytes * list (bytes * (Z * bytes)))) * bool :=
  match iac_add rs (ca_type a) (ca_res a) (ca_name a) (ca_val a) with Some r => (r, true) | None => (rs, false) end.

(** ** create_partitions_request.go:122-140 AddTopic *)
Definition cp_add (ts : list (bytes * (Z * option (list (list Z))))) (t : bytes) (n : Z) (a : option (list (list Z))) :=
  ts ++ [(t, (n, a))].
