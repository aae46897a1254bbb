(** What the group consumer's requests have to look like, in terms of what happened before
    on the wire; and the schedules the positive theorems are about. *)
From Verif Require Import Base Wire Responses Fetch ResponseSpec Gcons.

(** errors.Is(e, KafkaError(c)) *)
Fixpoint root_of (e : err) : err := match e with EWrap e' => root_of e' | _ => e end.
Definition reports (c : Z) (e : err) : bool := match root_of e with EKafka c' => c' =? c | _ => false end.

(** ** Identity *)
(** the identity a client has after a history: generation and member id of the last join
    answer, none after a rejection of the member id (code 25) and after leaving *)
Definition id_step (a : option (Z * bytes)) (ev : gev) : option (Z * bytes) :=
  match ev with
  | GJoined _ n m => Some (n, m)
  | GFailed _ e => if reports 25 e then None else a
  | GLeft _ => None
  | _ => a
  end.
Definition ident (tr : list gev) : option (Z * bytes) := fold_left id_step tr None.
Definition member_of (a : option (Z * bytes)) : bytes := match a with Some (_, m) => m | None => [] end.

Definition carries (a : option (Z * bytes)) (ev : gev) : Prop :=
  match ev with
  | GJoin _ m => m = member_of a
  | GSync _ n m | GBeat n m => a = Some (n, m)
  | GCommit n m => a = Some (n, m) /\ m <> []
  | GLeft m => exists n, a = Some (n, m)
  | _ => True
  end.

(** ** Schedules *)
Fixpoint guarded (ok : gst -> gop -> Prop) (g : gst) (ops : list gop) : Prop :=
  match ops with
  | [] => True
  | op :: ops' => ok g op /\ match gstep g op with Ok r => guarded ok (fst r) ops' | _ => True end
  end.

Definition finished (s : session) : Prop := s = mkS PDone MIdle.
Definition in_set (s : session) : Prop := match s_loop s with PSet _ _ => True | _ => False end.

(** A restart does not begin before the previous start is through; the end of the joining
    loop is not taken for success when it came from closing; commit calls and changes of
    the identity do not overlap. *)
Definition calm (g : gst) (op : gop) : Prop :=
  match op with
  | ORestart => Forall finished (g_sess g)
  | OTakeJoined _ => g_closed g = false
  | OCheck => Forall (fun s => ~ in_set s) (g_sess g)
  | OJoinAns _ _ _ | OSet _ | OSyncAns _ _ | OLeave _ => g_com g = []
  | _ => True
  end.

(** one joining loop at a time *)
Definition single (g : gst) (op : gop) : Prop := match op with ORestart => Forall finished (g_sess g) | _ => True end.

(** not between the sync request and the start of the last partition consumer *)
Definition settled (s : session) : Prop :=
  match s_loop s, s_main s with
  | PDone, MIdle => True
  | (PHead | PJoin | PWait | PSet _ _), MWait => True
  | _, _ => False
  end.
Definition plain {A} (r : res A) : Prop := match r with Ok _ | Err _ => True | _ => False end.
(** Restarts and Close come when the consumer is settled, Close comes once, the leave
    request is answered. *)
Definition orderly (g : gst) (op : gop) : Prop :=
  match op with
  | ORestart => Forall finished (g_sess g)
  | OClose => Forall settled (g_sess g) /\ g_closed g = false
  | OTakeJoined _ => g_closed g = false
  | OLeave ans => exists u, ans = Ok u
  | OLook _ ans => plain ans
  | OJoinAns _ ans _ => plain ans
  | OSyncAns _ ans => plain ans /\ forall payload, ans = Ok payload -> plain (Group.newMemberAssignment payload)
  | _ => True
  end.

(** ** Sessions *)
Definition of_session (i : nat) (ev : gev) : bool :=
  match ev with
  | GFound j | GJoin j _ | GJoined j _ _ | GSync j _ _ | GSynced j _ | GFailed j _ | GBad j | GRet j _ => (j =? i)%nat
  | _ => false
  end.
Definition own (i : nat) (tr : list gev) : list gev := filter (of_session i) tr.
(** the coordinator is not there any more or is another one *)
Definition moved (e : err) : bool := reports 15 e || reports 16 e.

(** all (topic, partition) pairs of an assignment *)
Definition pairs_of (ps : list (bytes * list Z)) : list (bytes * Z) :=
  concat (map (fun p => map (pair (fst p)) (snd p)) ps).

(** ** Metadata *)
Notation mtopic := (Z * (bytes * (bool * list nopart)))%type (only parsing).
(** topic [n] is listed with error code [e] *)
Definition says_topic (ts : list mtopic) (n : bytes) (e : Z) : Prop :=
  exists int ps, In (e, (n, (int, ps))) ts.
(** partition [id] of topic [n] is listed with error code [e] and leader [l] *)
Definition says_part (ts : list mtopic) (n : bytes) (id e l : Z) : Prop :=
  exists te int ps rest, In (te, (n, (int, ps))) ts /\ In (e, (id, (l, rest))) ps.
(** topics in order of their names, partitions in order of their ids, none twice *)
Definition in_order (ts : list mtopic) : Prop :=
  StronglySorted (fun a b => bltb (fst (snd a)) (fst (snd b)) = true) ts /\
  Forall (fun t => StronglySorted (fun a b => fst (snd a) < fst (snd b)) (snd (snd (snd t)))) ts.
(** what the assignment is made from *)
Definition metas_of (ts : list mtopic) : list (bytes * list Z) :=
  map (fun t => (fst (snd t), map (fun p => fst (snd p)) (snd (snd (snd t))))) ts.
