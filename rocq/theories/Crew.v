(** A group at work: any number of members, each the machine of Gcons.v, and a coordinator.
    What the coordinator does is Kafka's side of the protocol, not code of the package. *)
From Verif Require Import Base Wire Group Gcons GconsSpec.

(** a partition: topic and number *)
Notation part := (bytes * Z)%type.

(** The coordinator: the generation, its members, those whose join request waits for the next
    generation, and the assignment of the generation.  The members: their states, the
    partitions they consume, and the partitions whose commits are under way (in the order of
    g_com).  Members are numbered; that is how the coordinator knows them. *)
Record crew := mkW {
  w_gen : Z; w_members : list nat; w_joined : list nat; w_asg : nat -> list part;
  w_g : nat -> gst; w_run : nat -> list part; w_com : nat -> list part }.
(** a commit request that the coordinator receives, and whether it takes it *)
Inductive wev := WCommit (n : nat) (p : part) (accepted : bool).
(** a step of a member, the start of a commit for a partition, the end of a round (all
    members have joined) with the assignment its leader sends, a session that times out *)
Inductive wop :=
| WStep (n : nat) (op : gop)
| WCheck (n : nat) (p : part)
| WComplete (asg : list (nat * list part))
| WExpire (n : nat).

(** the value at [n] is replaced *)
Definition put {A} (f : nat -> A) (n : nat) (x : A) : nat -> A := fun k => if (k =? n)%nat then x else f k.
Definition without (n : nat) (l : list nat) : list nat := filter (fun k => negb (k =? n)%nat) l.
Definition has (n : nat) (l : list nat) : bool := existsb (fun k => (k =? n)%nat) l.
Definition same_part (a b : part) : bool := beqb (fst a) (fst b) && (snd a =? snd b).
(** what a step starts *)
Definition starts (evs : list gev) : list part := flat_map (fun e => match e with GStarted p => [p] | _ => [] end) evs.
(** a step that stops the partition consumers (group_consumer.go:365, 417; 377-383): those in
    simpleConsumers *)
Definition stops (g g' : gst) (evs : list gev) : bool :=
  (length (g_sess g) <? length (g_sess g'))%nat || existsb (fun e => match e with GClosing => true | _ => false end) evs.
(** the partitions consumed after a step *)
Definition running (g g' : gst) (evs : list gev) (run : list part) : list part :=
  (if stops g g' evs then filter (fun p => negb (existsb (same_part p) (g_sc g))) run else run) ++ starts evs.
(** the assignment of a member *)
Fixpoint asg_of (l : list (nat * list part)) (n : nat) : list part :=
  match l with [] => [] | (k, ps) :: l' => if (k =? n)%nat then ps else asg_of l' n end.
(** the coordinator learns of join and leave requests *)
Definition joins (evs : list gev) : bool := existsb (fun e => match e with GJoin _ _ => true | _ => false end) evs.
Definition leaves (evs : list gev) : bool := existsb (fun e => match e with GLeft _ => true | _ => false end) evs.
(** the number of the commit that a step sends *)
Definition sends (op : gop) (evs : list gev) : option nat :=
  match op, evs with OSend k, [GCommit _ _] => Some k | _, _ => None end.

(** one step of the group *)
Definition wstep (w : crew) (op : wop) : res (crew * list wev) :=
  match op with
  | WStep n op =>
      rbind (gstep (w_g w n) op) (fun r =>
      let '(g', evs) := r in
      let joined := if joins evs then n :: without n (w_joined w) else if leaves evs then without n (w_joined w) else w_joined w in
      let members := if leaves evs then without n (w_members w) else w_members w in
      let k := sends op evs in
      Ok (mkW (w_gen w) members joined (w_asg w) (put (w_g w) n g')
              (put (w_run w) n (running (w_g w n) g' evs (w_run w n)))
              (put (w_com w) n (match k with Some k => del k (w_com w n) | None => w_com w n end)),
          match k with
          | Some k => match nth_error (w_com w n) k with
                      | Some p => [WCommit n p ((g_gen g' =? w_gen w) && has n (w_members w))]
                      | None => []
                      end
          | None => []
          end))
  | WCheck n p =>
      rbind (gstep (w_g w n) OCheck) (fun r =>
      let '(g', evs) := r in
      Ok (mkW (w_gen w) (w_members w) (w_joined w) (w_asg w) (put (w_g w) n g') (w_run w)
              (put (w_com w) n (if (length (g_com (w_g w n)) <? length (g_com g'))%nat then w_com w n ++ [p] else w_com w n)), []))
  | WComplete asg =>
      Ok (mkW (w_gen w + 1) (w_joined w) [] (asg_of asg) (w_g w) (w_run w) (w_com w), [])
  | WExpire n =>
      Ok (mkW (w_gen w) (without n (w_members w)) (without n (w_joined w)) (w_asg w) (w_g w) (w_run w) (w_com w), [])
  end.
(** a sequence of steps *)
Fixpoint wrun (w : crew) (ops : list wop) : res (crew * list wev) :=
  match ops with
  | [] => Ok (w, [])
  | op :: ops' => rbind (wstep w op) (fun r1 => rbind (wrun (fst r1) ops') (fun r2 => Ok (fst r2, snd r1 ++ snd r2)))
  end.
(** nobody has joined *)
Definition winit : crew := mkW 0 [] [] (fun _ => []) (fun _ => ginit) (fun _ => []) (fun _ => []).

(** ** What the coordinator may do *)
(** the coordinator's answers: a join is answered with the current generation only if the
    member is in it and does not wait for the next one; the assignment is sent to a member of
    the current generation that asks with its number, and is the member's own *)
Definition answers (w : crew) (n : nat) (op : gop) : Prop :=
  match op with
  | OJoinAns _ (Ok (gen, _)) _ => gen < w_gen w \/ gen = w_gen w /\ In n (w_members w) /\ ~ In n (w_joined w)
  | OSyncAns _ (Ok b) => In n (w_members w) /\ g_gen (w_g w n) = w_gen w /\ forall ma, newMemberAssignment b = Ok ma -> parts_of ma = w_asg w n
  | _ => True
  end.
(** nobody has a partition of another *)
Definition disjoint (l : list nat) (asg : nat -> list part) : Prop :=
  forall n n' p, In n l -> In n' l -> In p (asg n) -> In p (asg n') -> n = n'.
(** a round is over when all members have joined; its assignment gives no partition twice *)
Definition completes (w : crew) (asg : list (nat * list part)) : Prop :=
  incl (w_members w) (w_joined w) /\ disjoint (w_joined w) (asg_of asg).
(** a member that consumes nothing and has not asked for an assignment *)
Definition resting (w : crew) (n : nat) : Prop :=
  g_closed (w_g w n) = true \/ g_sc (w_g w n) = [] /\ Forall (fun s => s_loop s <> PSyncWait) (g_sess (w_g w n)).

(** the runs of the positive theorem: the members are orderly (GconsSpec.v), and the session of
    a member does not time out while it consumes *)
Definition fair (w : crew) (op : wop) : Prop :=
  match op with
  | WStep n op => op <> OCheck /\ orderly (w_g w n) op /\ answers w n op
  | WCheck n p => In p (w_run w n)
  | WComplete asg => completes w asg
  | WExpire n => resting w n
  end.
Fixpoint wguarded (ok : crew -> wop -> Prop) (w : crew) (ops : list wop) : Prop :=
  match ops with
  | [] => True
  | op :: ops' => ok w op /\ match wstep w op with Ok r => wguarded ok (fst r) ops' | _ => True end
  end.
(** no commit is under way when the partition consumers are stopped *)
Definition committed (w : crew) (op : wop) : Prop :=
  match op with
  | WStep n (ORestart | OClose) => g_com (w_g w n) = []
  | _ => True
  end.
(** sessions time out at any time *)
Definition strict (w : crew) (op : wop) : Prop := match op with WExpire _ => True | _ => fair w op end.
(** restarts come at any time *)
Definition hasty (w : crew) (op : wop) : Prop :=
  match op with
  | WStep n ORestart => True
  | _ => fair w op
  end.
