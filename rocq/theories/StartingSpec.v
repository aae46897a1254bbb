(** Which interleavings of Consume and Stop the theorems about them speak of. *)
From Verif Require Import Base Starting.

(** Stop is called when Consume has returned *)
Fixpoint after_start (group auto : bool) (s : sst) (l : list sop) : Prop :=
  match l with
  | [] => True
  | o :: l' => (o = DStop -> s_con s = CDone) /\ after_start group auto (fst (dstep group auto s o)) l'
  end.
(** Offsets that a partition's leader names are not negative, nor is where the loop goes.  The committed offset may be -1: there is none. *)
Definition real (s : sst) (o : sop) : Prop :=
  match o with DConsume (Some v) => s_con s = COff -> 0 <= v | DLoop (Some v) => 0 <= v | _ => True end.
Fixpoint answers_real (group auto : bool) (s : sst) (l : list sop) : Prop :=
  match l with
  | [] => True
  | o :: l' => real s o /\ answers_real group auto (fst (dstep group auto s o)) l'
  end.
(** Consume has returned, Stop too, and no goroutine of the consumer is left *)
Definition all_over (s : sst) : Prop :=
  s_con s = CDone /\ s_stop s = SOver /\ (s_loop s = LNone \/ s_loop s = LGone) /\ s_commit s <> KRuns.
(** the offsets committed *)
Definition committed (evs : list sev) : list Z := flat_map (fun e => match e with VCommit v => [v] | _ => [] end) evs.
