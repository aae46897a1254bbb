(** What the properties about goroutines say. *)
From Verif Require Import Base Gcons GconsSpec Lives.

(** nothing but turns of the flushing goroutines *)
Definition only_loops (l : list pop) : Prop := Forall (fun o => match o with PLoop _ _ => True | _ => False end) l.
(** a simple producer that has not been closed, and that only Close ends *)
Definition unclosed (s : sprod) : bool := negb (sp_closed s).
(** Consume is called once, restarts and Close come when the group consumer is settled (GconsSpec.v) *)
Fixpoint lguarded (s : glives) (l : list lop) : Prop :=
  match l with
  | [] => True
  | o :: l' => match o with LStep op => orderly (gl_g s) op | LConsume => False | _ => True end /\
               match lstep s o with Ok s' => lguarded s' l' | _ => True end
  end.
(** neither closed again nor restarted nor used again *)
Definition left_alone (o : lop) : Prop := match o with LStep (OClose | ORestart) | LConsume => False | _ => True end.
