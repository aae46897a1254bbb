(** What is expected when a group consumer has been given its partitions.  From the model
    come the state, the steps and what can be seen of them. *)
From Verif Require Import Base Gcons.

(** the partitions whose consumers were started *)
Definition started (tr : list gev) : list (bytes * Z) :=
  flat_map (fun e => match e with GStarted p => [p] | _ => [] end) tr.
(** of the partitions [parts], those the call of consumeWithoutHeartBeat has still to start *)
Definition left_over (parts : list (bytes * Z)) (m : mphase) : list (bytes * Z) :=
  match m with MWait => parts | MStart l => l | MIdle => [] end.
(** no restart, no closing and no further assignment *)
Definition undisturbed (op : gop) : Prop := match op with ORestart | OClose | OSyncAns _ _ => False | _ => True end.
(** session [i] waits for its assignment, all other calls have returned *)
Definition only_waiting (g : gst) (i : nat) : Prop :=
  (exists l, nth_error (g_sess g) i = Some (mkS l MWait)) /\
  forall j s, nth_error (g_sess g) j = Some s -> s_main s <> MIdle -> j = i.
