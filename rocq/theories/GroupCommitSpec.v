(** What committing on demand should do, seen from the coordinator. *)
From Verif Require Import Base GroupCommit.

(** the offset the coordinator has for partition i *)
Fixpoint stored_from (o : option Z) (i : nat) (tr : list qev) : option Z :=
  match tr with
  | [] => o
  | QCommit j v true :: t => stored_from (if Nat.eqb i j then Some v else o) i t
  | _ :: t => stored_from o i t
  end.
Definition stored (i : nat) (tr : list qev) : option Z := stored_from None i tr.
(** the positions consumer i had *)
Fixpoint positions (i : nat) (ops : list qop) : list Z :=
  match ops with
  | [] => []
  | QMove j o :: t => if Nat.eqb i j then o :: positions i t else positions i t
  | _ :: t => positions i t
  end.
(** all calls have returned *)
Definition returned (s : qst) : Prop := Forall (fun c => qc_left c = []) (q_calls s).
(** what a request asks to commit *)
Definition pair_of (e : qev) : nat * Z := match e with QCommit i o _ => (i, o) end.
(** a consumer that has moved since its last commit, to an offset that can be committed *)
Definition wants (s : qst) (i : nat) : bool := negb (q_pos s i =? q_com s i) && (0 <=? q_pos s i).
(** call k has returned *)
Definition call_returned (s : qst) (k : nat) : Prop := exists pc, nth_error (q_calls s) k = Some (mkQC [] pc).
