(** When responses arrive, for the statements about time. *)
From Verif Require Import Base Clock.

(** when a read ended *)
Definition ended {A} (r : tres A) : option Z :=
  match r with TOk _ c => Some (k_now c) | TTimeout t => Some t | THang => None end.
(** what arrives is not nothing *)
Definition pieces (l : list (Z * bytes)) : Prop := Forall (fun x => snd x <> []) l.
(** every piece arrives less than [timeout] after the one before, the first less than
    [timeout] after [now] *)
Fixpoint steady (timeout now : Z) (l : list (Z * bytes)) : Prop :=
  match l with
  | [] => True
  | (t, _) :: l' => t < now + timeout /\ steady timeout (Z.max now t) l'
  end.
(** all that arrives *)
Definition all_bytes (l : list (Z * bytes)) : bytes := concat (map snd l).
(** a response to one request: the length, then as many bytes *)
Definition response_of (body : bytes) : bytes := be 4 (zlen body) ++ body.
