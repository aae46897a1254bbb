(** What C152 speaks about: exchanges in which nothing comes back, and the answers a handle
    gives to a sequence of requests. *)
From Verif Require Import Base Fetch Conn.

(** the request cannot be written, or nothing arrives before the error [e] is reported *)
Definition fails (x : exch) (e : err) : Prop :=
  x_write x = Some e \/ (x_write x = None /\ list_sum (x_arr x) = 0%nat /\ x_fin x = e).
(** nothing arrives before the deadline *)
Definition silent (x : exch) : Prop := x_write x = None /\ list_sum (x_arr x) = 0%nat /\ x_fin x = ETimeout.
(** the error says that the connection has ended *)
Definition ended (e : err) : Prop := err_root e = EEOF \/ err_root e = EPipe.
(** what a sequence of requests returns *)
Fixpoint answers (sasl : bool) (s : bst) (l : list (opening * exch)) : list outcome :=
  match l with
  | [] => []
  | (o, x) :: l' => let '(r, s') := requestAndGet sasl o x s in r :: answers sasl s' l'
  end.
(** the answers the broker sends to requests that follow the correlation id [corr] *)
Fixpoint sent (corr : Z) (l : list exch) : list bytes :=
  match l with
  | [] => []
  | x :: l' => let corr' := (corr + 1) mod 2 ^ 32 in frame corr' (x_body x) :: sent corr' l'
  end.
