(** What C155 speaks about: brokers send no answer to a produce request that asks for no
    acknowledgement. *)
From Verif Require Import Base Producer.

(** nothing is read: reading ends with an error, at the latest at the deadline *)
Definition no_answer (n : net) : Prop :=
  match n with NSend _ _ _ _ reply => exists e, reply = Err e | NFail _ => True end.
(** a broker that follows the protocol: RequiredAcks 0 asks for no answer *)
Definition obeys (acks : Z) (n : net) : Prop := acks = 0 -> no_answer n.
(** the same configuration, but for the acknowledgements *)
Definition with_acks (g : scfg) (k : Z) : scfg :=
  mkSC (g_topic g) (g_part g) (g_client g) k (g_timeout g) (g_magic g) (g_codec g) (g_max g) (g_leader g) (g_owned g).
(** as many bytes *)
Definition as_long (a b : option (Z * Z * Z * bytes)) : Prop :=
  match a, b with
  | None, None => True
  | Some (_, _, _, x), Some (_, _, _, y) => length x = length y
  | _, _ => False
  end.
