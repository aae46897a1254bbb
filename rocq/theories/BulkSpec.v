(** What C156 speaks about: the bytes of messages. *)
From Verif Require Import Base Producer.

(** the bytes of the key and of the value *)
Definition msg_size (m : message) : Z := zlen (match fst m with Some k => k | None => [] end) + zlen (snd m).
Definition total (ms : list message) : Z := fold_right (fun m n => msg_size m + n) 0 ms.
