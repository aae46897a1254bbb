(** What the configuration checks and timeouts should be. *)
From Verif Require Import Base Config.

(** The constraints the error texts of config.go document. *)
Definition consumer_violates (c : cconf) (e : cferr) : Prop :=
  match e with
  | CFBootstrap => cc_boot c = []
  | CFGroup => cc_group c = []
  | CFStorage => ~ (cc_storage c = 0 \/ cc_storage c = 1)
  | _ => False
  end.
Definition known_compression (b : bytes) : Prop := In b
  [ (* none *) [110; 111; 110; 101]; (* gzip *) [103; 122; 105; 112]; (* snappy *) [115; 110; 97; 112; 112; 121]; (* lz4 *) [108; 122; 52]].
Definition producer_violates (c : pconf) (e : cferr) : Prop :=
  match e with
  | CFBootstrap => pc_boot c = []
  | CFMaxCount => ~ 0 < pc_count c
  | CFFlush => ~ 0 < pc_flush c
  | CFCompression => ~ known_compression (pc_comp c)
  | _ => False
  end.

(** The timeout of a request with the given api key: joining waits for the session timeout
    and five seconds more, a commit half a session, a fetch as long as the broker may hold
    it longer than any other request. *)
Definition wanted_timeout (c : cconf) (api : nat) : Z :=
  match api with
  | 11%nat => cc_session c + 5000
  | 8%nat => cc_session c / 2
  | 1%nat => cc_timeout c + cc_fetchwait c
  | _ => cc_timeout c
  end.
Definition sane (c : cconf) : Prop :=
  0 < cc_timeout c < 2 ^ 62 /\ 2 <= cc_session c < 2 ^ 31 /\ 0 <= cc_fetchwait c < 2 ^ 31.
