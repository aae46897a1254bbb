(** What more of the command line programs are meant to do. *)
From Coq Require Import String Ascii.
From Verif Require Import Base Text Wire GroupFacts ToolsSpec.

(** ** Owners of partitions *)
(** a raw assignment that says what partitions of what topics a member has, in the protocol's
    layout *)
Definition assigns (raw : bytes) (ps : list (bytes * list Z)) : Prop :=
  exists v u, i16 v /\ zlen ps < 2 ^ 31 /\ Forall ok_part ps /\ (match u with None => True | Some b => zlen b < 2 ^ 31 end) /\
    raw = enc Assignment_ty (v, (ps, u)).
(** a member that has none yet, or whose assignment is in that layout *)
Definition readable (x : bytes * bytes) : Prop := snd x = [] \/ exists ps, assigns (snd x) ps.
(** member [m] has partition [p] of topic [t] *)
Definition owns (ms : list (bytes * bytes)) (m t : bytes) (p : Z) : Prop :=
  exists raw ps ids, In (m, raw) ms /\ assigns raw ps /\ In (t, ids) ps /\ In p ids.
(** a topic is named in the assignment of a member *)
Definition named (ms : list (bytes * bytes)) (t : bytes) : Prop :=
  exists m raw ps ids, In (m, raw) ms /\ assigns raw ps /\ In (t, ids) ps.
(** the text shown for a partition: its owner, if there is one and only one; nothing if there is
    none *)
Definition owner_text (ms : list (bytes * bytes)) (t : bytes) (p : Z) (x : bytes) : Prop :=
  (forall m, owns ms m t p -> (forall m', owns ms m' t p -> m' = m) -> x = m) /\
  ((forall m, ~ owns ms m t p) -> x = []).

(** ** Offsets *)
(** a line (partition, timestamp, offset) shows an entry of an answer *)
Definition shows (e : Z * (Z * (list Z * (Z * Z)))) (l : Z * (Z * Z)) : Prop :=
  fst l = fst e /\ fst (snd l) = fst (snd (snd (snd e))) /\ reports (snd e) (snd (snd l)).

(** ** Messages printed *)
(** the offset limit: none if it is not positive *)
Definition below (stop offset : Z) : bool := (stop <=? 0) || (offset <? stop).

(** ** Settings *)
(** a text between quotes *)
Definition quoted (s : bytes) : bytes := 34 :: s ++ [34].
(** an object of texts *)
Definition object (l : list (bytes * bytes)) : bytes :=
  123 :: join 44 (map (fun x => quoted (fst x) ++ 58 :: quoted (snd x)) l) ++ [125].
(** the value of a key: the last one given *)
Definition value (k : bytes) (l : list (bytes * bytes)) : option bytes :=
  match find (fun x => beqb (fst x) k) (rev l) with Some x => Some (snd x) | None => None end.

(** ** Lines *)
(** the text of some lines: a line feed behind each *)
Definition text_of_lines (ls : list bytes) : bytes := flat_map (fun l => l ++ [10]) ls.
(** a line: no line feed, no carriage return at the end *)
Definition is_line (l : bytes) : Prop := ~ In 10 l /\ forall l', l <> l' ++ [13].

(** the numbers of Kafka's protocol for the types of configurations *)
Definition config_types : list (string * Z) := [("topic"%string, 2); ("broker"%string, 4); ("broker_logger"%string, 8)].
