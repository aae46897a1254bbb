(** What the command line tools are meant to do. *)
From Verif Require Import Base Text.

(** ** Lag *)
(** the answers name partition [p] once, with value [v] *)
Definition told {A} (ps : list (Z * A)) (p : Z) (v : A) : Prop :=
  In (p, v) ps /\ NoDup (map fst ps).
(** the number of messages a group has not consumed yet: those from the committed offset up to
    the end; from offset 0 if it never committed (-1) *)
Definition backlog (last committed : Z) : Z := if committed <? 0 then last else last - committed.
Fixpoint total (l : list Z) : Z := match l with [] => 0 | x :: l' => x + total l' end.

(** ** Patterns: a star stands for any text, everything else for itself *)
Inductive glob : bytes -> bytes -> Prop :=
| g_nil : glob [] []
| g_lit c p s : c <> 42 -> glob p s -> glob (c :: p) (c :: s)
| g_none p s : glob p s -> glob (42 :: p) s
| g_more c p s : glob (42 :: p) s -> glob (42 :: p) (c :: s).

(** The bytes a pattern may be made of for this to hold: ASCII without + ? ( ) [ ] { } | ^ $ and
    backslash. *)
Definition plain_pat (c : Z) : Prop :=
  0 <= c <= 127 /\ ~ In c [43; 63; 40; 41; 91; 93; 123; 125; 124; 94; 36; 92].

(** ** Text arguments *)
(** the printable bytes without quote and backslash *)
Definition plain_byte (c : Z) : Prop := 32 <= c <= 126 /\ c <> 34 /\ c <> 92.
(** a 32 bit number *)
Definition int32 (x : Z) : Prop := - 2 ^ 31 <= x < 2 ^ 31.
(** the offset an entry of an offsets response reports: the only one of the old style list, or
    the new style one *)
Inductive reports : Z * (list Z * (Z * Z)) -> Z -> Prop :=
| rep_new e ts o : reports (e, ([], (ts, o))) o
| rep_old e x o : reports (e, ([o], x)) o.

(** ** Assignments: per partition the brokers separated by colons, partitions by commas *)
Definition ptext (l : list Z) : bytes := join 58 (map decimal l).
Definition ptexts (ls : list (list Z)) : bytes := join 44 (map ptext ls).

(** the partitions are numbered from 0 *)
Fixpoint numbered {A} (i : Z) (l : list A) : list (Z * A) := match l with [] => [] | x :: l' => (i, x) :: numbered (i + 1) l' end.
(** at least one partition, and one broker for each *)
Definition well (ls : list (list Z)) : Prop := ls <> [] /\ Forall (fun l => l <> [] /\ Forall int32 l) ls.

(** [x] is above everything before it in the list *)
Definition raised {A} (l : list (Z * A)) (x : Z * A) : Prop :=
  exists b a, l = b ++ x :: a /\ Forall (fun y => fst y < fst x) b.
