(** What happens to a response that ends early or is followed by more: the answers whose
    layouts have no variable-length counts, and what the bytes of one decide. *)
From Verif Require Import Base Wire Responses.

(** The APIs and versions whose decoders read fixed-width counts only: all those of
    response.go:89-151 except Produce (0), DescribeAcls (29, which does not look at the
    length), DeleteAcls (31), DescribeLogDirs (35, which takes the length for an id),
    SaslAuthenticate (36), the reassignments (45, 46) and the flexible versions of
    ListGroups (16), CreateAcls (30) and CreatePartitions (37). *)
Definition plain_counts (key v : Z) : bool :=
  match key with
  | 2 | 3 | 8 | 9 | 10 | 11 | 12 | 13 | 14 | 15 | 17 | 18 | 19 | 20 | 32 | 33 | 42 | 43 | 44 => true
  | 16 => v <? 3
  | 30 | 37 => v <? 2
  | _ => false
  end.

(** The first n bytes of s decide: whatever starts with them has the outcome [o], whatever
    ends before them makes the decoder panic. *)
Definition decided {A} (f : bytes -> res A) (s : bytes) (n : nat) (o : res A) : Prop :=
  (n <= length s)%nat /\
  (forall t, zlen (firstn n s ++ t) < 2 ^ 32 -> f (frame (firstn n s ++ t)) = o) /\
  (forall m, (m < n)%nat -> f (frame (firstn m s)) = Panic).
