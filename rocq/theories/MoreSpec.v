(** Specifications of texts and requests, apart from the model. *)
From Coq Require Import String Ascii.
From Verif Require Import Base.

(** two letters that differ in case at most *)
Definition same_letter (c d : ascii) : Prop :=
  let n := nat_of_ascii c in let m := nat_of_ascii d in
  c = d \/ (97 <= n <= 122 /\ n = m + 32)%nat \/ (97 <= m <= 122 /\ m = n + 32)%nat.
Fixpoint same_text (a b : string) : Prop :=
  match a, b with
  | EmptyString, EmptyString => True
  | String c a', String d b' => same_letter c d /\ same_text a' b'
  | _, _ => False
  end.

(** the texts of the values, by name and by number, as in Kafka's protocol *)
Definition resource_texts : list (Z * string) :=
  [(0, "UNKNOWN"%string); (0, "0"%string); (1, "ANY"%string); (1, "1"%string); (2, "TOPIC"%string); (2, "2"%string);
   (3, "GROUP"%string); (3, "3"%string); (4, "CLUSTER"%string); (4, "BROKER"%string); (5, "TRANSACTIONAL_ID"%string); (5, "5"%string);
   (6, "DELEGATION_TOKEN"%string); (6, "6"%string); (7, "USER"%string); (7, "7"%string)].
Definition pattern_texts : list (Z * string) :=
  [(0, "UNKNOWN"%string); (0, "0"%string); (1, "ANY"%string); (1, "1"%string); (2, "MATCH"%string); (2, "2"%string);
   (3, "LITERAL"%string); (3, "3"%string); (4, "PREFIXED"%string); (4, "4"%string)].
Definition operation_texts : list (Z * string) :=
  [(1, "ANY"%string); (1, "1"%string); (2, "ALL"%string); (2, "2"%string); (3, "READ"%string); (3, "3"%string);
   (4, "WRITE"%string); (4, "4"%string); (5, "CREATE"%string); (5, "5"%string); (6, "DELETE"%string); (6, "6"%string);
   (7, "ALTER"%string); (7, "7"%string); (8, "DESCRIBE"%string); (8, "8"%string); (9, "CLUSTER_ACTION"%string); (9, "9"%string);
   (10, "DESCRIBE_CONFIGS"%string); (10, "10"%string); (11, "ALTER_CONFIGS"%string); (11, "11"%string);
   (12, "IDEMPOTENT_WRITE"%string); (12, "12"%string)].
Definition permission_texts : list (Z * string) :=
  [(1, "ANY"%string); (1, "1"%string); (2, "DENY"%string); (2, "2"%string); (3, "ALLOW"%string); (3, "3"%string)].
Definition says (table : list (Z * string)) (s : string) (v : Z) : Prop := exists t, In (v, t) table /\ same_text s t.
