(** Model of acl_types.go. *)
From Coq Require Import String Ascii.
From Verif Require Import Base.

(** strings.ToUpper on ASCII text.  Simplification: texts with bytes above 127 are not
    modelled (there ToUpper also maps some non-ASCII letters to ASCII ones). *)
Definition up_ascii (c : ascii) : ascii :=
  let n := nat_of_ascii c in
  if (Nat.leb 97 n && Nat.leb n 122)%bool then ascii_of_nat (n - 32) else c.
(** strings.ToUpper, used at acl_types.go:50, 111, 183, 246 *)
Fixpoint to_upper (s : string) : string :=
  match s with EmptyString => EmptyString | String c s' => String (up_ascii c) (to_upper s') end.

(** A switch over texts: the first case that holds the text. *)
Fixpoint switch (cases : list (list string * option Z)) (s : string) : option Z :=
  match cases with
  | [] => None
  | (ts, v) :: cs => if existsb (String.eqb s) ts then v else switch cs s
  end.
(** A switch over values: the first case with the value. *)
Fixpoint vswitch (cases : list (Z * string)) (dflt : string) (v : Z) : string :=
  match cases with
  | [] => dflt
  | (w, s) :: cs => if v =? w then s else vswitch cs dflt v
  end.

(** acl_types.go:23-44 String; AclsResourceTypeBroker = AclsResourceTypeCluster = 4 *)
Definition rtype_string : Z -> string :=
  vswitch [(0, "UNKNOWN"%string); (1, "ANY"%string); (2, "TOPIC"%string); (3, "GROUP"%string); (4, "BROKER"%string);
           (5, "TRANSACTIONAL_ID"%string); (6, "DELEGATION_TOKEN"%string); (7, "USER"%string)] "ERROR"%string.
(** acl_types.go:49-75 UnmarshalText; [None]: an error is returned, also for the ambiguous "4" *)
Definition rtype_parse (s : string) : option Z :=
  switch [(["UNKNOWN"%string; "0"%string], Some 0); (["ANY"%string; "1"%string], Some 1);
          (["TOPIC"%string; "2"%string], Some 2); (["GROUP"%string; "3"%string], Some 3);
          (["BROKER"%string], Some 4); (["CLUSTER"%string], Some 4); (["4"%string], None);
          (["TRANSACTIONAL_ID"%string; "5"%string], Some 5); (["DELEGATION_TOKEN"%string; "6"%string], Some 6);
          (["USER"%string; "7"%string], Some 7)] (to_upper s).

(** acl_types.go:89-104 *)
Definition ptype_string : Z -> string :=
  vswitch [(0, "UNKNOWN"%string); (1, "ANY"%string); (2, "MATCH"%string); (3, "LITERAL"%string); (4, "PREFIXED"%string)]
          "ERROR"%string.
(** acl_types.go:110-126 *)
Definition ptype_parse (s : string) : option Z :=
  switch [(["UNKNOWN"%string; "0"%string], Some 0); (["ANY"%string; "1"%string], Some 1);
          (["MATCH"%string; "2"%string], Some 2); (["LITERAL"%string; "3"%string], Some 3);
          (["PREFIXED"%string; "4"%string], Some 4)] (to_upper s).

(** acl_types.go:145-176 *)
Definition op_string : Z -> string :=
  vswitch [(0, "UNKNOWN"%string); (1, "ANY"%string); (2, "ALL"%string); (3, "READ"%string); (4, "WRITE"%string);
           (5, "CREATE"%string); (6, "DELETE"%string); (7, "ALTER"%string); (8, "DESCRIBE"%string);
           (9, "CLUSTER_ACTION"%string); (10, "DESCRIBE_CONFIGS"%string); (11, "ALTER_CONFIGS"%string);
           (12, "IDEMPOTENT_WRITE"%string)] "ERROR"%string.
(** acl_types.go:182-214; the first case assigns AclsOperationAny *)
Definition op_parse (s : string) : option Z :=
  switch [(["UNKNOWN"%string; "0"%string], Some 1); (["ANY"%string; "1"%string], Some 1);
          (["ALL"%string; "2"%string], Some 2); (["READ"%string; "3"%string], Some 3);
          (["WRITE"%string; "4"%string], Some 4); (["CREATE"%string; "5"%string], Some 5);
          (["DELETE"%string; "6"%string], Some 6); (["ALTER"%string; "7"%string], Some 7);
          (["DESCRIBE"%string; "8"%string], Some 8); (["CLUSTER_ACTION"%string; "9"%string], Some 9);
          (["DESCRIBE_CONFIGS"%string; "10"%string], Some 10); (["ALTER_CONFIGS"%string; "11"%string], Some 11);
          (["IDEMPOTENT_WRITE"%string; "12"%string], Some 12)] (to_upper s).

(** acl_types.go:226-239 *)
Definition perm_string : Z -> string :=
  vswitch [(0, "UNKNOWN"%string); (1, "ANY"%string); (2, "DENY"%string); (3, "ALLOW"%string)] "UNKNOWN"%string.
(** acl_types.go:245-259; the first case assigns AclsPermissionTypeAny *)
Definition perm_parse (s : string) : option Z :=
  switch [(["UNKNOWN"%string; "0"%string], Some 1); (["ANY"%string; "1"%string], Some 1);
          (["DENY"%string; "2"%string], Some 2); (["ALLOW"%string; "3"%string], Some 3)] (to_upper s).
