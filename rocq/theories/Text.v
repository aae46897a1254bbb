(** The Go library functions on text the command line tools use. *)
From Verif Require Import Base.

(** strings.Split(s, sep) for a separator of one byte: never the empty list. *)
Fixpoint split (sep : Z) (s : bytes) : list bytes :=
  match s with
  | [] => [[]]
  | c :: s' =>
      if c =? sep then [] :: split sep s'
      else match split sep s' with
           | [] => [[c]]
           | w :: ws => (c :: w) :: ws
           end
  end.
(** strings.SplitN(s, sep, 2): [None] if the separator does not occur *)
Fixpoint cut (sep : Z) (s : bytes) : option (bytes * bytes) :=
  match s with
  | [] => None
  | c :: s' => if c =? sep then Some ([], s')
               else match cut sep s' with Some (a, b) => Some (c :: a, b) | None => None end
  end.

(** strings.Replace(s, old, new, -1) for an old text of one byte *)
Definition replace (old : Z) (new : bytes) (s : bytes) : bytes := flat_map (fun c => if c =? old then new else [c]) s.

(** strconv.Atoi: sign, then at least one digit, digits only, in the range of int (64 bit). *)
Definition is_digit (c : Z) : bool := (48 <=? c) && (c <=? 57).
(** strconv.Atoi: the digits *)
Fixpoint digits (s : bytes) (acc : Z) : option Z :=
  match s with
  | [] => Some acc
  | c :: s' => if is_digit c then digits s' (acc * 10 + (c - 48)) else None
  end.
(** at least one digit *)
Definition unsigned (s : bytes) : option Z := match s with [] => None | _ => digits s 0 end.
(** the range of int *)
Definition in_i64 (x : Z) : option Z := if (- 2 ^ 63 <=? x) && (x <? 2 ^ 63) then Some x else None.
(** strconv.Atoi *)
Definition atoi (s : bytes) : option Z :=
  match s with
  | [] => None
  | c :: s' =>
      if c =? 43 then match unsigned s' with Some x => in_i64 x | None => None end          (* + *)
      else if c =? 45 then match unsigned s' with Some x => in_i64 (- x) | None => None end (* - *)
      else match unsigned s with Some x => in_i64 x | None => None end
  end.

(** Decimal text, for the specification. *)
Fixpoint udec (fuel : nat) (x : Z) (acc : bytes) : bytes :=
  match fuel with
  | O => acc
  | S f => let acc' := (48 + x mod 10) :: acc in if x <? 10 then acc' else udec f (x / 10) acc'
  end.
(** fmt with %d *)
Definition decimal (x : Z) : bytes := if x <? 0 then 45 :: udec 20 (- x) [] else udec 20 x [].
(** strings.Join, for the specification *)
Fixpoint join (sep : Z) (l : list bytes) : bytes :=
  match l with
  | [] => []
  | [w] => w
  | w :: ws => w ++ sep :: join sep ws
  end.
