(** Model of encoding/json's Marshal and MarshalIndent: from values to their text. *)
From Coq Require Import String.
From Verif Require Import Base Text HttpApi.

(** hex digits of encoding/json *)
Definition hexdigit (d : Z) : Z := if d <? 10 then 48 + d else 87 + d.
(** encoding/json appendString with escapeHTML: one byte *)
Definition esc1 (b : Z) : bytes :=
  if (b =? 34) || (b =? 92) then [92; b]
  else if b =? 8 then [92; 98] else if b =? 12 then [92; 102] else if b =? 10 then [92; 110]
  else if b =? 13 then [92; 114] else if b =? 9 then [92; 116]
  else if (b <? 32) || (b =? 60) || (b =? 62) || (b =? 38) then [92; 117; 48; 48; hexdigit (b / 16); hexdigit (b mod 16)]
  else [b].
(** appendString: U+2028 and U+2029 are escaped as well *)
Fixpoint esc (s : bytes) : bytes :=
  match s with
  | [] => []
  | b :: t =>
      match t with
      | c :: d :: u =>
          if (b =? 226) && (c =? 128) && ((d =? 168) || (d =? 169)) then [92; 117; 50; 48; 50; hexdigit (d mod 16)] ++ esc u
          else esc1 b ++ esc t
      | _ => esc1 b ++ esc t
      end
  end.
(** appendString *)
Definition quote (s : bytes) : bytes := 34 :: esc s ++ [34].
(** strconv.AppendInt, AppendUint *)
Definition number (z : Z) : bytes :=
  if z <? 0 then 45 :: udec (S (Z.to_nat (Z.log2 (- z)))) (- z) [] else udec (S (Z.to_nat (Z.log2 z))) z [].
(** encoding/json appendNewline with the prefix "" and the indentation of two spaces all
    commands use (MarshalIndent); Marshal ([ind] false) writes none *)
Definition newline (ind : bool) (d : nat) : bytes := if ind then 10 :: repeat 32 (2 * d) else [].
(** Marshal and MarshalIndent of a value at depth [d]; numbers with fractions are never written *)
Fixpoint write (ind : bool) (d : nat) (j : json) : bytes :=
  match j with
  | JNull => lit "null"
  | JBool b => if b then lit "true" else lit "false"
  | JInt z => number z
  | JNum => []
  | JStr s => quote s
  | JArr [] => lit "[]"
  | JArr l =>
      91 :: (fix go (l : list json) : bytes :=
        match l with
        | [] => newline ind d ++ [93]
        | x :: t => newline ind (S d) ++ write ind (S d) x ++ match t with [] => [] | _ => [44] end ++ go t
        end) l
  | JObj [] => lit "{}"
  | JObj l =>
      123 :: (fix go (l : list (bytes * json)) : bytes :=
        match l with
        | [] => newline ind d ++ [125]
        | (k, x) :: t => newline ind (S d) ++ quote k ++ 58 :: (if ind then [32] else []) ++ write ind (S d) x ++
                         match t with [] => [] | _ => [44] end ++ go t
        end) l
  end.
