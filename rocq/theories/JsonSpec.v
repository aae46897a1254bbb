(** Specification: a reader of JSON texts (RFC 8259), from a text to its value.
    Numbers with fractions or exponents and surrogate pairs are not read; leading zeros are
    not refused. *)
From Coq Require Import String.
From Verif Require Import Base HttpApi Utf8Spec.

Definition blank (c : Z) : bool := (c =? 32) || (c =? 9) || (c =? 10) || (c =? 13).
Fixpoint skip (s : bytes) : bytes := match s with c :: t => if blank c then skip t else s | [] => [] end.
Definition numeral (c : Z) : bool := (48 <=? c) && (c <=? 57).
Definition hexval (c : Z) : option Z :=
  if numeral c then Some (c - 48)
  else if (97 <=? c) && (c <=? 102) then Some (c - 87)
  else if (65 <=? c) && (c <=? 70) then Some (c - 55) else None.
Definition hex4 (a b c d : Z) : option Z :=
  match hexval a, hexval b, hexval c, hexval d with
  | Some w, Some x, Some y, Some z => Some (((w * 16 + x) * 16 + y) * 16 + z)
  | _, _, _, _ => None
  end.
(** the character behind a backslash *)
Definition escaped (e : Z) : option Z :=
  if (e =? 34) || (e =? 92) || (e =? 47) then Some e
  else if e =? 98 then Some 8 else if e =? 102 then Some 12 else if e =? 110 then Some 10
  else if e =? 114 then Some 13 else if e =? 116 then Some 9 else None.
(** a string behind its first quotation mark, and what follows it *)
Fixpoint read_string (s : bytes) : option (bytes * bytes) :=
  match s with
  | [] => None
  | c :: t =>
      if c =? 34 then Some ([], t)
      else if c =? 92 then
        match t with
        | [] => None
        | e :: u =>
            if e =? 117 then
              match u with
              | w :: x :: y :: z :: v =>
                  match hex4 w x y z, read_string v with
                  | Some h, Some (l, r) => if (55296 <=? h) && (h <? 57344) then None else Some (rune h ++ l, r)
                  | _, _ => None
                  end
              | _ => None
              end
            else match escaped e, read_string u with
                 | Some a, Some (l, r) => Some (a :: l, r)
                 | _, _ => None
                 end
        end
      else if c <? 32 then None
      else match read_string t with Some (l, r) => Some (c :: l, r) | None => None end
  end.
(** digits, and what follows them *)
Fixpoint read_digits (s : bytes) (acc : Z) : Z * bytes :=
  match s with
  | c :: t => if numeral c then read_digits t (acc * 10 + (c - 48)) else (acc, s)
  | [] => (acc, [])
  end.
Definition read_natural (s : bytes) : option (Z * bytes) :=
  match s with c :: _ => if numeral c then Some (read_digits s 0) else None | [] => None end.
(** a word *)
Fixpoint read_word (w s : bytes) : option bytes :=
  match w, s with
  | [], _ => Some s
  | a :: w', b :: s' => if a =? b then read_word w' s' else None
  | _, [] => None
  end.
(** a value, and what follows it; [n] bounds the depth and the number of elements *)
Fixpoint read_value (n : nat) (s : bytes) {struct n} : option (json * bytes) :=
  match n with
  | O => None
  | S k =>
      match skip s with
      | [] => None
      | c :: t =>
          if c =? 34 then match read_string t with Some (x, r) => Some (JStr x, r) | None => None end
          else if c =? 91 then
            match skip t with
            | d :: u => if d =? 93 then Some (JArr [], u)
                        else match read_elements k t with Some (l, r) => Some (JArr l, r) | None => None end
            | [] => None
            end
          else if c =? 123 then
            match skip t with
            | d :: u => if d =? 125 then Some (JObj [], u)
                        else match read_members k t with Some (l, r) => Some (JObj l, r) | None => None end
            | [] => None
            end
          else if c =? 110 then match read_word (lit "ull") t with Some r => Some (JNull, r) | None => None end
          else if c =? 116 then match read_word (lit "rue") t with Some r => Some (JBool true, r) | None => None end
          else if c =? 102 then match read_word (lit "alse") t with Some r => Some (JBool false, r) | None => None end
          else if c =? 45 then match read_natural t with Some (x, r) => Some (JInt (- x), r) | None => None end
          else match read_natural (c :: t) with Some (x, r) => Some (JInt x, r) | None => None end
      end
  end
with read_elements (n : nat) (s : bytes) {struct n} : option (list json * bytes) :=
  match n with
  | O => None
  | S k =>
      match read_value k s with
      | None => None
      | Some (v, t) =>
          match skip t with
          | c :: u =>
              if c =? 93 then Some ([v], u)
              else if c =? 44 then match read_elements k u with Some (l, r) => Some (v :: l, r) | None => None end
              else None
          | [] => None
          end
      end
  end
with read_members (n : nat) (s : bytes) {struct n} : option (list (bytes * json) * bytes) :=
  match n with
  | O => None
  | S k =>
      match skip s with
      | q :: s1 =>
          if q =? 34 then
            match read_string s1 with
            | None => None
            | Some (name, s2) =>
                match skip s2 with
                | c :: s3 =>
                    if c =? 58 then
                      match read_value k s3 with
                      | None => None
                      | Some (v, t) =>
                          match skip t with
                          | e :: u =>
                              if e =? 125 then Some ([(name, v)], u)
                              else if e =? 44 then match read_members k u with Some (l, r) => Some ((name, v) :: l, r) | None => None end
                              else None
                          | [] => None
                          end
                      end
                    else None
                | [] => None
                end
            end
          else None
      | [] => None
      end
  end.
(** a text: one value *)
Definition read_json (s : bytes) : option json :=
  match read_value (List.length s) s with
  | Some (v, r) => match skip r with [] => Some v | _ => None end
  | None => None
  end.
