(** Common vocabulary of the model: bytes, Go integers, panicking results,
    cursors over a payload, and writes into a pre-sized buffer. *)
From Coq Require Export List ZArith Lia Bool Permutation Sorted.
Export ListNotations.
Open Scope Z_scope.

(** A byte is a [Z] (0..255), a Go string or []byte is a list of bytes.
    Go distinguishes a nil slice from an empty one only where the code tests for
    nil; there the model uses [option bytes]. *)
Notation bytes := (list Z).

Definition byte_ok (b : Z) : Prop := 0 <= b < 256.
Definition bytes_ok (l : bytes) : Prop := Forall byte_ok l.

(** Byte strings are compared with [beqb] (Go's == on strings). *)
Definition bytes_eq_dec : forall a b : bytes, {a = b} + {a <> b} := list_eq_dec Z.eq_dec.
Definition beqb (a b : bytes) : bool := if bytes_eq_dec a b then true else false.

(** Go's lexicographic string order (a < b). *)
Fixpoint bltb (a b : bytes) : bool :=
  match a, b with
  | _, [] => false
  | [], _ :: _ => true
  | x :: a', y :: b' => if x <? y then true else if y <? x then false else bltb a' b'
  end.

(** Length as a [Z]: Go's len(). *)
Definition zlen {A} (l : list A) : Z := Z.of_nat (length l).

(** ** Go integer conversions *)

(** uintN(x) *)
Definition uint (bits : Z) (x : Z) : Z := x mod 2 ^ bits.
(** intN(x): two's complement reinterpretation *)
Definition sint (bits : Z) (x : Z) : Z :=
  let m := x mod 2 ^ bits in if m <? 2 ^ (bits - 1) then m else m - 2 ^ bits.

Definition i8  (x : Z) : Prop := - 2 ^ 7 <= x < 2 ^ 7.
Definition i16 (x : Z) : Prop := - 2 ^ 15 <= x < 2 ^ 15.
Definition i32 (x : Z) : Prop := - 2 ^ 31 <= x < 2 ^ 31.
Definition i64 (x : Z) : Prop := - 2 ^ 63 <= x < 2 ^ 63.
Definition u16 (x : Z) : Prop := 0 <= x < 2 ^ 16.
Definition u32 (x : Z) : Prop := 0 <= x < 2 ^ 32.
Definition u64 (x : Z) : Prop := 0 <= x < 2 ^ 64.

(** Big-endian: binary.BigEndian.PutUintN / UintN with n bytes. *)
Fixpoint be (n : nat) (v : Z) : bytes :=
  match n with
  | O => []
  | S k => (v / 256 ^ Z.of_nat k) mod 256 :: be k v
  end.
Definition unbe (l : bytes) : Z := fold_left (fun a b => a * 256 + b) l 0.

(** ** Errors, results *)

Inductive err :=
| EKafka (code : Z)        (* KafkaError(code), errorcode.go *)
| EUnknownCode (code : Z)  (* plain error for a code not in AllError, errorcode.go:41 *)
| EEOF | EUnexpectedEOF | ETimeout | EPipe | EConn
| ELength                  (* "response length did not match" and the like *)
| EShort                   (* errShortRead *)
| EEmptyPayload            (* emptyPayload, error.go *)
| EMaxBytesTooSmall        (* maxBytesTooSmall, error.go *)
| EClosed                  (* ErrProducerClosed *)
| ECanceled                (* context.Canceled *)
| ENoBroker | ENoLeader | ENotFound
| EInvalid (n : Z)         (* other plain errors, numbered where introduced *)
| EWrap (e : err).         (* fmt.Errorf("...%w", e): errors.Is looks through, os.IsTimeout and == do not *)

(** [Panic]: the Go code panics here.  [Unspec]: a varint longer than the Go
    decoder accepts; encoding/binary.Uvarint then returns a negative count and the
    code moves its cursor backwards.  The model does not follow the code there. *)
Inductive res (A : Type) :=
| Ok (a : A) | Err (e : err) | Panic | Unspec.
Arguments Ok {A} a. Arguments Err {A} e. Arguments Panic {A}. Arguments Unspec {A}.

Definition rbind {A B} (r : res A) (k : A -> res B) : res B :=
  match r with Ok a => k a | Err e => Err e | Panic => Panic | Unspec => Unspec end.

(** ** Cursors: a decoder sees [payload[offset:]] and leaves the rest. *)

Definition parser (A : Type) := bytes -> res (A * bytes).

Definition ret {A} (a : A) : parser A := fun s => Ok (a, s).
Definition fail {A} (e : err) : parser A := fun _ => Err e.
Definition panic {A} : parser A := fun _ => Panic.
Definition bind {A B} (p : parser A) (k : A -> parser B) : parser B :=
  fun s => match p s with
           | Ok (a, s') => k a s'
           | Err e => Err e | Panic => Panic | Unspec => Unspec
           end.
Declare Scope parser_scope.
Delimit Scope parser_scope with parser.
Notation "x <- p ;; k" := (bind p (fun x => k))
  (at level 61, p at next level, right associativity) : parser_scope.
Notation "' pat <- p ;; k" := (bind p (fun x => match x with pat => k end))
  (at level 61, pat pattern, p at next level, right associativity) : parser_scope.
Open Scope parser_scope.

(** binary.BigEndian.UintN(payload[offset:]); offset += n.  Panics if fewer than n
    bytes are left. *)
Definition rd_u (n : nat) : parser Z := fun s =>
  if Nat.leb n (length s) then Ok (unbe (firstn n s), skipn n s) else Panic.
Definition rd_i (n : nat) : parser Z := fun s =>
  match rd_u n s with
  | Ok (v, s') => Ok (sint (8 * Z.of_nat n) v, s')
  | Err e => Err e | Panic => Panic | Unspec => Unspec
  end.
Definition rd_u8 := rd_u 1.   Definition rd_i8 := rd_i 1.
Definition rd_u16 := rd_u 2.  Definition rd_i16 := rd_i 2.
Definition rd_u32 := rd_u 4.  Definition rd_i32 := rd_i 4.
Definition rd_u64 := rd_u 8.  Definition rd_i64 := rd_i 8.

(** payload[offset]!=0 *)
Definition rd_bool : parser bool :=
  b <- rd_u8 ;; ret (negb (b =? 0)).

(** string(payload[offset:offset+n]); offset += n.  Panics if n < 0 or too few
    bytes are left. *)
Definition rd_bytes (n : Z) : parser bytes := fun s =>
  if (n <? 0) || (zlen s <? n) then Panic
  else Ok (firstn (Z.to_nat n) s, skipn (Z.to_nat n) s).

(** for i := 0; i < n; i++ { append(p) } *)
Fixpoint rd_n {A} (n : nat) (p : parser A) : parser (list A) :=
  match n with
  | O => ret []
  | S k => x <- p ;; xs <- rd_n k p ;; ret (x :: xs)
  end.

(** x := make([]T, n); for i := range x { x[i] = p }.  make panics if n < 0.
    Simplification: make never fails for lack of memory. *)
Definition rd_make {A} (n : Z) (p : parser A) : parser (list A) :=
  if n <? 0 then panic else rd_n (Z.to_nat n) p.

(** ** Writes into a buffer of a pre-computed size *)

(** [Put bs]: binary.BigEndian.PutUintN(payload[offset:], v) or payload[offset] = b,
    panics if it does not fit.  [Copy bs]: copy(payload[offset:], bs); offset +=
    len(bs): silently writes only what fits; every later access panics because
    offset is then past the end.  [CopyN bs]: offset += copy(payload[offset:], bs):
    the same, but offset stays within the buffer, so that further copies write nothing. *)
Inductive wop := Put (b : bytes) | Copy (b : bytes) | CopyN (b : bytes).
Definition wbytes (o : wop) : bytes := match o with Put b => b | Copy b => b | CopyN b => b end.

(** Returns the written bytes and the number of unused (zero) bytes left. *)
Fixpoint wrun (room : nat) (ops : list wop) : res (bytes * nat) :=
  match ops with
  | [] => Ok ([], room)
  | o :: ops' =>
      let b := wbytes o in
      if Nat.leb (length b) room then
        match wrun (room - length b) ops' with
        | Ok (w, r) => Ok (b ++ w, r)
        | x => x
        end
      else match o, ops' with
           | Copy _, [] => Ok (firstn room b, O)
           | CopyN _, _ =>
               match wrun O ops' with
               | Ok (w, r) => Ok (firstn room b ++ w, r)
               | x => x
               end
           | _, _ => Panic
           end
  end.

(** payload := make([]byte, size); ...writes...; return payload *)
Definition wfull (size : Z) (ops : list wop) : res bytes :=
  match wrun (Z.to_nat size) ops with
  | Ok (w, r) => Ok (w ++ repeat 0 r)
  | Err e => Err e | Panic => Panic | Unspec => Unspec
  end.
(** ... return payload[:offset] *)
Definition wcut (size : Z) (ops : list wop) : res bytes :=
  match wrun (Z.to_nat size) ops with
  | Ok (w, r) => Ok w
  | Err e => Err e | Panic => Panic | Unspec => Unspec
  end.

(** payload := make([]byte, size); offset := 4; ...writes...;
    PutUint32(payload, uint32(offset-4)); return payload[:offset] *)
Definition wpatch (size : Z) (ops : list wop) : res bytes :=
  if size <? 4 then Panic else
  match wrun (Z.to_nat (size - 4)) ops with
  | Ok (w, r) => Ok (be 4 (uint 32 (zlen w)) ++ w)
  | Err e => Err e | Panic => Panic | Unspec => Unspec
  end.
(** payload := make([]byte, 4+size); PutUint32(payload, uint32(size)); offset := 4;
    ...writes...; return payload *)
Definition wframe (size : Z) (ops : list wop) : res bytes :=
  wfull (4 + size) (Put (be 4 (uint 32 size)) :: ops).

Definition wcat (ops : list wop) : bytes := flat_map wbytes ops.

(** ** Varints: encoding/binary PutUvarint, PutVarint, Uvarint, Varint *)

(** PutUvarint: for x >= 0x80 { buf[i] = byte(x)|0x80; x >>= 7 }; buf[i] = byte(x) *)
Fixpoint put_uvarint (fuel : nat) (x : Z) : bytes :=
  match fuel with
  | O => []
  | S f => if x <? 128 then [x] else (x mod 128 + 128) :: put_uvarint f (x / 128)
  end.
(** Ten rounds are enough for a 64-bit value. *)
Definition uvarint (x : Z) : bytes := put_uvarint 10 x.

(** PutVarint: ux := uint64(x)<<1; if x < 0 { ux = ^ux } *)
Definition zigzag (x : Z) : Z := if x <? 0 then -2 * x - 1 else 2 * x.
Definition unzigzag (u : Z) : Z := if Z.even u then u / 2 else - (u / 2) - 1.
Definition varint (x : Z) : bytes := uvarint (zigzag x).

(** binary.Uvarint(buf): [Some (x, n)] with n > 0 bytes read, or n = 0 when the
    buffer ends early; [None] when the value overflows 64 bits (n < 0 in Go). *)
Fixpoint get_uvarint_at (i : nat) (buf : bytes) (acc : Z) : option (Z * nat) :=
  match buf with
  | [] => Some (0, O)
  | b :: t =>
      if Nat.eqb i 10 then None
      else if b <? 128 then
             if Nat.eqb i 9 && (1 <? b) then None
             else Some (acc + b * 2 ^ (7 * Z.of_nat i), S i)
           else get_uvarint_at (S i) t (acc + (b mod 128) * 2 ^ (7 * Z.of_nat i))
  end.
Definition get_uvarint (buf : bytes) : option (Z * nat) := get_uvarint_at 0 buf 0.

(** v, n := binary.Uvarint(payload[offset:]); offset += n *)
Definition rd_uvarint : parser Z := fun s =>
  match get_uvarint s with
  | Some (v, n) => Ok (v, skipn n s)
  | None => Unspec
  end.
Definition rd_varint : parser Z := fun s =>
  match get_uvarint s with
  | Some (v, n) => Ok (unzigzag v, skipn n s)
  | None => Unspec
  end.
