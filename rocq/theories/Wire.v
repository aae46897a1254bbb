(** Specification: the Kafka wire format (https://kafka.apache.org/protocol).
    This file describes the protocol, not the Go code.  A message layout is a value
    of [ty]; [den] is the type of its contents, [enc] its serialisation and [wf]
    the condition that the contents fit the length and integer fields. *)
From Verif Require Import Base.

Inductive ty :=
| TI8 | TI16 | TI32 | TI64 | TBool
| TStr      (* STRING: int16 length *)
| TNStr     (* NULLABLE_STRING: -1 for null *)
| TCStr     (* COMPACT_STRING: uvarint length+1 *)
| TCNStr    (* COMPACT_NULLABLE_STRING: 0 for null *)
| TBytes    (* BYTES: int32 length *)
| TNBytes   (* NULLABLE_BYTES *)
| TCBytes   (* COMPACT_BYTES *)
| TCNBytes  (* COMPACT_NULLABLE_BYTES *)
| TArr (t : ty)    (* ARRAY: int32 count *)
| TNArr (t : ty)   (* ARRAY, null allowed: -1 *)
| TCArr (t : ty)   (* COMPACT_ARRAY: uvarint count+1 *)
| TCNArr (t : ty)  (* COMPACT_ARRAY, null allowed: 0 *)
| TTags            (* TAG_BUFFER *)
| TUnit
| TPair (a b : ty).

Declare Scope ty_scope.
Delimit Scope ty_scope with ty.
Bind Scope ty_scope with ty.
Infix "***" := TPair (at level 55, right associativity) : ty_scope.

Fixpoint den (t : ty) : Type :=
  match t with
  | TI8 | TI16 | TI32 | TI64 => Z
  | TBool => bool
  | TStr | TCStr | TBytes | TCBytes => bytes
  | TNStr | TCNStr | TNBytes | TCNBytes => option bytes
  | TArr t | TCArr t => list (den t)
  | TNArr t | TCNArr t => option (list (den t))
  | TTags => list (Z * bytes)
  | TUnit => unit
  | TPair a b => (den a * den b)%type
  end.

Definition enc_tag (t : Z * bytes) : bytes :=
  uvarint (fst t) ++ uvarint (zlen (snd t)) ++ snd t.

Fixpoint enc (t : ty) : den t -> bytes :=
  match t with
  | TI8 => fun v => be 1 v
  | TI16 => fun v => be 2 v
  | TI32 => fun v => be 4 v
  | TI64 => fun v => be 8 v
  | TBool => fun v => [if v then 1 else 0]
  | TStr => fun s => be 2 (zlen s) ++ s
  | TNStr => fun o => match o with None => be 2 (-1) | Some s => be 2 (zlen s) ++ s end
  | TCStr => fun s => uvarint (zlen s + 1) ++ s
  | TCNStr => fun o => match o with None => uvarint 0 | Some s => uvarint (zlen s + 1) ++ s end
  | TBytes => fun s => be 4 (zlen s) ++ s
  | TNBytes => fun o => match o with None => be 4 (-1) | Some s => be 4 (zlen s) ++ s end
  | TCBytes => fun s => uvarint (zlen s + 1) ++ s
  | TCNBytes => fun o => match o with None => uvarint 0 | Some s => uvarint (zlen s + 1) ++ s end
  | TArr t => fun l => be 4 (@zlen (den t) l) ++ flat_map (enc t) l
  | TNArr t => fun o => match o with None => be 4 (-1) | Some l => be 4 (@zlen (den t) l) ++ flat_map (enc t) l end
  | TCArr t => fun l => uvarint (@zlen (den t) l + 1) ++ flat_map (enc t) l
  | TCNArr t => fun o => match o with None => uvarint 0 | Some l => uvarint (@zlen (den t) l + 1) ++ flat_map (enc t) l end
  | TTags => fun l => uvarint (zlen l) ++ flat_map enc_tag l
  | TUnit => fun _ => []
  | TPair a b => fun p => enc a (fst p) ++ enc b (snd p)
  end.

Definition wf_tag (t : Z * bytes) : Prop := 0 <= fst t < 2 ^ 31 /\ zlen (snd t) < 2 ^ 31.

Fixpoint wf (t : ty) : den t -> Prop :=
  match t with
  | TI8 => i8
  | TI16 => i16
  | TI32 => i32
  | TI64 => i64
  | TBool => fun _ => True
  | TStr => fun s => zlen s < 2 ^ 15
  | TNStr => fun o => match o with None => True | Some s => zlen s < 2 ^ 15 end
  | TCStr => fun s => zlen s < 2 ^ 15
  | TCNStr => fun o => match o with None => True | Some s => zlen s < 2 ^ 15 end
  | TBytes | TCBytes => fun s => zlen s < 2 ^ 31 - 1
  | TNBytes | TCNBytes => fun o => match o with None => True | Some s => zlen s < 2 ^ 31 - 1 end
  | TArr t | TCArr t => fun l : list (den t) => @zlen (den t) l < 2 ^ 31 - 1 /\ Forall (wf t) l
  | TNArr t | TCNArr t => fun o => match o with None => True | Some l => @zlen (den t) l < 2 ^ 31 - 1 /\ Forall (wf t) l end
  | TTags => fun l => zlen l < 2 ^ 31 /\ Forall wf_tag l
  | TUnit => fun _ => True
  | TPair a b => fun p => wf a (fst p) /\ wf b (snd p)
  end.

(** A message on the wire: 4-byte length followed by the message. *)
Definition frame (body : bytes) : bytes := be 4 (zlen body) ++ body.

(** *** Reading a layout back (what a peer that follows the protocol does) *)
Definition dec_be (n : nat) (s : bytes) : option (Z * bytes) :=
  if Nat.leb n (length s) then Some (unbe (firstn n s), skipn n s) else None.
Definition dec_int (n : nat) (s : bytes) : option (Z * bytes) :=
  match dec_be n s with
  | Some (v, r) => Some ((if v <? 2 ^ (8 * Z.of_nat n - 1) then v else v - 2 ^ (8 * Z.of_nat n)), r)
  | None => None
  end.
Fixpoint dec_uv (s : bytes) : option (Z * bytes) :=
  match s with
  | [] => None
  | b :: t => if b <? 128 then Some (b, t)
              else match dec_uv t with Some (v, r) => Some (b - 128 + 128 * v, r) | None => None end
  end.
Definition dec_raw (n : Z) (s : bytes) : option (bytes * bytes) :=
  if (n <? 0) || (zlen s <? n) then None else Some (firstn (Z.to_nat n) s, skipn (Z.to_nat n) s).
Fixpoint dec_list {A} (n : nat) (d : bytes -> option (A * bytes)) (s : bytes) : option (list A * bytes) :=
  match n with
  | O => Some ([], s)
  | S k => match d s with
           | Some (x, r) => match dec_list k d r with Some (l, r') => Some (x :: l, r') | None => None end
           | None => None
           end
  end.
Definition dec_seq {A B} (d : option (A * bytes)) (k : A -> bytes -> option (B * bytes)) : option (B * bytes) :=
  match d with Some (a, r) => k a r | None => None end.
Definition dec_map {A B} (f : A -> B) (d : option (A * bytes)) : option (B * bytes) :=
  match d with Some (a, r) => Some (f a, r) | None => None end.
Definition dec_tag (s : bytes) : option (Z * bytes * bytes) :=
  dec_seq (dec_uv s) (fun t r => dec_seq (dec_uv r) (fun n r' => dec_map (fun b => (t, b)) (dec_raw n r'))).

Fixpoint dec (t : ty) : bytes -> option (den t * bytes) :=
  match t with
  | TI8 => dec_int 1
  | TI16 => dec_int 2
  | TI32 => dec_int 4
  | TI64 => dec_int 8
  | TBool => fun s => dec_map (fun b => negb (b =? 0)) (dec_be 1 s)
  | TStr => fun s => dec_seq (dec_int 2 s) dec_raw
  | TNStr => fun s => dec_seq (dec_int 2 s) (fun n r => if n =? -1 then Some (None, r) else dec_map Some (dec_raw n r))
  | TCStr | TCBytes => fun s => dec_seq (dec_uv s) (fun n r => dec_raw (n - 1) r)
  | TCNStr | TCNBytes => fun s => dec_seq (dec_uv s) (fun n r => if n =? 0 then Some (None, r) else dec_map Some (dec_raw (n - 1) r))
  | TBytes => fun s => dec_seq (dec_int 4 s) dec_raw
  | TNBytes => fun s => dec_seq (dec_int 4 s) (fun n r => if n =? -1 then Some (None, r) else dec_map Some (dec_raw n r))
  | TArr t => fun s => dec_seq (dec_int 4 s) (fun n r => dec_list (Z.to_nat n) (dec t) r)
  | TNArr t => fun s => dec_seq (dec_int 4 s) (fun n r => if n =? -1 then Some (None, r) else dec_map Some (dec_list (Z.to_nat n) (dec t) r))
  | TCArr t => fun s => dec_seq (dec_uv s) (fun n r => dec_list (Z.to_nat (n - 1)) (dec t) r)
  | TCNArr t => fun s => dec_seq (dec_uv s) (fun n r => if n =? 0 then Some (None, r) else dec_map Some (dec_list (Z.to_nat (n - 1)) (dec t) r))
  | TTags => fun s => dec_seq (dec_uv s) (fun n r => dec_list (Z.to_nat n) dec_tag r)
  | TUnit => fun s => Some (tt, s)
  | TPair a b => fun s => dec_seq (dec a s) (fun x r => dec_map (fun y => (x, y)) (dec b r))
  end.
