(** Model of primitive_type_encode.go, primitive_types_decode.go, tagged_fields.go. *)
From Verif Require Import Base.

(** primitive_type_encode.go:10-15 encodeString, 16-23 writeString (same bytes).
    uint16(len(s)) truncates. *)
Definition encodeString (s : bytes) : bytes := be 2 (uint 16 (zlen s)) ++ s.

(** primitive_type_encode.go:28-33 encodeCompactString, 35-43 writeCompactString.
    The buffer len(s)+10 always suffices, so copy never truncates. *)
Definition encodeCompactString (s : bytes) : bytes := uvarint (1 + zlen s) ++ s.

(** primitive_type_encode.go:49-58, 60-71; nil is [None]. *)
Definition encodeNullableString (s : option bytes) : bytes :=
  match s with
  | None => be 2 65535
  | Some s => be 2 (uint 16 (zlen s)) ++ s
  end.

(** primitive_type_encode.go:77-85: the buffer has len(s)+MaxVarintLen16 = len(s)+3
    bytes; copy writes only what fits behind the varint. *)
Definition encodeCompactNullableString (s : option bytes) : bytes :=
  match s with
  | None => [0]
  | Some s =>
      let v := uvarint (1 + zlen s) in
      v ++ firstn (length s + 3 - length v) s
  end.

(** primitive_type_encode.go:87-98 writeCompactNullableString writes the string
    through the writer, so nothing is truncated. *)
Definition writeCompactNullableString (s : option bytes) : bytes :=
  match s with
  | None => [0]
  | Some s => uvarint (1 + zlen s) ++ s
  end.

(** primitive_type_encode.go:103-108 *)
Definition encodeCompactBytes (s : bytes) : bytes := uvarint (1 + zlen s) ++ s.

(** primitive_type_encode.go:114-122: the result of AppendUint32(payload, ...) on
    line 119 is discarded, the four length bytes of payload stay zero. *)
Definition encodeNullableBytes (s : option bytes) : bytes :=
  match s with
  | None => be 4 4294967295
  | Some s => [0; 0; 0; 0] ++ s
  end.

(** primitive_type_encode.go:127-135 *)
Definition encodeCompactNullableBytes (s : option bytes) : bytes :=
  match s with
  | None => [0]
  | Some s => uvarint (1 + zlen s) ++ s
  end.

(** primitive_type_encode.go:137-141 *)
Definition encodeCompactArrayLength (l : Z) : bytes := uvarint (uint 64 (1 + l)).

(** primitive_types_decode.go:11-17 *)
Definition nonnullableString : parser bytes :=
  l <- rd_u16 ;; rd_bytes l.

(** primitive_types_decode.go:22-27: length-- on uint64 wraps, int(length) may be
    negative, in which case the slice expression panics. *)
Definition compactString : parser bytes :=
  l <- rd_uvarint ;; rd_bytes (sint 64 (l - 1)).

(** primitive_types_decode.go:33-40 *)
Definition nullableString : parser (option bytes) :=
  l <- rd_i16 ;;
  if l =? -1 then ret None else (s <- rd_bytes l ;; ret (Some s)).

(** primitive_types_decode.go:46-54 *)
Definition compactNullableString : parser (option bytes) :=
  l <- rd_uvarint ;;
  if l =? 0 then ret None else (s <- rd_bytes (sint 64 (l - 1)) ;; ret (Some s)).

(** primitive_types_decode.go:59-64 *)
Definition compactBytes : parser bytes :=
  l <- rd_uvarint ;; rd_bytes (sint 64 (l - 1)).

(** primitive_types_decode.go:70-77 *)
Definition nullableBytes : parser (option bytes) :=
  l <- rd_i32 ;;
  if l =? -1 then ret None else (s <- rd_bytes l ;; ret (Some s)).

(** primitive_types_decode.go:82-91: the zero test comes after length--. *)
Definition compactNullableBytes : parser (option bytes) :=
  l <- rd_uvarint ;;
  let l' := uint 64 (l - 1) in
  if l' =? 0 then ret None else (s <- rd_bytes (sint 64 l') ;; ret (Some s)).

(** primitive_types_decode.go:99-102: int32(l) - 1 *)
Definition compactArrayLength : parser Z :=
  l <- rd_uvarint ;; ret (sint 32 (sint 32 l - 1)).

(** tagged_fields.go:7-12; a nil and an empty TaggedFields behave alike. *)
Definition taggedFields := list (Z * bytes).

(** tagged_fields.go:14-23, 62-64: receiver pointer is never nil where used. *)
Definition tf_length (r : taggedFields) : Z :=
  fold_left (fun l v => l + (10 + zlen (snd v))) r 10.

(** tagged_fields.go:66-71 TaggedField.encode *)
Definition tf_field_ops (v : Z * bytes) : list wop :=
  [Put (uvarint (uint 64 (fst v))); Put (uvarint (zlen (snd v))); CopyN (snd v)].
(** tagged_fields.go:25-32 EncodeTo *)
Definition tf_ops (r : taggedFields) : list wop :=
  Put (uvarint (zlen r)) :: flat_map tf_field_ops r.
(** tagged_fields.go:33-44 Encode (nil gives [0], as does the empty list) *)
Definition tf_encode (r : taggedFields) : res bytes := wcut (tf_length r) (tf_ops r).

(** tagged_fields.go:46-60 *)
Definition decodeTaggedField : parser (Z * bytes) :=
  tag <- rd_uvarint ;;
  l <- rd_uvarint ;;
  data <- rd_bytes (sint 64 l) ;;
  ret (sint 64 tag, data).
(** tagged_fields.go:46-60 *)
Definition decodeTaggedFields : parser taggedFields :=
  n <- rd_uvarint ;; rd_n (Z.to_nat n) decodeTaggedField.
