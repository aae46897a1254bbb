(** C01-C04: primitive values survive the wire. *)
From Verif Require Import Base BaseFacts Wire Prims PrimsFacts.

(** *** C01 *)
Theorem C01_string_roundtrip : forall s r, zlen s < 2 ^ 16 ->
  nonnullableString (encodeString s ++ r) = Ok (s, r).
Proof. exact encodeString_rt. Qed.
Print Assumptions C01_string_roundtrip.

Theorem C01_nullable_string_roundtrip : forall s r,
  (match s with None => True | Some b => zlen b < 2 ^ 15 end) ->
  nullableString (encodeNullableString s ++ r) = Ok (s, r).
Proof. exact nullableString_rt. Qed.
Print Assumptions C01_nullable_string_roundtrip.

Theorem C01_compact_string_roundtrip : forall s r, zlen s < 2 ^ 63 ->
  compactString (encodeCompactString s ++ r) = Ok (s, r).
Proof. exact compactString_rt. Qed.
Print Assumptions C01_compact_string_roundtrip.

Theorem C01_compact_nullable_string_partial : forall s r,
  (match s with None => True | Some b => zlen b < 2 ^ 21 - 1 end) ->
  compactNullableString (encodeCompactNullableString s ++ r) = Ok (s, r).
Proof. exact compactNullableString_rt. Qed.
Print Assumptions C01_compact_nullable_string_partial.

(** The io.Writer variant has no such limit. *)
Theorem C01_written_compact_nullable_string_roundtrip : forall s r,
  (match s with None => True | Some b => zlen b < 2 ^ 63 end) ->
  compactNullableString (writeCompactNullableString s ++ r) = Ok (s, r).
Proof. exact writeCompactNullableString_rt. Qed.
Print Assumptions C01_written_compact_nullable_string_roundtrip.

Theorem C01_compact_bytes_roundtrip : forall s r, zlen s < 2 ^ 63 ->
  compactBytes (encodeCompactBytes s ++ r) = Ok (s, r).
Proof. exact compactBytes_rt. Qed.
Print Assumptions C01_compact_bytes_roundtrip.

Theorem C01_array_length_roundtrip : forall n r, -1 <= n < 2 ^ 31 - 1 ->
  compactArrayLength (encodeCompactArrayLength n ++ r) = Ok (n, r).
Proof. exact compactArrayLength_rt. Qed.
Print Assumptions C01_array_length_roundtrip.

Example C01_ex1 : nonnullableString (encodeString [104; 105] ++ [7]) = Ok ([104; 105], [7])
  /\ encodeString [104; 105] = [0; 2; 104; 105].
Proof. split; reflexivity. Qed.
Example C01_ex4 : compactArrayLength (encodeCompactArrayLength (-1) ++ [5]) = Ok (-1, [5])
  /\ compactArrayLength (encodeCompactArrayLength 300 ++ [5]) = Ok (300, [5]).
Proof. split; reflexivity. Qed.
Example C01_ex2 : compactNullableString (encodeCompactNullableString (Some []) ++ [9]) = Ok (Some [], [9])
  /\ compactNullableString (encodeCompactNullableString None ++ [9]) = Ok (None, [9]).
Proof. split; reflexivity. Qed.
Example C01_ex3 : compactString (encodeCompactString (repeat 65 200) ++ [1; 2]) = Ok (repeat 65 200, [1; 2])
  /\ firstn 2 (encodeCompactString (repeat 65 200)) = [201; 1].
Proof. split; vm_compute; reflexivity. Qed.

(** Finding: the buffer of encodeCompactNullableString is sized for a 3-byte length;
    from 2^21-1 bytes on the tail of the string is cut off and the result cannot be
    read back. *)
Theorem C01_compact_nullable_string_long_refuted :
  exists s, zlen s = 2 ^ 21 - 1 /\
    compactNullableString (encodeCompactNullableString (Some s)) = Panic.
Proof. exact compactNullableString_long_panics. Qed.
Print Assumptions C01_compact_nullable_string_long_refuted.

(** *** C02 *)
(** Finding: encodeNullableBytes writes the length prefix 0, so the bytes are lost. *)
Theorem C02_nullable_bytes_refuted :
  exists s r, zlen s < 2 ^ 31 /\
    nullableBytes (encodeNullableBytes (Some s) ++ r) <> Ok (Some s, r).
Proof. exists [1; 2; 3], []. split; [reflexivity|]. vm_compute. intros H; discriminate H. Qed.
Print Assumptions C02_nullable_bytes_refuted.

(** Absent bytes are written as the protocol prescribes, and read back. *)
Theorem C02_nullable_bytes_null : forall r, nullableBytes (encodeNullableBytes None ++ r) = Ok (None, r).
Proof. intros r. reflexivity. Qed.
Print Assumptions C02_nullable_bytes_null.

(** Finding: compactNullableBytes panics on null and turns empty into null. *)
Theorem C02_compact_nullable_bytes_null_refuted :
  compactNullableBytes (encodeCompactNullableBytes None) = Panic.
Proof. vm_compute. reflexivity. Qed.
Print Assumptions C02_compact_nullable_bytes_null_refuted.
Theorem C02_compact_nullable_bytes_empty_refuted :
  compactNullableBytes (encodeCompactNullableBytes (Some [])) = Ok (None, []).
Proof. vm_compute. reflexivity. Qed.
Print Assumptions C02_compact_nullable_bytes_empty_refuted.

(** What does hold: non-empty compact byte strings, and reading a nullable byte
    string written as the protocol prescribes. *)
Theorem C02_compact_nullable_bytes_partial : forall s r, 0 < zlen s < 2 ^ 63 ->
  compactNullableBytes (encodeCompactNullableBytes (Some s) ++ r) = Ok (Some s, r).
Proof. exact compactNullableBytes_some. Qed.
Print Assumptions C02_compact_nullable_bytes_partial.
Theorem C02_nullable_bytes_read_partial : forall s r, wf TNBytes s ->
  nullableBytes (enc TNBytes s ++ r) = Ok (s, r).
Proof. exact nullableBytes_wire. Qed.
Print Assumptions C02_nullable_bytes_read_partial.
Example C02_ex : compactNullableBytes (encodeCompactNullableBytes (Some [5; 6]) ++ [1]) = Ok (Some [5; 6], [1]).
Proof. reflexivity. Qed.

(** *** C03 *)
Theorem C03_varint_roundtrip : forall x r, i64 x -> rd_varint (varint x ++ r) = Ok (x, r).
Proof. exact rd_varint_app. Qed.
Print Assumptions C03_varint_roundtrip.
Theorem C03_uvarint_roundtrip : forall x r, u64 x -> rd_uvarint (uvarint x ++ r) = Ok (x, r).
Proof. exact rd_uvarint_app. Qed.
Print Assumptions C03_uvarint_roundtrip.
Theorem C03_uvarint_size : forall x, (length (uvarint x) <= 10)%nat.
Proof. exact uvarint_length. Qed.
Print Assumptions C03_uvarint_size.
Example C03_ex : varint (-2 ^ 63) = [255; 255; 255; 255; 255; 255; 255; 255; 255; 1] /\ i64 (- 2 ^ 63)
  /\ varint 150 = [172; 2].
Proof. split; [reflexivity|]. split; [unfold i64; cbn; lia|reflexivity]. Qed.

(** *** C04 *)
Theorem C04_tagged_fields_roundtrip : forall fs r, wf TTags fs ->
  exists b, tf_encode fs = Ok b /\ decodeTaggedFields (b ++ r) = Ok (fs, r).
Proof.
  exact (fun fs r H => ex_intro _ (enc TTags fs)
    (conj (tf_encode_wire fs (proj2 H)) (decodeTaggedFields_wire fs r H))).
Qed.
Print Assumptions C04_tagged_fields_roundtrip.
Theorem C04_no_tags_one_byte : tf_encode [] = Ok [0].
Proof. exact eq_refl. Qed.
Print Assumptions C04_no_tags_one_byte.
Example C04_ex : wf TTags [(3, [1; 2]); (300, [])] /\ tf_encode [(3, [1; 2]); (300, [])] = Ok [2; 3; 2; 1; 2; 172; 2; 0].
Proof. split; [|reflexivity]. cbn [wf]. split; [reflexivity|]. repeat constructor; cbn; lia. Qed.
