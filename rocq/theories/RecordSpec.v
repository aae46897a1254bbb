(** Specification: the Kafka record and record-batch format, message format v2
    (https://kafka.apache.org/documentation/#recordbatch).  Describes the protocol,
    not the Go code. *)
From Verif Require Import Base.

(** CRC with a reflected 32-bit polynomial, bit by bit. *)
Fixpoint crc_bits (poly : Z) (n : nat) (c : Z) : Z :=
  match n with
  | O => c
  | S k => crc_bits poly k (if Z.odd c then Z.lxor (Z.shiftr c 1) poly else Z.shiftr c 1)
  end.
Definition crc_byte (poly : Z) (c b : Z) : Z := crc_bits poly 8 (Z.lxor c b).
Definition crc_refl (poly : Z) (l : bytes) : Z :=
  Z.lxor (fold_left (crc_byte poly) l 4294967295) 4294967295.
(** CRC-32C (Castagnoli), and CRC-32 (IEEE) used by the old message format *)
Definition crc32c : bytes -> Z := crc_refl 2197175160.
Definition crc32 : bytes -> Z := crc_refl 3988292384.

Record srecord := mkSRec {
  sr_attr : Z; sr_ts : Z; sr_od : Z;
  sr_key : option bytes; sr_value : option bytes;
  sr_headers : list (bytes * option bytes) }.

Definition enc_vbytes (o : option bytes) : bytes :=
  match o with None => varint (-1) | Some b => varint (zlen b) ++ b end.
Definition enc_sheader (h : bytes * option bytes) : bytes :=
  varint (zlen (fst h)) ++ fst h ++ enc_vbytes (snd h).
Definition enc_sbody (r : srecord) : bytes :=
  be 1 (sr_attr r) ++ varint (sr_ts r) ++ varint (sr_od r) ++ enc_vbytes (sr_key r) ++ enc_vbytes (sr_value r)
  ++ varint (zlen (sr_headers r)) ++ flat_map enc_sheader (sr_headers r).
Definition enc_srecord (r : srecord) : bytes := varint (zlen (enc_sbody r)) ++ enc_sbody r.

(** Everything in a batch except the records. *)
Record sbatch := mkSBatch {
  sb_base : Z; sb_epoch : Z; sb_attr : Z; sb_lod : Z; sb_bts : Z; sb_mts : Z;
  sb_pid : Z; sb_pepoch : Z; sb_seq : Z }.

(** [count] records whose (possibly compressed) serialisation is [payload] *)
Definition enc_sbatch_tail (b : sbatch) (count : Z) (payload : bytes) : bytes :=
  be 2 (sb_attr b) ++ be 4 (sb_lod b) ++ be 8 (sb_bts b) ++ be 8 (sb_mts b) ++ be 8 (sb_pid b)
  ++ be 2 (sb_pepoch b) ++ be 4 (sb_seq b) ++ be 4 count ++ payload.
Definition enc_sbatch (b : sbatch) (count : Z) (payload : bytes) : bytes :=
  let tail := enc_sbatch_tail b count payload in
  be 8 (sb_base b) ++ be 4 (zlen tail + 9) ++ be 4 (sb_epoch b) ++ be 1 2 ++ be 4 (crc32c tail) ++ tail.

Definition wf_vbytes (o : option bytes) : Prop :=
  match o with None => True | Some b => zlen b < 2 ^ 31 end.
Definition wf_sheader (h : bytes * option bytes) : Prop := zlen (fst h) < 2 ^ 31 /\ wf_vbytes (snd h).
Definition wf_srecord (r : srecord) : Prop :=
  i8 (sr_attr r) /\ i64 (sr_ts r) /\ i32 (sr_od r) /\ wf_vbytes (sr_key r) /\ wf_vbytes (sr_value r)
  /\ zlen (sr_headers r) < 2 ^ 31 /\ Forall wf_sheader (sr_headers r) /\ zlen (enc_sbody r) < 2 ^ 31.
Definition wf_sbatch (b : sbatch) : Prop :=
  i64 (sb_base b) /\ i32 (sb_epoch b) /\ i16 (sb_attr b) /\ i32 (sb_lod b) /\ i64 (sb_bts b) /\ i64 (sb_mts b)
  /\ i64 (sb_pid b) /\ i16 (sb_pepoch b) /\ i32 (sb_seq b).
