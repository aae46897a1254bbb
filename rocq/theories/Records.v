(** Model of record.go and of the compression plumbing around it. *)
From Verif Require Import Base RecordSpec.

(** record.go:12-15, 31-38.  A nil slice is [None]; header values are never nil after
    decoding (make), and a nil one is encoded like an empty one. *)
Record Record := mkRec {
  r_attr : Z;                    (* int8 *)
  r_ts : Z;                      (* int64 *)
  r_od : Z;                      (* int32 *)
  r_key : option bytes;
  r_value : option bytes;
  r_headers : list (bytes * bytes) }.

(** len of a slice; nil is 0 *)
Definition olen (o : option bytes) : Z := match o with None => 0 | Some b => zlen b end.
(** the bytes of a slice; nil has none *)
Definition obytes (o : option bytes) : bytes := match o with None => [] | Some b => b end.

(** record.go:66-74: the key length.  For a nil key only PutVarint(keyLenBuf, -1) is
    executed, [n] keeps the width of the preceding offset-delta varint and
    keyLenBuf[:n] is written: one byte 1 followed by zero bytes. *)
Definition key_len_bytes (od : Z) (key : option bytes) : bytes :=
  match key with
  | None => firstn (length (varint od)) (varint (-1) ++ repeat 0 9)
  | Some k => varint (zlen k)
  end.

(** record.go:90-111, one header *)
Definition header_bytes (h : bytes * bytes) : bytes :=
  varint (zlen (fst h)) ++ fst h ++ varint (zlen (snd h)) ++ snd h.

(** record.go:43-111: everything except the length *)
Definition record_body (r : Record) : bytes :=
  [uint 8 (r_attr r)] ++ varint (r_ts r) ++ varint (r_od r)
  ++ key_len_bytes (r_od r) (r_key r) ++ obytes (r_key r)
  ++ varint (olen (r_value r)) ++ obytes (r_value r)
  ++ varint (zlen (r_headers r)) ++ flat_map header_bytes (r_headers r).

(** record.go:41-134 Record.Encode; writes to a bytes.Buffer never fail *)
Definition record_encode (r : Record) : bytes :=
  varint (zlen (record_body r)) ++ record_body r.

(** record.go:17-28 decodeHeader; make([]byte, valueLength) panics on a negative
    length *)
Definition rd_header : parser (bytes * bytes) :=
  kl <- rd_varint ;;
  k <- rd_bytes kl ;;
  vl <- rd_varint ;;
  v <- rd_bytes vl ;;
  ret (k, v).

(** record.go:155-165: a length <= 0 leaves the slice nil *)
Definition rd_vbytes : parser (option bytes) :=
  n <- rd_varint ;;
  if 0 <? n then (b <- rd_bytes n ;; ret (Some b)) else ret None.

(** record.go:144-178: after the length check *)
Definition rd_record_body : parser Record :=
  a <- rd_i8 ;;
  ts <- rd_varint ;;
  od <- rd_varint ;;
  k <- rd_vbytes ;;
  v <- rd_vbytes ;;
  n <- rd_varint ;;
  hs <- rd_make n rd_header ;;
  ret (mkRec a ts (sint 32 od) k v hs).

(** message.go:10 errUncompleteRecord *)
Definition EUncomplete : err := EInvalid 10.

(** record.go:137-179 DecodeToRecord.  A length varint longer than 64 bits makes
    payload[o:] panic (o < 0). *)
Definition decodeToRecord (payload : bytes) : res (Record * bytes) :=
  match get_uvarint payload with
  | None => Panic
  | Some (u, n) =>
      let length := unzigzag u in
      let rest := skipn n payload in
      if (length =? 0) || (zlen rest <? length) then Err EUncomplete
      else rd_record_body rest
  end.

(** record.go:181-205 *)
Record RecordBatch := mkRB {
  rb_base : Z; rb_epoch : Z; rb_magic : Z; rb_attr : Z; rb_lod : Z; rb_bts : Z; rb_mts : Z;
  rb_pid : Z; rb_pepoch : Z; rb_seq : Z; rb_records : list Record }.

Section Compress.
  (** Compressor.Compress of gzip (1), snappy (2) and lz4 (3); external libraries. *)
  Variable zip : Z -> bytes -> res bytes.

  (** record.go:266-299: serialised records, compressed if attributes say so.  On a
      compressor error Encode returns nil and its deferred functions index into the
      nil slice: a panic. *)
  Definition batch_payload (attr : Z) (rs : list Record) : res bytes :=
    let raw := flat_map record_encode rs in
    let c := Z.land attr 3 in
    if c =? 0 then Ok raw
    else match zip c raw with Ok b => Ok b | _ => Panic end.

  (** record.go:229-265 *)
  Definition batch_tail (b : RecordBatch) (payload : bytes) : bytes :=
    be 2 (rb_attr b) ++ be 4 (rb_lod b) ++ be 8 (rb_bts b) ++ be 8 (rb_mts b) ++ be 8 (rb_pid b)
    ++ be 2 (rb_pepoch b) ++ be 4 (rb_seq b) ++ be 4 (sint 32 (zlen (rb_records b))) ++ payload.

  (** record.go:209-301 RecordBatch.Encode; the deferred functions fill in the CRC of
      everything after the CRC field (226-229) and then the length (213-215) *)
  Definition batch_encode (b : RecordBatch) : res bytes :=
    rbind (batch_payload (rb_attr b) (rb_records b)) (fun payload =>
    let tail := batch_tail b payload in
    let total := 8 + 4 + 4 + 1 + 4 + zlen tail in
    Ok (be 8 (rb_base b) ++ be 4 (uint 32 (total - 12)) ++ be 4 (rb_epoch b) ++ be 1 (rb_magic b)
        ++ be 4 (crc32c tail) ++ tail)).
End Compress.

(** simple_producer.go:139-149: the record AddMessage makes of (key, value); the value
    is copied into a fresh, non-nil slice *)
Definition new_record (key : option bytes) (value : bytes) : Record :=
  mkRec 0 0 0 key (Some value) [].

(** simple_producer.go:173-192 createRecordBatch; [ts] is the clock, [magic] and
    [codec] come from the configuration *)
Definition createRecordBatch (magic codec ts : Z) (rs : list Record) : RecordBatch :=
  mkRB 0 (-1) (sint 8 magic) codec (sint 32 (sint 32 (zlen rs) - 1)) ts ts (-1) 0 0 rs.
