(** Model of the functions that translate names: compression types (compress_type.go,
    compressor.go, the switches in simple_producer.go, record.go, message.go and
    fetch_response.go) and SASL mechanisms (sasl_plain.go, sasl_authenticate_request.go). *)
From Verif Require Import Base Requests Config.

(** strings.ToLower; only ASCII letters are changed (letters outside ASCII that Go lowers to
    ASCII ones are left out) *)
Definition lower (s : bytes) : bytes := map (fun c => if (65 <=? c) && (c <=? 90) then c + 32 else c) s.

Definition c_unknown : bytes := [117; 110; 107; 110; 111; 119; 110].
(** compress_type.go:18-32 CompressType.String *)
Definition ctype_string (c : Z) : bytes :=
  if c =? 0 then c_none else if c =? 1 then c_gzip else if c =? 2 then c_snappy else if c =? 3 then c_lz4 else c_unknown.
(** compress_type.go:34-48; the code returned with an error is 0 *)
Definition parseCompressType (s : bytes) : Z * bool :=
  let s := lower s in
  if beqb s c_none then (0, true) else if beqb s c_gzip then (1, true) else if beqb s c_snappy then (2, true)
  else if beqb s c_lz4 then (3, true) else (0, false).

(** The libraries: NoneCompressor, compress/gzip, go-xerial-snappy, pierrec/lz4. *)
Inductive lib := LNone | LGzip | LSnappy | LLz4.
(** compressor.go:7-19; [None]: nil *)
Definition newCompressor (s : bytes) : option lib :=
  if beqb s c_gzip then Some LGzip else if beqb s c_lz4 then Some LLz4 else if beqb s c_snappy then Some LSnappy
  else if beqb s c_none then Some LNone else None.
(** simple_producer.go:84-95: compressionValue, which becomes the attributes of the batches *)
Definition producer_codec (s : bytes) : option Z :=
  if beqb s c_none then Some 0 else if beqb s c_gzip then Some 1 else if beqb s c_snappy then Some 2
  else if beqb s c_lz4 then Some 3 else None.
(** record.go:266-291: what compresses a batch; [Some LNone] also stands for "not compressed" *)
Definition batch_lib (attr : Z) : option lib :=
  let c := Z.land attr 3 in if c =? 0 then Some LNone else newCompressor (ctype_string c).
(** fetch_response.go:95-130 uncompress, 226: what undoes it; [None]: no case applies, no
    bytes and no error come out *)
Definition uncompress_lib (attr : Z) : option lib :=
  let c := Z.land attr 3 in
  if c =? 0 then Some LNone else if c =? 1 then Some LGzip else if c =? 2 then Some LSnappy else if c =? 3 then Some LLz4 else None.

(** sasl_plain.go:15-19 *)
Definition plain_encode (user password : bytes) : bytes :=
  let src := [0] ++ user ++ [0] ++ password in
  firstn (2 + length user + length password) (src ++ repeat 0 (2 + length user + length password)).
(** sasl_authenticate_request.go:30-46; [None]: the zero value, whose RequestHeader is nil *)
Definition newSaslAuthenticate (user password mechanism : bytes) : option rbody :=
  if beqb (lower mechanism) [112; 108; 97; 105; 110] then Some (QSaslAuthenticate (plain_encode user password)) else None.
(** broker.go:176-177, 217-228: Request sets the correlation id in the header *)
Definition sasl_request (zip : Z -> bytes -> res bytes) (corr v : Z) (client : option bytes) (user password mechanism : bytes) : res bytes :=
  match newSaslAuthenticate user password mechanism with
  | None => Panic
  | Some b => rbind (prepare zip corr v (new_request client b)) (fun x => Ok (fst x))
  end.
