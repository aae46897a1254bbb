(** Model of the request decoders: DecodeRequestHeader (request.go:147-170) and the
    Decode...Request functions, which the package's tests use to read requests back.
    A decoder sees payload[offset:] and leaves the rest ([parser], Base.v); whatever a
    decoder leaves unread is ignored.  TaggedFields that are read are part of the result. *)
From Verif Require Import Base Prims Records Requests Responses.

(** request.go:147-170.  headerVersion (218-556) is computed from the key and version
    just read and cached in the header. *)
Definition decodeRequestHeader : parser (rhdr * taggedFields) :=
  key <- rd_u16 ;; ver <- rd_u16 ;; corr <- rd_u32 ;;
  match hv_switch key ver with
  | None => panic
  | Some hv =>
      client <- (if 1 <=? hv then nullableString else ret None) ;;
      tags <- (if 2 <=? hv then decodeTaggedFields else ret []) ;;
      ret (mkH (Some hv) key ver corr client, tags)
  end.
(** the cached header version *)
Definition h_version (h : rhdr) : Z := match h_hv h with Some v => v | None => 1 end.

(** if requestLength+4 != uint32(len(payload)) { return error }, in 32-bit arithmetic *)
Definition whole32 {A} (p : parser A) (payload : bytes) : res A :=
  match rd_u32 payload with
  | Ok (n, s) => if uint 32 (n + 4) =? uint 32 (zlen payload)
                 then match p s with Ok (a, _) => Ok a | Err e => Err e | Panic => Panic | Unspec => Unspec end
                 else Err ELength
  | Err e => Err e | Panic => Panic | Unspec => Unspec
  end.
(** binary.BigEndian.Uint32(payload); offset += 4: the length is not compared *)
Definition any_length {A} (p : parser A) (payload : bytes) : res A :=
  match rd_u32 payload with
  | Ok (_, s) => match p s with Ok (a, _) => Ok a | Err e => Err e | Panic => Panic | Unspec => Unspec end
  | Err e => Err e | Panic => Panic | Unspec => Unspec
  end.
(** n < 0: nil; else make and read n elements *)
Definition rd_opt {A} (n : Z) (p : parser A) : parser (option (list A)) :=
  if n <? 0 then ret None else (l <- rd_n (Z.to_nat n) p ;; ret (Some l)).
(** an array whose count is compact ([flex]) or an int32; a negative count is nil *)
Definition rd_oarr {A} (flex : bool) (p : parser A) : parser (option (list A)) :=
  n <- (if flex then compactArrayLength else rd_i32) ;; rd_opt n p.
(** the same, where make panics on a negative count *)
Definition rd_marr {A} (flex : bool) (p : parser A) : parser (list A) :=
  n <- (if flex then compactArrayLength else rd_i32) ;; rd_make n p.
(** the same with int(Uint32(...)) *)
Definition rd_parr {A} (flex : bool) (p : parser A) : parser (list A) :=
  n <- (if flex then compactArrayLength else rd_u32) ;; rd_make n p.
(** payload[offset] == 1 *)
Definition rd_one : parser bool := b <- rd_u8 ;; ret (b =? 1).

(** alter_partition_reassignments_request.go:149-217 *)
Notation apart := (Z * (option (list Z) * taggedFields))%type.
(** alter_partition_reassignments_request.go:149-217: a partition *)
Definition rd_apr_part : parser apart :=
  pid <- rd_i32 ;; rs <- rd_oarr true rd_i32 ;; t <- decodeTaggedFields ;; ret (pid, (rs, t)).
Notation atopic := (bytes * (option (list apart) * taggedFields))%type.
(** alter_partition_reassignments_request.go:149-217: a topic *)
Definition rd_apr_topic : parser atopic :=
  name <- compactString ;; ps <- rd_oarr true rd_apr_part ;; t <- decodeTaggedFields ;; ret (name, (ps, t)).
(** alter_partition_reassignments_request.go:149-217 Decode *)
Definition decodeAlterReassign : bytes -> res (rhdr * taggedFields * (Z * (option (list atopic) * taggedFields))) :=
  whole32 (h <- decodeRequestHeader ;; timeout <- rd_i32 ;;
           ts <- rd_oarr true rd_apr_topic ;; t <- decodeTaggedFields ;;
           ret (h, (timeout, (ts, t)))).

(** create_acls_request.go:112-187: layout from the header version, pattern type from the
    API version, both of the header just read; make panics on a negative count.  The
    tagged fields are read at every version. *)
Notation acl := (Z * (bytes * (Z * (bytes * (bytes * (Z * Z))))))%type.
(** create_acls_request.go:112-187: one ACL *)
Definition rd_creation (hv ver : Z) : parser (acl * taggedFields) :=
  let str := if hv <? 2 then nonnullableString else compactString in
  rt <- rd_i8 ;; rn <- str ;; pt <- (if 1 <=? ver then rd_i8 else ret 0) ;;
  pr <- str ;; ho <- str ;; op <- rd_i8 ;; pe <- rd_i8 ;; t <- decodeTaggedFields ;;
  ret ((rt, (rn, (pt, (pr, (ho, (op, pe)))))), t).
(** create_acls_request.go:112-187 Decode *)
Definition decodeCreateAcls : bytes -> res (rhdr * taggedFields * (list (acl * taggedFields) * taggedFields)) :=
  whole32 ('(h, ht) <- decodeRequestHeader ;;
           cs <- rd_marr (negb (h_version h <? 2)) (rd_creation (h_version h) (h_ver h)) ;; t <- decodeTaggedFields ;;
           ret ((h, ht), (cs, t))).

(** delete_acls_request.go:135-205.  The tagged fields of a filter are read at every
    version, the ones of the request never. *)
Notation aclf := (Z * (option bytes * (Z * (option bytes * (option bytes * (Z * Z))))))%type.
(** delete_acls_request.go:135-205: one filter *)
Definition rd_filter (flex : bool) (ver : Z) : parser (aclf * taggedFields) :=
  let str := if flex then compactNullableString else nullableString in
  rt <- rd_i8 ;; rn <- str ;; pt <- (if 1 <=? ver then rd_i8 else ret 0) ;;
  pr <- str ;; ho <- str ;; op <- rd_i8 ;; pe <- rd_i8 ;; t <- decodeTaggedFields ;;
  ret ((rt, (rn, (pt, (pr, (ho, (op, pe)))))), t).
(** delete_acls_request.go:135-205 Decode *)
Definition decodeDeleteAcls : bytes -> res (rhdr * taggedFields * option (list (aclf * taggedFields))) :=
  whole32 ('(h, ht) <- decodeRequestHeader ;;
           fs <- rd_oarr (flexible (h_version h)) (rd_filter (flexible (h_version h)) (h_ver h)) ;;
           ret ((h, ht), fs)).

(** describe_acls_request.go:67-120; the version is the argument's, tagged fields of the
    request are not read *)
Definition decodeDescribeAcls (v : Z) : bytes -> res (rhdr * taggedFields * aclf) :=
  let str := if v <? 2 then nullableString else compactNullableString in
  any_length (h <- decodeRequestHeader ;; rt <- rd_i8 ;; rn <- str ;; pt <- (if 1 <=? v then rd_i8 else ret 0) ;;
              pr <- str ;; ho <- str ;; op <- rd_i8 ;; pe <- rd_i8 ;;
              ret (h, (rt, (rn, (pt, (pr, (ho, (op, pe)))))))).

(** incremental_alter_config_request.go:164-201; payload[4:] *)
Notation icfg := (bytes * (Z * bytes))%type.
(** incremental_alter_config_request.go:164-201 Decode *)
Definition decodeIncremental : bytes -> res (rhdr * taggedFields * (list (Z * (bytes * list icfg)) * bool)) := fun payload =>
  rbind ((_ <- rd_skip 4 ;;
          h <- decodeRequestHeader ;;
          rs <- rd_arr (rt <- rd_u8 ;; rn <- rd_str ;;
                        es <- rd_arr (name <- rd_str ;; op <- rd_i8 ;; value <- rd_str ;; ret (name, (op, value))) ;;
                        ret (rt, (rn, es))) ;;
          validate <- rd_one ;;
          ret (h, (rs, validate))) payload) (fun x => Ok (fst x)).

(** list_groups_request.go:132-203; minimal versions from the struct tags 12-13 *)
Definition rd_lg_filter (flex : bool) : parser (option (list bytes)) :=
  rd_oarr flex (if flex then compactString else nonnullableString).
(** list_groups_request.go:132-203 Decode *)
Definition decodeListGroups : bytes -> res (rhdr * taggedFields * (option (list bytes) * (option (list bytes) * taggedFields))) :=
  whole ('(h, ht) <- decodeRequestHeader ;;
         let flex := flexible (h_version h) in
         states <- (if 4 <=? h_ver h then rd_lg_filter flex else ret None) ;;
         types <- (if 5 <=? h_ver h then rd_lg_filter flex else ret None) ;;
         t <- (if flex then decodeTaggedFields else ret []) ;;
         ret ((h, ht), (states, (types, t)))).

(** metadata_request.go:75-104: the count is a uint32, so the null array is read as
    2^32-1 topics *)
Definition decodeMetadata : bytes -> res (rhdr * taggedFields * (list bytes * bool)) :=
  any_length ('(h, ht) <- decodeRequestHeader ;;
              topics <- rd_arr rd_str ;;
              allow <- (if 4 <=? h_ver h then rd_one else ret false) ;;
              ret ((h, ht), (topics, allow))).

(** record.go:305-356 DecodeToRecordBatch: batch length, CRC, batch; the records are read
    as they are, compressed or not, and the CRC is not compared.  After a record that does
    not decode (errUncompleteRecord) the batch is returned with the records so far (the
    others are nil pointers) and the cursor behind the length of that record; the model
    keeps the records so far.  The second component is the error. *)
Fixpoint rd_records (n : nat) (s : bytes) : res (list Record * bool * bytes) :=
  match n with
  | O => Ok ([], true, s)
  | S k =>
      match decodeToRecord s with
      | Ok (r, s') => rbind (rd_records k s') (fun x => let '(rs, ok, s'') := x in Ok (r :: rs, ok, s''))
      | Err _ => rbind (rd_varint s) (fun x => Ok ([], false, snd x))
      | Panic => Panic | Unspec => Unspec
      end
  end.
Notation dbatch := (Z * (Z * RecordBatch))%type.
(** record.go:305-356 DecodeToRecordBatch *)
Definition decodeToRecordBatch : parser (dbatch * bool) :=
  base <- rd_i64 ;; len <- rd_i32 ;; epoch <- rd_i32 ;; magic <- rd_i8 ;; crc <- rd_u32 ;;
  attr <- rd_i16 ;; lod <- rd_i32 ;; bts <- rd_i64 ;; mts <- rd_i64 ;; pid <- rd_i64 ;; pep <- rd_i16 ;; seq <- rd_i32 ;;
  n <- rd_u32 ;;
  fun s => rbind (rd_records (Z.to_nat n) s) (fun x => let '(rs, ok, s') := x in
           Ok (((len, (crc, mkRB base epoch magic attr lod bts mts pid pep seq rs)), ok), s')).

(** produce_request.go:240-248: for baseOffset < size { ... }, the error of the batch
    ignored.  Every round consumes 61 bytes or panics: [fuel] is never used up when it is
    the number of bytes left. *)
Fixpoint rd_batches (fuel : nat) (size : Z) : parser (list dbatch) :=
  if size <=? 0 then ret []
  else match fuel with
       | O => panic
       | S f => fun s => match decodeToRecordBatch s with
                         | Ok ((b, _), s') => (bs <- rd_batches f (size - (zlen s - zlen s')) ;; ret (b :: bs)) s'
                         | Err e => Err e | Panic => Panic | Unspec => Unspec
                         end
       end.
(** produce_request.go:154-269 Decode; tags()["StatesFilter"] is 0 *)
Notation dpart := (Z * (Z * (list dbatch * taggedFields)))%type.
(** produce_request.go:154-269: a partition *)
Definition rd_pr_part (flex : bool) : parser dpart :=
  pid <- rd_i32 ;; size <- (if flex then compactArrayLength else rd_i32) ;;
  bs <- (fun s => rd_batches (length s) size s) ;;
  t <- (if flex then decodeTaggedFields else ret []) ;; ret (pid, (size, (bs, t))).
Notation dtopic := (bytes * (list dpart * taggedFields))%type.
(** produce_request.go:154-269: a topic *)
Definition rd_pr_topic (flex : bool) : parser dtopic :=
  name <- (if flex then compactString else nonnullableString) ;;
  ps <- rd_parr flex (rd_pr_part flex) ;;
  t <- (if flex then decodeTaggedFields else ret []) ;; ret (name, (ps, t)).
(** produce_request.go:154-269 Decode *)
Definition decodeProduce : bytes -> res (rhdr * taggedFields * (option bytes * (Z * (Z * (list dtopic * taggedFields))))) :=
  whole32 ('(h, ht) <- decodeRequestHeader ;;
           let flex := flexible (h_version h) in
           txn <- (if flex then compactNullableString else nullableString) ;;
           acks <- rd_i16 ;; timeout <- rd_i32 ;;
           ts <- rd_parr flex (rd_pr_topic flex) ;;
           t <- (if flex then decodeTaggedFields else ret []) ;;
           ret ((h, ht), (txn, (acks, (timeout, (ts, t)))))).
