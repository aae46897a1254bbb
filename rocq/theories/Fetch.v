(** Model of fetch_response.go: the streaming decoder of fetch responses, and of
    DecodeToMessageSet in message.go. *)
From Verif Require Import Base RecordSpec Records.

(** *** The connection
    What the remote side has sent is a list of chunks, one per network read, followed
    by the error every further read returns (EEOF: closed; ETimeout: the read
    deadline has passed). *)
Record stream := mkStream { st_chunks : list bytes; st_fin : err }.

(** conn.Read(p) with len(p) = n > 0: at most one chunk *)
Fixpoint read1 (n : nat) (cs : list bytes) : option (bytes * list bytes) :=
  match cs with
  | [] => None
  | [] :: cs' => read1 n cs'
  | c :: cs' => Some (firstn n c, skipn n c :: cs')
  end.
(** reading until n bytes have arrived or the stream ends *)
Fixpoint take_full (n : nat) (cs : list bytes) : bytes * list bytes :=
  match cs with
  | [] => ([], [])
  | c :: cs' =>
      if Nat.leb n (length c) then (firstn n c, skipn n c :: cs')
      else let '(b, r) := take_full (n - length c) cs' in (c ++ b, r)
  end.

(** message.go:21-35: the parts of Message the consumer hands out *)
Record Message := mkMsg {
  m_offset : Z; m_magic : Z; m_attr : Z; m_ts : Z;
  m_key : option bytes; m_value : option bytes; m_headers : list (bytes * bytes) }.

(** message.go:13-18 FullMessage: a message or an error *)
Inductive event := EvMsg (topic : bytes) (pid : Z) (m : Message) | EvErr (e : err).

(** fetchResponseStreamDecoder (fetch_response.go:41-58) and the io.LimitedReader it
    reads from (broker.go:313-316).  [d_out] collects what is sent to the messages
    channel. *)
Record dst := mkD {
  d_in : stream; d_lim : Z; d_off : Z; d_total : Z; d_start : Z; d_has : bool; d_out : list event }.

(** how a function of the decoder ends, with the state of the decoder *)
Inductive dres (A : Type) :=
| DOk (a : A) (s : dst) | DErr (e : err) (s : dst) | DPanic | DUnspec.
Arguments DOk {A} a s. Arguments DErr {A} e s. Arguments DPanic {A}. Arguments DUnspec {A}.
(** functions of the decoder *)
Definition dec (A : Type) := dst -> dres A.
(** return *)
Definition dret {A} (a : A) : dec A := fun s => DOk a s.
(** return an error *)
Definition dfail {A} (e : err) : dec A := fun s => DErr e s.
(** sequence; ends at the first error *)
Definition dbind {A B} (p : dec A) (k : A -> dec B) : dec B := fun s =>
  match p s with DOk a s' => k a s' | DErr e s' => DErr e s' | DPanic => DPanic | DUnspec => DUnspec end.
Notation "x <~ p ;; k" := (dbind p (fun x => k)) (at level 61, p at next level, right associativity).

(** reading moves on *)
Definition with_in (s : dst) (cs : list bytes) (n : Z) : dst :=
  mkD (mkStream cs (st_fin (d_in s))) (d_lim s - n) (d_off s + n) (d_total s) (d_start s) (d_has s) (d_out s).
(** the bytes still to come *)
Definition avail (s : dst) : Z := zlen (concat (st_chunks (d_in s))).

(** fetch_response.go:84-93 read: io.ReadFull on the limited reader.  Returns the bytes
    obtained and the error, nil when all n bytes were obtained. *)
Definition try_read (n : Z) : dec (bytes * option err) := fun s =>
  if n <=? 0 then DOk ([], None) s else
  let want := Z.min n (Z.max 0 (d_lim s)) in
  let '(b, cs) := take_full (Z.to_nat (Z.min want (avail s))) (st_chunks (d_in s)) in
  let s' := with_in s cs (zlen b) in
  if zlen b =? n then DOk (b, None) s'
  else if (zlen b =? want) || (match st_fin (d_in s) with EEOF => true | _ => false end)
       then DOk (b, Some (if zlen b =? 0 then EEOF else EUnexpectedEOF)) s'
       else DOk (b, Some (st_fin (d_in s))) s'.
(** fetch_response.go:84-93 read *)
Definition read (n : Z) : dec bytes :=
  x <~ try_read n ;; match snd x with None => dret (fst x) | Some e => dfail e end.

(** fetch_response.go:75-81 Read: one read of at most n > 0 bytes *)
Definition read_some (n : Z) : dec bytes := fun s =>
  if d_lim s <=? 0 then DErr EEOF s else
  match read1 (Z.to_nat (Z.min n (d_lim s))) (st_chunks (d_in s)) with
  | None => DErr (st_fin (d_in s)) s
  | Some (b, cs) => DOk b (with_in s cs (zlen b))
  end.

(** io.ReadAll(io.LimitReader(streamDecoder, k)): the bytes and the error (EOF is not
    an error) *)
Definition read_limit (k : Z) : dec (bytes * option err) := fun s =>
  let want := Z.min (Z.max 0 k) (Z.max 0 (d_lim s)) in
  let '(b, cs) := take_full (Z.to_nat (Z.min want (avail s))) (st_chunks (d_in s)) in
  let s' := with_in s cs (zlen b) in
  if zlen b =? want then DOk (b, None) s'
  else match st_fin (d_in s) with
       | EEOF => DOk (b, None) s'
       | e => DOk (b, Some e) s'
       end.

(** fetch_response.go:285-313 filterAndPutMessage.  Simplification: the consumer keeps
    receiving, so putMessage never sees a cancelled context. *)
Definition put (topic : bytes) (pid : Z) (m : Message) : dec unit := fun s =>
  if d_start s <=? m_offset m then
    DOk tt (mkD (d_in s) (d_lim s) (d_off s) (d_total s) (d_start s) true (d_out s ++ [EvMsg topic pid m]))
  else DOk tt s.

Section Codec.
  (** decompressors of gzip (1), snappy (2), lz4 (3): external libraries.  An error
      stands for the error the library reports. *)
  Variable unzip : Z -> bytes -> res bytes.
  (** the compressors: message.go:47 calls Compress where it means to decompress *)
  Variable zip : Z -> bytes -> res bytes.

  (** fetch_response.go:258-280: the record loop of one batch.  [n] is an upper bound
      on the rounds: every round but the last consumes at least one byte. *)
  Fixpoint put_records (n : nat) (topic : bytes) (pid base bts : Z) (raw : bytes) : dec unit :=
    match n with
    | O => dret tt
    | S k =>
        match decodeToRecord raw with
        | Err _ => dret tt
        | Panic => fun _ => DPanic
        | Unspec => fun _ => DUnspec
        | Ok (r, rest) =>
            _ <~ put topic pid
                   (mkMsg (sint 64 (r_od r + base)) 2 (r_attr r) (uint 64 (r_ts r + bts))
                          (r_key r) (r_value r) (r_headers r)) ;;
            put_records k topic pid base bts rest
        end
    end.

  (** fetch_response.go:202-283 decodeRecordsMagic2; returns the offset increment.
      Simplification: a decompressor reads the whole limited reader. *)
  Definition decodeRecordsMagic2 (topic : bytes) (pid : Z) (header17 : bytes) : dec Z :=
    x <~ try_read 44 ;;
    match snd x with
    | Some EUnexpectedEOF => dret (zlen (fst x))
    | Some e => dfail e
    | None =>
        let buf := header17 ++ fst x in
        let base := sint 64 (unbe (firstn 8 buf)) in
        let batchLength := unbe (firstn 4 (skipn 8 buf)) in
        let attributes := unbe (firstn 2 (skipn 21 buf)) in
        let codec := Z.land attributes 3 in
        let bts := unbe (firstn 8 (skipn 27 buf)) in
        let count := unbe (firstn 4 (skipn 57 buf)) in
        if count <=? 0 then dret 44 else
        let offset := 44 + (batchLength - 49) in
        y <~ read_limit (batchLength - 49) ;;
        let u := match snd y with
                 | Some e => Err e
                 | None => if codec =? 0 then Ok (fst y) else unzip codec (fst y)
                 end in
        match u with
        | Err e => fun s =>
            if (d_total s <=? d_off s) && d_has s then DOk offset s
            else DErr (EWrap e) s
        | Panic => fun _ => DPanic
        | Unspec => fun _ => DUnspec
        | Ok raw =>
            _ <~ put_records (Z.to_nat (Z.min count (zlen raw + 1))) topic pid base bts raw ;;
            dret offset
        end
    end.

  (** message.go:38-45 decompress *)
  Definition decompress (attr : Z) (value : bytes) : res bytes :=
    let c := Z.land attr 3 in if c =? 0 then Ok value else zip c value.

  (** message.go:109-185 DecodeToMessageSet; [fuel] bounds nesting plus length *)
  Fixpoint decodeToMessageSet (fuel : nat) (payload : bytes) : res (list Message) :=
    match payload, fuel with
    | [], _ => Ok []
    | _, O => Unspec
    | _, S f =>
        match (off <- rd_i64 ;; size <- rd_i32 ;; crc <- rd_u32 ;; magic <- rd_i8 ;; attr <- rd_i8 ;;
               ts <- (if magic =? 1 then rd_u64 else ret 0) ;;
               kl <- rd_i32 ;;
               k <- (if kl =? -1 then ret None else (b <- rd_bytes kl ;; ret (Some b))) ;;
               vl <- rd_i32 ;;
               v <- (if vl =? -1 then ret None else (b <- rd_bytes vl ;; ret (Some b))) ;;
               ret (mkMsg off magic attr ts k v [])) payload with
        | Err e => Err e | Panic => Panic | Unspec => Unspec
        | Ok (m, rest) =>
            if Z.land (m_attr m) 7 =? 0 then
              rbind (decodeToMessageSet f rest) (fun ms => Ok (m :: ms))
            else
              rbind (decompress (m_attr m) (obytes (m_value m))) (fun inner =>
              rbind (decodeToMessageSet f inner) (fun ims =>
              rbind (decodeToMessageSet f rest) (fun ms => Ok (ims ++ ms))))
        end
    end.

  (** fetch_response.go:192-196: the messages go into the channel *)
  Fixpoint put_all (topic : bytes) (pid : Z) (ms : list Message) : dec unit :=
    match ms with
    | [] => dret tt
    | m :: ms' => _ <~ put topic pid m ;; put_all topic pid ms'
    end.

  (** fetch_response.go:181-196: decode one message and put the result; true: go on *)
  Definition put_message (topic : bytes) (pid : Z) (value : bytes) : dec bool :=
    match decodeToMessageSet (S (length value)) value with
    | Err e => dfail e
    | Panic => fun _ => DPanic
    | Unspec => fun _ => DUnspec
    | Ok [] => dret false
    | Ok ms => _ <~ put_all topic pid ms ;; dret true
    end.

  (** fetch_response.go:158-197: second and later rounds.  Line 168 is a single Read;
      line 175 compares with len(value)-17 although only 12 bytes precede. *)
  Fixpoint decodeMagic01_rest (fuel : nat) (topic : bytes) (pid : Z) (acc : Z) : dec Z :=
    match fuel with
    | O => fun _ => DUnspec
    | S f =>
        buf <~ read 12 ;;
        let messageSize := unbe (firstn 4 (skipn 8 buf)) in
        body <~ (if messageSize =? 0
                 then fun s => if d_lim s <=? 0 then DErr EEOF s else DOk [] s
                 else read_some messageSize) ;;
        let acc' := acc + 12 + zlen body in
        if zlen body <? 12 + messageSize - 17 then dret acc' else
        let value := buf ++ body ++ repeat 0 (Z.to_nat (messageSize - zlen body)) in
        go <~ put_message topic pid value ;;
        if go then decodeMagic01_rest f topic pid acc' else dret acc'
    end.

  (** fetch_response.go:130-198 decodeMessageSetMagic0or1; first round *)
  Definition decodeMagic01 (fuel : nat) (topic : bytes) (pid : Z) (header17 : bytes) : dec Z :=
    let messageSize := unbe (firstn 4 (skipn 8 header17)) in
    if messageSize <? 6 then dret 0 else
    body <~ read_some (messageSize - 5) ;;
    if zlen body <? messageSize - 5 then dret (zlen body) else
    go <~ put_message topic pid (header17 ++ body) ;;
    if go then decodeMagic01_rest fuel topic pid (zlen body) else dret (zlen body).

  (** fetch_response.go:333-363: the loop over batches *)
  Fixpoint decodeSets (fuel : nat) (topic : bytes) (pid size : Z) (offset : Z) : dec unit :=
    match fuel with
    | O => fun _ => DUnspec
    | S f =>
        if size <=? offset then dret tt else
        x <~ try_read 17 ;;
        match snd x with
        | Some EUnexpectedEOF => dret tt
        | Some e => dfail e
        | None =>
            let magic := nth 16 (fst x) 0 in
            o <~ (if magic <? 2 then decodeMagic01 f topic pid (fst x)
                  else decodeRecordsMagic2 topic pid (fst x)) ;;
            decodeSets f topic pid size (offset + 17 + o)
        end
    end.

  (** errors.Is *)
  Fixpoint err_root (e : err) : err := match e with EWrap e' => err_root e' | _ => e end.
  (** errors.Is(err, io.EOF) *)
  Definition is_eof (e : err) : bool := match err_root e with EEOF => true | _ => false end.
  (** errors.Is with io.EOF and io.ErrUnexpectedEOF *)
  Definition is_eofs (e : err) : bool :=
    match err_root e with EEOF | EUnexpectedEOF => true | _ => false end.

  (** fetch_response.go:317-364 decodeMessageSet, with its deferred function *)
  Definition decodeMessageSet (topic : bytes) (pid size : Z) : dec unit := fun s =>
    let fin (r : option err) (s' : dst) :=
      match (match r with Some e => if is_eofs e && d_has s' then None else r | None => None end) with
      | Some e => DErr e s'
      | None => if d_has s' then DOk tt s' else DErr EMaxBytesTooSmall s'
      end in
    match decodeSets (S (Z.to_nat (avail s))) topic pid size 0 s with
    | DOk _ s' => fin None s'
    | DErr e s' => fin (Some e) s'
    | DPanic => DPanic
    | DUnspec => DUnspec
    end.

  (** fetch_response.go:378 and similar: streamDecoder.Read(buf[:n]); bytes that did
      not arrive keep their old value *)
  Definition read_buf (n : Z) (buf : bytes) : dec bytes :=
    b <~ read_some n ;; dret (b ++ skipn (length b) buf).

  (** fetch_response.go:417-427: the aborted transactions are read over *)
  Fixpoint skip_aborted (n : nat) (buf : bytes) : dec bytes :=
    match n with
    | O => dret buf
    | S k => b <~ read_buf 8 buf ;; b' <~ read_buf 8 b ;; skip_aborted k b'
    end.

  (** fetch_response.go:366-444 without the deferred function *)
  Definition decodePartition (topic : bytes) (version : Z) : dec unit :=
    buf <~ read_buf 4 (repeat 0 8) ;;
    let pid := sint 32 (unbe (firstn 4 buf)) in
    buf <~ read_buf 2 buf ;;
    let code := sint 16 (unbe (firstn 2 buf)) in
    if negb (code =? 0) then dfail (EKafka code) else
    buf <~ read_buf 8 buf ;;
    buf <~ (if (version =? 7) || (version =? 10) then
              b <~ read_buf 8 buf ;; b <~ read_buf 8 b ;; b <~ read_buf 4 b ;;
              let n := sint 32 (unbe (firstn 4 b)) in
              skip_aborted (Z.to_nat n) b
            else dret buf) ;;
    buf <~ read_buf 4 buf ;;
    let size := sint 32 (unbe (firstn 4 buf)) in
    if size <=? 0 then dret tt else decodeMessageSet topic pid size.

  (** ... and the deferred function (372-376) *)
  Definition decodePartitionResponse (topic : bytes) (version : Z) : dec unit := fun s =>
    match decodePartition topic version s with
    | DErr e s' => DErr (if is_eof e then EMaxBytesTooSmall else e) s'
    | r => r
    end.

  (** fetch_response.go:470-472: the error of a topic without partitions *)
  Definition ENoPartitionResponse : err := EInvalid 11.

  (** a loop of n rounds *)
  Fixpoint dec_n (n : nat) (p : dec unit) : dec unit :=
    match n with O => dret tt | S k => _ <~ p ;; dec_n k p end.

  (** fetch_response.go:446-481 decodeResponses *)
  Definition decodeResponses (version : Z) : dec unit :=
    b <~ read 2 ;;
    topic <~ read (unbe b) ;;
    b <~ read 4 ;;
    if unbe b =? 0 then dfail ENoPartitionResponse
    else dec_n (Z.to_nat (unbe b)) (decodePartitionResponse topic version).

  (** fetch_response.go:483-507 decodeHeader: the responses count.  The error code of
      versions 7 and 10 (bytes 8-9) is not looked at. *)
  Definition decodeHeader (version : Z) : dec Z :=
    let '(len, cnt) := if version =? 0 then (8, 4%nat) else (18, 14%nat) in
    b <~ read len ;; dret (unbe (firstn 4 (skipn cnt b))).

  (** fetch_response.go:66-73 readAll *)
  Definition drain (s : dst) : dst :=
    let '(b, cs) := take_full (Z.to_nat (Z.min (Z.max 0 (d_lim s)) (avail s))) (st_chunks (d_in s)) in
    with_in s cs (zlen b).

  (** fetch_response.go:509-551 streamDecode: what reaches the messages channel and
      what is left of the connection.  An error while reading the header sends
      nothing and returns before the drain is registered. *)
  Definition streamDecode (version : Z) (start : Z) (length : Z) (conn : stream) : res (list event * dst) :=
    let s0 := mkD conn length 0 length start false [] in
    match decodeHeader version s0 with
    | DPanic => Panic | DUnspec => Unspec
    | DErr e s => Ok (d_out s, s)
    | DOk n s =>
        match dec_n (Z.to_nat n) (decodeResponses version) s with
        | DPanic => Panic | DUnspec => Unspec
        | DOk _ s' => Ok (d_out s', drain s')
        | DErr e s' => Ok (d_out s' ++ [EvErr e], drain s')
        end
    end.
End Codec.
