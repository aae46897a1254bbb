(** Model of the response decoders (all *_response.go files except fetch_response.go),
    of Parse (response.go) and of the Error methods.  Decoders work on the rest of the
    payload behind the cursor ([parser], Base.v).  Pointers to structs are the structs;
    *string is [option bytes]; a nil slice is an empty list unless an [option] is used.
    make never fails for lack of memory. *)
From Verif Require Import Base Prims Group Assign.

(** ** Building blocks *)
(** l := int(Uint16(payload[offset:])); offset += 2; string(payload[offset:offset+l]); offset += l *)
Definition rd_str : parser bytes := l <- rd_u16 ;; rd_bytes l.
(** the same with int(int16(Uint16(...))): a negative length panics *)
Definition rd_istr : parser bytes := l <- rd_i16 ;; rd_bytes l.
(** the same, read only if l > 0 (the empty string otherwise) *)
Definition rd_ostr : parser bytes := l <- rd_i16 ;; if 0 <? l then rd_bytes l else ret [].
(** l := int(Uint32(payload[offset:])); make([]byte, l); copy(..., payload[offset:offset+l]) *)
Definition rd_blob : parser bytes := l <- rd_u32 ;; rd_bytes l.
(** n := Uint32(payload[offset:]); make([]T, n); for i := range ... *)
Definition rd_arr {A} (p : parser A) : parser (list A) := n <- rd_u32 ;; rd_make n p.
(** the same with int32(Uint32(...)): make panics on a negative count *)
Definition rd_iarr {A} (p : parser A) : parser (list A) := n <- rd_i32 ;; rd_make n p.
(** n, o := compactArrayLength(payload[offset:]); make([]T, n) *)
Definition rd_carr {A} (p : parser A) : parser (list A) := n <- compactArrayLength ;; rd_make n p.
(** the same, but only if n > 0 *)
Definition rd_carr_pos {A} (p : parser A) : parser (list A) :=
  n <- compactArrayLength ;; if 0 <? n then rd_make n p else ret [].
(** offset += n, and a later use of payload[offset:] *)
Definition rd_skip (n : nat) : parser unit := fun s => if Nat.leb n (length s) then Ok (tt, skipn n s) else Panic.
(** UintN(payload[offset:]) without moving the cursor *)
Definition rd_peek (n : nat) : parser Z := fun s => match rd_u n s with Ok (v, _) => Ok (v, s) | Err e => Err e | Panic => Panic | Unspec => Unspec end.
(** _, o := binary.Uvarint(payload[offset:]); offset += o *)
Definition rd_tagcount : parser unit := _ <- rd_uvarint ;; ret tt.

(** ** Headers *)
(** responseLength := int(Uint32(payload)); if responseLength+4 != len(payload) { return error };
    then the decoder of the rest.  Whatever the decoder leaves unread is ignored. *)
Definition whole {A} (p : parser A) (payload : bytes) : res A :=
  match rd_u32 payload with
  | Ok (n, s) => if n + 4 =? zlen payload then match p s with Ok (a, _) => Ok a | Err e => Err e | Panic => Panic | Unspec => Unspec end
                 else Err ELength
  | Err e => Err e | Panic => Panic | Unspec => Unspec
  end.
(** response.go:213-536 for the keys used below *)
Definition rhv_from (n ver : Z) : bool := n <=? ver.
(** response.go:193-203 DecodeResponseHeader; [flex]: IsFlexible *)
Definition rd_header (flex : bool) : parser (Z * taggedFields) :=
  corr <- rd_u32 ;; if flex then (t <- decodeTaggedFields ;; ret (corr, t)) else ret (corr, []).

(** ** Decoded responses *)
Definition nopart : Type := Z * (Z * (Z * (Z * (list Z * (list Z * list Z))))).
(** the response types; the field names say which of their fields are kept *)
Inductive response :=
| RHeartbeat (corr ec : Z)
| RLeaveGroup (corr ec : Z)
| RApiVersions (corr ec : Z) (vs : list (Z * (Z * Z)))
(** brokers: id, host, port, rack.  topics: error, name, internal, partitions (error, id,
    leader, epoch, replicas, isr, offline) *)
| RMetadata (corr throttle : Z) (brokers : list (Z * (bytes * (Z * bytes)))) (cluster : bytes) (controller : Z)
    (topics : list (Z * (bytes * (bool * list nopart))))
| RFindCoordinator (corr ec node : Z) (host : bytes) (port : Z)
| RJoinGroup (corr ec gen : Z) (proto leader member : bytes) (members : list (bytes * bytes))
| RSyncGroup (corr ec : Z) (assignment : bytes)
(** map from topic to partitions: id, error, old style offsets, timestamp, offset *)
| ROffsets (corr throttle : Z) (topics : list (bytes * list (Z * (Z * (list Z * (Z * Z))))))
| ROffsetCommit (corr : Z) (topics : list (bytes * list (Z * Z)))
| ROffsetFetch (corr : Z) (topics : list (bytes * list (Z * (Z * (bytes * Z)))))
(** groups: id, protocol type, state, type, tags *)
| RListGroups (corr : Z) (htags : taggedFields) (throttle ec : Z)
    (groups : option (list (bytes * (bytes * (bytes * (bytes * taggedFields)))))) (tags : taggedFields)
(** groups: error, id, state, protocol type, protocol, members (member id, client id, host,
    metadata, raw assignment, assignment) *)
| RDescribeGroups (corr : Z)
    (groups : list (Z * (bytes * (bytes * (bytes * (bytes * list (bytes * (bytes * (bytes * (bytes * (bytes * option MemberAssignment)))))))))))
| RDeleteGroups (corr throttle : Z) (results : list (bytes * Z))
| RSaslHandshake (corr ec : Z) (mechanisms : list bytes)
| RSaslAuthenticate (corr ec : Z) (msg auth : bytes)
(** topics: name, partitions (id, error, base offset, append time, start offset, record
    errors, message) *)
| RProduce (corr : Z) (topics : list (bytes * list (Z * (Z * (Z * (Z * (Z * (list (Z * option bytes) * option bytes))))))))
(** error, message, resource type, resource name *)
| RAlterConfigs (corr throttle : Z) (resources : list (Z * (bytes * (Z * bytes))))
| RIncrementalAlterConfigs (corr throttle : Z) (resources : list (Z * (bytes * (Z * bytes))))
| RCreatePartitions (corr throttle : Z) (results : list (bytes * (Z * option bytes)))
| RCreateTopics (corr : Z) (topics : list (bytes * Z))
| RDeleteTopics (corr : Z) (topics : list (bytes * Z))
(** error, message, type, name, entries (name, value, read only, default, sensitive) *)
| RDescribeConfigs (corr throttle : Z)
    (resources : list (Z * (bytes * (Z * (bytes * list (bytes * (bytes * (bool * (bool * bool)))))))))
(** results: error, directory, topics (name, partitions (id, size, lag, future)) *)
| RDescribeLogDirs (corr throttle : Z) (results : list (Z * (bytes * list (bytes * list (Z * (Z * (Z * bool)))))))
| RElectLeaders (corr throttle : Z) (results : list (bytes * list (Z * (Z * bytes))))
| RListReassignments (corr throttle ec : Z) (msg : option bytes)
    (topics : list (bytes * list (Z * (list Z * (list Z * list Z)))))
| RAlterReassignments (corr : Z) (htags : taggedFields) (throttle ec : Z) (msg : option bytes)
    (topics : option (list (bytes * (list (Z * (Z * (option bytes * taggedFields))) * taggedFields)))) (tags : taggedFields)
| RCreateAcls (corr : Z) (htags : taggedFields) (results : option (list (Z * (option bytes * taggedFields)))) (tags : taggedFields)
(** results: error, message, matching ACLs (error, message, type, name, pattern, principal,
    host, operation, permission, tags), tags *)
| RDeleteAcls (corr : Z) (htags : taggedFields) (throttle : Z)
    (results : list (Z * (option bytes * (list (Z * (option bytes * (Z * (bytes * (Z * (bytes * (bytes * (Z * (Z * taggedFields))))))))) * taggedFields))))
    (tags : taggedFields)
(** resources: type, name, pattern, ACLs (principal, host, operation, permission, tags), tags *)
| RDescribeAcls (corr throttle ec : Z) (msg : option bytes)
    (resources : option (list (Z * (bytes * (Z * (list (bytes * (bytes * (Z * (Z * taggedFields)))) * taggedFields))))))
    (tags : taggedFields).

(** ** Decoders *)
(** KafkaError(code) unless zero *)
Definition kafka_error (ec : Z) : option err := if ec =? 0 then None else Some (EKafka ec).
(** return r, err *)
Definition with_err {A} (e : option err) (a : A) : parser A := match e with None => ret a | Some e => fail e end.

(** heartbeat_response.go:17-35, leave_group_response.go:17-35 *)
Definition dec_heartbeat : bytes -> res response :=
  whole (corr <- rd_u32 ;; ec <- rd_i16 ;; with_err (kafka_error ec) (RHeartbeat corr ec)).
(** leave_group_response.go:17-35 *)
Definition dec_leavegroup : bytes -> res response :=
  whole (corr <- rd_u32 ;; ec <- rd_i16 ;; with_err (kafka_error ec) (RLeaveGroup corr ec)).

(** apiversions_response.go:157-190 *)
Definition dec_apiversions : bytes -> res response :=
  whole (corr <- rd_u32 ;; ec <- rd_i16 ;;
         vs <- rd_arr (k <- rd_u16 ;; mn <- rd_u16 ;; mx <- rd_u16 ;; ret (k, (mn, mx))) ;;
         ret (RApiVersions corr ec vs)).

(** metadata_response.go:58-77 *)
Definition rd_broker : parser (Z * (bytes * (Z * bytes))) :=
  id <- rd_i32 ;; host <- rd_istr ;; port <- rd_i32 ;; rack <- rd_ostr ;; ret (id, (host, (port, rack))).
(** metadata_response.go:115-152 *)
Definition rd_partition (v : Z) : parser nopart :=
  ec <- rd_i16 ;; id <- rd_i32 ;; leader <- rd_i32 ;;
  epoch <- (if 7 <=? v then rd_i32 else ret 0) ;;
  rs <- rd_arr rd_i32 ;; isr <- rd_arr rd_i32 ;;
  off <- (if 7 <=? v then rd_arr rd_i32 else ret []) ;;
  ret (ec, (id, (leader, (epoch, (rs, (isr, off)))))).
(** metadata_response.go:79-101 *)
Definition rd_topicmeta (v : Z) : parser (Z * (bytes * (bool * list nopart))) :=
  ec <- rd_i16 ;; name <- rd_str ;; int <- rd_bool ;; ps <- rd_arr (rd_partition v) ;; ret (ec, (name, (int, ps))).
(** metadata_response.go:178-182: the bytes of the cluster id are taken from the position
    of the length, not from behind it *)
Definition rd_cluster : parser bytes := fun s =>
  match rd_u16 s with
  | Ok (l, _) => match rd_bytes l s with
                 | Ok (c, _) => match rd_skip (2 + Z.to_nat l) s with Ok (_, s') => Ok (c, s') | Err e => Err e | Panic => Panic | Unspec => Unspec end
                 | Err e => Err e | Panic => Panic | Unspec => Unspec
                 end
  | Err e => Err e | Panic => Panic | Unspec => Unspec
  end.
(** metadata_response.go:199-201: topics in the order of their names *)
Definition name_lt (a b : Z * (bytes * (bool * list nopart))) : bool := bltb (fst (snd a)) (fst (snd b)).
(** metadata_response.go:203-205: partitions in the order of their ids *)
Definition id_lt (a b : nopart) : bool := fst (snd a) <? fst (snd b).
(** metadata_response.go:154-209.  sort.Slice is modelled by an insertion sort: the same
    result whenever names (ids) are different *)
Definition dec_metadata (v : Z) : bytes -> res response :=
  whole (corr <- rd_u32 ;; throttle <- (if 4 <=? v then rd_i32 else ret 0) ;;
         bs <- rd_arr rd_broker ;; cluster <- (if 4 <=? v then rd_cluster else ret []) ;;
         ctl <- rd_i32 ;; ts <- rd_arr (rd_topicmeta v) ;;
         ret (RMetadata corr throttle bs cluster ctl
                (map (fun t => (fst t, (fst (snd t), (fst (snd (snd t)), isort id_lt (snd (snd (snd t)))))))
                     (isort name_lt ts)))).

(** findcoordinator_response.go:26-52 *)
Definition dec_findcoordinator : bytes -> res response :=
  whole (corr <- rd_u32 ;; ec <- rd_i16 ;; node <- rd_i32 ;; host <- rd_str ;; port <- rd_i32 ;;
         ret (RFindCoordinator corr ec node host port)).

(** joingroup_response.go:47-102 *)
Definition dec_joingroup : bytes -> res response :=
  whole (corr <- rd_u32 ;; ec <- rd_i16 ;; gen <- rd_i32 ;; proto <- rd_str ;; leader <- rd_str ;; member <- rd_str ;;
         ms <- rd_arr (m <- rd_str ;; b <- rd_blob ;; ret (m, b)) ;;
         with_err (kafka_error ec) (RJoinGroup corr ec gen proto leader member ms)).

(** sync_group_response.go:23-47 *)
Definition dec_syncgroup : bytes -> res response :=
  whole (corr <- rd_u32 ;; ec <- rd_i16 ;; a <- rd_blob ;; with_err (kafka_error ec) (RSyncGroup corr ec a)).

(** offset_response.go:44-97.  A topic named twice: the later entry stays (map). *)
Definition rd_offset (v : Z) : parser (Z * (Z * (list Z * (Z * Z)))) :=
  p <- rd_i32 ;; ec <- rd_i16 ;;
  if v =? 0 then (os <- rd_arr rd_i64 ;; ret (p, (ec, (os, (0, 0)))))
  else (ts <- rd_i64 ;; o <- rd_i64 ;; ret (p, (ec, ([], (ts, o))))).
(** offset_response.go:44-97 *)
Definition dec_offsets (v : Z) : bytes -> res response :=
  whole (corr <- rd_u32 ;; throttle <- (if 0 <? v then (t <- rd_peek 4 ;; ret (sint 32 t)) else ret 0) ;;
         ts <- rd_arr (t <- rd_str ;; ps <- rd_arr (rd_offset v) ;; ret (t, ps)) ;;
         ret (ROffsets corr throttle (fold_left (fun m t => mset (fst t) (snd t) m) ts []))).

(** the first error code in a list of codes: if err == nil && code != 0 { err = KafkaError(code) } *)
Definition first_code (cs : list Z) : option err :=
  match find (fun c => negb (c =? 0)) cs with Some c => Some (EKafka c) | None => None end.

(** offset_commit_response.go:41-86; the partition id is a uint32 *)
Definition dec_offsetcommit : bytes -> res response :=
  whole (corr <- rd_u32 ;;
         ts <- rd_arr (t <- rd_str ;; ps <- rd_arr (p <- rd_u32 ;; ec <- rd_i16 ;; ret (p, ec)) ;; ret (t, ps)) ;;
         with_err (first_code (flat_map (fun t => map snd (snd t)) ts)) (ROffsetCommit corr ts)).

(** offset_fetch_response.go:37-89 *)
Definition dec_offsetfetch : bytes -> res response :=
  whole (corr <- rd_u32 ;;
         ts <- rd_arr (t <- rd_str ;; ps <- rd_arr (p <- rd_i32 ;; o <- rd_i64 ;; m <- rd_str ;; ec <- rd_i16 ;; ret (p, (o, (m, ec)))) ;; ret (t, ps)) ;;
         with_err (first_code (flat_map (fun t => map (fun p => snd (snd (snd p))) (snd t)) ts)) (ROffsetFetch corr ts)).

(** list_groups_response.go:51-90 decodeToGroup; the version tags are those of the struct *)
Definition rd_group (v : Z) (flex : bool) : parser (bytes * (bytes * (bytes * (bytes * taggedFields)))) :=
  let str := if flex then compactString else nonnullableString in
  id <- str ;; pt <- str ;;
  st <- (if 4 <=? v then str else ret []) ;; ty <- (if 5 <=? v then str else ret []) ;;
  tags <- (if flex then decodeTaggedFields else ret []) ;;
  ret (id, (pt, (st, (ty, tags)))).
(** list_groups_response.go:92-135; ErrorCode is a uint16 *)
Definition dec_listgroups (v : Z) : bytes -> res response :=
  let flex := rhv_from 3 v in
  whole (h <- rd_header flex ;; throttle <- (if 1 <=? v then rd_i32 else ret 0) ;; ec <- rd_u16 ;;
         n <- (if flex then compactArrayLength else rd_i32) ;;
         gs <- (if 0 <=? n then (l <- rd_make n (rd_group v flex) ;; ret (Some l)) else ret None) ;;
         tags <- (if flex then decodeTaggedFields else ret []) ;;
         ret (RListGroups (fst h) (snd h) throttle ec gs tags)).

(** describe_groups_response.go:92-120; [e] is the variable err, overwritten by every
    member (line 118).  copy into the nil slice MemberMetadata (line 109) copies nothing. *)
Definition gmember : Type := bytes * (bytes * (bytes * (bytes * (bytes * option MemberAssignment)))).
(** describe_groups_response.go:95-120: one member *)
Definition rd_member : parser (gmember * option err) :=
  id <- rd_str ;; cl <- rd_str ;; host <- rd_str ;; md <- rd_blob ;; raw <- rd_blob ;;
  match newMemberAssignment raw with
  | Ok m => ret ((id, (cl, (host, ([], (raw, Some m))))), None)
  | Err e => ret ((id, (cl, (host, ([], (raw, None))))), Some e)
  | Panic => panic
  | Unspec => fun _ => Unspec
  end.
(** describe_groups_response.go:89-121: the members of a group *)
Fixpoint rd_members (n : nat) (e : option err) : parser (list gmember * option err) :=
  match n with
  | O => ret ([], e)
  | S k => m <- rd_member ;; ms <- rd_members k (snd m) ;; ret (fst m :: fst ms, snd ms)
  end.
(** describe_groups_response.go:61-124, one group *)
Definition rd_gdetail (e : option err) : parser ((Z * (bytes * (bytes * (bytes * (bytes * list gmember))))) * option err) :=
  ec <- rd_i16 ;; id <- rd_str ;; st <- rd_str ;; pt <- rd_str ;; p <- rd_str ;;
  n <- rd_u32 ;;
  ms <- rd_members (Z.to_nat n) (match e with Some _ => e | None => kafka_error ec end) ;;
  ret ((ec, (id, (st, (pt, (p, fst ms))))), snd ms).
(** describe_groups_response.go:59-124: the groups *)
Fixpoint rd_gdetails (n : nat) (e : option err) : parser (list (Z * (bytes * (bytes * (bytes * (bytes * list gmember))))) * option err) :=
  match n with
  | O => ret ([], e)
  | S k => g <- rd_gdetail e ;; gs <- rd_gdetails k (snd g) ;; ret (fst g :: fst gs, snd gs)
  end.
(** describe_groups_response.go:40-127 *)
Definition dec_describegroups : bytes -> res response :=
  whole (corr <- rd_u32 ;; n <- rd_u32 ;; gs <- rd_gdetails (Z.to_nat n) None ;;
         with_err (snd gs) (RDescribeGroups corr (fst gs))).

(** delete_groups_response.go:30-62, delete_topics_response.go:36-64 *)
Definition rd_result : parser (bytes * Z) := n <- rd_str ;; ec <- rd_i16 ;; ret (n, ec).
(** delete_groups_response.go:30-62 *)
Definition dec_deletegroups : bytes -> res response :=
  whole (corr <- rd_u32 ;; throttle <- rd_i32 ;; rs <- rd_arr rd_result ;; ret (RDeleteGroups corr throttle rs)).
(** delete_topics_response.go:36-64 *)
Definition dec_deletetopics : bytes -> res response :=
  whole (corr <- rd_u32 ;; rs <- rd_arr rd_result ;; ret (RDeleteTopics corr rs)).

(** sasl_handshake_response.go:23-54: line 35 reads four bytes and keeps the low two *)
Definition dec_saslhandshake : bytes -> res response :=
  whole (corr <- rd_u32 ;; w <- rd_peek 4 ;; _ <- rd_skip 2 ;; ms <- rd_arr rd_str ;;
         with_err (kafka_error (sint 16 w)) (RSaslHandshake corr (sint 16 w) ms)).
(** sasl_authenticate_response.go:21-49: copy(make([]byte, l), payload[offset:]) *)
Definition dec_saslauthenticate : bytes -> res response :=
  whole (corr <- rd_u32 ;; ec <- rd_i16 ;; msg <- rd_ostr ;; l <- rd_u32 ;;
         b <- (fun s => let b := firstn (Z.to_nat l) s in Ok (b ++ repeat 0 (Z.to_nat l - length b), skipn (Z.to_nat l) s)) ;;
         ret (RSaslAuthenticate corr ec msg b)).

(** produce_response.go:41-101.  tags()["GroupState"] (line 54) does not exist and is 0:
    the append time is read in every version. *)
Definition rd_produce_partition (v : Z) (flex : bool) : parser (Z * (Z * (Z * (Z * (Z * (list (Z * option bytes) * option bytes)))))) :=
  let nstr := if flex then compactNullableString else nullableString in
  p <- rd_i32 ;; ec <- rd_i16 ;; base <- rd_i64 ;; tm <- rd_i64 ;;
  st <- (if 5 <=? v then rd_i64 else ret 0) ;;
  errs <- (if 8 <=? v then (if flex then rd_carr else rd_arr) (i <- rd_i32 ;; m <- nstr ;; _ <- decodeTaggedFields ;; ret (i, m)) else ret []) ;;
  msg <- (if 8 <=? v then nstr else ret None) ;;
  ret (p, (ec, (base, (tm, (st, (errs, msg)))))).
(** produce_response.go:109-136: the cursor is not moved by the partitions (line 129), every
    partition is read at the position of the first *)
Definition rd_stay {A} (p : parser A) : parser A := fun s => match p s with Ok (a, _) => Ok (a, s) | Err e => Err e | Panic => Panic | Unspec => Unspec end.
(** produce_response.go:110-136: a topic *)
Definition rd_produce_topic (v : Z) (flex : bool) : parser (bytes * list (Z * (Z * (Z * (Z * (Z * (list (Z * option bytes) * option bytes))))))) :=
  t <- (if flex then compactString else nonnullableString) ;;
  ps <- (if flex then rd_carr else rd_arr) (rd_stay (rd_produce_partition v flex)) ;;
  _ <- decodeTaggedFields ;;
  ret (t, ps).
(** produce_response.go:156-188: the header is decoded as that of API_DeleteAcls, flexible
    from version 2; nothing is read behind the topics *)
Definition dec_produce (v : Z) : bytes -> res response :=
  let flex := rhv_from 2 v in
  whole (h <- rd_header flex ;; ts <- (if flex then rd_carr else rd_arr) (rd_produce_topic v flex) ;; ret (RProduce (fst h) ts)).

(** alter_config_response.go:30-48 decode: the named result is never assigned and is 0, so
    the caller's cursor does not move *)
Definition dec_alterconfigs : bytes -> res response :=
  whole (corr <- rd_u32 ;; throttle <- rd_u32 ;;
         rs <- rd_arr (rd_stay (ec <- rd_i16 ;; msg <- rd_str ;; ty <- rd_u8 ;; name <- rd_str ;; ret (ec, (msg, (ty, name))))) ;;
         ret (RAlterConfigs corr throttle rs)).
(** incremental_alter_config_response.go:32-85: the same *)
Definition dec_incremental : bytes -> res response :=
  whole (corr <- rd_u32 ;; throttle <- rd_u32 ;;
         rs <- rd_arr (rd_stay (ec <- rd_i16 ;; msg <- rd_ostr ;; ty <- rd_u8 ;; name <- rd_ostr ;; ret (ec, (msg, (ty, name))))) ;;
         ret (RIncrementalAlterConfigs corr throttle rs)).

(** create_partitions_response.go:65-98: a byte for the tags is skipped behind every
    result, in all versions.  (Behind the last one nothing is read any more.) *)
Definition rd_cpresult (v : Z) : parser (bytes * (Z * option bytes)) :=
  n <- (if 2 <=? v then compactString else rd_str) ;; ec <- rd_i16 ;;
  m <- (if 2 <=? v then compactNullableString else nullableString) ;; ret (n, (ec, m)).
(** create_partitions_response.go:65-94: the results *)
Definition rd_cpresults (v : Z) (n : nat) : parser (list (bytes * (Z * option bytes))) :=
  match n with
  | O => ret []
  | S k => x <- rd_cpresult v ;; xs <- rd_n k (_ <- rd_skip 1 ;; rd_cpresult v) ;; ret (x :: xs)
  end.
(** create_partitions_response.go:34-99; the tag byte of the header is skipped in version 2 *)
Definition dec_createpartitions (v : Z) : bytes -> res response :=
  whole (corr <- rd_u32 ;; _ <- (if v =? 2 then rd_skip 1 else ret tt) ;; throttle <- rd_i32 ;;
         n <- (if 2 <=? v then compactArrayLength else rd_u32) ;;
         rs <- (if n <? 0 then panic else rd_cpresults v (Z.to_nat n)) ;;
         ret (RCreatePartitions corr throttle rs)).

(** create_topics_response.go:32-64 *)
Definition dec_createtopics : bytes -> res response :=
  whole (corr <- rd_u32 ;; ts <- rd_iarr (n <- rd_istr ;; ec <- rd_i16 ;; ret (n, ec)) ;; ret (RCreateTopics corr ts)).

(** describe_configs_response.go:75-103 *)
Definition rd_centry : parser (bytes * (bytes * (bool * (bool * bool)))) :=
  n <- rd_istr ;; v <- rd_ostr ;; a <- rd_bool ;; b <- rd_bool ;; c <- rd_bool ;; ret (n, (v, (a, (b, c)))).
(** describe_configs_response.go:32-70: without an error the length of the message is
    skipped, whatever it is *)
Definition rd_cresource : parser (Z * (bytes * (Z * (bytes * list (bytes * (bytes * (bool * (bool * bool)))))))) :=
  ec <- rd_i16 ;; msg <- (if ec =? 0 then (_ <- rd_skip 2 ;; ret []) else rd_ostr) ;;
  ty <- rd_u8 ;; l <- rd_i16 ;; name <- (if 0 <=? l then rd_bytes l else ret []) ;;
  es <- rd_arr rd_centry ;; ret (ec, (msg, (ty, (name, es)))).
(** describe_configs_response.go:106-133 *)
Definition dec_describeconfigs : bytes -> res response :=
  whole (corr <- rd_u32 ;; throttle <- rd_u32 ;; rs <- rd_arr rd_cresource ;; ret (RDescribeConfigs corr throttle rs)).

(** describe_logdirs_response.go:35-85; int(uint32) is never negative, the tests for -1 and
    for negative counts never hold *)
Definition rd_logdir_topic : parser (bytes * list (Z * (Z * (Z * bool)))) :=
  t <- rd_str ;;
  ps <- rd_arr (p <- rd_i32 ;; size <- rd_i64 ;; lag <- rd_i64 ;; f <- rd_bool ;; ret (p, (size, (lag, f)))) ;;
  ret (t, ps).
(** describe_logdirs_response.go:88-151: the correlation id is read at position 0, where the
    length of the response is *)
Definition dec_describelogdirs (payload : bytes) : res response :=
  match rd_u32 payload with
  | Ok (n, _) =>
      whole (_ <- rd_skip 4 ;; throttle <- rd_i32 ;;
             rs <- rd_arr (ec <- rd_i16 ;; dir <- rd_str ;; ts <- rd_arr rd_logdir_topic ;; ret (ec, (dir, ts))) ;;
             ret (RDescribeLogDirs n throttle rs)) payload
  | Err e => Err e | Panic => Panic | Unspec => Unspec
  end.

(** elect_leaders_response.go:33-97 *)
Definition dec_electleaders : bytes -> res response :=
  whole (corr <- rd_u32 ;; throttle <- rd_i32 ;;
         rs <- rd_arr (t <- rd_str ;; ps <- rd_arr (p <- rd_i32 ;; ec <- rd_i16 ;; m <- rd_ostr ;; ret (p, (ec, m))) ;; ret (t, ps)) ;;
         ret (RElectLeaders corr throttle rs)).

(** list_partition_reassignments_response.go:27-93; of a tag section only the count is read *)
Definition rd_lr_partition : parser (Z * (list Z * (list Z * list Z))) :=
  p <- rd_i32 ;; a <- rd_carr_pos rd_i32 ;; b <- rd_carr_pos rd_i32 ;; c <- rd_carr_pos rd_i32 ;; _ <- rd_tagcount ;; ret (p, (a, (b, c))).
(** list_partition_reassignments_response.go:25-44: a topic *)
Definition rd_lr_topic : parser (bytes * list (Z * (list Z * (list Z * list Z)))) :=
  n <- compactString ;; ps <- rd_carr_pos rd_lr_partition ;; _ <- rd_tagcount ;; ret (n, ps).
(** list_partition_reassignments_response.go:101-139: the header is taken to be of version
    0; the byte the tags of the header shift everything by is skipped behind the error code *)
Definition dec_listreassignments : bytes -> res response :=
  whole (corr <- rd_u32 ;; throttle <- rd_i32 ;; ec <- rd_i16 ;; _ <- rd_skip 1 ;; msg <- compactNullableString ;;
         ts <- rd_carr_pos rd_lr_topic ;; _ <- rd_tagcount ;;
         ret (RListReassignments corr throttle ec msg ts)).

(** alter_partition_reassignments_response.go:95-174 (make panics on a negative count) *)
Definition rd_ar_topic : parser (bytes * (list (Z * (Z * (option bytes * taggedFields))) * taggedFields)) :=
  n <- compactString ;;
  ps <- rd_carr (p <- rd_i32 ;; ec <- rd_i16 ;; m <- compactNullableString ;; t <- decodeTaggedFields ;; ret (p, (ec, (m, t)))) ;;
  t <- decodeTaggedFields ;; ret (n, (ps, t)).
(** alter_partition_reassignments_response.go:140-168: a compact array that may be nil *)
Definition rd_opt_carr {A} (p : parser A) : parser (option (list A)) :=
  n <- compactArrayLength ;; if n <? 0 then ret None else (l <- rd_make n p ;; ret (Some l)).
(** alter_partition_reassignments_response.go:116-174 *)
Definition dec_alterreassignments (payload : bytes) : res response :=
  match rd_i32 payload with
  | Ok (n, s) =>
      if n + 4 =? zlen payload then
        match (h <- rd_header true ;; throttle <- rd_i32 ;; ec <- rd_i16 ;; msg <- compactNullableString ;;
               ts <- rd_opt_carr rd_ar_topic ;; tags <- decodeTaggedFields ;;
               ret (RAlterReassignments (fst h) (snd h) throttle ec msg ts tags)) s with
        | Ok (a, _) => Ok a | Err e => Err e | Panic => Panic | Unspec => Unspec
        end
      else Err ELength
  | Err e => Err e | Panic => Panic | Unspec => Unspec
  end.

(** create_acls_response.go:30-83; ErrorCode is a uint16 *)
Definition dec_createacls (v : Z) : bytes -> res response :=
  let flex := rhv_from 2 v in
  whole (h <- rd_header flex ;; n <- (if flex then compactArrayLength else rd_i32) ;;
         rs <- (if n <? 0 then ret None else
                (l <- rd_make n (ec <- rd_u16 ;; m <- (if flex then compactNullableString else nullableString) ;;
                                 t <- (if flex then decodeTaggedFields else ret []) ;; ret (ec, (m, t))) ;; ret (Some l))) ;;
         tags <- (if flex then decodeTaggedFields else ret []) ;;
         ret (RCreateAcls (fst h) (snd h) rs tags)).

(** delete_acls_response.go:23-72; enumerations are bytes *)
Definition rd_matching (v : Z) (flex : bool) : parser (Z * (option bytes * (Z * (bytes * (Z * (bytes * (bytes * (Z * (Z * taggedFields))))))))) :=
  let str := if flex then compactString else nonnullableString in
  ec <- rd_i16 ;; m <- (if flex then compactNullableString else nullableString) ;; ty <- rd_u8 ;; n <- str ;;
  pt <- (if 1 <=? v then rd_u8 else ret 0) ;; pr <- str ;; ho <- str ;; op <- rd_u8 ;; pe <- rd_u8 ;;
  t <- (if flex then decodeTaggedFields else ret []) ;;
  ret (ec, (m, (ty, (n, (pt, (pr, (ho, (op, (pe, t))))))))).
(** delete_acls_response.go:135-205: lengths are compared as int32; the tags of a result and
    of the response are decoded in every version *)
Definition dec_deleteacls (v : Z) (payload : bytes) : res response :=
  let flex := rhv_from 2 v in
  let arr {A} (p : parser A) := if flex then rd_carr p else rd_iarr p in
  match rd_i32 payload with
  | Ok (n, s) =>
      if sint 32 (n + 4) =? sint 32 (zlen payload) then
        match (h <- rd_header flex ;; throttle <- rd_i32 ;;
               rs <- arr (ec <- rd_i16 ;; m <- (if flex then compactNullableString else nullableString) ;;
                          ms <- arr (rd_matching v flex) ;; t <- decodeTaggedFields ;; ret (ec, (m, (ms, t)))) ;;
               tags <- decodeTaggedFields ;;
               ret (RDeleteAcls (fst h) (snd h) throttle rs tags)) s with
        | Ok (a, _) => Ok a | Err e => Err e | Panic => Panic | Unspec => Unspec
        end
      else Err ELength
  | Err e => Err e | Panic => Panic | Unspec => Unspec
  end.

(** desscribe_acls_response.go:41-168: the length is not looked at; the header has tags from
    version 1 on *)
Definition rd_acl (v : Z) : parser (bytes * (bytes * (Z * (Z * taggedFields)))) :=
  let str := if v <=? 1 then nonnullableString else compactString in
  pr <- str ;; ho <- str ;; op <- rd_u8 ;; pe <- rd_u8 ;; t <- (if 2 <=? v then decodeTaggedFields else ret []) ;;
  ret (pr, (ho, (op, (pe, t)))).
(** desscribe_acls_response.go:94-162: a resource *)
Definition rd_aclresource (v : Z) : parser (Z * (bytes * (Z * (list (bytes * (bytes * (Z * (Z * taggedFields)))) * taggedFields)))) :=
  ty <- rd_u8 ;; n <- (if v <=? 1 then nonnullableString else compactString) ;;
  pt <- (if 1 <=? v then rd_u8 else ret 0) ;;
  c <- (if v <=? 1 then rd_u32 else (c <- compactArrayLength ;; ret (uint 32 c))) ;;
  acls <- rd_make c (rd_acl v) ;;
  t <- (if 2 <=? v then decodeTaggedFields else ret []) ;;
  ret (ty, (n, (pt, (acls, t)))).
(** desscribe_acls_response.go:41-170 *)
Definition dec_describeacls (v : Z) (payload : bytes) : res response :=
  match (_ <- rd_skip 4 ;; corr <- rd_u32 ;; _ <- (if 1 <=? v then decodeTaggedFields else ret []) ;;
         throttle <- rd_i32 ;; ec <- rd_i16 ;;
         msg <- (if v <=? 1 then nullableString else compactNullableString) ;;
         n <- (if v <=? 1 then rd_i32 else compactArrayLength) ;;
         rs <- (if n =? -1 then ret None else (l <- rd_make n (rd_aclresource v) ;; ret (Some l))) ;;
         tags <- (if 2 <=? v then decodeTaggedFields else ret []) ;;
         ret (RDescribeAcls corr throttle ec msg rs tags)) payload with
  | Ok (a, _) => Ok a | Err e => Err e | Panic => Panic | Unspec => Unspec
  end.

(** ** Parse: response.go:89-151 *)
Definition ENotImplemented : err := EInvalid 70.
(** response.go:89-151 *)
Definition parse (key v : Z) (data : bytes) : res response :=
  match key with
  | 12 => dec_heartbeat data | 0 => dec_produce v data | 3 => dec_metadata v data | 18 => dec_apiversions data
  | 17 => dec_saslhandshake data | 36 => dec_saslauthenticate data | 2 => dec_offsets v data | 9 => dec_offsetfetch data
  | 10 => dec_findcoordinator data | 11 => dec_joingroup data | 13 => dec_leavegroup data | 8 => dec_offsetcommit data
  | 15 => dec_describegroups data | 14 => dec_syncgroup data | 32 => dec_describeconfigs data
  | 45 => dec_alterreassignments data | 46 => dec_listreassignments data | 16 => dec_listgroups v data
  | 19 => dec_createtopics data | 20 => dec_deletetopics data | 33 => dec_alterconfigs data | 29 => dec_describeacls v data
  | 30 => dec_createacls v data | 31 => dec_deleteacls v data | 42 => dec_deletegroups data | 44 => dec_incremental data
  | 37 => dec_createpartitions v data | 35 => dec_describelogdirs data | 43 => dec_electleaders data
  | _ => Err ENotImplemented
  end.

(** ** Error methods *)
(** errorcode.go:33-43 getErrorFromErrorCode; AllError has the codes -1 and 1..118 *)
Definition known_code (c : Z) : bool := (c =? -1) || ((1 <=? c) && (c <=? 118)).
(** errorcode.go:33-43 *)
Definition code_error (c : Z) : option err :=
  if c =? 0 then None else Some (if known_code c then EKafka c else EUnknownCode c).
(** KafkaError(code) wrapped by fmt.Errorf("...%w"), the first non-zero one *)
Definition first_wrapped (cs : list Z) : option err :=
  match find (fun c => negb (c =? 0)) cs with Some c => Some (EWrap (EKafka c)) | None => None end.
(** fmt.Errorf("...%s", KafkaError(code)): the code is only in the text *)
Definition first_text (cs : list Z) : option err :=
  match find (fun c => negb (c =? 0)) cs with Some c => Some (EUnknownCode c) | None => None end.
(** fmt.Errorf("... %s ... %w", *msg, KafkaError(code)): a nil message panics *)
Fixpoint first_message (cs : list (Z * option bytes)) : res (option err) :=
  match cs with
  | [] => Ok None
  | (c, m) :: t => if c =? 0 then first_message t else match m with Some _ => Ok (Some (EWrap (EKafka c))) | None => Panic end
  end.
(** the Error() method of each response type: alter_config_response.go:14-21,
    alter_partition_reassignments_response.go:20-32, apiversions_response.go:149-155,
    create_acls_response.go:20-27, create_partitions_response.go:24-31,
    create_topics_response.go:20-27, delete_groups_response.go:19-26,
    delete_topics_response.go:18-31, describe_configs_response.go:15-22,
    describe_groups_response.go:31-38, describe_logdirs_response.go:15-22,
    desscribe_acls_response.go:34-39, elect_leaders_response.go:15-25,
    findcoordinator_response.go:22-24, heartbeat_response.go:13-15,
    incremental_alter_config_response.go:15-22, joingroup_response.go:43-45,
    leave_group_response.go:13-15, list_groups_response.go:27-29,
    list_partition_reassignments_response.go:94-96, metadata_response.go:30-44,
    offset_commit_response.go:30-39, offset_fetch_response.go:25-34, offset_response.go:33-42,
    produce_response.go:146-155, sasl_authenticate_response.go:16-18,
    sasl_handshake_response.go:15-20, sync_group_response.go:15-20,
    delete_acls_response.go:126-139.  OffsetsResponse goes
    through its map in some order, here that of the list.  (The text of DeleteTopics has all
    codes.) *)
Definition response_error (r : response) : res (option err) :=
  match r with
  | RHeartbeat _ ec | RLeaveGroup _ ec | RFindCoordinator _ ec _ _ _ | RJoinGroup _ ec _ _ _ _ _ | RSaslAuthenticate _ ec _ _
  | RListReassignments _ _ ec _ _ => Ok (code_error ec)
  | RApiVersions _ ec _ | RSyncGroup _ ec _ | RSaslHandshake _ ec _ | RDescribeAcls _ _ ec _ _ _ => Ok (kafka_error ec)
  | RMetadata _ _ _ _ _ ts => Ok (first_wrapped (flat_map (fun t => fst t :: map fst (snd (snd (snd t)))) ts))
  | ROffsets _ _ ts => Ok (first_wrapped (flat_map (fun t => map (fun p => fst (snd p)) (snd t)) ts))
  | ROffsetCommit _ ts => Ok (first_code (flat_map (fun t => map snd (snd t)) ts))
  | ROffsetFetch _ ts => Ok (first_wrapped (flat_map (fun t => map (fun p => snd (snd (snd p))) (snd t)) ts))
  | RListGroups _ _ _ _ _ _ => Ok None
  | RDescribeGroups _ gs => Ok (first_code (map fst gs))
  | RDeleteGroups _ _ rs | RDeleteTopics _ rs => Ok (first_text (map snd rs))
  | RCreateTopics _ rs => Ok (first_code (map snd rs))
  | RProduce _ ts => Ok (first_code (flat_map (fun t => map (fun p => fst (snd p)) (snd t)) ts))
  | RAlterConfigs _ _ rs | RIncrementalAlterConfigs _ _ rs => Ok (first_code (map fst rs))
  | RCreatePartitions _ _ rs => first_message (map snd rs)
  | RDescribeConfigs _ _ rs => Ok (first_text (map fst rs))
  | RDescribeLogDirs _ _ rs => Ok (first_code (map fst rs))
  | RElectLeaders _ _ rs => Ok (first_wrapped (flat_map (fun t => map (fun p => fst (snd p)) (snd t)) rs))
  | RAlterReassignments _ _ _ ec msg ts _ =>
      first_message ((ec, msg) :: flat_map (fun t => map (fun p => (fst (snd p), fst (snd (snd p)))) (fst (snd t))) (match ts with Some l => l | None => [] end))
  | RCreateAcls _ _ rs _ => Ok (first_code (map (fun r => sint 16 (fst r)) (match rs with Some l => l | None => [] end)))
  | RDeleteAcls _ _ _ rs _ =>
      first_message (flat_map (fun r => (fst r, fst (snd r)) :: map (fun m => (fst m, fst (snd m))) (fst (snd (snd r)))) rs)
  end.

(** broker.go:257-262 and response.go:31-42: what RequestAndGet returns for the bytes read.
    The errors of Parse are wrapped. *)
Definition answer (key v : Z) (data : bytes) : res response :=
  match parse key v data with
  | Ok r => match response_error r with Ok None => Ok r | Ok (Some e) => Err e | Err e => Err e | Panic => Panic | Unspec => Unspec end
  | Err e => Err (EWrap e)
  | Panic => Panic
  | Unspec => Unspec
  end.
