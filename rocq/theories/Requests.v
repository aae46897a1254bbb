(** Model of request.go and of the Encode functions of all *_request.go files.
    Every [TaggedFields] field of a request is nil (no constructor of the client sets
    one); integers are the Go values, strings and byte slices are byte lists; a nil
    slice is told apart from an empty one ([option]) where the code does so. *)
From Verif Require Import Base Prims Records.

(** PutUint16/32/64(payload[offset:], x), payload[offset] = x; offset += ... *)
Definition p8 (v : Z) : wop := Put (be 1 (uint 8 v)).
(** PutUint16 *)
Definition p16 (v : Z) : wop := Put (be 2 (uint 16 v)).
(** PutUint32 *)
Definition p32 (v : Z) : wop := Put (be 4 (uint 32 v)).
(** PutUint64 *)
Definition p64 (v : Z) : wop := Put (be 8 (uint 64 v)).
(** payload[offset] = 1 or 0 *)
Definition pbool (b : bool) : wop := Put [if b then 1 else 0].
(** offset += binary.PutUvarint(payload[offset:], x) *)
Definition puv (v : Z) : wop := Put (uvarint v).
(** PutUint16(payload[offset:], uint16(len(s))); offset += 2; offset += copy(payload[offset:], s) *)
Definition pstr (s : bytes) : list wop := [p16 (zlen s); CopyN s].
(** the same with a 4-byte length *)
Definition pbytes (s : bytes) : list wop := [p32 (zlen s); CopyN s].
(** PutUint32(len(l)); for _, x := range l { ... } *)
Definition parr {A} (f : A -> list wop) (l : list A) : list wop := p32 (zlen l) :: flat_map f l.
(** for _, x := range l { n += f(x) } *)
Fixpoint sumz {A} (f : A -> Z) (l : list A) : Z :=
  match l with [] => 0 | x :: t => f x + sumz f t end.
(** len of a string pointer or slice; nil is 0 *)
Definition olen (s : option bytes) : Z := match s with Some s => zlen s | None => 0 end.
(** ranging over nil is no round *)
Definition olist {A} (l : option (list A)) : list A := match l with Some l => l | None => [] end.

(** ** Request header *)

(** request.go:62-69; [h_hv] is the cached header version *)
Record rhdr := mkH {
  h_hv : option Z; h_key : Z; h_ver : Z; h_corr : Z; h_client : option bytes
}.

(** request.go:226-556: the switch of headerVersion; [None] is the panic *)
Definition hv_from (n ver : Z) : option Z := Some (if n <=? ver then 2 else 1).
(** request.go:226-556 *)
Definition hv_switch (key ver : Z) : option Z :=
  match key with
  | 0 => hv_from 9 ver | 1 => hv_from 12 ver | 2 => hv_from 6 ver | 3 => hv_from 9 ver
  | 4 => hv_from 4 ver | 5 => hv_from 2 ver | 6 => hv_from 6 ver
  | 7 => if ver =? 0 then Some 0 else hv_from 3 ver
  | 8 => hv_from 8 ver | 9 => hv_from 6 ver | 10 => hv_from 3 ver | 11 => hv_from 6 ver
  | 12 => hv_from 4 ver | 13 => hv_from 4 ver | 14 => hv_from 4 ver | 15 => hv_from 5 ver
  | 16 => hv_from 3 ver | 17 => Some 1 | 18 => hv_from 3 ver | 19 => hv_from 5 ver
  | 20 => hv_from 4 ver | 21 => hv_from 2 ver | 22 => hv_from 2 ver | 23 => hv_from 4 ver
  | 24 => hv_from 3 ver | 25 => hv_from 3 ver | 26 => hv_from 3 ver | 27 => hv_from 1 ver
  | 28 => hv_from 3 ver | 29 => hv_from 2 ver | 30 => hv_from 2 ver | 31 => hv_from 2 ver
  | 32 => hv_from 4 ver | 33 => hv_from 2 ver | 34 => hv_from 2 ver | 35 => hv_from 2 ver
  | 36 => hv_from 2 ver | 37 => hv_from 2 ver | 38 => hv_from 2 ver | 39 => hv_from 2 ver
  | 40 => hv_from 2 ver | 41 => hv_from 2 ver | 42 => hv_from 2 ver | 43 => hv_from 2 ver
  | 44 => hv_from 1 ver | 45 => Some 2 | 46 => Some 2 | 47 => Some 1
  | 48 => hv_from 1 ver | 49 => hv_from 1 ver | 50 => Some 2 | 51 => Some 2 | 52 => Some 2
  | 53 => Some 1 | 54 => Some 1
  | 55 => Some 2 | 56 => Some 2 | 57 => Some 2 | 58 => Some 2 | 59 => Some 2 | 60 => Some 2
  | 61 => Some 2 | 62 => Some 2 | 63 => Some 2 | 64 => Some 2 | 65 => Some 2 | 66 => Some 2
  | 67 => Some 2
  | _ => None
  end.

(** request.go:218-225: headerVersion returns the cached value if there is one and
    caches its result otherwise (by the deferred function) *)
Definition headerVersion (h : rhdr) : res Z :=
  match h_hv h with
  | Some v => Ok v
  | None => match hv_switch (h_key h) (h_ver h) with Some v => Ok v | None => Panic end
  end.
(** request.go:218-225: hv is kept in the header *)
Definition hv_cache (hv : Z) (h : rhdr) : rhdr := mkH (Some hv) (h_key h) (h_ver h) (h_corr h) (h_client h).

(** request.go:202-204 IsFlexible *)
Definition flexible (hv : Z) : bool := 2 <=? hv.
(** request.go:72-85 length, with nil TaggedFields *)
Definition hlen (hv : Z) (h : rhdr) : Z := 10 + olen (h_client h) + (if flexible hv then 1 else 0).
(** request.go:91-113 EncodeTo *)
Definition hops (hv : Z) (h : rhdr) : list wop :=
  [p16 (h_key h); p16 (h_ver h); p32 (h_corr h)]
  ++ (if 1 <=? hv then [CopyN (encodeNullableString (h_client h))] else [])
  ++ (if flexible hv then [CopyN [0]] else []).
(** request.go:115-144 WriteTo: the same bytes, into a growing buffer *)
Definition hwrite (hv : Z) (h : rhdr) : bytes := wcat (hops hv h).

(** ** Request contents *)

(** The fields the callers fill in, one constructor per request type. *)
Inductive rbody :=
| QMetadata (topics : option (list bytes)) (allow : bool)
| QApiVersions
| QFindCoordinator (group : bytes)
| QHeartbeat (group : bytes) (gen : Z) (member : bytes)
| QLeaveGroup (group member : bytes)
| QJoinGroup (group : bytes) (session rebalance : Z) (member ptype : bytes) (protos : list (bytes * bytes))
| QSyncGroup (group : bytes) (gen : Z) (member : bytes) (assignment : list (bytes * bytes))
| QOffsetCommit (group : bytes) (gen : Z) (member : bytes) (retention : Z)
                (topics : list (bytes * list (Z * (Z * bytes))))
| QOffsetFetch (group : bytes) (topics : list (bytes * list Z))
| QListOffsets (replica : Z) (topics : list (bytes * list (Z * (Z * Z))))
| QDescribeGroups (groups : list bytes)
| QListGroups (states types : option (list bytes))
| QDeleteGroups (groups : list bytes)
| QDeleteTopics (topics : list bytes) (timeout : Z)
| QSaslHandshake (mechanism : bytes)
| QSaslAuthenticate (auth : bytes)
| QCreateTopics (topics : list (bytes * (Z * (Z * (list (Z * list Z) * list (bytes * bytes)))))) (timeout : Z)
| QAlterConfigs (resources : list (Z * (bytes * list (bytes * bytes)))) (validate : bool)
| QIncrementalAlterConfigs (resources : list (Z * (bytes * list (bytes * (Z * bytes))))) (validate : bool)
| QDescribeConfigs (resources : list (Z * (bytes * option (list bytes))))
| QDescribeLogDirs (topics : list (bytes * list Z))
| QCreatePartitions (topics : list (bytes * (Z * option (list (list Z))))) (timeout : Z) (validate : bool)
| QFetch (replica maxwait minbytes maxbytes isolation session epoch : Z)
         (topics : list (bytes * list (Z * (Z * (Z * (Z * Z))))))
         (* partition, current leader epoch, fetch offset, log start offset, max bytes *)
         (forgotten : list (bytes * list Z))
| QElectLeaders (topics : list (bytes * list Z)) (timeout : Z)
| QAlterPartitionReassignments (timeout : Z) (topics : list (bytes * list (Z * list Z)))
| QListPartitionReassignments (timeout : Z) (topics : option (list (bytes * list Z)))
| QDescribeAcls (rtype : Z) (rname : option bytes) (ptype : Z) (principal host : option bytes) (op perm : Z)
| QCreateAcls (acls : list (Z * (bytes * (Z * (bytes * (bytes * (Z * Z)))))))
| QDeleteAcls (filters : list (Z * (option bytes * (Z * (option bytes * (option bytes * (Z * Z)))))))
| QProduce (txn : option bytes) (acks timeout : Z) (topics : list (bytes * list (Z * list RecordBatch))).

(** request.go:12-41, the APIKey every constructor New...Request puts in the header *)
Definition api_key (b : rbody) : Z :=
  match b with
  | QProduce _ _ _ _ => 0 | QFetch _ _ _ _ _ _ _ _ _ => 1 | QListOffsets _ _ => 2 | QMetadata _ _ => 3
  | QOffsetCommit _ _ _ _ _ => 8 | QOffsetFetch _ _ => 9 | QFindCoordinator _ => 10
  | QJoinGroup _ _ _ _ _ _ => 11 | QHeartbeat _ _ _ => 12 | QLeaveGroup _ _ => 13 | QSyncGroup _ _ _ _ => 14
  | QDescribeGroups _ => 15 | QListGroups _ _ => 16 | QSaslHandshake _ => 17 | QApiVersions => 18
  | QCreateTopics _ _ => 19 | QDeleteTopics _ _ => 20 | QDescribeAcls _ _ _ _ _ _ _ => 29 | QCreateAcls _ => 30
  | QDeleteAcls _ => 31 | QDescribeConfigs _ => 32 | QAlterConfigs _ _ => 33 | QDescribeLogDirs _ => 35
  | QSaslAuthenticate _ => 36 | QCreatePartitions _ _ _ => 37 | QDeleteGroups _ => 42 | QElectLeaders _ _ => 43
  | QIncrementalAlterConfigs _ _ => 44 | QAlterPartitionReassignments _ _ => 45 | QListPartitionReassignments _ _ => 46
  end.

(** TaggedFields.length of a nil field through its address: MaxVarintLen64 (tagged_fields.go:14-23) *)
Definition tags_len : Z := 10.
(** offset += copy(payload[offset:], TaggedFields(nil).Encode()) *)
Definition ptags : wop := CopyN [0].

Section Encode.
Variable zip : Z -> bytes -> res bytes.

(** a topic and its partition ids *)
Definition topic_pids (t : bytes * list Z) : list wop := pstr (fst t) ++ parr (fun p => [p32 p]) (snd t).
(** the length of the same *)
Definition len_topic_pids (t : bytes * list Z) : Z := 2 + zlen (fst t) + 4 + 4 * zlen (snd t).
(** the length of strings with their lengths *)
Definition len_strs (l : list bytes) : Z := sumz (fun s => 2 + zlen s) l.
(** two strings with their lengths *)
Definition pair_strs (c : bytes * bytes) : list wop := pstr (fst c) ++ pstr (snd c).

(** metadata_request.go:25-59, length 13-23 *)
Definition enc_metadata (hv : Z) (h : rhdr) (v : Z) (topics : option (list bytes)) (allow : bool) : res bytes :=
  wframe (hlen hv h + 4 + len_strs (olist topics) + (if 4 <=? v then 1 else 0))
    (hops hv h
     ++ [match topics with None => p32 (-1) | Some l => p32 (zlen l) end]
     ++ flat_map pstr (olist topics)
     ++ (if 4 <=? v then [pbool allow] else [])).

(** apiversions_request.go:21-30 *)
Definition enc_apiversions hv h : res bytes := wframe (hlen hv h) (hops hv h).

(** findcoordinator_request.go:41-58 *)
Definition enc_findcoordinator hv h (g : bytes) : res bytes :=
  wframe (hlen hv h + 2 + zlen g) (hops hv h ++ [p16 (zlen g); Copy g]).

(** heartbeat_request.go:46-69, Length 41-44 *)
Definition enc_heartbeat hv h (g : bytes) (gen : Z) (m : bytes) : res bytes :=
  wframe (hlen hv h + 2 + zlen g + 4 + 2 + zlen m)
    (hops hv h ++ pstr g ++ [p32 gen] ++ [p16 (zlen m); Copy m]).

(** leave_group_request.go:41-61, Length 36-39 *)
Definition enc_leavegroup hv h (g m : bytes) : res bytes :=
  wframe (hlen hv h + 2 + zlen g + 2 + zlen m) (hops hv h ++ pstr g ++ pstr m).

(** joingroup_request.go:61-105, length 47-58; the version tested is the header's *)
Definition enc_joingroup hv h (g : bytes) (session rebalance : Z) (m pt : bytes) (protos : list (bytes * bytes)) : res bytes :=
  let v := h_ver h in
  wframe (hlen hv h + 2 + zlen g + 4 + 2 + zlen m + 2 + zlen pt + (if (v =? 1) || (v =? 2) then 4 else 0) + 4
          + sumz (fun gp : bytes * bytes => (2 + zlen (fst gp)) + (4 + zlen (snd gp))) protos)
    (hops hv h ++ pstr g ++ [p32 session] ++ (if (v =? 1) || (v =? 2) then [p32 rebalance] else [])
     ++ pstr m ++ pstr pt ++ parr (fun gp : bytes * bytes => pstr (fst gp) ++ pbytes (snd gp)) protos).

(** sync_group_request.go:40-74, Length 29-37 *)
Definition enc_syncgroup hv h (g : bytes) (gen : Z) (m : bytes) (asg : list (bytes * bytes)) : res bytes :=
  wframe (hlen hv h + 2 + zlen g + 4 + 2 + zlen m + 4
          + sumz (fun x : bytes * bytes => (2 + zlen (fst x)) + (4 + zlen (snd x))) asg)
    (hops hv h ++ pstr g ++ [p32 gen] ++ pstr m
     ++ parr (fun x : bytes * bytes => pstr (fst x) ++ pbytes (snd x)) asg).

(** offset_commit_request.go:111-161, Length 93-110; the version tested is the header's *)
Definition enc_offsetcommit hv h (g : bytes) (gen : Z) (m : bytes) (ret : Z)
    (topics : list (bytes * list (Z * (Z * bytes)))) : res bytes :=
  let v := h_ver h in
  wframe (hlen hv h + 2 + zlen g + (if v =? 2 then 4 + 2 + zlen m + 8 else 0) + 4
          + sumz (fun t : bytes * list (Z * (Z * bytes)) =>
                    2 + zlen (fst t) + 4 + sumz (fun p : Z * (Z * bytes) => 4 + 8 + 2 + zlen (snd (snd p))) (snd t)) topics)
    (hops hv h ++ pstr g
     ++ (if v =? 2 then [p32 gen] ++ pstr m ++ [p64 ret] else [])
     ++ parr (fun t : bytes * list (Z * (Z * bytes)) =>
                pstr (fst t) ++ parr (fun p : Z * (Z * bytes) => [p32 (fst p); p64 (fst (snd p))] ++ pstr (snd (snd p))) (snd t)) topics).

(** offset_fetch_request.go:93-125, Length 81-91 *)
Definition enc_offsetfetch hv h (g : bytes) (topics : list (bytes * list Z)) : res bytes :=
  wframe (hlen hv h + 2 + zlen g + 4 + sumz len_topic_pids topics)
    (hops hv h ++ pstr g ++ parr topic_pids topics).

(** offset_request.go:44-91.  The two maps are walked in an unspecified order: any
    list order is possible.  Dereferencing the client id panics for a nil client id. *)
Definition enc_listoffsets hv h (v replica : Z) (topics : list (bytes * list (Z * (Z * Z)))) : res bytes :=
  match h_client h with
  | None => Panic
  | Some c =>
      wpatch (4 + (8 + 2 + zlen c + 4 + 4
                   + sumz (fun t : bytes * list (Z * (Z * Z)) => 2 + zlen (fst t) + 4 + zlen (snd t) * 16) topics))
        (hops hv h ++ [p32 replica]
         ++ parr (fun t : bytes * list (Z * (Z * Z)) =>
                    pstr (fst t) ++ parr (fun p : Z * (Z * Z) =>
                      [p32 (fst p); p64 (fst (snd p))] ++ (if v =? 0 then [p32 (snd (snd p))] else [])) (snd t)) topics)
  end.

(** describe_groups_request.go:33-56, length 23-30: copy(payload[offset:offset+l], group) *)
Definition enc_describegroups hv h (gs : list bytes) : res bytes :=
  wframe (hlen hv h + 4 + len_strs gs) (hops hv h ++ parr (fun g : bytes => [p16 (zlen g); Put g]) gs).

(** list_groups_request.go:69-129, length 39-57; minimal versions from the struct tags 12-13 *)
Definition lg_filter (flex : bool) (f : option (list bytes)) : list wop :=
  let n := match f with None => -1 | Some l => zlen l end in
  (if flex then [CopyN (encodeCompactArrayLength n)] else [p32 n])
  ++ flat_map (fun s => [CopyN (if flex then encodeCompactString s else encodeString s)]) (olist f).
(** list_groups_request.go:69-129 *)
Definition enc_listgroups hv h (states types : option (list bytes)) : res bytes :=
  wpatch (hlen hv h + 4 + len_strs (olist states) + 4 + len_strs (olist types) + tags_len + 4)
    (hops hv h
     ++ (if 4 <=? h_ver h then lg_filter (flexible hv) states else [])
     ++ (if 5 <=? h_ver h then lg_filter (flexible hv) types else [])
     ++ (if flexible hv then [puv 0] else [])).

(** delete_groups_request.go:35-56, length 26-32 *)
Definition enc_deletegroups hv h (gs : list bytes) : res bytes :=
  wframe (hlen hv h + 4 + len_strs gs) (hops hv h ++ parr pstr gs).

(** delete_topics_request.go:38-61, length 28-35 *)
Definition enc_deletetopics hv h (ts : list bytes) (timeout : Z) : res bytes :=
  wframe (hlen hv h + 4 + len_strs ts + 4) (hops hv h ++ parr pstr ts ++ [p32 timeout]).

(** sasl_handshake_request.go:45-62 *)
Definition enc_saslhandshake hv h (m : bytes) : res bytes :=
  wframe (hlen hv h + 2 + zlen m) (hops hv h ++ [p16 (zlen m); Copy m]).

(** sasl_authenticate_request.go:54-71 *)
Definition enc_saslauthenticate hv h (b : bytes) : res bytes :=
  wframe (hlen hv h + 4 + zlen b) (hops hv h ++ [p32 (zlen b); Copy b]).

(** create_topics_request.go:26-48, 77-117, Length 15-23, 59-75 *)
Notation ctopic := (bytes * (Z * (Z * (list (Z * list Z) * list (bytes * bytes)))))%type.
(** create_topics_request.go:59-75: length of a topic *)
Definition ct_len (t : ctopic) : Z :=
  let '(name, (np, (rf, (ras, cfgs)))) := t in
  2 + zlen name + (4 + 2) + 4 + sumz (fun ra : Z * list Z => 4 + 4 + 4 * zlen (snd ra)) ras
  + 4 + sumz (fun c : bytes * bytes => 2 + zlen (fst c) + 2 + zlen (snd c)) cfgs.
(** create_topics_request.go:77-117: a topic *)
Definition ct_ops (t : ctopic) : list wop :=
  let '(name, (np, (rf, (ras, cfgs)))) := t in
  pstr name ++ [p32 np; p16 rf] ++ parr (fun ra : Z * list Z => p32 (fst ra) :: parr (fun r => [p32 r]) (snd ra)) ras
  ++ parr pair_strs cfgs.
(** create_topics_request.go:26-48 Encode, 15-23 Length *)
Definition enc_createtopics hv h (ts : list ctopic) (timeout : Z) : res bytes :=
  wframe (hlen hv h + 4 + sumz ct_len ts + 4) (hops hv h ++ parr ct_ops ts ++ [p32 timeout]).

(** alter_config_request.go:129-153, 22-59, length 110-126 *)
Definition enc_alterconfigs hv h (rs : list (Z * (bytes * list (bytes * bytes)))) (validate : bool) : res bytes :=
  wframe (hlen hv h + 4
          + sumz (fun r : Z * (bytes * list (bytes * bytes)) =>
                    1 + (2 + zlen (fst (snd r))) + 4
                    + sumz (fun c : bytes * bytes => (2 + zlen (fst c)) + (2 + zlen (snd c))) (snd (snd r))) rs + 1)
    (hops hv h
     ++ parr (fun r : Z * (bytes * list (bytes * bytes)) => p8 (fst r) :: pstr (fst (snd r)) ++ parr pair_strs (snd (snd r))) rs
     ++ [pbool validate]).

(** incremental_alter_config_request.go:137-161, 22-63, length 117-134 *)
Notation icfg := (bytes * (Z * bytes))%type.
(** incremental_alter_config_request.go:137-161 Encode *)
Definition enc_incremental hv h (rs : list (Z * (bytes * list icfg))) (validate : bool) : res bytes :=
  wframe (hlen hv h + 4
          + sumz (fun r : Z * (bytes * list icfg) =>
                    1 + (2 + zlen (fst (snd r))) + 4
                    + sumz (fun c : icfg => (2 + zlen (fst c)) + 1 + (2 + zlen (snd (snd c)))) (snd (snd r))) rs + 1)
    (hops hv h
     ++ parr (fun r : Z * (bytes * list icfg) =>
                p8 (fst r) :: pstr (fst (snd r))
                ++ parr (fun c : icfg => pstr (fst c) ++ [p8 (fst (snd c))] ++ pstr (snd (snd c))) (snd (snd r))) rs
     ++ [pbool validate]).

(** describe_configs_request.go:86-105, 32-56, Length 70-84 *)
Definition enc_describeconfigs hv h (rs : list (Z * (bytes * option (list bytes)))) : res bytes :=
  wframe (hlen hv h + 4
          + sumz (fun r : Z * (bytes * option (list bytes)) =>
                    1 + (2 + zlen (fst (snd r))) + 4 + len_strs (olist (snd (snd r)))) rs)
    (hops hv h
     ++ parr (fun r : Z * (bytes * option (list bytes)) =>
                p8 (fst r) :: pstr (fst (snd r))
                ++ [match snd (snd r) with None => p32 4294967295 | Some l => p32 (zlen l) end]
                ++ flat_map pstr (olist (snd (snd r)))) rs).

(** describe_logdirs_request.go:64-94, length 52-61: PutUint32(requestLength) and
    return payload[:offset] *)
Definition enc_describelogdirs hv h (ts : list (bytes * list Z)) : res bytes :=
  let size := hlen hv h + 4 + sumz len_topic_pids ts in
  wcut (size + 4) (p32 size :: hops hv h ++ parr topic_pids ts).

(** create_partitions_request.go:143-185, 45-99, length 101-120; versions 0 and 2 *)
Notation cptopic := (bytes * (Z * option (list (list Z))))%type.
(** create_partitions_request.go:45-63: replicas of one partition *)
Definition cp_assign (v : Z) (a : list Z) : list wop :=
  (if v =? 2 then [puv (1 + zlen a)] else if v =? 0 then [p32 (zlen a)] else [])
  ++ flat_map (fun b => [p32 b]) a ++ (if v =? 2 then [ptags] else []).
(** create_partitions_request.go:65-99: a topic *)
Definition cp_topic (v : Z) (t : cptopic) : list wop :=
  let '(name, (count, asg)) := t in
  (if v =? 2 then [puv (1 + zlen name)] else if v =? 0 then [p16 (zlen name)] else [])
  ++ [CopyN name; p32 count]
  ++ (if v =? 2 then [match asg with None => puv 0 | Some l => puv (1 + zlen l) end]
      else if v =? 0 then [p32 (zlen (olist asg))] else [])
  ++ flat_map (cp_assign v) (olist asg)
  ++ (if v =? 2 then [ptags] else []).
(** create_partitions_request.go:104-113: length of a topic *)
Definition cp_len (t : cptopic) : Z :=
  let '(name, (count, asg)) := t in
  2 + zlen name + 4 + 4 + sumz (fun a : list Z => 4 + 4 * zlen a + 1) (olist asg).
(** create_partitions_request.go:143-185 Encode *)
Definition enc_createpartitions hv h (v : Z) (ts : list cptopic) (timeout : Z) (validate : bool) : res bytes :=
  wpatch (hlen hv h + 4 + sumz cp_len ts + 4 + 1 + (if v =? 2 then 4 else 0) + 4)
    (hops hv h
     ++ (if v =? 2 then [puv (1 + zlen ts)] else if v =? 0 then [p32 (zlen ts)] else [])
     ++ flat_map (cp_topic v) ts ++ [p32 timeout; pbool validate] ++ (if v =? 2 then [ptags] else [])).

(** fetch_request.go:81-158, length 67-78.  The maps are walked in an unspecified order. *)
Notation fpart := (Z * (Z * (Z * (Z * Z))))%type.
(** fetch_request.go:122-135: a partition *)
Definition fe_part (v : Z) (p : fpart) : list wop :=
  let '(pid, (ep, (off, (start, maxb)))) := p in
  [p32 pid] ++ (if 10 <=? v then [p32 ep] else []) ++ [p64 off] ++ (if 7 <=? v then [p64 start] else []) ++ [p32 maxb].
(** fetch_request.go:81-158 Encode *)
Definition enc_fetch hv h (v replica maxwait minbytes maxbytes isolation session epoch : Z)
    (ts : list (bytes * list fpart)) (forgotten : list (bytes * list Z)) : res bytes :=
  wpatch (2 * (4 + hlen hv h + (25 + 4 + 4) + sumz (fun t : bytes * list fpart => 2 + zlen (fst t) + 28) ts
               + sumz (fun t : bytes * list Z => 2 + zlen (fst t) + 4 + zlen (snd t) * 4) forgotten))
    (hops hv h ++ [p32 replica; p32 maxwait; p32 minbytes]
     ++ (if 7 <=? v then [p32 maxbytes; p8 isolation; p32 session; p32 epoch] else [])
     ++ parr (fun t : bytes * list fpart => pstr (fst t) ++ parr (fe_part v) (snd t)) ts
     ++ (if 7 <=? v then parr topic_pids forgotten else [])).

(** elect_leaders_request.go:74-95, 44-56, length 58-71; the election type is counted
    but never written *)
Definition enc_electleaders hv h (ts : list (bytes * list Z)) (timeout : Z) : res bytes :=
  wpatch (hlen hv h + 4 + 1 + 4 + sumz len_topic_pids ts + 4)
    (hops hv h ++ parr topic_pids ts ++ [p32 timeout]).

(** alter_partition_reassignments_request.go:62-84, 94-146, length 50-59 *)
Definition apr_part (p : Z * list Z) : list wop :=
  [p32 (fst p); CopyN (encodeCompactArrayLength (zlen (snd p)))] ++ flat_map (fun r => [p32 r]) (snd p) ++ [ptags].
(** alter_partition_reassignments_request.go:105-115, 133-146: a topic *)
Definition apr_topic (t : bytes * list (Z * list Z)) : list wop :=
  [CopyN (encodeCompactString (fst t)); CopyN (encodeCompactArrayLength (zlen (snd t)))] ++ flat_map apr_part (snd t) ++ [ptags].
(** alter_partition_reassignments_request.go:94-103, 125-131: length of a topic *)
Definition apr_len (t : bytes * list (Z * list Z)) : Z :=
  2 + zlen (fst t) + 4 + sumz (fun p : Z * list Z => 4 + 4 + 4 * zlen (snd p) + tags_len) (snd t) + tags_len.
(** alter_partition_reassignments_request.go:50-84 Encode *)
Definition enc_alterreassign hv h (timeout : Z) (ts : list (bytes * list (Z * list Z))) : res bytes :=
  wpatch (hlen hv h + 4 + 4 + sumz apr_len ts + tags_len + 4)
    (hops hv h ++ [p32 timeout; CopyN (encodeCompactArrayLength (zlen ts))] ++ flat_map apr_topic ts ++ [ptags]).

(** list_partition_reassignments_request.go:75-112, length 58-72 *)
Definition lpr_topic (t : bytes * list Z) : list wop :=
  [puv (1 + zlen (fst t)); CopyN (fst t); puv (1 + zlen (snd t))] ++ flat_map (fun p => [p32 p]) (snd t) ++ [ptags].
(** list_partition_reassignments_request.go:75-112 Encode *)
Definition enc_listreassign hv h (timeout : Z) (ts : option (list (bytes * list Z))) : res bytes :=
  wpatch (hlen hv h + 4 + 4
          + sumz (fun t : bytes * list Z => 2 + zlen (fst t) + 4 + 4 * zlen (snd t) + 1) (olist ts) + 1 + 4)
    (hops hv h ++ [p32 timeout; match ts with None => puv 0 | Some l => puv (1 + zlen l) end]
     ++ flat_map lpr_topic (olist ts) ++ [ptags]).

(** describe_acls_request.go:23-64, through a growing buffer *)
Definition enc_describeacls hv h (v rtype : Z) (rname : option bytes) (ptype : Z) (principal host : option bytes) (op perm : Z) : res bytes :=
  let str := if v <? 2 then encodeNullableString else writeCompactNullableString in
  rbind (wcut (hlen hv h) (hops hv h)) (fun header =>
  let body := header ++ be 1 (uint 8 rtype) ++ str rname ++ (if 1 <=? v then be 1 (uint 8 ptype) else [])
              ++ str principal ++ str host ++ be 1 (uint 8 op) ++ be 1 (uint 8 perm) ++ [0] in
  Ok (be 4 (uint 32 (zlen body)) ++ body)).

(** create_acls_request.go:79-109, 25-66, length 68-77; the version tested is the header's *)
Notation acl := (Z * (bytes * (Z * (bytes * (bytes * (Z * Z))))))%type.
(** create_acls_request.go:37-66: one ACL *)
Definition ca_ops (hv ver : Z) (a : acl) : list wop :=
  let '(rt, (rn, (pt, (pr, (ho, (op, pe)))))) := a in
  let str := if hv <? 2 then encodeString else encodeCompactString in
  [p8 rt; CopyN (str rn)] ++ (if 1 <=? ver then [p8 pt] else []) ++ [CopyN (str pr); CopyN (str ho); p8 op; p8 pe; ptags].
(** create_acls_request.go:25-35: length of one ACL *)
Definition ca_len (a : acl) : Z :=
  let '(rt, (rn, (pt, (pr, (ho, (op, pe)))))) := a in
  1 + (2 + zlen rn) + 1 + (2 + zlen pr) + (2 + zlen ho) + 1 + 1 + tags_len.
(** create_acls_request.go:79-109 Encode *)
Definition enc_createacls hv h (acls : list acl) : res bytes :=
  wpatch (hlen hv h + 4 + sumz ca_len acls + tags_len + 4)
    (hops hv h ++ (if hv <? 2 then [p32 (zlen acls)] else [CopyN (encodeCompactArrayLength (zlen acls))])
     ++ flat_map (ca_ops hv (h_ver h)) acls ++ [ptags]).

(** delete_acls_request.go:103-132, 19-72, length 93-101 *)
Notation aclf := (Z * (option bytes * (Z * (option bytes * (option bytes * (Z * Z))))))%type.
(** delete_acls_request.go:39-72: one filter *)
Definition da_ops (flex : bool) (ver : Z) (a : aclf) : list wop :=
  let '(rt, (rn, (pt, (pr, (ho, (op, pe)))))) := a in
  let str := if flex then encodeCompactNullableString else encodeNullableString in
  [p8 rt; CopyN (str rn)] ++ (if 1 <=? ver then [p8 pt] else []) ++ [CopyN (str pr); CopyN (str ho); p8 op; p8 pe]
  ++ (if flex then [ptags] else []).
(** delete_acls_request.go:19-38: length of one filter *)
Definition da_len (a : aclf) : Z :=
  let '(rt, (rn, (pt, (pr, (ho, (op, pe)))))) := a in
  1 + 2 + olen rn + 1 + 2 + olen pr + 2 + olen ho + 1 + tags_len.
(** delete_acls_request.go:103-132 Encode *)
Definition enc_deleteacls hv h (fs : list aclf) : res bytes :=
  wpatch (4 + hlen hv h + 4 + sumz da_len fs)
    (hops hv h ++ (if flexible hv then [CopyN (encodeCompactArrayLength (zlen fs))] else [p32 (zlen fs)])
     ++ flat_map (da_ops (flexible hv) (h_ver h)) fs ++ (if flexible hv then [ptags] else [])).

(** produce_request.go:45-73: all batches of the partition are encoded before the size
    is written; [batch_encode] never returns an error, it panics (see Records.v), so the
    error returns at 53-55, 89-91 are never taken *)
Fixpoint batches (bs : list RecordBatch) : res bytes :=
  match bs with
  | [] => Ok []
  | b :: bs' => rbind (batch_encode zip b) (fun x => rbind (batches bs') (fun y => Ok (x ++ y)))
  end.
(** produce_request.go:45-73: a partition *)
Definition pr_part (flex : bool) (p : Z * list RecordBatch) : res bytes :=
  rbind (batches (snd p)) (fun payload =>
  Ok (be 4 (uint 32 (fst p))
      ++ (if flex then encodeCompactArrayLength (zlen payload) else be 4 (uint 32 (zlen payload)))
      ++ payload ++ (if flex then [0] else []))).
(** the loop over a list; ends at the first error *)
Fixpoint rcat {A} (f : A -> res bytes) (l : list A) : res bytes :=
  match l with
  | [] => Ok []
  | x :: l' => rbind (f x) (fun a => rbind (rcat f l') (fun b => Ok (a ++ b)))
  end.
(** produce_request.go:75-99 *)
Definition pr_count (flex : bool) (n : Z) : bytes := if flex then encodeCompactArrayLength n else be 4 (uint 32 n).
(** produce_request.go:75-99: a topic *)
Definition pr_topic (flex : bool) (t : bytes * list (Z * list RecordBatch)) : res bytes :=
  rbind (rcat (pr_part flex) (snd t)) (fun ps =>
  Ok ((if flex then encodeCompactString (fst t) else encodeString (fst t))
      ++ pr_count flex (zlen (snd t)) ++ ps ++ (if flex then [0] else []))).
(** produce_request.go:101-151: tags["StatesFilter"] is not in the tag map of this
    struct, hence 0: the transactional id is written at every version *)
Definition enc_produce hv h (txn : option bytes) (acks timeout : Z) (ts : list (bytes * list (Z * list RecordBatch))) : res bytes :=
  let flex := flexible hv in
  rbind (rcat (pr_topic flex) ts) (fun tb =>
  let body := hwrite hv h
              ++ (if flex then writeCompactNullableString txn else encodeNullableString txn)
              ++ be 2 (uint 16 acks) ++ be 4 (uint 32 timeout) ++ pr_count flex (zlen ts) ++ tb
              ++ (if flex then [0] else []) in
  Ok (be 4 (uint 32 (zlen body)) ++ body)).

(** r.Encode(version) *)
Definition encode_body (hv : Z) (h : rhdr) (v : Z) (b : rbody) : res bytes :=
  match b with
  | QMetadata ts a => enc_metadata hv h v ts a
  | QApiVersions => enc_apiversions hv h
  | QFindCoordinator g => enc_findcoordinator hv h g
  | QHeartbeat g n m => enc_heartbeat hv h g n m
  | QLeaveGroup g m => enc_leavegroup hv h g m
  | QJoinGroup g s r m pt ps => enc_joingroup hv h g s r m pt ps
  | QSyncGroup g n m a => enc_syncgroup hv h g n m a
  | QOffsetCommit g n m r ts => enc_offsetcommit hv h g n m r ts
  | QOffsetFetch g ts => enc_offsetfetch hv h g ts
  | QListOffsets r ts => enc_listoffsets hv h v r ts
  | QDescribeGroups gs => enc_describegroups hv h gs
  | QListGroups s t => enc_listgroups hv h s t
  | QDeleteGroups gs => enc_deletegroups hv h gs
  | QDeleteTopics ts t => enc_deletetopics hv h ts t
  | QSaslHandshake m => enc_saslhandshake hv h m
  | QSaslAuthenticate m => enc_saslauthenticate hv h m
  | QCreateTopics ts t => enc_createtopics hv h ts t
  | QAlterConfigs rs b => enc_alterconfigs hv h rs b
  | QIncrementalAlterConfigs rs b => enc_incremental hv h rs b
  | QDescribeConfigs rs => enc_describeconfigs hv h rs
  | QDescribeLogDirs ts => enc_describelogdirs hv h ts
  | QCreatePartitions ts t b => enc_createpartitions hv h v ts t b
  | QFetch a b c d e f g ts fs => enc_fetch hv h v a b c d e f g ts fs
  | QElectLeaders ts t => enc_electleaders hv h ts t
  | QAlterPartitionReassignments t ts => enc_alterreassign hv h t ts
  | QListPartitionReassignments t ts => enc_listreassign hv h t ts
  | QDescribeAcls a b c d e f g => enc_describeacls hv h v a b c d e f g
  | QCreateAcls l => enc_createacls hv h l
  | QDeleteAcls l => enc_deleteacls hv h l
  | QProduce t a b ts => enc_produce hv h t a b ts
  end.
(** headerVersion (request.go:218-556), then Encode *)
Definition encode (h : rhdr) (v : Z) (b : rbody) : res (bytes * rhdr) :=
  rbind (headerVersion h) (fun hv =>
  rbind (encode_body hv h v b) (fun w => Ok (w, hv_cache hv h))).

(** A request object and what broker.Request does with it before sending:
    SetCorrelationID, SetVersion, Encode (broker.go:218-219, 226-228).  The request
    keeps its (changed) header. *)
Definition request := (rhdr * rbody)%type.
(** the New functions of the requests: a header without versions, correlation id 0 *)
Definition new_request (client : option bytes) (b : rbody) : request := (mkH None (api_key b) 0 0 client, b).
(** broker.go:218-219, 226-228 *)
Definition prepare (corr v : Z) (r : request) : res (bytes * request) :=
  let '(h, b) := r in
  let h1 := mkH (h_hv h) (h_key h) v corr (h_client h) in
  rbind (encode h1 v b) (fun x => Ok (fst x, (snd x, b))).
End Encode.
