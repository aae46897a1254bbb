(** Model of the JSON the commands print: encoding/json applied to the response types.
    Simplifications: JSON values instead of their text; the maps from broker ids around
    list-groups and describe-logdirs are in ShownEvent.v; nil and empty
    slices are not told apart where the model of the response does not; escapes within strings are
    part of the text. *)
From Coq Require Import String Ascii.
From Verif Require Import Base Prims Group Acl Responses Http HttpSpec HttpApi Fetch.

(** unicode/utf8 DecodeRune: the number of bytes of the rune in front, 0 if there is none *)
Definition cont (c : Z) : bool := (128 <=? c) && (c <=? 191).
(** unicode/utf8 DecodeRune: the range of the second byte depends on the first *)
Definition second (b c : Z) : bool :=
  if b =? 224 then (160 <=? c) && (c <=? 191)
  else if b =? 237 then (128 <=? c) && (c <=? 159)
  else if b =? 240 then (144 <=? c) && (c <=? 191)
  else if b =? 244 then (128 <=? c) && (c <=? 143)
  else cont c.
(** unicode/utf8 DecodeRune *)
Definition rune_len (s : bytes) : nat :=
  match s with
  | [] => 0%nat
  | b :: s1 =>
      if (0 <=? b) && (b <? 128) then 1%nat
      else if (194 <=? b) && (b <=? 223) then
        match s1 with c :: _ => if cont c then 2%nat else 0%nat | [] => 0%nat end
      else if (224 <=? b) && (b <=? 239) then
        match s1 with c :: d :: _ => if second b c && cont d then 3%nat else 0%nat | _ => 0%nat end
      else if (240 <=? b) && (b <=? 244) then
        match s1 with c :: d :: e :: _ => if second b c && cont d && cont e then 4%nat else 0%nat | _ => 0%nat end
      else 0%nat
  end.
(** encoding/json appendString: a byte that is no part of a rune becomes U+FFFD.  [n] bounds
    the rounds. *)
Fixpoint legible_go (n : nat) (s : bytes) : bytes :=
  match n, s with
  | O, _ | _, [] => []
  | S k, b :: s1 =>
      match rune_len s with
      | O => [239; 191; 189] ++ legible_go k s1
      | l => firstn l s ++ legible_go k (skipn l s)
      end
  end.
(** encoding/json: a string *)
Definition jstr (s : bytes) : json := JStr (legible_go (List.length s) s).
(** a *string *)
Definition jopt (o : option bytes) : json := match o with None => JNull | Some s => jstr s end.
(** a []byte: base64, of bytes *)
Definition jbytes (b : bytes) : json := JStr (b64encode (map (fun x => x mod 256) b)).
(** a []byte that is nil when it is empty *)
Definition jbytes0 (b : bytes) : json := match b with [] => JNull | _ => jbytes b end.
(** a []byte or nil *)
Definition jobytes (o : option bytes) : json := match o with None => JNull | Some b => jbytes b end.
(** MarshalText (acl_types.go:45-47, 106-108, 178-180, 241-243) *)
Definition jenum (f : Z -> string) (z : Z) : json := JStr (lit (f z)).
(** slices *)
Definition jarr {A} (f : A -> json) (l : list A) : json := JArr (map f l).
(** slices or nil *)
Definition joarr {A} (f : A -> json) (o : option (list A)) : json := match o with None => JNull | Some l => jarr f l end.
(** a structure: names and values *)
Definition jobj (l : list (string * json)) : json := JObj (map (fun p => (lit (fst p), snd p)) l).

Local Open Scope string_scope.
(** tagged_fields.go:9-12 *)
Definition jtag (t : Z * bytes) : json := jobj [("Tag", JInt (fst t)); ("Data", jbytes (snd t))].
(** tagged_fields.go:7 *)
Definition jtags (l : taggedFields) : json := jarr jtag l.

(** group.go:5-16 *)
Definition jassignment (m : MemberAssignment) : json :=
  jobj [("Version", JInt (ma_version m));
        ("PartitionAssignments", jarr (fun p => jobj [("Topic", jstr (fst p)); ("Partitions", jarr JInt (snd p))]) (ma_parts m));
        ("UserData", jbytes (ma_user m))].
(** describe_groups_response.go:8-15; RawMemberAssignment is left out *)
Definition jmember (m : gmember) : json :=
  let '(id, (cl, (host, (md, (raw, a))))) := m in
  jobj [("MemberID", jstr id); ("ClientID", jstr cl); ("ClientHost", jstr host); ("MemberMetadata", jbytes0 md);
        ("MemberAssignment", match a with None => JNull | Some a => jassignment a end)].
(** list_groups_response.go:12-18 *)
Definition jgroup (g : bytes * (bytes * (bytes * (bytes * taggedFields)))) : json :=
  let '(id, (pt, (st, (ty, tags)))) := g in
  jobj ([("GroupID", jstr id); ("ProtocolType", jstr pt); ("GroupState", jstr st); ("GroupType", jstr ty)] ++
        match tags with [] => [] | _ => [("TaggedFields", jtags tags)] end).

(** The JSON of a response, and of its groups for describe-groups (describe-groups.go:55) and
    list-groups (list-groups.go:33).  The structures are those of create_topics_response.go:9-18,
    delete_topics_response.go:9-15, delete_groups_response.go:9-16, metadata_response.go:12-27, 47-52,
    100-108, describe_configs_response.go:9-13, 24-30, 72-78, incremental_alter_config_response.go:9-30,
    describe_logdirs_response.go:9-33, 65-70, elect_leaders_response.go:8-13, 27-30, 49-53,
    list_partition_reassignments_response.go:9-23, 46-52, alter_partition_reassignments_response.go:10-18,
    58-63, 78-84, create_acls_response.go:8-18, delete_acls_response.go:9-20, 112-124,
    desscribe_acls_response.go:8-32, create_partitions_response.go:9-21, describe_groups_response.go:17-29, list_groups_response.go:19-25.
    The HTTP interface answers with the JSON of the same types (apicontrollers/acl.go:41, 74, 107,
    configs.go:54, create-partitions.go:56, describe-logdirs.go:42, elect-leader.go:64, group.go:35, 76,
    metadata.go:34, 40, partition-reassignments.go:71, 123, topic.go:53, 93, 172).
    The TaggedFields of an embedded ResponseHeader (response.go:153-159) are hidden by a field
    of the response of the same name, so for the ACLs but not for the reassignments. *)
Definition shown (r : response) : option json :=
  match r with
  | RCreateTopics corr l => Some (jobj [("CorrelationID", JInt corr);
      ("TopicErrors", jarr (fun t => jobj [("Topic", jstr (fst t)); ("ErrorCode", JInt (snd t))]) l)])
  | RDeleteTopics corr l => Some (jobj [("correlation_id", JInt corr);
      ("results", jarr (fun t => jobj [("topic_name", jstr (fst t)); ("error_code", JInt (snd t))]) l)])
  | RCreatePartitions corr th l => Some (jobj [("correlation_id", JInt corr); ("throttle_time_ms", JInt th);
      ("results", jarr (fun t => let '(n, (ec, m)) := t in
         jobj [("topic_name", jstr n); ("error_code", JInt ec); ("error_message", jopt m)]) l)])
  | RDeleteGroups corr th l => Some (jobj [("correlation_id", JInt corr); ("throttle_time_ms", JInt th);
      ("results", jarr (fun t => jobj [("group_id", jstr (fst t)); ("error_code", JInt (snd t))]) l)])
  | RMetadata corr th bs cl ctl ts => Some (jobj [("CorrelationID", JInt corr); ("ThrottleTimeMs", JInt th);
      ("Brokers", jarr (fun b => let '(id, (h, (p, rk))) := b in
         jobj [("NodeID", JInt id); ("Host", jstr h); ("Port", JInt p); ("Rack", jstr rk)]) bs);
      ("ClusterID", jstr cl); ("ControllerID", JInt ctl);
      ("TopicMetadatas", jarr (fun t => let '(ec, (n, (i, ps))) := t in
         jobj [("TopicErrorCode", JInt ec); ("TopicName", jstr n); ("IsInternal", JBool i);
               ("PartitionMetadatas", jarr (fun p : nopart => let '(e, (id, (ld, (ep, (rs, (isr, off)))))) := p in
                  jobj [("PartitionErrorCode", JInt e); ("PartitionID", JInt id); ("Leader", JInt ld); ("LeaderEpoch", JInt ep);
                        ("Replicas", jarr JInt rs); ("Isr", jarr JInt isr); ("OfflineReplicas", jarr JInt off)]) ps)]) ts)])
  | RDescribeConfigs corr th l => Some (jobj [("CorrelationID", JInt corr); ("ThrottleTimeMS", JInt th);
      ("Resources", jarr (fun x => let '(ec, (m, (ty, (n, es)))) := x in
         jobj [("ErrorCode", JInt ec); ("ErrorMessage", jstr m); ("ResourceType", JInt ty); ("ResourceName", jstr n);
               ("ConfigEntries", jarr (fun e => let '(k, (v, (ro, (df, se)))) := e in
                  jobj [("ConfigName", jstr k); ("ConfigValue", jstr v); ("ReadOnly", JBool ro); ("IsDefault", JBool df);
                        ("IsSensitive", JBool se)]) es)]) l)])
  | RIncrementalAlterConfigs corr th l => Some (jobj [("correlation_id", JInt corr); ("throttle_time_ms", JInt th);
      ("resources", jarr (fun x => let '(ec, (m, (ty, n))) := x in
         jobj [("error_code", JInt ec); ("error_message", jstr m); ("resource_type", JInt ty); ("resource_name", jstr n)]) l)])
  | RDescribeLogDirs _ th l => Some (jobj [("throttle_time_ms", JInt th);
      ("results", jarr (fun x => let '(ec, (d, ts)) := x in
         jobj [("error_code", JInt ec); ("log_dir", jstr d);
               ("topics", jarr (fun t => jobj [("topic", jstr (fst t));
                  ("partitions", jarr (fun p => let '(id, (sz, (lag, fu))) := p in
                     jobj [("partition_id", JInt id); ("size", JInt sz); ("offset_lag", JInt lag); ("is_future_key", JBool fu)]) (snd t))]) ts)]) l)])
  | RElectLeaders corr th l => Some (jobj [("correlation_id", JInt corr); ("throttle_time_ms", JInt th);
      ("replica_election_results", jarr (fun t => jobj [("topic", jstr (fst t));
         ("partition_result", jarr (fun p => let '(id, (ec, m)) := p in
            jobj [("partition_id", JInt id); ("error_code", JInt ec); ("error_message", jstr m)]) (snd t))]) l)])
  | RListReassignments corr th ec m l => Some (jobj [("correlation_id", JInt corr); ("throttle_time_ms", JInt th);
      ("error_code", JInt ec); ("error_message", jopt m);
      ("topics", jarr (fun t => jobj [("name", jstr (fst t));
         ("partitions", jarr (fun p => let '(id, (rs, (ad, rm))) := p in
            jobj [("partition", JInt id); ("replicas", jarr JInt rs); ("adding_replicas", jarr JInt ad); ("removing_replicas", jarr JInt rm)]) (snd t))]) l)])
  | RAlterReassignments corr ht th ec m l tags => Some (jobj [("CorrelationID", JInt corr); ("TaggedFields", jtags ht); ("throttle_time_ms", JInt th);
      ("error_code", JInt ec); ("error_msg", jopt m);
      ("responses", joarr (fun t => let '(n, (ps, tg)) := t in
         jobj [("name", jstr n);
               ("partitions", jarr (fun p => let '(id, (e, (pm, pt))) := p in
                  jobj [("partition_id", JInt id); ("error_code", JInt e); ("error_msg", jopt pm); ("tagged_fields", jtags pt)]) ps);
               ("tagged_fields", jtags tg)]) l);
      ("tagged_fields", jtags tags)])
  | RCreateAcls corr _ l tags => Some (jobj [("CorrelationID", JInt corr);
      ("Results", joarr (fun x => let '(ec, (m, tg)) := x in
         jobj [("ErrorCode", JInt ec); ("ErrorMessage", jopt m); ("TaggedFields", jtags tg)]) l);
      ("TaggedFields", jtags tags)])
  | RDeleteAcls corr _ th l tags => Some (jobj [("CorrelationID", JInt corr); ("ThrottleTimeMs", JInt th);
      ("FilterResults", jarr (fun x => let '(ec, (m, (ms, tg))) := x in
         jobj [("ErrorCode", JInt ec); ("ErrorMessage", jopt m);
               ("MatchingAcls", jarr (fun a => let '(e, (am, (ty, (n, (pt, (pr, (h, (op, (pe, at_)))))))))  := a in
                  jobj [("ErrorCode", JInt e); ("ErrorMessage", jopt am); ("ResourceType", jenum rtype_string ty); ("ResourceName", jstr n);
                        ("PatternType", jenum ptype_string pt); ("Principal", jstr pr); ("Host", jstr h);
                        ("Operation", jenum op_string op); ("PermissionType", jenum perm_string pe); ("TaggedFields", jtags at_)]) ms);
               ("TaggedFields", jtags tg)]) l);
      ("TaggedFields", jtags tags)])
  | RDescribeAcls corr th ec m l tags => Some (jobj [("CorrelationID", JInt corr); ("ThrottleTimeMs", JInt th);
      ("ErrorCode", JInt ec); ("ErrorMessage", jopt m);
      ("Resources", joarr (fun x => let '(ty, (n, (pt, (acls, tg)))) := x in
         jobj [("ResourceType", jenum rtype_string ty); ("ResourceName", jstr n); ("PatternType", jenum ptype_string pt);
               ("Acls", jarr (fun a => let '(pr, (h, (op, (pe, at_)))) := a in
                  jobj [("Principal", jstr pr); ("Host", jstr h); ("Operation", jenum op_string op);
                        ("PermissionType", jenum perm_string pe); ("TaggedFields", jtags at_)]) acls);
               ("TaggedFields", jtags tg)]) l);
      ("TaggedFields", jtags tags)])
  | RDescribeGroups _ gs => Some (jarr (fun g => let '(ec, (id, (st, (pt, (pr, ms))))) := g in
      jobj [("ErrorCode", JInt ec); ("GroupID", jstr id); ("State", jstr st); ("ProtocolType", jstr pt); ("Protocol", jstr pr);
            ("Members", jarr jmember ms)]) gs)
  | RListGroups _ _ _ _ gs _ => Some (joarr jgroup gs)
  | _ => None
  end.

(** message.go:21-36 and record.go:12-15: a message, as simple-consumer.go:91 prints it with its
    offset.  MessageSize and Crc are left out; Headers of an old message are nil. *)
Definition shown_message (m : Message) : json :=
  jobj [("Offset", JInt (m_offset m)); ("MagicByte", JInt (m_magic m)); ("Attributes", JInt (m_attr m)); ("Timestamp", JInt (m_ts m));
        ("Key", jobytes (m_key m)); ("Value", jobytes (m_value m));
        ("Headers", if (m_magic m <? 2)%Z then JNull
                    else jarr (fun h => jobj [("Key", jstr (fst h)); ("Value", jbytes (snd h))]) (m_headers m))].
