(** Specification of the responses: the layouts of https://kafka.apache.org/protocol for the
    APIs and versions the client requests, the values a client should see, and the error
    codes they carry.  Only the type [response] comes from the model. *)
From Verif Require Import Base Wire RequestSpec Group Responses.
Local Open Scope ty_scope.

(** ** Headers *)
(** A response has tags in its header where the request has, except ApiVersions. *)
Definition rflexible (key v : Z) : bool := flexibleb key v && negb (key =? 18).
Definition rheader_bytes (key v corr : Z) (ht : list (Z * bytes)) : bytes :=
  be 4 corr ++ (if rflexible key v then enc TTags ht else []).
Definition response_bytes (key v corr : Z) (ht : list (Z * bytes)) (body : bytes) : bytes :=
  frame (rheader_bytes key v corr ht ++ body).

(** ** Bodies *)
Definition R_ApiVersions_0 : ty := TI16 *** TArr (TI16 *** TI16 *** TI16).
Definition R_Broker : ty := TI32 *** TStr *** TI32 *** TNStr.
Definition R_Part_1 : ty := TI16 *** TI32 *** TI32 *** TArr TI32 *** TArr TI32.
Definition R_Part_7 : ty := TI16 *** TI32 *** TI32 *** TI32 *** TArr TI32 *** TArr TI32 *** TArr TI32.
Definition R_Metadata_1 : ty := TArr R_Broker *** TI32 *** TArr (TI16 *** TStr *** TBool *** TArr R_Part_1).
Definition R_Metadata_4 : ty := TI32 *** TArr R_Broker *** TNStr *** TI32 *** TArr (TI16 *** TStr *** TBool *** TArr R_Part_1).
Definition R_Metadata_7 : ty := TI32 *** TArr R_Broker *** TNStr *** TI32 *** TArr (TI16 *** TStr *** TBool *** TArr R_Part_7).
Definition R_FindCoordinator_0 : ty := TI16 *** TI32 *** TStr *** TI32.
Definition R_JoinGroup_0 : ty := TI16 *** TI32 *** TStr *** TStr *** TStr *** TArr (TStr *** TBytes).
Definition R_SyncGroup_0 : ty := TI16 *** TBytes.
Definition R_ListOffsets_0 : ty := TArr (TStr *** TArr (TI32 *** TI16 *** TArr TI64)).
Definition R_ListOffsets_1 : ty := TArr (TStr *** TArr (TI32 *** TI16 *** TI64 *** TI64)).
Definition R_OffsetCommit_0 : ty := TArr (TStr *** TArr (TI32 *** TI16)).
Definition R_OffsetFetch_0 : ty := TArr (TStr *** TArr (TI32 *** TI64 *** TNStr *** TI16)).
Definition R_ListGroups_0 : ty := TI16 *** TArr (TStr *** TStr).
Definition R_ListGroups_1 : ty := TI32 *** TI16 *** TArr (TStr *** TStr).
Definition R_ListGroups_3 : ty := TI32 *** TI16 *** TCArr (TCStr *** TCStr *** TTags) *** TTags.
Definition R_ListGroups_4 : ty := TI32 *** TI16 *** TCArr (TCStr *** TCStr *** TCStr *** TTags) *** TTags.
Definition R_ListGroups_5 : ty := TI32 *** TI16 *** TCArr (TCStr *** TCStr *** TCStr *** TCStr *** TTags) *** TTags.
Definition R_Member : ty := TStr *** TStr *** TStr *** TBytes *** TBytes.
Definition R_DescribeGroups_0 : ty := TArr (TI16 *** TStr *** TStr *** TStr *** TStr *** TArr R_Member).
Definition R_DeleteGroups_0 : ty := TI32 *** TArr (TStr *** TI16).
Definition R_Topics_0 : ty := TArr (TStr *** TI16).
Definition R_SaslHandshake_0 : ty := TI16 *** TArr TStr.
Definition R_SaslAuthenticate_0 : ty := TI16 *** TNStr *** TBytes.
Definition R_PPart_9 : ty :=
  TI32 *** TI16 *** TI64 *** TI64 *** TI64 *** TCArr (TI32 *** TCNStr *** TTags) *** TCNStr *** TTags.
Definition R_Produce_0 : ty := TArr (TStr *** TArr (TI32 *** TI16 *** TI64)).
Definition R_Produce_9 : ty := TCArr (TCStr *** TCArr R_PPart_9 *** TTags) *** TI32 *** TTags.
Definition R_Configs_0 : ty := TI32 *** TArr (TI16 *** TNStr *** TI8 *** TStr).
Definition R_CreatePartitions_0 : ty := TI32 *** TArr (TStr *** TI16 *** TNStr).
Definition R_CreatePartitions_2 : ty := TI32 *** TCArr (TCStr *** TI16 *** TCNStr *** TTags) *** TTags.
Definition R_CEntry : ty := TStr *** TNStr *** TBool *** TBool *** TBool.
Definition R_DescribeConfigs_0 : ty := TI32 *** TArr (TI16 *** TNStr *** TI8 *** TStr *** TArr R_CEntry).
Definition R_DescribeLogDirs_0 : ty :=
  TI32 *** TArr (TI16 *** TStr *** TArr (TStr *** TArr (TI32 *** TI64 *** TI64 *** TBool))).
Definition R_ElectLeaders_0 : ty := TI32 *** TArr (TStr *** TArr (TI32 *** TI16 *** TNStr)).
Definition R_LRPart : ty := TI32 *** TCArr TI32 *** TCArr TI32 *** TCArr TI32 *** TTags.
Definition R_ListReassignments_0 : ty := TI32 *** TI16 *** TCNStr *** TCArr (TCStr *** TCArr R_LRPart *** TTags) *** TTags.
Definition R_ARPart : ty := TI32 *** TI16 *** TCNStr *** TTags.
Definition R_AlterReassignments_0 : ty := TI32 *** TI16 *** TCNStr *** TCArr (TCStr *** TCArr R_ARPart *** TTags) *** TTags.
Definition R_CreateAcls_0 : ty := TI32 *** TArr (TI16 *** TNStr).
Definition R_CreateAcls_2 : ty := TI32 *** TCArr (TI16 *** TCNStr *** TTags) *** TTags.
Definition R_Matching_0 : ty := TI16 *** TNStr *** TI8 *** TStr *** TStr *** TStr *** TI8 *** TI8.
Definition R_Matching_1 : ty := TI16 *** TNStr *** TI8 *** TStr *** TI8 *** TStr *** TStr *** TI8 *** TI8.
Definition R_Matching_2 : ty := TI16 *** TCNStr *** TI8 *** TCStr *** TI8 *** TCStr *** TCStr *** TI8 *** TI8 *** TTags.
Definition R_DeleteAcls_0 : ty := TI32 *** TArr (TI16 *** TNStr *** TArr R_Matching_0).
Definition R_DeleteAcls_1 : ty := TI32 *** TArr (TI16 *** TNStr *** TArr R_Matching_1).
Definition R_DeleteAcls_2 : ty := TI32 *** TCArr (TI16 *** TCNStr *** TCArr R_Matching_2 *** TTags) *** TTags.
Definition R_Acl_0 : ty := TStr *** TStr *** TI8 *** TI8.
Definition R_Acl_2 : ty := TCStr *** TCStr *** TI8 *** TI8 *** TTags.
Definition R_DescribeAcls_0 : ty := TI32 *** TI16 *** TNStr *** TArr (TI8 *** TStr *** TArr R_Acl_0).
Definition R_DescribeAcls_1 : ty := TI32 *** TI16 *** TNStr *** TArr (TI8 *** TStr *** TI8 *** TArr R_Acl_0).
Definition R_DescribeAcls_2 : ty :=
  TI32 *** TI16 *** TCNStr *** TCArr (TI8 *** TCStr *** TI8 *** TCArr R_Acl_2 *** TTags) *** TTags.

(** Group protocol: the contents of a member's assignment, "consumer" protocol version 0 *)
Definition G_Assignment : ty := TI16 *** TArr (TStr *** TArr TI32) *** TNBytes.

(** ** What the client should see *)
(** a nullable string in a Go string *)
Definition or_empty (o : option bytes) : bytes := match o with Some s => s | None => [] end.
(** a signed field in an unsigned Go integer *)
Definition as_u (bits x : Z) : Z := x mod 2 ^ bits.

Definition v_broker (b : den R_Broker) : Z * (bytes * (Z * bytes)) :=
  let '(i, (h, (p, r))) := b in (i, (h, (p, or_empty r))).
Definition v_part_1 (p : den R_Part_1) : nopart :=
  let '(e, (i, (l, (rs, isr)))) := p in (e, (i, (l, (0, (rs, (isr, [])))))).
(** Partitions and topics are presented sorted. *)
Definition presented_parts (ps ps' : list nopart) : Prop :=
  Permutation ps ps' /\ StronglySorted (fun a b => fst (snd a) <= fst (snd b)) ps'.
Definition presented_topics (ts ts' : list (Z * (bytes * (bool * list nopart)))) : Prop :=
  exists ts1, Permutation ts ts1 /\
  StronglySorted (fun a b => bltb (fst (snd b)) (fst (snd a)) = false) ts1 /\
  Forall2 (fun a b => fst a = fst b /\ fst (snd a) = fst (snd b) /\ fst (snd (snd a)) = fst (snd (snd b)) /\
                      presented_parts (snd (snd (snd a))) (snd (snd (snd b)))) ts1 ts'.
Definition v_topic {A} (f : A -> nopart) (t : Z * (bytes * (bool * list A))) : Z * (bytes * (bool * list nopart)) :=
  let '(e, (n, (i, ps))) := t in (e, (n, (i, map f ps))).
Definition meta_codes {A} (f : A -> Z) (ts : list (Z * (bytes * (bool * list A)))) : list Z :=
  flat_map (fun t => fst t :: map f (snd (snd (snd t)))) ts.

Definition tp_codes {A} (f : A -> Z) (ts : list (bytes * list A)) : list Z := flat_map (fun t => map f (snd t)) ts.

(** A member as it should be shown, up to the metadata, which the client drops *)
Definition member_shown (m : den R_Member) (s : gmember) : Prop :=
  let '(id, (cl, (host, (md, raw)))) := m in
  exists md' v ps u, raw = enc G_Assignment (v, (ps, u)) /\
  s = (id, (cl, (host, (md', (raw, Some (mkMA v ps (or_empty u))))))).
Definition group_shown (g : Z * (bytes * (bytes * (bytes * (bytes * list (den R_Member))))))
                       (s : Z * (bytes * (bytes * (bytes * (bytes * list gmember))))) : Prop :=
  let '(ec, (id, (st, (pt, (p, ms))))) := g in
  exists ms', s = (ec, (id, (st, (pt, (p, ms'))))) /\ Forall2 member_shown ms ms'.

(** A layout, the values the client may show for a response, the error codes in it, and
    the responses to which the statements about the client are limited.  (The others are
    treated by the _refuted theorems.) *)
Record rspec := mkR {
  s_ty : ty;
  s_shown : Z -> list (Z * bytes) -> den s_ty -> response -> Prop;
  s_codes : den s_ty -> list Z;
  s_ok : list (Z * bytes) -> den s_ty -> Prop }.
Definition any {A} (ht : list (Z * bytes)) (x : A) : Prop := True.
(** an error comes with a message *)
Definition told (c : Z) (m : option bytes) : Prop := c <> 0 -> m <> None.

Definition P_Heartbeat := mkR TI16 (fun corr ht x r => r = RHeartbeat corr x) (fun x => [x]) any.
Definition P_LeaveGroup := mkR TI16 (fun corr ht x r => r = RLeaveGroup corr x) (fun x => [x]) any.
Definition P_ApiVersions := mkR R_ApiVersions_0
  (fun corr ht x r => r = RApiVersions corr (fst x) (map (fun a => (as_u 16 (fst a), (as_u 16 (fst (snd a)), as_u 16 (snd (snd a))))) (snd x)))
  (fun x => [fst x]) any.
Definition P_Metadata_1 := mkR R_Metadata_1
  (fun corr ht x r => let '(bs, (ctl, ts)) := x in
     exists ts', presented_topics (map (v_topic v_part_1) ts) ts' /\ r = RMetadata corr 0 (map v_broker bs) [] ctl ts')
  (fun x => meta_codes fst (snd (snd x))) any.
(** up to the cluster id; a response without cluster id is excepted *)
Definition P_Metadata_4 := mkR R_Metadata_4
  (fun corr ht x r => let '(th, (bs, (cl, (ctl, ts)))) := x in
     exists ts' c, presented_topics (map (v_topic v_part_1) ts) ts' /\ r = RMetadata corr th (map v_broker bs) c ctl ts')
  (fun x => meta_codes fst (snd (snd (snd (snd x))))) (fun ht x => fst (snd (snd x)) <> None).
Definition P_Metadata_7 := mkR R_Metadata_7
  (fun corr ht x r => let '(th, (bs, (cl, (ctl, ts)))) := x in
     exists ts' c, presented_topics (map (v_topic (fun p => p)) ts) ts' /\ r = RMetadata corr th (map v_broker bs) c ctl ts')
  (fun x => meta_codes fst (snd (snd (snd (snd x))))) (fun ht x => fst (snd (snd x)) <> None).
Definition P_FindCoordinator := mkR R_FindCoordinator_0
  (fun corr ht x r => let '(e, (n, (h, p))) := x in r = RFindCoordinator corr e n h p) (fun x => [fst x]) any.
Definition P_JoinGroup := mkR R_JoinGroup_0
  (fun corr ht x r => let '(e, (g, (p, (l, (m, ms))))) := x in r = RJoinGroup corr e g p l m ms) (fun x => [fst x]) any.
Definition P_SyncGroup := mkR R_SyncGroup_0 (fun corr ht x r => r = RSyncGroup corr (fst x) (snd x)) (fun x => [fst x]) any.
Definition P_ListOffsets_0 := mkR R_ListOffsets_0
  (fun corr ht x r => r = ROffsets corr 0 (map (fun t => (fst t, map (fun p => (fst p, (fst (snd p), (snd (snd p), (0, 0))))) (snd t))) x))
  (tp_codes (fun p => fst (snd p))) (fun ht x => NoDup (map fst x)).
(** up to ThrottleTimeMs, which this version does not have *)
Definition P_ListOffsets_1 := mkR R_ListOffsets_1
  (fun corr ht x r => exists th, r = ROffsets corr th (map (fun t => (fst t, map (fun p => (fst p, (fst (snd p), ([], snd (snd p))))) (snd t))) x))
  (tp_codes (fun p => fst (snd p))) (fun ht x => NoDup (map fst x)).
Definition P_OffsetCommit := mkR R_OffsetCommit_0
  (fun corr ht x r => r = ROffsetCommit corr (map (fun t => (fst t, map (fun p => (as_u 32 (fst p), snd p)) (snd t))) x))
  (tp_codes snd) any.
Definition P_OffsetFetch := mkR R_OffsetFetch_0
  (fun corr ht x r => r = ROffsetFetch corr (map (fun t => (fst t, map (fun p => (fst p, (fst (snd p), (or_empty (fst (snd (snd p))), snd (snd (snd p)))))) (snd t))) x))
  (tp_codes (fun p => snd (snd (snd p)))) (fun ht x => Forall (fun t => Forall (fun p => fst (snd (snd p)) <> None) (snd t)) x).
Definition P_ListGroups_0 := mkR R_ListGroups_0
  (fun corr ht x r => r = RListGroups corr [] 0 0 (Some (map (fun g => (fst g, (snd g, ([], ([], []))))) (snd x))) [])
  (fun x => [fst x]) (fun ht x => fst x = 0).
Definition P_ListGroups_1 := mkR R_ListGroups_1
  (fun corr ht x r => let '(th, (e, gs)) := x in r = RListGroups corr [] th 0 (Some (map (fun g => (fst g, (snd g, ([], ([], []))))) gs)) [])
  (fun x => [fst (snd x)]) (fun ht x => fst (snd x) = 0).
Definition P_ListGroups_3 := mkR R_ListGroups_3
  (fun corr ht x r => let '(th, (e, (gs, t))) := x in
     r = RListGroups corr ht th 0 (Some (map (fun g => (fst g, (fst (snd g), ([], ([], snd (snd g)))))) gs)) t)
  (fun x => [fst (snd x)]) (fun ht x => fst (snd x) = 0).
Definition P_ListGroups_4 := mkR R_ListGroups_4
  (fun corr ht x r => let '(th, (e, (gs, t))) := x in
     r = RListGroups corr ht th 0 (Some (map (fun g => (fst g, (fst (snd g), (fst (snd (snd g)), ([], snd (snd (snd g))))))) gs)) t)
  (fun x => [fst (snd x)]) (fun ht x => fst (snd x) = 0).
Definition P_ListGroups_5 := mkR R_ListGroups_5
  (fun corr ht x r => let '(th, (e, (gs, t))) := x in r = RListGroups corr ht th 0 (Some gs) t)
  (fun x => [fst (snd x)]) (fun ht x => fst (snd x) = 0).
(** every member has an assignment (the group is not rebalancing) *)
Definition P_DescribeGroups := mkR R_DescribeGroups_0
  (fun corr ht x r => exists gs, r = RDescribeGroups corr gs /\ Forall2 group_shown x gs)
  (map fst) (fun ht x => Forall (fun g => Forall (fun m => exists a, wf G_Assignment a /\ snd (snd (snd (snd m))) = enc G_Assignment a) (snd (snd (snd (snd (snd g)))))) x).
Definition P_DeleteGroups := mkR R_DeleteGroups_0 (fun corr ht x r => r = RDeleteGroups corr (fst x) (snd x)) (fun x => map snd (snd x)) any.
Definition P_CreateTopics := mkR R_Topics_0 (fun corr ht x r => r = RCreateTopics corr x) (map snd) any.
Definition P_DeleteTopics := mkR R_Topics_0 (fun corr ht x r => r = RDeleteTopics corr x) (map snd) any.
Definition P_SaslHandshake := mkR R_SaslHandshake_0 (fun corr ht x r => r = RSaslHandshake corr 0 (snd x))
  (fun x => [fst x]) (fun ht x => fst x = 0 /\ zlen (snd x) < 2 ^ 16).
Definition P_SaslAuthenticate := mkR R_SaslAuthenticate_0
  (fun corr ht x r => let '(e, (m, b)) := x in r = RSaslAuthenticate corr e (or_empty m) b) (fun x => [fst x]) any.
Definition v_ppart_9 (p : den R_PPart_9) : Z * (Z * (Z * (Z * (Z * (list (Z * option bytes) * option bytes))))) :=
  let '(i, (e, (b, (t, (s, (es, (m, tags))))))) := p in (i, (e, (b, (t, (s, (map (fun x => (fst x, fst (snd x))) es, m)))))).
(** the answer to a request for one partition *)
Definition P_Produce_9 := mkR R_Produce_9
  (fun corr ht x r => r = RProduce corr (map (fun t => (fst t, map v_ppart_9 (fst (snd t)))) (fst x)))
  (fun x => flat_map (fun t : bytes * (list (den R_PPart_9) * list (Z * bytes)) => map (fun p => fst (snd p)) (fst (snd t))) (fst x))
  (fun ht x => exists t p tags, fst x = [(t, ([p], tags))] /\ 0 <= fst p < 2 ^ 24).
Definition P_AlterConfigs := mkR R_Configs_0
  (fun corr ht x r => r = RAlterConfigs corr (as_u 32 (fst x)) (map (fun a => (fst a, (or_empty (fst (snd a)), (as_u 8 (fst (snd (snd a))), snd (snd (snd a)))))) (snd x)))
  (fun x => map fst (snd x)) (fun ht x => zlen (snd x) <= 1 /\ Forall (fun a => fst (snd a) <> None) (snd x)).
Definition P_IncrementalAlterConfigs := mkR R_Configs_0
  (fun corr ht x r => r = RIncrementalAlterConfigs corr (as_u 32 (fst x)) (map (fun a => (fst a, (or_empty (fst (snd a)), (as_u 8 (fst (snd (snd a))), snd (snd (snd a)))))) (snd x)))
  (fun x => map fst (snd x)) (fun ht x => zlen (snd x) <= 1).
Definition P_CreatePartitions_0 := mkR R_CreatePartitions_0
  (fun corr ht x r => r = RCreatePartitions corr (fst x) (snd x))
  (fun x => map (fun a => fst (snd a)) (snd x)) (fun ht x => zlen (snd x) <= 1 /\ Forall (fun a => told (fst (snd a)) (snd (snd a))) (snd x)).
Definition P_CreatePartitions_2 := mkR R_CreatePartitions_2
  (fun corr ht x r => r = RCreatePartitions corr (fst x) (map (fun a => (fst a, (fst (snd a), fst (snd (snd a))))) (fst (snd x))))
  (fun x => map (fun a => fst (snd a)) (fst (snd x)))
  (fun ht x => ht = [] /\ Forall (fun a => told (fst (snd a)) (fst (snd (snd a))) /\ snd (snd (snd a)) = []) (fst (snd x))).
Definition P_DescribeConfigs := mkR R_DescribeConfigs_0
  (fun corr ht x r => r = RDescribeConfigs corr (as_u 32 (fst x))
     (map (fun a => let '(e, (m, (t, (n, es)))) := a in
                    (e, (or_empty m, (as_u 8 t, (n, map (fun c => (fst c, (or_empty (fst (snd c)), snd (snd c)))) es))))) (snd x)))
  (fun x => map fst (snd x)) (fun ht x => Forall (fun a => fst a = 0 -> or_empty (fst (snd a)) = []) (snd x)).
(** up to the correlation id, of which the client stores the length of the response *)
Definition P_DescribeLogDirs := mkR R_DescribeLogDirs_0
  (fun corr ht x r => exists c, r = RDescribeLogDirs c (fst x) (snd x)) (fun x => map fst (snd x)) any.
Definition P_ElectLeaders := mkR R_ElectLeaders_0
  (fun corr ht x r => r = RElectLeaders corr (fst x) (map (fun t => (fst t, map (fun p => (fst p, (fst (snd p), or_empty (snd (snd p))))) (snd t))) (snd x)))
  (fun x => tp_codes (fun p => fst (snd p)) (snd x)) any.
Definition P_ListReassignments := mkR R_ListReassignments_0
  (fun corr ht x r => let '(th, (e, (m, (ts, tags)))) := x in
     r = RListReassignments corr 0 0 m (map (fun t => (fst t, map (fun p => let '(i, (a, (b, (c, pt)))) := p in (i, (a, (b, c)))) (fst (snd t)))) ts))
  (fun x => [fst (snd x)])
  (fun ht x => let '(th, (e, (m, (ts, tags)))) := x in
     ht = [] /\ th = 0 /\ e = 0 /\ Forall (fun t : bytes * (list (den R_LRPart) * list (Z * bytes)) => snd (snd t) = [] /\ Forall (fun p : den R_LRPart => snd (snd (snd (snd p))) = []) (fst (snd t))) ts).
Definition P_AlterReassignments := mkR R_AlterReassignments_0
  (fun corr ht x r => let '(th, (e, (m, (ts, tags)))) := x in r = RAlterReassignments corr ht th e m (Some ts) tags)
  (fun x => let '(th, (e, (m, (ts, tags)))) := x in
     e :: flat_map (fun t : bytes * (list (den R_ARPart) * list (Z * bytes)) => map (fun p => fst (snd p)) (fst (snd t))) ts)
  (fun ht x => let '(th, (e, (m, (ts, tags)))) := x in
     told e m /\ Forall (fun t : bytes * (list (den R_ARPart) * list (Z * bytes)) => Forall (fun p : den R_ARPart => told (fst (snd p)) (fst (snd (snd p)))) (fst (snd t))) ts).
Definition acl_codes {A} (f : A -> Z) (rs : list (Z * list A)) : list Z := flat_map (fun r => fst r :: map f (snd r)) rs.
Definition P_DeleteAcls_0 := mkR R_DeleteAcls_0
  (fun corr ht x r => r = RDeleteAcls corr [] (fst x)
     (map (fun a => let '(e, (m, ms)) := a in (e, (m, (map (fun b => let '(e, (m, (t, (n, (pr, (ho, (op, pe))))))) := b in
        (e, (m, (as_u 8 t, (n, (0, (pr, (ho, (as_u 8 op, (as_u 8 pe, [])))))))))) ms, [])))) (snd x)) [])
  (fun x => acl_codes fst (map (fun a => (fst a, snd (snd a))) (snd x)))
  (fun ht x => zlen (snd x) <= 1 /\ Forall (fun a => told (fst a) (fst (snd a)) /\ Forall (fun b => told (fst b) (fst (snd b))) (snd (snd a))) (snd x)).
Definition P_DeleteAcls_1 := mkR R_DeleteAcls_1
  (fun corr ht x r => r = RDeleteAcls corr [] (fst x)
     (map (fun a => let '(e, (m, ms)) := a in (e, (m, (map (fun b => let '(e, (m, (t, (n, (pt, (pr, (ho, (op, pe)))))))) := b in
        (e, (m, (as_u 8 t, (n, (as_u 8 pt, (pr, (ho, (as_u 8 op, (as_u 8 pe, [])))))))))) ms, [])))) (snd x)) [])
  (fun x => acl_codes fst (map (fun a => (fst a, snd (snd a))) (snd x)))
  (fun ht x => zlen (snd x) <= 1 /\ Forall (fun a => told (fst a) (fst (snd a)) /\ Forall (fun b => told (fst b) (fst (snd b))) (snd (snd a))) (snd x)).
Definition P_DeleteAcls_2 := mkR R_DeleteAcls_2
  (fun corr ht x r => let '(th, (rs, tags)) := x in
     r = RDeleteAcls corr ht th
     (map (fun a : Z * (option bytes * (list (den R_Matching_2) * list (Z * bytes))) =>
        let '(e, (m, (ms, t))) := a in (e, (m, (map (fun b : den R_Matching_2 => let '(e, (m, (ty, (n, (pt, (pr, (ho, (op, (pe, t))))))))) := b in
        (e, (m, (as_u 8 ty, (n, (as_u 8 pt, (pr, (ho, (as_u 8 op, (as_u 8 pe, t)))))))))) ms, t)))) rs) tags)
  (fun x => acl_codes fst (map (fun a => (fst a, fst (snd (snd a)))) (fst (snd x))))
  (fun ht x => Forall (fun a => told (fst a) (fst (snd a)) /\ Forall (fun b => told (fst b) (fst (snd b))) (fst (snd (snd a)))) (fst (snd x))).
Definition P_DescribeAcls_0 := mkR R_DescribeAcls_0
  (fun corr ht x r => let '(th, (e, (m, rs))) := x in
     r = RDescribeAcls corr th e m (Some (map (fun a => let '(t, (n, acls)) := a in
       (as_u 8 t, (n, (0, (map (fun b => let '(pr, (ho, (op, pe))) := b in (pr, (ho, (as_u 8 op, (as_u 8 pe, []))))) acls, []))))) rs)) [])
  (fun x => [fst (snd x)]) any.
Definition P_DescribeAcls_2 := mkR R_DescribeAcls_2
  (fun corr ht x r => let '(th, (e, (m, (rs, tags)))) := x in
     r = RDescribeAcls corr th e m (Some (map (fun a : Z * (bytes * (Z * (list (den R_Acl_2) * list (Z * bytes)))) => let '(ty, (n, (pt, (acls, t)))) := a in
       (as_u 8 ty, (n, (as_u 8 pt, (map (fun b : den R_Acl_2 => let '(pr, (ho, (op, (pe, t)))) := b in (pr, (ho, (as_u 8 op, (as_u 8 pe, t))))) acls, t))))) rs)) tags)
  (fun x => [fst (snd x)]) any.

(** The APIs and versions the client asks for (request.go:46-59).  Not in the table, because
    no response is decoded as it should be: Produce 0, CreateAcls, DescribeAcls 1. *)
Definition response_spec (key v : Z) : option rspec :=
  match key, v with
  | 12, 0 => Some P_Heartbeat | 13, 0 => Some P_LeaveGroup | 18, 0 => Some P_ApiVersions
  | 3, 1 => Some P_Metadata_1 | 3, 4 => Some P_Metadata_4 | 3, 7 => Some P_Metadata_7
  | 10, 0 => Some P_FindCoordinator | 11, 0 => Some P_JoinGroup | 14, 0 => Some P_SyncGroup
  | 2, 0 => Some P_ListOffsets_0 | 2, 1 => Some P_ListOffsets_1
  | 8, 0 => Some P_OffsetCommit | 8, 2 => Some P_OffsetCommit | 9, 0 => Some P_OffsetFetch | 9, 1 => Some P_OffsetFetch
  | 16, 0 => Some P_ListGroups_0 | 16, 1 => Some P_ListGroups_1 | 16, 2 => Some P_ListGroups_1
  | 16, 3 => Some P_ListGroups_3 | 16, 4 => Some P_ListGroups_4 | 16, 5 => Some P_ListGroups_5
  | 15, 0 => Some P_DescribeGroups | 42, 0 => Some P_DeleteGroups | 19, 0 => Some P_CreateTopics | 20, 0 => Some P_DeleteTopics
  | 17, 0 => Some P_SaslHandshake | 17, 1 => Some P_SaslHandshake | 36, 0 => Some P_SaslAuthenticate
  | 0, 9 => Some P_Produce_9 | 33, 0 => Some P_AlterConfigs | 44, 0 => Some P_IncrementalAlterConfigs
  | 37, 0 => Some P_CreatePartitions_0 | 37, 2 => Some P_CreatePartitions_2 | 32, 0 => Some P_DescribeConfigs
  | 35, 0 => Some P_DescribeLogDirs | 43, 0 => Some P_ElectLeaders | 46, 0 => Some P_ListReassignments | 45, 0 => Some P_AlterReassignments
  | 31, 0 => Some P_DeleteAcls_0 | 31, 1 => Some P_DeleteAcls_1 | 31, 2 => Some P_DeleteAcls_2 | 31, 3 => Some P_DeleteAcls_2
  | 29, 0 => Some P_DescribeAcls_0 | 29, 2 => Some P_DescribeAcls_2
  | _, _ => None
  end.

(** ** Errors *)
(** the Kafka error code an error carries *)
Fixpoint err_code (e : err) : option Z :=
  match e with EKafka c | EUnknownCode c => Some c | EWrap e' => err_code e' | _ => None end.
