(** Properties of the HTTP interface: C122-C124. *)
From Coq Require Import String Ascii.
From Verif Require Import Base BaseFacts Text TextFacts Http Acl Requests Tools ToolsSpec Calls Commands HttpApi HttpApiSpec HttpApiFacts.

(** ** C122.  What a request to the HTTP interface says is what the cluster is asked.
    The fields of the objects and the parameters of the query come in any order, further ones
    are ignored, and everything is escaped as RFC 3986 has it. *)
Theorem C122_asks_partial : forall o servers q b, op_typed o -> op_served o b -> query_ok q ->
  given q "bootstrap" [servers] -> op_query o q -> op_body o b ->
  serve (op_method o) (url (op_path o) q) b = Asks servers 200 (op_wants o).
Proof. exact op_served_asks. Qed.
Print Assumptions C122_asks_partial.
Example C122_ex : let q := [(lit "timeout", lit "5000"); (lit "x", lit "&="); (lit "bootstrap", lit "a:9092,b:9092")] in
  let b := BJson (JArr [JObj [(lit "Replicas", JArr [JInt 1; JInt 2]); (lit "note", JNull); (lit "topic", JStr (lit "t/1")); (lit "partition", JInt 3)]]) in
  url [lit "alter-partition-reassignments"] q = lit "/alter-partition-reassignments?timeout=5000&x=%26%3D&bootstrap=a%3A9092%2Cb%3A9092" /\
  serve POST (url [lit "alter-partition-reassignments"] q) b =
    Asks (lit "a:9092,b:9092") 200 (ACall TheController (CKAlterReassignments 5000 [(lit "t/1", (3, [1; 2]))])).
Proof. vm_compute. split; reflexivity. Qed.
Example C122_premises_ex : let o := OpElect 5000 [(lit "t/1", 3)] in
  let q := [(lit "timeout", decimal 5000); (lit "x", lit "&="); (lit "bootstrap", lit "a:9092")] in
  let b := BJson (JArr [JObj [(lit "partition", JInt 3); (lit "note", JNull); (lit "topic", JStr (lit "t/1"))]]) in
  op_typed o /\ op_served o b /\ query_ok q /\ given q "bootstrap" [lit "a:9092"] /\ op_query o q /\ op_body o b.
Proof.
  cbv zeta. split; [|split; [|split; [|split; [|split]]]].
  - split; [constructor; [apply lit_ok|constructor]|]. split; [unfold int32; lia|]. repeat constructor; cbn; lia.
  - split; [|exact I]. constructor; [split; [discriminate|apply plain_lit; reflexivity]|constructor].
  - constructor; [split; [apply lit_ok|repeat constructor; unfold byte_ok; cbn; lia]|]. constructor; [split; apply lit_ok|]. constructor; [split; apply lit_ok|constructor].
  - reflexivity.
  - reflexivity.
  - eexists. split; [reflexivity|]. eexists. split; [reflexivity|]. constructor; [|constructor].
    exists [(lit "partition", JInt 3); (lit "note", JNull); (lit "topic", JStr (lit "t/1"))], [(lit "note", JNull)].
    split; [reflexivity|]. split.
    + cbn [map fst snd app]. apply Permutation_sym. etransitivity; [apply perm_skip; apply perm_swap|]. etransitivity; [apply perm_swap|]. apply perm_skip. reflexivity.
    + repeat constructor; vm_compute; discriminate.
Qed.
(** the old path of the topic's configuration leads to the new one *)
Theorem C122_redirect_partial : forall topic q b servers, topic <> [] -> Forall (fun c => unreserved c = true) topic -> query_ok q ->
  given q "bootstrap" [servers] ->
  exists loc, serve GET (url [lit "topic"; topic; lit "configs"] q) b = Goto loc /\
    serve GET loc b = Asks servers 200 (op_wants (OpTopicConfigs topic)).
Proof. exact redirect_configs. Qed.
Print Assumptions C122_redirect_partial.
Example C122_redirect_ex : serve GET (lit "/topic/t.1/configs?bootstrap=a%3A1") BEmpty = Goto (lit "/configs/topic/t.1?bootstrap=a%3A1") /\
  serve GET (lit "/configs/topic/t.1?bootstrap=a%3A1") BEmpty = Asks (lit "a:1") 200 (ACall TheController (CKDescribeConfigs 2 (lit "t.1") None)).
Proof. vm_compute. split; reflexivity. Qed.
(** only deleting ACLs can crash the handler *)
Theorem C122_crash_partial : forall m target b, serve m target b = Crashes -> m = DELETE.
Proof. exact crash_delete. Qed.
Print Assumptions C122_crash_partial.

(** C122 is false: the value of a setting that has a slash in it (a list of directories, say),
    or none, cannot be set, however it is escaped. *)
Theorem C122_value_refuted : exists v w q, bytes_ok v /\ v <> [] /\ w = [] /\ Forall (fun x =>
  let o := OpSetConfig (lit "t") (lit "follower.replication.throttled.replicas") x in
  op_typed o /\ given q "bootstrap" [lit "a:1"] /\ op_query o q /\ op_body o BEmpty /\ serve (op_method o) (url (op_path o) q) BEmpty = NoRoute) [v; w].
Proof.
  exists (lit "a/b"), [], [(lit "bootstrap", lit "a:1")]. split; [apply lit_ok|]. split; [discriminate|]. split; [reflexivity|].
  repeat constructor; cbn; try apply lit_ok; try (unfold byte_ok; lia); try tauto.
Qed.
Print Assumptions C122_value_refuted.
(** Offsets are refused without a time, which the interface describes as optional (end by default). *)
Theorem C122_offsets_refuted : exists t q b, let o := OpOffsets t None in
  op_typed o /\ given q "bootstrap" [lit "a:1"] /\ op_query o q /\ op_body o b /\ serve (op_method o) (url (op_path o) q) b = Refused 400.
Proof.
  exists (lit "t"), [(lit "bootstrap", lit "a:1")], BEmpty. cbv zeta.
  repeat split; cbn; repeat constructor; try apply lit_ok; try (unfold byte_ok; lia).
Qed.
Print Assumptions C122_offsets_refuted.
(** Listing all reassignments without a body asks the controller, but the answer has status 400. *)
Theorem C122_listing_refuted : exists q, let o := OpReassignments None [] in
  op_typed o /\ given q "bootstrap" [lit "a:1"] /\ op_query o q /\ op_body o BEmpty /\
  serve (op_method o) (url (op_path o) q) BEmpty = Asks (lit "a:1") 400 (op_wants o).
Proof.
  exists [(lit "bootstrap", lit "a:1")]. cbv zeta.
  repeat split; cbn; repeat constructor; try apply lit_ok; try (unfold byte_ok; lia).
Qed.
Print Assumptions C122_listing_refuted.
(** A member of an object that is null says as much as one that is missing. *)
Definition nonnull (l : list (bytes * json)) : list (bytes * json) := List.filter (fun kv => match snd kv with JNull => false | _ => true end) l.
Lemma nonnull_members {A} (set : bytes -> json -> A -> option A) : (forall k a, set k JNull a = Some a) ->
  forall l a, jmembers set (nonnull l) a = jmembers set l a.
Proof.
  intros H. induction l as [|[k v] l IH]; intros a; [reflexivity|]. cbn [nonnull List.filter snd jmembers].
  destruct v; cbn [jmembers]; fold (nonnull l); try (destruct (set k _ a); [apply IH|reflexivity]). rewrite H. apply IH.
Qed.
Lemma nonnull_list {A} (set : bytes -> json -> A -> option A) zero : (forall k a, set k JNull a = Some a) ->
  forall ls, all_of (jstruct set zero) (map (fun l => JObj (nonnull l)) ls) = all_of (jstruct set zero) (map JObj ls).
Proof.
  intros H. induction ls as [|l ls IH]; [reflexivity|]. cbn [map all_of jstruct]. rewrite (nonnull_members set H), IH. reflexivity.
Qed.
Lemma creation_null k a : set_creation k JNull a = Some a.
Proof.
  destruct a as (a & b & c & d & e & f & g). unfold set_creation.
  repeat match goal with |- context [same_key k ?x] => destruct (same_key k x); [reflexivity|] end. reflexivity.
Qed.
Lemma tp_null k a : set_tp k JNull a = Some a.
Proof. destruct a. unfold set_tp. repeat match goal with |- context [same_key k ?x] => destruct (same_key k x); [reflexivity|] end. reflexivity. Qed.
Lemma count_null k a : set_count k JNull a = Some a.
Proof. destruct a as (a & b & c). unfold set_count. repeat match goal with |- context [same_key k ?x] => destruct (same_key k x); [reflexivity|] end. reflexivity. Qed.
Theorem C122_null : forall q,
  (forall ls, serve POST (lit "/create-acls?" ++ q) (BJson (JArr (map JObj ls))) =
              serve POST (lit "/create-acls?" ++ q) (BJson (JArr (map (fun l => JObj (nonnull l)) ls)))) /\
  (forall ls, serve POST (lit "/elect-leaders?" ++ q) (BJson (JArr (map JObj ls))) =
              serve POST (lit "/elect-leaders?" ++ q) (BJson (JArr (map (fun l => JObj (nonnull l)) ls)))) /\
  (forall l, serve POST (lit "/create-partitions?" ++ q) (BJson (JObj l)) =
             serve POST (lit "/create-partitions?" ++ q) (BJson (JObj (nonnull l)))).
Proof.
  intros q. split; [|split]; [intros ls|intros ls|intros l].
  - change (handle_at RtCreateAcls [] q (BJson (JArr (map JObj ls))) = handle_at RtCreateAcls [] q (BJson (JArr (map (fun l => JObj (nonnull l)) ls)))).
    unfold handle_at. cbn [bind jlist]. rewrite (nonnull_list set_creation no_creation creation_null). reflexivity.
  - change (handle_at RtElect [] q (BJson (JArr (map JObj ls))) = handle_at RtElect [] q (BJson (JArr (map (fun l => JObj (nonnull l)) ls)))).
    unfold handle_at. cbn [bind jlist]. rewrite (nonnull_list set_tp ([], 0) tp_null). reflexivity.
  - change (handle_at RtPartitions [] q (BJson (JObj l)) = handle_at RtPartitions [] q (BJson (JObj (nonnull l)))).
    unfold handle_at. cbn [bind jstruct]. rewrite (nonnull_members set_count count_null). reflexivity.
Qed.
Print Assumptions C122_null.
Example C122_null_ex : serve POST (lit "/elect-leaders?bootstrap=a:1&timeout=5") (BJson (JArr (map JObj [[(lit "topic", JStr (lit "t")); (lit "partition", JNull)]]))) =
  Asks (lit "a:1") 200 (ACall TheController (CKElectLeaders 5 [(lit "t", 0)])).
Proof. vm_compute. reflexivity. Qed.
(** Bodies that are missing, are no JSON or are not of the kind described are refused: nothing
    is asked. *)
Theorem C122_refuses : forall q path b,
  In path ["/alter-partition-reassignments?"; "/elect-leaders?"; "/create-partitions?"; "/describe-logdirs?"; "/describe-acls?"; "/create-acls?"]%string ->
  match b with BEmpty | BBad | BJson (JStr _ | JInt _ | JNum | JBool _) => True | _ => False end ->
  serve POST (lit path ++ q) b = Refused 400 /\
  serve DELETE (lit "/delete-acls?" ++ q) b = Refused 400 /\
  (b <> BEmpty -> serve POST (lit "/list-partition-reassignments?" ++ q) b = Refused 400).
Proof.
  intros q path b Hp Hb. split; [|split].
  - cbn [In] in Hp. destruct Hp as [<-|[<-|[<-|[<-|[<-|[<-|[]]]]]]].
    + change (handle_at RtReassign [] q b = Refused 400). unfold handle_at.
      destruct b as [| |[]]; try contradiction; cbn [bind jlist]; destruct (atoi _); reflexivity.
    + change (handle_at RtElect [] q b = Refused 400). destruct b as [| |[]]; try contradiction; reflexivity.
    + change (handle_at RtPartitions [] q b = Refused 400). destruct b as [| |[]]; try contradiction; reflexivity.
    + change (handle_at RtDescribeLogdirs [] q b = Refused 400). destruct b as [| |[]]; try contradiction; reflexivity.
    + change (handle_at RtDescribeAcls [] q b = Refused 400). destruct b as [| |[]]; try contradiction; reflexivity.
    + change (handle_at RtCreateAcls [] q b = Refused 400). destruct b as [| |[]]; try contradiction; reflexivity.
  - change (handle_at RtDeleteAcls [] q b = Refused 400). destruct b as [| |[]]; try contradiction; reflexivity.
  - intros Ne. change (handle_at RtListing [] q b = Refused 400). unfold handle_at.
    destruct (match query (lit "timeout") (parse_query q) with [] => Some 30000 | _ => _ end); [|reflexivity].
    destruct b as [| |[]]; try contradiction; try congruence; reflexivity.
Qed.
Print Assumptions C122_refuses.
(** Members that are missing are not: an ACL without any is sent, with zeros for all of them. *)
Theorem C122_incomplete_refuted : exists q, serve POST (lit "/create-acls?" ++ q) (BJson (JArr [JObj []])) =
  Asks (lit "a:1") 200 (ACall TheController (CKCreateAcls [(0, ([], (0, ([], ([], (0, 0))))))])).
Proof. exists (lit "bootstrap=a:1"). vm_compute. reflexivity. Qed.
Print Assumptions C122_incomplete_refuted.
(** The same holds for filters; and null is an object without members, or a list without elements. *)
Theorem C122_empty : forall q,
  (forall b, b = JNull \/ b = JObj [] ->
     serve POST (lit "/describe-acls?" ++ q) (BJson b) = Asks (query (lit "bootstrap") (parse_query q)) 200 (ACall TheController (CKDescribeAcls 0 None 0 None None 0 0)) /\
     serve POST (lit "/create-partitions?" ++ q) (BJson b) = Asks (query (lit "bootstrap") (parse_query q)) 200 (ACall TheController (CKCreatePartitions [] 0 None 0 false)) /\
     serve POST (lit "/describe-logdirs?" ++ q) (BJson b) = Asks (query (lit "bootstrap") (parse_query q)) 200 (ALogDirs [])) /\
  (forall b, b = JNull \/ b = JArr [] ->
     serve POST (lit "/create-acls?" ++ q) (BJson b) = Asks (query (lit "bootstrap") (parse_query q)) 200 (ACall TheController (CKCreateAcls [])) /\
     serve DELETE (lit "/delete-acls?" ++ q) (BJson b) = Asks (query (lit "bootstrap") (parse_query q)) 200 (ACall TheController (CKDeleteAcls []))) /\
  serve DELETE (lit "/delete-acls?" ++ q) (BJson (JArr [JObj []])) =
    Asks (query (lit "bootstrap") (parse_query q)) 200 (ACall TheController (CKDeleteAcls [(0, (None, (0, (None, (None, (0, 0))))))])).
Proof. intros q. split; [|split]; [intros b [-> | ->]..|]; repeat split; reflexivity. Qed.
Print Assumptions C122_empty.
Example C122_empty_ex : serve POST (lit "/describe-acls?bootstrap=a:1") (BJson JNull) = Asks (lit "a:1") 200 (ACall TheController (CKDescribeAcls 0 None 0 None None 0 0)).
Proof. vm_compute. reflexivity. Qed.
(** A broker whose number is none is refused with status 500, though the fault is in the request. *)
Theorem C122_broker_refuted : exists target, serve GET target BEmpty = Refused 500.
Proof. exists (lit "/configs/broker/x?bootstrap=a:1"). vm_compute. reflexivity. Qed.
Print Assumptions C122_broker_refuted.
(** An ACL filter that is null crashes the handler. *)
Theorem C122_null_refuted : exists target b, serve DELETE target b = Crashes.
Proof. exists (lit "/delete-acls?bootstrap=a:1"), (BJson (JArr [JNull])). vm_compute. reflexivity. Qed.
Print Assumptions C122_null_refuted.
(** A timeout that does not fit is not refused: another one is sent. *)
Theorem C122_timeout_refuted : exists q b ms l, given q "timeout" [decimal ms] /\ 0 < ms /\ b = BJson (JArr [JObj [(lit "topic", JStr (lit "t"))]]) /\
  serve POST (url [lit "elect-leaders"] q) b = Asks (lit "a:1") 200 (ACall TheController (CKElectLeaders (-1294967296) l)).
Proof.
  exists [(lit "bootstrap", lit "a:1"); (lit "timeout", lit "3000000000")]. eexists. exists 3000000000. eexists.
  split; [reflexivity|]. split; [lia|]. split; [reflexivity|]. vm_compute. reflexivity.
Qed.
Print Assumptions C122_timeout_refuted.
(** The number of partitions is described as the number of partitions to add; it is sent as
    the number of partitions the topic is to have (create-partitions.go:19 says so of count;
    Kafka takes the total). *)
Theorem C122_count_refuted : exists before added t ms b, 0 < before /\ 0 < added /\
  op_body (OpPartitions t added ms) b /\
  exists s, serve POST (lit "/create-partitions?bootstrap=a:1") b = Asks s 200 (ACall TheController (CKCreatePartitions t added None ms false)) /\
    added <> before + added.
Proof.
  exists 4, 2, (lit "t"), 100, (BJson (JObj [(lit "topic", JStr (lit "t")); (lit "count", JInt 2); (lit "timeout", JInt 100)])).
  split; [lia|]. split; [lia|]. split.
  - eexists. split; [reflexivity|]. eexists. exists []. split; [reflexivity|]. split; [reflexivity|constructor].
  - exists (lit "a:1"). split; [vm_compute; reflexivity|lia].
Qed.
Print Assumptions C122_count_refuted.

(** ** C123.  GET, HEAD and OPTIONS, which may be open to everyone, only read. *)
Theorem C123_reads_partial : forall m target b s st a, serve m target b = Asks s st a -> m = GET \/ m = HEAD \/ m = OPTIONS -> reads a.
Proof. intros m target b s st a H M. apply (get_reads m target b s st a H). destruct M as [-> | [-> | ->]]; reflexivity. Qed.
Print Assumptions C123_reads_partial.
Example C123_ex : reads (ACall AnyBroker (CKMetadata None)) /\ ~ reads (ACall TheController (CKAlterConfig 2 (lit "t") (lit "n") (lit "v"))) /\
  serve POST (lit "/topic/t/config/n/v?bootstrap=a:1") BEmpty = Asks (lit "a:1") 200 (ACall TheController (CKAlterConfig 2 (lit "t") (lit "n") (lit "v"))) /\
  serve GET (lit "/topic/t/config/n/v?bootstrap=a:1") BEmpty = NoRoute.
Proof. cbn [reads changes]. vm_compute. repeat split; tauto. Qed.
(** Yet looking at the metadata of a topic that does not exist may create it: the request a
    stranger's GET leads to names the topic and allows its creation. *)
Theorem C123_metadata_refuted : forall user pass topic, bytes_ok topic -> exists target client,
  BasicAuth user pass true GET [] = true /\
  serve GET target BEmpty = Asks (lit "a:1") 200 (ACall AnyBroker (CKMetadata (Some [topic]))) /\
  option_map snd (call_request (fun l => l) client (CKMetadata (Some [topic]))) = Some (QMetadata (Some [topic]) true).
Proof.
  intros user pass topic B. exists (url [lit "metadata"] [(lit "topics", topic); (lit "bootstrap", lit "a:1")]), (lit "healer").
  split; [reflexivity|]. split; [|reflexivity].
  refine (op_served_asks (OpMetadata [topic]) (lit "a:1") _ BEmpty _ _ _ _ _ I).
  - split; [repeat constructor; cbn; unfold byte_ok; lia|exact I].
  - split; [|exact I]. constructor; [split; [discriminate|apply plain_lit; reflexivity]|constructor].
  - repeat constructor; cbn; try exact B; unfold byte_ok; lia.
  - reflexivity.
  - reflexivity.
Qed.
Print Assumptions C123_metadata_refuted.

(** ** C124.  The lag and the offsets shown over HTTP. *)
Theorem C124_lag_partial : forall rs md cs rows, http_pending (Ok rs) (Ok md) (Ok cs) = Ok rows ->
  map fst rows = flat_map snd md /\
  forall p o c l v last com mt, In (p, (o, (c, l))) rows ->
    told (flat_map (flat_map snd) rs) p v -> reports v last -> 0 <= last < 2 ^ 63 ->
    told (flat_map snd cs) p (com, mt) -> 0 <= com < 2 ^ 63 ->
    o = last /\ c = com /\ l = backlog last com.
Proof. exact http_lines. Qed.
Print Assumptions C124_lag_partial.
Example C124_ex : http_pending (Ok [[([97], [(1, (0, ([], (-1, 50))))])]; [([97], [(0, (0, ([40], (0, 0))))])]])
    (Ok [([97], [0; 1])]) (Ok [([97], [(0, (33, ([], 0))); (1, (50, ([], 0)))])]) =
  Ok [(0, (40, (33, 7))); (1, (50, (50, 0)))].
Proof. reflexivity. Qed.
Theorem C124_offsets : forall rs es, http_offsets (Ok rs) = Ok es ->
  StronglySorted (fun a b : poff => fst a <= fst b) es /\ Permutation es (flat_map (flat_map snd) rs).
Proof. exact http_offsets_ok. Qed.
Print Assumptions C124_offsets.
Example C124_offsets_ex : http_offsets (Ok [[([97], [(1, (0, ([], (-1, 50))))])]; [([97], [(0, (0, ([40], (0, 0))))])]]) =
  Ok [(0, (0, ([40], (0, 0)))); (1, (0, ([], (-1, 50))))].
Proof. reflexivity. Qed.
(** False when the offsets could not be had: the lag then shown is the negated commit, with
    status 200, whatever the topic holds. *)
Theorem C124_offsets_error_refuted : exists e md cs com mt, told (flat_map snd cs) 0 (com, mt) /\ 0 < com /\
  http_pending (Err e) (Ok md) (Ok cs) = Ok [(0, (0, (com, - com)))] /\ forall last, - com <> backlog last com \/ last = 0.
Proof.
  exists EConn, [([97], [0])], [([97], [(0, (33, ([], 0)))])], 33, ([], 0).
  split; [split; [left; reflexivity|repeat constructor; cbn; tauto]|]. split; [lia|]. split; [reflexivity|].
  intros last. unfold backlog. cbn. lia.
Qed.
Print Assumptions C124_offsets_error_refuted.
(** False for a group that never committed. *)
Theorem C124_never_committed_refuted : exists rs md cs p o c l v last mt,
  http_pending (Ok rs) (Ok md) (Ok cs) = Ok [(p, (o, (c, l)))] /\
  told (flat_map (flat_map snd) rs) p v /\ reports v last /\ 0 <= last < 2 ^ 63 /\
  told (flat_map snd cs) p (-1, mt) /\ l <> backlog last (-1) /\ l = last + 1.
Proof.
  exists [[([97], [(0, (0, ([], (-1, 40))))])]], [([97], [0])], [([97], [(0, (-1, ([], 0)))])], 0, 40, (-1), 41,
    (0, ([], (-1, 40))), 40, ([], 0).
  repeat split; cbn; auto; try lia; repeat constructor; cbn; tauto.
Qed.
Print Assumptions C124_never_committed_refuted.
(** And an answer with several offsets for a partition stops the request with a panic. *)
Theorem C124_several_offsets_refuted : exists rs md cs, http_pending (Ok rs) (Ok md) (Ok cs) = Panic.
Proof. exists [[([97], [(0, (0, ([40; 30], (0, 0))))])]], [([97], [0])], []. reflexivity. Qed.
Print Assumptions C124_several_offsets_refuted.
