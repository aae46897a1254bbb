(** Properties of the command line programs: C104-C112. *)
From Coq Require Import String Ascii.
From Verif Require Import Base BaseFacts Wire Text TextFacts Consumer Assign Acl Group GroupFacts Tools ToolsSpec MoreSpec MoreFacts
  Brokers BrokersSpec BrokersRefute Helper HelperFacts Commands CommandsSpec CommandsFacts.

(** bytes of a text, for the examples *)
Definition btext (s : string) : bytes := map (fun c => Z.of_nat (nat_of_ascii c)) (list_ascii_of_string s).

(** ** C104.  The flags of the ACL commands say what the request says.
    Texts of printable characters without quotes and backslashes; the tables are those of
    Kafka's protocol. *)
Theorem C104_flags_partial : forall a rt pt op pm,
  Forall plain_byte (a_rtype a) -> Forall plain_byte (a_ptype a) -> Forall plain_byte (a_op a) -> Forall plain_byte (a_perm a) ->
  (forall s, a_resource a = Some s -> Forall plain_byte s) ->
  says resource_texts (text_of (a_rtype a)) rt -> says pattern_texts (text_of (a_ptype a)) pt ->
  ~ (same_text (text_of (a_op a)) "UNKNOWN" \/ same_text (text_of (a_op a)) "0") ->
  ~ (same_text (text_of (a_perm a)) "UNKNOWN" \/ same_text (text_of (a_perm a)) "0") ->
  says operation_texts (text_of (a_op a)) op -> says permission_texts (text_of (a_perm a)) pm ->
  acl_filter_of a = Ok (mkFilter rt (a_resource a) pt (a_principal a) (a_host a) op pm).
Proof. exact acl_flags_ok. Qed.
Print Assumptions C104_flags_partial.
(** An operation named in the help of the command (describe-acls.go:95) and a type with a
    slip of the pen are sent as 0, unknown, without an error. *)
Theorem C104_refuted : exists a op_given type_given,
  a_op a = btext op_given /\ In op_given ["clusteraction"; "describeconfigs"; "alterconfigs"; "idempotentwrite"]%string /\
  a_rtype a = btext type_given /\ (forall v, ~ says resource_texts type_given v) /\
  exists f, acl_filter_of a = Ok f /\ f_op f = 0 /\ f_rtype f = 0.
Proof.
  exists (mkArgs (btext "topics") None (btext "any") None None (btext "clusteraction") (btext "any")), "clusteraction"%string, "topics"%string.
  split; [reflexivity|]. split; [left; reflexivity|]. split; [reflexivity|]. split.
  - intros v S. apply resource_says in S. vm_compute in S. discriminate.
  - eexists. split; [vm_compute; reflexivity|]. split; reflexivity.
Qed.
Print Assumptions C104_refuted.
Example C104_ex : acl_filter_of (mkArgs (btext "Topic") (Some (btext "t1")) (btext "literal") (Some (btext "User:a")) None (btext "read") (btext "allow")) =
  Ok (mkFilter 2 (Some (btext "t1")) 3 (Some (btext "User:a")) None 3 3).
Proof. vm_compute. reflexivity. Qed.

(** ** C105.  get-pending shows the owner of every partition.
    [order]: Go's order of a map.  [desc g]: the members of the group with their assignments;
    [pend g t]: the rows of a topic.  Every topic assigned to a member has a block, with all
    its rows; beside each row is the one member that has the partition, or nothing. *)
Theorem C105_owners_partial : forall g all desc pend order gs bs,
  g <> [] -> ~ In 42 g -> (forall l, Permutation (order l) l) ->
  desc g = Ok gs -> Forall readable (concat gs) ->
  get_pending (Ok tt) g [] all desc pend order = (bs, Ok tt) ->
  (forall b, In b bs -> k_group b = g /\ named (concat gs) (k_topic b) /\ pend g (k_topic b) = Ok (map fst (k_rows b)) /\
     forall r o, In (r, o) (k_rows b) -> exists x, o = Some x /\ owner_text (concat gs) (k_topic b) (fst r) x) /\
  (forall t rows, named (concat gs) t -> pend g t = Ok rows -> exists b, In b bs /\ k_topic b = t) /\
  NoDup (map k_topic bs).
Proof. exact pending_owners. Qed.
Print Assumptions C105_owners_partial.
(** Several groups are shown one after the other. *)
Theorem C105_groups : forall garg topic all desc pend order gs bs,
  getGroups garg all = Ok gs -> (forall g, In g gs -> g <> [] /\ ~ In 42 g) ->
  get_pending (Ok tt) garg topic (Some all) desc pend order = (bs, Ok tt) ->
  bs = flat_map (fun g => fst (get_pending (Ok tt) g topic None desc pend order)) gs /\
  forall g, In g gs -> snd (get_pending (Ok tt) g topic None desc pend order) = Ok tt.
Proof. exact pending_all. Qed.
Print Assumptions C105_groups.
(** A topic named on the command line is shown whether it is assigned or not, without owners. *)
Theorem C105_topic : forall g c topic all desc pend order gs rows, g <> [] -> ~ In 42 g -> desc g = Ok gs -> Forall readable (concat gs) ->
  pend g (c :: topic) = Ok rows ->
  get_pending (Ok tt) g (c :: topic) all desc pend order = ([mkBlock g (c :: topic) (map (fun r => (r, None)) rows)], Ok tt).
Proof. exact pending_topic. Qed.
Print Assumptions C105_topic.
(** topic "t", partitions 0 and 1 *)
Definition raw01 : bytes := enc Assignment_ty (0, ([([116], [0; 1])], None)).
Definition raw2 : bytes := enc Assignment_ty (0, ([([116], [2])], Some [])).
Definition rows3 : list (Z * (Z * (Z * Z))) := [(0, (10, (4, 6))); (1, (5, (5, 0))); (2, (7, (0, 7))); (3, (1, (1, 0)))].
Example C105_ex : get_pending (Ok tt) [103] [] None (fun _ => Ok [[([97], raw01); ([98], raw2)]]) (fun _ _ => Ok rows3) (fun l => l) =
  ([mkBlock [103] [116] (combine rows3 [Some [97]; Some [97]; Some [98]; Some []])], Ok tt).
Proof. vm_compute. reflexivity. Qed.
Example C105_groups_ex :
  get_pending (Ok tt) [42] [116] (Some [[103]; [104]]) (fun _ => Ok []) (fun g t => Ok [(0, (zlen g, (7, 1)))]) (fun l => l) =
  ([mkBlock [103] [116] [((0, (1, (7, 1))), None)]; mkBlock [104] [116] [((0, (1, (7, 1))), None)]], Ok tt).
Proof. vm_compute. reflexivity. Qed.
(** One member whose assignment cannot be decoded: nothing is shown for the whole group, and no
    error. *)
Theorem C105_refuted : exists g gs rows, (exists m t p r, owns (concat gs) m t p /\ In r rows /\ fst r = p) /\
  get_pending (Ok tt) g [] None (fun _ => Ok gs) (fun _ _ => Ok rows) (fun l => l) = ([], Ok tt).
Proof.
  exists [103], [[([97], raw01); ([98], [0])]], rows3. split; [|vm_compute; reflexivity].
  exists [97], [116], 0, (0, (10, (4, 6))). split; [|split; [left; reflexivity|reflexivity]].
  exists raw01, [([116], [0; 1])], [0; 1]. split; [left; reflexivity|].
  split; [|split; left; reflexivity].
  exists 0, None. split; [unfold i16; lia|]. split; [cbn; lia|]. split; [|split; [exact I|reflexivity]].
  constructor; [|constructor]. unfold ok_part. cbn. repeat split; try lia. repeat constructor; unfold i32; lia.
Qed.
Print Assumptions C105_refuted.

(** ** C106.  All groups: the groups of every broker of the metadata, or a report. *)
Theorem C106_groups_partial : forall (W : Type) (dial : W -> bytes -> W * dres) (exch : W -> handle -> req -> W * (err + resp * option err)) (ord : forall A : Type, W -> list A -> W * list A),
  (forall A w l, Permutation (snd (ord A w l)) l) ->
  (forall w h q w' r e, exch w h q = (w', inr (r, e)) -> fits q r) ->
  forall s s' r, GetGroups W dial exch ord s = (s', r) ->
  exists s1 m e, RequestMetaData W dial exch ord s [] = (s1, (m, e)) /\
    match e with
    | Some _ => s' = s1 /\ r = Ok None
    | None =>
        exists evs done rest, b_tr W s' = b_tr W s1 ++ evs /\ map fst (m_brokers m) = map l_node done ++ rest /\
        match r with
        | Ok (Some gs) => rest = [] /\ seen evs = flat_map listed_evs done /\ gs = flat_map l_groups done
        | Ok None => rest <> [] /\ exists last, seen evs = flat_map listed_evs done ++ last /\
            ((exists n e, last = [EvGet n (inr e)]) \/ exists n h o e, last = [EvGet n (inl h); EvAsk h QListGroups o] /\ snd o = Some e)
        | _ => False
        end
    end.
Proof. exact getgroups_ok. Qed.
Print Assumptions C106_groups_partial.
(** the broker at "b" does not list its groups *)
Definition silent_b (w : nat) (a : bytes) (q : req) : option err :=
  match q with QListGroups => if beqb a [98] then Some ETimeout else None | _ => None end.
Definition silent_c : cluster := mkC (fun _ => meta1) silent_b.
Example C106_ex :
  snd (GetGroups nat c_dial (c_exch steady) c_ord (fst (c_new steady [[97]]))) = Ok (Some [[97]; [98]; [99]]) /\
  snd (GetGroups nat c_dial (c_exch silent_c) c_ord (fst (c_new silent_c [[97]]))) = Ok None.
Proof. split; vm_compute; reflexivity. Qed.
(** When one broker fails, get-pending prints nothing about the groups of the others and ends
    without an error. *)
Theorem C106_refuted : exists W dial exch (ord : forall A : Type, W -> list A -> W * list A),
  (forall A w l, Permutation (snd (ord A w l)) l) /\
  (forall w h q w' r e, exch w h q = (w', inr (r, e)) -> fits q r) /\
  exists w boot s s' all h g o, NewBrokers W dial exch w boot = (s, None) /\ GetGroups W dial exch ord s = (s', Ok all) /\
    In (EvAsk h QListGroups (Some (RGroups [g]), None)) (b_tr W s') /\
    (exists h' e, In (EvAsk h' QListGroups (o, Some e)) (b_tr W s')) /\
    forall desc pend order, get_pending (Ok tt) [42] [] all desc pend order = ([], Ok tt).
Proof.
  exists nat, c_dial, (c_exch silent_c), c_ord. split; [apply c_perm|]. split; [apply c_fits|].
  exists 0%nat, [[97]], (fst (c_new silent_c [[97]])), (fst (GetGroups nat c_dial (c_exch silent_c) c_ord (fst (c_new silent_c [[97]])))), None.
  exists (mkH 0 (-1) [97]), [97], None. split; [vm_compute; reflexivity|]. split; [vm_compute; reflexivity|].
  split; [vm_compute; auto 10|]. split; [exists (mkH 1 2 [98]), ETimeout; vm_compute; auto 20|].
  intros. reflexivity.
Qed.
Print Assumptions C106_refuted.

(** ** C107.  get-offsets shows every partition once per entry, in order.
    [reports]: the offset of an entry (new style, or the only one of the old style). *)
Theorem C107_lines : forall rs ls, get_offsets (Ok tt) (Ok rs) = Ok ls ->
  StronglySorted Z.le (map fst ls) /\ exists es, Permutation es (flat_map (flat_map snd) rs) /\ Forall2 shows es ls.
Proof. exact get_offsets_ok. Qed.
Print Assumptions C107_lines.
Theorem C107_total : forall rs, (forall e, In e (flat_map (flat_map snd) rs) -> exists o, reports (snd e) o) ->
  exists ls, get_offsets (Ok tt) (Ok rs) = Ok ls.
Proof. exact get_offsets_total. Qed.
Print Assumptions C107_total.
Theorem C107_errors : forall nb rs e, nb = Err e \/ (nb = Ok tt /\ rs = Err e) -> get_offsets nb rs = Err e.
Proof. exact get_offsets_errs. Qed.
Print Assumptions C107_errors.
Example C107_ex : get_offsets (Ok tt) (Ok [[([116], [(2, (0, ([], (-1, 30)))); (0, (0, ([], (-1, 10))))])]; [([116], [(1, (0, ([20], (0, 0))))])]]) =
  Ok [(0, (-1, 10)); (1, (0, 20)); (2, (-1, 30))].
Proof. vm_compute. reflexivity. Qed.
(** An answer in the old style with two offsets where one was asked for (get-offsets.go:46): the
    command crashes. *)
Theorem C107_refuted : exists rs, get_offsets (Ok tt) (Ok rs) = Panic.
Proof. exists [[([116], [(0, (0, ([20; 10], (0, 0))))])]]. vm_compute. reflexivity. Qed.
Print Assumptions C107_refuted.

(** ** C108.  The exit status tells whether the command worked.
    [works k]: whether call [k] of the command succeeds.  For these commands the status is 0 if
    and only if all calls succeed, otherwise 1; and no call is made behind a failure. *)
Definition reporting : list cmd :=
  [AlterConfigs; AlterReassign; CreatePartitions; CreatePartitionsAssign; CreateTopic; CreateTopicAssign; DeleteGroupsCmd;
   DeleteTopicsCmd; DescribeConfigsCmd; DescribeGroups; DescribeLogdirs; ElectLeaders; GetOffsets; ListGroupsCmd; ListReassign; ResetOffset].
Theorem C108_status_partial : forall c works, In c reporting ->
  (snd (execute c works) = 0 <-> forall j, (j < length (calls_of c))%nat -> works j = true) /\
  (snd (execute c works) = 0 \/ snd (execute c works) = 1) /\
  (snd (execute c works) = 0 -> fst (execute c works) = seq 0 (length (calls_of c))) /\
  (forall j, In j (fst (execute c works)) -> forall i, (i < j)%nat -> works i = true).
Proof.
  intros c works I. unfold execute.
  assert (N : ~ In Dropped (calls_of c)).
  { unfold reporting in I. repeat destruct I as [<-|I]; try contradiction; cbn; intuition discriminate. }
  destruct (crun_status works (calls_of c) 0 N) as [A B]. split; [|split; [exact B|split; [apply crun_all|]]].
  - rewrite A. split; intros H j J; apply H; lia.
  - intros j J i L. apply (crun_stops works (calls_of c) 0 j J i); [lia|]. rewrite Nat.sub_0_r.
    assert (M : forall l k j, In j (fst (crun works k l)) -> (j < k + length l)%nat).
    { induction l as [|t l IH]; intros k x X; [destruct X|]. cbn [crun] in X. specialize (IH (S k) x).
      destruct (crun works (S k) l) as [m y]. cbn [fst length] in *.
      destruct (works k), t; cbn [fst] in X; destruct X as [<-|X]; try lia; try contradiction; specialize (IH X); lia. }
    specialize (M _ _ _ J). cbn in M. destruct (nth_error (calls_of c) i) as [t|] eqn:E.
    + destruct t; [reflexivity|]. exfalso. apply N. eapply nth_error_In. exact E.
    + apply nth_error_None in E. lia.
Qed.
Print Assumptions C108_status_partial.
Example C108_ex : execute CreateTopicAssign (fun k => negb (k =? 2)%nat) = ([0%nat; 1%nat; 2%nat], 1) /\
  execute CreateTopicAssign (fun _ => true) = ([0%nat; 1%nat; 2%nat; 3%nat], 0).
Proof. split; reflexivity. Qed.
(** The others end with 0 although something failed. *)
Theorem C108_refuted : forall c, In c [Api; ConsoleConsumer; ConsoleProducer; CreateAcls; DeleteAcls; DescribeAcls; GetMetadata;
    GroupConsumer; SimpleConsumerCmd; SimpleProducerCmd] ->
  exists works j, In j (fst (execute c works)) /\ works j = false /\ snd (execute c works) = 0.
Proof.
  intros c I. repeat destruct I as [<-|I]; try contradiction;
    first [exists (fun k => negb (k =? 0)%nat), 0%nat; split; [left; reflexivity|split; reflexivity]
          |exists (fun k => negb (k =? 1)%nat), 1%nat; split; [right; left; reflexivity|split; reflexivity]].
Qed.
Print Assumptions C108_refuted.
(** get-pending: a topic that cannot be read is left out, and nothing is reported. *)
Theorem C108_pending_refuted : exists g t gs, named (concat gs) t /\
  get_pending (Ok tt) g [] None (fun _ => Ok gs) (fun _ _ => Err ETimeout) (fun l => l) = ([], Ok tt).
Proof.
  exists [103], [116], [[([97], raw01)]]. split; [|vm_compute; reflexivity].
  exists [97], raw01, [([116], [0; 1])], [0; 1]. split; [left; reflexivity|]. split; [|left; reflexivity].
  exists 0, None. split; [unfold i16; lia|]. split; [cbn; lia|]. split; [|split; [exact I|reflexivity]].
  constructor; [|constructor]. unfold ok_part. cbn. repeat split; try lia. repeat constructor; unfold i32; lia.
Qed.
Print Assumptions C108_pending_refuted.

(** ** C109.  The printing consumers print the messages asked for, in order.
    [e]: whether the program has ended; otherwise it waits for more. *)
Theorem C109_simple : forall max stop json po ms ls e, StronglySorted Z.lt (map p_offset ms) ->
  simple_consumer max stop json po ms = (ls, e) ->
  ls = map (show json po) (firstn (Z.to_nat max) (filter (fun m => below stop (p_offset m)) ms)) /\
  (e = true <-> (Z.to_nat max <= length (filter (fun m => below stop (p_offset m)) ms))%nat \/ exists m, In m ms /\ below stop (p_offset m) = false).
Proof. exact simple_consumer_ok. Qed.
Print Assumptions C109_simple.
Theorem C109_group : forall max json ms, group_consumer max json ms =
  (if 0 <? max then (map (show json true) (firstn (Z.to_nat max) ms), Z.to_nat max <=? length ms)%nat else (map (show json true) ms, false)).
Proof. exact group_consumer_ok. Qed.
Print Assumptions C109_group.
(** For console-consumer only if offsets are wanted. *)
Theorem C109_console_partial : forall max json ms,
  console_consumer max json true ms = (map (show json true) (firstn (Z.to_nat max) ms), (Z.to_nat max <=? length ms)%nat).
Proof. intros. apply console_loop. Qed.
Print Assumptions C109_console_partial.
(** the three ways of showing a message *)
Theorem C109_shown : forall m, show true true m = LJson m /\ show true false m = LJson m /\
  show false true m = LFull (p_offset m) (p_value m) /\ show false false m = LValue (p_value m).
Proof. repeat split. Qed.
Print Assumptions C109_shown.
Theorem C109_refuted : exists max ms, console_consumer max false false ms <> (map (show false false) (firstn (Z.to_nat max) ms), (Z.to_nat max <=? length ms)%nat).
Proof. exists 1, [mkPmsg 5 [120]]. vm_compute. intro H. inversion H. Qed.
Print Assumptions C109_refuted.
Example C109_ex : let ms := [mkPmsg 3 [97]; mkPmsg 4 [98]; mkPmsg 6 [99]; mkPmsg 7 [100]] in
  simple_consumer 10 6 false true ms = ([LFull 3 [97]; LFull 4 [98]], true) /\
  simple_consumer 3 0 false false ms = ([LValue [97]; LValue [98]; LValue [99]], true) /\
  group_consumer 2 false ms = ([LFull 3 [97]; LFull 4 [98]], true) /\
  snd (group_consumer 0 true ms) = false.
Proof. repeat split. Qed.

(** ** C110.  Settings given as JSON are used.
    [object l]: the text {"k":"v",...}; the last value of a key counts, and settings given
    this way go before those from other flags. *)
Theorem C110_settings_partial : forall base l, Forall plain_pair l -> exists m, with_settings base (object l) = Ok m /\
  forall k, sget k m = match value k l with Some v => Some v | None => sget k base end.
Proof. exact settings_ok. Qed.
Print Assumptions C110_settings_partial.
Theorem C110_base : forall brokers client,
  sget n_servers (base_settings brokers client) = Some brokers /\
  sget n_client (base_settings brokers client) = (match client with [] => None | _ => Some client end) /\
  n_servers = btext "bootstrap.servers" /\ n_client = btext "client.id".
Proof. intros. unfold base_settings, sget. destruct client; repeat split. Qed.
Print Assumptions C110_base.
Example C110_ex : with_settings (base_settings (btext "h:1") []) (btext "{""client.id"":""me"",""bootstrap.servers"":""k:2"",""client.id"":""you""}") =
  Ok [(n_servers, btext "k:2"); (n_client, btext "you")].
Proof. vm_compute. reflexivity. Qed.
(** The text in the help of the programs (console-consumer.go:93) is not JSON; it is ignored
    without an error. *)
Theorem C110_refuted : exists arg, arg = btext "{""xx""=""yy"",""aa""=""zz""}" /\ (exists e, jobject arg = Err e) /\
  forall base, with_settings base arg = Ok base.
Proof. eexists. split; [reflexivity|]. split; [eexists; vm_compute; reflexivity|]. intro base. vm_compute. reflexivity. Qed.
Print Assumptions C110_refuted.

(** ** C111.  Configurations: the type asked for, and the broker that has them.
    [config_types]: the numbers of the protocol. *)
Theorem C111_types : forall t n name, In (t, n) config_types -> ConvertConfigResourceType t = n /\
  (forall r, describe_configs t name = Ok r -> fst r = n) /\ (forall r, alter_configs t name = Ok r -> fst r = n).
Proof.
  intros t n name I. unfold config_types in I. repeat destruct I as [I|I]; try contradiction; injection I as <- <-;
    (split; [reflexivity|]; split; intros r; cbn; try (destruct (atoi name)); intro H; try discriminate; injection H as <-; reflexivity).
Qed.
Print Assumptions C111_types.
Theorem C111_broker_partial : forall name n, i32 n ->
  describe_configs "broker" (decimal n) = Ok (4, ToBroker n) /\ describe_configs "topic" name = Ok (2, ToController) /\
  (atoi name = None -> exists e, describe_configs "broker" name = Err e).
Proof.
  intros name n I. unfold describe_configs. cbn [String.eqb Ascii.eqb eqb]. split; [|split; [reflexivity|]].
  - rewrite atoi_decimal by (unfold i32, i64 in *; lia). rewrite sint_id by (unfold i32 in I; lia). reflexivity.
  - intros ->. eauto.
Qed.
Print Assumptions C111_broker_partial.
Example C111_ex : describe_configs "broker" (btext "3") = Ok (4, ToBroker 3) /\ alter_configs "topic" (btext "t") = Ok (2, ToController).
Proof. split; vm_compute; reflexivity. Qed.
(** What is about broker 3 goes to the controller, and a type that is none is sent as 0. *)
Theorem C111_refuted :
  describe_configs "broker_logger" (btext "3") = Ok (8, ToController) /\
  alter_configs "broker" (btext "3") = Ok (4, ToController) /\
  exists t, ~ In t (map fst config_types) /\ forall name, alter_configs t name = Ok (0, ToController) /\ describe_configs t name = Ok (0, ToController).
Proof.
  split; [reflexivity|]. split; [reflexivity|]. exists "topics"%string. split; [cbn; intuition discriminate|]. intro. split; reflexivity.
Qed.
Print Assumptions C111_refuted.

(** ** C112.  The producers send every line.
    [chunks]: what the reads return, in whatever pieces; a last line without a line feed counts
    if it is not empty. *)
Theorem C112_lines_partial : forall chunks ls t, Forall is_line ls -> is_line t -> Forall (fun l => zlen l < 65536) (t :: ls) ->
  concat chunks = text_of_lines ls ++ t -> read_lines chunks = (ls ++ match t with [] => [] | _ => [t] end, Ok tt).
Proof. exact read_lines_ok. Qed.
Print Assumptions C112_lines_partial.
(** A line that is too long: the lines before it are sent, and an error is returned.
    [fitting]: a read returns no more than fits into the buffer. *)
Theorem C112_long : forall chunks ls t s, Forall is_line ls -> ~ In 10 t -> Forall (fun l => zlen l < 65536) ls -> zlen t = 65536 ->
  fitting 65536 [] chunks -> concat chunks = text_of_lines ls ++ t ++ s -> exists e, read_lines chunks = (ls, Err e).
Proof. exact read_lines_long. Qed.
Print Assumptions C112_long.
Example C112_ex : read_lines [[97; 98; 10; 99]; [100]; [10; 10; 101]] = ([[97; 98]; [99; 100]; []; [101]], Ok tt) /\
  scan 4 [] [[97; 10; 98; 99]; [100; 101]; [102]] = ([[97]], Err (EInvalid 71)).
Proof. split; vm_compute; reflexivity. Qed.
(** A carriage return before the line feed is not sent. *)
Theorem C112_refuted : exists l, ~ In 10 l /\ read_lines [l ++ [10]] <> ([l], Ok tt).
Proof. exists [97; 13]. split; [cbn; intuition discriminate|]. vm_compute. intro H. inversion H. Qed.
Print Assumptions C112_refuted.
