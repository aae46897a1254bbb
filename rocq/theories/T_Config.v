(** Properties of configurations, enums, error codes and closing (C54-C58, C69). *)
From Coq Require Import String.
From Verif Require Import Base Config ConfigSpec ConfigFacts Acl AclFacts ErrorCode ErrorSpec ErrorFacts Closing ClosingFacts.

(** C54: the consumer check accepts exactly the configurations without a violation of the
    documented constraints and reports a constraint that is violated. *)
Theorem C54_consumer_partial : forall c,
  (consumer_checkValid c = None <-> forall e, ~ consumer_violates c e) /\
  (forall e, consumer_checkValid c = Some e -> consumer_violates c e).
Proof. exact consumer_valid. Qed.
Print Assumptions C54_consumer_partial.
Example C54_consumer_ex :
  consumer_checkValid (mkCC 30000 30000 500 None [97] [103] 1) = None /\
  consumer_checkValid (mkCC 30000 30000 500 None [97] [103] 2) = Some CFStorage.
Proof. split; reflexivity. Qed.

(** The same for the producer check. *)
Theorem C54_producer_partial : forall c,
  (producer_checkValid c = None <-> forall e, ~ producer_violates c e) /\
  (forall e, producer_checkValid c = Some e -> producer_violates c e).
Proof. exact producer_valid. Qed.
Print Assumptions C54_producer_partial.
(** A producer configuration given by value or by map is accepted exactly if valid and is
    kept, but for a magic byte below 2. *)
Theorem C54_producer_create_partial : forall c,
  let r := createProducerConfig (PConf c) in
  (snd r = false <-> forall e, ~ producer_violates c e) /\
  pc_boot (fst r) = pc_boot c /\ pc_count (fst r) = pc_count c /\ pc_flush (fst r) = pc_flush c /\
  pc_comp (fst r) = pc_comp c /\ (2 <= pc_magic c -> fst r = c) /\ 2 <= pc_magic (fst r) /\
  forall dec, dec default_pconf = Some c -> createProducerConfig (PMap dec) = r.
Proof. exact producer_create. Qed.
Print Assumptions C54_producer_create_partial.
Example C54_producer_ex :
  createProducerConfig (PConf (mkPC [97] 5 5 c_gzip 0)) = (mkPC [97] 5 5 c_gzip 2, false) /\
  snd (createProducerConfig (PConf (mkPC [97] 5 5 [122] 2))) = true.
Proof. split; reflexivity. Qed.
(** False for a nil configuration: it has no bootstrap servers and is accepted. *)
Theorem C54_nil_refuted :
  snd (createProducerConfig PNil) = false /\ producer_violates (fst (createProducerConfig PNil)) CFBootstrap.
Proof. exact producer_nil_refuted. Qed.
Print Assumptions C54_nil_refuted.
(** False for magic bytes above 2, which are not implemented and are kept. *)
Theorem C54_magic_refuted : exists c,
  snd (createProducerConfig (PConf c)) = false /\ pc_magic (fst (createProducerConfig (PConf c))) = 3.
Proof. exact producer_magic_refuted. Qed.
Print Assumptions C54_magic_refuted.

(** C55 is false: a consumer made from a map changes the timeouts of one made from nil. *)
Theorem C55_sharing_refuted : exists s i1 s1 c1 i2 s2 c2,
  init_cst = Ok s /\
  createConsumerConfig s i1 = Ok (s1, (c1, true)) /\
  createConsumerConfig s1 i2 = Ok (s2, (c2, true)) /\
  request_timeout (cs_heap s1) c1 0 = 30000 /\
  request_timeout (cs_heap s2) c1 0 = 1000.
Proof. exact share_refuted. Qed.
Print Assumptions C55_sharing_refuted.
Theorem C55_copy_refuted : exists s c c' s1 c1 s2 c2,
  cst_ok s /\ cc_api c' = cc_api c /\
  createConsumerConfig s (IConf c) = Ok (s1, (c1, true)) /\
  createConsumerConfig s1 (IConf c') = Ok (s2, (c2, true)) /\
  request_timeout (cs_heap s1) c1 0 = 30000 /\
  request_timeout (cs_heap s2) c1 0 = 1000.
Proof. exact share_copy_refuted. Qed.
Print Assumptions C55_copy_refuted.
(** It holds for a consumer whose configuration came without a slice of its own and whose
    slice nobody passes again: no later creation changes its timeouts. *)
Theorem C55_own_slice_partial : forall s i s1 c l s2 ok api,
  cst_ok s -> input_ok s i -> cell (cs_heap s) (cc_api (the_input s i)) = [] ->
  createConsumerConfig s i = Ok (s1, (c, ok)) ->
  inputs_ok s1 l -> creates s1 l = Some s2 -> Forall (fun j => forall x, j = IConf x -> cc_api x <> cc_api c) l ->
  request_timeout (cs_heap s2) c api = request_timeout (cs_heap s1) c api.
Proof. exact create_after. Qed.
Print Assumptions C55_own_slice_partial.
Example C55_ex : exists s, init_cst = Ok s /\ cst_ok s.
Proof. exact init_ok. Qed.

(** C69: right after its creation a consumer's requests have the timeouts its
    configuration asks for. *)
Theorem C69_timeouts_partial : forall s i s' c ok api, cst_ok s -> input_ok s i -> sane (the_input s i) ->
  createConsumerConfig s i = Ok (s', (c, ok)) ->
  request_timeout (cs_heap s') c api = wanted_timeout (the_input s i) api.
Proof. exact create_timeouts. Qed.
Print Assumptions C69_timeouts_partial.
Example C69_ex :
  match createConsumerConfig ex_st INil with
  | Ok (s, (c, _)) => map (request_timeout (cs_heap s) c) [0; 1; 8; 11; 3; 70]%nat
  | _ => []
  end = [30000; 30500; 15000; 35000; 30000; 30000].
Proof. vm_compute. reflexivity. Qed.
(** False for timeouts configured per api: they are overwritten, and a list of fewer than
    twelve makes the creation panic. *)
Theorem C69_perapi_refuted : exists s c s1 c1,
  cst_ok s /\ input_ok s (IConf c) /\
  nth 3 (cell (cs_heap s) (cc_api c)) 0 = 77 /\
  createConsumerConfig s (IConf c) = Ok (s1, (c1, true)) /\
  request_timeout (cs_heap s1) c1 3 = 30000.
Proof. exact perapi_refuted. Qed.
Print Assumptions C69_perapi_refuted.
Theorem C69_short_refuted : exists s c,
  cst_ok s /\ input_ok s (IConf c) /\ cell (cs_heap s) (cc_api c) = [5000; 5000] /\
  createConsumerConfig s (IConf c) = Panic.
Proof. exact perapi_panic_refuted. Qed.
Print Assumptions C69_short_refuted.

(** C56: text and back gives the value, distinct values have distinct texts. *)
Theorem C56_resource_partial : round_trips rtype_string rtype_parse 0 7.
Proof. exact rtype_round. Qed.
Print Assumptions C56_resource_partial.
Theorem C56_pattern_partial : round_trips ptype_string ptype_parse 0 4.
Proof. exact ptype_round. Qed.
Print Assumptions C56_pattern_partial.
Theorem C56_operation_partial : round_trips op_string op_parse 1 12.
Proof. exact op_round. Qed.
Print Assumptions C56_operation_partial.
Theorem C56_permission_partial : round_trips perm_string perm_parse 1 3.
Proof. exact perm_round. Qed.
Print Assumptions C56_permission_partial.
Theorem C56_operation_distinct_partial : forall v w, 0 <= v <= 12 -> 0 <= w <= 12 -> op_string v = op_string w -> v = w.
Proof. exact op_distinct. Qed.
Print Assumptions C56_operation_distinct_partial.
Theorem C56_permission_distinct_partial : forall v w, 0 <= v <= 3 -> 0 <= w <= 3 -> perm_string v = perm_string w -> v = w.
Proof. exact perm_distinct. Qed.
Print Assumptions C56_permission_distinct_partial.
(** values outside an enum are not read back as one inside *)
Theorem C56_others_partial : forall v,
  (~ 0 <= v <= 7 -> rtype_parse (rtype_string v) = None) /\
  (~ 0 <= v <= 4 -> ptype_parse (ptype_string v) = None) /\
  (~ 0 <= v <= 12 -> op_parse (op_string v) = None).
Proof. exact other_values. Qed.
Print Assumptions C56_others_partial.
Example C56_ex : op_parse "describe_Configs" = Some 10 /\ rtype_parse "cluster" = Some 4 /\ rtype_parse "4" = None.
Proof. vm_compute. auto. Qed.
(** False for the unknown operation and the unknown permission: both come back as ANY. *)
Theorem C56_operation_refuted : op_parse (op_string 0) = Some 1.
Proof. exact op_unknown_refuted. Qed.
Print Assumptions C56_operation_refuted.
Theorem C56_permission_refuted : perm_parse (perm_string 0) = Some 1 /\ perm_string 4 = perm_string 0.
Proof. exact perm_unknown_refuted. Qed.
Print Assumptions C56_permission_refuted.

(** C57: 0 is success, every other code an error, and distinct codes are distinct errors. *)
Theorem C57_zero_partial : forall c, getErrorFromErrorCode c = None <-> c = 0.
Proof. exact code_zero. Qed.
Print Assumptions C57_zero_partial.
Theorem C57_injective_partial : forall c d, getErrorFromErrorCode c = getErrorFromErrorCode d -> c = d.
Proof. exact code_injective. Qed.
Print Assumptions C57_injective_partial.
(** Codes -1 and 1..117 carry their code and the name the protocol gives them. *)
Theorem C57_entries_partial : forall c, -1 <= c <= 117 -> c <> 0 ->
  exists e, AllError c = Some e /\ e_code e = c /\ protocol_name c = Some (e_msg e) /\
    getErrorFromErrorCode c = Some (EKafka c) /\ err_text c = TName (e_msg e).
Proof. exact code_entry. Qed.
Print Assumptions C57_entries_partial.
Theorem C57_retriable_partial : forall c, retriable c = true <-> In c protocol_retriable.
Proof. exact retriable_exact. Qed.
Print Assumptions C57_retriable_partial.
Theorem C57_unknown_partial : forall c, c < -1 \/ 118 < c ->
  getErrorFromErrorCode c = Some (EUnknownCode c) /\ err_text c = TUnknown c.
Proof. exact unknown_code. Qed.
Print Assumptions C57_unknown_partial.
Example C57_ex : err_text 27 = TName "REBALANCE_IN_PROGRESS" /\ retriable 27 = false /\ retriable 6 = true.
Proof. vm_compute. auto. Qed.
(** False for 118 (the table entry carries 119) and so for 119. *)
Theorem C57_118_refuted : exists e, AllError 118 = Some e /\ e_code e = 119 /\
  err_text 118 = TName "INVALID_REGISTRATION" /\ protocol_name 118 = Some "TELEMETRY_TOO_LARGE"%string.
Proof. exact code118_refuted. Qed.
Print Assumptions C57_118_refuted.
Theorem C57_119_refuted : protocol_name 119 = Some "INVALID_REGISTRATION"%string /\
  getErrorFromErrorCode 119 = Some (EUnknownCode 119).
Proof. exact code119_refuted. Qed.
Print Assumptions C57_119_refuted.

(** C58 holds for producers: a further close changes nothing and sends nothing. *)
Theorem C58_simple_producer_partial : forall p p' t, sprod_close p = Done (p', t) -> sprod_close p' = Done (p', []).
Proof. exact sprod_second. Qed.
Print Assumptions C58_simple_producer_partial.
Theorem C58_producer_partial : forall p p' t, mprod_close p = Done (p', t) -> mprod_close p' = Done (p', []).
Proof. exact mprod_second. Qed.
Print Assumptions C58_producer_partial.
Theorem C58_first_close_partial : forall rs h child,
  sprod_close (mkSp false rs (Some h) child false false) =
  Done (mkSp true rs (Some (if child then h else false)) child true true, match rs with [] => [] | _ => [rs] end).
Proof. exact sprod_first. Qed.
Print Assumptions C58_first_close_partial.
(** without a leader only a producer that has a parent and holds no messages can be closed: *)
Theorem C58_no_leader_partial : forall rs child, sprod_close (mkSp false rs None child false false) =
  match rs with [] => if child then Done (mkSp true [] None true true true, []) else Crash | _ => Crash end.
Proof. intros [|r rs] []; reflexivity. Qed.
Print Assumptions C58_no_leader_partial.
Example C58_ex : exists p', mprod_close (mkMp None [(0, mkSp false [1; 2] (Some true) true false false);
                                          (1, mkSp false [3] (Some true) true false false)] [(7, true)])
  = Done (p', [[1; 2]; [3]]) /\ mp_leaders p' = [(7, false)].
Proof. eexists. split; reflexivity. Qed.
(** It is false for broker lists (and clients), for consumers and for group consumers: the
    second close always panics, or blocks for ever. *)
Theorem C58_brokers_refuted : exists b b', brokers_close b = Done b' /\ brokers_close b' = Crash.
Proof. exact brokers_refuted. Qed.
Print Assumptions C58_brokers_refuted.
Theorem C58_consumer_refuted : exists c c', cons_close c = Done c' /\ cons_close c' = Crash.
Proof. exact cons_refuted. Qed.
Print Assumptions C58_consumer_refuted.
Theorem C58_group_consumer_refuted : exists g g', gcons_close g = Done g' /\ gcons_close g' = Blocks.
Proof. exact gcons_refuted. Qed.
Print Assumptions C58_group_consumer_refuted.
(** What the first close of each of them does, and that the second never ends well. *)
Theorem C58_brokers_first_partial : forall b, bs_closed b = false ->
  exists b', brokers_close b = Done b' /\ map fst (bs_handles b') = map fst (bs_handles b) /\
             Forall (fun x => snd x = false) (bs_handles b').
Proof. exact brokers_first. Qed.
Print Assumptions C58_brokers_first_partial.
Theorem C58_consumer_first_partial : forall n b, bs_closed b = false ->
  exists c', cons_close (mkCo n (Z.of_nat n) b) = Done c' /\ bs_closed (co_brokers c') = true /\ cons_close c' = Crash.
Proof. exact cons_closes. Qed.
Print Assumptions C58_consumer_first_partial.
Theorem C58_group_first_partial : forall n b reader, bs_closed b = false ->
  exists g', gcons_close (mkGc false reader n (Z.of_nat n) b) = Done g' /\
    (reader = false -> gcons_close g' = Blocks) /\ (reader = true -> gcons_close g' = Crash).
Proof. exact gcons_closes. Qed.
Print Assumptions C58_group_first_partial.
(** Partition consumers that are stopped: one on its own any number of times, [n] of a
    consumer once each; one more crashes. *)
Definition stop_times (k : nat) (wg : option Z) : outcome (option Z) := Nat.iter k (fun o => obind o scons_stop) (Done wg).
Theorem C58_simple_consumer_partial : forall k, stop_times k None = Done None.
Proof. unfold stop_times. induction k as [|k IH]; [reflexivity|]. cbn [Nat.iter nat_rect]. unfold Nat.iter in IH. rewrite IH. reflexivity. Qed.
Print Assumptions C58_simple_consumer_partial.
Theorem C58_crew_stops_partial : forall n k, (k <= n)%nat -> stop_times k (Some (Z.of_nat n)) = Done (Some (Z.of_nat (n - k))).
Proof.
  unfold stop_times, Nat.iter. intros n. induction k as [|k IH]; intros H; [rewrite Nat.sub_0_r; reflexivity|].
  cbn [nat_rect]. rewrite IH by lia. cbn [obind scons_stop]. replace (Z.of_nat (n - k) <=? 0) with false by lia. do 2 f_equal. lia.
Qed.
Print Assumptions C58_crew_stops_partial.
Theorem C58_simple_consumer_refuted : forall n, stop_times (S n) (Some (Z.of_nat n)) = Crash.
Proof.
  intros n. pose proof (C58_crew_stops_partial n n (le_n n)) as H. unfold stop_times, Nat.iter in *. cbn [nat_rect]. rewrite H.
  cbn [obind scons_stop]. replace (Z.of_nat (n - n) <=? 0) with true by lia. reflexivity.
Qed.
Print Assumptions C58_simple_consumer_refuted.
