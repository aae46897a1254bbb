(** C157: topics with a partition in trouble.  C158: the partition of a key. *)
From Verif Require Import Base BaseFacts Brokers Owners T_Owners Responses Producer ProducerSpec ProducerFacts ProducerMulti ProducerRefute TroubleSpec TroubleFacts.

(** *** C157 *)
(** C157 is false: the error of one partition is the error of the whole metadata response; *)
Theorem C157_metadata_refuted : forall corr throttle bs cluster ctl ts t p,
  In t ts -> In p (snd (snd (snd t))) -> fst p <> 0 ->
  exists c, response_error (RMetadata corr throttle bs cluster ctl ts) = Ok (Some (EWrap (EKafka c))) /\ c <> 0.
Proof.
  intros corr throttle bs cluster ctl ts t p Ht Hp Hc.
  destruct (first_wrapped_some (flat_map (fun t => fst t :: map fst (snd (snd (snd t)))) ts) (fst p)) as (c & E & Hn & _); [|exact Hc|].
  - apply in_flat_map. exists t. split; [exact Ht|]. right. apply in_map. exact Hp.
  - exists c. split; [|exact Hn]. cbn [response_error]. rewrite E. reflexivity.
Qed.
Print Assumptions C157_metadata_refuted.
(** as long as it lasts, no producer of the topic is made or follows the leader of another
    partition, and NewProducer (producer.go:58-65) does not return, with an error or without: *)
Theorem C157_producer_refuted : forall W dial exch ord boot topic, troubled exch ->
  forall ns p, exists s, updates W dial exch ord boot topic p ns = (mkProd W s (p_cur W p) (p_old W p), 0%nat).
Proof. intros W dial exch ord boot topic T. exact (updates_troubled W dial exch ord T boot topic). Qed.
Print Assumptions C157_producer_refuted.
(** no offset of any partition of the topic is found. *)
Theorem C157_offsets_refuted : forall W dial exch ord s t pid time num, troubled exch ->
  exists e, snd (RequestOffsets W dial exch ord s t pid time num) = Err (EWrap e).
Proof. intros W dial exch ord s t pid time num T. exact (offsets_troubled W dial exch ord T s t pid time num). Qed.
Print Assumptions C157_offsets_refuted.
(** What holds: without errors in it a metadata response is not refused, *)
Theorem C157_clean_partial : forall corr throttle bs cluster ctl ts,
  Forall (fun t => fst t = 0 /\ Forall (fun p => fst p = 0) (snd (snd (snd t)))) ts ->
  response_error (RMetadata corr throttle bs cluster ctl ts) = Ok None.
Proof.
  intros corr throttle bs cluster ctl ts H. cbn [response_error]. rewrite first_wrapped_none; [reflexivity|].
  apply Forall_forall. intros c Hc. apply in_flat_map in Hc. destruct Hc as (t & Ht & Hc). rewrite Forall_forall in H.
  destruct (H t Ht) as [H0 H1]. destruct Hc as [<-|Hc]; [exact H0|]. apply in_map_iff in Hc. destruct Hc as (p & <- & Hp).
  rewrite Forall_forall in H1. exact (H1 p Hp).
Qed.
Print Assumptions C157_clean_partial.
(** and the leader of a partition, which partition consumers and simple producers look up, is
    found in the response that carries the error of another one. *)
Theorem C157_leader_partial : forall W dial exch ord s t pid s' m e l ps ts,
  RequestMetaData W dial exch ord s [t] = (s', (m, e)) ->
  (match e with Some e => kafka_err e = true | None => True end) ->
  m_topics m = (t, ps) :: ts -> find_pid pid ps = Some l -> findLeader W dial exch ord s t pid = (s', Ok l).
Proof. exact leader_anyway. Qed.
Print Assumptions C157_leader_partial.
(** Broker 1 leads partition 0; partition 1 has no leader (5). *)
Definition half_exch (w : unit) (h : handle) (q : req) : unit * (err + resp * option err) :=
  (tt, match q with
       | QMeta [] => inr (RMeta (mkMeta [(1, [97])] 1 []), None)
       | QMeta _ => inr (RMeta (mkMeta [(1, [97])] 1 [([116], [(0, (1, [1])); (1, (-1, [1]))])]), Some (EWrap (EKafka 5)))
       | _ => inl ENoBroker
       end).
Example C157_ex : troubled half_exch /\ exists s p, NewBrokers unit one_dial half_exch tt one_boot = (s, None) /\
  snd (findLeader unit one_dial half_exch one_ord s [116] 0) = Ok 1 /\
  snd (RequestOffsets unit one_dial half_exch one_ord s [116] 0 (-1) 1) = Err (EWrap (EWrap (EKafka 5))) /\
  updates unit one_dial half_exch one_ord one_boot [116] (mkProd unit s None []) [0; 1; 0; 1]%nat = (p, 0%nat) /\ p_cur unit p = None.
Proof.
  split; [intros w h ts N; destruct ts; [contradiction|exact Logic.I]|].
  do 2 eexists. split; [vm_compute; reflexivity|]. repeat (split; [vm_compute; reflexivity|]). reflexivity.
Qed.

(** *** C158 *)
(** C158 is false: the hash starts with seed 0, Kafka's with 0x9747b28c.  For every number of
    partitions (up to 1000, of two or more) there is a key such that, after every history, a
    message with this key goes elsewhere. *)
Theorem C158_elsewhere_refuted : forall n, 2 <= n <= 1000 -> exists key, bytes_ok key /\
  forall zip g h meta pid leader es m r v r1 r2 r3 m' e t,
  zlen meta = n -> mrun zip g (new_mp h meta pid leader) es = Ok m ->
  Forall (meta_count n) (es ++ round_evs r1 ++ round_evs r2 ++ round_evs r3) ->
  Forall no_mwrite (round_evs r1 ++ round_evs r2 ++ round_evs r3) -> buf (m_heap m) r = key ->
  addMessage zip g m (Some r) v r1 r2 r3 = Ok (m', e, Some t) -> k_part t <> kafka_partition key n.
Proof.
  intros n Hn. destruct (keys_apart n Hn) as (key & Hk & Hd). exists key. split; [exact Hk|].
  intros zip g h meta pid leader es m r v r1 r2 r3 m' e t Hm Hr Hc Hw Hb Ha.
  destruct (key_partition zip g n h meta pid leader es m r key v r1 r2 r3 m' e t Hm ltac:(lia) Hr Hc Hw Hk Hb Ha) as [-> _]. exact Hd.
Qed.
Print Assumptions C158_elsewhere_refuted.
(** What holds: with one partition there is no choice. *)
Theorem C158_one_partial : forall key, murmur_spec key mod 1 = kafka_partition key 1.
Proof. intros key. unfold kafka_partition. rewrite !Z.mod_1_r. reflexivity. Qed.
Print Assumptions C158_one_partial.
(** the vectors of Kafka's tests; and where "k1" goes with three partitions *)
Example C158_ex : map (fun k => sint 32 (murmur_spec_seed 0x9747b28c k)) [[50; 49]; [97; 98; 99]; [102; 111; 111; 98; 97; 114]] = [-973932308; 479470107; -790332482] /\
  murmur_spec [107; 49] mod 3 = 0 /\ kafka_partition [107; 49] 3 = 2.
Proof. repeat split. Qed.
