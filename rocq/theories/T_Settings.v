(** C117 to C120: struct tags, connections, API names and intervals follow what was asked. *)
From Coq Require Import String Ascii.
From Verif Require Import Base BaseFacts Text SettingsSpec Settings SettingsFacts Conn Config.

(** ** C117 *)
(** The version of a tag is the version of the field; a field without a tag, and a name that
    is no field, have version 0. *)
Theorem C117_tags : forall fields name, NoDup (map fst fields) ->
  (forall n, 0 <= n < 65536 -> In (name, txt "minVersion:" ++ decimal n) fields -> tget name (healerTags fields) = n) /\
  (In (name, []) fields \/ ~ In name (map fst fields) -> tget name (healerTags fields) = 0).
Proof.
  intros fields name D. destruct (tags_ok fields name D) as [A B]. split; [|exact B]. intros n H I. rewrite (A n) by (exact I || (unfold i64; lia)).
  apply Z.mod_small. exact H.
Qed.
Print Assumptions C117_tags.
(** versions are 16 bit numbers: others are taken modulo 2^16, also negative ones *)
Theorem C117_wraps : forall fields name n, NoDup (map fst fields) -> i64 n ->
  In (name, txt "minVersion:" ++ decimal n) fields -> tget name (healerTags fields) = n mod 2 ^ 16.
Proof. intros fields name n D H I. destruct (tags_ok fields name D) as [A _]. exact (A n H I). Qed.
Print Assumptions C117_wraps.
Example C117_wraps_ex : tget (txt "A") (healerTags [(txt "A", txt "minVersion:65540")]) = 4 /\ tget (txt "A") (healerTags [(txt "A", txt "minVersion:-1")]) = 65535.
Proof. vm_compute. auto. Qed.
Example C117_ex : healerTags [(txt "A", []); (txt "B", txt "minVersion:12"); (txt "C", txt "maxVersion:3"); (txt "D", txt "minVersion:x")] = [(txt "B", 12)] /\
  decimal 12 = txt "12".
Proof. vm_compute. auto. Qed.
(** The fields of ListGroups and most of Produce are present from the version Kafka names. *)
Theorem C117_present_partial : forall f v, f <> VTransactionalId -> f <> VLogAppendTime -> present f v = (first_version f <=? v).
Proof. exact present_ok. Qed.
Print Assumptions C117_present_partial.
Example C117_ex_present : map (present VGroupType) [3; 4; 5; 6] = [false; false; true; true] /\ map (present VGroupState) [3; 4; 5; 6] = [false; true; true; true].
Proof. vm_compute. auto. Qed.
(** C117 is false: the transactional id of a produce request, and the append time of a produce
    response, ask for the version of a name that is no field.  They are present in every
    version, also in version 0, which is used with brokers that do not know version 9. *)
Theorem C117_key_refuted :
  (exists v, getHighestAvailableAPIVersion [(0, 0, 2)] 0 = v /\ v < first_version VTransactionalId /\ present VTransactionalId v = true) /\
  (exists v, getHighestAvailableAPIVersion [(0, 0, 2)] 0 = v /\ v < first_version VLogAppendTime /\ present VLogAppendTime v = true).
Proof. split; exists 0; (split; [reflexivity|]); split; reflexivity. Qed.
Print Assumptions C117_key_refuted.

(** ** C118 *)
Definition whose (o : owner) (c : userconf) : Prop := o = ForConsumer c \/ o = ForProducer c.
(** Without TLS a connection has the times of the settings. *)
Theorem C118_plain_partial : forall d o c address, whose o c -> u_on c = false ->
  - 9223372036854 <= n_connect (u_net c) <= 9223372036854 -> - 9223372036854 <= n_keepalive (u_net c) <= 9223372036854 ->
  connect d o address = Ok (mkD (n_connect (u_net c) * 1000000) (n_keepalive (u_net c) * 1000000) None).
Proof. intros d o c address [-> | ->] H A B; unfold connect, conf_of, newConn; cbn; rewrite H, !millis_ok by assumption; reflexivity. Qed.
Print Assumptions C118_plain_partial.
(** With TLS a connection shows the certificate named, trusts the certificates of the file
    named and no others, checks the broker unless told not to, and checks the name given, else
    the host; if one of the files is not named or not readable there is an error, and never a
    connection without TLS. *)
Theorem C118_tls_partial : forall d o c host port, whose o c -> u_on c = true -> ~ In 58 port ->
  - 9223372036854 <= n_connect (u_net c) <= 9223372036854 -> - 9223372036854 <= n_keepalive (u_net c) <= 9223372036854 ->
  (exists t pem, u_tls c = Some t /\ t_cert t <> [] /\ t_key t <> [] /\ t_ca t <> [] /\ pair_ok d (t_cert t) (t_key t) = true /\ file d (t_ca t) = Some pem /\
     connect d o (host ++ 58 :: port) = Ok (mkD (n_connect (u_net c) * 1000000) (n_keepalive (u_net c) * 1000000)
       (Some (t_cert t, t_key t, certs_in d pem, t_skip t, match t_name t with [] => host | n => n end)))) \/
  ((forall t, u_tls c = Some t -> t_cert t = [] \/ t_key t = [] \/ t_ca t = [] \/ pair_ok d (t_cert t) (t_key t) = false \/ file d (t_ca t) = None) /\
   exists e, connect d o (host ++ 58 :: port) = Err e).
Proof.
  intros d o c host port W H P A B.
  assert (E : connect d o (host ++ 58 :: port) = newConn d (host ++ 58 :: port) (getBrokerConfigFromConsumerConfig c)) by (destruct W as [-> | ->]; reflexivity).
  rewrite E. unfold newConn. cbn [getBrokerConfigFromConsumerConfig b_on b_tls b_net]. rewrite H, !millis_ok by assumption.
  destruct (u_tls c) as [t|]; [|right; split; [discriminate|eexists; reflexivity]].
  destruct (beqb (t_cert t) []) eqn:E1; [right; apply beqb_true in E1; split; [intros t' T; injection T as <-; auto|eexists; reflexivity]|].
  destruct (beqb (t_key t) []) eqn:E2; [right; apply beqb_true in E2; split; [intros t' T; injection T as <-; auto|eexists; reflexivity]|].
  destruct (beqb (t_ca t) []) eqn:E3; [right; apply beqb_true in E3; split; [intros t' T; injection T as <-; auto|eexists; reflexivity]|].
  cbn [orb]. unfold createTLSConfig.
  destruct (pair_ok d (t_cert t) (t_key t)) eqn:E4; [|right; split; [intros t' T; injection T as <-; auto 6|eexists; reflexivity]].
  destruct (file d (t_ca t)) as [pem|] eqn:E5; [|right; split; [intros t' T; injection T as <-; auto 6|eexists; reflexivity]].
  left. exists t, pem. apply beqb_false in E1, E2, E3. do 6 (split; [first [assumption|reflexivity]|]).
  unfold host_of. rewrite before_last_spec by exact P. cbn [rbind]. destruct (t_name t); reflexivity.
Qed.
Print Assumptions C118_tls_partial.
(** Every connection is logged in with the mechanism, user and password of the settings. *)
Theorem C118_login : forall o c, whose o c ->
  (s_mechanism (u_sasl c) <> [] -> login o = Some (s_mechanism (u_sasl c), s_user (u_sasl c), s_password (u_sasl c))) /\
  (s_mechanism (u_sasl c) = [] -> login o = None).
Proof.
  intros o c [-> | ->]; unfold login; cbn; (split; [intro H; destruct (beqb _ _) eqn:B; [apply beqb_true in B; contradiction|reflexivity]|intros ->; reflexivity]).
Qed.
Print Assumptions C118_login.
(** The time between refreshes of the metadata is that of the settings, else five minutes. *)
Theorem C118_refresh : forall o c, whose o c ->
  b_refresh (conf_of o) = Z.max (u_refresh c) 0 + (if u_refresh c <=? 0 then 300000 else 0).
Proof. intros o c [-> | ->]; cbn; destruct (0 <? u_refresh c) eqn:A; destruct (u_refresh c <=? 0) eqn:B; lia. Qed.
Print Assumptions C118_refresh.
(** A Client has no settings. *)
Theorem C118_client : forall d address, connect d ForClient address = Ok (mkD 10000000000 7200000000000 None).
Proof. reflexivity. Qed.
Print Assumptions C118_client.
Definition disk118 : disk := mkDisk (fun c k => beqb c (txt "c.pem") && beqb k (txt "k.pem"))
  (fun f => if beqb f (txt "ca.pem") then Some (txt "X") else if beqb f (txt "empty") then Some [] else None) (fun b => map (fun x => [x]) b).
Definition conf118 (ca name : string) : userconf :=
  mkU (mkNet 30000 30000 [] 7200000) (mkSasl [] [] []) 0 true (Some (mkTls (txt "c.pem") (txt "k.pem") (txt ca) false (txt name))) (txt "h:9092").
Example C118_ex :
  connect disk118 (ForProducer (conf118 "ca.pem" "")) (txt "h:9092") = Ok (mkD 30000000000 7200000000000 (Some (txt "c.pem", txt "k.pem", [[88]], false, txt "h"))) /\
  connect disk118 (ForConsumer (conf118 "ca.pem" "n")) (txt "h:9092") = Ok (mkD 30000000000 7200000000000 (Some (txt "c.pem", txt "k.pem", [[88]], false, txt "n"))) /\
  connect disk118 (ForConsumer (conf118 "no" "n")) (txt "h:9092") = Err EConn /\
  login (ForProducer (mkU (mkNet 1 1 [] 1) (mkSasl [112] [117] [119]) 7 false None [])) = Some ([112], [117], [119]).
Proof. vm_compute. auto. Qed.
(** C118 is false: a file without a certificate in it is not reported; the connection trusts
    nobody. *)
Theorem C118_ca_refuted : exists d c address t pem x, u_on c = true /\ u_tls c = Some t /\ file d (t_ca t) = Some pem /\ certs_in d pem = [] /\
  connect d (ForConsumer c) address = Ok x /\ d_tls x = Some (t_cert t, t_key t, [], false, txt "h").
Proof. exists disk118, (conf118 "empty" ""), (txt "h:9092"). do 3 eexists. split; [reflexivity|]. split; [reflexivity|]. split; [vm_compute; reflexivity|].
  split; [reflexivity|]. split; [vm_compute; reflexivity|reflexivity]. Qed.
Print Assumptions C118_ca_refuted.

(** ** C119 *)
(** The names of APIs are Kafka's, except those of the quorum; names tell APIs apart, and other
    numbers have none. *)
Theorem C119_names_partial : forall k n, In (k, n) kafka_apis -> quorum_api k = false -> api_string k = txt n.
Proof. exact names_ok. Qed.
Print Assumptions C119_names_partial.
Theorem C119_distinct : forall k k', api_string k = api_string k' -> api_string k <> txt "Unknown" -> k = k'.
Proof. exact distinct_ok. Qed.
Print Assumptions C119_distinct.
Theorem C119_others : forall k, (forall n, ~ In (k, n) kafka_apis) -> api_string k = txt "Unknown".
Proof. exact unknown_ok. Qed.
Print Assumptions C119_others.
(** The list logged for a broker has every announced range once, in order. *)
Theorem C119_list : forall l, versions_text 0 (length l) l =
  join 44 (map (fun v : Z * Z * Z => api_string (fst (fst v)) ++ 58 :: decimal (snd (fst v)) ++ 45 :: decimal (snd v)) l).
Proof. intro l. rewrite (versions_text_join l) by reflexivity. f_equal. apply map_ext. intros [[k lo] hi]. reflexivity. Qed.
Print Assumptions C119_list.
Example C119_ex : versions_text 0 2 [(18, 0, 3); (12, 1, 4)] = txt "ApiVersions:0-3,Heartbeat:1-4" /\ api_string 68 = txt "Unknown".
Proof. vm_compute. auto. Qed.
(** C119 is false: DescribeQuorum has no name. *)
Theorem C119_quorum_refuted : exists k n, In (k, n) kafka_apis /\ api_string k = txt "Unknown" /\ txt "Unknown" <> txt n.
Proof. exists 55, "DescribeQuorum"%string. split; [vm_compute; repeat (first [left; reflexivity|right])|]. split; [reflexivity|discriminate]. Qed.
Print Assumptions C119_quorum_refuted.

(** ** C120 *)
(** Intervals up to 292 years are those of the settings, and heartbeats are sent ten times in
    the time of a session. *)
Theorem C120_intervals_partial : forall c,
  (0 < i_flush c <= 9223372036854 -> flush_ticker c = Ok (i_flush c * 1000000)) /\
  (0 < i_age c <= 9223372036854 -> meta_ticker c = Ok (i_age c * 1000000)) /\
  (0 < i_session c < 2 ^ 31 -> exists ns, heartbeat_ticker c = Ok ns /\ 0 < ns /\ 10 * ns = i_session c * 1000000) /\
  (i_auto c = true -> i_group c <> [] -> 0 < i_commit c <= 9223372036854 -> commit_ticker c = Ok (Some (i_commit c * 1000000))) /\
  (i_auto c = false \/ i_group c = [] -> commit_ticker c = Ok None).
Proof.
  intro c. split; [exact (newTicker_ok _)|]. split; [exact (newTicker_ok _)|]. split.
  { intro H. exists (i_session c * 100000). split; [apply heartbeat_ok; exact H|lia]. }
  unfold commit_ticker. split.
  - intros A G H. rewrite A. destruct (beqb (i_group c) []) eqn:B; [apply beqb_true in B; contradiction|]. cbn [negb andb]. rewrite newTicker_ok by exact H. reflexivity.
  - intros [-> | ->]; [reflexivity|]. rewrite beqb_refl, andb_false_r. reflexivity.
Qed.
Print Assumptions C120_intervals_partial.
(** A producer that was accepted and flushes at least every 292 years does. *)
Theorem C120_accepted_partial : forall p c, producer_checkValid p = None -> i_flush c = pc_flush p -> pc_flush p <= 9223372036854 ->
  flush_ticker c = Ok (pc_flush p * 1000000).
Proof.
  intros p c V E H. rewrite <- E. apply C120_intervals_partial. rewrite E. split; [|exact H].
  unfold producer_checkValid in V. destruct (pc_boot p); [discriminate|]. destruct (pc_count p <=? 0); [discriminate|].
  destruct (pc_flush p <=? 0) eqn:F; [discriminate|]. apply Z.leb_gt in F. exact F.
Qed.
Print Assumptions C120_accepted_partial.
(** The defaults (config.go:105-133, 225-251). *)
Definition default_intervals : intervals := mkI (pc_flush default_pconf) 300000 30000 5000 true (txt "g").
Theorem C120_defaults : flush_ticker default_intervals = Ok 200000000 /\ meta_ticker default_intervals = Ok 300000000000 /\
  heartbeat_ticker default_intervals = Ok 3000000000 /\ commit_ticker default_intervals = Ok (Some 5000000000).
Proof. vm_compute. auto. Qed.
Print Assumptions C120_defaults.
Example C120_ex : heartbeat_ticker (mkI 1 1 5 1 false []) = Ok 500000 /\ commit_ticker (mkI 1 1 5 1 true []) = Ok None.
Proof. vm_compute. auto. Qed.
(** C120 is false: no check looks at the other intervals, and the check of the first has no
    upper bound.  A program with one of them 0, or below, or too long, crashes. *)
Theorem C120_zero_refuted : forall c, (i_age c <= 0 <= i_age c + 9223372036854 -> meta_ticker c = Panic) /\
  (- 2 ^ 31 <= i_session c <= 0 -> heartbeat_ticker c = Panic) /\
  (i_commit c <= 0 <= i_commit c + 9223372036854 -> i_auto c = true -> i_group c <> [] -> commit_ticker c = Panic).
Proof.
  assert (T : forall x, x <= 0 <= x + 9223372036854 -> newTicker (millis x) = Panic).
  { intros x H. rewrite millis_ok by lia. unfold newTicker. replace (0 <? x * 1000000) with false by (symmetry; apply Z.ltb_ge; lia). reflexivity. }
  intro c. split; [apply T|]. split.
  - intro H. unfold heartbeat_ticker. rewrite millis_ok by lia. replace (i_session c * 1000000) with (i_session c * 100000 * 10) by lia. rewrite Z.quot_mul by lia.
    unfold newTicker. replace (0 <? i_session c * 100000) with false by (symmetry; apply Z.ltb_ge; lia). reflexivity.
  - intros H A G. unfold commit_ticker. rewrite A. destruct (beqb (i_group c) []) eqn:B; [apply beqb_true in B; contradiction|]. cbn [negb andb]. rewrite T by exact H. reflexivity.
Qed.
Print Assumptions C120_zero_refuted.
Theorem C120_long_refuted : exists p c, producer_checkValid p = None /\ i_flush c = pc_flush p /\ flush_ticker c = Panic.
Proof. exists (mkPC [98] 1024 9223372036855 c_none 2), (mkI 9223372036855 1 1 1 false []). split; [reflexivity|]. split; [reflexivity|]. vm_compute. reflexivity. Qed.
Print Assumptions C120_long_refuted.
