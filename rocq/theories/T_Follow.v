(** Properties of partition consumers while leaders and coordinators move (C114, C115), and
    of the commit at the end (C116). *)
From Verif Require Import Base Records Responses Fetch Consumer ConsumerSpec FollowSpec Follow FollowFacts.

(** C114: a consumer whose broker can be reached, in a cluster where the leader can be reached
    and no partition of the topic has an error, wastes at most three rounds (a wrong node, a
    lookup, an old epoch), whatever the order, the version and the ticks between; then every
    fetch is answered with data. *)
Theorem C114_follows_partial : forall topic w pid version leader epoch l c c' q,
  part_is w pid leader epoch -> all_healthy w -> w_alive w leader = true -> leader <> -1 ->
  (forall n, f_leader c = Some n -> w_alive w n = true) -> f_epoch c <= epoch ->
  frun topic pid version (tells topic w) (w_alive w) l c = Ok (c', q) -> Forall (truthful w leader epoch) q ->
  (length (wasted q) <= 3)%nat.
Proof.
  intros topic w pid version leader epoch l c c' q P H A N AL LE R T.
  pose proof (follows topic w pid version leader epoch P H A N l c c' q AL LE R T) as D.
  unfold debt in D. destruct (f_leader c) as [n|]; [destruct (n =? leader)|]; destruct (f_epoch c =? epoch); lia.
Qed.
Print Assumptions C114_follows_partial.
(** and none of it crashes *)
Theorem C114_runs_partial : forall topic w pid version leader epoch l c, part_is w pid leader epoch ->
  exists c' q, frun topic pid version (tells topic w) (w_alive w) l c = Ok (c', q).
Proof. intros. eapply follows_runs. eassumption. Qed.
Print Assumptions C114_runs_partial.
(** a new consumer sends the epoch of the partition *)
Theorem C114_first_partial : forall topic w pid leader epoch, part_is w pid leader epoch -> all_healthy w ->
  finit topic pid (tells topic w) = mkF None epoch.
Proof. intros topic w pid leader epoch P H. unfold finit. rewrite (refresh_ok topic w pid leader epoch 0 P H). reflexivity. Qed.
Print Assumptions C114_first_partial.

(** leader 2, epoch 5 of partition 1; node 3 leads partition 0 *)
Definition p0 (ec : Z) : nopart := (ec, (0, (3, (9, ([], ([], [])))))).
Definition p1 : nopart := (0, (1, (2, (5, ([], ([], [])))))).
Definition w114 : world := mkWorld (fun n => n <=? 3) [p0 0; p1] 2.
Example C114_ex : part_is w114 1 2 5 /\ all_healthy w114 /\
  (exists c, frun [116] 1 10 (tells [116] w114) (w_alive w114) [FRound (Code 6); FRound Data; FRound (Code 74); FRound Data; FTick; FRound Data] (mkF (Some 3) 4) =
    Ok (c, [(AskFetch 3 4, Code 6); (AskLeader, Data); (AskFetch 2 4, Code 74); (AskFetch 2 5, Data); (AskFetch 2 5, Data)])) /\
  may_answer w114 2 5 3 4 (Code 6) /\ may_answer w114 2 5 2 4 (Code 74) /\ may_answer w114 2 5 2 5 Data.
Proof.
  split; [|split; [|split; [|split; [|split]]]].
  - split; [repeat constructor; cbn; intuition discriminate|]. exists 0, ([], ([], [])). cbn. auto.
  - repeat constructor.
  - eexists. vm_compute. reflexivity.
  - left. reflexivity.
  - reflexivity.
  - reflexivity.
Qed.

(** A fetch goes to the node the consumer had, or to one that can be reached and that the
    metadata names as leader of the partition; it carries the epoch the consumer had, or that
    of the partition.  This holds in every cluster, whether healthy or not, and whatever is
    answered. *)
Theorem C114_named : forall topic w pid version l c c' q n e a,
  frun topic pid version (tells topic w) (w_alive w) l c = Ok (c', q) -> In (AskFetch n e, a) q ->
  (f_leader c = Some n \/ (w_alive w n = true /\ exists ec ep rest, In (ec, (pid, (n, (ep, rest)))) (w_parts w))) /\
  (e = sent version c \/ exists ec ld rest, In (ec, (pid, (ld, (e, rest)))) (w_parts w)).
Proof. exact asks_named. Qed.
Print Assumptions C114_named.
(** a consumer whose leader cannot be reached, or has no leader, keeps asking for one; one
    whose partition is gone keeps its epoch *)
Definition w114' : world := mkWorld (fun n => n <=? 3) [(5, (1, (-1, (6, ([], ([], [])))))); (0, (0, (7, (9, ([], ([], []))))))] 2.
Example C114_named_ex :
  (exists q, frun [116] 1 10 (tells [116] w114') (w_alive w114') [FRound (Code 6); FRound Data; FRound Data] (mkF (Some 3) 4) = Ok (mkF None 4, q) /\ length q = 3%nat) /\
  (exists q, frun [116] 0 10 (tells [116] w114') (w_alive w114') [FRound (Code 6); FRound Data; FRound Data] (mkF (Some 3) 4) = Ok (mkF None 4, q)) /\
  (exists q, frun [116] 2 10 (tells [116] w114) (w_alive w114) [FTick; FRound (Code 74); FRound (Code 6); FRound Data] (mkF (Some 3) 4) = Ok (mkF None 4, q)).
Proof. split; [|split]; eexists; (try split); vm_compute; reflexivity. Qed.

(** A consumer that looks for its leader goes on looking, whatever is answered, until the metadata
    names one that can be reached (or has no topic, see below). *)
Theorem C114_looks : forall topic pid meta alive a c, f_leader c = None ->
  (meta = None \/ exists th cl co id bs e t i ps ts, meta = Some (RMetadata th cl co id bs ((e, (t, (i, ps))) :: ts)) /\
     forall ec ld rest, In (ec, (pid, (ld, rest))) ps -> ld = -1 \/ alive ld = false) ->
  fround topic pid meta alive a c = Ok c.
Proof.
  intros topic pid meta alive a c L H. unfold fround. rewrite L.
  assert (E : (exists e, findLeaderIn pid meta = Err e) \/ exists ld, findLeaderIn pid meta = Ok ld /\ (ld = -1 \/ alive ld = false)).
  { destruct H as [-> |(th & cl & co & id & bs & e & t & i & ps & ts & -> & H)]; [left; eexists; reflexivity|]. cbn [findLeaderIn].
    induction ps as [|[ec [p [ld rest]]] ps IH]; cbn [find_leader]; [left; eexists; reflexivity|]. destruct (p =? pid) eqn:P.
    - apply Z.eqb_eq in P. subst p. right. exists ld. split; [reflexivity|]. exact (H ec ld rest (or_introl eq_refl)).
    - apply IH. intros ec' ld' rest' I. exact (H ec' ld' rest' (or_intror I)). }
  destruct E as [[e ->]|[ld [-> [-> |D]]]]; unfold getLeaderBroker; cbn [lt_find lt_conn lt_cached]; [reflexivity..|]. rewrite D.
  destruct (ld =? -1); reflexivity.
Qed.
Print Assumptions C114_looks.
Example C114_looks_ex : fround [116] 0 None (fun _ => true) Data (mkF None 4) = Ok (mkF None 4).
Proof. reflexivity. Qed.

(** C114 is false: when the broker a consumer fetches from is gone, the consumer asks it for
    ever and never looks for the new leader, *)
Theorem C114_gone_refuted : exists w topic pid leader epoch c, part_is w pid leader epoch /\ all_healthy w /\ w_alive w leader = true /\
  f_epoch c <= epoch /\ forall version l c' q,
  frun topic pid version (tells topic w) (w_alive w) l c = Ok (c', q) -> Forall (truthful w leader epoch) q ->
  Forall (fun x => x = (AskFetch 4 (sent version (mkF (Some 4) 5)), NoConn)) q.
Proof.
  exists w114, [116], 1, 2, 5, (mkF (Some 4) 5). split; [exact (proj1 C114_ex)|]. split; [repeat constructor|]. split; [reflexivity|]. split; [cbn; lia|].
  intros version l. assert (G : refreshPartiton [116] 1 (tells [116] w114) 5 = 5) by reflexivity.
  induction l as [|[a|] l IH]; intros c' q R T; cbn [frun] in R.
  - injection R as _ <-. constructor.
  - unfold fround in R. cbn [f_leader] in R.
    assert (K : exists d q1, frun [116] 1 version (tells [116] w114) (w_alive w114) l d = Ok (c', q1) /\ q = (AskFetch 4 (sent version (mkF (Some 4) 5)), a) :: q1 /\ (a = NoConn -> d = mkF (Some 4) 5)).
    { match type of R with rbind ?x _ = _ => destruct x as [d| | |] eqn:X; try discriminate end. cbn [rbind] in R.
      destruct (frun [116] 1 version (tells [116] w114) (w_alive w114) l d) as [[c2 q2]| | |] eqn:R2; try discriminate.
      cbn [rbind] in R. injection R as <- <-. exists d, q2. split; [exact R2|]. split; [reflexivity|]. intros ->. injection X as <-. reflexivity. }
    destruct K as (d & q1 & R1 & -> & K). inversion T as [|? ? T1 T2]; subst. unfold truthful in T1. cbn in T1. subst a.
    rewrite (K eq_refl) in R1. constructor; [reflexivity|]. exact (IH c' q1 R1 T2).
  - cbn [f_leader f_epoch] in R. rewrite G in R. exact (IH c' q R T).
Qed.
Print Assumptions C114_gone_refuted.
(** and as long as another partition of the topic has an error, an old epoch is not
    replaced. *)
Theorem C114_other_refuted : exists w topic pid leader epoch c, part_is w pid leader epoch /\ w_alive w leader = true /\
  f_leader c = Some leader /\ f_epoch c <= epoch /\ forall l c' q,
  frun topic pid 10 (tells topic w) (w_alive w) l c = Ok (c', q) -> Forall (truthful w leader epoch) q ->
  Forall (fun x => x = (AskFetch leader 4, Code 74)) q.
Proof.
  exists (mkWorld (fun n => n <=? 3) [p0 5; p1] 2), [116], 1, 2, 5, (mkF (Some 2) 4).
  split. { split; [repeat constructor; cbn; intuition discriminate|]. exists 0, ([], ([], [])). cbn. auto. }
  split; [reflexivity|]. split; [reflexivity|]. split; [cbn; lia|].
  set (w := mkWorld _ _ _). intros l. assert (G : refreshPartiton [116] 1 (tells [116] w) 4 = 4) by reflexivity.
  induction l as [|[a|] l IH]; intros c' q R T; cbn [frun] in R.
  - injection R as _ <-. constructor.
  - unfold fround in R. cbn [f_leader f_epoch] in R.
    assert (K : exists d q1, frun [116] 1 10 (tells [116] w) (w_alive w) l d = Ok (c', q1) /\ q = (AskFetch 2 4, a) :: q1 /\ (a = Code 74 -> d = mkF (Some 2) 4)).
    { match type of R with rbind ?x _ = _ => destruct x as [d| | |] eqn:X; try discriminate end. cbn [rbind] in R.
      destruct (frun [116] 1 10 (tells [116] w) (w_alive w) l d) as [[c2 q2]| | |] eqn:R2; try discriminate.
      cbn [rbind] in R. injection R as <- <-. exists d, q2. split; [exact R2|]. split; [reflexivity|]. intros ->. rewrite G in X. injection X as <-. reflexivity. }
    destruct K as (d & q1 & R1 & -> & K). inversion T as [|? ? T1 T2]; subst. unfold truthful in T1. cbn in T1. subst a.
    rewrite (K eq_refl) in R1. constructor; [reflexivity|]. exact (IH c' q1 R1 T2).
  - cbn [f_leader f_epoch] in R. rewrite G in R. exact (IH c' q R T).
Qed.
Print Assumptions C114_other_refuted.

(** A response with metadata of no topic at all (which a broker does not send to a request for
    one topic) crashes the consumer that looks for its leader. *)
Theorem C114_empty_refuted : exists meta, response_error meta = Ok None /\ forall topic pid version alive epoch a l,
  frun topic pid version (Some meta) alive (FRound a :: l) (mkF None epoch) = Panic.
Proof. exists (RMetadata 0 0 [] [] 0 []). split; reflexivity. Qed.
Print Assumptions C114_empty_refuted.

(** C115: as long as the coordinator found at the start stays and can be reached, every commit
    of a consumer outside of a group consumer is accepted. *)
Theorem C115_stays_partial : forall coord ws, Forall (fun w => w_alive w coord = true /\ w_coord w = coord) ws ->
  Forall (eq true) (sc_commits coord ws) /\ length (sc_commits coord ws) = length ws.
Proof. intros coord ws H. split; [exact (commits_stay coord ws H)|apply map_length]. Qed.
Print Assumptions C115_stays_partial.
(** C115 is false: once the group has another coordinator no commit is accepted any more, and a
    consumer that starts then asks the old one for ever. *)
Theorem C115_moved_refuted : exists w coord, w_alive w (w_coord w) = true /\ w_alive w coord = true /\
  forall ws topic pid cur, Forall (fun x => fst x = w) ws ->
  Forall (eq false) (sc_commits coord (map fst ws)) /\ sc_lookup topic pid coord ws cur = Running.
Proof.
  exists w114, 3. split; [reflexivity|]. split; [reflexivity|].
  intros ws topic pid cur H. assert (G : Forall (fun x => w_coord (fst x) <> 3) ws) by (eapply Forall_impl; [|exact H]; cbn; intros x ->; discriminate).
  split; [|exact (lookup_moved topic pid 3 cur ws G)].
  apply commits_moved. induction G; inversion H; constructor; auto.
Qed.
Print Assumptions C115_moved_refuted.
Definition moved115 : list (world * response) := repeat (w114, ROffsetFetch 1 [([116], [(1, (42, ([], 0)))])]) 5.
Example C115_ex : sc_commits 2 (map fst moved115) = [true; true; true; true; true] /\ sc_commits 3 (map fst moved115) = [false; false; false; false; false] /\
  sc_lookup [116] 1 2 moved115 (-1) = Done 42 /\ sc_lookup [116] 1 3 moved115 (-1) = Running /\ w_alive w114 2 = true /\ w_coord w114 = 2.
Proof. vm_compute. auto 10. Qed.

(** C116: a commit that is called when the loop is between two answers, or at its end, and
    succeeds, covers all messages handed out; or nothing is sent because the position was
    committed before (or is 0). *)
Theorem C116_last_partial : forall c start from mx ops s t, k_group c = true -> crun c (cinit start from mx) ops = Ok (s, t) ->
  (forall m, In m (msgs t) -> i64 (m_offset m + 1)) -> c_pend s = None -> c_fly s = [] -> 0 <= position start t ->
  exists s' t', crun c s [OCommit; OBuild 0; OSent 0 true true] = Ok (s', t') /\
    (t' = [TCommit (position start t) true] \/
     (t' = [] /\ position start t = c_com s /\ (k_belongs c = true -> position start t = 0 \/ In (TCommit (position start t) true) t))).
Proof. exact last_commit. Qed.
Print Assumptions C116_last_partial.
Definition cfg116 : ccfg := mkCC [116] 3 true true 1.
Definition m116 (o : Z) : Message := mkMsg o 2 0 1000 (Some [107]) (Some [118]) [].
Definition evs116 : list event := [EvMsg [116] 3 (m116 7); EvMsg [116] 3 (m116 8)].
Example C116_ex : exists s, crun cfg116 (cinit 7 false 1000)
  [OFetch (Ok evs116); ONext (Err ETimeout) []; OAdvance; ONext (Err ETimeout) []; OAdvance; OCancel; OAbort; OStop; OFetch (Ok []); OCommit; OSent 0 true true] =
  Ok (s, [TFetch 7 1000; TMsg [116] 3 (m116 7); TMsg [116] 3 (m116 8); TCommit 9 true]).
Proof. eexists. vm_compute. reflexivity. Qed.
(** C116 is false: the automatic commit is made when the context is done, which is before the
    loop has ended (simple_consumer.go:279-283, 387-389); what the loop hands out meanwhile is
    not covered, although the commit succeeds and Stop returns afterwards. *)
Theorem C116_early_refuted : exists c start ops1 ops2 s t,
  k_group c = true /\ ~ In OCommit ops1 /\ ~ In OCommit ops2 /\ ~ In OCancel ops1 /\
  crun c (cinit start false 1000) (ops1 ++ [OCancel; OCommit; OSent 0 true true] ++ ops2 ++ [OStop; OFetch (Ok [])]) = Ok (s, t) /\
  c_live s = false /\ exists v, commits t = [v] /\ Exists (fun m => v <= m_offset m) (msgs t).
Proof.
  exists cfg116, 7, [OFetch (Ok evs116); ONext (Err ETimeout) []; OAdvance], [ONext (Err ETimeout) []; OAdvance; OAbort].
  eexists; eexists. split; [reflexivity|]. split; [cbn; intuition discriminate|]. split; [cbn; intuition discriminate|]. split; [cbn; intuition discriminate|].
  split; [vm_compute; reflexivity|]. split; [reflexivity|]. exists 8. split; [reflexivity|].
  apply Exists_cons_tl, Exists_cons_hd. cbn. lia.
Qed.
Print Assumptions C116_early_refuted.
