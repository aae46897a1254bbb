(** Facts about consumers while leaders and coordinators move. *)
From Verif Require Import Base BaseFacts Wire RecordSpec Records RecordFacts Responses Fetch FetchSpec FetchFacts FetchKeep DeliverFacts FetchShort FetchRefute Consumer ConsumerSpec ConsumerFacts FollowSpec Follow.

(** the answers are those of the cluster *)
Definition truthful (w : world) (leader epoch : Z) (x : fask * fanswer) : Prop :=
  match fst x with AskFetch n e => may_answer w leader epoch n e (snd x) | AskLeader => True end.
(** rounds that brought no data *)
Definition wasted (l : list (fask * fanswer)) : list (fask * fanswer) :=
  filter (fun x => match x with (AskFetch _ _, Data) => false | _ => true end) l.

Lemma find_epoch_ok w pid leader epoch : part_is w pid leader epoch -> find_epoch pid (w_parts w) = Some epoch.
Proof.
  intros (N & ec & rest & H). induction (w_parts w) as [|[ec' [p [l [e r]]]] ps IH]; [destruct H|].
  cbn in N. inversion N; subst. cbn [find_epoch]. destruct H as [H|H].
  - injection H as -> -> -> -> ->. rewrite Z.eqb_refl. reflexivity.
  - destruct (p =? pid) eqn:E; [|auto]. apply Z.eqb_eq in E. subst. exfalso. apply H2.
    change pid with ((fun p => fst (snd p)) (ec, (pid, (leader, (epoch, rest))))). apply in_map. exact H.
Qed.
Lemma find_leader_ok w pid leader epoch : part_is w pid leader epoch -> find_leader pid (w_parts w) = Ok leader.
Proof.
  intros (N & ec & rest & H). induction (w_parts w) as [|[ec' [p [l [e r]]]] ps IH]; [destruct H|].
  cbn in N. inversion N; subst. cbn [find_leader]. destruct H as [H|H].
  - injection H as -> -> -> -> ->. rewrite Z.eqb_refl. reflexivity.
  - destruct (p =? pid) eqn:E; [|auto]. apply Z.eqb_eq in E. subst. exfalso. apply H2.
    change pid with ((fun p => fst (snd p)) (ec, (pid, (leader, (epoch, rest))))). apply in_map. exact H.
Qed.
Lemma no_code (ps : list nopart) : Forall (fun p => fst p = 0) ps -> find (fun c => negb (c =? 0)) (map fst ps) = None.
Proof. induction 1 as [|p ps H _ IH]; [reflexivity|]. cbn. rewrite H. exact IH. Qed.
Lemma healthy_no_error topic w : all_healthy w -> with_error (RMetadata 0 0 [] [] 0 [(0, (topic, (false, w_parts w)))]) = None.
Proof.
  intros H. unfold with_error, response_error. cbn [flat_map map fst snd app].
  rewrite app_nil_r. unfold first_wrapped. cbn [find]. cbn [Z.eqb negb]. rewrite no_code by exact H. reflexivity.
Qed.
Lemma refresh_ok topic w pid leader epoch cur : part_is w pid leader epoch -> all_healthy w ->
  refreshPartiton topic pid (tells topic w) cur = epoch.
Proof.
  intros P H. unfold refreshPartiton, tells. rewrite healthy_no_error by exact H. cbn [find_topic_epoch].
  rewrite beqb_refl, (find_epoch_ok _ _ _ _ P). reflexivity.
Qed.
Lemma lookup_ok topic w pid leader epoch : part_is w pid leader epoch -> findLeaderIn pid (tells topic w) = Ok leader.
Proof. intros P. cbn. exact (find_leader_ok _ _ _ _ P). Qed.

(** how many rounds are still wasted at most *)
Definition debt (leader epoch : Z) (c : fol) : nat :=
  Nat.add (match f_leader c with None => 1%nat | Some n => if n =? leader then 0%nat else 2%nat end) (if f_epoch c =? epoch then 0%nat else 1%nat).

Lemma follows topic w pid version leader epoch : part_is w pid leader epoch -> all_healthy w ->
  w_alive w leader = true -> leader <> -1 -> forall l c c' q,
  (forall n, f_leader c = Some n -> w_alive w n = true) -> f_epoch c <= epoch ->
  frun topic pid version (tells topic w) (w_alive w) l c = Ok (c', q) -> Forall (truthful w leader epoch) q ->
  (length (wasted q) <= debt leader epoch c)%nat.
Proof.
  intros P H A N1. induction l as [|[a|] l IH]; intros c c' q AL LE R T; cbn [frun] in R.
  - injection R as _ <-. cbn. lia.
  - unfold fround in R. destruct (f_leader c) as [n|] eqn:F.
    + pose proof (AL n eq_refl) as An.
      assert (K : exists c1 q1, frun topic pid version (tells topic w) (w_alive w) l c1 = Ok (c', q1) /\ q = (AskFetch n (sent version c), a) :: q1 /\
        match a with Code 6 => c1 = mkF None (f_epoch c) | Code 74 => c1 = mkF (Some n) epoch | _ => c1 = c end).
      { assert (G : forall d, rbind (frun topic pid version (tells topic w) (w_alive w) l d) (fun '(c'', q) => Ok (c'', (ask_of version c, a) :: q)) = Ok (c', q) ->
          exists q1, frun topic pid version (tells topic w) (w_alive w) l d = Ok (c', q1) /\ q = (AskFetch n (sent version c), a) :: q1).
        { intros d X. destruct (frun topic pid version (tells topic w) (w_alive w) l d) as [[c2 q2]| | |]; try discriminate.
          cbn [rbind] in X. injection X as <- <-. exists q2. unfold ask_of. rewrite F. auto. }
        destruct a as [|k|].
        - destruct (G _ R) as (q1 & X & Y). exists c, q1. auto.
        - destruct (Z.eq_dec k 6) as [->|N6]; [|destruct (Z.eq_dec k 74) as [->|N74]].
          + destruct (G _ R) as (q1 & X & Y). exists (mkF None (f_epoch c)), q1. auto.
          + rewrite (refresh_ok topic w pid leader epoch _ P H) in R. destruct (G _ R) as (q1 & X & Y). exists (mkF (Some n) epoch), q1. auto.
          + assert (E : (match k with 6 => Ok (mkF None (f_epoch c)) | 74 => Ok (mkF (Some n) (refreshPartiton topic pid (tells topic w) (f_epoch c))) | _ => Ok c end) = Ok c)
              by (destruct k as [|k|k]; try reflexivity; repeat (destruct k as [k|k|]; try reflexivity; try lia)).
            rewrite E in R. destruct (G _ R) as (q1 & X & Y). exists c, q1. split; [exact X|]. split; [exact Y|].
            destruct k as [|k|k]; try reflexivity; repeat (destruct k as [k|k|]; try reflexivity; try lia).
        - destruct (G _ R) as (q1 & X & Y). exists c, q1. auto. }
      destruct K as (c1 & q1 & R1 & -> & K). inversion T as [|? ? T1 T2]; subst. cbn [truthful fst snd] in T1.
      unfold truthful in T1. cbn [fst snd] in T1. unfold may_answer in T1. rewrite An in T1.
      destruct (n =? leader) eqn:En.
      * destruct ((sent version c =? -1) || (sent version c =? epoch)) eqn:Es.
        { subst a. subst c1. cbn [wasted filter]. change (filter _ q1) with (wasted q1).
          refine (IH c c' q1 _ LE R1 T2). intros m Hm. rewrite F in Hm. injection Hm as <-. exact An. }
        apply orb_false_iff in Es as [Es1 Es2]. unfold sent in *. destruct (10 <=? version) eqn:Ev; [|discriminate].
        apply Z.eqb_neq in Es2. assert (f_epoch c <? epoch = true) by (apply Z.ltb_lt; lia). rewrite H0 in T1. subst a. subst c1.
        assert (G : (length (wasted q1) <= debt leader epoch (mkF (Some n) epoch))%nat).
        { refine (IH _ c' q1 _ _ R1 T2); cbn; [intros m E; injection E as <-; exact An|lia]. }
        unfold debt in *. rewrite F. cbn [f_leader f_epoch] in G. rewrite En, Z.eqb_refl in G. rewrite En.
        apply Z.eqb_neq in Es2. rewrite Es2. cbn [wasted filter length]. change (filter _ q1) with (wasted q1). lia.
      * destruct T1 as [->|(-> & S1 & S2)].
        { subst c1. assert (G : (length (wasted q1) <= debt leader epoch (mkF None (f_epoch c)))%nat).
          { refine (IH _ c' q1 _ _ R1 T2); cbn; [discriminate|exact LE]. }
          unfold debt in *. rewrite F, En. cbn [f_leader f_epoch] in G. cbn [wasted filter length]. change (filter _ q1) with (wasted q1). lia. }
        { subst c1. unfold sent in *. destruct (10 <=? version) eqn:Ev; [|lia].
          assert (G : (length (wasted q1) <= debt leader epoch (mkF (Some n) epoch))%nat).
          { refine (IH _ c' q1 _ _ R1 T2); cbn; [intros m E; injection E as <-; exact An|lia]. }
          unfold debt in *. rewrite F, En. cbn [f_leader f_epoch] in G. rewrite En, Z.eqb_refl in G.
          assert (E : f_epoch c =? epoch = false) by (apply Z.eqb_neq; lia). rewrite E. cbn [wasted filter length]. change (filter _ q1) with (wasted q1). lia. }
    + rewrite (lookup_ok topic w pid leader epoch P) in R. unfold getLeaderBroker in R. cbn [lt_find lt_conn lt_cached] in R.
      apply Z.eqb_neq in N1. rewrite N1, A in R. cbn [rbind] in R.
      destruct (frun topic pid version (tells topic w) (w_alive w) l (mkF (Some leader) (f_epoch c))) as [[c2 q2]| | |] eqn:R2; try discriminate.
      cbn [rbind] in R. injection R as <- <-. inversion T as [|? ? T1 T2]; subst.
      assert (G : (length (wasted q2) <= debt leader epoch (mkF (Some leader) (f_epoch c)))%nat).
      { refine (IH _ c2 q2 _ _ R2 T2); cbn; [intros m E; injection E as <-; exact A|exact LE]. }
      unfold debt in *. rewrite F. cbn [f_leader f_epoch] in G. rewrite Z.eqb_refl in G.
      unfold ask_of. rewrite F. cbn [wasted filter length]. change (filter _ q2) with (wasted q2). lia.
  - assert (G : (length (wasted q) <= debt leader epoch (mkF (f_leader c) epoch))%nat).
    { rewrite (refresh_ok topic w pid leader epoch _ P H) in R. refine (IH _ c' q _ _ R T); cbn; [exact AL|lia]. }
    unfold debt in *. cbn [f_leader f_epoch] in G. rewrite Z.eqb_refl in G. lia.
Qed.
(** no round crashes *)
Lemma follows_runs topic w pid version leader epoch : part_is w pid leader epoch -> forall l c,
  exists c' q, frun topic pid version (tells topic w) (w_alive w) l c = Ok (c', q).
Proof.
  intros P. induction l as [|[a|] l IH]; intros c; cbn [frun]; [eauto| |apply IH].
  assert (K : exists c1, fround topic pid (tells topic w) (w_alive w) a c = Ok c1).
  { unfold fround. destruct (f_leader c).
    - destruct a as [|k|]; eauto. destruct k as [|k|k]; eauto; repeat (destruct k as [k|k|]; eauto).
    - rewrite (lookup_ok topic w pid leader epoch P). unfold getLeaderBroker. cbn [lt_find lt_conn lt_cached].
      destruct (leader =? -1); eauto. destruct (w_alive w leader); eauto. }
  destruct K as (c1 & ->). destruct (IH c1) as (c' & q & E). cbn [rbind]. rewrite E. cbn [rbind]. eauto.
Qed.

(** a broker that is gone is asked for ever *)
Lemma dead_asked topic pid version meta alive : forall l c n c' q, f_leader c = Some n -> alive n = false ->
  frun topic pid version meta alive l c = Ok (c', q) -> Forall (fun x => snd x = NoConn) q ->
  f_leader c' = Some n /\ Forall (fun x => match fst x with AskFetch m _ => m = n | AskLeader => False end) q.
Proof.
  induction l as [|[a|] l IH]; intros c n c' q F A R T; cbn [frun] in R.
  - injection R as <- <-. split; [exact F|constructor].
  - unfold fround in R. rewrite F in R.
    destruct a as [|k|].
    + cbn [rbind] in R. destruct (frun topic pid version meta alive l c) as [[c2 q2]| | |] eqn:R2; try discriminate.
      cbn [rbind] in R. injection R as <- <-. inversion T; subst. destruct (IH c n c2 q2 F A R2 H2) as [I1 I2].
      split; [exact I1|]. constructor; [|exact I2]. unfold ask_of. rewrite F. reflexivity.
    + exfalso. match type of R with rbind ?x _ = _ => destruct x as [c1| | |]; try discriminate end. cbn [rbind] in R.
      destruct (frun topic pid version meta alive l c1) as [[c2 q2]| | |]; try discriminate. cbn [rbind] in R. injection R as _ <-. inversion T; subst. discriminate.
    + exfalso. cbn [rbind] in R.
      destruct (frun topic pid version meta alive l c) as [[c2 q2]| | |]; try discriminate. cbn [rbind] in R. injection R as _ <-. inversion T; subst. discriminate.
  - exact (IH (mkF (f_leader c) _) n c' q F A R T).
Qed.

Lemma commits_stay coord ws : Forall (fun w => w_alive w coord = true /\ w_coord w = coord) ws -> Forall (eq true) (sc_commits coord ws).
Proof. induction 1 as [|w ws [A B] _ IH]; [constructor|]. cbn. constructor; [|exact IH]. unfold coord_answer. rewrite A, B, Z.eqb_refl. reflexivity. Qed.
Lemma commits_moved coord ws : Forall (fun w => w_coord w <> coord) ws -> Forall (eq false) (sc_commits coord ws).
Proof.
  induction 1 as [|w ws A _ IH]; [constructor|]. cbn. constructor; [|exact IH]. unfold coord_answer.
  destruct (w_alive w coord); [|reflexivity]. destruct (coord =? w_coord w) eqn:E; [apply Z.eqb_eq in E; congruence|reflexivity].
Qed.
Lemma lookup_moved topic pid coord cur ws : Forall (fun x => w_coord (fst x) <> coord) ws -> sc_lookup topic pid coord ws cur = Running.
Proof.
  unfold sc_lookup. induction 1 as [|[w r] ws A _ IH]; [reflexivity|]. cbn [map fst snd] in *. unfold coord_answer at 1.
  destruct (w_alive w coord); [|exact IH]. destruct (coord =? w_coord w) eqn:E; [apply Z.eqb_eq in E; congruence|exact IH].
Qed.

(** ** who is asked, and with which epoch *)
Lemma find_leader_in pid : forall ps n, find_leader pid ps = Ok n -> exists ec ep rest, In (ec, (pid, (n, (ep, rest)))) ps.
Proof.
  induction ps as [|[ec [p [l [e r]]]] ps IH]; intros n H; [discriminate|]. cbn [find_leader] in H.
  destruct (p =? pid) eqn:E; [apply Z.eqb_eq in E; injection H as <-; subst; exists ec, e, r; left; reflexivity|].
  destruct (IH n H) as (a & b & d & I). exists a, b, d. right. exact I.
Qed.
Lemma find_epoch_in pid : forall ps e, find_epoch pid ps = Some e -> exists ec ld rest, In (ec, (pid, (ld, (e, rest)))) ps.
Proof.
  induction ps as [|[ec [p [l [e' r]]]] ps IH]; intros e H; [discriminate|]. cbn [find_epoch] in H.
  destruct (p =? pid) eqn:E; [apply Z.eqb_eq in E; injection H as <-; subst; exists ec, l, r; left; reflexivity|].
  destruct (IH e H) as (a & b & d & I). exists a, b, d. right. exact I.
Qed.
Lemma refresh_in topic w pid cur : refreshPartiton topic pid (tells topic w) cur = cur \/
  exists ec ld rest, In (ec, (pid, (ld, (refreshPartiton topic pid (tells topic w) cur, rest)))) (w_parts w).
Proof.
  unfold refreshPartiton, tells. destruct (with_error _); [left; reflexivity|]. cbn [find_topic_epoch]. rewrite beqb_refl.
  destruct (find_epoch pid (w_parts w)) as [e|] eqn:E; [right; exact (find_epoch_in _ _ _ E)|left; reflexivity].
Qed.
(** leader and epoch come from what the consumer had or from the metadata *)
Definition from_meta (w : world) (pid : Z) (c d : fol) : Prop :=
  (forall n, f_leader d = Some n -> f_leader c = Some n \/ (w_alive w n = true /\ exists ec ep rest, In (ec, (pid, (n, (ep, rest)))) (w_parts w))) /\
  (f_epoch d = f_epoch c \/ exists ec ld rest, In (ec, (pid, (ld, (f_epoch d, rest)))) (w_parts w)).
Lemma from_meta_refl w pid c : from_meta w pid c c.
Proof. split; auto. Qed.
Lemma from_meta_trans w pid c d e : from_meta w pid c d -> from_meta w pid d e -> from_meta w pid c e.
Proof.
  intros [A B] [A' B']. split.
  - intros n H. destruct (A' n H) as [H'|H']; auto.
  - destruct B' as [->|B']; auto.
Qed.
Lemma refresh_from topic w pid c l : l = f_leader c -> from_meta w pid c (mkF l (refreshPartiton topic pid (tells topic w) (f_epoch c))).
Proof.
  intros ->. split; cbn [f_leader f_epoch]; [auto|]. destruct (refresh_in topic w pid (f_epoch c)) as [H|H]; [left; exact H|right; exact H].
Qed.
Lemma fround_from topic w pid a c d : fround topic pid (tells topic w) (w_alive w) a c = Ok d -> from_meta w pid c d.
Proof.
  unfold fround. destruct (f_leader c) as [n|] eqn:F.
  - assert (K6 : from_meta w pid c (mkF None (f_epoch c))) by (split; cbn; [discriminate|auto]).
    pose proof (refresh_from topic w pid c (Some n) (eq_sym F)) as K74. pose proof (from_meta_refl w pid c) as K.
    destruct a as [|k|]; try (intros H; injection H as <-; exact K).
    destruct k as [|k|k]; try (intros H; injection H as <-; exact K);
      repeat (destruct k as [k|k|]; try (intros H; injection H as <-; first [exact K|exact K6|exact K74])).
  - cbn [findLeaderIn tells]. unfold getLeaderBroker. cbn [lt_find lt_conn lt_cached].
    destruct (find_leader pid (w_parts w)) as [n| | |] eqn:L; try discriminate.
    2:{ intros H; injection H as <-. apply from_meta_refl. }
    destruct (n =? -1); [intros H; injection H as <-; apply from_meta_refl|].
    destruct (w_alive w n) eqn:A; intros H; injection H as <-; [|apply from_meta_refl].
    split; cbn [f_leader f_epoch]; [|auto]. intros m E. injection E as <-. right. split; [exact A|]. exact (find_leader_in _ _ _ L).
Qed.
Lemma asks_named topic w pid version : forall l c c' q n e a,
  frun topic pid version (tells topic w) (w_alive w) l c = Ok (c', q) -> In (AskFetch n e, a) q ->
  (f_leader c = Some n \/ (w_alive w n = true /\ exists ec ep rest, In (ec, (pid, (n, (ep, rest)))) (w_parts w))) /\
  (e = sent version c \/ exists ec ld rest, In (ec, (pid, (ld, (e, rest)))) (w_parts w)).
Proof.
  assert (G : forall l c c' q n e a, frun topic pid version (tells topic w) (w_alive w) l c = Ok (c', q) -> In (AskFetch n e, a) q ->
    exists d, from_meta w pid c d /\ f_leader d = Some n /\ e = sent version d).
  { induction l as [|[b|] l IH]; intros c c' q n e a R I; cbn [frun] in R.
    - injection R as _ <-. destruct I.
    - destruct (fround topic pid (tells topic w) (w_alive w) b c) as [d| | |] eqn:X; try discriminate. cbn [rbind] in R.
      destruct (frun topic pid version (tells topic w) (w_alive w) l d) as [[c2 q2]| | |] eqn:R2; try discriminate.
      cbn [rbind] in R. injection R as <- <-. destruct I as [I|I].
      + exists c. split; [apply from_meta_refl|]. unfold ask_of in I. destruct (f_leader c); [|discriminate]. injection I as -> <- _. auto.
      + destruct (IH _ _ _ _ _ _ R2 I) as (d' & M & D). exists d'. split; [|exact D].
        eapply from_meta_trans; [exact (fround_from _ _ _ _ _ _ X)|exact M].
    - destruct (IH _ _ _ _ _ _ R I) as (d' & M & D). exists d'. split; [|exact D].
      eapply from_meta_trans; [|exact M]. apply refresh_from. reflexivity. }
  intros l c c' q n e a R I. destruct (G l c c' q n e a R I) as (d & [M1 M2] & D & ->). split; [exact (M1 n D)|].
  unfold sent. destruct (10 <=? version); [exact M2|left; reflexivity].
Qed.

(** ** the last commit *)
Lemma run_position c : forall ops start s s' t, crun c s ops = Ok (s', t) -> (c_pend s = None -> c_adv s = None) ->
  cur s = start -> (forall m, In m (msgs t) -> i64 (m_offset m + 1)) ->
  cur s' = position start t /\ (c_pend s' = None -> c_adv s' = None).
Proof.
  induction ops as [|op ops IH]; intros start s s' t E Hpa Hc HM.
  - cbn in E. apply Ok_inj in E. injection E as <- <-. split; [exact Hc|exact Hpa].
  - destruct (crun_cons _ _ _ _ _ _ E) as [s1 [u1 [u2 [E1 [E2 ->]]]]].
    destruct (step_position c s op s1 u1 E1) as [P1 P2]; [|exact Hpa|].
    { intros tp p m Hin. apply HM. unfold msgs. apply in_flat_map. exists (TMsg tp p m). split; [apply in_or_app; left; exact Hin|left; reflexivity]. }
    rewrite position_app. apply (IH (position start u1) s1 s' u2 E2 P2); [rewrite P1, Hc; reflexivity|].
    intros m Hin. apply HM. unfold msgs in *. rewrite flat_map_app. apply in_or_app. right. exact Hin.
Qed.
(** the request of a commit of a group consumer carries the offset that was captured *)
Definition same_fly (s : cst) : Prop := Forall (fun x => snd x = Some (fst x)) (c_fly s).
Ltac easyc E F := repeat match type of E with context [match ?x with _ => _ end] => destruct x eqn:? end; try discriminate;
  apply Ok_inj in E; injection E as <- _; cbn; (split; [exact F|left; reflexivity]).
Lemma step_com c s op s' t : k_belongs c = true -> cstep c s op = Ok (s', t) -> same_fly s ->
  same_fly s' /\ (c_com s' = c_com s \/ In (TCommit (c_com s') true) t).
Proof.
  intros B E F. unfold same_fly in *.
  destruct op; cbn [cstep] in E.
  - easyc E F.
  - destruct (c_pend s) as [[|[t0 p m|e] rest]|]; try (apply Ok_inj in E; injection E as <- _; cbn; auto; fail);
      destruct (c_adv s); try (apply Ok_inj in E; injection E as <- _; cbn; auto; fail).
    unfold onError in E.
    assert (K : forall x y : cst, c_fly x = c_fly s -> c_com x = c_com s -> Forall (fun x => snd x = Some (fst x)) (c_fly x) /\ (c_com x = c_com s \/ In (TCommit (c_com x) true) t)).
    { intros x y X Y. rewrite X, Y. auto. }
    repeat match type of E with context [match ?x with _ => _ end] => destruct x eqn:? end; try discriminate; apply Ok_inj in E; injection E as <- _; apply (K _ s); reflexivity.
  - easyc E F.
  - easyc E F.
  - easyc E F.
  - easyc E F.
  - rewrite B in E. destruct (c_off s =? c_com s); apply Ok_inj in E; injection E as <- _; cbn; split; auto.
    apply Forall_app. split; [exact F|repeat constructor].
  - destruct (nth_error (c_fly s) i) as [[cap [v|]]|] eqn:N; try (apply Ok_inj in E; injection E as <- _; auto; fail).
    exfalso. pose proof (nth_error_forall _ _ _ _ F N). discriminate.
  - destruct (nth_error (c_fly s) i) as [[cap [v|]]|] eqn:N; try (apply Ok_inj in E; injection E as <- _; auto; fail).
    pose proof (nth_error_forall _ _ _ _ F N) as X. cbn in X. injection X as ->.
    destruct (k_belongs c && (negb member || (cap <? 0))); apply Ok_inj in E; injection E as <- <-; cbn.
    + split; [apply drop_nth_forall; exact F|left; reflexivity].
    + destruct ok; cbn; (split; [apply drop_nth_forall; exact F|]); auto.
Qed.
Lemma run_com c : k_belongs c = true -> forall ops s s' t, crun c s ops = Ok (s', t) -> same_fly s ->
  same_fly s' /\ (c_com s' = c_com s \/ In (TCommit (c_com s') true) t).
Proof.
  intros B. induction ops as [|op ops IH]; intros s s' t E F.
  - cbn in E. apply Ok_inj in E. injection E as <- <-. auto.
  - destruct (crun_cons _ _ _ _ _ _ E) as [s1 [u1 [u2 [E1 [E2 ->]]]]].
    destruct (step_com c s op s1 u1 B E1 F) as [F1 C1]. destruct (IH s1 s' u2 E2 F1) as [F2 C2]. split; [exact F2|].
    destruct C2 as [C2|C2]; [|right; apply in_or_app; right; exact C2]. rewrite C2. destruct C1 as [C1|C1]; [left; exact C1|].
    right. apply in_or_app. left. exact C1.
Qed.

Lemma last_commit c start from mx ops s t : k_group c = true -> crun c (cinit start from mx) ops = Ok (s, t) ->
  (forall m, In m (msgs t) -> i64 (m_offset m + 1)) -> c_pend s = None -> c_fly s = [] -> 0 <= position start t ->
  exists s' t', crun c s [OCommit; OBuild 0; OSent 0 true true] = Ok (s', t') /\
    (t' = [TCommit (position start t) true] \/
     (t' = [] /\ position start t = c_com s /\ (k_belongs c = true -> position start t = 0 \/ In (TCommit (position start t) true) t))).
Proof.
  intros G E HM P F NN. destruct (run_position c ops start _ _ _ E (fun _ => eq_refl) eq_refl HM) as [C A].
  unfold cur in C. rewrite (A P) in C. assert (LT : position start t <? 0 = false) by (apply Z.ltb_ge; exact NN).
  cbn [crun cstep]. destruct (c_off s =? c_com s) eqn:Q.
  - cbn [rbind fst snd cstep]. rewrite F. cbn [nth_error rbind fst snd cstep]. rewrite F. cbn [nth_error rbind fst snd app].
    eexists; eexists. split; [reflexivity|]. right. apply Z.eqb_eq in Q. split; [reflexivity|]. split; [congruence|].
    intros B. destruct (run_com c B ops _ _ _ E) as [_ [K|K]]; [constructor| |].
    + left. cbn in K. congruence.
    + right. rewrite <- C, Q. exact K.
  - rewrite F, G. cbn [app]. destruct (k_belongs c) eqn:B; cbn [rbind fst snd set_fly c_fly nth_error set_nth_fly c_off negb orb andb drop_nth app];
      rewrite C, ?LT; eexists; eexists; (split; [reflexivity|]); left; reflexivity.
Qed.
