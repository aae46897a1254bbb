(** Facts about the broker list. *)
From Verif Require Import Base BaseFacts Builders BuildersSpec BuildersFacts Brokers BrokersSpec.

(** ** Association lists *)
Lemma get_put_same : forall V k (v : V) l, get k (put k v l) = Some v.
Proof.
  induction l as [|[k' v'] l IH]; cbn; [rewrite Z.eqb_refl; reflexivity|].
  destruct (k' =? k) eqn:E; cbn; [rewrite Z.eqb_refl; reflexivity|rewrite E; exact IH].
Qed.
Lemma get_put_other : forall V k k' (v : V) l, k <> k' -> get k (put k' v l) = get k l.
Proof.
  induction l as [|[k2 v2] l IH]; intro N; cbn.
  - destruct (k' =? k) eqn:E; [lia|reflexivity].
  - destruct (k2 =? k') eqn:E; cbn.
    + destruct (k' =? k) eqn:E1; [lia|]. destruct (k2 =? k) eqn:E2; [lia|reflexivity].
    + rewrite IH by exact N. reflexivity.
Qed.
Lemma get_in : forall V k (v : V) l, get k l = Some v -> In (k, v) l.
Proof.
  induction l as [|[k' v'] l IH]; cbn; intro H; [discriminate|].
  destruct (k' =? k) eqn:E; [|auto]. left. injection H as ->. f_equal. lia.
Qed.
Lemma get_none : forall V k (l : list (Z * V)), get k l = None <-> ~ In k (map fst l).
Proof.
  induction l as [|[k' v'] l IH]; cbn; [tauto|].
  destruct (k' =? k) eqn:E.
  - split; [discriminate|]. intro H. exfalso. apply H. left. lia.
  - rewrite IH. split; [|tauto]. intros H [X|X]; [lia|auto].
Qed.
Lemma get_nodup : forall V k (v : V) l, NoDup (map fst l) -> In (k, v) l -> get k l = Some v.
Proof.
  induction l as [|[k' v'] l IH]; cbn; intros N H; [contradiction|].
  inversion N; subst. destruct H as [H|H].
  - injection H as -> ->. rewrite Z.eqb_refl. reflexivity.
  - destruct (k' =? k) eqn:E; [|auto]. exfalso. assert (k' = k) by lia. subst.
    apply (in_map fst) in H. auto.
Qed.
Lemma put_keys : forall V k k' (v : V) l, In k (map fst (put k' v l)) <-> k = k' \/ In k (map fst l).
Proof.
  induction l as [|[k2 v2] l IH]; cbn; [intuition|].
  destruct (k2 =? k') eqn:E; cbn.
  - assert (k2 = k') by lia. subst. intuition.
  - rewrite IH. tauto.
Qed.
Lemma put_nodup : forall V k (v : V) l, NoDup (map fst l) -> NoDup (map fst (put k v l)).
Proof.
  induction l as [|[k2 v2] l IH]; cbn; intro H; [repeat constructor; auto|].
  inversion H; subst. destruct (k2 =? k) eqn:E; cbn.
  - assert (k2 = k) by lia. subst. exact H.
  - constructor; [|auto]. rewrite put_keys. intros [X|X]; [lia|auto].
Qed.
Lemma put_in : forall V k (v : V) l x, In x (put k v l) -> x = (k, v) \/ In x l.
Proof.
  induction l as [|[k2 v2] l IH]; cbn; intros x H; [destruct H as [<-|[]]; auto|].
  destruct (k2 =? k) eqn:E; cbn in H.
  - destruct H as [<-|H]; auto.
  - destruct H as [<-|H]; [auto|]. destruct (IH _ H); auto.
Qed.

Lemma nodup_app_l : forall A (a b : list A), NoDup (a ++ b) -> NoDup a.
Proof.
  induction a as [|x a IH]; intros b H; [constructor|]. inversion H; subst.
  constructor; [|eauto]. intro I. apply H2. apply in_or_app. auto.
Qed.
Lemma nodup_app_r : forall A (a b : list A), NoDup (a ++ b) -> NoDup b.
Proof. induction a as [|x a IH]; intros b H; [exact H|]. inversion H; subst. eauto. Qed.

Lemma seen_app : forall a b, seen (a ++ b) = seen a ++ seen b.
Proof. intros. unfold seen. apply filter_app. Qed.

  Lemma find_pid_some : forall pid ps l, find_pid pid ps = Some l -> exists rs, In (pid, (l, rs)) ps.
  Proof.
    induction ps as [|[p [l0 rs]] ps IH]; cbn; intros l H; [discriminate|].
    destruct (p =? pid) eqn:E.
    - injection H as ->. exists rs. left. repeat f_equal. lia.
    - destruct (IH _ H) as [rs' I]. eauto.
  Qed.
  Lemma find_pid_none : forall pid ps, find_pid pid ps = None <-> ~ In pid (map fst ps).
  Proof.
    induction ps as [|[p [l0 rs]] ps IH]; cbn; [tauto|].
    destruct (p =? pid) eqn:E.
    - split; [discriminate|]. intro H. exfalso. apply H. left. lia.
    - rewrite IH. split; [|tauto]. intros H [X|X]; [lia|auto].
  Qed.


  Lemma by_leader_snoc : forall ps x, by_leader (ps ++ [x]) =
    put (fst (snd x)) (match get (fst (snd x)) (by_leader ps) with Some l => l | None => [] end ++ [fst x]) (by_leader ps).
  Proof. intros ps x. unfold by_leader. rewrite fold_left_app. reflexivity. Qed.
    Lemma put_pairs : forall k p l, NoDup (map fst l) ->
    Permutation (pairs (put k (match get k l with Some x => x | None => [] end ++ [p]) l)) (pairs l ++ [(k, p)]).
  Proof.
    induction l as [|[k' v] l IH]; intro N; cbn [get put].
    - cbn. reflexivity.
    - inversion N; subst. destruct (k' =? k) eqn:E.
      + assert (k' = k) by lia. subst. cbn. rewrite map_app. cbn. rewrite <- !app_assoc.
        apply Permutation_app_head. cbn. apply Permutation_cons_append.
      + cbn. rewrite <- app_assoc. apply Permutation_app_head. apply IH. auto.
  Qed.
  Lemma by_leader_ok : forall ps,
    NoDup (map fst (by_leader ps)) /\
    Permutation (pairs (by_leader ps)) (map (fun p => (fst (snd p), fst p)) ps).
  Proof.
    induction ps as [|x ps [N P]] using rev_ind; [cbn; split; constructor|].
    rewrite by_leader_snoc. split; [apply put_nodup; exact N|].
    rewrite put_pairs by exact N. rewrite map_app. cbn. apply Permutation_app_tail. exact P.
  Qed.
  Lemma nodup_pairs : forall l, NoDup (map snd (pairs l)) -> pairs (map (fun x => (fst x, pid_set (snd x))) l) = pairs l.
  Proof.
    induction l as [|[k v] l IH]; cbn; intro N; [reflexivity|].
    rewrite map_app in N. unfold pairs in *. rewrite IH.
    - f_equal. f_equal. unfold pid_set. apply nodup_fixed_point.
      rewrite map_map in N. cbn in N. rewrite map_id in N. eapply nodup_app_l. exact N.
    - eapply nodup_app_r. exact N.
  Qed.


Section Facts.
  Variable W : Type.
  Variable dial : W -> bytes -> W * dres.
  Variable exch : W -> handle -> req -> W * (err + resp * option err).
  Variable ord : forall A : Type, W -> list A -> W * list A.
  Hypothesis ord_perm : forall A w l, Permutation (snd (ord A w l)) l.

  Notation bst := (bst W).
  Notation new_broker := (new_broker W dial).
  Notation rag := (rag W exch).
  Notation probe := (probe W exch).
  Notation GetBroker := (GetBroker W dial exch ord).
  Notation get_broker0 := (get_broker0 W dial exch ord).
  Notation refresh := (refresh W dial exch ord).
  Notation ordered := (ordered W ord).

  (** [quiet s s']: only connections were opened or closed, and only the broker infos may
      have changed. *)
  Record quiet (s s' : bst) : Prop := {
    q_tr : exists evs, b_tr W s' = b_tr W s ++ evs /\ seen evs = [];
    q_boot : b_boot W s' = b_boot W s;
    q_cache : b_cache W s' = b_cache W s;
    q_ctl : b_ctl W s' = b_ctl W s;
    q_next : b_next W s <= b_next W s'
  }.
  Lemma quiet_refl : forall s, quiet s s.
  Proof. intro s. constructor; try reflexivity. exists []; rewrite app_nil_r; auto. Qed.
  Lemma quiet_trans : forall a b c, quiet a b -> quiet b c -> quiet a c.
  Proof.
    intros a b c [[e1 [T1 S1]] B1 C1 L1 N1] [[e2 [T2 S2]] B2 C2 L2 N2]. constructor; try congruence; [|lia].
    exists (e1 ++ e2). rewrite T2, T1, app_assoc. rewrite seen_app, S1, S2. auto.
  Qed.
  Lemma quiet_log : forall s e, visible e = false -> quiet s (log W s e).
  Proof.
    intros s e V. constructor; try reflexivity. exists [e]. cbn. rewrite V. auto.
  Qed.
  Lemma quiet_w : forall s w, quiet s (with_w W s w).
  Proof. intros s w. constructor; try reflexivity; try (cbn; lia). exists []; rewrite app_nil_r; auto. Qed.
  Lemma quiet_info : forall s i, quiet s (with_info W s i).
  Proof. intros s w. constructor; try reflexivity; try (cbn; lia). exists []; rewrite app_nil_r; auto. Qed.
  Lemma quiet_fresh : forall s, quiet s (fresh W s).
  Proof. intros s. constructor; try reflexivity; try (cbn; lia). exists []; rewrite app_nil_r; auto. Qed.

  Lemma new_broker_quiet : forall s a n s' r, new_broker s a n = (s', r) ->
    quiet s s' /\ b_info W s' = b_info W s /\
    match r with
    | inl h => h_node h = n /\ h_addr h = a /\ h_id h = b_next W s /\ b_next W s' = b_next W s + 1 /\
               b_tr W s' = b_tr W s ++ [EvOpen (h_id h)]
    | inr _ => True
    end.
  Proof.
    intros s a n s' r. unfold Brokers.new_broker. destruct (dial (b_w W s) a) as [w d].
    destruct d; intro H; injection H as <- <-.
    - split; [|cbn; auto 10].
      eapply quiet_trans; [|apply quiet_fresh]. eapply quiet_trans; [apply quiet_w|apply quiet_log; reflexivity].
    - split; [apply quiet_w|auto].
    - split; [|auto].
      eapply quiet_trans; [|apply quiet_fresh]. eapply quiet_trans; [apply quiet_w|apply quiet_log; reflexivity].
  Qed.
  Lemma probe_quiet : forall s h s' o, probe s h = (s', o) ->
    quiet s s' /\ b_info W s' = b_info W s /\ b_tr W s' = b_tr W s ++ [EvProbe h] /\ b_next W s' = b_next W s.
  Proof.
    intros s h s' o. unfold Brokers.probe. destruct (exch (b_w W s) h (QMeta [])) as [w a].
    intro H. injection H as <- <-. split; [|cbn; auto].
    eapply quiet_trans; [apply quiet_w|apply quiet_log; reflexivity].
  Qed.
  Lemma refresh_boot_quiet : forall l s, quiet s (refresh_boot W dial exch s l).
  Proof.
    induction l as [|a l IH]; intro s; cbn; [apply quiet_refl|].
    destruct (new_broker s a (-1)) as [s1 b] eqn:E1. apply new_broker_quiet in E1. destruct E1 as [Q1 _].
    destruct b as [h|e]; [|eapply quiet_trans; [exact Q1|apply IH]].
    destruct (probe s1 h) as [s2 o] eqn:E2. apply probe_quiet in E2. destruct E2 as [Q2 _].
    destruct (m_brokers (fst (as_meta o))).
    - eapply quiet_trans; [exact Q1|]. eapply quiet_trans; [exact Q2|].
      eapply quiet_trans; [apply (quiet_log _ (EvClose (h_id h))); reflexivity|apply IH].
    - eapply quiet_trans; [exact Q1|]. eapply quiet_trans; [exact Q2|].
      eapply quiet_trans; [apply quiet_info|apply IH].
  Qed.
  Lemma refresh_known_quiet : forall l s s' b, refresh_known W dial exch s l = (s', b) -> quiet s s'.
  Proof.
    induction l as [|[n a] l IH]; intros s s' b0; cbn.
    - intro H. injection H as <- <-. apply quiet_refl.
    - destruct (new_broker s a (-1)) as [s1 b] eqn:E1. apply new_broker_quiet in E1. destruct E1 as [Q1 _].
      destruct b as [h|e]; [|intro H; eapply quiet_trans; [exact Q1|eapply IH; exact H]].
      destruct (probe s1 h) as [s2 o] eqn:E2. apply probe_quiet in E2. destruct E2 as [Q2 _].
      destruct (m_brokers (fst (as_meta o))).
      + intro H. eapply quiet_trans; [exact Q1|]. eapply quiet_trans; [exact Q2|eapply IH; exact H].
      + intro H. injection H as <- <-. eapply quiet_trans; [exact Q1|]. eapply quiet_trans; [exact Q2|].
        apply quiet_info.
  Qed.
  Lemma ordered_ok : forall A (l : list A) s s' l', ordered s l = (s', l') ->
    quiet s s' /\ b_info W s' = b_info W s /\ Permutation l' l /\ b_tr W s' = b_tr W s /\ b_next W s' = b_next W s.
  Proof.
    intros A l s s' l'. unfold Brokers.ordered. pose proof (ord_perm A (b_w W s) l) as P.
    destruct (ord A (b_w W s) l) as [w x]. intro H. injection H as <- <-. cbn in P.
    split; [apply quiet_w|]. cbn. auto.
  Qed.
  Lemma refresh_quiet : forall s s' b, refresh s = (s', b) -> quiet s s'.
  Proof.
    intros s s' b. unfold Brokers.refresh.
    pose proof (refresh_boot_quiet (b_boot W s) s) as Q0.
    set (s0 := refresh_boot W dial exch s (b_boot W s)) in *.
    destruct (ordered s0 (b_info W s0)) as [s1 l] eqn:E. apply ordered_ok in E. destruct E as [Q1 _].
    intro H. apply refresh_known_quiet in H. eapply quiet_trans; [exact Q0|]. eapply quiet_trans; [exact Q1|exact H].
  Qed.
  Lemma known_quiet : forall s n, quiet s (known_or_refresh W dial exch ord s n).
  Proof.
    intros s n. unfold known_or_refresh. destruct (get n (b_info W s)); [apply quiet_refl|].
    destruct (refresh s) as [s' b] eqn:E. exact (refresh_quiet _ _ _ E).
  Qed.

  (** ** GetBroker *)
  (** What a call of the broker list may do to it: the cache only gains handles, made for
      the node they are filed under; the controller stays. *)
  Record grows (s s' : bst) : Prop := {
    g_tr : exists evs, b_tr W s' = b_tr W s ++ evs;
    g_boot : b_boot W s' = b_boot W s;
    g_ctl : b_ctl W s' = b_ctl W s;
    g_next : b_next W s <= b_next W s';
    g_keep : forall n h, get n (b_cache W s) = Some h -> get n (b_cache W s') = Some h;
    g_new : forall n h, get n (b_cache W s) = None -> get n (b_cache W s') = Some h -> h_node h = n
  }.
  Lemma grows_refl : forall s, grows s s.
  Proof. intro s. constructor; auto; [exists []; rewrite app_nil_r; auto|lia|congruence]. Qed.
  Lemma grows_trans : forall a b c, grows a b -> grows b c -> grows a c.
  Proof.
    intros a b c [[e1 T1] B1 C1 N1 K1 W1] [[e2 T2] B2 C2 N2 K2 W2]. constructor; try congruence; auto; [|lia|].
    - exists (e1 ++ e2). rewrite T2, T1, app_assoc. auto.
    - intros n h Ha Hc. destruct (get n (b_cache W b)) as [h'|] eqn:Hb.
      + pose proof (K2 _ _ Hb). assert (h' = h) by congruence. subst. auto.
      + auto.
  Qed.
  Lemma quiet_grows : forall s s', quiet s s' -> grows s s'.
  Proof.
    intros s s' [[e [T _]] B C L N]. constructor; auto; [eauto| |]; rewrite C; [auto|congruence].
  Qed.
  Lemma log_grows : forall s e, grows s (log W s e).
  Proof. intros s e. constructor; auto; cbn; [eauto|lia|congruence]. Qed.

  Lemma get_broker0_ok : forall s n s' g, get_broker0 s n = (s', g) ->
    grows s s' /\ (exists evs, b_tr W s' = b_tr W s ++ evs /\ seen evs = []) /\
    match g with
    | inl h => get n (b_cache W s') = Some h /\
        match get n (b_cache W s) with
        | Some h0 => h = h0 /\ s' = s
        | None => h_node h = n /\ get n (b_info W s') = Some (h_addr h) /\ In (EvOpen (h_id h)) (b_tr W s')
        end
    | inr e => get n (b_cache W s) = None /\ b_cache W s' = b_cache W s /\
               (get n (b_info W s') = None -> e = E_no_info)
    end.
  Proof.
    intros s n s' g. unfold Brokers.get_broker0. destruct (get n (b_cache W s)) as [h0|] eqn:EC.
    { intro H. injection H as <- <-. split; [apply grows_refl|]. split; [exists []; rewrite app_nil_r; auto|]. auto. }
    pose proof (known_quiet s n) as Q0. set (s0 := known_or_refresh W dial exch ord s n) in *.
    destruct (get n (b_info W s0)) as [a|] eqn:EI.
    2:{ intro H. injection H as <- <-. split; [apply quiet_grows; exact Q0|].
        destruct Q0 as [[e [T S]] B C L N]. split; [eauto|]. split; [reflexivity|]. split; [exact C|auto]. }
    destruct (new_broker s0 a n) as [s1 b] eqn:E1. apply new_broker_quiet in E1. destruct E1 as [Q1 [I1 X]].
    pose proof (quiet_trans _ _ _ Q0 Q1) as Q. destruct b as [h|e].
    - intro H. injection H as <- <-. destruct X as [Hn [Ha [Hi [Nx Tx]]]].
      destruct Q as [[ev [T S]] B C L N]. split.
      { constructor; cbn; auto; [eauto| |].
        - intros m h' Hm. destruct (Z.eq_dec m n) as [->|D]; [congruence|].
          rewrite C. rewrite get_put_other by exact D. exact Hm.
        - intros m h' Hm. destruct (Z.eq_dec m n) as [->|D].
          + rewrite get_put_same. intro Y. injection Y as <-. exact Hn.
          + rewrite C. rewrite get_put_other by exact D. congruence. }
      split; [cbn; eauto|]. split; [cbn; apply get_put_same|]. split; [exact Hn|].
      cbn. rewrite I1, EI, Ha. split; [reflexivity|]. rewrite Tx. apply in_or_app. cbn. auto.
    - intro H. injection H as <- <-. split; [apply quiet_grows; exact Q|].
      destruct Q as [[ev [T S]] B C L N]. split; [eauto|]. split; [reflexivity|]. split; [exact C|].
      rewrite I1, EI. discriminate.
  Qed.

  Lemma GetBroker_ok : forall s n s' g, GetBroker s n = (s', g) ->
    grows s s' /\ (exists evs, b_tr W s' = b_tr W s ++ evs /\ seen evs = [EvGet n g]) /\
    match g with
    | inl h => get n (b_cache W s') = Some h /\
        match get n (b_cache W s) with
        | Some h0 => h = h0 /\ b_tr W s' = b_tr W s ++ [EvGet n g] /\ b_info W s' = b_info W s
        | None => h_node h = n /\ get n (b_info W s') = Some (h_addr h) /\ In (EvOpen (h_id h)) (b_tr W s')
        end
    | inr e => get n (b_cache W s) = None /\ b_cache W s' = b_cache W s
    end.
  Proof.
    intros s n s' g. unfold Brokers.GetBroker. destruct (get_broker0 s n) as [s1 g1] eqn:E.
    intro H. injection H as <- <-. apply get_broker0_ok in E. destruct E as [G [[evs [T S]] M]].
    split; [eapply grows_trans; [exact G|apply log_grows]|]. split.
    { exists (evs ++ [EvGet n g1]). cbn. rewrite T, app_assoc, seen_app, S. auto. }
    destruct g1 as [h|e]; cbn.
    - destruct M as [M1 M2]. split; [exact M1|]. destruct (get n (b_cache W s)).
      + destruct M2 as [-> ->]. auto.
      + destruct M2 as [A [B C]]. split; [exact A|]. split; [exact B|]. apply in_or_app. auto.
    - tauto.
  Qed.

  Lemma rag_ok : forall s h q s' o, rag s h q = (s', o) ->
    grows s s' /\ b_tr W s' = b_tr W s ++ [EvAsk h q o] /\ b_info W s' = b_info W s /\ b_cache W s' = b_cache W s /\
    (fst o = None -> snd o <> None).
  Proof.
    intros s h q s' o. unfold Brokers.rag. destruct (exch (b_w W s) h q) as [w a].
    intro H. injection H as <- <-. split; [eapply grows_trans; [apply quiet_grows; apply quiet_w|apply log_grows]|].
    cbn. repeat split; auto. destruct a as [e|[r e]]; cbn; congruence.
  Qed.

  (** ** Failing over *)
  Notation RequestMetaData := (RequestMetaData W dial exch ord).
  Notation FindCoordinator := (FindCoordinator W dial exch ord).
  Notation Request := (Request W dial exch ord).
  Notation RequestOffsets := (RequestOffsets W dial exch ord).
  Notation findLeader := (findLeader W dial exch ord).

  Lemma failover_no : forall q dec n e order evs0 evs last,
    seen evs0 = [EvGet n (inr e)] -> failover q dec order evs last ->
    failover q dec (n :: order) (evs0 ++ evs) last.
  Proof.
    intros q dec n e order evs0 evs last S [tried [rest [O [T L]]]].
    exists ((n, TNo e) :: tried), rest. split; [cbn; rewrite O; reflexivity|].
    split; [rewrite seen_app, S, T; reflexivity|]. cbn zeta in *.
    assert (V : forall h a, snd (n, TNo e) = TAsk h a -> ~ dec a) by (intros h a X; discriminate).
    destruct last as [a|].
    - destruct L as [before [m [h [-> [D F]]]]]. exists ((n, TNo e) :: before), m, h. auto.
    - destruct L as [-> F]. auto.
  Qed.
  Lemma failover_vain : forall q dec n h a order evs0 evs last,
    seen evs0 = [EvGet n (inl h); EvAsk h q a] -> ~ dec a -> failover q dec order evs last ->
    failover q dec (n :: order) (evs0 ++ evs) last.
  Proof.
    intros q dec n h a order evs0 evs last S ND [tried [rest [O [T L]]]].
    exists ((n, TAsk h a) :: tried), rest. split; [cbn; rewrite O; reflexivity|].
    split; [rewrite seen_app, S, T; reflexivity|]. cbn zeta in *.
    assert (V : forall h0 a0, snd (n, TAsk h a) = TAsk h0 a0 -> ~ dec a0) by (intros h0 a0 X; injection X as <- <-; exact ND).
    destruct last as [a0|].
    - destruct L as [before [m [h0 [-> [D F]]]]]. exists ((n, TAsk h a) :: before), m, h0. auto.
    - destruct L as [-> F]. auto.
  Qed.
  Lemma failover_last : forall q (dec : option resp * option err -> Prop) n h a order evs0,
    seen evs0 = [EvGet n (inl h); EvAsk h q a] -> dec a ->
    failover q dec (n :: order) evs0 (Some a).
  Proof.
    intros q dec n h a order evs0 S D. exists [(n, TAsk h a)], order. split; [reflexivity|].
    split; [exact S|]. exists [], n, h. auto.
  Qed.
  Lemma failover_end : forall q dec, failover q dec [] [] None.
  Proof. intros q dec. exists [], []. cbn. auto. Qed.

  Lemma rmd_ok : forall l s ts r0 s' r e, rmd W dial exch ord s l ts r0 = (s', (r, e)) ->
    grows s s' /\ exists evs last,
    b_tr W s' = b_tr W s ++ evs /\ failover (QMeta ts) meta_decides (map fst l) evs last /\
    match last with
    | Some a => (r, e) = as_meta a
    | None => e = Some ENoBroker
    end.
  Proof.
    induction l as [|[n ad] l IH]; intros s ts r0 s' r e; cbn [rmd map fst].
    - intro H. injection H as <- <- <-. split; [apply grows_refl|]. exists [], None.
      rewrite app_nil_r. split; [auto|]. split; [apply failover_end|auto].
    - destruct (GetBroker s n) as [s1 g] eqn:EG. apply GetBroker_ok in EG. destruct EG as [G1 [[e1 [T1 S1]] _]].
      destruct g as [h|e0].
      2:{ intro H. apply IH in H. destruct H as [G2 [evs [last [T [F X]]]]].
          split; [eapply grows_trans; eassumption|]. exists (e1 ++ evs), last.
          rewrite T, T1, app_assoc. split; [auto|]. split; [eapply failover_no; eassumption|exact X]. }
      destruct (rag s1 h (QMeta ts)) as [s2 o] eqn:ER. apply rag_ok in ER. destruct ER as [G2 [T2 _]].
      assert (SS : seen (e1 ++ [EvAsk h (QMeta ts) o]) = [EvGet n (inl h); EvAsk h (QMeta ts) o])
        by (rewrite seen_app, S1; reflexivity).
      destruct (as_meta o) as [r1 e2] eqn:EM.
      assert (E2 : e2 = snd o) by (unfold as_meta in EM; destruct o as [[[]|] ?]; cbn in EM |- *; congruence).
      destruct e2 as [e2|].
      + destruct (kafka_err e2) eqn:EK.
        * intro H. injection H as <- <- <-. split; [eapply grows_trans; eassumption|].
          exists (e1 ++ [EvAsk h (QMeta ts) o]), (Some o). rewrite T2, T1, app_assoc. split; [auto|].
          split; [|auto]. eapply failover_last; [exact SS|]. right. eauto.
        * intro H. apply IH in H. destruct H as [G3 [evs [last [T [F X]]]]].
          split; [eapply grows_trans; [eassumption|]; eapply grows_trans; eassumption|].
          exists ((e1 ++ [EvAsk h (QMeta ts) o]) ++ evs), last. rewrite T, T2, T1, !app_assoc. split; [auto|].
          split; [|exact X]. eapply failover_vain; [exact SS| |exact F].
          intros [D|[e3 [D D']]]; [congruence|]. change (reported e3) with (kafka_err e3) in D'. congruence.
      + intro H. injection H as <- <- <-. split; [eapply grows_trans; eassumption|].
        exists (e1 ++ [EvAsk h (QMeta ts) o]), (Some o). rewrite T2, T1, app_assoc. split; [auto|].
        split; [|auto]. eapply failover_last; [exact SS|]. left. auto.
  Qed.

  Lemma meta_failover : forall s ts s' r e, RequestMetaData s ts = (s', (r, e)) ->
    exists order evs last,
    Permutation order (map fst (b_info W s)) /\ b_tr W s' = b_tr W s ++ evs /\
    failover (QMeta ts) meta_decides order evs last /\
    match last with
    | Some a => match fst a with Some (RMeta m) => r = m | _ => r = meta0 end /\ e = snd a
    | None => e = Some ENoBroker
    end.
  Proof.
    intros s ts s' r e. unfold Brokers.RequestMetaData. destruct (ordered s (b_info W s)) as [s1 l] eqn:EO.
    apply ordered_ok in EO. destruct EO as [_ [_ [P [T _]]]]. intro H. apply rmd_ok in H.
    destruct H as [_ [evs [last [T' [F X]]]]]. exists (map fst l), evs, last.
    split; [apply Permutation_map; exact P|]. rewrite T', T. split; [reflexivity|]. split; [exact F|].
    destruct last as [[[[]|] x]|]; [..|exact X]; injection X as -> ->; cbn; auto.
  Qed.
  Lemma meta_grows : forall s ts s' x, RequestMetaData s ts = (s', x) -> grows s s'.
  Proof.
    intros s ts s' [r e]. unfold Brokers.RequestMetaData. destruct (ordered s (b_info W s)) as [s1 l] eqn:EO.
    apply ordered_ok in EO. destruct EO as [Q _]. intro H. apply rmd_ok in H.
    eapply grows_trans; [apply quiet_grows; exact Q|]. tauto.
  Qed.

  Lemma fco_ok : forall l s g s' r, fco W dial exch ord s l g = (s', r) ->
    grows s s' /\ exists evs last,
    b_tr W s' = b_tr W s ++ evs /\ failover (QCoord g) no_error (map fst l) evs last /\
    match last with
    | Some a => r = Ok (fst (as_coord a))
    | None => r = Err E_no_coordinator
    end.
  Proof.
    induction l as [|[n ad] l IH]; intros s g s' r; cbn [fco map fst].
    - intro H. injection H as <- <-. split; [apply grows_refl|]. exists [], None.
      rewrite app_nil_r. split; [auto|]. split; [apply failover_end|auto].
    - destruct (GetBroker s n) as [s1 b] eqn:EG. apply GetBroker_ok in EG. destruct EG as [G1 [[e1 [T1 S1]] _]].
      destruct b as [h|e0].
      2:{ intro H. apply IH in H. destruct H as [G2 [evs [last [T [F X]]]]].
          split; [eapply grows_trans; eassumption|]. exists (e1 ++ evs), last.
          rewrite T, T1, app_assoc. split; [auto|]. split; [eapply failover_no; eassumption|exact X]. }
      destruct (rag s1 h (QCoord g)) as [s2 o] eqn:ER. apply rag_ok in ER. destruct ER as [G2 [T2 _]].
      assert (SS : seen (e1 ++ [EvAsk h (QCoord g) o]) = [EvGet n (inl h); EvAsk h (QCoord g) o])
        by (rewrite seen_app, S1; reflexivity).
      destruct (as_coord o) as [r1 e2] eqn:EM.
      assert (E2 : e2 = snd o) by (unfold as_coord in EM; destruct o as [[[]|] ?]; cbn in EM |- *; congruence).
      destruct e2 as [e2|].
      + intro H. apply IH in H. destruct H as [G3 [evs [last [T [F X]]]]].
        split; [eapply grows_trans; [eassumption|]; eapply grows_trans; eassumption|].
        exists ((e1 ++ [EvAsk h (QCoord g) o]) ++ evs), last. rewrite T, T2, T1, !app_assoc. split; [auto|].
        split; [|exact X]. eapply failover_vain; [exact SS| |exact F]. unfold no_error. congruence.
      + intro H. injection H as <- <-. split; [eapply grows_trans; eassumption|].
        exists (e1 ++ [EvAsk h (QCoord g) o]), (Some o). rewrite T2, T1, app_assoc. split; [auto|].
        split; [|rewrite EM; auto]. eapply failover_last; [exact SS|]. unfold no_error. auto.
  Qed.
  Lemma coord_failover : forall s g s' r, FindCoordinator s g = (s', r) ->
    exists order evs last,
    Permutation order (map fst (b_info W s)) /\ b_tr W s' = b_tr W s ++ evs /\
    failover (QCoord g) no_error order evs last /\
    match last with
    | Some a => r = Ok (match fst a with Some (RCoord n) => n | _ => 0 end)
    | None => r = Err E_no_coordinator
    end.
  Proof.
    intros s ts s' r. unfold Brokers.FindCoordinator. destruct (ordered s (b_info W s)) as [s1 l] eqn:EO.
    apply ordered_ok in EO. destruct EO as [_ [_ [P [T _]]]]. intro H. apply fco_ok in H.
    destruct H as [_ [evs [last [T' [F X]]]]]. exists (map fst l), evs, last.
    split; [apply Permutation_map; exact P|]. rewrite T', T. split; [reflexivity|]. split; [exact F|].
    destruct last as [[[[]|] x]|]; exact X.
  Qed.
  Lemma coord_grows : forall s g s' x, FindCoordinator s g = (s', x) -> grows s s'.
  Proof.
    intros s g s' x. unfold Brokers.FindCoordinator. destruct (ordered s (b_info W s)) as [s1 l] eqn:EO.
    apply ordered_ok in EO. destruct EO as [Q _]. intro H. apply fco_ok in H.
    eapply grows_trans; [apply quiet_grows; exact Q|]. tauto.
  Qed.

  Lemma req_all_ok : forall l s q s' r, req_all W dial exch ord s l q = (s', r) ->
    grows s s' /\ exists evs last,
    b_tr W s' = b_tr W s ++ evs /\ failover q no_error (map fst l) evs last /\
    match last with
    | Some a => r = Ok (fst a)
    | None => r = Err E_all_failed
    end.
  Proof.
    induction l as [|[n ad] l IH]; intros s q s' r; cbn [req_all map fst].
    - intro H. injection H as <- <-. split; [apply grows_refl|]. exists [], None.
      rewrite app_nil_r. split; [auto|]. split; [apply failover_end|auto].
    - destruct (GetBroker s n) as [s1 b] eqn:EG. apply GetBroker_ok in EG. destruct EG as [G1 [[e1 [T1 S1]] _]].
      destruct b as [h|e0].
      2:{ intro H. apply IH in H. destruct H as [G2 [evs [last [T [F X]]]]].
          split; [eapply grows_trans; eassumption|]. exists (e1 ++ evs), last.
          rewrite T, T1, app_assoc. split; [auto|]. split; [eapply failover_no; eassumption|exact X]. }
      destruct (rag s1 h q) as [s2 o] eqn:ER. apply rag_ok in ER. destruct ER as [G2 [T2 _]].
      assert (SS : seen (e1 ++ [EvAsk h q o]) = [EvGet n (inl h); EvAsk h q o])
        by (rewrite seen_app, S1; reflexivity).
      destruct o as [r1 e2].
      destruct e2 as [e2|].
      + intro H. apply IH in H. destruct H as [G3 [evs [last [T [F X]]]]].
        split; [eapply grows_trans; [eassumption|]; eapply grows_trans; eassumption|].
        exists ((e1 ++ [EvAsk h q (r1, Some e2)]) ++ evs), last. rewrite T, T2, T1, !app_assoc. split; [auto|].
        split; [|exact X]. eapply failover_vain; [exact SS| |exact F]. unfold no_error. cbn. congruence.
      + intro H. injection H as <- <-. split; [eapply grows_trans; eassumption|].
        exists (e1 ++ [EvAsk h q (r1, None)]), (Some (r1, None)). rewrite T2, T1, app_assoc. split; [auto|].
        split; [|auto]. eapply failover_last; [exact SS|]. unfold no_error. auto.
  Qed.
  Lemma request_failover : forall s q s' r, Request s q = (s', r) ->
    exists order evs last,
    Permutation order (map fst (b_info W s)) /\ b_tr W s' = b_tr W s ++ evs /\
    failover q no_error order evs last /\
    match last with
    | Some a => r = Ok (fst a)
    | None => r = Err E_all_failed
    end.
  Proof.
    intros s ts s' r. unfold Brokers.Request. destruct (ordered s (b_info W s)) as [s1 l] eqn:EO.
    apply ordered_ok in EO. destruct EO as [_ [_ [P [T _]]]]. intro H. apply req_all_ok in H.
    destruct H as [_ [evs [last [T' [F X]]]]]. exists (map fst l), evs, last.
    split; [apply Permutation_map; exact P|]. rewrite T', T. auto.
  Qed.
  Lemma request_grows : forall s g s' x, Request s g = (s', x) -> grows s s'.
  Proof.
    intros s g s' x. unfold Brokers.Request. destruct (ordered s (b_info W s)) as [s1 l] eqn:EO.
    apply ordered_ok in EO. destruct EO as [Q _]. intro H. apply req_all_ok in H.
    eapply grows_trans; [apply quiet_grows; exact Q|]. tauto.
  Qed.

  (** ** Offsets *)
  (** one question per leader: the leader, its partitions, the handle and the answer *)

  Hypothesis exch_fits : forall w h q w' r e, exch w h q = (w', inr (r, e)) -> fits q r.
  Lemma rag_fits : forall s h q s' o r, rag s h q = (s', o) -> fst o = Some r -> fits q r.
  Proof.
    intros s h q s' o r. unfold Brokers.rag. destruct (exch (b_w W s) h q) as [w a] eqn:E.
    intro H. injection H as <- <-. destruct a as [e|[r0 e]]; cbn; [discriminate|].
    intro X. injection X as ->. eapply exch_fits. exact E.
  Qed.

  Lemma request_offsets_ok : forall s h t pids time num s' r e,
    request_offsets W exch s h t pids time num = (s', (r, e)) ->
    grows s s' /\
    (e = None -> b_tr W s' = b_tr W s ++ [EvAsk h (QOffsets t (pid_set pids) time num) (Some (ROffsets r), None)]) /\
    exists o, b_tr W s' = b_tr W s ++ [EvAsk h (QOffsets t (pid_set pids) time num) o] /\ snd o = e.
  Proof.
    intros s h t pids time num s' r e. unfold request_offsets.
    destruct (rag s h (QOffsets t (pid_set pids) time num)) as [s1 o] eqn:ER.
    pose proof (rag_fits _ _ _ _ _ (match fst o with Some r => r | None => RCoord 0 end) ER) as FF.
    apply rag_ok in ER. destruct ER as [G [T [_ [_ N]]]].
    intro H. injection H as <- H. split; [exact G|].
    destruct o as [ro eo]. unfold as_offsets in H. cbn [fst snd] in *.
    destruct ro as [ro|].
    - specialize (FF eq_refl). destruct ro; cbn in FF; try contradiction. injection H as <- <-.
      split; [intros ->; exact T|eauto].
    - injection H as <- <-. split; [intro X; exfalso; apply N; auto|eauto].
  Qed.

  Lemma ro_all_ok : forall l s t time num acc s' r,
    ro_all W dial exch ord s t l time num acc = (s', r) ->
    grows s s' /\ r <> Panic /\ r <> Unspec /\
    exists evs done rest, b_tr W s' = b_tr W s ++ evs /\
      map (fun x => (a_leader x, a_pids x)) done ++ rest = map (fun x => (fst x, pid_set (snd x))) l /\
      match r with
      | Ok rs => seen evs = flat_map (asked_evs t time num) done /\ rest = [] /\ rs = acc ++ map a_answer done
      | _ => exists last, seen evs = flat_map (asked_evs t time num) done ++ last /\
               ((exists n e, last = [EvGet n (inr e)]) \/
                (exists n h pids o l', last = [EvGet n (inl h); EvAsk h (QOffsets t pids time num) o] /\
                   snd o <> None /\ rest = (n, pids) :: l'))
      end.
  Proof.
    induction l as [|[n pids] l IH]; intros s t time num acc s' r; cbn [ro_all].
    - intro H. injection H as <- <-. split; [apply grows_refl|]. split; [discriminate|]. split; [discriminate|].
      exists [], [], []. rewrite !app_nil_r. cbn. auto.
    - destruct (GetBroker s n) as [s1 g] eqn:EG. apply GetBroker_ok in EG. destruct EG as [G1 [[e1 [T1 S1]] _]].
      destruct g as [h|e0].
      2:{ intro H. injection H as <- <-. split; [exact G1|]. split; [discriminate|]. split; [discriminate|].
          exists e1, [], (map (fun x => (fst x, pid_set (snd x))) ((n, pids) :: l)).
          split; [exact T1|]. split; [reflexivity|]. exists [EvGet n (inr e0)]. split; [exact S1|]. left. eauto. }
      destruct (request_offsets W exch s1 h t pids time num) as [s2 [r1 e2]] eqn:ER.
      apply request_offsets_ok in ER. destruct ER as [G2 [T2 [o [T2' O2]]]].
      destruct e2 as [e2|].
      + intro H. injection H as <- <-. split; [eapply grows_trans; eassumption|]. split; [discriminate|]. split; [discriminate|].
        exists (e1 ++ [EvAsk h (QOffsets t (pid_set pids) time num) o]), [], (map (fun x => (fst x, pid_set (snd x))) ((n, pids) :: l)).
        split; [rewrite T2', T1, app_assoc; reflexivity|]. split; [reflexivity|].
        exists [EvGet n (inl h); EvAsk h (QOffsets t (pid_set pids) time num) o].
        split; [rewrite seen_app, S1; reflexivity|]. right. exists n, h, (pid_set pids), o. eexists.
        split; [reflexivity|]. split; [congruence|]. cbn. reflexivity.
      + specialize (T2 eq_refl). intro H. apply IH in H.
        destruct H as [G3 [NP [NU [evs [done [rest [T3 [M X]]]]]]]].
        split; [eapply grows_trans; [eassumption|]; eapply grows_trans; eassumption|].
        split; [exact NP|]. split; [exact NU|].
        set (a := mkAsked n (pid_set pids) h r1).
        exists ((e1 ++ [EvAsk h (QOffsets t (pid_set pids) time num) (Some (ROffsets r1), None)]) ++ evs), (a :: done), rest.
        split; [rewrite T3, T2, T1, !app_assoc; reflexivity|].
        split; [cbn; rewrite M; reflexivity|].
        assert (SS : seen ((e1 ++ [EvAsk h (QOffsets t (pid_set pids) time num) (Some (ROffsets r1), None)]) ++ evs)
                     = asked_evs t time num a ++ seen evs).
        { rewrite !seen_app, S1. reflexivity. }
        destruct r as [rs|e| |]; try congruence.
        * destruct X as [Sx [-> ->]]. rewrite SS, Sx. cbn. rewrite <- app_assoc. auto.
        * destruct X as [last [Sx L]]. exists last. rewrite SS, Sx. split; [reflexivity|exact L].
  Qed.

  Lemma offsets_all : forall s t pid time num s1 m t0 ps ts s' rs,
    pid < 0 -> RequestMetaData s [t] = (s1, (m, None)) -> m_topics m = (t0, ps) :: ts -> NoDup (map fst ps) ->
    RequestOffsets s t pid time num = (s', Ok rs) ->
    exists evs done, b_tr W s' = b_tr W s1 ++ evs /\ seen evs = flat_map (asked_evs t time num) done /\
      rs = map a_answer done /\ NoDup (map a_leader done) /\
      Permutation (pairs (map (fun x => (a_leader x, a_pids x)) done)) (map (fun p => (fst (snd p), fst p)) ps).
  Proof.
    intros s t pid time num s1 m t0 ps ts s' rs Hp EM ET ND. unfold Brokers.RequestOffsets. rewrite EM, ET.
    destruct (0 <=? pid) eqn:E; [lia|].
    destruct (ordered s1 (by_leader ps)) as [s2 l] eqn:EO. apply ordered_ok in EO. destruct EO as [_ [_ [P [T _]]]].
    intro H. apply ro_all_ok in H. destruct H as [_ [_ [_ [evs [done [rest [T2 [M [S [-> ->]]]]]]]]]].
    exists evs, done. split; [rewrite T2, T; reflexivity|]. split; [exact S|]. split; [reflexivity|].
    rewrite app_nil_r in M. destruct (by_leader_ok ps) as [NL PL].
    split.
    - assert (X : map a_leader done = map fst l).
      { transitivity (map fst (map (fun x => (a_leader x, a_pids x)) done)); [rewrite map_map; reflexivity|].
        rewrite M, map_map. reflexivity. }
      rewrite X. eapply Permutation_NoDup; [|exact NL]. apply Permutation_map. symmetry. exact P.
    - rewrite M. assert (PP : Permutation (pairs l) (map (fun p => (fst (snd p), fst p)) ps)).
      { rewrite <- PL. unfold pairs. apply Permutation_flat_map. exact P. }
      rewrite nodup_pairs; [exact PP|]. eapply Permutation_NoDup; [apply Permutation_map; symmetry; exact PP|].
      rewrite map_map. cbn. exact ND.
  Qed.

  (** whatever happens, no partition is asked about twice, and each only of its leader *)
  Lemma offsets_all_err : forall s t pid time num s1 m t0 ps ts s' e,
    pid < 0 -> RequestMetaData s [t] = (s1, (m, None)) -> m_topics m = (t0, ps) :: ts -> NoDup (map fst ps) ->
    RequestOffsets s t pid time num = (s', Err e) ->
    exists evs done last rest, b_tr W s' = b_tr W s1 ++ evs /\
      seen evs = flat_map (asked_evs t time num) done ++ last /\
      ((exists n e, last = [EvGet n (inr e)]) \/
       (exists n h pids o l', last = [EvGet n (inl h); EvAsk h (QOffsets t pids time num) o] /\ snd o <> None /\
          rest = (n, pids) :: l')) /\
      Permutation (pairs (map (fun x => (a_leader x, a_pids x)) done ++ rest)) (map (fun p => (fst (snd p), fst p)) ps).
  Proof.
    intros s t pid time num s1 m t0 ps ts s' e Hp EM ET ND. unfold Brokers.RequestOffsets. rewrite EM, ET.
    destruct (0 <=? pid) eqn:E; [lia|].
    destruct (ordered s1 (by_leader ps)) as [s2 l] eqn:EO. apply ordered_ok in EO. destruct EO as [_ [_ [P [T _]]]].
    intro H. apply ro_all_ok in H. destruct H as [_ [_ [_ [evs [done [rest [T2 [M [last [S L]]]]]]]]]].
    exists evs, done, last, rest. split; [rewrite T2, T; reflexivity|]. split; [exact S|]. split; [exact L|].
    destruct (by_leader_ok ps) as [NL PL]. rewrite M.
    assert (PP : Permutation (pairs l) (map (fun p => (fst (snd p), fst p)) ps)).
    { rewrite <- PL. unfold pairs. apply Permutation_flat_map. exact P. }
    rewrite nodup_pairs; [exact PP|]. eapply Permutation_NoDup; [apply Permutation_map; symmetry; exact PP|].
    rewrite map_map. cbn. exact ND.
  Qed.

  (** a question about one partition goes to its leader only *)
  Lemma offsets_one : forall s t pid time num s1 m t0 ps ts s' r,
    0 <= pid -> RequestMetaData s [t] = (s1, (m, None)) -> m_topics m = (t0, ps) :: ts ->
    RequestOffsets s t pid time num = (s', r) ->
    (r = Err E_no_partition /\ ~ In pid (map fst ps) /\ s' = s1) \/
    exists leader rs evs, In (pid, (leader, rs)) ps /\ b_tr W s' = b_tr W s1 ++ evs /\
      ((exists e, seen evs = [EvGet leader (inr e)] /\ r = Err (EWrap e)) \/
       (exists h o, seen evs = [EvGet leader (inl h); EvAsk h (QOffsets t [pid] time num) o] /\
          match snd o with
          | Some e => r = Err e
          | None => exists a, fst o = Some (ROffsets a) /\ r = Ok [a]
          end)).
  Proof.
    intros s t pid time num s1 m t0 ps ts s' r Hp EM ET. unfold Brokers.RequestOffsets. rewrite EM, ET.
    destruct (0 <=? pid) eqn:E; [|lia]. destruct (find_pid pid ps) as [leader|] eqn:EF.
    2:{ intro H. injection H as <- <-. left. split; [reflexivity|]. split; [|reflexivity]. apply find_pid_none. exact EF. }
    destruct (find_pid_some _ _ _ EF) as [reps I].
    destruct (GetBroker s1 leader) as [s2 g] eqn:EG. apply GetBroker_ok in EG. destruct EG as [G1 [[e1 [T1 S1]] _]].
    destruct g as [h|e0].
    2:{ intro H. injection H as <- <-. right. exists leader, reps, e1. split; [exact I|]. split; [exact T1|]. left. eauto. }
    destruct (request_offsets W exch s2 h t [pid] time num) as [s3 [r1 e2]] eqn:ER.
    apply request_offsets_ok in ER. destruct ER as [G2 [T2 [o [T2' O2]]]].
    assert (PS : pid_set [pid] = [pid]) by reflexivity. rewrite PS in *.
    destruct e2 as [e2|].
    - intro H. injection H as <- <-. right.
      exists leader, reps, (e1 ++ [EvAsk h (QOffsets t [pid] time num) o]). split; [exact I|].
      split; [rewrite T2', T1, app_assoc; reflexivity|]. right. exists h, o.
      split; [rewrite seen_app, S1; reflexivity|]. rewrite O2. reflexivity.
    - specialize (T2 eq_refl). intro H. injection H as <- <-. right.
      exists leader, reps, (e1 ++ [EvAsk h (QOffsets t [pid] time num) (Some (ROffsets r1), None)]). split; [exact I|].
      split; [rewrite T2, T1, app_assoc; reflexivity|]. right. exists h, (Some (ROffsets r1), None).
      split; [rewrite seen_app, S1; reflexivity|]. cbn. eauto.
  Qed.

  Lemma offsets_grows : forall s t pid time num s' r, RequestOffsets s t pid time num = (s', r) -> grows s s'.
  Proof.
    intros s t pid time num s' r. unfold Brokers.RequestOffsets.
    destruct (RequestMetaData s [t]) as [s1 [m e]] eqn:EM. apply meta_grows in EM.
    destruct e; [intro H; injection H as <- <-; exact EM|].
    destruct (m_topics m) as [|[t0 ps] ts]; [intro H; injection H as <- <-; exact EM|].
    destruct (0 <=? pid).
    - destruct (find_pid pid ps); [|intro H; injection H as <- <-; exact EM].
      destruct (GetBroker s1 z) as [s2 g] eqn:EG. apply GetBroker_ok in EG. destruct EG as [G1 _].
      destruct g; [|intro H; injection H as <- <-; eapply grows_trans; eassumption].
      destruct (request_offsets W exch s2 h t [pid] time num) as [s3 [r1 e2]] eqn:ER.
      apply request_offsets_ok in ER. destruct ER as [G2 _].
      destruct e2; intro H; injection H as <- <-; (eapply grows_trans; [eassumption|]; eapply grows_trans; eassumption).
    - destruct (ordered s1 (by_leader ps)) as [s2 l] eqn:EO. apply ordered_ok in EO. destruct EO as [Q _].
      intro H. apply ro_all_ok in H. destruct H as [G _]. apply quiet_grows in Q.
      eapply grows_trans; [eassumption|]; eapply grows_trans; eassumption.
  Qed.
End Facts.
