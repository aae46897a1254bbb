(** Lost connections, log directories, deleting groups. *)
From Verif Require Import Base BaseFacts Builders BuildersSpec BuildersFacts Brokers BrokersSpec BrokersFacts BrokersMore.

Lemma by_broker_snoc : forall l x, by_broker (l ++ [x]) =
  put (fst x) (match get (fst x) (by_broker l) with Some l => l | None => [] end ++ [snd x]) (by_broker l).
Proof. intros l x. unfold by_broker. rewrite fold_left_app. reflexivity. Qed.
Lemma by_broker_ok : forall l,
  NoDup (map fst (by_broker l)) /\
  forall b x, In (b, x) l <-> exists xs, In (b, xs) (by_broker l) /\ In x xs.
Proof.
  induction l as [|[k v] l [N H]] using rev_ind.
  - split; [constructor|]. intros b x. split; [intros []|intros [xs [[] _]]].
  - rewrite by_broker_snoc. cbn [fst snd]. split; [apply put_nodup; exact N|]. intros b x. rewrite in_app_iff. cbn [In].
    set (old := match get k (by_broker l) with Some l0 => l0 | None => [] end).
    assert (NP : NoDup (map fst (put k (old ++ [v]) (by_broker l)))) by (apply put_nodup; exact N).
    assert (X : forall xs, In (b, xs) (put k (old ++ [v]) (by_broker l)) <->
                 (b = k /\ xs = old ++ [v]) \/ (b <> k /\ In (b, xs) (by_broker l))).
    { intro xs. split.
      - intro I. apply get_nodup in I; [|exact NP]. destruct (Z.eq_dec b k) as [->|D].
        + rewrite get_put_same in I. injection I as <-. auto.
        + rewrite get_put_other in I by exact D. right. split; [exact D|]. apply get_in. exact I.
      - intros [[-> ->]|[D I]]; apply get_in; [apply get_put_same|].
        rewrite get_put_other by exact D. apply get_nodup; assumption. }
    rewrite H. split.
    + intros [[xs [I J]]|[E|[]]].
      * destruct (Z.eq_dec b k) as [->|D].
        -- exists (old ++ [v]). split; [apply X; auto|]. apply in_or_app. left. unfold old.
           rewrite (get_nodup _ _ _ _ N I). exact J.
        -- exists xs. split; [apply X; auto|exact J].
      * injection E as -> ->. exists (old ++ [x]). split; [apply X; auto|]. apply in_or_app. cbn. auto.
    + intros [xs [I J]]. apply X in I. destruct I as [[-> ->]|[D I]]; [|eauto].
      apply in_app_or in J. destruct J as [J|[<-|[]]]; [|auto]. left. unfold old in J.
      destruct (get k (by_broker l)) as [l0|] eqn:EG; [|contradiction]. exists l0. split; [apply get_in; exact EG|exact J].
Qed.
Lemma replicas_in : forall ts b t p, In (b, (t, p)) (replicas_of ts) <->
  exists ps l rs, In (t, ps) ts /\ In (p, (l, rs)) ps /\ In b rs.
Proof.
  intros ts b t p. unfold replicas_of. rewrite in_flat_map. split.
  - intros [[t0 ps] [I J]]. apply in_flat_map in J. destruct J as [[p0 [l rs]] [J K]]. apply in_map_iff in K.
    destruct K as [b0 [E K]]. cbn in *. injection E as -> -> ->. exists ps, l, rs. auto.
  - intros [ps [l [rs [I [J K]]]]]. exists (t, ps). split; [exact I|]. apply in_flat_map. exists (p, (l, rs)).
    split; [exact J|]. apply in_map_iff. exists b. auto.
Qed.

Lemma keep_restrict : forall ts ds, keep_topics ts ds = restrict ts ds.
Proof.
  intros ts ds. unfold keep_topics, restrict. apply map_ext. intro d. f_equal. apply filter_ext. intro t.
  destruct (in_dec bytes_eq_dec (fst t) ts) as [I|N].
  - apply existsb_exists. exists (fst t). split; [exact I|]. apply beqb_true. reflexivity.
  - destruct (existsb (beqb (fst t)) ts) eqn:E; [|reflexivity]. exfalso. apply existsb_exists in E.
    destruct E as [x [I E]]. apply beqb_true in E. subst. auto.
Qed.
Lemma put_keeps : forall V k k' (v v' : V) l, k <> k' -> In (k, v) l -> In (k, v) (put k' v' l).
Proof.
  induction l as [|[k2 v2] l IH]; cbn; intros N I; [contradiction|].
  destruct (k2 =? k') eqn:E; cbn; destruct I as [I|I]; auto. injection I as -> ->. exfalso. lia.
Qed.

Section Lost.
  Variable W : Type.
  Variable dial : W -> bytes -> W * dres.
  Variable exch : W -> handle -> req -> W * (err + resp * option err).
  Variable ord : forall A : Type, W -> list A -> W * list A.
  Hypothesis ord_perm : forall A w l, Permutation (snd (ord A w l)) l.

  Notation bst := (bst W).
  Notation grows := (grows W).
  Notation rag := (rag W exch).
  Notation GetBroker := (GetBroker W dial exch ord).
  Notation NewBrokerFor := (NewBrokerFor W dial exch ord).
  Notation refresh := (refresh W dial exch ord).
  Notation ordered := (ordered W ord).
  Notation RequestMetaData := (RequestMetaData W dial exch ord).
  Notation FindCoordinator := (FindCoordinator W dial exch ord).
  Notation DescribeLogDirs := (DescribeLogDirs W dial exch ord).
  Notation DeleteGroups := (DeleteGroups W dial exch ord).
  Notation does := (does W dial exch ord).
  Notation calls := (calls W dial exch ord).
  Let GB := GetBroker_ok W dial exch ord ord_perm.
  Let RAG := rag_ok W exch.
  Let ORD := ordered_ok W ord ord_perm.

  (** ** Identities *)
  Definition ids_ok (s : bst) : Prop :=
    (forall n h, In (n, h) (b_cache W s) -> h_id h < b_next W s) /\
    (forall i, opened (b_tr W s) i -> i < b_next W s) /\
    (forall i, closed (b_tr W s) i -> i < b_next W s).
  Record keeps (s s' : bst) : Prop := {
    k_ids : ids_ok s -> ids_ok s';
    k_next : b_next W s <= b_next W s';
    k_lost : forall i, ids_ok s -> lost s i -> lost s' i
  }.
  Lemma keeps_refl : forall s, keeps s s.
  Proof. intro s. constructor; auto. lia. Qed.
  Lemma keeps_trans : forall a b c, keeps a b -> keeps b c -> keeps a c.
  Proof. intros a b c [A1 A2 A3] [B1 B2 B3]. constructor; auto. lia. Qed.
  Lemma keeps_same : forall s s', b_tr W s' = b_tr W s -> b_cache W s' = b_cache W s -> b_next W s' = b_next W s -> keeps s s'.
  Proof.
    intros s s' T C N. constructor; [|lia|]; unfold ids_ok, lost; rewrite ?T, ?C, ?N; auto.
  Qed.
  (** adding an event that opens and closes nothing *)
  Lemma keeps_ev : forall s s' e, (forall i, e <> EvOpen i) -> (forall i, e <> EvClose i) ->
    b_tr W s' = b_tr W s ++ [e] -> b_cache W s' = b_cache W s -> b_next W s' = b_next W s -> keeps s s'.
  Proof.
    intros s s' e HO HC T C N.
    assert (O : forall i, opened (b_tr W s') i <-> opened (b_tr W s) i).
    { intro i. unfold opened. rewrite T, in_app_iff. cbn. split; [intros [X|[X|[]]]; [auto|exfalso; eapply HO; eauto]|auto]. }
    assert (L : forall i, closed (b_tr W s') i <-> closed (b_tr W s) i).
    { intro i. unfold closed. rewrite T, in_app_iff. cbn. split; [intros [X|[X|[]]]; [auto|exfalso; eapply HC; eauto]|auto]. }
    constructor; [|lia|].
    - intros [A [B D]]. unfold ids_ok. rewrite C, N. split; [exact A|]. split; intro i; [rewrite O|rewrite L]; auto.
    - intros i _ [A [B D]]. unfold lost. rewrite O, L, C. auto.
  Qed.
  (** a new connection, cached or not *)
  Lemma new_broker_keeps : forall s a n s' r, new_broker W dial s a n = (s', r) -> keeps s s'.
  Proof.
    intros s a n s' r. unfold new_broker. destruct (dial (b_w W s) a) as [w d].
    assert (K : keeps s (fresh W (log W (with_w W s w) (EvOpen (b_next W (with_w W s w)))))).
    { constructor; cbn; [|lia|].
      - intros [A [B D]]. unfold ids_ok, opened, closed in *. cbn. split; [intros m h I; specialize (A _ _ I); lia|].
        split; intros i I; apply in_app_or in I; cbn in I.
        + destruct I as [I|[I|[]]]; [specialize (B _ I); lia|]. injection I as <-. lia.
        + destruct I as [I|[I|[]]]; [specialize (D _ I); lia|discriminate].
      - intros i [A [B D]] [X [Y Q]]. unfold lost, opened, closed in *. cbn.
        split; [apply in_or_app; auto|]. split; [|exact Q]. intro I. apply in_app_or in I.
        destruct I as [I|[I|[]]]; [auto|discriminate]. }
    destruct d; intro H; injection H as <- <-; try exact K. apply keeps_same; reflexivity.
  Qed.
  Lemma new_broker_lost : forall s a n s' h, ids_ok s -> new_broker W dial s a n = (s', inl h) -> lost s' (h_id h).
  Proof.
    intros s a n s' h [A [B D]] E. apply new_broker_quiet in E. destruct E as [Q [_ [_ [_ [I [N T]]]]]].
    unfold lost, opened, closed in *. rewrite T, (q_cache _ _ _ Q), I. split; [apply in_or_app; cbn; auto|]. split.
    - intro J. apply in_app_or in J. destruct J as [J|[J|[]]]; [specialize (D _ J); lia|discriminate].
    - intros m h' J. specialize (A _ _ J). lia.
  Qed.
  Lemma probe_keeps : forall s h s' o, probe W exch s h = (s', o) -> keeps s s'.
  Proof.
    intros s h s' o E. apply probe_quiet in E. destruct E as [Q [_ [T N]]].
    eapply keeps_ev; [| |exact T|apply (q_cache _ _ _ Q)|exact N]; discriminate.
  Qed.
  (** closing a connection made since *)
  Lemma close_keeps : forall s0 s i, keeps s0 s -> b_next W s0 <= i < b_next W s -> keeps s0 (log W s (EvClose i)).
  Proof.
    intros s0 s i [K1 K2 K3] Hi. constructor; [|exact K2|].
    - intro I0. destruct (K1 I0) as [A [B D]]. unfold ids_ok, opened, closed in *. cbn. split; [exact A|].
      split; intros j J; apply in_app_or in J; cbn in J.
      + destruct J as [J|[J|[]]]; [auto|discriminate].
      + destruct J as [J|[J|[]]]; [auto|]. injection J as <-. lia.
    - intros j I0 L. destruct (K3 j I0 L) as [X [Y Q]]. unfold lost, opened, closed in *. cbn.
      split; [apply in_or_app; auto|]. split; [|exact Q]. intro J. apply in_app_or in J.
      destruct J as [J|[J|[]]]; [auto|]. injection J as <-.
      destruct L as [L _]. destruct I0 as [_ [B _]]. specialize (B _ L). lia.
  Qed.
  Lemma refresh_boot_keeps : forall l s, keeps s (refresh_boot W dial exch s l).
  Proof.
    induction l as [|a l IH]; intro s; cbn [refresh_boot]; [apply keeps_refl|].
    destruct (new_broker W dial s a (-1)) as [s1 b] eqn:E1. pose proof (new_broker_keeps _ _ _ _ _ E1) as K1.
    apply new_broker_quiet in E1. destruct E1 as [_ [_ X]].
    destruct b as [h|e]; [|eapply keeps_trans; [exact K1|apply IH]].
    destruct (probe W exch s1 h) as [s2 o] eqn:E2. pose proof (probe_keeps _ _ _ _ E2) as K2.
    apply probe_quiet in E2. destruct E2 as [_ [_ [_ N2]]].
    destruct (m_brokers (fst (as_meta o))).
    - eapply keeps_trans; [|apply IH]. apply close_keeps; [eapply keeps_trans; eassumption|]. lia.
    - eapply keeps_trans; [exact K1|]. eapply keeps_trans; [exact K2|]. eapply keeps_trans; [|apply IH].
      apply keeps_same; reflexivity.
  Qed.
  Lemma refresh_known_keeps : forall l s s' b, refresh_known W dial exch s l = (s', b) ->
    keeps s s' /\ (b = true -> ids_ok s -> exists i, b_next W s <= i /\ lost s' i).
  Proof.
    induction l as [|[n a] l IH]; intros s s' b0; cbn [refresh_known].
    - intro H. injection H as <- <-. split; [apply keeps_refl|discriminate].
    - destruct (new_broker W dial s a (-1)) as [s1 b] eqn:E1. pose proof (new_broker_keeps _ _ _ _ _ E1) as K1.
      destruct b as [h|e].
      2:{ intro H. apply IH in H. destruct H as [K H]. split; [eapply keeps_trans; eassumption|].
          intros B I. destruct (H B (k_ids _ _ K1 I)) as [i [Hi L]]. exists i. split; [|exact L].
          pose proof (k_next _ _ K1). lia. }
      destruct (probe W exch s1 h) as [s2 o] eqn:E2. pose proof (probe_keeps _ _ _ _ E2) as K2.
      destruct (m_brokers (fst (as_meta o))) as [|x bs].
      + intro H. apply IH in H. destruct H as [K H].
        split; [eapply keeps_trans; [exact K1|]; eapply keeps_trans; eassumption|].
        intros B I. destruct (H B (k_ids _ _ K2 (k_ids _ _ K1 I))) as [i [Hi L]]. exists i. split; [|exact L].
        pose proof (k_next _ _ K1). pose proof (k_next _ _ K2). lia.
      + intro H. injection H as <- <-. split.
        { eapply keeps_trans; [exact K1|]. eapply keeps_trans; [exact K2|]. apply keeps_same; reflexivity. }
        intros _ I. exists (h_id h). split.
        { apply new_broker_quiet in E1. destruct E1 as [_ [_ [_ [_ [-> _]]]]]. lia. }
        pose proof (new_broker_lost _ _ _ _ _ I E1) as L.
        apply (k_lost _ _ K2 _ (k_ids _ _ K1 I)) in L. exact L.
  Qed.
  Lemma ordered_keeps : forall A (l : list A) s s' l', ordered s l = (s', l') -> keeps s s'.
  Proof.
    intros A l s s' l' E. apply ORD in E. destruct E as [Q [_ [_ [T N]]]].
    apply keeps_same; [exact T|apply (q_cache _ _ _ Q)|exact N].
  Qed.
  Lemma refresh_keeps : forall s s' b, refresh s = (s', b) ->
    keeps s s' /\ (b = true -> ids_ok s -> exists i, b_next W s <= i /\ lost s' i).
  Proof.
    intros s s' b. unfold Brokers.refresh. pose proof (refresh_boot_keeps (b_boot W s) s) as K0.
    set (s0 := refresh_boot W dial exch s (b_boot W s)) in *.
    destruct (ordered s0 (b_info W s0)) as [s1 l] eqn:E. pose proof (ordered_keeps _ _ _ _ _ E) as K1.
    intro H. apply refresh_known_keeps in H. destruct H as [K2 H].
    split; [eapply keeps_trans; [exact K0|]; eapply keeps_trans; eassumption|].
    intros B I. destruct (H B (k_ids _ _ K1 (k_ids _ _ K0 I))) as [i [Hi L]]. exists i. split; [|exact L].
    pose proof (k_next _ _ K0). pose proof (k_next _ _ K1). lia.
  Qed.
  Lemma known_keeps : forall s n, keeps s (known_or_refresh W dial exch ord s n).
  Proof.
    intros s n. unfold known_or_refresh. destruct (get n (b_info W s)); [apply keeps_refl|].
    destruct (refresh s) as [s' b] eqn:E. apply refresh_keeps in E. tauto.
  Qed.
  Lemma prim_keeps : forall s s', prim W dial exch ord s s' -> keeps s s'.
  Proof.
    intros s s' H. destruct H.
    - apply keeps_same; reflexivity.
    - unfold Brokers.GetBroker in H. destruct (get_broker0 W dial exch ord s n) as [s1 g1] eqn:E.
      injection H as <- <-. eapply keeps_trans; [|eapply (keeps_ev s1); [| | reflexivity|reflexivity|reflexivity]; discriminate].
      unfold get_broker0 in E. destruct (get n (b_cache W s)); [injection E as <- <-; apply keeps_refl|].
      pose proof (known_keeps s n) as K0. set (s0 := known_or_refresh W dial exch ord s n) in *.
      destruct (get n (b_info W s0)) as [a|] eqn:EI; [|injection E as <- <-; exact K0].
      destruct (new_broker W dial s0 a n) as [s2 b] eqn:E1. pose proof (new_broker_keeps _ _ _ _ _ E1) as K1.
      apply new_broker_quiet in E1. destruct E1 as [Q1 [_ X]].
      destruct b as [h|e]; injection E as <- <-; [|eapply keeps_trans; eassumption].
      eapply keeps_trans; [exact K0|]. destruct X as [_ [_ [HI [HN HT]]]]. constructor; cbn; [|lia|].
      + intro I0. destruct (k_ids _ _ K1 I0) as [A [B D]]. split; [|split; [exact B|exact D]].
        cbn. intros m h' J. apply put_in in J. destruct J as [J|J]; [injection J as _ ->; lia|eauto].
      + intros i I0 L. pose proof (k_lost _ _ K1 i I0 L) as [X [Y Z0]]. split; [exact X|]. split; [exact Y|].
        cbn. intros m h' J. apply put_in in J. destruct J as [J|J]; [|eauto]. injection J as _ ->.
        destruct L as [L _]. destruct I0 as [_ [B _]]. specialize (B _ L). lia.
    - pose proof H as H'. unfold Brokers.rag in H'. destruct (exch (b_w W s) h q). injection H' as H' _.
      apply RAG in H. destruct H as [_ [T [_ [C _]]]].
      eapply (keeps_ev s s'); [| |exact T|exact C|rewrite <- H'; reflexivity]; discriminate.
    - unfold Brokers.NewBrokerFor in H. pose proof (known_keeps s n) as K0.
      set (s0 := known_or_refresh W dial exch ord s n) in *.
      destruct (get n (b_info W s0)) as [a|]; [|injection H as <- <-; exact K0].
      destruct (new_broker W dial s0 a n) as [s1 b] eqn:E. apply new_broker_keeps in E.
      destruct b; injection H as <- <-; eapply keeps_trans; eassumption.
  Qed.
  Lemma does_keeps : forall s s', does s s' -> keeps s s'.
  Proof. intros s s' H. induction H; [apply keeps_refl|]. eapply keeps_trans; [apply prim_keeps|]; eassumption. Qed.

  Lemma new_brokers_ids : forall l s s' e, new_brokers W dial exch s l = (s', e) -> b_cache W s = [] -> ids_ok s -> ids_ok s'.
  Proof.
    induction l as [|a l IH]; intros s s' e; cbn [new_brokers].
    - intro H. injection H as <- <-. auto.
    - destruct (new_broker W dial s a (-1)) as [s1 b] eqn:E1. pose proof (new_broker_keeps _ _ _ _ _ E1) as K1.
      apply new_broker_quiet in E1. destruct E1 as [Q1 [_ X]].
      intros H C I. pose proof (k_ids _ _ K1 I) as I1. assert (C1 : b_cache W s1 = []) by (rewrite (q_cache _ _ _ Q1); exact C).
      destruct b as [h|e1]; [|eapply IH; eassumption].
      unfold from_one in H. destruct (probe W exch s1 h) as [s2 o] eqn:E2. pose proof (probe_keeps _ _ _ _ E2) as K2.
      apply probe_quiet in E2. destruct E2 as [Q2 [_ [_ N2]]]. pose proof (k_ids _ _ K2 I1) as I2.
      assert (C2 : b_cache W s2 = []) by (rewrite (q_cache _ _ _ Q2); exact C1).
      destruct (as_meta o) as [m e2]. destruct e2; [eapply IH; eassumption|].
      destruct (m_brokers m) as [|x bs]; [eapply IH; eassumption|].
      injection H as <- <-. destruct I2 as [A [B D]]. split; [|split; [exact B|exact D]].
      cbn [b_cache with_ctl with_cache with_info b_next]. destruct X as [_ [_ [HI [HN _]]]].
      assert (F : forall l c, (forall n h', In (n, h') c -> h_id h' < b_next W s2) -> forall n h',
        In (n, h') (fold_left (fun c x => if bytes_eq_dec (h_addr h) (snd x) then put (fst x) h c else c) l c) -> h_id h' < b_next W s2).
      { induction l0 as [|y l0 IHl]; cbn; intros c Hc; [exact Hc|]. apply IHl.
        destruct (bytes_eq_dec (h_addr h) (snd y)); [|exact Hc]. intros n0 h0 J. apply put_in in J.
        destruct J as [J|J]; [|eauto]. injection J as _ ->. lia. }
      apply (F (x :: bs) []). intros ? ? [].
  Qed.
  Lemma start_ids : forall w boot s e, NewBrokers W dial exch w boot = (s, e) -> ids_ok s.
  Proof.
    intros w boot s e H. eapply new_brokers_ids; [exact H|reflexivity|].
    split; [intros ? ? []|]. split; intros i [].
  Qed.
  Lemma close_all_tr : forall s, b_tr W (CloseAll W s) = b_tr W s ++ map (fun x => EvClose (h_id (snd x))) (b_cache W s) /\
    b_cache W (CloseAll W s) = b_cache W s.
  Proof.
    intro s. unfold CloseAll.
    assert (F : forall l s0, b_tr W (fold_left (fun s x => log W s (EvClose (h_id (snd x)))) l s0) =
                  b_tr W s0 ++ map (fun x : Z * handle => EvClose (h_id (snd x))) l /\
                b_cache W (fold_left (fun s x => log W s (EvClose (h_id (snd x)))) l s0) = b_cache W s0).
    { induction l as [|x l IH]; intro s0; cbn; [rewrite app_nil_r; auto|].
      destruct (IH (log W s0 (EvClose (h_id (snd x))))) as [A B]. rewrite A, B. cbn. rewrite <- app_assoc. auto. }
    apply F.
  Qed.
  Lemma close_all_lost : forall s i, lost s i -> lost (CloseAll W s) i.
  Proof.
    intros s i [A [B C]]. destruct (close_all_tr s) as [T D]. unfold lost, opened, closed in *. rewrite T, D.
    split; [apply in_or_app; auto|]. split; [|exact C]. intro I. apply in_app_or in I. destruct I as [I|I]; [auto|].
    apply in_map_iff in I. destruct I as [[n h] [E J]]. injection E as E. apply (C n h J). exact E.
  Qed.
  (** every refresh that works loses a connection for good: no later call closes it, nor
      does Close *)
  Lemma refresh_loses : forall w boot s0 e l s s' l', NewBrokers W dial exch w boot = (s0, e) ->
    s = calls s0 l -> refresh s = (s', true) ->
    exists i, ~ opened (b_tr W s) i /\ lost s' i /\ lost (CloseAll W (calls s' l')) i.
  Proof.
    intros w boot s0 e l s s' l' H -> R. pose proof (start_ids _ _ _ _ H) as I0.
    pose proof (k_ids _ _ (does_keeps _ _ (calls_does W dial exch ord l s0)) I0) as I.
    apply refresh_keeps in R. destruct R as [K R]. destruct (R eq_refl I) as [i [Hi L]]. exists i.
    split; [|split; [exact L|]].
    - intro O. destruct I as [_ [B _]]. specialize (B _ O). lia.
    - apply close_all_lost. apply (k_lost _ _ (does_keeps _ _ (calls_does W dial exch ord l' s')) i); [|exact L].
      apply (k_ids _ _ K). exact I.
  Qed.
  (** Close closes every cached handle *)
  Lemma close_all_closes : forall s n h, In (n, h) (b_cache W s) -> closed (b_tr W (CloseAll W s)) (h_id h).
  Proof.
    intros s n h I. unfold closed. rewrite (proj1 (close_all_tr s)). apply in_or_app. right.
    apply (in_map (fun x => EvClose (h_id (snd x)))) in I. exact I.
  Qed.
  (** a lookup without a refresh and with a working connection loses nothing *)
  Lemma get_loses_nothing : forall s n s' h i, get n (b_info W s) <> None -> GetBroker s n = (s', inl h) ->
    lost s' i -> lost s i.
  Proof.
    intros s n s' h i KN. unfold Brokers.GetBroker, get_broker0.
    destruct (get n (b_cache W s)) as [h0|] eqn:EC.
    - intro H. injection H as <- <-. unfold lost, opened, closed. cbn. intros [A [B C]].
      apply in_app_or in A. destruct A as [A|[A|[]]]; [|discriminate]. split; [exact A|]. split; [|exact C].
      intro X. apply B. apply in_or_app. auto.
    - unfold known_or_refresh. destruct (get n (b_info W s)) as [a|] eqn:EI; [|congruence]. rewrite EI.
      destruct (new_broker W dial s a n) as [s1 b] eqn:E. apply new_broker_quiet in E. destruct E as [Q [_ X]].
      destruct b as [h1|e]; intro H; [|discriminate]. injection H as <- ->.
      destruct X as [_ [_ [HI [_ T]]]]. unfold lost, opened, closed. cbn. rewrite T, (q_cache _ _ _ Q).
      intros [A [B C]].
      assert (NI : h_id h <> i) by (apply (C n h); apply get_in, get_put_same).
      apply in_app_or in A. destruct A as [A|[A|[]]]; [|discriminate]. apply in_app_or in A.
      destruct A as [A|[A|[]]]; [|injection A as A; congruence]. split; [exact A|]. split.
      + intro Y. apply B. apply in_or_app. left. apply in_or_app. auto.
      + intros m h' J. apply (C m h'). apply put_keeps; [|exact J]. intros ->.
        apply get_none in EC. apply EC. apply (in_map fst) in J. exact J.
  Qed.

  (** ** The broker list names every node once *)
  Definition once (s : bst) : Prop := NoDup (map fst (b_info W s)).
  Lemma info_of_once : forall l, NoDup (map fst (info_of l)).
  Proof.
    induction l as [|[k v] l IH] using rev_ind; [constructor|].
    unfold info_of. rewrite fold_left_app. cbn. apply put_nodup. exact IH.
  Qed.
  Lemma new_broker_once : forall s a n s' r, new_broker W dial s a n = (s', r) -> once s -> once s'.
  Proof. intros s a n s' r E. apply new_broker_quiet in E. unfold once. destruct E as [_ [-> _]]. auto. Qed.
  Lemma probe_once : forall s h s' o, probe W exch s h = (s', o) -> once s -> once s'.
  Proof. intros s h s' o E. apply probe_quiet in E. unfold once. destruct E as [_ [-> _]]. auto. Qed.
  Lemma refresh_boot_once : forall l s, once s -> once (refresh_boot W dial exch s l).
  Proof.
    induction l as [|a l IH]; intros s H; cbn [refresh_boot]; [exact H|].
    destruct (new_broker W dial s a (-1)) as [s1 b] eqn:E1. pose proof (new_broker_once _ _ _ _ _ E1 H) as H1.
    destruct b as [h|e]; [|auto].
    destruct (probe W exch s1 h) as [s2 o] eqn:E2. pose proof (probe_once _ _ _ _ E2 H1) as H2.
    destruct (m_brokers (fst (as_meta o))); apply IH; [exact H2|apply info_of_once].
  Qed.
  Lemma refresh_known_once : forall l s, once s -> once (fst (refresh_known W dial exch s l)).
  Proof.
    induction l as [|[n a] l IH]; intros s H; cbn [refresh_known]; [exact H|].
    destruct (new_broker W dial s a (-1)) as [s1 b] eqn:E1. pose proof (new_broker_once _ _ _ _ _ E1 H) as H1.
    destruct b as [h|e]; [|auto].
    destruct (probe W exch s1 h) as [s2 o] eqn:E2. pose proof (probe_once _ _ _ _ E2 H1) as H2.
    destruct (m_brokers (fst (as_meta o))); [apply IH; exact H2|apply info_of_once].
  Qed.
  Lemma known_once : forall s n, once s -> once (known_or_refresh W dial exch ord s n).
  Proof.
    intros s n H. unfold known_or_refresh. destruct (get n (b_info W s)); [exact H|]. unfold Brokers.refresh.
    pose proof (refresh_boot_once (b_boot W s) s H) as H0. set (s0 := refresh_boot W dial exch s (b_boot W s)) in *.
    destruct (ordered s0 (b_info W s0)) as [s1 l] eqn:E. apply ORD in E. apply refresh_known_once.
    destruct E as [_ [I _]]. unfold once. rewrite I. exact H0.
  Qed.
  Lemma prim_once : forall s s', prim W dial exch ord s s' -> once s -> once s'.
  Proof.
    intros s s' P H. destruct P.
    - exact H.
    - unfold Brokers.GetBroker in H0. destruct (get_broker0 W dial exch ord s n) as [s1 g1] eqn:E.
      injection H0 as <- _. change (once s1). unfold get_broker0 in E.
      destruct (get n (b_cache W s)); [injection E as <- _; exact H|].
      pose proof (known_once s n H) as K. set (s0 := known_or_refresh W dial exch ord s n) in *.
      destruct (get n (b_info W s0)) as [a|]; [|injection E as <- _; exact K].
      destruct (new_broker W dial s0 a n) as [s2 b] eqn:E1. pose proof (new_broker_once _ _ _ _ _ E1 K) as K1.
      destruct b; injection E as <- _; exact K1.
    - unfold Brokers.rag in H0. destruct (exch (b_w W s) h q) as [w' a]. injection H0 as <- _. exact H.
    - unfold Brokers.NewBrokerFor in H0. pose proof (known_once s n H) as K.
      set (s0 := known_or_refresh W dial exch ord s n) in *.
      destruct (get n (b_info W s0)) as [a|]; [|injection H0 as <- _; exact K].
      destruct (new_broker W dial s0 a n) as [s1 b] eqn:E. pose proof (new_broker_once _ _ _ _ _ E K) as K1.
      destruct b; injection H0 as <- _; exact K1.
  Qed.
  (** a new broker list: names once, and the cache empty unless the bootstrap address used is
      one the cluster advertises *)
  Lemma new_brokers_start : forall boot, foreign exch boot -> forall l s s' e, incl l boot ->
    new_brokers W dial exch s l = (s', e) -> b_cache W s = [] -> b_cache W s' = [].
  Proof.
    intros boot F. induction l as [|a l IH]; intros s s' e IN; cbn [new_brokers].
    - intro H. injection H as <- <-. auto.
    - assert (IN' : incl l boot) by (intros x X; apply IN; right; exact X).
      destruct (new_broker W dial s a (-1)) as [s1 b] eqn:E1. apply new_broker_quiet in E1. destruct E1 as [Q1 [_ X]].
      intros H C. assert (C1 : b_cache W s1 = []) by (rewrite (q_cache _ _ _ Q1); exact C).
      destruct b as [h|e1]; [|eapply IH; eassumption]. destruct X as [_ [HA _]].
      unfold from_one in H. pose proof (probe_quiet W exch s1 h) as PQ. unfold probe in *.
      destruct (exch (b_w W s1) h (QMeta [])) as [w' o] eqn:EX.
      specialize (PQ _ _ eq_refl). destruct PQ as [Q2 _].
      set (s2 := log W (with_w W s1 w') (EvProbe h)) in *.
      assert (C2 : b_cache W s2 = []) by (rewrite (q_cache _ _ _ Q2); exact C1).
      destruct o as [e0|[r e0]]; unfold as_meta in H; cbn [fst snd] in H; [eapply IH; eassumption|].
      assert (Z0 : forall m, (if match r with RMeta _ => true | _ => false end then r = RMeta m else m = meta0) -> forall x, In x (m_brokers m) -> snd x <> h_addr h).
      { intros m HM [n0 a0] I. destruct r; try (subst m; contradiction). injection HM as ->. cbn.
        intros ->. eapply (F _ _ _ _ _ _ EX _ _ I). rewrite HA. apply IN. left. reflexivity. }
      assert (G : forall m, (if match r with RMeta _ => true | _ => false end then r = RMeta m else m = meta0) ->
        forall c, fold_left (fun c x => if bytes_eq_dec (h_addr h) (snd x) then put (fst x) h c else c) (m_brokers m) c = c).
      { intros m HM. pose proof (Z0 m HM) as Y. clear Z0. induction (m_brokers m) as [|x bs IHb]; intro c; [reflexivity|].
        cbn. destruct (bytes_eq_dec (h_addr h) (snd x)) as [EQ|]; [exfalso; apply (Y x); [left; reflexivity|congruence]|].
        apply IHb. intros y Hy. apply Y. right. exact Hy. }
      destruct r; cbn [m_brokers meta0] in H; try (destruct e0; eapply IH; eassumption).
      destruct e0; [eapply IH; eassumption|]. destruct (m_brokers m) as [|x bs] eqn:EB; [eapply IH; eassumption|].
      pose proof (G m eq_refl []) as GM. rewrite EB in GM. injection H as <- <-. exact GM.
  Qed.
  Lemma new_brokers_once : forall l s s' e, new_brokers W dial exch s l = (s', e) -> once s -> once s'.
  Proof.
    induction l as [|a l IH]; intros s s' e; cbn [new_brokers].
    - intro H. injection H as <- <-. auto.
    - destruct (new_broker W dial s a (-1)) as [s1 b] eqn:E1. intros H O.
      pose proof (new_broker_once _ _ _ _ _ E1 O) as O1. destruct b as [h|e1]; [|eapply IH; eassumption].
      unfold from_one in H. destruct (probe W exch s1 h) as [s2 o] eqn:E2. pose proof (probe_once _ _ _ _ E2 O1) as O2.
      destruct (as_meta o) as [m e2]. destruct e2; [eapply IH; eassumption|].
      destruct (m_brokers m) as [|x bs]; [eapply IH; eassumption|].
      injection H as <- <-. apply (info_of_once (x :: bs)).
  Qed.
  Lemma once_always : forall w boot s e l, NewBrokers W dial exch w boot = (s, e) -> once (calls s l).
  Proof.
    intros w boot s e l H. eapply (does_inv W dial exch ord once prim_once); [apply calls_does|].
    eapply new_brokers_once; [exact H|]. constructor.
  Qed.
  Lemma proper_always : forall w boot s e l, foreign exch boot -> NewBrokers W dial exch w boot = (s, e) -> proper (calls s l).
  Proof.
    intros w boot s e l F H. eapply (proper_grows W); [apply (does_grows W dial exch ord ord_perm); apply calls_does|].
    intros n h G. rewrite (new_brokers_start boot F boot _ _ _ (fun x X => X) H eq_refl) in G. discriminate.
  Qed.

  (** ** Log directories *)
  Hypothesis exch_fits : forall w h q w' r e, exch w h q = (w', inr (r, e)) -> fits q r.
  Let FITS := rag_fits W exch exch_fits.
  Definition add_dirs (ts : list bytes) (acc : list (Z * list logdir)) (x : dirs) : list (Z * list logdir) :=
    match d_out x with
    | (Some (RLogDirs ds), None) => put (d_broker x) (keep_topics ts ds) acc
    | _ => acc
    end.
  Lemma dl_ok : forall l s ts acc s' out, dl W dial exch ord s ts l acc = (s', Ok out) ->
    exists evs done, b_tr W s' = b_tr W s ++ evs /\ seen evs = flat_map dirs_evs done /\
      map (fun x => (d_broker x, d_tps x)) done = map (fun x => (fst x, ld_run (snd x))) l /\
      out = fold_left (add_dirs ts) done acc.
  Proof.
    induction l as [|[b tps] l IH]; intros s ts acc s' out; cbn [dl].
    - intro H. injection H as <- <-. exists [], []. rewrite app_nil_r. cbn. auto.
    - destruct (GetBroker s b) as [s1 g] eqn:EG. apply GB in EG. destruct EG as [_ [[e1 [T1 S1]] _]].
      destruct g as [h|e]; [|discriminate].
      change (fold_left (fun (r : list (bytes * list Z)) (x : bytes * Z) => ld_add r (fst x) (snd x)) tps []) with (ld_run tps).
      destruct (rag s1 h (QLogDirs (ld_run tps))) as [s2 o] eqn:ER.
      pose proof (FITS _ _ _ _ _ (match fst o with Some r => r | None => RCoord 0 end) ER) as FF.
      apply RAG in ER. destruct ER as [_ [T2 [_ [_ N]]]]. destruct o as [r1 e2]. cbn [fst snd] in *.
      set (x := mkDirs b (ld_run tps) h (r1, e2)).
      assert (X : forall acc', add_dirs ts acc x = acc' -> dl W dial exch ord s2 ts l acc' = (s', Ok out) ->
        exists evs done, b_tr W s' = b_tr W s ++ evs /\ seen evs = flat_map dirs_evs done /\
          map (fun x => (d_broker x, d_tps x)) done = map (fun x => (fst x, ld_run (snd x))) ((b, tps) :: l) /\
          out = fold_left (add_dirs ts) done acc).
      { intros acc' EA H. apply IH in H. destruct H as [evs [done [T3 [S3 [M3 ->]]]]].
        exists ((e1 ++ [EvAsk h (QLogDirs (ld_run tps)) (r1, e2)]) ++ evs), (x :: done).
        split; [rewrite T3, T2, T1, !app_assoc; reflexivity|]. split; [rewrite !seen_app, S1, S3; reflexivity|].
        split; [cbn [map]; rewrite M3; reflexivity|]. cbn [fold_left]. rewrite EA. reflexivity. }
      destruct e2 as [e2|].
      + apply X. unfold add_dirs, x. cbn. destruct r1 as [[]|]; reflexivity.
      + destruct r1 as [r1|]; [|exfalso; apply N; reflexivity]. specialize (FF eq_refl).
        destruct r1; cbn in FF; try contradiction. apply X. reflexivity.
  Qed.
  Lemma add_dirs_get : forall ts done acc n, NoDup (map d_broker done) ->
    get n (fold_left (add_dirs ts) done acc) =
    match find (fun x => d_broker x =? n) done with
    | Some x => match d_out x with (Some (RLogDirs ds), None) => Some (keep_topics ts ds) | _ => get n acc end
    | None => get n acc
    end.
  Proof.
    induction done as [|x done IH]; intros acc n ND; cbn [fold_left find]; [reflexivity|].
    inversion ND; subst. rewrite IH by assumption.
    assert (ACC : n <> d_broker x -> get n (add_dirs ts acc x) = get n acc).
    { intros D. unfold add_dirs. destruct (d_out x) as [[[]|] [|]]; try reflexivity. apply get_put_other. exact D. }
    destruct (d_broker x =? n) eqn:E.
    - assert (d_broker x = n) by lia. subst n.
      replace (find (fun y => d_broker y =? d_broker x) done) with (@None dirs).
      + unfold add_dirs. destruct (d_out x) as [[[]|] [|]]; try reflexivity. apply get_put_same.
      + symmetry. destruct (find (fun y => d_broker y =? d_broker x) done) as [y|] eqn:F; [|reflexivity].
        apply find_some in F. destruct F as [I F]. exfalso. apply H1. replace (d_broker x) with (d_broker y) by lia.
        apply in_map. exact I.
    - destruct (find (fun y => d_broker y =? n) done) as [y|]; [|apply ACC; lia].
      destruct (d_out y) as [[[]|] [|]]; try (apply ACC; lia). reflexivity.
  Qed.
  (** Every broker that holds replicas is asked once, about exactly the partitions it holds;
      the result has, for the brokers that answered without error, their directories
      restricted to the topics asked for, and nothing else. *)
  Lemma logdirs_ok : forall s ts s' out, DescribeLogDirs s ts = (s', Ok out) ->
    exists s1 m evs done, RequestMetaData s ts = (s1, (m, None)) /\
      b_tr W s' = b_tr W s1 ++ evs /\ seen evs = flat_map dirs_evs done /\
      NoDup (map d_broker done) /\
      (forall x, In x done -> unique_names (d_tps x)) /\
      (forall b t p, (exists ps l rs, In (t, ps) (m_topics m) /\ In (p, (l, rs)) ps /\ In b rs) <->
                     exists x, In x done /\ d_broker x = b /\ names (d_tps x) t p) /\
      (forall b ds, get b out = Some ds <->
         exists x rs, In x done /\ d_broker x = b /\ d_out x = (Some (RLogDirs rs), None) /\ ds = restrict ts rs).
  Proof.
    intros s ts s' out. unfold Brokers.DescribeLogDirs. destruct (RequestMetaData s ts) as [s1 [m e]] eqn:EM.
    destruct e; [discriminate|]. destruct (by_broker_ok (replicas_of (m_topics m))) as [NB IB].
    destruct (ordered s1 (by_broker (replicas_of (m_topics m)))) as [s2 l] eqn:EO. apply ORD in EO.
    destruct EO as [_ [_ [P [T _]]]]. intro H. apply dl_ok in H. destruct H as [evs [done [T3 [S3 [M ->]]]]].
    exists s1, m, evs, done. split; [reflexivity|]. split; [rewrite T3, T; reflexivity|]. split; [exact S3|].
    assert (EB : map d_broker done = map fst l).
    { transitivity (map fst (map (fun x => (d_broker x, d_tps x)) done)); [rewrite map_map; reflexivity|].
      rewrite M, map_map. reflexivity. }
    assert (ND : NoDup (map d_broker done)).
    { rewrite EB. eapply Permutation_NoDup; [|exact NB]. apply Permutation_map. symmetry. exact P. }
    split; [exact ND|].
    assert (MI : forall b q, (exists x, In x done /\ d_broker x = b /\ d_tps x = q) <-> exists tps, In (b, tps) l /\ q = ld_run tps).
    { intros b q. split.
      - intros [x [I [<- <-]]]. apply (in_map (fun x => (d_broker x, d_tps x))) in I. rewrite M in I.
        apply in_map_iff in I. destruct I as [[b0 tps] [E I]]. cbn in E. injection E as <- <-. eauto.
      - intros [tps [I ->]]. apply (in_map (fun x => (fst x, ld_run (snd x)))) in I. rewrite <- M in I. cbn in I.
        apply in_map_iff in I. destruct I as [x [E I]]. injection E as <- E. eauto. }
    split.
    { intros x I. destruct (proj1 (MI (d_broker x) (d_tps x))) as [tps [_ E]]; [eauto|]. rewrite E.
      exact (proj1 (pid_ok tps)). }
    split.
    { intros b t p. rewrite <- replicas_in. rewrite IB. split.
      - intros [tps [I J]]. destruct (proj2 (MI b (ld_run tps))) as [x [X [Y Q]]].
        { exists tps. split; [|reflexivity]. eapply Permutation_in; [symmetry; exact P|exact I]. }
        exists x. split; [exact X|]. split; [exact Y|]. rewrite Q. apply (proj2 (pid_ok tps)). exact J.
      - intros [x [X [Y Q]]]. destruct (proj1 (MI b (d_tps x))) as [tps [I E]]; [eauto|].
        exists tps. split; [eapply Permutation_in; eassumption|]. rewrite E in Q. apply (proj2 (pid_ok tps)). exact Q. }
    intros b ds. rewrite add_dirs_get by exact ND. cbn [get].
    destruct (find (fun x => d_broker x =? b) done) as [x|] eqn:F.
    - apply find_some in F. destruct F as [I F]. assert (d_broker x = b) by lia.
      assert (U : forall y, In y done -> d_broker y = b -> y = x).
      { clear - I H ND. intros y J E. induction done as [|z done IH]; [contradiction|]. inversion ND; subst.
        destruct I as [->|I], J as [->|J]; auto.
        - exfalso. apply H2. rewrite <- E. apply in_map. exact J.
        - exfalso. apply H2. rewrite E. apply in_map. exact I. }
      split.
      + destruct (d_out x) as [[[]|] [|]] eqn:EX; try discriminate. rewrite keep_restrict. intro Y. injection Y as <-.
        exists x, ds0. auto.
      + intros [y [rs [J [E [O ->]]]]]. rewrite (U _ J E) in O. rewrite O, keep_restrict. reflexivity.
    - split; [discriminate|]. intros [y [rs [J [E _]]]]. exfalso. pose proof (find_none _ _ F _ J) as Y. cbn in Y. lia.
  Qed.

  (** ** Deleting groups *)
  Lemma coord_events : forall s g s' n, FindCoordinator s g = (s', Ok n) ->
    exists evs tries h, b_tr W s' = b_tr W s ++ evs /\ seen evs = tries ++ [EvAsk h (QCoord g) (Some (RCoord n), None)] /\
      Forall (vain_ev g) tries.
  Proof.
    intros s g s' n. unfold Brokers.FindCoordinator. destruct (ordered s (b_info W s)) as [s1 l] eqn:EO.
    apply ORD in EO. destruct EO as [_ [_ [_ [T _]]]]. rewrite <- T. clear T. revert s1 s'.
    induction l as [|[k a] l IH]; intros s1 s'; cbn [fco]; [discriminate|].
    destruct (GetBroker s1 k) as [s2 b] eqn:EG. apply GB in EG. destruct EG as [_ [[e1 [T1 S1]] _]].
    destruct b as [h|e].
    2:{ intro H. apply IH in H. destruct H as [evs [tries [h [T [S F]]]]].
        exists (e1 ++ evs), (EvGet k (inr e) :: tries), h. split; [rewrite T, T1, app_assoc; reflexivity|].
        split; [rewrite seen_app, S1, S; reflexivity|]. constructor; [exact I|exact F]. }
    destruct (rag s2 h (QCoord g)) as [s3 o] eqn:ER.
    pose proof (FITS _ _ _ _ _ (match fst o with Some r => r | None => RGroups [] end) ER) as FF.
    apply RAG in ER. destruct ER as [_ [T2 [_ [_ N]]]]. destruct o as [r1 e2]. unfold as_coord. cbn [fst snd] in *.
    assert (V : e2 <> None -> fco W dial exch ord s3 l g = (s', Ok n) ->
      exists evs tries h, b_tr W s' = b_tr W s1 ++ evs /\ seen evs = tries ++ [EvAsk h (QCoord g) (Some (RCoord n), None)] /\
      Forall (vain_ev g) tries).
    { intros NE H. apply IH in H. destruct H as [evs [tries [h' [T [S F]]]]].
      exists ((e1 ++ [EvAsk h (QCoord g) (r1, e2)]) ++ evs), (EvGet k (inl h) :: EvAsk h (QCoord g) (r1, e2) :: tries), h'.
      split; [rewrite T, T2, T1, !app_assoc; reflexivity|].
      split; [rewrite !seen_app, S1, S; reflexivity|]. constructor; [exact I|]. constructor; [|exact F]. cbn. auto. }
    destruct r1 as [r1|].
    - specialize (FF eq_refl). destruct r1; cbn in FF; try contradiction. destruct e2 as [e2|]; [apply V; discriminate|].
      intro H. injection H as <- <-. exists (e1 ++ [EvAsk h (QCoord g) (Some (RCoord node), None)]), [EvGet k (inl h)], h.
      split; [rewrite T2, T1, app_assoc; reflexivity|]. split; [rewrite seen_app, S1; reflexivity|].
      constructor; [exact I|constructor].
    - destruct e2 as [e2|]; [|exfalso; apply N; reflexivity]. apply V. discriminate.
  Qed.
  Lemma dg_ok : forall gs s acc s' out, dg W dial exch ord s gs acc = (s', Ok out) ->
    exists evs done, b_tr W s' = b_tr W s ++ evs /\ seen evs = flat_map deleted_evs done /\
      map g_group done = gs /\ Forall (fun x => Forall (vain_ev (g_group x)) (g_tries x)) done /\
      out = acc ++ flat_map g_results done.
  Proof.
    induction gs as [|g gs IH]; intros s acc s' out; cbn [dg].
    - intro H. injection H as <- <-. exists [], []. rewrite !app_nil_r. cbn. auto.
    - destruct (FindCoordinator s g) as [s1 c] eqn:EC. destruct c as [n|e| |]; try discriminate.
      apply coord_events in EC. destruct EC as [e0 [tries [via [T0 [S0 F0]]]]].
      destruct (GetBroker s1 n) as [s2 b] eqn:EG. apply GB in EG. destruct EG as [_ [[e1 [T1 S1]] _]].
      destruct b as [h|e]; [|discriminate].
      destruct (rag s2 h (QDeleteGroups [g])) as [s3 [r1 e2]] eqn:ER.
      pose proof (FITS _ _ _ _ _ (match r1 with Some r => r | None => RGroups [] end) ER) as FF. cbn [fst] in FF.
      apply RAG in ER. destruct ER as [_ [T2 [_ [_ N]]]]. destruct e2 as [e2|]; [discriminate|].
      destruct r1 as [r1|]; [|exfalso; apply N; reflexivity].
      specialize (FF eq_refl). destruct r1; cbn in FF; try contradiction.
      intro H. apply IH in H. destruct H as [evs [done [T3 [S3 [M [F ->]]]]]].
      exists (((e0 ++ e1) ++ [EvAsk h (QDeleteGroups [g]) (Some (RDeleted rs), None)]) ++ evs), (mkDel tries g via n h rs :: done).
      split; [rewrite T3, T2, T1, T0, !app_assoc; reflexivity|].
      split.
      { rewrite !seen_app, S0, S1, S3. cbn [flat_map]. unfold deleted_evs at 2. cbn [g_tries g_group g_via g_node g_handle g_results].
        rewrite <- !app_assoc. reflexivity. }
      split; [cbn; rewrite M; reflexivity|]. split; [constructor; [exact F0|exact F]|].
      cbn. rewrite app_assoc. reflexivity.
  Qed.
  Lemma delgroups_ok : forall gs s s' out, DeleteGroups s gs = (s', Ok out) ->
    exists evs done, b_tr W s' = b_tr W s ++ evs /\ seen evs = flat_map deleted_evs done /\
      map g_group done = gs /\ Forall (fun x => Forall (vain_ev (g_group x)) (g_tries x)) done /\
      out = flat_map g_results done.
  Proof. intros gs s s' out H. apply dg_ok in H. exact H. Qed.
End Lost.
