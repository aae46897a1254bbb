(** More facts about the broker list and the client: histories, calls to the controller,
    listings, lost connections. *)
From Verif Require Import Base BaseFacts Builders BuildersSpec BuildersFacts Brokers BrokersSpec BrokersFacts.

Section More.
  Variable W : Type.
  Variable dial : W -> bytes -> W * dres.
  Variable exch : W -> handle -> req -> W * (err + resp * option err).
  Variable ord : forall A : Type, W -> list A -> W * list A.
  Hypothesis ord_perm : forall A w l, Permutation (snd (ord A w l)) l.
  Hypothesis exch_fits : forall w h q w' r e, exch w h q = (w', inr (r, e)) -> fits q r.

  Notation bst := (bst W).
  Notation grows := (grows W).
  Notation rag := (rag W exch).
  Notation GetBroker := (GetBroker W dial exch ord).
  Notation NewBrokerFor := (NewBrokerFor W dial exch ord).
  Notation refresh := (refresh W dial exch ord).
  Notation ordered := (ordered W ord).
  Notation RequestMetaData := (RequestMetaData W dial exch ord).
  Notation FindCoordinator := (FindCoordinator W dial exch ord).
  Notation Request := (Request W dial exch ord).
  Notation RequestOffsets := (RequestOffsets W dial exch ord).
  Notation findLeader := (findLeader W dial exch ord).
  Notation controller_call := (controller_call W dial exch ord).
  Notation DeleteTopics := (DeleteTopics W dial exch ord).
  Notation requestLeaveGroup := (requestLeaveGroup W exch).
  Notation DescribeConfigs := (DescribeConfigs W dial exch ord).
  Notation ListGroups := (ListGroups W dial exch ord).
  Notation DescribeLogDirs := (DescribeLogDirs W dial exch ord).
  Notation DeleteGroups := (DeleteGroups W dial exch ord).
  Let GB := GetBroker_ok W dial exch ord ord_perm.
  Let RAG := rag_ok W exch.
  Let FITS := rag_fits W exch exch_fits.
  Let ORD := ordered_ok W ord ord_perm.

  (** ** What every call is made of *)
  Inductive prim : bst -> bst -> Prop :=
  | p_w : forall s w, prim s (with_w W s w)
  | p_get : forall s n s' g, GetBroker s n = (s', g) -> prim s s'
  | p_ask : forall s h q s' o, rag s h q = (s', o) -> prim s s'
  | p_new : forall s n s' g, NewBrokerFor s n = (s', g) -> prim s s'.
  Inductive does : bst -> bst -> Prop :=
  | d_refl : forall s, does s s
  | d_step : forall a b c, prim a b -> does b c -> does a c.
  Lemma does_trans : forall a b c, does a b -> does b c -> does a c.
  Proof. intros a b c H. induction H; eauto using d_step. Qed.
  Lemma does_one : forall a b, prim a b -> does a b.
  Proof. intros. eapply d_step; [eassumption|apply d_refl]. Qed.
  Lemma does_ordered : forall A (l : list A) s s' l', ordered s l = (s', l') -> does s s'.
  Proof.
    intros A l s s' l'. unfold Brokers.ordered. destruct (ord A (b_w W s) l). intro H. injection H as <- _.
    apply does_one, p_w.
  Qed.

  Ltac step_get s n s1 g E := destruct (GetBroker s n) as [s1 g] eqn:E; pose proof (p_get _ _ _ _ E).
  Lemma rmd_does : forall l s ts r s' x, rmd W dial exch ord s l ts r = (s', x) -> does s s'.
  Proof.
    induction l as [|[n ad] l IH]; intros s ts r s' x; cbn [rmd].
    - intro H. injection H as <- <-. apply d_refl.
    - step_get s n s1 g E. destruct g as [h|e]; [|intro K; eapply d_step; eauto].
      destruct (rag s1 h (QMeta ts)) as [s2 o] eqn:ER. apply p_ask in ER.
      destruct (as_meta o) as [r1 [e|]].
      + destruct (kafka_err e); intro K; [injection K as <- <-|apply IH in K]; eauto using d_step, d_refl.
      + intro K; injection K as <- <-; eauto using d_step, d_refl.
  Qed.
  Lemma meta_does : forall s ts s' x, RequestMetaData s ts = (s', x) -> does s s'.
  Proof.
    intros s ts s' x. unfold Brokers.RequestMetaData. destruct (ordered s (b_info W s)) as [s1 l] eqn:EO.
    intro H. eapply does_trans; [eapply does_ordered; exact EO|eapply rmd_does; exact H].
  Qed.
  Lemma fco_does : forall l s g s' x, fco W dial exch ord s l g = (s', x) -> does s s'.
  Proof.
    induction l as [|[n ad] l IH]; intros s g s' x; cbn [fco].
    - intro H. injection H as <- <-. apply d_refl.
    - step_get s n s1 b E. destruct b as [h|e]; [|intro K; eapply d_step; eauto].
      destruct (rag s1 h (QCoord g)) as [s2 o] eqn:ER. apply p_ask in ER.
      destruct (as_coord o) as [r1 [e|]]; intro K; [apply IH in K|injection K as <- <-]; eauto using d_step, d_refl.
  Qed.
  Lemma coord_does : forall s ts s' x, FindCoordinator s ts = (s', x) -> does s s'.
  Proof.
    intros s ts s' x. unfold Brokers.FindCoordinator. destruct (ordered s (b_info W s)) as [s1 l] eqn:EO.
    intro H. eapply does_trans; [eapply does_ordered; exact EO|eapply fco_does; exact H].
  Qed.
  Lemma req_all_does : forall l s g s' x, req_all W dial exch ord s l g = (s', x) -> does s s'.
  Proof.
    induction l as [|[n ad] l IH]; intros s g s' x; cbn [req_all].
    - intro H. injection H as <- <-. apply d_refl.
    - step_get s n s1 b E. destruct b as [h|e]; [|intro K; eapply d_step; eauto].
      destruct (rag s1 h g) as [s2 [r1 e]] eqn:ER. apply p_ask in ER.
      destruct e; intro K; [apply IH in K|injection K as <- <-]; eauto using d_step, d_refl.
  Qed.
  Lemma request_does : forall s ts s' x, Request s ts = (s', x) -> does s s'.
  Proof.
    intros s ts s' x. unfold Brokers.Request. destruct (ordered s (b_info W s)) as [s1 l] eqn:EO.
    intro H. eapply does_trans; [eapply does_ordered; exact EO|eapply req_all_does; exact H].
  Qed.
  Lemma request_offsets_does : forall s h t pids a b s' x, request_offsets W exch s h t pids a b = (s', x) -> does s s'.
  Proof.
    intros s h t pids a b s' x. unfold request_offsets.
    destruct (rag s h (QOffsets t (pid_set pids) a b)) as [s1 o] eqn:ER. intro H. injection H as <- _.
    apply does_one. eapply p_ask. exact ER.
  Qed.
  Lemma ro_all_does : forall l s t a b acc s' x, ro_all W dial exch ord s t l a b acc = (s', x) -> does s s'.
  Proof.
    induction l as [|[n pids] l IH]; intros s t a b acc s' x; cbn [ro_all].
    - intro H. injection H as <- <-. apply d_refl.
    - step_get s n s1 g E. destruct g as [h|e]; [|intro K; injection K as <- <-; eauto using d_step, d_refl].
      destruct (request_offsets W exch s1 h t pids a b) as [s2 [r1 e]] eqn:ER. apply request_offsets_does in ER.
      destruct e; intro K; [injection K as <- <-|apply IH in K]; eauto using d_step, does_trans.
  Qed.
  Lemma offsets_does : forall s t p a b s' x, RequestOffsets s t p a b = (s', x) -> does s s'.
  Proof.
    intros s t p a b s' x. unfold Brokers.RequestOffsets.
    destruct (RequestMetaData s [t]) as [s1 [m e]] eqn:EM. apply meta_does in EM.
    destruct e; [intro H; injection H as <- <-; exact EM|].
    destruct (m_topics m) as [|[t0 ps] ts]; [intro H; injection H as <- <-; exact EM|].
    destruct (0 <=? p).
    - destruct (find_pid p ps); [|intro H; injection H as <- <-; exact EM].
      step_get s1 z s2 g E. destruct g as [h|e]; [|intro K; injection K as <- <-; eauto using does_trans, does_one].
      destruct (request_offsets W exch s2 h t [p] a b) as [s3 [r1 e]] eqn:ER. apply request_offsets_does in ER.
      destruct e; intro K; injection K as <- <-; eauto using d_step, does_trans, does_one.
    - destruct (ordered s1 (by_leader ps)) as [s2 l] eqn:EO. apply does_ordered in EO.
      intro H. apply ro_all_does in H. eauto using does_trans.
  Qed.
  Lemma leader_does : forall s t p s' x, findLeader s t p = (s', x) -> does s s'.
  Proof.
    intros s t p s' x. unfold Brokers.findLeader.
    destruct (RequestMetaData s [t]) as [s1 [m e]] eqn:EM. apply meta_does in EM.
    destruct e as [e|]; [destruct (kafka_err e)|]; destruct (m_topics m) as [|[t0 ps] ts];
      intro H; injection H as <- <-; exact EM.
  Qed.
  Lemma controller_does : forall s k s' x, controller_call s k = (s', x) -> does s s'.
  Proof.
    intros s k s' x. unfold Brokers.controller_call, GetController. step_get s (b_ctl W s) s1 g E.
    destruct g as [h|e]; [|intro K; injection K as <- <-; eauto using does_one].
    destruct (rag s1 h (QAdmin k)) as [s2 [r1 e]] eqn:ER. apply p_ask in ER.
    destruct e; intro K; injection K as <- <-; eauto using d_step, d_refl.
  Qed.
  Lemma deltopics_does : forall s s' x, DeleteTopics s = (s', x) -> does s s'.
  Proof.
    intros s s' x. unfold Brokers.DeleteTopics, GetController. step_get s (b_ctl W s) s1 g E.
    destruct g as [h|e]; [|intro K; injection K as <- <-; eauto using does_one].
    destruct (rag s1 h (QAdmin 20)) as [s2 [r1 e]] eqn:ER. apply p_ask in ER.
    intro K; injection K as <- <-; eauto using d_step, d_refl.
  Qed.
  Lemma leave_does : forall s h g m s' x, requestLeaveGroup s h g m = (s', x) -> does s s'.
  Proof.
    intros s h g m s' x. unfold Brokers.requestLeaveGroup. destruct (rag s h (QLeave g m)) as [s1 [r e]] eqn:ER.
    apply p_ask in ER. intro K; injection K as <- <-; eauto using d_step, d_refl.
  Qed.
  Lemma configs_does : forall s b n s' x, DescribeConfigs s b n = (s', x) -> does s s'.
  Proof.
    intros s b n s' x. unfold Brokers.DescribeConfigs.
    destruct (if b then n else Some (b_ctl W s)) as [k|]; [|intro K; injection K as <- <-; apply d_refl].
    step_get s (if b then sint 32 k else k) s1 g E.
    destruct g as [h|e]; [|intro K; injection K as <- <-; eauto using does_one].
    destruct (rag s1 h (QAdmin 32)) as [s2 [r1 e]] eqn:ER. apply p_ask in ER.
    destruct e; intro K; injection K as <- <-; eauto using d_step, d_refl.
  Qed.
  Lemma lg_does : forall l s acc s' x, lg W dial exch ord s l acc = (s', x) -> does s s'.
  Proof.
    induction l as [|[n ad] l IH]; intros s acc s' x; cbn [lg].
    - intro H. injection H as <- <-. apply d_refl.
    - step_get s n s1 g E. destruct g as [h|e]; [|intro K; injection K as <- <-; eauto using does_one].
      destruct (rag s1 h QListGroups) as [s2 [r1 e]] eqn:ER. apply p_ask in ER.
      destruct e; [intro K; injection K as <- <-; eauto using d_step, d_refl|].
      destruct r1 as [[]|]; intro K; try (injection K as <- <-); try apply IH in K; eauto using d_step, d_refl.
  Qed.
  Lemma groups_does : forall s s' x, ListGroups s = (s', x) -> does s s'.
  Proof.
    intros s s' x. unfold Brokers.ListGroups. destruct (ordered s (b_info W s)) as [s1 l] eqn:EO.
    intro H. eapply does_trans; [eapply does_ordered; exact EO|eapply lg_does; exact H].
  Qed.
  Lemma dl_does : forall l s ts acc s' x, dl W dial exch ord s ts l acc = (s', x) -> does s s'.
  Proof.
    induction l as [|[n tps] l IH]; intros s ts acc s' x; cbn [dl].
    - intro H. injection H as <- <-. apply d_refl.
    - step_get s n s1 g E. destruct g as [h|e]; [|intro K; injection K as <- <-; eauto using does_one].
      match goal with |- context [rag s1 h ?q] => destruct (rag s1 h q) as [s2 [r1 e]] eqn:ER end. apply p_ask in ER.
      destruct e; [intro K; apply IH in K; eauto using d_step|].
      destruct r1 as [[]|]; intro K; try (injection K as <- <-); try apply IH in K; eauto using d_step, d_refl.
  Qed.
  Lemma logdirs_does : forall s ts s' x, DescribeLogDirs s ts = (s', x) -> does s s'.
  Proof.
    intros s ts s' x. unfold Brokers.DescribeLogDirs. destruct (RequestMetaData s ts) as [s1 [m e]] eqn:EM.
    apply meta_does in EM. destruct e; [intro H; injection H as <- <-; exact EM|].
    match goal with |- context [ordered s1 ?l] => destruct (ordered s1 l) as [s2 l'] eqn:EO end.
    apply does_ordered in EO. intro H. apply dl_does in H. eauto using does_trans.
  Qed.
  Lemma dg_does : forall gs s acc s' x, dg W dial exch ord s gs acc = (s', x) -> does s s'.
  Proof.
    induction gs as [|g gs IH]; intros s acc s' x; cbn [dg].
    - intro H. injection H as <- <-. apply d_refl.
    - destruct (FindCoordinator s g) as [s1 c] eqn:EC. apply coord_does in EC.
      destruct c as [n|e| |]; try (intro K; injection K as <- <-; exact EC).
      step_get s1 n s2 b E. destruct b as [h|e]; [|intro K; injection K as <- <-; eauto using does_trans, does_one].
      destruct (rag s2 h (QDeleteGroups [g])) as [s3 [r1 e]] eqn:ER. apply p_ask in ER.
      destruct e; [intro K; injection K as <- <-; eauto using does_trans, does_one|].
      destruct r1 as [[]|]; intro K; try (injection K as <- <-); try apply IH in K; eauto 6 using does_trans, does_one.
  Qed.

  (** Histories: any calls one after the other. *)
  Inductive op :=
  | OGet (n : Z) | ONew (n : Z) | OMeta (ts : list bytes) | OOffsets (t : bytes) (p a b : Z) | OLeader (t : bytes) (p : Z)
  | OCoord (g : bytes) | ORequest (q : req) | OAdmin (k : Z) | ODeleteTopics | OLeave (h : handle) (g m : bytes)
  | OConfigs (b : bool) (n : option Z) | OGroups | OLogDirs (ts : list bytes) | ODelGroups (gs : list bytes).
  Definition call (s : bst) (o : op) : bst :=
    match o with
    | OGet n => fst (GetBroker s n)
    | ONew n => fst (NewBrokerFor s n)
    | OMeta ts => fst (RequestMetaData s ts)
    | OOffsets t p a b => fst (RequestOffsets s t p a b)
    | OLeader t p => fst (findLeader s t p)
    | OCoord g => fst (FindCoordinator s g)
    | ORequest q => fst (Request s q)
    | OAdmin k => fst (controller_call s k)
    | ODeleteTopics => fst (DeleteTopics s)
    | OLeave h g m => fst (requestLeaveGroup s h g m)
    | OConfigs b n => fst (DescribeConfigs s b n)
    | OGroups => fst (ListGroups s)
    | OLogDirs ts => fst (DescribeLogDirs s ts)
    | ODelGroups gs => fst (DeleteGroups s gs)
    end.
  Definition calls (s : bst) (l : list op) : bst := fold_left call l s.
  Lemma call_does : forall s o, does s (call s o).
  Proof.
    intros s o. destruct o; cbn [call];
    match goal with |- does s (fst ?x) => destruct x as [s' y] eqn:E; cbn [fst] end;
    eauto using does_one, p_get, p_new, meta_does, offsets_does, leader_does, coord_does, request_does,
      controller_does, deltopics_does, leave_does, configs_does, groups_does, logdirs_does.
    eapply dg_does. exact E.
  Qed.
  Lemma calls_does : forall l s, does s (calls s l).
  Proof.
    induction l as [|o l IH]; intro s; cbn; [apply d_refl|].
    eapply does_trans; [apply call_does|apply IH].
  Qed.

  Lemma new_for_quiet : forall s n s' g, NewBrokerFor s n = (s', g) -> quiet W s s'.
  Proof.
    intros s n s' g. unfold Brokers.NewBrokerFor.
    pose proof (known_quiet W dial exch ord ord_perm s n) as Q.
    set (s0 := known_or_refresh W dial exch ord s n) in *.
    destruct (get n (b_info W s0)) as [a|]; [|intro H; injection H as <- <-; exact Q].
    destruct (new_broker W dial s0 a n) as [s1 b] eqn:E. apply new_broker_quiet in E. destruct E as [Q1 _].
    destruct b; intro H; injection H as <- <-; eapply quiet_trans; eassumption.
  Qed.
  Lemma prim_grows : forall s s', prim s s' -> grows s s'.
  Proof.
    intros s s' H. destruct H.
    - apply quiet_grows, quiet_w.
    - apply GB in H. tauto.
    - apply RAG in H. tauto.
    - apply quiet_grows. eapply new_for_quiet. exact H.
  Qed.
  Lemma does_grows : forall s s', does s s' -> grows s s'.
  Proof. intros s s' H. induction H; [apply grows_refl|]. eapply grows_trans; [apply prim_grows|]; eassumption. Qed.
  Lemma does_inv : forall (P : bst -> Prop), (forall s s', prim s s' -> P s -> P s') -> forall s s', does s s' -> P s -> P s'.
  Proof. intros P H s s' D. induction D; eauto. Qed.

  (** one handle per node, for ever *)
  Lemma same_handle : forall s n s1 h l, GetBroker s n = (s1, inl h) ->
    let s2 := calls s1 l in
    snd (GetBroker s2 n) = inl h /\ b_tr W (fst (GetBroker s2 n)) = b_tr W s2 ++ [EvGet n (inl h)].
  Proof.
    intros s n s1 h l E s2. apply GB in E. destruct E as [_ [_ [C _]]].
    pose proof (does_grows _ _ (calls_does l s1)) as G. fold s2 in G.
    apply (g_keep _ _ _ G) in C. destruct (GetBroker s2 n) as [s3 g] eqn:E. pose proof (GB _ _ _ _ E) as X.
    unfold Brokers.GetBroker, get_broker0 in E. rewrite C in E. injection E as <- <-. auto.
  Qed.

  (** a handle made now has the address the metadata now give *)
  Lemma fresh_handle : forall s n s1 h, GetBroker s n = (s1, inl h) -> get n (b_cache W s) = None ->
    h_node h = n /\ get n (b_info W s1) = Some (h_addr h).
  Proof. intros s n s1 h E N. apply GB in E. rewrite N in E. tauto. Qed.

  (** ** Addresses that never change *)
  Section Stable.
    Variable addr : Z -> bytes.
    Hypothesis stable : forall w h q w' m e, exch w h q = (w', inr (RMeta m, e)) ->
      forall n a, In (n, a) (m_brokers m) -> a = addr n.
    Definition right (s : bst) : Prop :=
      (forall n a, In (n, a) (b_info W s) -> a = addr n) /\ (forall n h, In (n, h) (b_cache W s) -> h_addr h = addr n).

    Lemma info_of_in : forall l n a, In (n, a) (info_of l) -> In (n, a) l.
    Proof.
      induction l as [|[k v] l IH] using rev_ind; intros n a; [intros []|].
      unfold info_of. rewrite fold_left_app. cbn [fold_left fst snd].
      intro H. apply put_in in H. apply in_or_app. cbn. destruct H as [->|H]; [auto|]. left. apply IH. exact H.
    Qed.
    Lemma probe_right : forall s h s' o, probe W exch s h = (s', o) ->
      forall n a, In (n, a) (m_brokers (fst (as_meta o))) -> a = addr n.
    Proof.
      intros s h s' o. unfold probe. destruct (exch (b_w W s) h (QMeta [])) as [w x] eqn:E.
      intro H. injection H as _ <-. destruct x as [e|[r e]]; cbn; [tauto|].
      destruct r; cbn; try tauto. intros. eapply stable; eassumption.
    Qed.
    Lemma info_right : forall s bs, right s -> (forall n a, In (n, a) bs -> a = addr n) -> right (with_info W s (info_of bs)).
    Proof.
      intros s bs [R1 R2] H. split; [|exact R2]. cbn. intros n a I. apply info_of_in in I. auto.
    Qed.
    Lemma quiet_right : forall s s', quiet W s s' -> b_info W s' = b_info W s -> right s -> right s'.
    Proof. intros s s' Q I [R1 R2]. split; [rewrite I; exact R1|]. rewrite (q_cache _ _ _ Q). exact R2. Qed.
    Lemma refresh_boot_right : forall l s, right s -> right (refresh_boot W dial exch s l).
    Proof.
      induction l as [|a l IH]; intros s R; cbn [refresh_boot]; [exact R|].
      destruct (new_broker W dial s a (-1)) as [s1 b] eqn:E1. apply new_broker_quiet in E1. destruct E1 as [Q1 [I1 _]].
      pose proof (quiet_right _ _ Q1 I1 R) as R1.
      destruct b as [h|e]; [|apply IH; exact R1].
      destruct (probe W exch s1 h) as [s2 o] eqn:E2. pose proof (probe_right _ _ _ _ E2) as M.
      apply probe_quiet in E2. destruct E2 as [Q2 [I2 _]]. pose proof (quiet_right _ _ Q2 I2 R1) as R2.
      destruct (m_brokers (fst (as_meta o))) as [|x bs] eqn:EB.
      - apply IH. destruct R2 as [X Y]. split; [exact X|exact Y].
      - apply IH. apply info_right; assumption.
    Qed.
    Lemma refresh_known_right : forall l s s' b, refresh_known W dial exch s l = (s', b) -> right s -> right s'.
    Proof.
      induction l as [|[n a] l IH]; intros s s' b0; cbn [refresh_known].
      - intro H. injection H as <- <-. auto.
      - destruct (new_broker W dial s a (-1)) as [s1 b] eqn:E1. apply new_broker_quiet in E1. destruct E1 as [Q1 [I1 _]].
        destruct b as [h|e]; [|intros H R; eapply IH; [exact H|]; eapply quiet_right; eassumption].
        destruct (probe W exch s1 h) as [s2 o] eqn:E2. pose proof (probe_right _ _ _ _ E2) as M.
        apply probe_quiet in E2. destruct E2 as [Q2 [I2 _]].
        destruct (m_brokers (fst (as_meta o))) as [|x bs] eqn:EB.
        + intros H R. eapply IH; [exact H|]. eapply quiet_right; [exact Q2|exact I2|]. eapply quiet_right; eassumption.
        + intros H R. injection H as <- <-. apply info_right; [|exact M].
          eapply quiet_right; [exact Q2|exact I2|]. eapply quiet_right; eassumption.
    Qed.
    Lemma known_right : forall s n, right s -> right (known_or_refresh W dial exch ord s n).
    Proof.
      intros s n R. unfold known_or_refresh. destruct (get n (b_info W s)); [exact R|]. unfold Brokers.refresh.
      pose proof (refresh_boot_right (b_boot W s) s R) as R0. set (s0 := refresh_boot W dial exch s (b_boot W s)) in *.
      destruct (ordered s0 (b_info W s0)) as [s1 l] eqn:E. apply ORD in E. destruct E as [Q1 [I1 _]].
      destruct (refresh_known W dial exch s1 l) as [s2 b] eqn:E2. cbn [fst].
      eapply refresh_known_right; [exact E2|]. eapply quiet_right; eassumption.
    Qed.
    Lemma prim_right : forall s s', prim s s' -> right s -> right s'.
    Proof.
      intros s s' H R. destruct H.
      - exact R.
      - unfold Brokers.GetBroker in H. destruct (get_broker0 W dial exch ord s n) as [s1 g1] eqn:E.
        injection H as <- <-. cut (right s1); [intros [X Y]; split; [exact X|exact Y]|].
        unfold get_broker0 in E. destruct (get n (b_cache W s)); [injection E as <- <-; exact R|].
        pose proof (known_right s n R) as R0. set (s0 := known_or_refresh W dial exch ord s n) in *.
        destruct (get n (b_info W s0)) as [a|] eqn:EI; [|injection E as <- <-; exact R0].
        destruct (new_broker W dial s0 a n) as [s2 b] eqn:E1. apply new_broker_quiet in E1. destruct E1 as [Q1 [I1 X]].
        pose proof (quiet_right _ _ Q1 I1 R0) as R1.
        destruct b as [h|e]; injection E as <- <-; [|exact R1].
        destruct R1 as [Ri Rc]. split; [exact Ri|]. cbn. intros m h' I. apply put_in in I. destruct I as [I|I]; [|eauto].
        injection I as -> ->. destruct X as [_ [-> _]]. apply (proj1 R0). apply get_in. exact EI.
      - apply RAG in H. destruct H as [_ [_ [I [C _]]]]. destruct R as [R1 R2]. split; [rewrite I|rewrite C]; assumption.
      - unfold Brokers.NewBrokerFor in H. pose proof (known_right s n R) as R0.
        set (s0 := known_or_refresh W dial exch ord s n) in *.
        destruct (get n (b_info W s0)) as [a|]; [|injection H as <- <-; exact R0].
        destruct (new_broker W dial s0 a n) as [s1 b] eqn:E. apply new_broker_quiet in E. destruct E as [Q1 [I1 _]].
        destruct b; injection H as <- <-; eapply quiet_right; eassumption.
    Qed.
    Lemma start_right : forall w boot s, NewBrokers W dial exch w boot = (s, None) -> right s.
    Proof.
      intros w boot. unfold NewBrokers. assert (R : right (start W w boot)) by (split; intros ? ? []).
      revert R. generalize (start W w boot). induction boot as [|a l IH]; intros s0 R s; cbn [new_brokers]; [discriminate|].
      destruct (new_broker W dial s0 a (-1)) as [s1 b] eqn:E1. apply new_broker_quiet in E1. destruct E1 as [Q1 [I1 X]].
      pose proof (quiet_right _ _ Q1 I1 R) as R1. destruct b as [h|e]; [|apply IH; exact R1].
      unfold from_one. destruct (probe W exch s1 h) as [s2 o] eqn:E2. pose proof (probe_right _ _ _ _ E2) as M.
      apply probe_quiet in E2. destruct E2 as [Q2 [I2 _]]. pose proof (quiet_right _ _ Q2 I2 R1) as R2.
      destruct (as_meta o) as [m e]. cbn [fst] in M. destruct e; [apply IH; exact R2|].
      destruct (m_brokers m) as [|x bs]; [apply IH; exact R2|].
      intro H. injection H as <-. split; cbn [b_info b_cache with_ctl with_cache with_info].
      - intros n a0 I. apply info_of_in in I. auto.
      - intros n h' I.
        assert (F : forall l c, (forall n a, In (n, a) l -> a = addr n) -> (forall n h', In (n, h') c -> h_addr h' = addr n) ->
                    forall n h', In (n, h') (fold_left (fun c x => if bytes_eq_dec (h_addr h) (snd x) then put (fst x) h c else c) l c) ->
                    h_addr h' = addr n).
        { induction l0 as [|[k v] l0 IHl]; cbn; intros c Hl Hc; [exact Hc|]. apply IHl; [intros; apply Hl; auto|].
          destruct (bytes_eq_dec (h_addr h) v); [|exact Hc]. intros n0 h0 I0. apply put_in in I0.
          destruct I0 as [I0|I0]; [|eauto]. injection I0 as -> ->. rewrite e. apply Hl. auto. }
        refine (F (x :: bs) [] _ _ n h' I); [exact M|intros ? ? []].
    Qed.
    (** every handle ever got has the address of its node *)
    Lemma right_handle : forall w boot s l n s' h, NewBrokers W dial exch w boot = (s, None) ->
      GetBroker (calls s l) n = (s', inl h) -> h_addr h = addr n.
    Proof.
      intros w boot s l n s' h H E. apply start_right in H.
      pose proof (does_inv right prim_right _ _ (calls_does l s) H) as R.
      pose proof (prim_right _ _ (p_get _ _ _ _ E) R) as [_ R'].
      apply GB in E. destruct E as [_ [_ [C _]]]. apply R'. apply get_in. exact C.
    Qed.
  End Stable.

  (** ** The controller *)
  Lemma ctl_const : forall s l, b_ctl W (calls s l) = b_ctl W s.
  Proof. intros s l. apply (g_ctl _ _ _ (does_grows _ _ (calls_does l s))). Qed.
  Lemma controller_ok : forall s k s' r, controller_call s k = (s', r) ->
    r <> Panic /\ r <> Unspec /\
    exists evs, b_tr W s' = b_tr W s ++ evs /\
      ((exists e, seen evs = [EvGet (b_ctl W s) (inr e)] /\ r = Err e) \/
       exists h o, seen evs = [EvGet (b_ctl W s) (inl h); EvAsk h (QAdmin k) o] /\
         match o with
         | (Some (RAdmin _ b), None) => r = Ok b
         | (_, Some e) => r = Err e
         | _ => False
         end).
  Proof.
    intros s k s' r. unfold Brokers.controller_call, GetController.
    destruct (GetBroker s (b_ctl W s)) as [s1 g] eqn:EG. apply GB in EG. destruct EG as [_ [[e1 [T1 S1]] _]].
    destruct g as [h|e].
    2:{ intro H. injection H as <- <-. split; [discriminate|]. split; [discriminate|]. exists e1. split; [exact T1|]. left. eauto. }
    destruct (rag s1 h (QAdmin k)) as [s2 o] eqn:ER.
    pose proof (FITS _ _ _ _ _ (match fst o with Some r => r | None => RCoord 0 end) ER) as FF.
    apply RAG in ER. destruct ER as [_ [T2 [_ [_ N]]]]. destruct o as [r1 e2].
    assert (SS : seen (e1 ++ [EvAsk h (QAdmin k) (r1, e2)]) = [EvGet (b_ctl W s) (inl h); EvAsk h (QAdmin k) (r1, e2)])
      by (rewrite seen_app, S1; reflexivity).
    destruct e2 as [e2|]; intro H; injection H as <- <-.
    - split; [discriminate|]. split; [discriminate|]. exists (e1 ++ [EvAsk h (QAdmin k) (r1, Some e2)]).
      split; [rewrite T2, T1, app_assoc; reflexivity|]. right. exists h, (r1, Some e2). split; [exact SS|].
      destruct r1 as [[]|]; reflexivity.
    - cbn [fst snd] in *. destruct r1 as [r1|]; [|exfalso; apply N; reflexivity].
      specialize (FF eq_refl). destruct r1; cbn in FF; try contradiction. subst. cbn. rewrite Z.eqb_refl.
      split; [discriminate|]. split; [discriminate|]. eexists. split; [rewrite T2, T1, <- app_assoc; reflexivity|].
      right. exists h. eexists. split; [exact SS|]. reflexivity.
  Qed.

  (** asking for configurations: a broker's are asked of that broker *)
  Lemma controller_first : forall s l k s' r, controller_call (calls s l) k = (s', r) ->
    exists evs, b_tr W s' = b_tr W (calls s l) ++ evs /\
      ((exists e, seen evs = [EvGet (b_ctl W s) (inr e)] /\ r = Err e) \/
       exists h o, seen evs = [EvGet (b_ctl W s) (inl h); EvAsk h (QAdmin k) o] /\
         match o with
         | (Some (RAdmin _ b), None) => r = Ok b
         | (_, Some e) => r = Err e
         | _ => False
         end).
  Proof.
    intros s l k s' r H. apply controller_ok in H. destruct H as [_ [_ H]]. rewrite (ctl_const s l) in H. exact H.
  Qed.
  Lemma configs_ok : forall s n s' r, i32 n -> DescribeConfigs s true (Some n) = (s', r) ->
    r <> Panic /\
    exists evs, b_tr W s' = b_tr W s ++ evs /\
      ((exists e, seen evs = [EvGet n (inr e)] /\ r = Err e) \/
       exists h o, seen evs = [EvGet n (inl h); EvAsk h (QAdmin 32) o] /\
         match o with
         | (Some (RAdmin _ b), None) => r = Ok b
         | (_, Some e) => r = Err e
         | _ => False
         end).
  Proof.
    intros s n s' r Hn. unfold Brokers.DescribeConfigs.
    assert (SN : sint 32 n = n) by (unfold sint, i32 in *; destruct (n mod 2 ^ 32 <? 2 ^ (32 - 1)) eqn:?; lia).
    rewrite SN.
    destruct (GetBroker s n) as [s1 g] eqn:EG. apply GB in EG. destruct EG as [_ [[e1 [T1 S1]] _]].
    destruct g as [h|e].
    2:{ intro H. injection H as <- <-. split; [discriminate|]. exists e1. split; [exact T1|]. left. eauto. }
    destruct (rag s1 h (QAdmin 32)) as [s2 o] eqn:ER.
    pose proof (FITS _ _ _ _ _ (match fst o with Some r => r | None => RCoord 0 end) ER) as FF.
    apply RAG in ER. destruct ER as [_ [T2 [_ [_ N]]]]. destruct o as [r1 e2].
    assert (SS : seen (e1 ++ [EvAsk h (QAdmin 32) (r1, e2)]) = [EvGet n (inl h); EvAsk h (QAdmin 32) (r1, e2)])
      by (rewrite seen_app, S1; reflexivity).
    destruct e2 as [e2|]; intro H; injection H as <- <-.
    - split; [discriminate|]. exists (e1 ++ [EvAsk h (QAdmin 32) (r1, Some e2)]).
      split; [rewrite T2, T1, app_assoc; reflexivity|]. right. exists h, (r1, Some e2). split; [exact SS|].
      destruct r1 as [[]|]; reflexivity.
    - cbn [fst snd] in *. destruct r1 as [r1|]; [|exfalso; apply N; reflexivity].
      specialize (FF eq_refl). destruct r1; cbn in FF; try contradiction. subst. cbn.
      split; [discriminate|]. eexists. split; [rewrite T2, T1, <- app_assoc; reflexivity|].
      right. exists h. eexists. split; [exact SS|]. reflexivity.
  Qed.

  (** deleting topics and leaving a group: fine when the request got a response *)
  Lemma deltopics_ok : forall s s' r, DeleteTopics s = (s', r) ->
    r = Panic <-> exists evs h e, b_tr W s' = b_tr W s ++ evs /\
                    seen evs = [EvGet (b_ctl W s) (inl h); EvAsk h (QAdmin 20) (None, Some e)].
  Proof.
    intros s s' r. unfold Brokers.DeleteTopics, GetController.
    destruct (GetBroker s (b_ctl W s)) as [s1 g] eqn:EG. apply GB in EG. destruct EG as [_ [[e1 [T1 S1]] _]].
    destruct g as [h|e].
    2:{ intro H. injection H as <- <-. split; [discriminate|]. intros [evs [h [e0 [T S]]]].
        rewrite T1 in T. apply app_inv_head in T. subst. rewrite S1 in S. discriminate. }
    destruct (rag s1 h (QAdmin 20)) as [s2 o] eqn:ER.
    pose proof (FITS _ _ _ _ _ (match fst o with Some r => r | None => RCoord 0 end) ER) as FF.
    apply RAG in ER. destruct ER as [_ [T2 [_ [_ N]]]]. destruct o as [r1 e2].
    assert (SS : seen (e1 ++ [EvAsk h (QAdmin 20) (r1, e2)]) = [EvGet (b_ctl W s) (inl h); EvAsk h (QAdmin 20) (r1, e2)])
      by (rewrite seen_app, S1; reflexivity).
    intro H; injection H as <- <-. cbn [fst snd] in *.
    assert (TT : b_tr W s2 = b_tr W s ++ (e1 ++ [EvAsk h (QAdmin 20) (r1, e2)])) by (rewrite T2, T1, app_assoc; reflexivity).
    destruct r1 as [r1|].
    - specialize (FF eq_refl). destruct r1; cbn in FF; try contradiction. subst. cbn. split; [discriminate|].
      intros [evs [h0 [e0 [T S]]]]. rewrite TT in T. apply app_inv_head in T. subst. rewrite SS in S. discriminate.
    - split; [|reflexivity]. intros _. destruct e2 as [e2|]; [|exfalso; apply N; reflexivity]. eauto.
  Qed.
  Lemma deltopics_result : forall s s' b e, DeleteTopics s = (s', Ok (b, e)) ->
    exists evs, b_tr W s' = b_tr W s ++ evs /\
      ((exists e0, seen evs = [EvGet (b_ctl W s) (inr e0)] /\ e = Some e0) \/
       exists h, seen evs = [EvGet (b_ctl W s) (inl h); EvAsk h (QAdmin 20) (Some (RAdmin 20 b), e)]).
  Proof.
    intros s s' b e. unfold Brokers.DeleteTopics, GetController.
    destruct (GetBroker s (b_ctl W s)) as [s1 g] eqn:EG. apply GB in EG. destruct EG as [_ [[e1 [T1 S1]] _]].
    destruct g as [h|e0].
    2:{ intro H. injection H as <- <- <-. exists e1. split; [exact T1|]. left. eauto. }
    destruct (rag s1 h (QAdmin 20)) as [s2 [r1 e2]] eqn:ER. apply RAG in ER. destruct ER as [_ [T2 _]].
    intro H. exists (e1 ++ [EvAsk h (QAdmin 20) (r1, e2)]).
    unfold as_admin in H. destruct r1 as [[]|]; cbn in H; try discriminate.
    destruct (api =? 20) eqn:EA; cbn in H; [|discriminate]. injection H as <- <- <-.
    assert (api = 20) by lia. subst. split; [rewrite T2, T1, app_assoc; reflexivity|].
    right. exists h. rewrite seen_app, S1. reflexivity.
  Qed.
  Lemma leave_ok : forall s h g m s' r, requestLeaveGroup s h g m = (s', r) ->
    exists o, b_tr W s' = b_tr W s ++ [EvAsk h (QLeave g m) o] /\
      match o with
      | (Some (RLeave c), e) => r = Ok (c, e)
      | (None, Some _) => r = Panic
      | _ => False
      end.
  Proof.
    intros s h g m s' r. unfold Brokers.requestLeaveGroup. destruct (rag s h (QLeave g m)) as [s1 o] eqn:ER.
    pose proof (FITS _ _ _ _ _ (match fst o with Some r => r | None => RCoord 0 end) ER) as FF.
    apply RAG in ER. destruct ER as [_ [T [_ [_ N]]]]. destruct o as [r1 e1]. cbn [fst snd] in *.
    intro H. injection H as <- <-. exists (r1, e1). split; [exact T|].
    destruct r1 as [r1|].
    - specialize (FF eq_refl). destruct r1; cbn in FF; try contradiction. reflexivity.
    - destruct e1; [reflexivity|]. apply N; reflexivity.
  Qed.

  (** ** Finding the leader *)
  Lemma leader_ok : forall s t p s' r, findLeader s t p = (s', r) ->
    exists m e, RequestMetaData s [t] = (s', (m, e)) /\
    match e with
    | Some e' => if kafka_err e' then True else r = Err (EWrap e')
    | None => True
    end /\
    (forall l, r = Ok l -> exists t0 ps ts rs, m_topics m = (t0, ps) :: ts /\ In (p, (l, rs)) ps) /\
    (r = Panic <-> m_topics m = [] /\ match e with Some e' => kafka_err e' = true | None => True end).
  Proof.
    intros s t p s' r. unfold Brokers.findLeader. destruct (RequestMetaData s [t]) as [s1 [m e]] eqn:EM.
    assert (L : forall t0 ps ts, m_topics m = (t0, ps) :: ts -> forall l,
      (match find_pid p ps with Some l => Ok l | None => Err E_no_leader end) = Ok l ->
      exists t0 ps ts rs, m_topics m = (t0, ps) :: ts /\ In (p, (l, rs)) ps).
    { intros t0 ps ts EQ l H. destruct (find_pid p ps) eqn:EF; [|discriminate]. injection H as ->.
      destruct (find_pid_some _ _ _ EF) as [rs I]. exists t0, ps, ts, rs. auto. }
    destruct e as [e|].
    - destruct (kafka_err e) eqn:EK.
      + destruct (m_topics m) as [|[t0 ps] ts] eqn:ET; intro H; injection H as <- <-; exists m, (Some e);
          rewrite EK, ET; split; try reflexivity; split; try exact I; split; try discriminate; try tauto.
        * intros l X. eapply L; [exact eq_refl|exact X].
        * destruct (find_pid p ps); split; try discriminate; intros [X _]; discriminate.
      + intro H; injection H as <- <-; exists m, (Some e). rewrite EK. split; [reflexivity|]. split; [reflexivity|].
        split; [discriminate|]. split; [discriminate|]. intros [_ X]. discriminate.
    - destruct (m_topics m) as [|[t0 ps] ts] eqn:ET; intro H; injection H as <- <-; exists m, None; rewrite ET;
        split; try reflexivity; split; try exact I; split; try discriminate; try tauto.
      + intros l X. eapply L; [exact eq_refl|exact X].
      + destruct (find_pid p ps); split; try discriminate; intros [X _]; discriminate.
  Qed.
  Lemma rmd_topics : forall t,
    (forall w h q w' m e, exch w h q = (w', inr (RMeta m, e)) -> q = QMeta [t] -> m_topics m <> []) ->
    (forall w h q w' e, exch w h q = (w', inl e) -> kafka_err e = false) ->
    forall l s1 m0 s' m e, rmd W dial exch ord s1 l [t] m0 = (s', (m, e)) ->
    match e with None => m_topics m <> [] | Some e => kafka_err e = true -> m_topics m <> [] end.
  Proof.
    intros t HT HK. induction l as [|[n a] l IH]; intros s1 m0 s' m e; cbn [rmd].
    - intro H. injection H as _ _ <-. discriminate.
    - destruct (GetBroker s1 n) as [s2 g]. destruct g as [h|e0]; [|apply IH].
      unfold Brokers.rag. destruct (exch (b_w W s2) h (QMeta [t])) as [w x] eqn:EX.
      destruct x as [e0|[r0 e0]].
      + cbn. rewrite (HK _ _ _ _ _ EX). apply IH.
      + pose proof (exch_fits _ _ _ _ _ _ EX) as F. destruct r0; cbn in F; try contradiction. cbn.
        destruct e0 as [e0|].
        * destruct (kafka_err e0) eqn:K0; [|apply IH]. intro H. injection H as _ <- <-. intros _.
          exact (HT _ _ _ _ _ _ EX eq_refl).
        * intro H. injection H as _ <- <-. exact (HT _ _ _ _ _ _ EX eq_refl).
  Qed.
  (** with brokers that answer a metadata request about one topic with that topic, and
      report errors only in responses, it never panics *)
  Lemma leader_safe : forall s t p s' r,
    (forall w h q w' m e, exch w h q = (w', inr (RMeta m, e)) -> q = QMeta [t] -> m_topics m <> []) ->
    (forall w h q w' e, exch w h q = (w', inl e) -> kafka_err e = false) ->
    findLeader s t p = (s', r) -> r <> Panic /\ r <> Unspec.
  Proof.
    intros s t p s' r HT HK E. pose proof (leader_ok _ _ _ _ _ E) as [m [e [EM [_ [_ P]]]]].
    split.
    - intro X. apply P in X. destruct X as [ET EK]. unfold Brokers.RequestMetaData in EM.
      destruct (ordered s (b_info W s)) as [s1 l]. apply rmd_topics with (1 := HT) (2 := HK) in EM.
      destruct e; [exact (EM EK ET)|exact (EM ET)].
    - intro X. subst. unfold Brokers.findLeader in E. rewrite EM in E.
      destruct e as [e|]; [destruct (kafka_err e)|]; try discriminate;
        (destruct (m_topics m) as [|[t0 ps] ts]; [discriminate|]; destruct (find_pid p ps); discriminate).
  Qed.

  (** ** Listing groups *)
  Lemma proper_grows : forall s s', grows s s' -> proper s -> proper s'.
  Proof.
    intros s s' G P n h H. destruct (get n (b_cache W s)) as [h0|] eqn:E.
    - pose proof (g_keep _ _ _ G _ _ E). assert (h0 = h) by congruence. subst. auto.
    - eapply g_new; eassumption.
  Qed.
  Definition add_groups (acc : list (Z * list bytes)) (x : listed) : list (Z * list bytes) :=
    match l_groups x with [] => acc | gs => put (l_node x) gs acc end.
  Lemma lg_ok : forall l s acc s' r, proper s -> lg W dial exch ord s l acc = (s', r) ->
    exists out err evs done rest, r = Ok (out, err) /\ b_tr W s' = b_tr W s ++ evs /\
      map fst l = map l_node done ++ rest /\ out = fold_left add_groups done acc /\
      match err with
      | None => rest = [] /\ seen evs = flat_map listed_evs done
      | Some e => exists last, seen evs = flat_map listed_evs done ++ last /\
          ((exists n, last = [EvGet n (inr e)]) \/ exists n h o, last = [EvGet n (inl h); EvAsk h QListGroups o] /\ snd o = Some e)
      end.
  Proof.
    induction l as [|[n a] l IH]; intros s acc s' r P; cbn [lg].
    - intro H. injection H as <- <-. exists acc, None, [], [], []. rewrite app_nil_r. cbn. auto 10.
    - destruct (GetBroker s n) as [s1 g] eqn:EG. apply GB in EG. destruct EG as [G1 [[e1 [T1 S1]] M]].
      pose proof (proper_grows _ _ G1 P) as P1.
      destruct g as [h|e].
      2:{ intro H. injection H as <- <-. exists acc, (Some e), e1, [], (map fst ((n, a) :: l)).
          split; [reflexivity|]. split; [exact T1|]. split; [reflexivity|]. split; [reflexivity|].
          exists [EvGet n (inr e)]. split; [exact S1|]. left. eauto. }
      destruct M as [MC _]. pose proof (P1 _ _ MC) as HN.
      destruct (rag s1 h QListGroups) as [s2 o] eqn:ER.
      pose proof (FITS _ _ _ _ _ (match fst o with Some r => r | None => RCoord 0 end) ER) as FF.
      apply RAG in ER. destruct ER as [G2 [T2 [_ [_ N]]]]. destruct o as [r1 e2]. cbn [fst snd] in *.
      destruct e2 as [e2|].
      + intro H. injection H as <- <-. exists acc, (Some e2), (e1 ++ [EvAsk h QListGroups (r1, Some e2)]), [], (map fst ((n, a) :: l)).
        split; [reflexivity|]. split; [rewrite T2, T1, app_assoc; reflexivity|]. split; [reflexivity|]. split; [reflexivity|].
        exists [EvGet n (inl h); EvAsk h QListGroups (r1, Some e2)].
        split; [rewrite seen_app, S1; reflexivity|]. right. exists n, h, (r1, Some e2). auto.
      + destruct r1 as [r1|]; [|exfalso; apply N; reflexivity]. specialize (FF eq_refl).
        destruct r1; cbn in FF; try contradiction. intro H.
        apply IH in H; [|eapply proper_grows; eassumption].
        destruct H as [out [er [evs [done [rest [-> [T3 [M [-> X]]]]]]]]].
        exists (fold_left add_groups done (add_groups acc (mkListed n h gs))), er,
          ((e1 ++ [EvAsk h QListGroups (Some (RGroups gs), None)]) ++ evs), (mkListed n h gs :: done), rest.
        split; [unfold add_groups at 3; cbn [l_groups l_node]; rewrite HN; destruct gs; reflexivity|].
        split; [rewrite T3, T2, T1, !app_assoc; reflexivity|]. split; [cbn; rewrite M; reflexivity|].
        split; [reflexivity|].
        assert (SS : seen ((e1 ++ [EvAsk h QListGroups (Some (RGroups gs), None)]) ++ evs) =
                     listed_evs (mkListed n h gs) ++ seen evs) by (rewrite !seen_app, S1; reflexivity).
        destruct er as [e|].
        * destruct X as [last [Sx L]]. exists last. rewrite SS, Sx. split; [reflexivity|exact L].
        * destruct X as [-> Sx]. split; [reflexivity|]. rewrite SS, Sx. reflexivity.
  Qed.
  Lemma add_groups_get : forall done acc n, NoDup (map l_node done) -> (forall x, In x done -> get (l_node x) acc = None) ->
    get n (fold_left add_groups done acc) =
    match find (fun x => l_node x =? n) done with
    | Some x => match l_groups x with [] => None | gs => Some gs end
    | None => get n acc
    end.
  Proof.
    induction done as [|x done IH]; intros acc n ND NA; cbn [fold_left find]; [reflexivity|].
    inversion ND; subst.
    assert (ACC : forall k, k <> l_node x -> get k (add_groups acc x) = get k acc).
    { intros k D. unfold add_groups. destruct (l_groups x); [reflexivity|]. apply get_put_other. exact D. }
    rewrite IH; [|assumption|].
    2:{ intros y I. rewrite ACC; [apply NA; right; exact I|]. intro X. apply H1. rewrite <- X. apply in_map. exact I. }
    destruct (l_node x =? n) eqn:E.
    - assert (l_node x = n) by lia. subst n.
      replace (find (fun y => l_node y =? l_node x) done) with (@None listed).
      + unfold add_groups. destruct (l_groups x) eqn:EL; [apply NA; left; reflexivity|apply get_put_same].
      + symmetry. destruct (find (fun y => l_node y =? l_node x) done) as [y|] eqn:F; [|reflexivity].
        apply find_some in F. destruct F as [I F]. exfalso. apply H1. replace (l_node x) with (l_node y) by lia.
        apply in_map. exact I.
    - destruct (find (fun y => l_node y =? n) done); [reflexivity|]. apply ACC. lia.
  Qed.
  (** with proper handles every broker's groups come under its node id *)
  Lemma groups_ok : forall s s' out, proper s -> NoDup (map fst (b_info W s)) -> ListGroups s = (s', Ok (out, None)) ->
    exists evs done, b_tr W s' = b_tr W s ++ evs /\ seen evs = flat_map listed_evs done /\
      Permutation (map l_node done) (map fst (b_info W s)) /\
      forall n gs, get n out = Some gs <-> gs <> [] /\ exists h, In (mkListed n h gs) done.
  Proof.
    intros s s' out P ND. unfold Brokers.ListGroups. destruct (ordered s (b_info W s)) as [s1 l] eqn:EO.
    apply ORD in EO. destruct EO as [Q [_ [PM [T _]]]]. intro H.
    apply lg_ok in H; [|eapply proper_grows; [apply quiet_grows; exact Q|exact P]].
    destruct H as [o [er [evs [done [rest [E [T2 [M [-> X]]]]]]]]]. injection E as -> <-. destruct X as [-> S].
    rewrite app_nil_r in M. exists evs, done. split; [rewrite T2, T; reflexivity|]. split; [exact S|].
    assert (PN : Permutation (map l_node done) (map fst (b_info W s))) by (rewrite <- M; apply Permutation_map; exact PM).
    split; [exact PN|]. assert (NDN : NoDup (map l_node done)) by (eapply Permutation_NoDup; [symmetry; exact PN|exact ND]).
    intros n gs. rewrite add_groups_get; [|exact NDN|reflexivity]. cbn [get].
    destruct (find (fun x => l_node x =? n) done) as [x|] eqn:F.
    - apply find_some in F. destruct F as [I F]. assert (l_node x = n) by lia. subst n. split.
      + destruct (l_groups x) eqn:EL; [discriminate|]. intro Y. injection Y as <-. split; [discriminate|].
        exists (l_handle x). rewrite <- EL. destruct x. exact I.
      + intros [NE [h J]]. assert (x = mkListed (l_node x) h gs).
        { clear - I J NDN. induction done as [|y done IH]; [contradiction|]. inversion NDN; subst.
          destruct I as [->|I], J as [J|J]; auto.
          - exfalso. apply H1. apply (in_map l_node) in J. exact J.
          - exfalso. apply H1. subst y. cbn. apply in_map. exact I. }
        rewrite H. cbn. destruct gs; [contradiction|reflexivity].
    - split; [discriminate|]. intros [_ [h J]]. exfalso.
      pose proof (find_none _ _ F _ J) as Y. cbn in Y. lia.
  Qed.
End More.
