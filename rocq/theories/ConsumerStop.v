(** Stopping a partition consumer; start offsets that cannot be looked up. *)
From Verif Require Import Base BaseFacts Wire RecordSpec Records RecordFacts Responses Fetch FetchSpec FetchFacts FetchKeep DeliverFacts FetchShort FetchRefute Consumer ConsumerSpec ConsumerFacts.

(** *** Specification: what may still be seen after Stop *)
(** the fetch requests and the messages of a trace *)
Definition fetches (t : list tev) : list (Z * Z) := flat_map (fun e => match e with TFetch o m => [(o, m)] | _ => [] end) t.
(** the messages of the answer under way *)
Definition under_way (s : cst) : list Message :=
  match c_pend s with Some evs => flat_map (fun e => match e with EvMsg _ _ m => [m] | EvErr _ => [] end) evs | None => [] end.

Definition stopped (s : cst) : Prop := c_cancel s = true /\ c_stop s = true.

Lemma on_error_quiet c s e a ls s' t : onError c s e a ls = Ok (s', t) ->
  fetches t = [] /\ msgs t = [] /\ under_way s' = [] /\ c_cancel s' = c_cancel s /\ (c_stop s = true -> c_stop s' = true) /\ c_live s' = c_live s.
Proof.
  unfold onError. intros H.
  set (s1 := match e with EMaxBytesTooSmall => _ | _ => s end) in H.
  assert (P : c_cancel s1 = c_cancel s /\ c_stop s1 = c_stop s /\ c_live s1 = c_live s) by (unfold s1; destruct e; repeat split).
  destruct P as (P1 & P2 & P3). cbv zeta in H. clearbody s1.
  assert (Q : forall o, set_off (set_pend s1 None None) o = s' -> under_way s' = [] /\ c_cancel s' = c_cancel s /\ (c_stop s = true -> c_stop s' = true) /\ c_live s' = c_live s).
  { intros o <-. cbn. rewrite P1, P2, P3. repeat split. auto. }
  assert (Q2 : set_pend s1 None None = s' -> under_way s' = [] /\ c_cancel s' = c_cancel s /\ (c_stop s = true -> c_stop s' = true) /\ c_live s' = c_live s).
  { intros <-. cbn. rewrite P1, P2, P3. repeat split. auto. }
  assert (Q3 : set_flags (set_pend s1 None None) (c_cancel (set_pend s1 None None)) true (c_live (set_pend s1 None None)) = s' ->
     under_way s' = [] /\ c_cancel s' = c_cancel s /\ (c_stop s = true -> c_stop s' = true) /\ c_live s' = c_live s).
  { intros <-. cbn. rewrite P1, P3. repeat split. }
  destruct (err_root e); try (apply Ok_inj in H; injection H as H1 <-; split; [reflexivity|]; split; [reflexivity|]; apply Q2; exact H1).
  repeat match type of H with context [match ?x with _ => _ end] =>
    match x with
    | getOffset _ _ => destruct x
    | leaderLoop _ => destruct x
    | _ => is_var x; destruct x
    end end; try discriminate;
  apply Ok_inj in H; injection H as H1 <-; (split; [reflexivity|]); (split; [reflexivity|]); eauto.
Qed.

Lemma stop_step c s op s' t : stopped s -> cstep c s op = Ok (s', t) ->
  stopped s' /\ fetches t = [] /\ msgs t ++ under_way s' = firstn (length (msgs t ++ under_way s')) (under_way s) /\
  (c_live s = false -> c_live s' = false).
Proof.
  intros [S1 S2] H. unfold stopped. destruct op; cbn [cstep] in H.
  - destruct (c_live s) eqn:L; [|injection H as <- <-; cbn; rewrite firstn_all; repeat split; auto; try congruence].
    destruct (c_pend s) eqn:P; [injection H as <- <-; cbn; rewrite firstn_all; repeat split; auto; try congruence|].
    rewrite S2 in H. injection H as <- <-. cbn. unfold under_way. cbn. rewrite P. repeat split; auto; try congruence.
  - destruct (c_pend s) as [[|[tp p m|e] rest]|] eqn:P.
    + destruct (c_adv s); injection H as <- <-; unfold under_way; cbn; rewrite ?P; repeat split; auto; try congruence.
    + destruct (c_adv s); injection H as <- <-; unfold under_way; cbn; rewrite ?P; cbn; rewrite ?firstn_all; repeat split; auto; try congruence.
    + destruct (c_adv s).
      * injection H as <- <-. cbn. rewrite firstn_all. repeat split; auto; try congruence.
      * destruct (on_error_quiet _ _ _ _ _ _ _ H) as (Q1 & Q2 & Q3 & Q4 & Q5 & Q6). rewrite Q1, Q2, Q3, Q4, Q6. cbn. repeat split; auto; try congruence.
    + injection H as <- <-. cbn. rewrite firstn_all. repeat split; auto; try congruence.
  - destruct (c_adv s); injection H as <- <-; unfold under_way; cbn; rewrite firstn_all; repeat split; auto; try congruence.
  - injection H as <- <-. unfold under_way; cbn; rewrite firstn_all; repeat split; auto; try congruence.
  - injection H as <- <-. unfold under_way; cbn; rewrite firstn_all, S1, S2; repeat split; auto; try congruence.
  - destruct (c_pend s) eqn:P; [|injection H as <- <-; cbn; rewrite firstn_all; repeat split; auto; try congruence].
    destruct (c_adv s); [injection H as <- <-; cbn; rewrite firstn_all; repeat split; auto; try congruence|].
    rewrite S1 in H. injection H as <- <-. cbn. repeat split; auto; try congruence.
  - destruct (c_off s =? c_com s); [|destruct (k_belongs c); [|destruct (k_group c)]]; injection H as <- <-; unfold under_way; cbn; rewrite firstn_all; repeat split; auto; try congruence.
  - destruct (nth_error (c_fly s) i) as [[cap [v|]]|]; injection H as <- <-; unfold under_way; cbn; rewrite firstn_all; repeat split; auto; try congruence.
  - destruct (nth_error (c_fly s) i) as [[cap [v|]]|]; try (injection H as <- <-; unfold under_way; cbn; rewrite firstn_all; repeat split; auto; try congruence; fail).
    destruct (k_belongs c && _); [|destruct ok]; injection H as <- <-; unfold under_way; cbn; rewrite firstn_all; repeat split; auto; try congruence.
Qed.

Lemma fetches_app a b : fetches (a ++ b) = fetches a ++ fetches b.
Proof. apply flat_map_app. Qed.
Lemma msgs_app' a b : msgs (a ++ b) = msgs a ++ msgs b.
Proof. apply flat_map_app. Qed.

Lemma firstn_is {A} (x y : list A) : x = firstn (length x) y -> exists z, y = x ++ z.
Proof. intros E. exists (skipn (length x) y). rewrite E at 1. symmetry. apply firstn_skipn. Qed.
Lemma is_firstn {A} (x y z : list A) : y = x ++ z -> x = firstn (length x) y.
Proof. intros ->. rewrite firstn_app, firstn_all, Nat.sub_diag. cbn. symmetry. apply app_nil_r. Qed.

Lemma stop_run c ops : forall s s' t, stopped s -> crun c s ops = Ok (s', t) ->
  stopped s' /\ fetches t = [] /\ (exists z, under_way s = (msgs t ++ under_way s') ++ z) /\ (c_live s = false -> c_live s' = false).
Proof.
  induction ops as [|op ops IH]; intros s s' t S H.
  - injection H as <- <-. cbn. split; [exact S|]. split; [reflexivity|]. split; [exists []; symmetry; apply app_nil_r|auto].
  - destruct (crun_cons _ _ _ _ _ _ H) as (s1 & t1 & t2 & E1 & E2 & ->).
    destruct (stop_step _ _ _ _ _ S E1) as (S1 & F1 & M1 & L1). destruct (IH _ _ _ S1 E2) as (S2 & F2 & [z M2] & L2).
    split; [exact S2|]. rewrite fetches_app, F1, F2. split; [reflexivity|]. split; [|auto].
    destruct (firstn_is _ _ M1) as [z1 Z1]. rewrite Z1, M2, msgs_app'. exists (z ++ z1). rewrite <- !app_assoc. reflexivity.
Qed.

Lemma crun_app c a : forall b s s' t, crun c s (a ++ b) = Ok (s', t) ->
  exists s1 t1 t2, crun c s a = Ok (s1, t1) /\ crun c s1 b = Ok (s', t2) /\ t = t1 ++ t2.
Proof.
  induction a as [|op a IH]; intros b s s' t H.
  - exists s, [], t. repeat split. exact H.
  - cbn [app] in H. destruct (crun_cons _ _ _ _ _ _ H) as (s1 & t1 & t2 & E1 & E2 & ->).
    destruct (IH _ _ _ _ E2) as (s2 & t3 & t4 & E3 & E4 & ->). exists s2, (t1 ++ t3), t4.
    split; [cbn [crun]; rewrite E1; cbn [rbind fst snd]; rewrite E3; reflexivity|]. split; [exact E4|apply app_assoc].
Qed.

(** a context once done stays done *)
Lemma cancel_step c s op s' t : c_cancel s = true -> cstep c s op = Ok (s', t) -> c_cancel s' = true.
Proof.
  intros S1 H. destruct op; cbn [cstep] in H.
  - destruct (c_live s); [|injection H as <- <-; exact S1]. destruct (c_pend s); [injection H as <- <-; exact S1|].
    destruct (c_stop s); [injection H as <- <-; exact S1|]. destruct r as [x|e| |]; try discriminate; [injection H as <- <-; exact S1|].
    destruct e; injection H as <- <-; exact S1.
  - destruct (c_pend s) as [[|[tp p m|e] rest]|]; destruct (c_adv s); try (injection H as <- <-; exact S1).
    destruct (on_error_quiet _ _ _ _ _ _ _ H) as (_ & _ & _ & Q & _). rewrite Q. exact S1.
  - destruct (c_adv s); injection H as <- <-; exact S1.
  - injection H as <- <-. reflexivity.
  - injection H as <- <-. exact S1.
  - destruct (c_pend s); destruct (c_adv s); try (injection H as <- <-; exact S1). rewrite S1 in H; injection H as <- <-; exact S1.
  - destruct (c_off s =? c_com s); [|destruct (k_belongs c); [|destruct (k_group c)]]; injection H as <- <-; exact S1.
  - destruct (nth_error (c_fly s) i) as [[cap [v|]]|]; injection H as <- <-; exact S1.
  - destruct (nth_error (c_fly s) i) as [[cap [v|]]|]; try (injection H as <- <-; exact S1).
    destruct (k_belongs c && _); [|destruct ok]; injection H as <- <-; exact S1.
Qed.
Lemma cancel_run c ops : forall s s' t, c_cancel s = true -> crun c s ops = Ok (s', t) -> c_cancel s' = true.
Proof.
  induction ops as [|op ops IH]; intros s s' t S H; [injection H as <- <-; exact S|].
  destruct (crun_cons _ _ _ _ _ _ H) as (s1 & t1 & t2 & E1 & E2 & ->). eapply IH; [|exact E2]. eapply cancel_step; eassumption.
Qed.

Lemma stop_stopped c s ops1 ops2 s1 t1 : crun c s (ops1 ++ OCancel :: ops2 ++ [OStop]) = Ok (s1, t1) -> stopped s1.
Proof.
  intros H. destruct (crun_app _ _ _ _ _ _ H) as (s2 & t3 & t4 & _ & E3 & _). destruct (crun_cons _ _ _ _ _ _ E3) as (s3 & t5 & t6 & E4 & E5 & _).
  destruct (crun_app _ _ _ _ _ _ E5) as (s4 & t7 & t8 & E6 & E7 & _). destruct (crun_cons _ _ _ _ _ _ E7) as (s5 & t9 & t10 & E8 & E9 & _).
  cbn in E4. injection E4 as <- <-. assert (C : c_cancel s4 = true) by (eapply cancel_run; [|exact E6]; reflexivity).
  cbn in E8. injection E8 as <- <-. injection E9 as <- <-. split; cbn; [exact C|rewrite C; reflexivity].
Qed.
(** the theorem: [s1] is the state when Stop has set c.stop *)
Lemma stop_ends c s ops1 ops2 ops3 s' t : crun c s (ops1 ++ OCancel :: ops2 ++ OStop :: ops3) = Ok (s', t) ->
  exists s1 t1 t2, crun c s (ops1 ++ OCancel :: ops2 ++ [OStop]) = Ok (s1, t1) /\ t = t1 ++ t2 /\
    fetches t2 = [] /\ (exists lost, under_way s1 = msgs t2 ++ under_way s' ++ lost) /\ (c_live s1 = false -> c_live s' = false).
Proof.
  intros H. replace (ops1 ++ OCancel :: ops2 ++ OStop :: ops3) with ((ops1 ++ OCancel :: ops2 ++ [OStop]) ++ ops3) in H by (rewrite <- app_assoc; cbn [app]; rewrite <- app_assoc; reflexivity).
  destruct (crun_app _ _ _ _ _ _ H) as (s1 & t1 & t2 & E1 & E2 & ->). exists s1, t1, t2. split; [exact E1|]. split; [reflexivity|].
  pose proof (stop_stopped _ _ _ _ _ _ E1) as S.
  destruct (stop_run _ _ _ _ _ S E2) as (_ & F & [z M] & L). split; [exact F|]. split; [|exact L]. exists z. rewrite M, <- app_assoc. reflexivity.
Qed.
(** and three steps of the consumer end it: line 501, the done context, the test of line 408 *)
Lemma stop_quick c s ops1 ops2 s1 t1 r : crun c s (ops1 ++ OCancel :: ops2 ++ [OStop]) = Ok (s1, t1) ->
  exists s', crun c s1 [OAdvance; OAbort; OFetch r] = Ok (s', []) /\ c_live s' = false.
Proof.
  intros H. pose proof (stop_stopped _ _ _ _ _ _ H) as S.
  destruct S as [S1 S2]. destruct s1 as [off fr mx com ca st li pe ad fl]. cbn in S1, S2. subst. destruct ad, pe, li; cbn; eexists; split; reflexivity.
Qed.

(** ** Looking up a start offset *)
(** the topic is in the answer and its first partition has at most one offset *)
Definition usable (topic : bytes) (a : option (res response)) : Prop :=
  match a with
  | None | Some (Err _) => True
  | Some (Ok (ROffsets _ _ ts)) =>
      (exists t p, In (t, p) ts /\ exists x, In x p /\ fst (snd x) <> 0) \/
      (exists p ps, mget topic ts = p :: ps /\ (length (fst (snd (snd p))) <= 1)%nat)
  | _ => False
  end.
Lemma first_wrapped_some cs : (exists c, In c cs /\ c <> 0) -> exists e, first_wrapped cs = Some e.
Proof.
  intros [c [H1 H2]]. unfold first_wrapped. destruct (find _ cs) eqn:E; [eauto|]. pose proof (find_none _ _ E c H1) as F. cbn in F. destruct (c =? 0) eqn:Z0; [lia|discriminate].
Qed.
Lemma get_offset_usable topic a : usable topic (Some a) -> (exists o, getOffset topic a = Ok o) \/ (exists e, getOffset topic a = Err e).
Proof.
  destruct a as [r|e| |]; cbn [usable]; try contradiction; [|intros _; right; eexists; reflexivity].
  destruct r; try contradiction. intros [H|H]; cbn [getOffset response_error].
  - destruct H as (t & p & H1 & x & H2 & H3). right.
    destruct (first_wrapped_some (flat_map (fun t => map (fun p => fst (snd p)) (snd t)) topics)) as [e E].
    + exists (fst (snd x)). split; [|exact H3]. apply in_flat_map. exists (t, p). split; [exact H1|]. apply (in_map (fun p => fst (snd p))). exact H2.
    + rewrite E. eexists. reflexivity.
  - destruct H as (p & ps & H1 & H2). destruct (first_wrapped _); [right; eexists; reflexivity|]. rewrite H1. left. unfold getPartitionOffset.
    destruct (fst (snd (snd p))) as [|o [|o2 l]]; [eexists; reflexivity|eexists; reflexivity|cbn in H2; lia].
Qed.
Lemma init_never_crashes topic answers : forall cur, Forall (usable topic) answers -> initLoop topic answers cur <> Crashed.
Proof.
  induction answers as [|[a|] answers IH]; intros cur H; cbn [initLoop]; try discriminate. inversion H as [|? ? H1 H2]; subst.
  destruct (get_offset_usable _ _ H1) as [[o E]|[e E]]; rewrite E; [discriminate|apply IH; exact H2].
Qed.
Definition cm_ok (a : res response) : Prop := match a with Err _ | Ok (ROffsetFetch _ _) => True | _ => False end.
Lemma committed_never_crashes topic pid l : forall cur, Forall cm_ok l -> committedLoop topic pid l cur <> Crashed.
Proof.
  induction l as [|a l IH]; intros cur H; cbn [committedLoop]; try discriminate. inversion H as [|? ? H1 H2]; subst.
  destruct a as [r|e| |]; cbn in H1; try contradiction; [destruct r; try contradiction; discriminate|apply IH; exact H2].
Qed.
Lemma start_never_crashes c from0 start leaders cs os : leaderLoop leaders <> Crashed -> Forall cm_ok cs -> Forall (usable (k_topic c)) os ->
  startOffset c from0 start leaders cs os <> Crashed.
Proof.
  intros H1 H2 H3. unfold startOffset. destruct (leaderLoop leaders); try discriminate; [|congruence].
  destruct (k_group c && _).
  - unfold getCommitedOffet. destruct (_ || _).
    + pose proof (committed_never_crashes (k_topic c) (k_part c) cs start H2). destruct (committedLoop _ _ _ _); try discriminate; try congruence.
      destruct (_ || _); try discriminate. pose proof (init_never_crashes (k_topic c) os a0 H3). destruct (initLoop _ _ _); try discriminate; congruence.
    + destruct (_ || _); try discriminate. pose proof (init_never_crashes (k_topic c) os start H3). destruct (initLoop _ _ _); try discriminate; congruence.
  - destruct (_ || _); try discriminate. pose proof (init_never_crashes (k_topic c) os start H3). destruct (initLoop _ _ _); try discriminate; congruence.
Qed.
Lemma start_crashes : exists c leaders, leaderLoop leaders = Done tt /\
  startOffset c false (-1) leaders [] [Some (Ok (ROffsets 1 0 []))] = Crashed /\
  startOffset c false (-1) leaders [] [Some (Ok (ROffsets 1 0 [(k_topic c, [(k_part c, (0, ([5; 3], (0, 0))))])]))] = Crashed.
Proof. exists (mkCC [116] 3 false false 0), [Some (mkLT (Ok 2) true true)]. repeat split; vm_compute; reflexivity. Qed.

(** ** Without Stop *)
(** the steps that Stop and the done context take *)
Definition of_stop (op : cop) : bool := match op with OStop | OAbort => true | _ => false end.
(** nothing that ends a consumer: Stop, a cancelled request, a leader that is given up *)
Definition harmless (op : cop) : Prop :=
  match op with
  | OCancel => False
  | OFetch r => r <> Err ECanceled
  | ONext _ leaders => forall b, leaderLoop leaders <> Halted b
  | _ => True
  end.
Definition going (s : cst) : Prop := c_cancel s = false /\ c_stop s = false /\ c_live s = true.
Lemma going_step c s op s' t : going s -> harmless op -> cstep c s op = Ok (s', t) -> going s' /\ (of_stop op = true -> s' = s /\ t = []).
Proof.
  intros (A & B & C) Hh H. destruct op; cbn [cstep harmless of_stop] in *; (split; [|try discriminate]).
  - rewrite C, B in H. destruct (c_pend s); [injection H as <- <-; repeat split; assumption|].
    destruct r as [x|e| |]; try discriminate; [injection H as <- <-; repeat split; assumption|].
    destruct e; try (injection H as <- <-; repeat split; assumption). contradiction.
  - destruct (c_pend s) as [[|[tp p m|e] rest]|]; destruct (c_adv s); try (injection H as <- <-; repeat split; assumption).
    unfold onError in H. set (s1 := match e with EMaxBytesTooSmall => _ | _ => _ end) in H.
    assert (P : going s1) by (unfold s1; destruct e; repeat split; assumption). clearbody s1. destruct P as (P1 & P2 & P3).
    assert (K : forall x, (match leaderLoop leaders with
      | Done _ | Running => Ok (set_pend s1 None None, [])
      | Halted _ => Ok (set_flags (set_pend s1 None None) (c_cancel (set_pend s1 None None)) true (c_live (set_pend s1 None None)), [])
      | Crashed => Panic end) = Ok x -> x = (set_pend s1 None None, [] : list tev)).
    { intros x Hx. destruct (leaderLoop leaders) eqn:L; try (injection Hx as <-; reflexivity); [exfalso; eapply Hh; exact L || reflexivity|discriminate]. }
    destruct (err_root e); try (injection H as <- <-; repeat split; assumption).
    destruct code as [|p|p]; try (injection H as <- <-; repeat split; assumption).
    destruct p as [[p|p|]|[[p|p|]|p|]|]; try (injection H as <- <-; repeat split; assumption).
    + apply K in H. injection H as -> ->. repeat split; assumption.
    + destruct (getOffset (k_topic c) answer); try discriminate; injection H as <- <-; repeat split; assumption.
  - destruct (c_adv s); injection H as <- <-; repeat split; assumption.
  - contradiction.
  - injection H as <- <-. rewrite A, B. repeat split; assumption.
  - injection H as <- <-. intros _. split; [|reflexivity]. rewrite A, B. destruct s; cbn in *; subst; reflexivity.
  - destruct (c_pend s); destruct (c_adv s); try (injection H as <- <-; repeat split; assumption). rewrite A in H; injection H as <- <-; repeat split; assumption.
  - intros _. destruct (c_pend s); destruct (c_adv s); try (injection H as <- <-; split; reflexivity). rewrite A in H; injection H as <- <-; split; reflexivity.
  - destruct (c_off s =? c_com s); [|destruct (k_belongs c); [|destruct (k_group c)]]; injection H as <- <-; repeat split; assumption.
  - destruct (nth_error (c_fly s) i) as [[cap [v|]]|]; injection H as <- <-; repeat split; assumption.
  - destruct (nth_error (c_fly s) i) as [[cap [v|]]|]; try (injection H as <- <-; repeat split; assumption).
    destruct (k_belongs c && _); [|destruct ok]; injection H as <- <-; repeat split; assumption.
Qed.
Lemma going_run c ops : forall s s' t, going s -> Forall harmless ops -> crun c s ops = Ok (s', t) ->
  going s' /\ crun c s (filter (fun op => negb (of_stop op)) ops) = Ok (s', t).
Proof.
  induction ops as [|op ops IH]; intros s s' t G Hh H; [injection H as <- <-; split; [exact G|reflexivity]|].
  destruct (crun_cons _ _ _ _ _ _ H) as (s1 & t1 & t2 & E1 & E2 & ->).
  destruct (going_step _ _ _ _ _ G (Forall_inv Hh) E1) as [G1 G2]. destruct (IH _ _ _ G1 (Forall_inv_tail Hh) E2) as [G3 E3].
  split; [exact G3|]. cbn [filter]. destruct (of_stop op); cbn [negb].
  - destruct (G2 eq_refl) as [-> ->]. exact E3.
  - cbn [crun]. rewrite E1. cbn [rbind fst snd]. rewrite E3. reflexivity.
Qed.
Lemma goes_on c off from mx ops s' t : Forall harmless ops -> crun c (cinit off from mx) ops = Ok (s', t) ->
  (c_live s' = true /\ forall evs, c_pend s' = None -> exists s2, cstep c s' (OFetch (Ok evs)) = Ok (s2, [TFetch (c_off s') (c_max s')])) /\
  crun c (cinit off from mx) (filter (fun op => negb (of_stop op)) ops) = Ok (s', t).
Proof.
  intros Hh H. destruct (going_run c ops (cinit off from mx) s' t) as [(A & B & C) E]; [repeat split|exact Hh|exact H|].
  split; [|exact E]. split; [exact C|]. intros evs P. cbn [cstep]. rewrite C, P, B. eexists; reflexivity.
Qed.

(** ** the first commit *)
Lemma com_kept c s op s' t : cstep c s op = Ok (s', t) -> (forall o, ~ In (TCommit o true) t) -> c_com s' = c_com s.
Proof.
  destruct op; cbn [cstep]; intros H N;
    try (unfold onError in H; cbv zeta in H);
    repeat match type of H with context [match ?x with _ => _ end] => destruct x eqn:?; try discriminate H end;
    try discriminate H; injection H as <- <-; try reflexivity.
  exfalso. eapply N. left. reflexivity.
Qed.
Lemma com_run c : forall ops s s' t, crun c s ops = Ok (s', t) -> (forall o, ~ In (TCommit o true) t) -> c_com s' = c_com s.
Proof.
  induction ops as [|op ops IH]; intros s s' t H N; [injection H as <- <-; reflexivity|].
  cbn [crun] in H. destruct (cstep c s op) as [[s1 t1]| | |] eqn:E; try discriminate H. cbn [rbind fst snd] in H.
  destruct (crun c s1 ops) as [[s2 t2]| | |] eqn:E2; try discriminate H. injection H as <- <-.
  rewrite (IH _ _ _ E2), (com_kept _ _ _ _ _ E); [reflexivity| |]; intros o I; apply (N o), in_or_app; auto.
Qed.
Lemma first_commit c start from mx ops s t : crun c (cinit start from mx) ops = Ok (s, t) -> (forall o, ~ In (TCommit o true) t) ->
  c_fly s = [] -> k_belongs c = true \/ k_group c = true -> 0 < c_off s ->
  exists s', crun c s [OCommit; OBuild 0; OSent 0 true true] = Ok (s', [TCommit (c_off s) true]) /\ c_com s' = c_off s.
Proof.
  intros H N F K P. pose proof (com_run _ _ _ _ _ H N) as C. cbn in C.
  cbn [crun cstep]. rewrite C. replace (c_off s =? 0) with false by lia.
  destruct s as [off fr max com ca st li pe ad fl]; cbn in *. subst.
  destruct (k_belongs c) eqn:KB.
  - cbn. cbn. replace (off <? 0) with false by lia. cbn. eexists. split; reflexivity.
  - destruct K as [K|K]; [discriminate|]. rewrite K. cbn. cbn. eexists. split; reflexivity.
Qed.
