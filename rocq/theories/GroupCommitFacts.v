From Verif Require Import Base BaseFacts GroupCommit GroupCommitSpec.

Lemma nth_set_call l : forall k c j x, nth_error (set_call l k c) j = Some x -> (j = k /\ x = c) \/ nth_error l j = Some x.
Proof.
  induction l as [|y l IH]; intros k c j x H; cbn in H; [destruct j; discriminate|].
  destruct k as [|k]; destruct j as [|j]; cbn in H |- *; try (right; exact H).
  - left. split; congruence.
  - destruct (IH k c j x H) as [[-> ->]|K]; [left; auto|right; exact K].
Qed.
Lemma nth_last {A} (l : list A) c j x : nth_error (l ++ [c]) j = Some x -> nth_error l j = Some x \/ x = c.
Proof.
  intros H. destruct (Nat.lt_ge_cases j (length l)) as [L|L].
  - left. rewrite nth_error_app1 in H by exact L. exact H.
  - right. rewrite nth_error_app2 in H by exact L. destruct (j - length l)%nat as [|[|]]; cbn in H; congruence.
Qed.

(** ** Only positions are committed *)
(** P i o: consumer i had position o *)
Section Had.
  Variable P : nat -> Z -> Prop.
  Definition had_pc (c : qcall) : Prop := match qc_left c, qc_pc c with i :: _, (QAsk o | QNote o) => P i o | _, _ => True end.
  Definition HInv (s : qst) : Prop := (forall i, P i (q_pos s i)) /\ forall j c, nth_error (q_calls s) j = Some c -> had_pc c.
  Lemma had_step s op s' evs : qstep s op = (s', evs) -> (forall i o, op = QMove i o -> P i o) -> HInv s ->
    HInv s' /\ forall i o b, In (QCommit i o b) evs -> P i o /\ 0 <= o.
  Proof using.
    intros E M [H1 H2]. destruct op as [i o|b|n|i|k st ok]; cbn in E.
    - injection E as <- <-. split; [|intros ? ? ? []]. split; [|exact H2]. intros j. cbn. unfold upd.
      destruct (Nat.eqb_spec j i) as [->|N]; [apply M; reflexivity|apply H1].
    - injection E as <- <-. split; [|intros ? ? ? []]. split; [exact H1|exact H2].
    - injection E as <- <-. split; [|intros ? ? ? []]. split; [exact H1|]. intros j c Hc. cbn in Hc. apply nth_last in Hc.
      destruct Hc as [Hc| ->]; [apply (H2 j c Hc)|]. unfold had_pc. cbn. destruct (seq 0 n); exact I.
    - injection E as <- <-. split; [|intros ? ? ? []]. split; [exact H1|]. intros j c Hc. cbn in Hc. apply nth_last in Hc.
      destruct Hc as [Hc| ->]; [apply (H2 j c Hc)|]. exact I.
    - destruct (nth_error (q_calls s) k) as [[[|i rest] pc]|] eqn:K; try (injection E as <- <-; split; [split; assumption|intros ? ? ? []]).
      pose proof (H2 k _ K) as Hk. cbn [had_pc qc_left qc_pc] in Hk. unfold had_pc in Hk. cbn [qc_left qc_pc] in Hk.
      assert (R : forall c com, had_pc c -> HInv (mkQ (q_pos s) com (q_member s) (set_call (q_calls s) k c))).
      { intros c com Hc. split; [exact H1|]. intros j c' Hj. cbn in Hj. apply nth_set_call in Hj. destruct Hj as [[-> ->]|Hj]; [exact Hc|exact (H2 j c' Hj)]. }
      assert (N : forall l, had_pc (mkQC l QCompare)) by (intros l; unfold had_pc; cbn; destruct l; exact I).
      destruct pc as [| |o|o]; cbn [call_step] in E.
      + destruct (q_pos s i =? q_com s i); injection E as <- <-; (split; [apply R|intros ? ? ? []]); [apply N|exact I].
      + injection E as <- <-. split; [apply R; apply H1|intros ? ? ? []].
      + destruct (allowed s o) eqn:A.
        * destruct (st && ok); injection E as <- <-; (split; [apply R|]); [exact Hk| |apply N|];
            (intros i' o' b' [X|[]]; injection X as <- <- <-; split; [exact Hk|]; apply andb_prop in A; lia).
        * injection E as <- <-. split; [apply R, N|intros ? ? ? []].
      + injection E as <- <-. split; [apply R, N|intros ? ? ? []].
  Qed.
  Lemma had_run ops : forall s s' tr, qrun s ops = (s', tr) -> (forall i o, In (QMove i o) ops -> P i o) -> HInv s ->
    forall i o b, In (QCommit i o b) tr -> P i o /\ 0 <= o.
  Proof using.
    induction ops as [|op ops IH]; intros s s' tr E M H i o b X; cbn in E.
    - injection E as <- <-. destruct X.
    - destruct (qstep s op) as [s1 e1] eqn:E1. destruct (qrun s1 ops) as [s2 e2] eqn:E2. injection E as <- <-.
      destruct (had_step s op s1 e1 E1) as [H1 H2]; [intros ? ? ->; apply M; left; reflexivity|exact H|].
      apply in_app_or in X. destruct X as [X|X]; [exact (H2 i o b X)|]. refine (IH s1 s2 e2 E2 _ H1 i o b X). intros; apply M; right; assumption.
  Qed.
End Had.
Lemma in_positions i o ops : In (QMove i o) ops -> In o (positions i ops).
Proof.
  induction ops as [|op ops IH]; intros H; [destruct H|]. destruct H as [->|H].
  - cbn. rewrite Nat.eqb_refl. left. reflexivity.
  - destruct op; cbn; try apply IH, H. destruct (Nat.eqb i i0); [right|]; apply IH, H.
Qed.
Lemma only_positions pos member ops s tr i o b : qrun (qinit pos member) ops = (s, tr) -> In (QCommit i o b) tr ->
  In o (pos i :: positions i ops) /\ 0 <= o.
Proof.
  intros R X. apply (had_run (fun i o => In o (pos i :: positions i ops)) ops _ s tr R) with (b := b).
  - intros j v H. right. apply in_positions, H.
  - split; [intros j; left; reflexivity|]. intros [|j] c H; discriminate H.
  - exact X.
Qed.

(** ** A call alone *)
Lemma nth_set_same l : forall k c x, nth_error l k = Some x -> nth_error (set_call l k c) k = Some c.
Proof. induction l as [|y l IH]; intros [|k] c x H; cbn in *; try discriminate; [reflexivity|apply (IH k c x H)]. Qed.

Section Alone.
  Variables (s0 : qst) (l0 : list nat) (k : nat).
  Hypothesis ND : NoDup l0.
  Let sent (d : list nat) : list (nat * Z) := map (fun i => (i, q_pos s0 i)) (filter (wants s0) d).
  (* the call has dealt with d *)
  Record AInv (good : bool) (s : qst) (tr : list qev) (d left : list nat) (pc : qpc) : Prop := {
    a_call : nth_error (q_calls s) k = Some (mkQC left pc);
    a_split : l0 = d ++ left;
    a_pos : q_pos s = q_pos s0;
    a_mem : q_member s = true;
    a_left : forall i, ~ In i d -> q_com s i = q_com s0 i;
    a_com : forall i, In i d -> (q_com s i = q_com s0 i /\ (good = true -> wants s0 i = false)) \/ (q_com s i = q_pos s0 i /\ In (QCommit i (q_pos s0 i) true) tr);
    a_pc : match left, pc with
           | _, QCompare => map pair_of tr = sent d
           | i :: _, QKeep => map pair_of tr = sent d /\ q_pos s0 i <> q_com s0 i
           | i :: _, QAsk o => map pair_of tr = sent d /\ q_pos s0 i <> q_com s0 i /\ o = q_pos s0 i
           | i :: _, QNote o => map pair_of tr = sent (d ++ [i]) /\ o = q_pos s0 i /\ In (QCommit i o true) tr
           | [], _ => False
           end }.
  Lemma sent_app d i : sent (d ++ [i]) = sent d ++ (if wants s0 i then [(i, q_pos s0 i)] else []).
  Proof using. unfold sent. rewrite filter_app, map_app. cbn [filter]. destruct (wants s0 i); reflexivity. Qed.
  Lemma alone_step good s tr d left pc st ok s' evs : AInv good s tr d left pc -> (good = true -> st && ok = true) -> qstep s (QStep k st ok) = (s', evs) ->
    exists d' left' pc', AInv good s' (tr ++ evs) d' left' pc'.
  Proof using ND.
    intros [A1 A2 A3 A4 A5 A6 A7] G E. cbn [qstep] in E. rewrite A1 in E.
    destruct left as [|i rest]; [injection E as <- <-; exists d, [], pc; rewrite app_nil_r; constructor; assumption|].
    assert (Nd : ~ In i d).
    { intros X. pose proof ND as ND'. rewrite A2 in ND'. apply NoDup_remove_2 in ND'. apply ND', in_or_app. left. exact X. }
    assert (S1 : l0 = (d ++ [i]) ++ rest) by (rewrite <- app_assoc; exact A2).
    assert (Ei : q_com s i = q_com s0 i) by (apply A5, Nd).
    assert (L : forall com, (forall j, j <> i -> com j = q_com s j) -> forall j, ~ In j (d ++ [i]) -> com j = q_com s0 j).
    { intros com Hcom j Nj. rewrite Hcom; [apply A5|]; intros X; apply Nj, in_or_app; [left; exact X|right; left; congruence]. }
    assert (C : forall com ev, (forall j, j <> i -> com j = q_com s j) ->
      ((com i = q_com s0 i /\ (good = true -> wants s0 i = false)) \/ (com i = q_pos s0 i /\ In (QCommit i (q_pos s0 i) true) (tr ++ ev))) ->
      forall j, In j (d ++ [i]) -> (com j = q_com s0 j /\ (good = true -> wants s0 j = false)) \/ (com j = q_pos s0 j /\ In (QCommit j (q_pos s0 j) true) (tr ++ ev))).
    { intros com ev Hcom Hi j Hj. apply in_app_or in Hj. destruct (Nat.eq_dec j i) as [->|Nj]; [exact Hi|].
      destruct Hj as [Hj|[Hj|[]]]; [|congruence]. rewrite Hcom by exact Nj. destruct (A6 j Hj) as [K|[K1 K2]]; [left; exact K|right; split; [exact K1|apply in_or_app; left; exact K2]]. }
    assert (K : forall c, nth_error (set_call (q_calls s) k c) k = Some c) by (intros c; eapply nth_set_same; exact A1).
    destruct pc as [| |o|o]; cbn [call_step] in E; rewrite ?A3 in E.
    - rewrite Ei in E. destruct (Z.eqb_spec (q_pos s0 i) (q_com s0 i)) as [Q|Q]; injection E as <- <-; rewrite app_nil_r.
      + exists (d ++ [i]), rest, QCompare. constructor; cbn; [apply K|assumption|first [assumption|reflexivity]|first [assumption|reflexivity]| | | ].
        * apply L. auto.
        * intros j Hj. rewrite <- (app_nil_r tr). revert j Hj. apply C; [auto|]. left. split; [exact Ei|]. intros _. unfold wants. rewrite Q, Z.eqb_refl. reflexivity.
        * assert (W : wants s0 i = false) by (unfold wants; rewrite Q, Z.eqb_refl; reflexivity).
          destruct rest; rewrite sent_app, W, app_nil_r; exact A7.
      + exists d, (i :: rest), QKeep. constructor; cbn; [apply K|assumption|first [assumption|reflexivity]|first [assumption|reflexivity]|exact A5|exact A6|auto].
    - injection E as <- <-. rewrite app_nil_r. exists d, (i :: rest), (QAsk (q_pos s0 i)). destruct A7 as [B1 B2]. constructor; cbn; [apply K|assumption|first [assumption|reflexivity]|first [assumption|reflexivity]|exact A5|exact A6|auto].
    - destruct A7 as [B1 [B2 ->]]. unfold allowed in E. rewrite A4 in E. cbn [andb] in E. destruct (0 <=? q_pos s0 i) eqn:P.
      + assert (W : wants s0 i = true).
        { unfold wants. rewrite P. destruct (Z.eqb_spec (q_pos s0 i) (q_com s0 i)); [contradiction|reflexivity]. }
        destruct (st && ok) eqn:T; injection E as <- <-.
        * apply andb_prop in T. destruct T as [-> _]. exists d, (i :: rest), (QNote (q_pos s0 i)). constructor; cbn; [apply K|assumption|first [assumption|reflexivity]|first [assumption|reflexivity]|exact A5| | ].
          -- intros j Hj. destruct (A6 j Hj) as [X|[X Y]]; [left; exact X|right; split; [exact X|apply in_or_app; left; exact Y]].
          -- rewrite map_app, B1, sent_app, W. cbn. repeat split. apply in_or_app. right. left. reflexivity.
        * exists (d ++ [i]), rest, QCompare. constructor; cbn; [apply K|assumption|first [assumption|reflexivity]|first [assumption|reflexivity]| | | ].
          -- apply L. auto.
          -- apply C; [auto|]. left. split; [exact Ei|]. intros ->. specialize (G eq_refl). discriminate G.
          -- destruct rest; rewrite map_app, B1, sent_app, W; reflexivity.
      + assert (W : wants s0 i = false) by (unfold wants; rewrite P; apply andb_false_r).
        injection E as <- <-. rewrite app_nil_r. exists (d ++ [i]), rest, QCompare. constructor; cbn; [apply K|assumption|first [assumption|reflexivity]|first [assumption|reflexivity]| | | ].
        * apply L. auto.
        * intros j Hj. rewrite <- (app_nil_r tr). revert j Hj. apply C; [auto|]. left. split; [exact Ei|]. intros _. exact W.
        * destruct rest; rewrite sent_app, W, app_nil_r; exact B1.
    - destruct A7 as [B1 [-> B3]]. injection E as <- <-. rewrite app_nil_r. exists (d ++ [i]), rest, QCompare. constructor; cbn; [apply K|assumption|first [assumption|reflexivity]|first [assumption|reflexivity]| | | ].
      + apply L. intros j Nj. unfold upd. destruct (Nat.eqb_spec j i); [contradiction|reflexivity].
      + intros j Hj. rewrite <- (app_nil_r tr). revert j Hj. apply C.
        * intros j Nj. unfold upd. destruct (Nat.eqb_spec j i); [contradiction|reflexivity].
        * right. unfold upd. rewrite Nat.eqb_refl, app_nil_r. split; [reflexivity|exact B3].
      + destruct rest; exact B1.
  Qed.
  Lemma alone_run good steps : forall s tr d left pc s' tr', AInv good s tr d left pc ->
    Forall (fun op => exists a b, op = QStep k a b /\ (good = true -> a && b = true)) steps -> qrun s steps = (s', tr') ->
    exists d' left' pc', AInv good s' (tr ++ tr') d' left' pc'.
  Proof using ND.
    induction steps as [|op steps IH]; intros s tr d left pc s' tr' A F E; cbn in E.
    - injection E as <- <-. rewrite app_nil_r. eauto.
    - inversion F as [|? ? [a [b [-> G]]] F']; subst. destruct (qstep s (QStep k a b)) as [s1 e1] eqn:E1. destruct (qrun s1 steps) as [s2 e2] eqn:E2.
      injection E as <- <-. destruct (alone_step good _ _ _ _ _ _ _ _ _ A G E1) as (d1 & l1 & p1 & A1).
      destruct (IH _ _ _ _ _ _ _ A1 F' E2) as (d2 & l2 & p2 & A2). exists d2, l2, p2. rewrite app_assoc. exact A2.
  Qed.
End Alone.

Lemma nth_error_last {A} (l : list A) c : nth_error (l ++ [c]) (length l) = Some c.
Proof. rewrite nth_error_app2 by apply le_n. rewrite Nat.sub_diag. reflexivity. Qed.
(** what a call deals with: all consumers of the group, or one *)
Definition called (op : qop) (l : list nat) : Prop := (exists n, op = QCall n /\ l = seq 0 n) \/ exists i, op = QTick i /\ l = [i].
Lemma called_starts op l s : called op l -> NoDup l /\ qstep s op = (mkQ (q_pos s) (q_com s) (q_member s) (q_calls s ++ [mkQC l QCompare]), []).
Proof.
  intros [(n & -> & ->)|(i & -> & ->)]; (split; [|reflexivity]); [apply seq_NoDup|]. constructor; [intros []|constructor].
Qed.
Lemma alone_called good op l s steps s' tr : called op l -> q_member s = true ->
  Forall (fun op => exists a b, op = QStep (length (q_calls s)) a b /\ (good = true -> a && b = true)) steps -> qrun s (op :: steps) = (s', tr) ->
  exists d left pc, AInv s l (length (q_calls s)) good s' tr d left pc.
Proof.
  intros Hop M F E. destruct (called_starts op l s Hop) as [ND E1]. cbn [qrun] in E. rewrite E1 in E.
  destruct (qrun _ steps) as [s2 e2] eqn:E2. injection E as <- <-. cbn [app].
  change e2 with ([] ++ e2). eapply (alone_run s l _ ND); [|exact F|exact E2].
  apply (Build_AInv s l (length (q_calls s)) good _ [] [] l QCompare); cbn; auto.
  - apply nth_error_last.
  - intros i [].
  - destruct l; reflexivity.
Qed.
Lemma alone_sends_l op l s steps s' tr : called op l -> q_member s = true ->
  Forall (fun op => exists a b, op = QStep (length (q_calls s)) a b) steps -> qrun s (op :: steps) = (s', tr) -> call_returned s' (length (q_calls s)) ->
  map pair_of tr = map (fun i => (i, q_pos s i)) (filter (wants s) l) /\ q_pos s' = q_pos s /\
  forall i, q_com s' i = q_com s i \/ q_com s' i = q_pos s i /\ In (QCommit i (q_pos s i) true) tr.
Proof.
  intros Hop M F E [pc R]. destruct (alone_called false op l s steps s' tr Hop M) as (d & left & pc' & A); [|exact E|].
  - eapply Forall_impl; [|exact F]. intros op' [a [b ->]]. exists a, b. split; [reflexivity|discriminate].
  - destruct A as [A1 A2 A3 A4 A5 A6 A7]. rewrite R in A1. injection A1 as <- <-. rewrite app_nil_r in A2. subst d. destruct pc; try contradiction.
    split; [exact A7|]. split; [exact A3|]. intros i. destruct (in_dec Nat.eq_dec i l) as [X|X]; [|left; apply A5, X].
    destruct (A6 i X) as [[Y _]|Y]; [left; exact Y|right; exact Y].
Qed.
Lemma alone_sends s n steps s' tr : q_member s = true ->
  Forall (fun op => exists a b, op = QStep (length (q_calls s)) a b) steps -> qrun s (QCall n :: steps) = (s', tr) -> call_returned s' (length (q_calls s)) ->
  map pair_of tr = map (fun i => (i, q_pos s i)) (filter (wants s) (seq 0 n)) /\ q_pos s' = q_pos s /\
  forall i, q_com s' i = q_com s i \/ q_com s' i = q_pos s i /\ In (QCommit i (q_pos s i) true) tr.
Proof. apply alone_sends_l. left. exists n. split; reflexivity. Qed.
Lemma alone_stores_l op l s steps s' tr : called op l -> q_member s = true ->
  Forall (fun op => op = QStep (length (q_calls s)) true true) steps -> qrun s (op :: steps) = (s', tr) -> call_returned s' (length (q_calls s)) ->
  forall i, In i l -> 0 <= q_pos s i -> q_com s' i = q_pos s' i /\ q_pos s' i = q_pos s i /\ (q_pos s i = q_com s i \/ In (QCommit i (q_pos s i) true) tr).
Proof.
  intros Hop M F E [pc R] i L P. destruct (alone_called true op l s steps s' tr Hop M) as (d & left & pc' & A); [|exact E|].
  - eapply Forall_impl; [|exact F]. intros op' ->. exists true, true. split; reflexivity.
  - destruct A as [A1 A2 A3 A4 A5 A6 A7]. rewrite R in A1. injection A1 as <- <-. rewrite app_nil_r in A2. subst d. rewrite A3.
    destruct (A6 i L) as [[Y W]|[Y W]].
    + specialize (W eq_refl). unfold wants in W. apply andb_false_iff in W. destruct W as [W|W]; [|lia].
      apply negb_false_iff, Z.eqb_eq in W. split; [congruence|]. split; [reflexivity|left; exact W].
    + split; [exact Y|]. split; [reflexivity|right; exact W].
Qed.
Lemma alone_stores s n steps s' tr : q_member s = true ->
  Forall (fun op => op = QStep (length (q_calls s)) true true) steps -> qrun s (QCall n :: steps) = (s', tr) -> call_returned s' (length (q_calls s)) ->
  forall i, (i < n)%nat -> 0 <= q_pos s i -> q_com s' i = q_pos s' i /\ q_pos s' i = q_pos s i /\ (q_pos s i = q_com s i \/ In (QCommit i (q_pos s i) true) tr).
Proof. intros M F E R i L. apply (alone_stores_l (QCall n) (seq 0 n) s steps s' tr); try assumption; [left; exists n; split; reflexivity|apply in_seq; lia]. Qed.
(** nothing is sent without a member id *)
Lemma no_member_step s op s' evs : q_member s = false -> op <> QMember true -> qstep s op = (s', evs) -> q_member s' = false /\ evs = [].
Proof.
  intros M N E. destruct op as [i o|b|n|i|k st ok]; cbn in E.
  - injection E as <- <-. auto.
  - destruct b; [congruence|]. injection E as <- <-. auto.
  - injection E as <- <-. auto.
  - injection E as <- <-. auto.
  - destruct (nth_error (q_calls s) k) as [[[|i rest] pc]|]; try (injection E as <- <-; auto).
    unfold call_step, allowed in E. rewrite M in E. cbn [andb] in E. destruct pc; injection E as <- <-; auto.
Qed.
Lemma no_member_run ops : forall s s' tr, q_member s = false -> ~ In (QMember true) ops -> qrun s ops = (s', tr) -> tr = [].
Proof.
  induction ops as [|op ops IH]; intros s s' tr M N E; cbn in E; [injection E as <- <-; reflexivity|].
  destruct (qstep s op) as [s1 e1] eqn:E1. destruct (qrun s1 ops) as [s2 e2] eqn:E2. injection E as <- <-.
  destruct (no_member_step s op s1 e1 M) as (M1 & ->); [intros ->; apply N; left; reflexivity|exact E1|].
  cbn [app]. apply (IH s1 s2 e2 M1); [intros X; apply N; right; exact X|exact E2].
Qed.

(** ** A call ends *)
Definition todo (c : qcall) : nat :=
  match qc_left c with [] => 0 | _ :: r => 4 * length r + match qc_pc c with QCompare => 4 | QKeep => 3 | QAsk _ => 2 | QNote _ => 1 end end%nat.
Lemma todo_step s k c st ok s' evs : nth_error (q_calls s) k = Some c -> qstep s (QStep k st ok) = (s', evs) ->
  exists c', nth_error (q_calls s') k = Some c' /\ (todo c' <= todo c - 1)%nat.
Proof.
  intros K E. cbn [qstep] in E. rewrite K in E. destruct c as [[|i rest] pc].
  - injection E as <- <-. exists (mkQC [] pc). split; [exact K|]. cbn. lia.
  - destruct (call_step s i rest pc st (st && ok)) as [[c' com] e'] eqn:C. injection E as <- <-. exists c'. cbn [q_calls].
    split; [eapply nth_set_same; exact K|]. unfold call_step in C.
    assert (R : (todo (mkQC rest QCompare) <= 4 * length rest)%nat) by (unfold todo; cbn; destruct rest; cbn; lia).
    destruct pc as [| |o|o]; [destruct (q_pos s i =? q_com s i)| |destruct (allowed s o); [destruct (st && ok)|]|]; injection C as <- <- <-;
      try (eapply Nat.le_trans; [exact R|]); cbn; lia.
Qed.
Lemma todo_run k steps : forall s c s' tr, nth_error (q_calls s) k = Some c -> Forall (fun op => exists a b, op = QStep k a b) steps -> qrun s steps = (s', tr) ->
  exists c', nth_error (q_calls s') k = Some c' /\ (todo c' <= todo c - length steps)%nat.
Proof.
  induction steps as [|op steps IH]; intros s c s' tr K F E; cbn in E.
  - injection E as <- <-. exists c. split; [exact K|]. cbn. lia.
  - inversion F as [|? ? [a [b ->]] F']; subst. destruct (qstep s (QStep k a b)) as [s1 e1] eqn:E1. destruct (qrun s1 steps) as [s2 e2] eqn:E2. injection E as <- <-.
    destruct (todo_step _ _ _ _ _ _ _ K E1) as (c1 & K1 & L1). destruct (IH _ _ _ _ K1 F' E2) as (c2 & K2 & L2). exists c2. split; [exact K2|]. cbn. lia.
Qed.
Lemma call_ends s n steps s' tr : Forall (fun op => exists a b, op = QStep (length (q_calls s)) a b) steps -> (4 * n <= length steps)%nat ->
  qrun s (QCall n :: steps) = (s', tr) -> call_returned s' (length (q_calls s)).
Proof.
  intros F L E. cbn [qrun] in E. destruct (qstep s (QCall n)) as [s1 e1] eqn:E1. cbn in E1. injection E1 as <- <-.
  destruct (qrun _ steps) as [s2 e2] eqn:E2. injection E as <- <-.
  assert (X : exists c', nth_error (q_calls s2) (length (q_calls s)) = Some c' /\ (todo c' <= todo (mkQC (seq 0 n) QCompare) - length steps)%nat)
    by (eapply todo_run; [|exact F|exact E2]; apply nth_error_last).
  destruct X as ([l pc] & K & T).
  assert (T0 : todo (mkQC (seq 0 n) QCompare) = (4 * n)%nat) by (unfold todo; cbn; destruct n; cbn; rewrite ?seq_length; lia).
  exists pc. rewrite K. destruct l as [|i r]; [reflexivity|]. exfalso. rewrite T0 in T. unfold todo in T. cbn [qc_left qc_pc] in T. destruct pc; lia.
Qed.
(** ** What the coordinator has after a call alone *)
Lemma stored_from_app i a : forall o b, stored_from o i (a ++ b) = stored_from (stored_from o i a) i b.
Proof. induction a as [|[j v []] a IH]; intros o b; cbn; [reflexivity| |]; apply IH. Qed.
Lemma stored_from_in i v tr : forall o, (forall v' b, In (QCommit i v' b) tr -> v' = v) -> In (QCommit i v true) tr -> stored_from o i tr = Some v.
Proof.
  induction tr as [|[j w st] tr IH]; intros o U H; [destruct H|].
  assert (U' : forall v' b, In (QCommit i v' b) tr -> v' = v) by (intros v' b X; apply (U v' b); right; exact X).
  assert (D : stored_from (Some v) i tr = Some v).
  { clear - U'. induction tr as [|[j w st] tr IH]; [reflexivity|]. cbn.
    assert (X : stored_from (Some v) i tr = Some v) by (apply IH; intros v' b Y; apply (U' v' b); right; exact Y).
    destruct st; [|exact X]. destruct (Nat.eqb_spec i j) as [<-|]; [|exact X]. rewrite (U' w true (or_introl eq_refl)). exact X. }
  destruct H as [H|H].
  - injection H as -> -> ->. cbn. rewrite Nat.eqb_refl. exact D.
  - cbn. destruct st; apply IH; assumption.
Qed.
Lemma alone_has s n steps s' tr o : q_member s = true ->
  Forall (fun op => op = QStep (length (q_calls s)) true true) steps -> qrun s (QCall n :: steps) = (s', tr) -> call_returned s' (length (q_calls s)) ->
  forall i, (i < n)%nat -> 0 <= q_pos s i -> (q_pos s i = q_com s i -> o = Some (q_com s i)) -> stored_from o i tr = Some (q_pos s' i).
Proof.
  intros M F E R i L P O. destruct (alone_stores s n steps s' tr M F E R i L P) as (_ & Q & C).
  assert (F' : Forall (fun op => exists a b, op = QStep (length (q_calls s)) a b) steps) by (eapply Forall_impl; [|exact F]; intros op ->; eauto).
  destruct (alone_sends s n steps s' tr M F' E R) as (S & _ & _).
  assert (U : forall v b, In (QCommit i v b) tr -> v = q_pos s i /\ wants s i = true).
  { intros v b X. apply (in_map pair_of) in X. rewrite S in X. apply in_map_iff in X. destruct X as (j & X1 & X2). cbn in X1. injection X1 as -> <-.
    split; [reflexivity|]. apply filter_In in X2. apply X2. }
  rewrite Q. destruct C as [C|C]; [|apply stored_from_in; [intros v b X; apply (U v b X)|exact C]].
  rewrite (O C), C. assert (N : forall v b, ~ In (QCommit i v b) tr).
  { intros v b X. destruct (U v b X) as [_ W]. unfold wants in W. rewrite C, Z.eqb_refl in W. discriminate W. }
  clear - N. generalize (q_com s i) as z. induction tr as [|[j w st] tr IH]; intros z; [reflexivity|]. cbn.
  destruct (Nat.eqb_spec i j) as [->|]; [exfalso; apply (N w st); left; reflexivity|]. destruct st; apply IH; intros v b X; apply (N v b); right; exact X.
Qed.

(** ** What is taken for committed is stored *)
Definition kept (tr : list qev) (s : qst) : Prop :=
  (forall i, q_com s i = 0 \/ In (QCommit i (q_com s i) true) tr) /\
  forall j i rest o, nth_error (q_calls s) j = Some (mkQC (i :: rest) (QNote o)) -> In (QCommit i o true) tr.
Lemma kept_more tr tr' s : kept tr s -> kept (tr ++ tr') s.
Proof.
  intros [K1 K2]. split.
  - intros i. destruct (K1 i) as [K|K]; [left; exact K|right; apply in_or_app; left; exact K].
  - intros j i rest o H. apply in_or_app. left. exact (K2 j i rest o H).
Qed.
Lemma kept_step tr s op s' evs : qstep s op = (s', evs) -> kept tr s -> kept (tr ++ evs) s'.
Proof.
  intros E K. apply (kept_more _ evs) in K. destruct K as [K1 K2]. destruct op as [i o|b|n|i|k st ok]; cbn in E.
  - injection E as <- <-. split; assumption.
  - injection E as <- <-. split; assumption.
  - injection E as <- <-. split; [exact K1|]. intros j i rest o H. cbn [q_calls] in H. apply nth_last in H. destruct H as [H|H]; [exact (K2 j i rest o H)|discriminate H].
  - injection E as <- <-. split; [exact K1|]. intros j i' rest o H. cbn [q_calls] in H. apply nth_last in H. destruct H as [H|H]; [exact (K2 j i' rest o H)|discriminate H].
  - destruct (nth_error (q_calls s) k) as [[[|i rest] pc]|] eqn:C; try (injection E as <- <-; split; assumption).
    destruct (call_step s i rest pc st (st && ok)) as [[c' com] e'] eqn:S. injection E as <- <-.
    assert (G : (forall i', com i' = q_com s i' \/ In (QCommit i' (com i') true) (tr ++ e')) -> (forall i' r o, c' = mkQC (i' :: r) (QNote o) -> In (QCommit i' o true) (tr ++ e')) ->
      kept (tr ++ e') (mkQ (q_pos s) com (q_member s) (set_call (q_calls s) k c'))).
    { intros G1 G2. split; cbn [q_com q_calls].
      - intros i'. destruct (G1 i') as [X|X]; [|right; exact X]. destruct (K1 i') as [Y|Y]; [left; congruence|right; rewrite X; exact Y].
      - intros j i' r o H. apply nth_set_call in H. destruct H as [[_ H]|H]; [eapply G2; symmetry; exact H|exact (K2 j i' r o H)]. }
    unfold call_step in S. destruct pc as [| |o|o].
    + destruct (q_pos s i =? q_com s i); injection S as <- <- <-; (apply G; [auto|intros ? ? ? X; discriminate X]).
    + injection S as <- <- <-. apply G; [auto|intros ? ? ? X; discriminate X].
    + destruct (allowed s o).
      * destruct (st && ok) eqn:T; injection S as <- <- <-; (apply G; [auto|intros i' r o' X]); [|discriminate X].
        apply andb_prop in T. destruct T as [-> _]. injection X as <- _ <-. apply in_or_app. right. left. reflexivity.
      * injection S as <- <- <-. apply G; [auto|intros ? ? ? X; discriminate X].
    + injection S as <- <- <-. apply G; [|intros ? ? ? X; discriminate X]. intros i'. unfold upd. destruct (Nat.eqb_spec i' i) as [->|]; [right|left; reflexivity].
      exact (K2 k i rest o C).
Qed.
Lemma kept_run ops : forall tr s s' tr', qrun s ops = (s', tr') -> kept tr s -> kept (tr ++ tr') s'.
Proof.
  induction ops as [|op ops IH]; intros tr s s' tr' E K; cbn in E.
  - injection E as <- <-. apply kept_more, K.
  - destruct (qstep s op) as [s1 e1] eqn:E1. destruct (qrun s1 ops) as [s2 e2] eqn:E2. injection E as <- <-. rewrite app_assoc.
    exact (IH _ _ _ _ E2 (kept_step _ _ _ _ _ E1 K)).
Qed.
Lemma known_stored pos member ops s tr i : qrun (qinit pos member) ops = (s, tr) -> q_com s i <> 0 -> In (QCommit i (q_com s i) true) tr.
Proof.
  intros E N. destruct (kept_run ops [] _ _ _ E) as [K _].
  - split; [intros j; left; reflexivity|]. intros j i' r o H. cbn in H. destruct j; discriminate H.
  - destruct (K i) as [K'|K']; [contradiction|exact K'].
Qed.

Lemma tick_alone s i steps s' tr : q_member s = true ->
  Forall (fun op => op = QStep (length (q_calls s)) true true) steps -> qrun s (QTick i :: steps) = (s', tr) -> call_returned s' (length (q_calls s)) -> 0 <= q_pos s i ->
  tr = (if q_pos s i =? q_com s i then [] else [QCommit i (q_pos s i) true]) /\ q_com s' i = q_pos s i.
Proof.
  intros M F E R P. assert (C : called (QTick i) [i]) by (right; exists i; split; reflexivity).
  assert (F' : Forall (fun op => exists a b, op = QStep (length (q_calls s)) a b) steps) by (eapply Forall_impl; [|exact F]; intros op ->; eauto).
  destruct (alone_sends_l _ _ s steps s' tr C M F' E R) as (S & Q & _). destruct (alone_stores_l _ _ s steps s' tr C M F E R i (or_introl eq_refl) P) as (Q1 & Q2 & Q3).
  split; [|congruence]. cbn [filter] in S. unfold wants in S. rewrite (proj2 (Z.leb_le _ _) P), andb_true_r in S.
  destruct (Z.eqb_spec (q_pos s i) (q_com s i)) as [X|X]; cbn [negb map] in S.
  - destruct tr; [reflexivity|discriminate S].
  - destruct tr as [|[j o st] [|]]; try discriminate S. cbn in S. injection S as -> ->. destruct Q3 as [Q3|[Q3|[]]]; [contradiction|]. rewrite Q3. reflexivity.
Qed.
