(** Proofs about the start of the assigned partitions. *)
From Verif Require Import Base BaseFacts Group Gcons GconsSpec GconsFacts AssignedSpec.

Lemma started_app a b : started (a ++ b) = started a ++ started b.
Proof. apply flat_map_app. Qed.

Definition Inv (i : nat) (parts : list (bytes * Z)) (st : list (bytes * Z)) (g : gst) : Prop :=
  g_chan g = false /\
  (exists m, nth_error (g_sess g) i = Some (mkS PDone m) /\ parts = st ++ left_over parts m /\ (m = MWait -> g_sc g = parts /\ st = [])) /\
  forall j s, nth_error (g_sess g) j = Some s -> j <> i -> s_main s = MIdle.

(** a change that keeps the mains, the loop of session [i], closeChan and simpleConsumers *)
Lemma Inv_same i parts st g g' : g_chan g' = g_chan g -> g_sc g' = g_sc g ->
  (forall j, option_map s_main (nth_error (g_sess g') j) = option_map s_main (nth_error (g_sess g) j)) ->
  nth_error (g_sess g') i = nth_error (g_sess g) i -> Inv i parts st g -> Inv i parts st g'.
Proof.
  intros C S M E (I1 & (m & I2 & I3 & I4) & I5). split; [congruence|]. split.
  - exists m. rewrite E. split; [exact I2|]. split; [exact I3|]. rewrite S. exact I4.
  - intros j s N J. specialize (M j). rewrite N in M. cbn in M. destruct (nth_error (g_sess g) j) as [s0|] eqn:N0; [|discriminate].
    cbn in M. injection M as ->. exact (I5 j s0 N0 J).
Qed.
Lemma upd_main : forall (l : list session) j p s k, nth_error l j = Some s ->
  option_map s_main (nth_error (upd j (mkS p (s_main s)) l) k) = option_map s_main (nth_error l k).
Proof.
  induction l as [|x l IH]; intros j p s k H; [destruct j; discriminate|].
  destruct j as [|j]; cbn [nth_error] in H.
  - injection H as ->. destruct k; reflexivity.
  - destruct k; [reflexivity|]. cbn [upd nth_error]. apply IH. exact H.
Qed.
Lemma upd_other {A} : forall (l : list A) j x k, j <> k -> nth_error (upd j x l) k = nth_error l k.
Proof.
  induction l as [|y l IH]; intros j x k H; [destruct j; reflexivity|]. destruct j as [|j], k as [|k]; try reflexivity; [congruence|].
  cbn [upd nth_error]. apply IH. congruence.
Qed.
Lemma upd_same {A} : forall (l : list A) j x y, nth_error l j = Some y -> nth_error (upd j x l) j = Some x.
Proof. induction l as [|z l IH]; intros [|j] x y H; try discriminate; [reflexivity|]. cbn [upd nth_error] in *. apply (IH j x y H). Qed.

Lemma Inv_loop i parts st g j p : j <> i -> Inv i parts st g -> Inv i parts st (set_loop g j p).
Proof.
  intros J. unfold set_loop. destruct (nth_error (g_sess g) j) as [s|] eqn:N; [|auto]. apply Inv_same; cbn; try reflexivity.
  - intros k. apply upd_main. exact N.
  - apply upd_other. exact J.
Qed.
Lemma Inv_fields i parts st g g' : g_chan g' = g_chan g -> g_sc g' = g_sc g -> g_sess g' = g_sess g -> Inv i parts st g -> Inv i parts st g'.
Proof. intros C S E. apply Inv_same; [exact C|exact S|rewrite E; reflexivity|rewrite E; reflexivity]. Qed.
Lemma Inv_set_id i parts st g a b c : Inv i parts st g -> Inv i parts st (set_id g a b c).
Proof. apply Inv_fields; reflexivity. Qed.
Lemma Inv_set_avail i parts st g a b : Inv i parts st g -> Inv i parts st (set_avail g a b).
Proof. apply Inv_fields; reflexivity. Qed.
Lemma Inv_set_joined i parts st g a : Inv i parts st g -> Inv i parts st (set_joined g a).
Proof. apply Inv_fields; reflexivity. Qed.
Lemma Inv_set_gcom i parts st g a : Inv i parts st g -> Inv i parts st (set_gcom g a).
Proof. apply Inv_fields; reflexivity. Qed.
Lemma Inv_join_failed i parts st g e t : Inv i parts st g -> Inv i parts st (join_failed g e t).
Proof. intros H. unfold join_failed. destruct (is_kafka 25 e); destruct (_ || t); auto using Inv_set_id, Inv_set_avail. Qed.

Lemma Inv_step i parts st g op g' evs : undisturbed op -> Inv i parts st g -> gstep g op = Ok (g', evs) -> Inv i parts (st ++ started evs) g'.
Proof.
  intros U H E. pose proof H as (C & (m & N & P & W) & O).
  assert (J : forall j p x, nth_error (g_sess g) j = Some (mkS p x) -> p <> PDone -> j <> i) by (intros j p x Hj Hp ->; rewrite N in Hj; congruence).
  destruct op as [j ans|j|j ans txt|j|j|j ans|j|j|j| | |k|k| | |ans]; cbn [gstep undisturbed] in *; try contradiction.
  - destruct (nth_error (g_sess g) j) as [[[] mm]|] eqn:Nj; try (injection E as <- <-; rewrite app_nil_r; exact H).
    pose proof (J _ _ _ Nj ltac:(discriminate)) as Ji.
    destruct (g_closed g); [unfold done in E; injection E as <- <-; rewrite app_nil_r; apply Inv_loop; assumption|].
    destruct (g_avail g); [injection E as <- <-; rewrite app_nil_r; apply Inv_loop; assumption|].
    destruct ans; try discriminate; injection E as <- <-; rewrite app_nil_r; [apply Inv_loop, Inv_set_avail; assumption|exact H].
  - destruct (nth_error (g_sess g) j) as [[[] mm]|] eqn:Nj; try (injection E as <- <-; rewrite app_nil_r; exact H).
    pose proof (J _ _ _ Nj ltac:(discriminate)) as Ji. cbv zeta in E. 
    destruct (g_closed _); [unfold done in E|]; injection E as <- <-; rewrite app_nil_r; apply Inv_loop, Inv_set_avail; assumption.
  - destruct (nth_error (g_sess g) j) as [[[] mm]|] eqn:Nj; try (injection E as <- <-; rewrite app_nil_r; exact H).
    pose proof (J _ _ _ Nj ltac:(discriminate)) as Ji. destruct ans as [[gen [mm' l]]|e| |]; try discriminate.
    + injection E as <- <-. rewrite app_nil_r. apply Inv_loop, Inv_set_id; assumption.
    + cbv zeta in E. destruct (g_closed _); unfold again in E; injection E as <- <-.
      * rewrite app_nil_r. apply Inv_loop, Inv_join_failed; assumption.
      * replace (started _) with (@nil (bytes * Z)) by (destruct (stays e); reflexivity). rewrite app_nil_r. apply Inv_loop, Inv_join_failed; assumption.
  - destruct (nth_error (g_sess g) j) as [[[] mm]|] eqn:Nj; try (injection E as <- <-; rewrite app_nil_r; exact H).
    pose proof (J _ _ _ Nj ltac:(discriminate)) as Ji. cbv zeta in E.
    destruct (g_closed _); injection E as <- <-; rewrite app_nil_r; apply Inv_loop, Inv_set_id; assumption.
  - destruct (nth_error (g_sess g) j) as [[[] mm]|] eqn:Nj; try (injection E as <- <-; rewrite app_nil_r; exact H).
    pose proof (J _ _ _ Nj ltac:(discriminate)) as Ji. injection E as <- <-; rewrite app_nil_r. apply Inv_loop; assumption.
  - destruct (nth_error (g_sess g) j) as [[p []]|] eqn:Nj; rewrite ?C in E; injection E as <- <-; rewrite app_nil_r; exact H.
  - destruct (nth_error (g_sess g) j) as [[[] []]|] eqn:Nj; try (injection E as <- <-; rewrite app_nil_r; exact H).
    assert (j = i) as -> by (destruct (Nat.eq_dec j i) as [|D]; [assumption|]; specialize (O j _ Nj D); discriminate O).
    rewrite N in Nj. injection Nj as ->. destruct (W eq_refl) as [W1 W2]. injection E as <- <-. rewrite app_nil_r.
    unfold set_main. cbn [set_joined g_sess]. rewrite N. split; [exact C|]. split.
    + exists (MStart (g_sc g)). cbn [set_sess g_sess]. split; [eapply upd_same; exact N|]. split; [|discriminate]. cbn [left_over]. rewrite W1, W2. reflexivity.
    + cbn [set_sess g_sess]. intros k s Nk D. rewrite upd_other in Nk by congruence. exact (O k s Nk D).
  - destruct (nth_error (g_sess g) j) as [[p [|[|q l]|]]|] eqn:Nj; try (injection E as <- <-; rewrite app_nil_r; exact H).
    + assert (j = i) as -> by (destruct (Nat.eq_dec j i) as [|D]; [assumption|]; specialize (O j _ Nj D); discriminate O).
      rewrite N in Nj. injection Nj as <- ->. injection E as <- <-. rewrite app_nil_r. unfold set_main. rewrite N. split; [exact C|]. split.
      * exists MIdle. cbn [set_sess g_sess]. split; [eapply upd_same; exact N|]. split; [exact P|discriminate].
      * cbn [set_sess g_sess]. intros k s Nk D. rewrite upd_other in Nk by congruence. exact (O k s Nk D).
    + assert (j = i) as -> by (destruct (Nat.eq_dec j i) as [|D]; [assumption|]; specialize (O j _ Nj D); discriminate O).
      rewrite N in Nj. injection Nj as <- ->. injection E as <- <-. unfold set_main. cbn [set_sc g_sess]. rewrite N. split; [exact C|]. split.
      * exists (MStart l). cbn [set_sess g_sess]. split; [eapply upd_same; exact N|]. split; [|discriminate]. cbn [left_over started flat_map app] in *.
        rewrite <- app_assoc. exact P.
      * cbn [set_sess g_sess]. intros k s Nk D. rewrite upd_other in Nk by congruence. exact (O k s Nk D).
  - destruct (g_closed g); [|destruct (g_joined g); [destruct (g_coord g); [|discriminate]|]]; injection E as <- <-; rewrite app_nil_r; exact H.
  - destruct (g_member g); injection E as <- <-; rewrite app_nil_r; [exact H|apply Inv_set_gcom; exact H].
  - destruct (nth_error (g_com g) k) as [[]|]; injection E as <- <-; rewrite app_nil_r; exact H.
  - destruct (nth_error (g_com g) k) as [[]|]; try (injection E as <- <-; rewrite app_nil_r; exact H).
    destruct (g_coord g); [|discriminate]. injection E as <- <-. rewrite app_nil_r. apply Inv_set_gcom; exact H.
  - destruct (g_closed g); cbn [negb] in E; [|injection E as <- <-; rewrite app_nil_r; exact H].
    destruct (g_joined g); [|injection E as <- <-; rewrite app_nil_r; exact H]. destruct (g_coord g); [|discriminate].
    destruct ans; try discriminate. injection E as <- <-. rewrite app_nil_r. apply Inv_set_joined, Inv_set_id; exact H.
Qed.
Lemma Inv_run i parts : forall ops st g g' tr, Forall undisturbed ops -> Inv i parts st g -> grun g ops = Ok (g', tr) -> Inv i parts (st ++ started tr) g'.
Proof.
  induction ops as [|op ops IH]; intros st g g' tr U H E; cbn [grun] in E.
  - injection E as <- <-. rewrite app_nil_r. exact H.
  - inversion U; subst. destruct (gstep g op) as [[g1 e1]|e| |] eqn:S; try discriminate. cbn [rbind fst snd] in E.
    destruct (grun g1 ops) as [[g2 t2]|e| |] eqn:R; try discriminate. cbn [rbind fst snd] in E. injection E as <- <-.
    rewrite started_app, app_assoc. eapply IH; [assumption| |exact R]. eapply Inv_step; eassumption.
Qed.
Lemma synced_Inv g i ans g1 evs parts : gstep g (OSyncAns i ans) = Ok (g1, evs) -> In (GSynced i parts) evs -> g_chan g = false -> only_waiting g i ->
  Inv i parts [] g1.
Proof.
  intros E I C ((l & N) & O). cbn [gstep] in E. rewrite N in E. destruct l; try (injection E as <- <-; contradiction I).
  destruct ans as [payload|e| |]; try discriminate.
  - destruct (newMemberAssignment payload) as [m|e| |]; try discriminate.
    + injection E as <- <-. destruct I as [I|[I|[]]]; [injection I as <-|discriminate I]. unfold set_loop. cbn [set_sc g_sess]. rewrite N.
      split; [exact C|]. split.
      * exists MWait. cbn [set_sess g_sess s_main]. split; [eapply upd_same; exact N|]. split; [reflexivity|]. intros _. split; reflexivity.
      * cbn [set_sess g_sess]. intros k s Nk D. rewrite upd_other in Nk by congruence. destruct (s_main s) eqn:M; [| |reflexivity];
          exfalso; apply D; apply (O k s Nk); rewrite M; discriminate.
    + unfold again in E. injection E as <- <-. destruct (stays _); cbn in I; intuition discriminate.
  - unfold again in E. injection E as <- <-. destruct (stays _); cbn in I; intuition discriminate.
Qed.

Theorem assigned_started g i ans g1 evs parts ops g2 tr : gstep g (OSyncAns i ans) = Ok (g1, evs) -> In (GSynced i parts) evs ->
  g_chan g = false -> only_waiting g i -> Forall undisturbed ops -> grun g1 ops = Ok (g2, tr) ->
  exists l m, nth_error (g_sess g2) i = Some (mkS l m) /\ parts = started tr ++ left_over parts m.
Proof.
  intros E I C O U R. destruct (Inv_run i parts ops [] g1 g2 tr U (synced_Inv _ _ _ _ _ _ E I C O) R) as (_ & (m & N & P & _) & _). eauto.
Qed.
Lemma start_rest i : forall l g, nth_error (g_sess g) i = Some (mkS PDone (MStart l)) ->
  exists g', grun g (repeat (OStartOne i) (S (length l))) = Ok (g', map GStarted l) /\ nth_error (g_sess g') i = Some (mkS PDone MIdle).
Proof.
  induction l as [|p l IH]; intros g N.
  - cbn [length repeat grun gstep map]. rewrite N. cbn [rbind fst snd grun]. eexists. split; [reflexivity|]. unfold set_main. rewrite N. cbn [set_sess g_sess s_loop].
    eapply upd_same; exact N.
  - cbn [length]. change (repeat (OStartOne i) (S (S (length l)))) with (OStartOne i :: repeat (OStartOne i) (S (length l))). cbn [grun gstep]. rewrite N.
    cbn [rbind fst snd]. edestruct (IH (set_main (set_sc g (g_sc g) (g_wg g + 1)) i (MStart l))) as (g' & R & N').
    { unfold set_main. cbn [set_sc g_sess]. rewrite N. cbn [set_sess g_sess s_loop]. eapply upd_same; exact N. }
    exists g'. rewrite R. split; [reflexivity|exact N'].
Qed.
Theorem assigned_completed g i ans g1 evs parts ops g2 tr : gstep g (OSyncAns i ans) = Ok (g1, evs) -> In (GSynced i parts) evs ->
  g_chan g = false -> only_waiting g i -> Forall undisturbed ops -> grun g1 ops = Ok (g2, tr) ->
  exists more g3 tr', Forall (fun op => op = OTakeJoined i \/ op = OStartOne i) more /\ grun g2 more = Ok (g3, tr') /\
    started (tr ++ tr') = parts /\ option_map s_main (nth_error (g_sess g3) i) = Some MIdle.
Proof.
  intros E I C O U R. destruct (Inv_run i parts ops [] g1 g2 tr U (synced_Inv _ _ _ _ _ _ E I C O) R) as (_ & (m & N & P & W) & _). cbn [app] in *.
  assert (X : forall l : list (bytes * Z), started (map GStarted l) = l) by (induction l as [|x l IHl]; [reflexivity|cbn; f_equal; exact IHl]).
  destruct m as [|l|].
  - destruct (W eq_refl) as [W1 W2].
    destruct (start_rest i (g_sc g2) (set_main (set_joined g2 true) i (MStart (g_sc g2)))) as (g3 & R3 & N3).
    { unfold set_main. cbn [set_joined g_sess]. rewrite N. cbn [set_sess g_sess s_loop]. eapply upd_same; exact N. }
    exists (OTakeJoined i :: repeat (OStartOne i) (S (length (g_sc g2)))), g3, (map GStarted (g_sc g2)).
    split; [constructor; [auto|]; apply Forall_forall; intros x Hx; apply repeat_spec in Hx; auto|]. split.
    + cbn [grun gstep]. rewrite N. cbn [rbind fst snd]. rewrite R3. reflexivity.
    + split; [rewrite started_app, W2, X; exact W1|rewrite N3; reflexivity].
  - destruct (start_rest i l g2 N) as (g3 & R3 & N3). exists (repeat (OStartOne i) (S (length l))), g3, (map GStarted l).
    split; [apply Forall_forall; intros x Hx; apply repeat_spec in Hx; auto|]. split; [exact R3|]. split; [rewrite started_app, X; symmetry; exact P|rewrite N3; reflexivity].
  - exists [], g2, []. split; [constructor|]. split; [reflexivity|]. rewrite app_nil_r, N. split; [|reflexivity]. cbn [left_over] in P. rewrite app_nil_r in P. symmetry; exact P.
Qed.
