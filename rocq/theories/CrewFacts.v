(** Proofs about the group at work. *)
From Verif Require Import Base BaseFacts Wire Group Gcons GconsSpec GconsFacts GconsLoop Crew.

Lemma put_same {A} f n (x : A) : put f n x n = x.
Proof. unfold put. rewrite Nat.eqb_refl. reflexivity. Qed.
Lemma put_other {A} f n (x : A) k : k <> n -> put f n x k = f k.
Proof. intros H. unfold put. destruct (Nat.eqb_spec k n); [contradiction|reflexivity]. Qed.
Lemma in_without k n l : In k (without n l) <-> In k l /\ k <> n.
Proof.
  unfold without. rewrite filter_In. destruct (Nat.eqb_spec k n); cbn [negb]; intuition congruence.
Qed.
Lemma same_part_eq a b : same_part a b = true <-> a = b.
Proof.
  destruct a as [a i], b as [b j]. unfold same_part. cbn [fst snd]. split.
  - intros H. apply andb_prop in H. destruct H as [H1 H2]. apply beqb_true in H1. apply Z.eqb_eq in H2. congruence.
  - intros H. injection H as -> ->. rewrite beqb_refl, Z.eqb_refl. reflexivity.
Qed.
Lemma filter_gone run sc : incl run sc -> filter (fun p => negb (existsb (same_part p) sc)) run = [].
Proof.
  intros H. induction run as [|p run IH]; [reflexivity|]. cbn [filter].
  assert (E : existsb (same_part p) sc = true).
  { apply existsb_exists. exists p. split; [apply H; left; reflexivity|apply same_part_eq; reflexivity]. }
  rewrite E. cbn [negb]. apply IH. intros x Hx. apply H. right. exact Hx.
Qed.

(** ** One member *)
(** its partition consumers are those in simpleConsumers *)
Definition Rmem (g : gst) (run : list part) : Prop :=
  (g_closed g = false -> incl run (g_sc g) /\ forall s k, In s (g_sess g) -> s_main s = MStart k -> incl k (g_sc g)) /\
  (g_closed g = true -> run = []).
Definition asking (l : lphase) : Prop := match l with PSet _ _ | PSync | PSyncWait => True | _ => False end.
(** what it has is what the coordinator gave it in this generation *)
Definition Rco (w : crew) (n : nat) : Prop :=
  let g := w_g w n in
  (g_closed g = false -> g_sc g <> [] -> In n (w_members w) /\ ~ In n (w_joined w) /\ incl (g_sc g) (w_asg w n)) /\
  (forall s, In s (g_sess g) -> asking (s_loop s) -> g_gen g <= w_gen w /\ (In n (w_joined w) -> g_gen g < w_gen w)).
Definition Rcrew (w : crew) : Prop :=
  (forall n, (exists tr, Isafe (w_g w n) tr) /\ Rmem (w_g w n) (w_run w n) /\ Rco w n) /\
  disjoint (w_members w) (w_asg w).

Lemma running_keeps g g' evs run : length (g_sess g') = length (g_sess g) -> existsb (fun e => match e with GClosing => true | _ => false end) evs = false ->
  starts evs = [] -> running g g' evs run = run.
Proof.
  intros H1 H2 H3. unfold running, stops. rewrite H1, H2, H3, Nat.ltb_irrefl, app_nil_r. reflexivity.
Qed.
Lemma in_upd {A} i (x y : A) l : In y (upd i x l) -> y = x \/ In y l.
Proof.
  revert i. induction l as [|h l IH]; intros i H; cbn [upd] in H; [destruct i; contradiction|].
  destruct i; cbn [In] in *; destruct H as [H|H]; auto. apply IH in H. tauto.
Qed.
Lemma trans_sc g op g' evs : gtrans g op g' evs ->
  g_sc g' = g_sc g \/ g_sc g' = [] \/
  exists i b ma s, op = OSyncAns i (Ok b) /\ newMemberAssignment b = Ok ma /\ g_sc g' = parts_of ma /\ In s (g_sess g) /\ s_loop s = PSyncWait.
Proof.
  intros T. destruct T; try (left; reflexivity); try (right; left; reflexivity).
  - left. apply (proj1 (proj2 (proj2 (proj2 (proj2 (proj2 (join_failed_fields g e txt))))))).
  - left. apply (proj1 (proj2 (proj2 (proj2 (proj2 (proj2 (join_failed_fields g e txt))))))).
  - left. apply (proj1 (proj2 (proj2 (proj2 (proj2 (proj2 (sync_failed_fields g e))))))).
  - right; right. exists i, b, ma, (mkS PSyncWait m). repeat split; auto. eapply nth_error_In. eassumption.
Qed.
Lemma trans_closed g op g' evs : gtrans g op g' evs ->
  g_closed g' = g_closed g \/ op = OClose /\ g_closed g' = true /\ evs = [GClosing] /\ g_sess g' = g_sess g /\ g_sc g' = [].
Proof.
  intros T. destruct T; try (left; reflexivity).
  - left. apply join_failed_closed.
  - left. apply join_failed_closed.
  - left. apply sync_failed_closed.
  - right. repeat split.
Qed.
Lemma trans_gen g op g' evs : gtrans g op g' evs ->
  g_gen g' = g_gen g \/ exists i gen mm l txt, op = OJoinAns i (Ok (gen, (mm, l))) txt /\ g_gen g' = gen.
Proof.
  intros T. destruct T; try (left; reflexivity).
  - left. apply (proj1 (proj2 (join_failed_fields g e txt))).
  - left. apply (proj1 (proj2 (join_failed_fields g e txt))).
  - right. exists i, n, mm, l, txt. split; reflexivity.
  - left. apply (proj1 (proj2 (sync_failed_fields g e))).
Qed.
Lemma trans_asking g op g' evs s' : gtrans g op g' evs -> In s' (g_sess g') -> asking (s_loop s') ->
  (exists i gen mm l txt, op = OJoinAns i (Ok (gen, (mm, l))) txt /\ g_gen g' = gen) \/
  (g_gen g' = g_gen g /\ exists s, In s (g_sess g) /\ asking (s_loop s)).
Proof.
  intros T H A.
  assert (Keep : forall i s x, nth_error (g_sess g) i = Some s -> (asking (s_loop x) -> asking (s_loop s)) ->
     In s' (upd i x (g_sess g)) -> exists s0, In s0 (g_sess g) /\ asking (s_loop s0)).
  { intros i s x N I H'. apply in_upd in H'. destruct H' as [->|H'].
    - exists s. split; [eapply nth_error_In; exact N|auto].
    - exists s'. auto. }
  assert (Q : (exists i gen mm l txt, op = OJoinAns i (Ok (gen, (mm, l))) txt /\ g_gen g' = gen) \/ exists s, In s (g_sess g) /\ asking (s_loop s)).
  { destruct T; cbn [setl set_sess g_sess set_avail set_close set_joined set_id set_sc set_gcom] in H;
      rewrite ?join_failed_sess, ?sync_failed_sess in H;
      try (right; eapply Keep; [eassumption| |exact H]; cbn [s_loop asking]; intros X; try exact X; try exact I; try contradiction; fail);
      try (right; exists s'; split; assumption).
    - left. exists i, n, mm, l, txt. split; reflexivity.
    - right. apply in_app_or in H. destruct H as [H|[<-|[]]]; [exists s'; auto|contradiction]. }
  destruct Q as [Q|Q]; [left; exact Q|].
  destruct (trans_gen _ _ _ _ T) as [E|E]; [right; split; assumption|left; exact E].
Qed.
Lemma trans_joins g tr op g' evs : Isafe g tr -> gtrans g op g' evs -> joins evs = true ->
  g_sc g' = [] /\ forall s, In s (g_sess g') -> ~ asking (s_loop s).
Proof.
  intros (old & l & m & Hi) T J. destruct Hi as [Is Io _ _ _ _ _ Ih _].
  destruct T; try discriminate J; try (destruct H1 as [-> | ->]; discriminate J); try (destruct H0 as [-> | ->]; discriminate J).
  last_session Is Io. destruct (Ih H0) as (_ & C & _). destruct m0; cbn [counts] in C; try contradiction.
  split; [exact (proj1 C)|]. flat. rewrite Is, upd_last. intros s Hs A. apply in_app_or in Hs. destruct Hs as [Hs|[<-|[]]]; [|exact A].
  rewrite Forall_forall in Io. apply Io in Hs. rewrite Hs in A. exact A.
Qed.
Lemma trans_leaves g op g' evs : gtrans g op g' evs -> leaves evs = true -> g_closed g' = true.
Proof.
  intros T J. destruct T; try discriminate J; try (destruct H1 as [-> | ->]; discriminate J); try (destruct H0 as [-> | ->]; discriminate J).
  exact H.
Qed.

Lemma mem_step g tr op g' evs run : orderly g op -> Isafe g tr -> gtrans g op g' evs -> Rmem g run -> Rmem g' (running g g' evs run).
Proof.
  intros Ho (old & l & m & Hi) T [R1 R2]. destruct Hi as [Is Io _ _ _ _ _ Ih Il].
  assert (Len : forall i x, length (g_sess (setl g i (s_loop x) (s_main x))) = length (g_sess g))
    by (intros; unfold setl; flat; apply upd_length).
  assert (MM : forall i p0 p m0, nth_error (g_sess g) i = Some (mkS p0 m0) -> g_closed g = false ->
     forall s k, In s (upd i (mkS p m0) (g_sess g)) -> s_main s = MStart k -> incl k (g_sc g)).
  { intros i p0 p m0 N C s k Hs Hm. apply in_upd in Hs. destruct Hs as [->|Hs].
    - cbn [s_main] in Hm. eapply (proj2 (R1 C)); [eapply nth_error_In; exact N|exact Hm].
    - eapply (proj2 (R1 C)); eassumption. }
  assert (Same : forall g' : gst, g_closed g' = g_closed g -> g_sc g' = g_sc g ->
    (g_closed g = false -> forall s k, In s (g_sess g') -> s_main s = MStart k -> incl k (g_sc g)) -> Rmem g' run).
  { intros h Hc Hs Hm. split; rewrite Hc; [|exact R2]. intros C. rewrite Hs. split; [exact (proj1 (R1 C))|exact (Hm C)]. }
  destruct T; cbn [orderly] in Ho;
   try (rewrite running_keeps by (try reflexivity; flat; rewrite ?join_failed_sess, ?sync_failed_sess; try apply upd_length;
          try (destruct H1 as [-> | ->]; reflexivity); try (destruct H0 as [-> | ->]; reflexivity));
        apply Same; [flat; rewrite ?join_failed_closed, ?sync_failed_closed; reflexivity
                    |flat; try reflexivity;
                     try apply (proj1 (proj2 (proj2 (proj2 (proj2 (proj2 (join_failed_fields g e txt)))))));
                     try apply (proj1 (proj2 (proj2 (proj2 (proj2 (proj2 (sync_failed_fields g e)))))))
                    |flat; rewrite ?join_failed_sess, ?sync_failed_sess; intros C; first [eapply MM; eassumption|exact (proj2 (R1 C))]]; fail).
  - (* sync answered *)
    rewrite running_keeps by (try reflexivity; flat; apply upd_length). last_session Is Io.
    split; intros C; flat; cbn [setl set_sess set_sc g_closed] in C; [|exact (R2 C)].
    destruct (Ih C) as (_ & K & _). destruct m0; cbn [counts] in K; try contradiction.
    destruct (R1 C) as [R _]. rewrite (proj1 K) in R. split.
    + intros x Hx. destruct (R x Hx).
    + rewrite Is, upd_last. intros s k Hs Hm. apply in_app_or in Hs. destruct Hs as [Hs|[<-|[]]]; [|discriminate Hm].
      rewrite Forall_forall in Io. apply Io in Hs. rewrite Hs in Hm. discriminate Hm.
  - (* the close token *)
    rewrite running_keeps by (try reflexivity; flat; apply upd_length).
    apply Same; try reflexivity. flat. intros C s k Hs Hm. apply in_upd in Hs. destruct Hs as [->|Hs]; [discriminate Hm|].
    eapply (proj2 (R1 C)); eassumption.
  - (* joined *)
    rewrite running_keeps by (try reflexivity; flat; apply upd_length).
    apply Same; try reflexivity. flat. intros C s k Hs Hm. apply in_upd in Hs. destruct Hs as [->|Hs].
    + cbn [s_main] in Hm. injection Hm as <-. apply incl_refl.
    + eapply (proj2 (R1 C)); eassumption.
  - (* one is started *)
    assert (C : g_closed g = false).
    { destruct (g_closed g) eqn:C; [|reflexivity]. destruct (Il eq_refl) as (_ & _ & _ & _ & N).
      assert (Hin : In (mkS p (MStart (x :: l0))) (g_sess g)) by (eapply nth_error_In; eassumption).
      rewrite Is in Hin. apply in_app_or in Hin. destruct Hin as [Hin|[Hin|[]]].
      - rewrite Forall_forall in Io. apply Io in Hin. discriminate Hin.
      - injection Hin as _ ->. destruct N. }
    unfold running, stops. flat. rewrite upd_length, Nat.ltb_irrefl. cbn [orb existsb starts flat_map app].
    assert (Hx : incl (x :: l0) (g_sc g)).
    { eapply (proj2 (R1 C)); [eapply nth_error_In; eassumption|reflexivity]. }
    split; [intros _|intros C'; cbn [setl set_sess set_sc g_closed] in C'; congruence]. flat. split.
    + apply incl_app; [exact (proj1 (R1 C))|]. intros y [<-|[]]. apply Hx. left. reflexivity.
    + intros s k Hs Hm. apply in_upd in Hs. destruct Hs as [->|Hs].
      * cbn [s_main] in Hm. injection Hm as <-. intros y Hy. apply Hx. right. exact Hy.
      * eapply (proj2 (R1 C)); eassumption.
  - (* all are started *)
    rewrite running_keeps by (try reflexivity; flat; apply upd_length).
    apply Same; try reflexivity. flat. intros C s k Hs Hm. apply in_upd in Hs. destruct Hs as [->|Hs]; [discriminate Hm|].
    eapply (proj2 (R1 C)); eassumption.
  - (* restart *)
    unfold running, stops. flat. rewrite app_length. cbn [length].
    assert ((length (g_sess g) <? length (g_sess g) + 1)%nat = true) as -> by (apply Nat.ltb_lt; lia).
    cbn [orb starts flat_map]. rewrite app_nil_r.
    assert (E : filter (fun p => negb (existsb (same_part p) (g_sc g))) run = []).
    { destruct (g_closed g) eqn:C; [rewrite (R2 eq_refl); reflexivity|apply filter_gone; exact (proj1 (R1 eq_refl))]. }
    rewrite E. split; [|reflexivity]. intros C. flat. split; [intros y []|]. intros s k Hs Hm.
    apply in_app_or in Hs. destruct Hs as [Hs|[<-|[]]]; [|discriminate Hm].
    rewrite Forall_forall in Ho. apply Ho in Hs. rewrite Hs in Hm. discriminate Hm.
  - (* close *)
    unfold running, stops. flat. rewrite Nat.ltb_irrefl. cbn [orb existsb starts flat_map]. rewrite app_nil_r.
    assert (E : filter (fun p => negb (existsb (same_part p) (g_sc g))) run = []).
    { destruct (g_closed g) eqn:C; [rewrite (R2 eq_refl); reflexivity|apply filter_gone; exact (proj1 (R1 eq_refl))]. }
    rewrite E. split; [intros C; discriminate C|reflexivity].
Qed.

(** ** The group *)
Lemma crew_init : Rcrew winit.
Proof.
  split; [|intros n n' p []]. intros n. split; [exists []; apply safe_init|]. split.
  - split; intros C; [|discriminate C]. split; [intros x []|]. cbn. intros s k [<-|[]] Hm. discriminate Hm.
  - split; [intros _ X; contradiction|]. cbn. intros s [<-|[]] [].
Qed.
Lemma crew_member w n op g' evs : Rcrew w -> orderly (w_g w n) op -> answers w n op -> gtrans (w_g w n) op g' evs ->
  forall w', w_gen w' = w_gen w -> w_asg w' = w_asg w ->
  w_members w' = (if leaves evs then without n (w_members w) else w_members w) ->
  w_joined w' = (if joins evs then n :: without n (w_joined w) else if leaves evs then without n (w_joined w) else w_joined w) ->
  w_g w' = put (w_g w) n g' -> w_run w' = put (w_run w) n (running (w_g w n) g' evs (w_run w n)) ->
  gstep (w_g w n) op = Ok (g', evs) -> Rcrew w'.
Proof.
  intros [R D] Ho Ha T w' Eg Ea Em Ej Ew Er Es. split.
  - intros k. destruct (Nat.eq_dec k n) as [->|Hk].
    + destruct (R n) as ((tr & I) & M & C1 & C2).
      rewrite Ew, Er, !put_same. split; [|split].
      * exists (tr ++ evs). eapply safe_step; eassumption.
      * eapply mem_step; eassumption.
      * unfold Rco. rewrite Ew, put_same, Eg, Ea. split.
        -- intros Cl Sc.
           assert (C : g_closed (w_g w n) = false).
           { destruct (trans_closed _ _ _ _ T) as [X|(_ & X & _)]; congruence. }
           destruct (joins evs) eqn:J; [destruct (trans_joins _ _ _ _ _ I T J); contradiction|].
           destruct (leaves evs) eqn:L; [rewrite (trans_leaves _ _ _ _ T L) in Cl; discriminate|].
           rewrite Em, Ej.
           destruct (trans_sc _ _ _ _ T) as [X|[X|(i & b & ma & s & -> & N & X & Hs & P)]]; [|contradiction|].
           ++ rewrite X in *. exact (C1 C Sc).
           ++ cbn [answers] in Ha. destruct Ha as (A1 & A2 & A3). split; [exact A1|]. split.
              ** intros Jn. destruct (C2 s Hs) as [_ Y]; [rewrite P; exact Logic.I|]. specialize (Y Jn). lia.
              ** rewrite X, (A3 ma N). apply incl_refl.
        -- intros s Hs As.
           destruct (joins evs) eqn:J; [destruct (trans_joins _ _ _ _ _ I T J) as [_ N]; destruct (N s Hs As)|].
           assert (Sub : In n (w_joined w') -> In n (w_joined w)).
           { rewrite Ej. destruct (leaves evs); [|auto]. intros Y. apply in_without in Y. tauto. }
           destruct (trans_asking _ _ _ _ s T Hs As) as [(i & gen & mm & l & txt & -> & G)|(G & s0 & Hs0 & As0)].
           ++ cbn [answers] in Ha. rewrite G. destruct Ha as [Ha|(Ha & _ & Hb)]; [split; [lia|intros _; lia]|].
              split; [lia|]. intros Y. destruct (Hb (Sub Y)).
           ++ rewrite G. destruct (C2 s0 Hs0 As0) as [Y Z]. split; [exact Y|]. intros Q. apply Z, Sub, Q.
    + destruct (R k) as (I & M & C1 & C2). rewrite Ew, Er, !put_other by exact Hk. split; [exact I|]. split; [exact M|].
      assert (SubJ : In k (w_joined w') -> In k (w_joined w)).
      { rewrite Ej. destruct (joins evs); [|destruct (leaves evs)]; cbn [In]; intros Y; [|apply in_without in Y; tauto|exact Y].
        destruct Y as [->|Y]; [contradiction|]. apply in_without in Y. tauto. }
      assert (SubM : In k (w_members w) -> In k (w_members w')).
      { rewrite Em. destruct (leaves evs); [|auto]. intros Y. apply in_without. split; assumption. }
      unfold Rco. rewrite Ew, put_other, Eg, Ea by exact Hk. split.
      * intros Cl Sc. destruct (C1 Cl Sc) as (X1 & X2 & X3). repeat split; auto.
      * intros s Hs As. destruct (C2 s Hs As) as [X1 X2]. split; auto.
  - rewrite Ea. intros a b p Ha' Hb'. apply D; revert Ha' Hb'; rewrite Em; destruct (leaves evs); auto;
      intros X Y; apply in_without in X; apply in_without in Y; tauto.
Qed.
Lemma crew_keep w w' : Rcrew w -> w_gen w' = w_gen w -> w_asg w' = w_asg w -> w_members w' = w_members w -> w_joined w' = w_joined w ->
  w_run w' = w_run w -> (forall n, exists c, w_g w' n = set_gcom (w_g w n) c) -> (forall n, exists tr, Isafe (w_g w' n) tr) -> Rcrew w'.
Proof.
  intros [R D] Eg Ea Em Ej Er Ew Is. split; [|rewrite Ea, Em; exact D]. intros n. destruct (R n) as (_ & M & C).
  split; [apply Is|]. destruct (Ew n) as (c & E). unfold Rmem, Rco in *. rewrite E, Er, Eg, Ea, Em, Ej. flat.
  split; [exact M|exact C].
Qed.
Lemma crew_step w op w' evs : fair w op -> Rcrew w -> wstep w op = Ok (w', evs) -> Rcrew w'.
Proof.
  intros Hf HR E. destruct op as [n op|n p|asg|n]; cbn [wstep fair] in *.
  - destruct (gstep (w_g w n) op) as [[g' ge]|?| |] eqn:G; try discriminate. cbn [rbind] in E. injection E as <- _.
    destruct Hf as (_ & Ho & Ha). destruct (gstep_trans _ _ _ _ G) as [[-> ->]|T].
    + destruct HR as [R D]. split; [|exact D]. intros k. destruct (R k) as (I & M & C).
      unfold Rco. cbn [w_g w_run w_members w_joined w_asg w_gen joins leaves existsb].
      destruct (Nat.eq_dec k n) as [->|Hk]; [rewrite !put_same|rewrite !put_other by exact Hk]; split; try exact I; split; try exact C; try exact M.
      rewrite running_keeps by reflexivity. exact M.
    + eapply (crew_member w n op g' ge); try reflexivity; try eassumption.
  - destruct (gstep (w_g w n) OCheck) as [[g' ge]|?| |] eqn:G; try discriminate. cbn [rbind] in E. injection E as <- _.
    assert (Q : exists c, g' = set_gcom (w_g w n) c).
    { cbn [gstep] in G. destruct (g_member (w_g w n)); injection G as <- _; [|eexists; reflexivity].
      exists (g_com (w_g w n)). destruct (w_g w n); reflexivity. }
    eapply crew_keep; [exact HR|reflexivity..| |]; cbn [w_g].
    + intros k. destruct (Nat.eq_dec k n) as [->|Hk]; [rewrite put_same; exact Q|rewrite put_other by exact Hk].
      exists (g_com (w_g w k)). destruct (w_g w k); reflexivity.
    + intros k. destruct (proj1 HR k) as ((tr & I) & _). destruct (Nat.eq_dec k n) as [->|Hk]; [rewrite put_same|rewrite put_other by exact Hk; exists tr; exact I].
      exists (tr ++ ge). eapply safe_step; [|exact I|exact G]. exact Logic.I.
  - injection E as <- _. destruct HR as [R D]. destruct Hf as [Hi Hd]. split; [|exact Hd].
    intros n. destruct (R n) as (I & M & C1 & C2). split; [exact I|]. split; [exact M|]. unfold Rco.
    cbn [w_g w_members w_joined w_asg w_gen]. split.
    + intros Cl Sc. destruct (C1 Cl Sc) as (X1 & X2 & _). destruct (X2 (Hi n X1)).
    + intros s Hs As. destruct (C2 s Hs As) as [X _]. split; [lia|intros []].
  - injection E as <- _. destruct HR as [R D]. split.
    + intros k. destruct (R k) as (I & M & C1 & C2). split; [exact I|]. split; [exact M|]. unfold Rco.
      cbn [w_g w_members w_joined w_asg w_gen]. split.
      * intros Cl Sc. destruct (C1 Cl Sc) as (X1 & X2 & X3).
        destruct (Nat.eq_dec k n) as [->|Hk]; [destruct Hf as [Hf|[Hf _]]; [congruence|contradiction]|].
        rewrite !in_without. tauto.
      * intros s Hs As. destruct (C2 s Hs As) as [X1 X2]. split; [exact X1|]. intros Y. apply in_without in Y. tauto.
    + intros a b p Ha Hb. cbn [w_members w_asg] in *. apply in_without in Ha. apply in_without in Hb. apply D; tauto.
Qed.
Lemma crew_run ops : forall w w' evs, wguarded fair w ops -> Rcrew w -> wrun w ops = Ok (w', evs) -> Rcrew w'.
Proof.
  induction ops as [|op ops IH]; intros w w' evs Hg HR E; cbn [wrun wguarded] in *; [injection E as <- _; exact HR|].
  destruct Hg as [Hf Hg]. destruct (wstep w op) as [[w1 e1]|?| |] eqn:E1; try discriminate. cbn [rbind fst snd] in *.
  destruct (wrun w1 ops) as [[w2 e2]|?| |] eqn:E2; try discriminate. cbn [rbind fst snd] in E. injection E as <- _.
  eapply IH; [exact Hg| |exact E2]. eapply crew_step; eassumption.
Qed.
Lemma crew_has w n p : Rcrew w -> In p (w_run w n) -> In n (w_members w) /\ In p (w_asg w n).
Proof.
  intros [R _] H. destruct (R n) as (_ & [M1 M2] & C1 & _).
  destruct (g_closed (w_g w n)) eqn:C; [rewrite (M2 eq_refl) in H; destruct H|].
  destruct (M1 eq_refl) as [M _]. specialize (M p H). destruct (C1 eq_refl) as (X1 & _ & X3); [intros X; rewrite X in M; destruct M|].
  split; [exact X1|exact (X3 p M)].
Qed.
Lemma exclusive ops w evs : wguarded fair winit ops -> wrun winit ops = Ok (w, evs) ->
  forall n n' p, In p (w_run w n) -> In p (w_run w n') -> n = n'.
Proof.
  intros Hg Hr n n' p H H'. pose proof (crew_run _ _ _ _ Hg crew_init Hr) as R.
  destruct (crew_has _ _ _ R H) as [A B]. destruct (crew_has _ _ _ R H') as [A' B'].
  eapply (proj2 R); eassumption.
Qed.
Lemma owns_assigned ops w evs : wguarded fair winit ops -> wrun winit ops = Ok (w, evs) ->
  forall n p, In p (w_run w n) -> In n (w_members w) /\ In p (w_asg w n).
Proof. intros Hg Hr n p. apply crew_has. eapply crew_run; [exact Hg|exact crew_init|exact Hr]. Qed.
Lemma no_crash ops : forall w, wguarded fair w ops -> Rcrew w -> exists r, wrun w ops = Ok r.
Proof.
  induction ops as [|op ops IH]; intros w Hg HR; cbn [wrun wguarded] in *; [eexists; reflexivity|].
  destruct Hg as [Hf Hg].
  assert (Q : exists r, wstep w op = Ok r).
  { destruct op as [n op|n p|asg|n]; cbn [wstep fair] in *; try (eexists; reflexivity).
    - destruct (proj1 HR n) as ((tr & I) & _). destruct (safe_progress _ _ op (proj1 (proj2 Hf)) I) as ([g' ge] & ->). eexists. reflexivity.
    - destruct (proj1 HR n) as ((tr & I) & _). destruct (safe_progress (w_g w n) tr OCheck Logic.I I) as ([g' ge] & ->). eexists. reflexivity. }
  destruct Q as ([w1 e1] & E1). rewrite E1 in *. cbn [rbind fst snd] in *.
  destruct (IH w1 Hg) as ([w2 e2] & ->); [eapply crew_step; eassumption|]. eexists. reflexivity.
Qed.

(** ** Commits *)
Definition Rcom (w : crew) : Prop := forall n, length (w_com w n) = length (g_com (w_g w n)) /\ incl (w_com w n) (w_run w n).
Lemma del_length {A} k (l : list A) x : nth_error l k = Some x -> S (length (del k l)) = length l.
Proof. revert k. induction l as [|h l IH]; intros [|k] H; cbn in *; try discriminate; [reflexivity|]. rewrite (IH k H). reflexivity. Qed.
Lemma del_same_length {A B} k (l : list A) (l' : list B) : length l = length l' -> length (del k l) = length (del k l').
Proof.
  revert k l'. induction l as [|h l IH]; intros k [|h' l'] H; try discriminate; [destruct k; reflexivity|].
  destruct k; cbn in *; [lia|]. f_equal. apply IH. lia.
Qed.
Lemma del_incl {A} k (l : list A) : incl (del k l) l.
Proof.
  revert k. induction l as [|h l IH]; intros [|k] x H; cbn in *; auto. destruct H as [->|H]; [left; reflexivity|right; eapply IH; exact H].
Qed.
Lemma trans_com g op g' evs : gtrans g op g' evs -> op <> OCheck ->
  (length (g_com g') = length (g_com g) /\ sends op evs = None) \/ exists k, sends op evs = Some k /\ g_com g' = del k (g_com g).
Proof.
  intros T N. destruct T; try (left; split; reflexivity); try contradiction.
  - left. split; [|reflexivity]. f_equal. apply (proj1 (proj2 (proj2 (proj2 (proj2 (proj2 (proj2 (proj2 (join_failed_fields g e txt))))))))).
  - left. split; [|reflexivity]. f_equal. apply (proj1 (proj2 (proj2 (proj2 (proj2 (proj2 (proj2 (proj2 (join_failed_fields g e txt))))))))).
  - left. split; [|reflexivity]. f_equal. apply (proj1 (proj2 (proj2 (proj2 (proj2 (proj2 (proj2 (proj2 (sync_failed_fields g e))))))))).
  - left. split; [|reflexivity]. flat. apply upd_length.
  - right. exists k. split; reflexivity.
Qed.
Lemma trans_running g op g' evs run : gtrans g op g' evs -> (op <> ORestart /\ op <> OClose) -> incl run (running g g' evs run).
Proof.
  intros T [N1 N2]. assert (Q : stops g g' evs = false).
  { destruct T; try contradiction; unfold stops; flat; rewrite ?join_failed_sess, ?sync_failed_sess, ?upd_length, Nat.ltb_irrefl; try reflexivity;
      try (destruct H1 as [-> | ->]; reflexivity); try (destruct H0 as [-> | ->]; reflexivity). }
  unfold running. rewrite Q. intros x Hx. apply in_or_app. left. exact Hx.
Qed.
Lemma com_step w op w' evs : fair w op -> committed w op -> Rcom w -> wstep w op = Ok (w', evs) ->
  Rcom w' /\ forall n p a, In (WCommit n p a) evs -> In p (w_run w n).
Proof.
  intros Hf Hc R E. destruct op as [n op|n p|asg|n]; cbn [wstep fair committed] in *.
  - destruct (gstep (w_g w n) op) as [[g' ge]|?| |] eqn:G; try discriminate. cbn [rbind] in E. injection E as <- <-.
    destruct Hf as (Hn & _). destruct (R n) as [R1 R2].
    split.
    + intros k. cbn [w_com w_g w_run]. destruct (Nat.eq_dec k n) as [->|Hk]; [rewrite !put_same|rewrite !put_other by exact Hk; apply R].
      destruct (gstep_trans _ _ _ _ G) as [[-> ->]|T].
      { assert (Hs : sends op [] = None) by (destruct op; reflexivity). rewrite Hs, running_keeps by reflexivity. split; assumption. }
      assert (Hr : incl (w_com w n) (running (w_g w n) g' ge (w_run w n))).
      { assert (Z : (op <> ORestart /\ op <> OClose) \/ g_com (w_g w n) = []) by (destruct op; auto; left; split; discriminate).
        destruct Z as [Z|Z].
        - eapply incl_tran; [exact R2|eapply trans_running; eassumption].
        - rewrite Z in R1. destruct (w_com w n); [intros x []|discriminate]. }
      destruct (trans_com _ _ _ _ T Hn) as [[L ->]|(i & -> & L)].
      * split; [congruence|exact Hr].
      * rewrite L. split; [apply del_same_length; exact R1|]. eapply incl_tran; [apply del_incl|exact Hr].
    + intros m p a H. destruct (sends op ge) as [k|]; [|destruct H]. destruct (nth_error (w_com w n) k) as [q|] eqn:N; [|destruct H].
      destruct H as [H|[]]. injection H as <- <- _. apply R2. eapply nth_error_In. exact N.
  - destruct (gstep (w_g w n) OCheck) as [[g' ge]|?| |] eqn:G; try discriminate. cbn [rbind] in E. injection E as <- <-.
    split; [|intros ? ? ? []]. intros k. cbn [w_com w_g w_run].
    destruct (Nat.eq_dec k n) as [->|Hk]; [rewrite !put_same|rewrite !put_other by exact Hk; apply R].
    destruct (R n) as [R1 R2]. cbn [gstep] in G. destruct (g_member (w_g w n)) eqn:Mm; injection G as <- _.
    + rewrite Nat.ltb_irrefl. split; assumption.
    + cbn [set_gcom g_com]. rewrite app_length. cbn [length].
      assert ((length (g_com (w_g w n)) <? length (g_com (w_g w n)) + 1)%nat = true) as -> by (apply Nat.ltb_lt; lia).
      rewrite app_length. cbn [length]. split; [lia|]. apply incl_app; [exact R2|]. intros x [<-|[]]. exact Hf.
  - injection E as <- <-. split; [exact R|intros ? ? ? []].
  - injection E as <- <-. split; [exact R|intros ? ? ? []].
Qed.
Definition careful (w : crew) (op : wop) : Prop := fair w op /\ committed w op.
Lemma wguarded_weak (P Q : crew -> wop -> Prop) : (forall w op, P w op -> Q w op) -> forall ops w, wguarded P w ops -> wguarded Q w ops.
Proof.
  intros H. induction ops as [|op ops IH]; intros w G; cbn [wguarded] in *; [exact I|]. destruct G as [G1 G2].
  split; [apply H; exact G1|]. destruct (wstep w op); auto.
Qed.
Lemma com_run ops : forall w w' evs, wguarded careful w ops -> Rcom w -> wrun w ops = Ok (w', evs) -> Rcom w'.
Proof.
  induction ops as [|op ops IH]; intros w w' evs Hg HR E; cbn [wrun wguarded] in *; [injection E as <- _; exact HR|].
  destruct Hg as [[Hf Hc] Hg]. destruct (wstep w op) as [[w1 e1]|?| |] eqn:E1; try discriminate. cbn [rbind fst snd] in *.
  destruct (wrun w1 ops) as [[w2 e2]|?| |] eqn:E2; try discriminate. cbn [rbind fst snd] in E. injection E as <- _.
  eapply IH; [exact Hg| |exact E2]. eapply com_step; eassumption.
Qed.
Lemma commits_own ops w tr op w' evs : wguarded careful winit ops -> wrun winit ops = Ok (w, tr) -> careful w op -> wstep w op = Ok (w', evs) ->
  forall n p a, In (WCommit n p a) evs -> In p (w_run w n) /\ forall n', In p (w_run w n') -> n' = n.
Proof.
  intros Hg Hr [Hf Hc] E n p a H.
  assert (R : Rcom w) by (eapply com_run; [exact Hg| |exact Hr]; intros k; split; [reflexivity|intros x []]).
  destruct (com_step _ _ _ _ Hf Hc R E) as [_ Q]. pose proof (Q _ _ _ H) as X. split; [exact X|].
  intros n' X'. eapply exclusive; [|exact Hr|exact X'|exact X].
  eapply wguarded_weak; [|exact Hg]. intros v o [Y _]. exact Y.
Qed.
