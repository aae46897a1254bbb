(** Proofs about goroutines. *)
From Verif Require Import Base BaseFacts Wire Group Gcons GconsSpec GconsFacts GconsLoop Lives LivesSpec.

(** ** Producers *)
Lemma nth_sp_upd f : forall l i j, nth_error (sp_upd i f l) j = if (i =? j)%nat then option_map f (nth_error l j) else nth_error l j.
Proof.
  induction l as [|s l IH]; intros [|i] [|j]; cbn; try reflexivity; [destruct (i =? j)%nat; reflexivity|]. apply IH.
Qed.
Lemma len_sp_upd f : forall l i, length (sp_upd i f l) = length l.
Proof. induction l as [|s l IH]; intros [|i]; cbn; auto. Qed.
Lemma len_close_all : forall ns l, length (sp_close_all ns l) = length l.
Proof. induction ns as [|n ns IH]; intros l; [reflexivity|]. cbn. rewrite IH. apply len_sp_upd. Qed.
Lemma close_all_cons n ns l : sp_close_all (n :: ns) l = sp_close_all ns (sp_upd n sp_close l).
Proof. reflexivity. Qed.
Lemma nth_close_all : forall ns l j, nth_error (sp_close_all ns l) j =
  if existsb (Nat.eqb j) ns then option_map sp_close (nth_error l j) else nth_error l j.
Proof.
  induction ns as [|n ns IH]; intros l j; [reflexivity|]. rewrite close_all_cons, IH, nth_sp_upd. cbn [existsb].
  rewrite (Nat.eqb_sym j n). destruct (n =? j)%nat; cbn [orb]; [|reflexivity].
  destruct (existsb (Nat.eqb j) ns), (nth_error l j); reflexivity.
Qed.
Lemma existsb_nat j ns : existsb (Nat.eqb j) ns = true <-> In j ns.
Proof.
  rewrite existsb_exists. split.
  - intros (x & H & E). apply Nat.eqb_eq in E. congruence.
  - intros H. exists j. split; [exact H|apply Nat.eqb_refl].
Qed.

Definition owned (p : plives) : list nat := (match pl_cur p with Some i => [i] | None => [] end) ++ map snd (pl_keyed p).
Record Pinv (p : plives) : Prop := {
  P_cur : forall i, pl_cur p = Some i -> (i < length (pl_sps p))%nat;
  P_key : forall x, In x (pl_keyed p) -> (snd x < length (pl_sps p))%nat;
  P_own : forall i s, nth_error (pl_sps p) i = Some s -> sp_closed s = false -> In i (owned p);
  P_runs : forall i s, nth_error (pl_sps p) i = Some s -> sp_runs s = false -> sp_closed s = true }.
Lemma nth_snoc {A} (l : list A) x i y : nth_error (l ++ [x]) i = Some y -> nth_error l i = Some y \/ (i = length l /\ y = x).
Proof.
  intros H. destruct (Nat.lt_ge_cases i (length l)) as [L|L].
  - rewrite nth_error_app1 in H by exact L. auto.
  - rewrite nth_error_app2 in H by exact L. destruct (i - length l)%nat as [|n] eqn:D; cbn in H; [|destruct n; discriminate].
    right. injection H as <-. split; [lia|reflexivity].
Qed.
Lemma Pinv_step p o : Pinv p -> Pinv (pstep p o).
Proof.
  intros [C K O R]. destruct o as [|[]|pid ok|i chan|]; cbn [pstep].
  - constructor; assumption.
  - constructor; cbn [pl_cur pl_sps pl_keyed].
    + intros i E. injection E as <-. rewrite len_close_all, app_length. cbn. lia.
    + intros x H. rewrite len_close_all, app_length. cbn. specialize (K x H). lia.
    + intros i s E U. rewrite nth_close_all in E. unfold owned. cbn [pl_cur pl_keyed].
      destruct (existsb (Nat.eqb i) _) eqn:X.
      * destruct (nth_error _ i); [|discriminate]. cbn in E. injection E as <-. discriminate U.
      * apply nth_snoc in E. destruct E as [E|[-> ->]]; [|left; reflexivity].
        specialize (O i s E U). unfold owned in O. apply in_app_or in O. destruct O as [O|O]; [|right; exact O].
        exfalso. apply existsb_nat in O. congruence.
    + intros i s E U. rewrite nth_close_all in E. destruct (existsb (Nat.eqb i) _).
      * destruct (nth_error _ i); [|discriminate]. cbn in E. injection E as <-. reflexivity.
      * apply nth_snoc in E. destruct E as [E|[-> ->]]; [exact (R i s E U)|discriminate U].
  - constructor; assumption.
  - destruct (keyed pid (pl_keyed p) || negb ok); [constructor; assumption|]. constructor; cbn [pl_cur pl_sps pl_keyed].
    + intros i E. rewrite app_length. specialize (C i E). lia.
    + intros x [<-|H]; rewrite app_length; cbn; [lia|]. specialize (K x H). lia.
    + intros i s E U. unfold owned. cbn [pl_cur pl_keyed map snd]. apply nth_snoc in E. destruct E as [E|[-> ->]].
      * specialize (O i s E U). unfold owned in O. apply in_app_or in O. apply in_or_app. destruct O as [O|O]; [left; exact O|right; right; exact O].
      * apply in_or_app. right. left. reflexivity.
    + intros i s E U. apply nth_snoc in E. destruct E as [E|[-> ->]]; [exact (R i s E U)|discriminate U].
  - constructor; cbn [pl_cur pl_sps pl_keyed].
    + intros j E. rewrite len_sp_upd. exact (C j E).
    + intros x H. rewrite len_sp_upd. exact (K x H).
    + intros j s E U. rewrite nth_sp_upd in E. change (owned _) with (owned p).
      destruct (i =? j)%nat; [|exact (O j s E U)]. destruct (nth_error (pl_sps p) j) as [s0|] eqn:N; [|discriminate]. cbn in E. injection E as <-.
      exact (O j s0 N U).
    + intros j s E U. rewrite nth_sp_upd in E. destruct (i =? j)%nat; [|exact (R j s E U)].
      destruct (nth_error (pl_sps p) j) as [s0|] eqn:N; [|discriminate]. cbn in E. injection E as <-. cbn in *.
      destruct (sp_closed s0) eqn:X; [reflexivity|]. rewrite <- X. exact (R j s0 N U).
  - constructor; cbn [pl_cur pl_sps pl_keyed].
    + intros j E. rewrite len_close_all. exact (C j E).
    + intros x H. rewrite len_close_all. exact (K x H).
    + intros j s E U. rewrite nth_close_all in E. fold (owned p) in E. destruct (existsb (Nat.eqb j) (owned p)) eqn:X.
      * destruct (nth_error (pl_sps p) j); [|discriminate]. cbn in E. injection E as <-. discriminate U.
      * exfalso. specialize (O j s E U). apply existsb_nat in O. congruence.
    + intros j s E U. rewrite nth_close_all in E. destruct (existsb (Nat.eqb j) _); [|exact (R j s E U)].
      destruct (nth_error (pl_sps p) j); [|discriminate]. cbn in E. injection E as <-. reflexivity.
Qed.
Lemma Pinv_init : Pinv pinit.
Proof. constructor; cbn; try discriminate; try contradiction; intros [|i] s H; discriminate H. Qed.
Lemma Pinv_runs : forall l p, Pinv p -> Pinv (pruns p l).
Proof. induction l as [|o l IH]; intros p H; [exact H|]. cbn. apply IH, Pinv_step, H. Qed.
Lemma pruns_app p a b : pruns p (a ++ b) = pruns (pruns p a) b.
Proof. apply fold_left_app. Qed.

Lemma ticks_step p o : pl_ticks p = true -> pl_ticks (pstep p o) = true.
Proof. intros H. destruct o as [|[]|pid ok|i chan|]; cbn [pstep]; try exact H; [reflexivity|]. destruct (_ || _); exact H. Qed.
Lemma ticks_runs : forall l p, pl_ticks p = true -> pl_ticks (pruns p l) = true.
Proof. induction l as [|o l IH]; intros p H; [exact H|]. cbn. apply IH, ticks_step, H. Qed.
Lemma ticks_for_ever a b : In PReturn a -> pl_ticks (pruns pinit (a ++ b)) = true.
Proof.
  intros H. apply in_split in H. destruct H as (x & y & ->). rewrite <- app_assoc, pruns_app. cbn [app].
  change (pruns (pruns pinit x) (PReturn :: y ++ b)) with (pruns (pstep (pruns pinit x) PReturn) (y ++ b)). apply ticks_runs. reflexivity.
Qed.

Lemma loops_nth : forall l p i s, only_loops l -> nth_error (pl_sps p) i = Some s ->
  exists s', nth_error (pl_sps (pruns p l)) i = Some s' /\ sp_closed s' = sp_closed s /\
    (sp_closed s = false -> sp_runs s' = sp_runs s) /\ (sp_runs s = false -> sp_runs s' = false) /\
    (sp_closed s = true -> In (PLoop i true) l -> sp_runs s' = false).
Proof.
  induction l as [|o l IH]; intros p i s L N.
  { exists s. repeat split; auto. intros _ []. }
  inversion L as [|x y Lo Ll]; subst. destruct o as [|ok|pid ok|j chan|]; try contradiction.
  assert (N' : nth_error (pl_sps (pstep p (PLoop j chan))) i = Some (if (j =? i)%nat then sp_select chan s else s)).
  { cbn [pstep pl_sps]. rewrite nth_sp_upd, N. destruct (j =? i)%nat; reflexivity. }
  destruct (IH _ i _ Ll N') as (s' & E & A & B & C & D). exists s'. change (pruns p (PLoop j chan :: l)) with (pruns (pstep p (PLoop j chan)) l). split; [exact E|].
  destruct (Nat.eqb_spec j i) as [->|Ne]; cbn [sp_select sp_closed sp_runs] in *.
  - split; [exact A|]. split; [|split].
    + intros X. rewrite X in *. cbn in B. auto.
    + intros X. apply C. rewrite X. destruct (sp_closed s && chan); reflexivity.
    + intros X [Y|Y]; [|apply D; [exact X|exact Y]]. injection Y as ->. apply C. rewrite X. reflexivity.
  - repeat split; auto. intros X [Y|Y]; [injection Y; congruence|auto].
Qed.
Lemma loops_len : forall l p, only_loops l -> length (pl_sps (pruns p l)) = length (pl_sps p).
Proof.
  induction l as [|o l IH]; intros p L; [reflexivity|]. inversion L as [|x y Lo Ll]; subst. destruct o as [|ok|pid ok|j chan|]; try contradiction.
  change (pruns p (PLoop j chan :: l)) with (pruns (pstep p (PLoop j chan)) l). rewrite IH by exact Ll. cbn. apply len_sp_upd.
Qed.
Lemma close_closes p i s : Pinv p -> nth_error (pl_sps (pstep p PClose)) i = Some s -> sp_closed s = true.
Proof.
  intros I E. destruct (sp_closed s) eqn:X; [reflexivity|]. exfalso.
  cbn [pstep pl_sps] in E. rewrite nth_close_all in E. fold (owned p) in E. destruct (existsb (Nat.eqb i) (owned p)) eqn:Y.
  - destruct (nth_error (pl_sps p) i); [|discriminate]. cbn in E. injection E as <-. discriminate X.
  - pose proof (P_own p I i s E X) as O. apply existsb_nat in O. congruence.
Qed.
Lemma producer_ends a l : only_loops l ->
  (forall i, (i < length (pl_sps (pruns pinit a)))%nat -> In (PLoop i true) l) ->
  filter sp_runs (pl_sps (pruns pinit (a ++ PClose :: l))) = [].
Proof.
  intros L T. rewrite pruns_app. change (pruns (pruns pinit a) (PClose :: l)) with (pruns (pstep (pruns pinit a) PClose) l).
  set (p := pruns pinit a) in *. pose proof (Pinv_runs a _ Pinv_init : Pinv p) as I.
  assert (LL : length (pl_sps (pstep p PClose)) = length (pl_sps p)) by apply len_close_all.
  destruct (filter sp_runs (pl_sps (pruns (pstep p PClose) l))) as [|s r] eqn:F; [reflexivity|exfalso].
  assert (H : In s (filter sp_runs (pl_sps (pruns (pstep p PClose) l)))) by (rewrite F; left; reflexivity).
  apply filter_In in H. destruct H as [H R]. apply In_nth_error in H. destruct H as [i N].
  assert (B : (i < length (pl_sps (pstep p PClose)))%nat) by (rewrite <- (loops_len l _ L); apply nth_error_Some; congruence).
  destruct (nth_error (pl_sps (pstep p PClose)) i) as [s0|] eqn:N0; [|apply nth_error_None in N0; lia].
  destruct (loops_nth l _ i s0 L N0) as (s' & E & _ & _ & _ & D). rewrite N in E. injection E as <-.
  rewrite D in R; [discriminate|exact (close_closes p i s0 I N0)|apply T; lia].
Qed.
Lemma producer_again a l : only_loops l ->
  exists s, In s (pl_sps (pruns pinit (a ++ PClose :: PUpdate true :: l))) /\ sp_closed s = false /\ sp_runs s = true.
Proof.
  intros L. rewrite pruns_app. set (p := pruns pinit a). pose proof (Pinv_step _ PClose (Pinv_runs a _ Pinv_init : Pinv p)) as I.
  change (pruns p (PClose :: PUpdate true :: l)) with (pruns (pstep (pstep p PClose) (PUpdate true)) l).
  set (q := pstep p PClose) in *.
  assert (N : nth_error (pl_sps (pstep q (PUpdate true))) (length (pl_sps q)) = Some (mkSp false true)).
  { cbn [pstep pl_sps]. rewrite nth_close_all, nth_error_app2, Nat.sub_diag by lia. cbn [nth_error option_map].
    destruct (existsb (Nat.eqb (length (pl_sps q))) _) eqn:X; [|reflexivity]. apply existsb_nat in X.
    destruct (pl_cur q) as [i|] eqn:C; [|contradiction]. destruct X as [X|[]]. pose proof (P_cur q I i C). lia. }
  destruct (loops_nth l _ _ _ L N) as (s' & E & A & B & _). exists s'. split; [eapply nth_error_In; exact E|].
  split; [exact A|apply B; reflexivity].
Qed.

(** how many are not closed *)
Lemma filter_index {A} (f : A -> bool) : forall l k, exists ns, length ns = length (filter f l) /\ NoDup ns /\
  forall n, In n ns -> (k <= n)%nat /\ exists x, nth_error l (n - k) = Some x /\ f x = true.
Proof.
  induction l as [|x l IH]; intros k; [exists []; repeat split; [constructor|contradiction|contradiction]|].
  destruct (IH (S k)) as (ns & E & D & H). cbn [filter]. destruct (f x) eqn:F.
  - exists (k :: ns). split; [cbn; congruence|]. split.
    + constructor; [|exact D]. intros X. apply H in X. lia.
    + intros n [<-|X]; [rewrite Nat.sub_diag; split; [lia|exists x; auto]|]. apply H in X. destruct X as (X & y & Y & Fy).
      split; [lia|]. exists y. replace (n - k)%nat with (S (n - S k)) by lia. auto.
  - exists ns. split; [exact E|]. split; [exact D|]. intros n X. apply H in X. destruct X as (X & y & Y & Fy).
    split; [lia|]. exists y. replace (n - k)%nat with (S (n - S k)) by lia. auto.
Qed.
Lemma unclosed_owned p : Pinv p -> (length (filter unclosed (pl_sps p)) <= 1 + length (pl_keyed p))%nat.
Proof.
  intros I. destruct (filter_index unclosed (pl_sps p) 0) as (ns & E & D & H). rewrite <- E.
  assert (L : (length ns <= length (owned p))%nat).
  { apply NoDup_incl_length; [exact D|]. intros n X. apply H in X. destruct X as (_ & s & N & U). rewrite Nat.sub_0_r in N.
    eapply P_own; [exact I|exact N|]. unfold unclosed in U. destruct (sp_closed s); [discriminate|reflexivity]. }
  unfold owned in L. rewrite app_length, map_length in L. destruct (pl_cur p); cbn in L; lia.
Qed.
Lemma keyed_in pid l : keyed pid l = true <-> In pid (map fst l).
Proof.
  unfold keyed. rewrite existsb_exists, in_map_iff. split.
  - intros (x & H & E). apply Z.eqb_eq in E. exists x. auto.
  - intros (x & <- & H). exists x. split; [exact H|apply Z.eqb_refl].
Qed.
Lemma keyed_runs ps : forall l p, (forall pid ok, In (PKey pid ok) l -> In pid ps) ->
  NoDup (map fst (pl_keyed p)) -> incl (map fst (pl_keyed p)) ps ->
  NoDup (map fst (pl_keyed (pruns p l))) /\ incl (map fst (pl_keyed (pruns p l))) ps.
Proof.
  induction l as [|o l IH]; intros p H D S; [split; assumption|].
  change (pruns p (o :: l)) with (pruns (pstep p o) l). apply IH.
  - intros pid ok X. apply (H pid ok). right. exact X.
  - destruct o as [|[]|pid ok|i chan|]; cbn [pstep]; try exact D. destruct (keyed pid (pl_keyed p)) eqn:K; cbn [orb]; [exact D|].
    destruct (negb ok); [exact D|]. cbn. constructor; [|exact D]. rewrite <- keyed_in. congruence.
  - destruct o as [|[]|pid ok|i chan|]; cbn [pstep]; try exact S. destruct (keyed pid (pl_keyed p) || negb ok); [exact S|]. cbn.
    intros x [<-|X]; [apply (H pid ok); left; reflexivity|apply S; exact X].
Qed.
Lemma producer_bound ps l : NoDup ps -> (forall pid ok, In (PKey pid ok) l -> In pid ps) ->
  (length (filter unclosed (pl_sps (pruns pinit l))) <= 1 + length ps)%nat.
Proof.
  intros D H. destruct (keyed_runs ps l pinit H (NoDup_nil Z) (fun x (X : In x []) => match X with end)) as [K S].
  pose proof (unclosed_owned _ (Pinv_runs l _ Pinv_init)) as U.
  pose proof (NoDup_incl_length K S) as L. rewrite map_length in L. lia.
Qed.

(** ** AwaitClose *)
Lemma await_stuck : forall l a, aw_waits a = false -> aw_helper a <> HGone -> aw_helper (aruns a l) <> HGone.
Proof.
  induction l as [|o l IH]; intros a W H; [exact H|]. cbn. destruct a as [w h b]. cbn in W, H. subst b.
  destruct o, h; cbn [astep aw_helper aw_wg aw_waits]; try (destruct (w <=? 0)); apply IH; cbn; auto; try discriminate.
Qed.
Lemma await_met : forall l a, ~ In ATimeout l -> (aw_waits a = false -> aw_helper a = HGone) -> aw_waits (aruns a l) = false -> aw_helper (aruns a l) = HGone.
Proof.
  induction l as [|o l IH]; intros a N H W; [exact (H W)|]. cbn in *. apply IH; [tauto| |exact W]. destruct a as [w h b].
  cbn in H. destruct o, h, b; cbn [astep aw_helper aw_wg aw_waits] in *; try (destruct (w <=? 0)); cbn; auto; try discriminate; try (intros X; specialize (H X); discriminate H); tauto.
Qed.
Lemma await_dones : forall n w, aruns (mkAw w HWait true) (repeat ADone n) = mkAw (w - Z.of_nat n) HWait true.
Proof.
  induction n as [|n IH]; intros w; [cbn; f_equal; lia|]. cbn [repeat]. 
  change (aruns (mkAw w HWait true) (ADone :: repeat ADone n)) with (aruns (mkAw (w - 1) HWait true) (repeat ADone n)). rewrite IH. f_equal. lia.
Qed.

(** ** Group consumers *)
Definition pc_ok (c : pcons) : Prop := (pc_in c = false -> pc_off c = true) /\ (pc_runs c = false -> pc_off c = true).
Definition Linv (s : glives) : Prop :=
  (exists tr, Isafe (gl_g s) tr) /\ Forall pc_ok (gl_pcs s) /\ (g_sc (gl_g s) = [] -> Forall (fun c => pc_in c = false) (gl_pcs s)) /\
  (g_closed (gl_g s) = true -> g_sc (gl_g s) = []) /\ (gl_beats s <= 1)%nat /\ (gl_metas s <= 1)%nat.
Definition plain_ev (e : gev) : bool := match e with GSynced _ _ | GClosing => false | _ => true end.
Lemma plain_events : forall evs l, forallb plain_ev evs = true -> fold_left pc_event evs l = l.
Proof.
  induction evs as [|e evs IH]; intros l H; [reflexivity|]. cbn in *. apply andb_prop in H. destruct H as [H1 H2].
  destruct e; try discriminate; cbn; apply IH; exact H2.
Qed.
Lemma stop_ok l : Forall pc_ok l -> Forall pc_ok (map pc_stop l) /\ Forall (fun c => pc_in c = false) (map pc_stop l).
Proof.
  intros H. split; apply Forall_map; eapply Forall_impl; try exact H; intros [p i o r] [A B]; unfold pc_stop, pc_ok in *; cbn in *.
  - destruct i; cbn; auto.
  - destruct i; reflexivity.
Qed.
Ltac evs_plain := match goal with H : _ \/ _ |- _ => destruct H; subst; reflexivity | _ => reflexivity end.
Lemma trans_kind g op g' evs : gtrans g op g' evs ->
  (restarted g g' = false /\ forallb plain_ev evs = true /\ g_sc g' = g_sc g /\ g_closed g' = g_closed g) \/
  (op = ORestart /\ restarted g g' = true /\ evs = [] /\ g_sc g' = []) \/
  (op = OClose /\ restarted g g' = false /\ evs = [GClosing] /\ g_sc g' = []) \/
  exists i m ps, nth_error (g_sess g) i = Some (mkS PSyncWait m) /\ restarted g g' = false /\ evs = [GSynced i ps; GRet i None] /\ g_sc g' = ps /\ g_closed g' = g_closed g.
Proof.
  intros T. assert (RR : forall h, length (g_sess h) = length (g_sess g) -> restarted g h = false)
    by (intros h E; unfold restarted; rewrite E; apply Nat.ltb_irrefl).
  destruct T;
  try (left; split; [apply RR; unfold setl; flat; rewrite ?join_failed_sess, ?sync_failed_sess, ?upd_length; reflexivity|];
       split; [evs_plain|]; split; flat; rewrite ?join_failed_closed, ?sync_failed_closed; try reflexivity;
       try apply (proj1 (proj2 (proj2 (proj2 (proj2 (proj2 (join_failed_fields g e txt)))))));
       try apply (proj1 (proj2 (proj2 (proj2 (proj2 (proj2 (sync_failed_fields g e))))))); fail).
  - right; right; right. exists i, m, (parts_of ma). repeat split; auto. apply RR. unfold setl. flat. apply upd_length.
  - right; left. repeat split. unfold restarted. flat. rewrite app_length. cbn. apply Nat.ltb_lt. lia.
  - right; right; left. repeat split. apply RR. reflexivity.
Qed.
Lemma pc_upd_forall (P : pcons -> Prop) : (forall c, P c -> P (pc_done c)) -> forall l i, Forall P l -> Forall P (pc_upd i l).
Proof.
  intros Q. induction l as [|c l IH]; intros i H; [destruct i; constructor|]. inversion H; subst. destruct i; cbn; constructor; auto.
Qed.
Lemma Linv_step s o s' : match o with LStep op => orderly (gl_g s) op | LConsume => False | _ => True end -> Linv s -> lstep s o = Ok s' -> Linv s'.
Proof.
  intros Ho ((tr & Is) & Ok' & Ic & Ix & Ib & Im) E. destruct o as [op|i| | |]; try contradiction; cbn [lstep] in E.
  - destruct (gstep (gl_g s) op) as [[g' evs]|e| |] eqn:G; try discriminate. cbn [rbind fst snd] in E. injection E as <-.
    destruct (safe_step _ _ _ _ _ Ho Is G) as [Is' _].
    split; [exists (tr ++ evs); exact Is'|]. cbn [gl_g gl_pcs gl_beats gl_metas].
    assert (Ix' : g_closed g' = true -> g_sc g' = []) by (destruct Is' as (o1 & l1 & m1 & H1); intros X; exact (proj1 (F_closed _ _ _ _ _ H1 X))).
    apply gstep_trans in G. destruct G as [[-> ->]|T].
    { unfold restarted. rewrite Nat.ltb_irrefl. cbn [fold_left]. repeat split; auto. }
    destruct (trans_kind _ _ _ _ T) as [(R & P & S & C)|[(-> & R & -> & S)|[(-> & R & -> & S)|(i & m & ps & N & R & -> & S & C)]]]; rewrite R.
    + rewrite plain_events by exact P. split; [exact Ok'|]. rewrite S. split; [exact Ic|]. rewrite <- S. auto.
    + cbn [fold_left]. destruct (stop_ok _ Ok'). repeat split; auto.
    + cbn [fold_left pc_event]. destruct (stop_ok _ Ok'). repeat split; auto.
    + cbn [fold_left pc_event].
      assert (Z : g_sc (gl_g s) = []).
      { destruct Is as (old & l & m0 & H). destruct (g_closed (gl_g s)) eqn:CC; [exact (Ix eq_refl)|].
        pose proof (F_chan _ _ _ _ _ H CC) as (_ & K & _). pose proof (F_sess _ _ _ _ _ H) as Fs. pose proof (F_old _ _ _ _ _ H) as Fo.
        apply nth_error_In in N. rewrite Fs in N. apply in_app_or in N. destruct N as [N|[N|[]]].
        - rewrite Forall_forall in Fo. apply Fo in N. discriminate N.
        - injection N as -> ->. destruct m; cbn in K; tauto. }
      pose proof (Ic Z) as In0. split; [|split].
      * apply Forall_app. split.
        -- apply Forall_map. rewrite Forall_forall in *. intros c H. specialize (Ok' c H). specialize (In0 c H).
           unfold pc_ok, pc_drop in *. cbn in *. destruct Ok' as [A B]. split; [intros _; auto|exact B].
        -- apply Forall_map. apply Forall_forall. intros p _. split; cbn; discriminate.
      * intros Z'. rewrite S in Z'. rewrite Z'. cbn [map]. rewrite app_nil_r. apply Forall_map. apply Forall_forall. intros c _. reflexivity.
      * auto.
  - injection E as <-. cbn. split; [exists tr; exact Is|]. split; [|split].
    + apply pc_upd_forall; [|exact Ok']. intros c [A B]. unfold pc_ok, pc_done in *. cbn. split; [exact A|]. destruct (pc_off c) eqn:O; [reflexivity|].
      intros X. discriminate (B X).
    + intros Z. apply pc_upd_forall; [|exact (Ic Z)]. intros c H. exact H.
    + auto.
  - injection E as <-. unfold Linv. cbn [gl_g gl_pcs gl_beats gl_metas]. split; [exists tr; exact Is|]. split; [exact Ok'|]; split; [exact Ic|]; split; [exact Ix|]; split; destruct (g_closed (gl_g s)); lia.
  - injection E as <-. unfold Linv. cbn [gl_g gl_pcs gl_beats gl_metas]. split; [exists tr; exact Is|]. split; [exact Ok'|]; split; [exact Ic|]; split; [exact Ix|]; split; destruct (g_closed (gl_g s)); lia.
Qed.
Lemma Linv_init : Linv linit.
Proof. split; [exists []; exact safe_init|]. cbn. repeat split; auto; intros; discriminate. Qed.
Lemma Linv_run : forall l s s', lguarded s l -> Linv s -> lrun s l = Ok s' -> Linv s'.
Proof.
  induction l as [|o l IH]; intros s s' G H E; cbn [lrun lguarded] in *; [injection E as <-; exact H|].
  destruct G as [G1 G2]. destruct (lstep s o) as [s1|e| |] eqn:S; try discriminate. cbn [rbind] in E.
  eapply IH; [exact G2| |exact E]. eapply Linv_step; eassumption.
Qed.
Lemma group_off l s : lguarded linit l -> lrun linit l = Ok s -> g_closed (gl_g s) = true ->
  Forall (fun c => pc_off c = true) (gl_pcs s) /\ (gl_beats s <= 1)%nat /\ (gl_metas s <= 1)%nat.
Proof.
  intros G E C. destruct (Linv_run l _ _ G Linv_init E) as (_ & K & I & X & B & M). split; [|auto].
  specialize (I (X C)). rewrite Forall_forall in *. intros c H. exact (proj1 (K c H) (I c H)).
Qed.
(** when every goroutine has had its turn *)
Definition turns (l : list pcons) : list lop := map LRefresh (seq 0 (length l)) ++ [LBeat; LMeta].
Lemma pc_upd_len : forall l i, length (pc_upd i l) = length l.
Proof. induction l as [|c l IH]; intros [|i]; cbn; auto. Qed.
Lemma pc_upd_app : forall a c b, pc_upd (length a) (a ++ c :: b) = a ++ pc_done c :: b.
Proof. induction a as [|x a IH]; intros c b; [reflexivity|]. cbn. rewrite IH. reflexivity. Qed.
Lemma refreshes : forall b a g n m, lrun (mkGl g (a ++ b) n m) (map LRefresh (seq (length a) (length b))) = Ok (mkGl g (a ++ map pc_done b) n m).
Proof.
  induction b as [|c b IH]; intros a g n m; [cbn; reflexivity|]. cbn [length seq map lrun lstep rbind gl_g gl_pcs gl_beats gl_metas].
  rewrite pc_upd_app. specialize (IH (a ++ [pc_done c]) g n m). rewrite app_length, <- !app_assoc in IH. cbn [length app] in IH.
  replace (length a + 1)%nat with (S (length a)) in IH by lia. exact IH.
Qed.
Lemma lrun_app : forall a s b, lrun s (a ++ b) = rbind (lrun s a) (fun s' => lrun s' b).
Proof. induction a as [|o a IH]; intros s b; [reflexivity|]. cbn. destruct (lstep s o); cbn; auto. Qed.
Lemma group_ends l s : lguarded linit l -> lrun linit l = Ok s -> g_closed (gl_g s) = true ->
  exists s', lrun s (turns (gl_pcs s)) = Ok s' /\ lcount s' = 0%nat.
Proof.
  intros G E C. destruct (group_off l s G E C) as (O & B & M). destruct s as [g pcs n m]. cbn [gl_g gl_pcs gl_beats gl_metas] in *.
  unfold turns. rewrite lrun_app. pose proof (refreshes pcs [] g n m) as R. cbn [length app] in R. rewrite R. cbn [rbind lrun lstep gl_g gl_pcs gl_beats gl_metas].
  rewrite C. eexists. split; [reflexivity|]. unfold lcount. cbn [gl_pcs gl_beats gl_metas].
  assert (F : filter pc_runs (map pc_done pcs) = []).
  { clear -O. induction O as [|c pcs H _ IH]; [reflexivity|]. cbn. rewrite H. exact IH. }
  rewrite F. cbn. lia.
Qed.

(** a partition consumer nobody stops any more *)
Lemma pc_upd_nth : forall l i j c, nth_error l j = Some c -> nth_error (pc_upd i l) j = Some (if (i =? j)%nat then pc_done c else c).
Proof. induction l as [|x l IH]; intros [|i] [|j] c H; cbn in *; try discriminate; auto. injection H as <-. reflexivity. Qed.
Definition astray (c : pcons) : Prop := pc_off c = false /\ pc_runs c = true.
Lemma astray_step s o s' j c : left_alone o -> nth_error (gl_pcs s) j = Some c -> astray c -> lstep s o = Ok s' ->
  exists c', nth_error (gl_pcs s') j = Some c' /\ astray c'.
Proof.
  intros L N A E. destruct o as [op|i| | |]; try contradiction; cbn [lstep] in E.
  - destruct (gstep (gl_g s) op) as [[g' evs]|e| |] eqn:G; try discriminate. cbn [rbind fst snd] in E. injection E as <-. cbn [gl_pcs].
    apply gstep_trans in G. destruct G as [[-> ->]|T].
    { unfold restarted. rewrite Nat.ltb_irrefl. exists c. auto. }
    destruct (trans_kind _ _ _ _ T) as [(R & P & _)|[(-> & _)|[(-> & _)|(i & m & ps & _ & R & -> & _)]]]; cbn in L; try contradiction; rewrite R.
    + rewrite plain_events by exact P. exists c. auto.
    + cbn [fold_left pc_event]. exists (pc_drop c). split; [|exact A]. rewrite nth_error_app1; [apply map_nth_error; exact N|].
      rewrite map_length. apply nth_error_Some. congruence.
  - injection E as <-. cbn [gl_pcs]. eexists. split; [apply pc_upd_nth; exact N|]. destruct (i =? j)%nat; [|exact A].
    destruct A as [A1 A2]. split; cbn; [exact A1|rewrite A1; exact A2].
  - injection E as <-. exists c. auto.
  - injection E as <-. exists c. auto.
Qed.
Lemma astray_run : forall l s s' j c, Forall left_alone l -> nth_error (gl_pcs s) j = Some c -> astray c -> lrun s l = Ok s' ->
  exists c', nth_error (gl_pcs s') j = Some c' /\ astray c'.
Proof.
  induction l as [|o l IH]; intros s s' j c L N A E; cbn [lrun] in E; [injection E as <-; exists c; auto|].
  inversion L; subst. destruct (lstep s o) as [s1|e| |] eqn:S; try discriminate. cbn [rbind] in E.
  destruct (astray_step s o s1 j c ltac:(assumption) N A S) as (c1 & N1 & A1). eapply IH; eassumption.
Qed.
Lemma guarded_lives : forall ops g pcs n m, guarded orderly g ops -> lguarded (mkGl g pcs n m) (map LStep ops).
Proof.
  induction ops as [|op ops IH]; intros g pcs n m H; [exact I|]. cbn [guarded] in H. cbn [map lguarded gl_g lstep]. destruct H as [H1 H2].
  split; [exact H1|]. destruct (gstep g op) as [[g' evs]|e| |]; cbn [rbind]; try exact I. cbn [gl_beats gl_metas gl_pcs]. apply IH. exact H2.
Qed.
