(** Proofs about Consume beside Stop. *)
From Verif Require Import Base BaseFacts Starting StartingSpec.

Section Facts.
  Variables group auto : bool.
  Notation dstep := (dstep group auto).
  Notation drun := (drun group auto).

  (** ** Fetches *)
  Definition counted (s : sst) : Prop := s_wg s = match s_loop s with LHead | LBusy => 1%nat | _ => 0%nat end.
  Definition Q (s : sst) : Prop := counted s /\
    (match s_loop s with LNew | LHead | LBusy | LGone => s_con s = CDone | LNone => True end) /\
    match s_stop s with
    | SIdle | SFlag => True
    | SWait => s_flag s = true
    | SClose | SOver => s_flag s = true /\ s_loop s <> LBusy
    end.
  Ltac ifs := repeat match goal with
    | |- context [match ?x with Some _ => _ | None => _ end] => destruct x
    | |- context [if ?b then _ else _] => destruct b
    end; cbn [fst snd s_ctx s_flag s_offset s_com s_lead s_wg s_con s_loop s_commit s_stop app] in *.
  Lemma Q_step s o : Q s -> Q (fst (dstep s o)) /\
    (forall e, In e (snd (dstep s o)) -> e = VFetch -> s_stop s <> SOver) /\
    (In VStopped (snd (dstep s o)) -> s_stop (fst (dstep s o)) = SOver /\ ~ In VFetch (snd (dstep s o))) /\ (s_stop s = SOver -> s_stop (fst (dstep s o)) = SOver).
  Proof.
    intros (C & L & S). destruct o as [ans|o|ok|].
    - destruct s as [ctx flag off com lead wg con loop com_ st].
      unfold Q, counted, Starting.dstep, consume1, to_init, use_lead, set_con, set_off, set_lead, set_lp, set_kp in *. cbn [s_ctx s_flag s_offset s_com s_lead s_wg s_con s_loop s_commit s_stop] in *.
      destruct con; destruct loop; try discriminate L; ifs; repeat split; auto; try (destruct st; auto; fail);
        try (intros e I; cbn in I; intuition congruence); try (cbn; intuition congruence); cbn in *; intuition (try congruence); destruct st; intuition congruence.
    - destruct s as [ctx flag off com lead wg con loop com_ st].
      unfold Q, counted, Starting.dstep, loop1, use_lead, set_off, set_lead, set_lp in *. cbn [s_ctx s_flag s_offset s_com s_lead s_wg s_con s_loop s_commit s_stop] in *.
      destruct loop; cbn in C; subst wg; destruct flag; ifs; destruct st; cbn in *; repeat split; auto; intuition (try congruence).
    - destruct s as [ctx flag off com lead wg con loop com_ st].
      unfold Q, counted, Starting.dstep, commit1, set_kp in *. cbn [s_ctx s_flag s_offset s_com s_lead s_wg s_con s_loop s_commit s_stop] in *.
      destruct com_; ifs; repeat split; auto; cbn in *; intuition (try congruence).
    - destruct s as [ctx flag off com lead wg con loop com_ st].
      unfold Q, counted, Starting.dstep, stop1, set_sp, set_lead in *. cbn [s_ctx s_flag s_offset s_com s_lead s_wg s_con s_loop s_commit s_stop] in *.
      destruct st; [| |destruct wg|destruct lead as [[]|]|]; cbn in *; repeat split; auto; intuition (try congruence); destruct loop; try discriminate.
  Qed.
  Lemma Q_init off : Q (sinit off).
  Proof. repeat split. Qed.
  Lemma drun_cons s o l : drun s (o :: l) = (fst (drun (fst (dstep s o)) l), snd (dstep s o) ++ snd (drun (fst (dstep s o)) l)).
  Proof. cbn [Starting.drun]. destruct (dstep s o) as [s1 e1]. cbn [fst snd]. destruct (drun s1 l) as [s2 e2]. reflexivity. Qed.
  Lemma Q_run : forall l s, Q s -> Q (fst (drun s l)).
  Proof. induction l as [|o l IH]; intros s K; [exact K|]. rewrite drun_cons. cbn [fst]. apply IH. exact (proj1 (Q_step s o K)). Qed.
  Lemma drun_app : forall a s b, drun s (a ++ b) = (fst (drun (fst (drun s a)) b), snd (drun s a) ++ snd (drun (fst (drun s a)) b)).
  Proof.
    induction a as [|o a IH]; intros s b; [cbn; destruct (drun s b); reflexivity|]. cbn [app]. rewrite !drun_cons, IH. cbn [fst snd]. rewrite app_assoc. reflexivity.
  Qed.
  Lemma over_run : forall l s, Q s -> s_stop s = SOver -> ~ In VFetch (snd (drun s l)).
  Proof.
    induction l as [|o l IH]; intros s H O; [intros []|]. rewrite drun_cons. cbn [snd]. destruct (Q_step s o H) as (H' & F & _ & O').
    rewrite in_app_iff. intros [X|X]; [exact (F _ X eq_refl O)|]. exact (IH _ H' (O' O) X).
  Qed.
  Lemma quiet_run : forall l s a b, Q s -> snd (drun s l) = a ++ VStopped :: b -> ~ In VFetch b.
  Proof.
    induction l as [|o l IH]; intros s a b H E; [destruct a; discriminate E|]. rewrite drun_cons in E. cbn [snd] in E.
    destruct (Q_step s o H) as (H' & F & T & O).
    assert (C : (exists c, a = snd (dstep s o) ++ c /\ snd (drun (fst (dstep s o)) l) = c ++ VStopped :: b) \/
                (exists c, snd (dstep s o) = a ++ VStopped :: c /\ b = c ++ snd (drun (fst (dstep s o)) l))).
    { revert a E. generalize (snd (dstep s o)) as x. induction x as [|e x IHx]; intros a E; [left; exists a; auto|].
      destruct a as [|y a]; cbn in E; injection E as -> E; [right; exists x; auto|].
      destruct (IHx a E) as [(c & -> & D)|(c & -> & ->)]; [left; exists c; auto|right; exists c; auto]. }
    destruct C as [(c & _ & D)|(c & D & ->)]; [exact (IH _ _ _ H' D)|].
    destruct T as [T1 T2]; [rewrite D; apply in_or_app; right; left; reflexivity|]. rewrite in_app_iff. intros [X|X].
    - apply T2. rewrite D. apply in_or_app. right. right. exact X.
    - exact (over_run l _ H' T1 X).
  Qed.

  (** ** Consume ends *)
  Lemma ends_soon s a1 a2 a3 : s_flag s = true -> (s_con s = CAsk -> a1 <> None) ->
    s_con (fst (drun s [DConsume a1; DConsume a2; DConsume a3])) = CDone.
  Proof.
    intros F A. destruct s as [ctx flag off com lead wg con loop com_ st]. cbn in F, A. subst flag.
    destruct con; cbn [Starting.drun Starting.dstep consume1 s_con s_flag set_con]; try reflexivity.
    - destruct a1; reflexivity.
    - destruct a1 as [v|]; [|exfalso; apply A; reflexivity]. cbn [Starting.drun Starting.dstep consume1]. unfold to_init.
      destruct (0 <=? v); cbn [set_off s_offset set_con s_con]; destruct (unknown _); reflexivity.
    - unfold use_lead. cbn [s_lead]. destruct lead as [[]|], a1; reflexivity.
  Qed.

  (** ** The handle and the commits, when Stop comes after Consume *)
  Definition H (s : sst) : Prop := Q s /\
    (s_stop s <> SIdle -> s_con s = CDone) /\ (s_flag s = true -> s_stop s <> SIdle) /\ (s_stop s = SOver -> s_lead s <> Some true).
  Lemma H_step s o : (o = DStop -> s_con s = CDone) -> H s -> H (fst (dstep s o)).
  Proof.
    intros G (Hq & A & B & C). split; [exact (proj1 (Q_step s o Hq))|]. destruct Hq as (C0 & L & S).
    destruct s as [ctx flag off com lead wg con loop com_ st]. cbn [s_ctx s_flag s_offset s_com s_lead s_wg s_con s_loop s_commit s_stop] in *.
    destruct o as [ans|o|ok|]; cbn [Starting.dstep].
    - unfold consume1, to_init, use_lead, set_con, set_off, set_lead, set_lp, set_kp. cbn [s_ctx s_flag s_offset s_com s_lead s_wg s_con s_loop s_commit s_stop].
      assert (D : con = CDone \/ st = SIdle) by (destruct st; auto; left; apply A; discriminate).
      destruct D as [-> | ->]; [cbn; auto|]. destruct con; ifs; cbn; repeat split; auto; intros; try congruence; try discriminate.
    - unfold loop1, use_lead, set_off, set_lead, set_lp. cbn [s_ctx s_flag s_offset s_com s_lead s_wg s_con s_loop s_commit s_stop].
      destruct loop; destruct flag; ifs; cbn; repeat split; auto; intros; subst; try congruence; try discriminate; destruct S; congruence.
    - unfold commit1, set_kp. cbn [s_ctx s_flag s_offset s_com s_lead s_wg s_con s_loop s_commit s_stop]. destruct com_; ifs; cbn; auto.
    - unfold stop1, set_sp, set_lead. cbn [s_ctx s_flag s_offset s_com s_lead s_wg s_con s_loop s_commit s_stop].
      specialize (G eq_refl). destruct st; [| |destruct wg|destruct lead as [[]|]|]; cbn; repeat split; auto; intros; try congruence; try discriminate.
  Qed.
  Lemma H_run : forall l s, after_start group auto s l -> H s -> H (fst (drun s l)).
  Proof.
    induction l as [|o l IH]; intros s A K; [exact K|]. rewrite drun_cons. destruct A as [A1 A2]. cbn [fst]. apply IH; [exact A2|]. apply H_step; assumption.
  Qed.
  Lemma H_init off : H (sinit off).
  Proof. split; [apply Q_init|]. cbn. repeat split; intros; congruence. Qed.

  (** offsets *)
  Definition N (s : sst) : Prop := (0 <= s_offset s \/ unknown (s_offset s) = true) /\
    (s_commit s = KRuns -> s_con s = CDone) /\
    (match s_con s with CGo | CDone => s_flag s = false \/ s_con s = CDone | _ => True end) /\
    (match s_con s with CGo => 0 <= s_offset s | CDone => s_commit s <> KNone -> 0 <= s_offset s | _ => s_commit s = KNone end) /\
    (s_loop s <> LNone -> s_con s = CDone).
  Lemma known_real o : (0 <= o \/ unknown o = true) -> unknown o = false -> 0 <= o.
  Proof. intros [A|A] B; [exact A|congruence]. Qed.
  Lemma N_step s o : real s o -> H s -> N s -> (o = DStop -> s_con s = CDone) -> N (fst (dstep s o)) /\ (forall v, In (VCommit v) (snd (dstep s o)) -> 0 <= v).
  Proof.
    intros R (_ & HA & HB & _) (N1 & N2 & N3 & N4 & N5) G. unfold N.
    destruct s as [ctx flag off com lead wg con loop com_ st]. cbn [s_ctx s_flag s_offset s_com s_lead s_wg s_con s_loop s_commit s_stop] in *.
    destruct o as [ans|o|ok|]; cbn [Starting.dstep].
    - unfold consume1, to_init, use_lead, set_con, set_off, set_lead, set_lp, set_kp. cbn [s_ctx s_flag s_offset s_com s_lead s_wg s_con s_loop s_commit s_stop].
      assert (FF : con <> CDone -> flag = false) by (intros D; destruct flag; [exfalso; apply D, HA, HB; reflexivity|reflexivity]).
      assert (LL : con <> CDone -> loop = LNone) by (intros D; destruct loop; [reflexivity|exfalso; apply D, N5; discriminate..]).
      destruct con; try rewrite (FF ltac:(discriminate)) in *; try rewrite (LL ltac:(discriminate)) in *; cbn [app] in *.
      + cbn. subst. repeat split; auto; try contradiction; try congruence.
      + destruct ans; cbn; subst; repeat split; auto; try congruence; intuition congruence.
      + destruct (group && unknown off); cbn; [subst; repeat split; auto; try congruence; contradiction|].
        destruct (unknown off) eqn:U; cbn; repeat split; auto; try congruence; try contradiction; intros; subst; try congruence. destruct N1; [assumption|discriminate].
      + destruct ans as [v|]; [|cbn; repeat split; auto; try congruence; intuition congruence].
        destruct (0 <=? v) eqn:V; cbn.
        * apply Z.leb_le in V.
          assert (U : unknown v = false) by (unfold unknown; destruct (Z.eqb_spec v (-1)), (Z.eqb_spec v (-2)); try reflexivity; lia).
          rewrite U. cbn. repeat split; auto; try congruence; intuition congruence.
        * destruct (unknown off) eqn:U; cbn; repeat split; auto; try congruence; try (intuition congruence).
      + cbn. repeat split; auto; try congruence; contradiction.
      + cbn in R. destruct lead as [[]|], ans as [v|]; cbn; repeat split; auto; try congruence; intuition congruence.
      + destruct (auto && group); cbn; repeat split; auto; try congruence; intros; try congruence; intuition congruence.
      + cbn. repeat split; auto; contradiction.
    - unfold loop1, use_lead, set_off, set_lead, set_lp. cbn [s_ctx s_flag s_offset s_com s_lead s_wg s_con s_loop s_commit s_stop].
      destruct loop; [cbn; repeat split; auto; contradiction| | | |cbn; repeat split; auto; contradiction]; specialize (N5 ltac:(discriminate)); subst con; cbn in R.
      + cbn. repeat split; auto; contradiction.
      + destruct flag; [cbn; repeat split; auto; contradiction|]. destruct lead as [[]|]; cbn; repeat split; auto; intuition congruence.
      + destruct o; cbn; repeat split; auto; contradiction.
    - unfold commit1, set_kp. cbn [s_ctx s_flag s_offset s_com s_lead s_wg s_con s_loop s_commit s_stop].
      destruct com_; [cbn; repeat split; auto; contradiction| |cbn; repeat split; auto; contradiction]. specialize (N2 eq_refl). subst con.
      assert (P : 0 <= off) by (apply N4; discriminate). destruct (off =? com); destruct ctx; cbn; repeat split; auto; try contradiction; try congruence;
        intros v [E|[]]; injection E as <-; exact P.
    - specialize (G eq_refl). subst con. unfold stop1, set_sp, set_lead. cbn [s_ctx s_flag s_offset s_com s_lead s_wg s_con s_loop s_commit s_stop].
      destruct st; [| |destruct wg|destruct lead as [[]|]|]; cbn; repeat split; auto; intuition congruence.
  Qed.
  Lemma N_run : forall l s, answers_real group auto s l -> after_start group auto s l -> H s -> N s -> forall v, In (VCommit v) (snd (drun s l)) -> 0 <= v.
  Proof.
    induction l as [|o l IH]; intros s R A K M v; [intros []|]. rewrite drun_cons. destruct A as [A1 A2]. destruct R as [R1 R2]. cbn [snd].
    destruct (N_step s o R1 K M A1) as [M' V]. rewrite in_app_iff. intros [X|X]; [exact (V v X)|].
    eapply IH; [exact R2|exact A2|apply H_step; assumption|exact M'|exact X].
  Qed.
  Lemma N_init off : 0 <= off \/ unknown off = true -> N (sinit off).
  Proof. intros U. repeat split; cbn; auto; try congruence. Qed.
End Facts.

(** ** The committing goroutine *)
Lemma committed_app a b : committed (a ++ b) = committed a ++ committed b.
Proof. apply flat_map_app. Qed.
(** it is started with the return of Consume *)
Definition K (s : sst) : Prop := s_con s <> CDone -> s_commit s = KNone.
Lemma K_init off : K (sinit off). Proof. intros _. reflexivity. Qed.
Lemma K_step group auto s o : K s -> K (fst (dstep group auto s o)).
Proof.
  unfold K. intros H. destruct s as [ctx fl o0 oc ld wg cn lp km st]; cbn [s_con s_commit] in H. destruct o as [ans|off|ok|]; cbn [dstep].
  - destruct ld as [[]|]; unfold consume1, use_lead, to_init; cbn; destruct cn; cbn;
      repeat match goal with |- context [match ?x with _ => _ end] => destruct x; cbn end; intros X; first [exfalso; apply X; reflexivity|apply H; discriminate].
  - destruct ld as [[]|]; unfold loop1, use_lead; cbn; destruct lp; cbn; repeat match goal with |- context [match ?x with _ => _ end] => destruct x; cbn end; exact H.
  - unfold commit1; cbn. destruct km; cbn; try exact H. destruct (o0 =? oc); cbn; intros X; specialize (H X); discriminate H.
  - unfold stop1; cbn. destruct st; cbn; repeat match goal with |- context [match ?x with _ => _ end] => destruct x; cbn end; exact H.
Qed.
Lemma K_run group auto : forall l s, K s -> K (fst (drun group auto s l)).
Proof.
  induction l as [|o l IH]; intros s H; [exact H|]. cbn [drun]. pose proof (K_step group auto s o H) as H1. destruct (dstep group auto s o) as [s1 e1].
  specialize (IH s1 H1). destruct (drun group auto s1 l) as [s2 e2]. exact IH.
Qed.
Lemma ctx_step group auto s o : s_ctx s = true -> s_ctx (fst (dstep group auto s o)) = true.
Proof.
  destruct s as [ctx fl o0 oc ld wg cn lp km st]; cbn. intros ->.
  destruct o; cbn [dstep]; destruct ld as [[]|]; unfold consume1, loop1, commit1, stop1, use_lead, to_init; cbn;
    repeat match goal with |- context [match ?x with _ => _ end] => destruct x; cbn end; reflexivity.
Qed.
(** how many commits there can still be *)
Definition may (s : sst) : nat := match s_commit s with KGone => 0 | KRuns => 1 | KNone => match s_con s with CDone => 0 | _ => 1 end end.
Lemma may_step group auto s o : s_ctx s = true -> K s ->
  (length (committed (snd (dstep group auto s o))) + may (fst (dstep group auto s o)) <= may s)%nat.
Proof.
  destruct s as [ctx fl o0 oc ld wg cn lp km st]; unfold K, may; cbn. intros -> H. destruct o as [ans|off|ok|]; cbn [dstep].
  - destruct ld as [[]|]; destruct cn; try rewrite H by discriminate; unfold consume1, use_lead, to_init; cbn;
      repeat match goal with |- context [match ?x with _ => _ end] => destruct x; cbn end; lia.
  - destruct ld as [[]|]; unfold loop1, use_lead; cbn [s_loop s_lead s_flag]; destruct lp, fl, off; cbn; lia.
  - unfold commit1; cbn. destruct km; cbn; try lia. destruct (o0 =? oc); cbn; lia.
  - unfold stop1; cbn [s_stop s_wg s_lead]. destruct st, wg, ld as [[]|]; cbn; lia.
Qed.
Lemma may_run group auto : forall l s, s_ctx s = true -> K s ->
  (length (committed (snd (drun group auto s l))) + may (fst (drun group auto s l)) <= may s)%nat.
Proof.
  induction l as [|o l IH]; intros s C H; [cbn; lia|]. cbn [drun]. pose proof (may_step group auto s o C H) as M.
  pose proof (K_step group auto s o H) as H1. pose proof (ctx_step group auto s o C) as C1. destruct (dstep group auto s o) as [s1 e1]. cbn [fst snd] in *.
  specialize (IH s1 C1 H1). destruct (drun group auto s1 l) as [s2 e2]. cbn [fst snd] in *. rewrite committed_app, app_length. lia.
Qed.
Lemma may_one s : (may s <= 1)%nat.
Proof. unfold may. destruct (s_commit s), (s_con s); lia. Qed.
Lemma cancelled_run group auto : forall l s, (s_stop s <> SIdle -> s_ctx s = true) -> s_stop (fst (drun group auto s l)) <> SIdle -> s_ctx (fst (drun group auto s l)) = true.
Proof.
  induction l as [|o l IH]; intros s H; [exact H|]. cbn [drun].
  assert (H1 : s_stop (fst (dstep group auto s o)) <> SIdle -> s_ctx (fst (dstep group auto s o)) = true).
  { destruct s as [ctx fl o0 oc ld wg cn lp km st]; cbn in H. destruct o; cbn [dstep]; destruct ld as [[]|]; unfold consume1, loop1, commit1, stop1, use_lead, to_init; cbn;
      repeat match goal with |- context [match ?x with _ => _ end] => destruct x; cbn end; intros X; first [reflexivity|apply H; congruence]. }
  destruct (dstep group auto s o) as [s1 e1]. specialize (IH s1 H1). destruct (drun group auto s1 l) as [s2 e2]. exact IH.
Qed.
