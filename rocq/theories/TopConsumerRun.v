From Verif Require Import Base BaseFacts TopConsumer TopConsumerSpec TopConsumerFacts.

Lemma last_wish_app : forall a w b, last_wish w (a ++ b) = last_wish (last_wish w a) b.
Proof. induction a as [|o a IH]; intros w b; cbn; [reflexivity|]. destruct o; apply IH. Qed.

Lemma trun_snoc : forall ops s o, trun s (ops ++ [o]) =
  rbind (trun s ops) (fun '(s', e) => rbind (tstep s' o) (fun '(s'', e') => Ok (s'', e ++ e'))).
Proof.
  induction ops as [|x ops IH]; intros s o; cbn [trun app].
  - cbn [rbind]. destruct (tstep s o) as [[s' e]| | |]; cbn [rbind]; [|reflexivity..].
    now rewrite app_nil_r.
  - destruct (tstep s x) as [[s' e]| | |]; cbn [rbind]; [|reflexivity..].
    rewrite IH. destruct (trun s' ops) as [[s1 e1]| | |]; cbn [rbind]; [|reflexivity..].
    destruct (tstep s1 o) as [[s2 e2]| | |]; cbn [rbind]; [|reflexivity..].
    now rewrite app_assoc.
Qed.

Lemma starts_app : forall a b, starts (a ++ b) = starts a ++ starts b.
Proof. intros; unfold starts; apply flat_map_app. Qed.

Lemma upd_nth_id : forall A (l : list A) i f, (forall x, In x l -> f x = x) -> upd_nth i f l = l.
Proof.
  induction l as [|x l IH]; intros [|i] f H; cbn; try reflexivity.
  - now rewrite H by (left; reflexivity).
  - now rewrite IH by (intros; apply H; right; assumption).
Qed.
Lemma upd_nth_map : forall A B (g : A -> B) f (l : list A) i, (forall x, g (f x) = g x) -> map g (upd_nth i f l) = map g l.
Proof. induction l as [|x l IH]; intros [|i] H; cbn; [reflexivity..|now rewrite H|now rewrite IH]. Qed.
Lemma upd_nth_Forall : forall A (P : A -> Prop) f (l : list A) i, (forall x, P x -> P (f x)) -> Forall P l -> Forall P (upd_nth i f l).
Proof. induction l as [|x l IH]; intros [|i] H F; cbn; inversion F; subst; constructor; auto. Qed.
Lemma upd_nth_length : forall A f (l : list A) i, length (upd_nth i f l) = length l.
Proof. induction l as [|x l IH]; intros [|i]; cbn; auto. Qed.

Definition awake (s : sc) : Prop := sc_stop s = false.
Definition off_of (s : tst) : Z := if t_from s then -2 else -1.

(** [P] holds of the assignment and metadata the plan was made from *)
Definition planned (w0 : list wish) (ops : list top_op) (l : list (bytes * Z)) : Prop :=
  exists m mds b a, ops = b ++ OMeta mds :: a /\ models m (last_wish w0 b) /\ plan m mds = l.
Lemma planned_snoc : forall w0 ops l o, planned w0 ops l -> planned w0 (ops ++ [o]) l.
Proof. intros w0 ops l o (m & mds & b & a & -> & H). exists m, mds, b, (a ++ [o]). split; [|exact H]. now rewrite <- app_assoc. Qed.

Definition inv (w0 : list wish) (from : bool) (ops : list top_op) (s : tst) (tr : list tev) : Prop :=
  t_closed s = false /\ t_from s = from /\ models (t_assign s) (last_wish w0 ops) /\ Forall awake (t_scs s) /\
  let off := if from then -2 else -1 in
  match t_phase s with
  | PIdle | PMeta => t_scs s = [] /\ starts tr = [] /\ t_wg s = 0
  | PCoord todo => todo <> [] /\ planned w0 ops (map sc_part (t_scs s) ++ todo) /\ starts tr = [] /\ t_wg s = 0
  | PStart i => planned w0 ops (map sc_part (t_scs s)) /\ (i <= length (t_scs s))%nat /\
                starts tr = map (fun p => (p, off)) (firstn i (map sc_part (t_scs s))) /\ t_wg s = Z.of_nat i
  | PDone true => planned w0 ops (map sc_part (t_scs s)) /\
                starts tr = map (fun p => (p, off)) (map sc_part (t_scs s)) /\ t_wg s = zlen (t_scs s)
  | PDone false => False
  end.

Lemma firstn_snoc_nth : forall A (l : list A) i x, nth_error l i = Some x -> firstn (S i) l = firstn i l ++ [x].
Proof.
  induction l as [|y l IH]; intros [|i] x H; cbn in *; try discriminate.
  - now injection H as ->.
  - now rewrite (IH i x H).
Qed.

Lemma inv_step : forall w0 from ops s tr o s' e, inv w0 from ops s tr -> o <> OAwaitClose ->
  tstep s o = Ok (s', e) -> inv w0 from (ops ++ [o]) s' (tr ++ e).
Proof.
  intros w0 from ops s tr o s' e (HC & HF & HM & HA & HP) NC HS.
  assert (HM' : match o with OSubscribe _ | OAssign _ => True | _ => models (t_assign s) (last_wish w0 (ops ++ [o])) end).
  { rewrite last_wish_app. destruct o; cbn; auto. }
  assert (KEEP : forall m, models m (last_wish w0 (ops ++ [o])) ->
            inv w0 from (ops ++ [o]) (with_assign s m) (tr ++ [])).
  { intros m Hm. unfold inv; cbn. rewrite app_nil_r. repeat (split; [assumption|]).
    destruct (t_phase s) as [| |todo|i|[|]]; cbn in HP |- *; intuition auto using planned_snoc. }
  assert (SAME : match o with OSubscribe _ | OAssign _ => True | _ => inv w0 from (ops ++ [o]) s (tr ++ []) end).
  { assert (ES : with_assign s (t_assign s) = s) by (destruct s; reflexivity).
    destruct o; auto; specialize (KEEP (t_assign s) HM'); rewrite ES in KEEP; exact KEEP. }
  destruct o as [ts|m| | |mds|ok| | |]; [| | | | | | |congruence|].
  - cbn in HS. injection HS as <- <-. apply KEEP. rewrite last_wish_app; cbn. apply models_sub.
  - cbn in HS. injection HS as <- <-. apply KEEP. rewrite last_wish_app; cbn. apply models_assign.
  - cbn in HS. destruct (t_phase s) eqn:EP; try (injection HS as <- <-; exact SAME).
    rewrite HC in HS. injection HS as <- <-.
    unfold inv; cbn. rewrite starts_app; cbn. rewrite app_nil_r. auto.
  - cbn in HS. destruct (t_phase s) eqn:EP; try (injection HS as <- <-; exact SAME).
    rewrite HC in HS. injection HS as <- <-.
    unfold inv; cbn. rewrite EP, starts_app; cbn. rewrite app_nil_r. auto.
  - cbn in HS. destruct (t_phase s) eqn:EP; try (injection HS as <- <-; exact SAME).
    rewrite HC in HS. cbn in HP. destruct HP as (S0 & T0 & W0).
    assert (PL : planned w0 (ops ++ [OMeta mds]) (plan (t_assign s) mds)).
    { exists (t_assign s), mds, ops, []. auto. }
    destruct (plan (t_assign s) mds) as [|x l] eqn:EPl.
    + injection HS as <- <-. unfold inv; cbn. rewrite app_nil_r. repeat split; auto.
    + injection HS as <- <-. unfold inv; cbn. rewrite app_nil_r. repeat split; auto; try discriminate.
  - cbn in HS. destruct ok.
    + destruct (t_phase s) as [| |todo|i|c] eqn:EP; try (injection HS as <- <-; exact SAME).
      cbn in HP. destruct HP as (NE & PL & T0 & W0). destruct todo as [|p todo]; [congruence|].
      assert (PL' : planned w0 (ops ++ [OCoord true]) (map sc_part (t_scs s ++ [mkSC p false None]) ++ todo)).
      { apply planned_snoc. rewrite map_app, <- app_assoc. exact PL. }
      assert (AW : Forall awake (t_scs s ++ [mkSC p false None])).
      { apply Forall_app; split; [exact HA|]. constructor; [reflexivity|constructor]. }
      destruct todo as [|p' todo]; injection HS as <- <-; unfold inv; cbn; rewrite app_nil_r.
      * rewrite app_nil_r in PL'. repeat (split; [auto; fail|]). split; [lia|]. auto.
      * repeat (split; [auto; fail|]). split; [discriminate|]. auto.
    + destruct (t_phase s); injection HS as <- <-; exact SAME.
  - cbn in HS. destruct (t_phase s) as [| |todo|i|c] eqn:EP; try (injection HS as <- <-; exact SAME).
    cbn in HP. destruct HP as (PL & LE & T & W).
    destruct (nth_error (t_scs s) i) as [x|] eqn:EN.
    + injection HS as <- <-.
      assert (AX : sc_stop x = false).
      { apply nth_error_In in EN. rewrite Forall_forall in HA. exact (HA _ EN). }
      rewrite AX.
      assert (MP : forall o, map sc_part (upd_nth i (sc_consume o) (t_scs s)) = map sc_part (t_scs s)).
      { intros o. apply upd_nth_map. intros y; unfold sc_consume; destruct (sc_stop y); reflexivity. }
      unfold inv; cbn -[firstn]. rewrite starts_app. cbn -[firstn]. rewrite MP, upd_nth_length.
      rewrite HF in *.
      repeat (split; [auto; fail|]).
      split. { apply upd_nth_Forall; [|exact HA]. intros y Hy; unfold sc_consume, awake in *. rewrite Hy; reflexivity. }
      split; [apply planned_snoc, PL|].
      split. { assert (i < length (t_scs s))%nat by (apply nth_error_Some; congruence). lia. }
      split; [|rewrite W; lia].
      rewrite (firstn_snoc_nth _ _ i (sc_part x)), map_app, T; [reflexivity|].
      now rewrite nth_error_map, EN.
    + injection HS as <- <-. apply nth_error_None in EN.
      assert (i = length (t_scs s)) by lia. subst i.
      unfold inv; cbn. rewrite app_nil_r. repeat (split; [auto; fail|]).
      split; [apply planned_snoc, PL|]. split; [|exact W].
      rewrite T. rewrite firstn_all2; [reflexivity|]. rewrite map_length; lia.
  - cbn in HS. destruct ((0 <? t_waits s) && (t_wg s =? 0)); injection HS as <- <-; [|exact SAME].
    exact SAME.
Qed.

Lemma inv_run : forall topics from ops s tr, trun (tinit topics from) ops = Ok (s, tr) -> ~ In OAwaitClose ops ->
  inv (map All topics) from ops s tr.
Proof.
  intros topics from ops; induction ops as [|o ops IH] using rev_ind; intros s tr HR NI.
  - cbn in HR. injection HR as <- <-. unfold inv, tinit; cbn. repeat split; auto using models_sub.
  - rewrite trun_snoc in HR. destruct (trun (tinit topics from) ops) as [[s1 e1]| | |]; cbn [rbind] in HR; try discriminate.
    destruct (tstep s1 o) as [[s2 e2]| | |] eqn:E; cbn [rbind] in HR; try discriminate.
    injection HR as <- <-. eapply inv_step; [apply IH; [reflexivity|]| |exact E].
    + intros C; apply NI, in_or_app; auto.
    + intros ->; apply NI, in_or_app; right; left; reflexivity.
Qed.

(** ** C77 *)
Lemma consume_ok : forall topics from ops s tr,
  trun (tinit topics from) ops = Ok (s, tr) -> ~ In OAwaitClose ops -> t_phase s = PDone true ->
  (forall b mds a, ops = b ++ OMeta mds :: a -> let ws := last_wish (map All topics) b in sensible ws /\ answers mds ws) ->
  exists b mds a, ops = b ++ OMeta mds :: a /\
    NoDup (map fst (starts tr)) /\
    forall t p o, In ((t, p), o) (starts tr) <->
      wanted (last_wish (map All topics) b) mds t p /\ o = (if from then -2 else -1).
Proof.
  intros topics from ops s tr HR NI HD HG.
  pose proof (inv_run _ _ _ _ _ HR NI) as (_ & _ & _ & _ & HP). rewrite HD in HP. cbn in HP.
  destruct HP as ((m & mds & b & a & EO & HM & HPL) & T & _).
  exists b, mds, a. split; [exact EO|].
  destruct (HG b mds a EO) as (HW & HA).
  rewrite T, <- HPL. split.
  - rewrite map_map; cbn. rewrite map_id. eapply plan_nodup; eassumption.
  - intros t p o. rewrite in_map_iff. split.
    + intros (x & [= -> <-] & Hx). split; [|reflexivity]. eapply plan_in; eassumption.
    + intros (Hw & ->). exists (t, p). split; [reflexivity|]. eapply plan_in; eassumption.
Qed.

(** ** C78 *)
Lemma stop_all_ok : forall l wg, zlen l <= wg -> exists l', stop_all l wg = Ok (l', wg - zlen l) /\ l' = map sc_halt l.
Proof.
  induction l as [|x l IH]; intros wg H; cbn [stop_all map].
  - exists []. split; [f_equal; f_equal; unfold zlen; cbn; lia|reflexivity].
  - rewrite zlen_cons in *. pose proof (zlen_nonneg l). replace (wg <=? 0) with false by lia.
    destruct (IH (wg - 1)) as (l' & E & ->); [lia|]. rewrite E; cbn [rbind].
    eexists. split; [|reflexivity]. do 2 f_equal. lia.
Qed.
Lemma stop_all_panic : forall l wg, stop_all l wg = Panic <-> Z.max 0 wg < zlen l.
Proof.
  induction l as [|x l IH]; intros wg; cbn [stop_all].
  - split; [discriminate|unfold zlen; cbn; lia].
  - rewrite zlen_cons. pose proof (zlen_nonneg l). destruct (wg <=? 0) eqn:E.
    + split; [lia|reflexivity].
    + specialize (IH (wg - 1)). destruct (stop_all l (wg - 1)) as [[l' w]| | |]; cbn [rbind]; split; intros; try discriminate; try reflexivity.
      * exfalso. assert (C : Z.max 0 (wg - 1) < zlen l) by lia. apply IH in C; discriminate.
      * exfalso. assert (C : Z.max 0 (wg - 1) < zlen l) by lia. apply IH in C; discriminate.
      * assert (C : Z.max 0 (wg - 1) < zlen l) by (apply IH; reflexivity). lia.
      * exfalso. assert (C : Z.max 0 (wg - 1) < zlen l) by lia. apply IH in C; discriminate.
Qed.

Lemma close_after_ok : forall topics from ops s tr,
  trun (tinit topics from) ops = Ok (s, tr) -> ~ In OAwaitClose ops -> t_phase s = PDone true ->
  exists s', trun s [OAwaitClose; OWaited] = Ok (s', []) /\
    Forall (fun c => sc_stop c = true /\ sc_live c = None) (t_scs s') /\ map sc_part (t_scs s') = map sc_part (t_scs s) /\
    t_wg s' = 0 /\ t_shut s' = true.
Proof.
  intros topics from ops s tr HR NI HD.
  pose proof (inv_run _ _ _ _ _ HR NI) as (_ & _ & _ & _ & HP). rewrite HD in HP. cbn in HP.
  destruct HP as (_ & _ & W).
  assert (WT : 0 <= t_waits s).
  { clear -HR. revert s tr HR. induction ops as [|o ops IH] using rev_ind; intros s tr HR.
    - injection HR as <- <-; cbn; lia.
    - rewrite trun_snoc in HR. destruct (trun (tinit topics from) ops) as [[s1 e1]| | |]; cbn [rbind] in HR; try discriminate.
      specialize (IH _ _ eq_refl).
      destruct (tstep s1 o) as [[s2 e2]| | |] eqn:E; cbn [rbind] in HR; try discriminate. injection HR as <- <-.
      destruct o as [ts|m| | |mds|ok| | |]; cbn in E.
      1-7: destruct (t_phase s1) as [| |[|? [|? ?]]|i|c]; try destruct ok; try destruct (t_closed s1); try destruct (plan _ _); try destruct (nth_error _ _);
           injection E as <- <-; cbn; exact IH.
      + destruct (stop_all (t_scs s1) (t_wg s1)) as [[l w]| | |]; cbn in E; try discriminate. injection E as <- <-; cbn; lia.
      + destruct ((0 <? t_waits s1) && (t_wg s1 =? 0)) eqn:F; injection E as <- <-; cbn; lia. }
  destruct (stop_all_ok (t_scs s) (t_wg s)) as (l & E & ->); [lia|].
  cbn. rewrite E; cbn. rewrite W, Z.sub_diag. cbn.
  replace (0 <? t_waits s + 1) with true by lia. cbn.
  eexists; split; [reflexivity|]; cbn. repeat split.
  - apply Forall_forall. intros c Hc. apply in_map_iff in Hc as (x & <- & _). cbn; auto.
  - rewrite map_map. reflexivity.
Qed.

(** A close before the metadata arrived *)
Lemma early_close_inv : forall ops s, t_closed s = true -> t_scs s = [] ->
  match t_phase s with PIdle | PMeta | PDone false => True | _ => False end ->
  exists s' tr, trun s ops = Ok (s', tr) /\ starts tr = [] /\ t_scs s' = [] /\
    match t_phase s' with PIdle | PMeta | PDone false => True | _ => False end.
Proof.
  induction ops as [|o ops IH]; intros s HC HS HP; cbn.
  - exists s, []. auto.
  - assert (G : exists s1 e1, tstep s o = Ok (s1, e1) /\ starts e1 = [] /\ t_closed s1 = true /\ t_scs s1 = [] /\
       match t_phase s1 with PIdle | PMeta | PDone false => True | _ => False end).
    { unfold tstep.
      destruct o as [ts|m| | |mds|ok| | |]; try (eexists; eexists; split; [reflexivity|]; cbn; auto; fail);
      try (destruct (t_phase s) as [| |todo|i|[|]] eqn:EP; try contradiction; rewrite ?HC; try destruct ok;
           eexists; eexists; (split; [reflexivity|]); cbn; rewrite ?EP; auto; fail).
      - rewrite HS; cbn. eexists; eexists; split; [reflexivity|]; cbn; auto.
      - destruct ((0 <? t_waits s) && (t_wg s =? 0)); eexists; eexists; (split; [reflexivity|]); cbn; auto. }
    destruct G as (s1 & e1 & -> & S1 & C1 & L1 & P1). cbn.
    destruct (IH s1 C1 L1 P1) as (s2 & tr & -> & S2 & L2 & P2). cbn.
    exists s2, (e1 ++ tr). rewrite starts_app, S1, S2. auto.
Qed.
