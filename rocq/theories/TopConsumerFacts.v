From Verif Require Import Base BaseFacts TopConsumer TopConsumerSpec.

(** ** The assignment map *)
Definition wish_map (w : wish) : bytes * list Z := match w with All t => (t, []) | These t ps => (t, ps) end.

Lemma amap_get_put : forall V k k' (v : V) m,
  amap_get k (amap_put k' v m) = if beqb k' k then Some v else amap_get k m.
Proof.
  intros V k k' v m; induction m as [|[a b] m IH]; cbn; [reflexivity|].
  destruct (beqb a k') eqn:E.
  - apply beqb_true in E as ->; cbn. destruct (beqb k' k); reflexivity.
  - cbn. rewrite IH. destruct (beqb a k) eqn:F; [|reflexivity].
    apply beqb_true in F as ->. destruct (beqb k' k) eqn:G; [|reflexivity].
    apply beqb_true in G as ->. rewrite beqb_refl in E; discriminate.
Qed.

Lemma subscription_get : forall ts t, amap_get t (subscription ts) = if existsb (beqb t) ts then Some [] else None.
Proof.
  intros ts t. unfold subscription.
  assert (G : forall m, amap_get t (fold_left (fun m t => amap_put t [] m) ts m)
              = if existsb (beqb t) ts then Some [] else amap_get (V := list Z) t m).
  { induction ts as [|a ts IH]; intros m; cbn; [reflexivity|].
    rewrite IH, amap_get_put. destruct (existsb (beqb t) ts); [destruct (beqb t a); reflexivity|].
    destruct (beqb a t) eqn:E.
    - apply beqb_true in E as ->. rewrite beqb_refl; reflexivity.
    - destruct (beqb t a) eqn:F; [apply beqb_true in F as ->; rewrite beqb_refl in E; discriminate|reflexivity]. }
  rewrite G. reflexivity.
Qed.

Lemma existsb_beqb : forall t ts, existsb (beqb t) ts = true <-> In t ts.
Proof.
  intros t ts; rewrite existsb_exists; split.
  - intros (x & H & E). apply beqb_true in E as ->; exact H.
  - intros H; exists t; rewrite beqb_refl; auto.
Qed.

Lemma amap_get_in : forall V k (v : V) m, amap_get k m = Some v -> In (k, v) m.
Proof.
  induction m as [|[a b] m IH]; cbn; [discriminate|].
  destruct (beqb a k) eqn:E; [|auto].
  apply beqb_true in E as ->. intros [= ->]; auto.
Qed.
Lemma amap_get_none : forall V k (m : list (bytes * V)), amap_get k m = None -> ~ In k (map fst m).
Proof.
  induction m as [|[a b] m IH]; cbn; [auto|].
  destruct (beqb a k) eqn:E; [discriminate|].
  intros H [->|I]; [rewrite beqb_refl in E; discriminate|exact (IH H I)].
Qed.

(** [m] is the map for the wishes [ws]. *)
Definition models (m : list (bytes * list Z)) (ws : list wish) : Prop :=
  forall t, match amap_get t m with
            | None => ~ In t (map wish_topic ws)
            | Some ps => (In (All t) ws /\ ps = []) \/ In (These t ps) ws
            end.

Lemma models_sub : forall ts, models (subscription ts) (map All ts).
Proof.
  intros ts t. rewrite subscription_get. destruct (existsb (beqb t) ts) eqn:E.
  - left; split; [|reflexivity]. apply in_map, existsb_beqb, E.
  - rewrite map_map; cbn. rewrite map_id. intros H. apply existsb_beqb in H. congruence.
Qed.
Lemma models_assign : forall m, models m (map (fun x => These (fst x) (snd x)) m).
Proof.
  intros m t. destruct (amap_get t m) as [ps|] eqn:E.
  - right. apply amap_get_in in E. apply (in_map (fun x => These (fst x) (snd x))) in E. exact E.
  - rewrite map_map; cbn. apply amap_get_none, E.
Qed.

(** ** The plan against the wishes *)
Lemma sint32_id : forall p, i32 p -> sint 32 p = p.
Proof. intros p H. apply sint_id; unfold i32 in H; lia. Qed.
Lemma map_sint_id : forall (t : bytes) ps, Forall i32 ps -> map (fun p => (t, sint 32 p)) ps = map (fun p => (t, p)) ps.
Proof. intros t ps H; induction H as [|p ps Hp _ IH]; cbn; [reflexivity|]. now rewrite IH, sint32_id. Qed.

Lemma plan_topic_in : forall ws m mds t ps q p, models m ws -> sensible ws -> answers mds ws -> In (t, ps) mds ->
  (In (q, p) (plan_topic m (t, ps)) <-> q = t /\ wanted ws mds t p).
Proof.
  intros ws m mds t ps q p HM (HW0 & HW1 & HW2) (HA0 & HA1 & HA2) HI.
  unfold plan_topic; cbn [fst snd].
  rewrite Forall_forall in HA2. pose proof (HA2 _ HI) as (ND & I32); cbn in ND, I32.
  assert (HT : In t (map wish_topic ws)) by (apply HA1; apply (in_map fst) in HI; exact HI).
  assert (U : forall qs, In (t, qs) mds -> qs = ps).
  { intros qs Hq. clear -HA0 HI Hq. induction mds as [|[a b] mds IH]; [destruct HI|].
    cbn in HA0; inversion HA0 as [|? ? NI ND]; subst.
    destruct HI as [E|HI], Hq as [F|Hq]; [congruence| | |auto].
    - injection E as -> ->. exfalso; apply NI. apply (in_map fst) in Hq; exact Hq.
    - injection F as -> ->. exfalso; apply NI. apply (in_map fst) in HI; exact HI. }
  specialize (HM t). destruct (amap_get t m) as [gs|]; [|contradiction].
  destruct HM as [[HAll ->]|HThese].
  - rewrite map_sint_id by exact I32. rewrite in_map_iff. split.
    + intros (x & [= <- <-] & Hx). split; [reflexivity|]. left; split; [exact HAll|eauto].
    + intros (-> & [(_ & qs & Hq & Hp)|(qs & Hq & Hp)]).
      * apply U in Hq as ->. exists p; auto.
      * destruct (HW2 _ _ Hq) as [C _]; contradiction.
  - destruct (HW1 _ _ HThese) as (NE & NDg & Ig). destruct gs as [|g gs]; [congruence|].
    rewrite map_sint_id by exact Ig. rewrite in_map_iff. split.
    + intros (x & [= <- <-] & Hx). split; [reflexivity|]. right; eauto.
    + intros (-> & [(HAll & _)|(qs & Hq & Hp)]).
      * destruct (HW2 _ _ HThese) as [C _]; contradiction.
      * destruct (HW2 _ _ HThese) as [_ C]. apply C in Hq as ->. exists p; auto.
Qed.

Lemma plan_in : forall ws m mds t p, models m ws -> sensible ws -> answers mds ws ->
  (In (t, p) (plan m mds) <-> wanted ws mds t p).
Proof.
  intros ws m mds t p HM HW HA. unfold plan. rewrite in_flat_map. split.
  - intros ([t' ps] & HI & HP). apply (plan_topic_in ws m mds t' ps t p HM HW HA HI) in HP as (-> & H). exact H.
  - intros H.
    assert (HT : In t (map fst mds)).
    { destruct HA as (_ & HA1 & _). apply HA1. destruct H as [(H & _)|(ps & H & _)]; apply (in_map wish_topic) in H; exact H. }
    apply in_map_iff in HT as ([t' ps] & E & HI); cbn in E; subst t'.
    exists (t, ps). split; [exact HI|]. apply (plan_topic_in ws m mds t ps t p HM HW HA HI). auto.
Qed.

Lemma NoDup_flat_disj : forall A B (f : A -> list B) l,
  NoDup l -> (forall x, In x l -> NoDup (f x)) -> (forall x y b, In x l -> In y l -> In b (f x) -> In b (f y) -> x = y) ->
  NoDup (flat_map f l).
Proof.
  induction l as [|a l IH]; cbn; intros ND HF HD; [constructor|].
  inversion ND as [|? ? NI ND']; subst.
  assert (NDl : NoDup (flat_map f l)).
  { apply IH; [exact ND'|intros; apply HF; auto|intros x y b Hx Hy; apply HD; auto]. }
  assert (NDa : NoDup (f a)) by (apply HF; auto).
  clear IH HF.
  assert (DJ : forall b, In b (f a) -> ~ In b (flat_map f l)).
  { intros b Hb Hin. apply in_flat_map in Hin as (y & Hy & Hby).
    assert (a = y) by (apply (HD a y b); auto). subst; contradiction. }
  induction NDa as [|b fa Hb NDa IH]; cbn; [exact NDl|].
  constructor.
  - rewrite in_app_iff. intros [H|H]; [contradiction|]. exact (DJ b (or_introl eq_refl) H).
  - apply IH. intros c Hc; apply DJ; right; exact Hc.
Qed.

Lemma plan_nodup : forall ws m mds, models m ws -> sensible ws -> answers mds ws -> NoDup (plan m mds).
Proof.
  intros ws m mds HM HW HA. unfold plan. apply NoDup_flat_disj.
  - destruct HA as (ND & _). eapply NoDup_map_inv; exact ND.
  - intros [t ps] HI. unfold plan_topic; cbn [fst snd].
    destruct HA as (_ & HA1 & HA2). rewrite Forall_forall in HA2. destruct (HA2 _ HI) as (ND & I32); cbn in ND, I32.
    assert (G : forall l, NoDup l -> Forall i32 l -> NoDup (map (fun p => (t, sint 32 p)) l)).
    { intros l N I. rewrite map_sint_id by exact I. apply FinFun.Injective_map_NoDup; [|exact N]. intros x y [= ->]; reflexivity. }
    specialize (HM t). destruct (amap_get t m) as [gs|] eqn:E; [|apply G; assumption].
    destruct gs as [|g gs]; [apply G; assumption|].
    destruct HM as [[_ C]|HT]; [discriminate|].
    destruct HW as (_ & HW1 & _). destruct (HW1 _ _ HT) as (_ & N & I). apply G; assumption.
  - intros [t ps] [t' ps'] [q p] H1 H2 I1 I2.
    unfold plan_topic in I1, I2; cbn in I1, I2. apply in_map_iff in I1 as (? & [= -> _] & _).
    apply in_map_iff in I2 as (? & [= -> _] & _).
    destruct HA as (ND & _). clear -ND H1 H2.
    induction mds as [|[a b] mds IH]; [destruct H1|].
    cbn in ND; inversion ND as [|? ? NI ND']; subst.
    destruct H1 as [E|H1], H2 as [F|H2]; [congruence| | |auto].
    + injection E as -> ->. exfalso; apply NI. apply (in_map fst) in H2; exact H2.
    + injection F as -> ->. exfalso; apply NI. apply (in_map fst) in H1; exact H1.
Qed.
