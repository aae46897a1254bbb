From Verif Require Import Base BaseFacts Wire Prims PrimsFacts Group GroupFacts Assign SortFacts.

(** *** association lists *)
Section Maps.
  Context {V : Type}.
  Implicit Type m : list (bytes * V).
  Definition keys m := map fst m.

  Lemma mset_fresh k v m : ~ In k (keys m) -> mset k v m = m ++ [(k, v)].
  Proof.
    induction m as [|[k' v'] m IH]; cbn; intros H; [reflexivity|].
    destruct (beqb k k') eqn:E; [apply beqb_true in E; subst; tauto|].
    rewrite IH by tauto. reflexivity.
  Qed.
  Lemma mset_keys k v m : In k (keys m) -> keys (mset k v m) = keys m.
  Proof.
    induction m as [|[k' v'] m IH]; cbn; [tauto|]. intros H.
    destruct (beqb k k') eqn:E; cbn; [apply beqb_true in E; subst; reflexivity|].
    apply beqb_false in E. destruct H as [H|H]; [congruence|].
    f_equal. apply IH; exact H.
  Qed.
  Lemma mget_mset k v m k' : mget k' (mset k v m) = if beqb k' k then Some v else mget k' m.
  Proof.
    induction m as [|[a b] m IH]; cbn.
    - reflexivity.
    - destruct (beqb k a) eqn:E; cbn.
      + apply beqb_true in E. subst a. destruct (beqb k' k); reflexivity.
      + rewrite IH. destruct (beqb k' a) eqn:E1; [|reflexivity].
        destruct (beqb k' k) eqn:E2; [|reflexivity].
        apply beqb_true in E1, E2. subst. rewrite beqb_refl in E. discriminate.
  Qed.
  Lemma mget_in k v m : mget k m = Some v -> In (k, v) m.
  Proof.
    induction m as [|[a b] m IH]; cbn; [discriminate|].
    destruct (beqb k a) eqn:E; [apply beqb_true in E; intros [= <-]; subst; left; reflexivity|].
    intros H; right; apply IH, H.
  Qed.
  Lemma in_mget k v m : NoDup (keys m) -> In (k, v) m -> mget k m = Some v.
  Proof.
    induction m as [|[a b] m IH]; cbn; intros Hn Hi; [contradiction|].
    inversion Hn as [|? ? Hna Hn']; subst.
    destruct Hi as [[= -> ->]|Hi]; [rewrite beqb_refl; reflexivity|].
    destruct (beqb k a) eqn:E; [|apply IH; assumption].
    apply beqb_true in E; subst. exfalso; apply Hna. apply (in_map fst) in Hi. exact Hi.
  Qed.
  Lemma mget_none k m : mget k m = None <-> ~ In k (keys m).
  Proof.
    induction m as [|[a b] m IH]; cbn; [tauto|].
    destruct (beqb k a) eqn:E; [apply beqb_true in E; subst; split; [discriminate|tauto]|].
    apply beqb_false in E. rewrite IH. split; intros H; [|tauto]. intros [H1|H1]; [congruence|tauto].
  Qed.
  Lemma mget_some_in k m : In k (keys m) -> exists v, mget k m = Some v.
  Proof. intros H. destruct (mget k m) eqn:E; [eauto|]. apply mget_none in E. contradiction. Qed.
  Lemma mget_perm k m1 m2 : NoDup (keys m1) -> Permutation m1 m2 -> mget k m1 = mget k m2.
  Proof.
    intros Hn HP.
    assert (Hn2 : NoDup (keys m2)) by (eapply Permutation_NoDup; [apply Permutation_map; exact HP|exact Hn]).
    destruct (mget k m1) as [v|] eqn:E1.
    - apply mget_in in E1. symmetry. apply in_mget; [exact Hn2|]. eapply Permutation_in; eassumption.
    - symmetry. apply mget_none. apply mget_none in E1. intros H. apply E1.
      eapply Permutation_in; [apply Permutation_map, Permutation_sym; exact HP|exact H].
  Qed.
End Maps.

(** *** the loop of assignPartitions *)
Fixpoint segs (ms : list bytes) (i w f start : Z) (P : list Z) : list (bytes * list Z) :=
  match ms with
  | [] => []
  | m :: ms' =>
      let len := f + (if i <? w then 1 else 0) in
      (m, firstn (Z.to_nat len) (skipn (Z.to_nat start) P)) :: segs ms' (i + 1) w f (start + len) P
  end.

Lemma segs_keys ms : forall i w f start P, keys (segs ms i w f start P) = ms.
Proof. induction ms as [|m ms IH]; intros; cbn; [reflexivity|]. f_equal. apply IH. Qed.

Lemma assign_loop_segs : forall ms i w c f start P rst,
  0 <= i -> 0 <= w -> 0 <= f -> 0 <= start ->
  c = (if 0 <? w then f + 1 else f) ->
  start + zlen ms * f + (Z.max 0 (Z.min (w - i) (zlen ms))) <= zlen P ->
  NoDup (keys rst ++ ms) ->
  assign_loop ms i w c f start P rst = Ok (rst ++ segs ms i w f start P).
Proof.
  induction ms as [|m ms IH]; intros i w c f start P rst Hi Hw Hf Hs Hc Hle Hnd; cbn [assign_loop segs].
  - rewrite app_nil_r; reflexivity.
  - rewrite zlen_cons in Hle. pose proof (zlen_nonneg ms).
    assert (El : (if i <? w then c else f) = f + (if i <? w then 1 else 0)).
    { subst c. destruct (Z.ltb_spec i w), (Z.ltb_spec 0 w); lia. }
    rewrite El. cbv zeta.
    destruct (Z.ltb_spec (zlen P) (start + (f + (if i <? w then 1 else 0)))) as [Hbad|_].
    { exfalso. destruct (Z.ltb_spec i w); nia. }
    rewrite IH; try lia.
    + rewrite mset_fresh.
      * rewrite <- app_assoc. reflexivity.
      * apply NoDup_remove in Hnd. intros Hin. apply (proj2 Hnd). apply in_or_app; left; exact Hin.
    + destruct (i <? w); lia.
    + destruct (Z.ltb_spec i w); nia.
    + rewrite mset_fresh.
      * unfold keys. rewrite map_app. cbn [map fst]. rewrite <- app_assoc. exact Hnd.
      * apply NoDup_remove in Hnd. intros Hin. apply (proj2 Hnd). apply in_or_app; left; exact Hin.
Qed.

Lemma skipn_firstn_step {A} (a b : nat) (l : list A) :
  firstn a (skipn b l) ++ skipn (b + a) l = skipn b l.
Proof.
  revert l; induction b as [|b IH]; intros l; cbn [Nat.add skipn]; [apply firstn_skipn|].
  destruct l as [|x l]; [rewrite firstn_nil; reflexivity|apply IH].
Qed.

Lemma segs_concat : forall ms i w f start P,
  0 <= i -> 0 <= w -> 0 <= f -> 0 <= start ->
  start + zlen ms * f + (Z.max 0 (Z.min (w - i) (zlen ms))) = zlen P ->
  flat_map snd (segs ms i w f start P) = skipn (Z.to_nat start) P.
Proof.
  induction ms as [|m ms IH]; intros i w f start P Hi Hw Hf Hs He; cbn [segs flat_map].
  - rewrite skipn_all2; [reflexivity|]. unfold zlen in He. cbn [length] in He. lia.
  - rewrite zlen_cons in He. pose proof (zlen_nonneg ms). cbv zeta. cbn [snd].
    rewrite IH; try (destruct (Z.ltb_spec i w); nia); try lia.
    rewrite (Z2Nat.inj_add start) by (destruct (i <? w); lia).
    apply skipn_firstn_step.
Qed.
Lemma segs_sizes : forall ms i w f start P n m ps,
  0 <= i -> 0 <= w -> 0 <= f -> 0 <= start ->
  start + zlen ms * f + (Z.max 0 (Z.min (w - i) (zlen ms))) <= zlen P ->
  nth_error (segs ms i w f start P) n = Some (m, ps) ->
  nth_error ms n = Some m /\ zlen ps = f + (if i + Z.of_nat n <? w then 1 else 0).
Proof.
  induction ms as [|m0 ms IH]; intros i w f start P n m ps Hi Hw Hf Hs He Hn; cbn [segs] in Hn.
  - destruct n; discriminate.
  - rewrite zlen_cons in He. pose proof (zlen_nonneg ms). cbv zeta in Hn.
    destruct n as [|n]; cbn [nth_error] in Hn.
    + injection Hn as <- <-. split; [reflexivity|].
      replace (i + Z.of_nat 0) with i by lia.
      unfold zlen in *. rewrite firstn_length, skipn_length.
      destruct (Z.ltb_spec i w); nia.
    + apply IH in Hn; try lia.
      * destruct Hn as [H1 H2]. split; [exact H1|]. rewrite H2.
        replace (i + 1 + Z.of_nat n) with (i + Z.of_nat (S n)) by lia. reflexivity.
      * destruct (i <? w); lia.
      * destruct (Z.ltb_spec i w); nia.
Qed.
Lemma segs_sub : forall ms i w f start P m ps x,
  In (m, ps) (segs ms i w f start P) -> In x ps -> In x P.
Proof.
  induction ms as [|m0 ms IH]; intros i w f start P m ps x Hin Hx; cbn [segs] in Hin; [contradiction|].
  destruct Hin as [[= _ <-]|Hin]; [|eapply IH; eassumption].
  rewrite <- (firstn_skipn (Z.to_nat start) P). apply in_or_app; right.
  rewrite <- (firstn_skipn (Z.to_nat (f + (if i <? w then 1 else 0))) (skipn (Z.to_nat start) P)).
  apply in_or_app; left. exact Hx.
Qed.

(** plan for one topic *)
Definition plan (subs : list bytes) (P : list Z) : list (bytes * list Z) :=
  segs subs 0 (zlen P mod zlen subs) (zlen P / zlen subs) 0 P.

Lemma plan_arith (k n : Z) : 0 < k -> 0 <= n ->
  0 + k * (n / k) + Z.max 0 (Z.min (n mod k - 0) k) = n /\ 0 <= n mod k /\ 0 <= n / k.
Proof.
  intros Hk Hn. pose proof (Z.mod_pos_bound n k Hk). pose proof (Z.div_mod n k ltac:(lia)).
  assert (0 <= n / k) by (apply Z.div_pos; lia). lia.
Qed.

Lemma assignPartitions_plan subs P : subs <> [] -> NoDup subs ->
  assignPartitions subs P = Ok (plan subs P).
Proof.
  intros Hne Hnd. unfold assignPartitions, plan.
  assert (0 < zlen subs) by (destruct subs; [congruence|]; rewrite zlen_cons; pose proof (zlen_nonneg subs); lia).
  pose proof (zlen_nonneg P). destruct (plan_arith (zlen subs) (zlen P)) as [A [B C]]; try lia.
  destruct (Z.eqb_spec (zlen subs) 0); [lia|].
  cbv zeta. rewrite assign_loop_segs; try lia; try reflexivity. exact Hnd.
Qed.
Lemma plan_keys subs P : keys (plan subs P) = subs.
Proof. apply segs_keys. Qed.
Lemma plan_concat subs P : subs <> [] -> flat_map snd (plan subs P) = P.
Proof.
  intros Hne. unfold plan.
  assert (0 < zlen subs) by (destruct subs; [congruence|]; rewrite zlen_cons; pose proof (zlen_nonneg subs); lia).
  pose proof (zlen_nonneg P). destruct (plan_arith (zlen subs) (zlen P)) as [A [B C]]; try lia.
  rewrite segs_concat; try lia. reflexivity.
Qed.
Lemma plan_sizes subs P n m ps : nth_error (plan subs P) n = Some (m, ps) ->
  nth_error subs n = Some m /\
  zlen ps = zlen P / zlen subs + (if Z.of_nat n <? zlen P mod zlen subs then 1 else 0).
Proof.
  intros Hn. assert (Hne : subs <> []) by (intros ->; unfold plan in Hn; cbn in Hn; destruct n; discriminate).
  assert (0 < zlen subs) by (destruct subs; [congruence|]; rewrite zlen_cons; pose proof (zlen_nonneg subs); lia).
  pose proof (zlen_nonneg P). destruct (plan_arith (zlen subs) (zlen P)) as [A [B C]]; try lia.
  unfold plan in Hn. apply segs_sizes in Hn; try lia.
  destruct Hn as [H1 H2]. split; [exact H1|]. rewrite H2. rewrite Z.add_0_l. reflexivity.
Qed.

(** *** members and topics *)
Definition subscribes (t : bytes) (m : member) : bool :=
  match newProtocolMetadata (snd m) with Ok pm => existsb (beqb t) (pm_subs pm) | _ => false end.
Definition parses (m : member) : Prop := exists pm, newProtocolMetadata (snd m) = Ok pm.

Lemma membersWithTopic_filter t ms : Forall parses ms ->
  membersWithTopic t ms = Ok (map fst (filter (subscribes t) ms)).
Proof.
  induction 1 as [|m ms [pm Hm] Hms IH]; cbn [membersWithTopic filter map]; [reflexivity|].
  rewrite Hm. cbn [rbind]. rewrite IH. cbn [rbind]. 
  assert (subscribes t m = existsb (beqb t) (pm_subs pm)) as -> by (unfold subscribes; rewrite Hm; reflexivity).
  destruct (existsb (beqb t) (pm_subs pm)); reflexivity.
Qed.

Definition subs_of (ms : list member) (t : bytes) : list bytes :=
  isort bltb (map fst (filter (subscribes t) ms)).
Definition topic_plan (ms : list member) (tm : topicMeta) : bytes * list (bytes * list Z) :=
  (fst tm, plan (subs_of ms (fst tm)) (isort Z.ltb (snd tm))).

Lemma subs_of_nodup ms t : NoDup (map fst ms) -> NoDup (subs_of ms t).
Proof.
  intros H. unfold subs_of. eapply Permutation_NoDup; [apply Permutation_sym, isort_perm|].
  induction ms as [|m ms IH]; cbn; [constructor|].
  inversion H as [|? ? Hn Hd]; subst. destruct (subscribes t m); [|apply IH; exact Hd].
  cbn. constructor; [|apply IH; exact Hd].
  intros Hin. apply Hn. apply in_map_iff in Hin. destruct Hin as [x [Hx Hf]]. apply filter_In in Hf.
  rewrite <- Hx. apply in_map. tauto.
Qed.
Lemma subs_of_in ms t m : In m (subs_of ms t) <-> exists raw, In (m, raw) ms /\ subscribes t (m, raw) = true.
Proof.
  unfold subs_of. split.
  - intros H. apply (Permutation_in _ (isort_perm bltb _)) in H.
    apply in_map_iff in H. destruct H as [[a raw] [Hx Hf]]. cbn in Hx; subst. apply filter_In in Hf. eauto.
  - intros [raw [H1 H2]]. apply (Permutation_in _ (Permutation_sym (isort_perm bltb _))).
    apply in_map_iff. exists (m, raw). split; [reflexivity|]. apply filter_In. tauto.
Qed.

Lemma topicAssignments_plan ms metas : forall acc,
  Forall parses ms -> NoDup (map fst ms) ->
  NoDup (keys acc ++ map fst metas) ->
  (forall tm, In tm metas -> subs_of ms (fst tm) <> []) ->
  topicAssignments ms metas acc = Ok (acc ++ map (topic_plan ms) metas).
Proof.
  induction metas as [|[t ps] metas IH]; intros acc Hp Hnd Hk Hs; cbn [topicAssignments map].
  - rewrite app_nil_r; reflexivity.
  - rewrite membersWithTopic_filter by exact Hp. cbn [rbind].
    fold (subs_of ms t). rewrite assignPartitions_plan.
    2:{ apply (Hs (t, ps)); left; reflexivity. }
    2:{ apply subs_of_nodup; exact Hnd. }
    cbn [rbind]. cbn [map fst] in Hk.
    assert (Hfresh : ~ In t (keys acc)).
    { apply NoDup_remove in Hk. intros H. apply (proj2 Hk). apply in_or_app; left; exact H. }
    rewrite mset_fresh by exact Hfresh.
    rewrite IH.
    + rewrite <- app_assoc. reflexivity.
    + exact Hp.
    + exact Hnd.
    + unfold keys. rewrite map_app, <- app_assoc. exact Hk.
    + intros tm Htm. apply Hs. right; exact Htm.
Qed.

(** *** merging into per-member lists *)
Definition pick (m : bytes) (ta : bytes * list (bytes * list Z)) : list (bytes * list Z) :=
  match mget m (snd ta) with Some ps => [(fst ta, ps)] | None => [] end.

Lemma madd_all_spec t : forall l m,
  NoDup (keys l) -> (forall k, In k (keys l) -> In k (keys m)) ->
  exists m', madd_all t l m = Ok m' /\ keys m' = keys m /\
    forall x v, mget x m = Some v -> mget x m' = Some (v ++ pick x (t, l)).
Proof.
  induction l as [|[k ps] l IH]; intros m Hnd Hin; cbn [madd_all].
  - exists m. split; [reflexivity|]. split; [reflexivity|]. intros x v Hx.
    unfold pick; cbn. rewrite app_nil_r. exact Hx.
  - cbn in Hnd. inversion Hnd as [|? ? Hk Hnd']; subst.
    destruct (mget_some_in k m (Hin k ltac:(left; reflexivity))) as [v Hv].
    unfold madd. rewrite Hv. cbn [rbind].
    assert (Hkm : In k (keys m)) by (apply Hin; left; reflexivity).
    destruct (IH (mset k (v ++ [(t, ps)]) m) Hnd') as [m' [E [Ek Eg]]].
    { intros k' Hk'. rewrite mset_keys by exact Hkm. apply Hin. right; exact Hk'. }
    exists m'. split; [exact E|]. split; [rewrite Ek; apply mset_keys; exact Hkm|].
    intros x vx Hx. unfold pick. cbn [snd fst mget].
    destruct (beqb x k) eqn:Ex.
    + apply beqb_true in Ex. subst x. rewrite Hv in Hx. injection Hx as <-.
      assert (Hg : mget k (mset k (v ++ [(t, ps)]) m) = Some (v ++ [(t, ps)])) by (rewrite mget_mset, beqb_refl; reflexivity).
      specialize (Eg k _ Hg). rewrite Eg. unfold pick. cbn [snd].
      assert (mget k l = None) as -> by (apply mget_none; exact Hk).
      rewrite app_nil_r. reflexivity.
    + assert (Hg : mget x (mset k (v ++ [(t, ps)]) m) = Some vx) by (rewrite mget_mset, Ex; exact Hx).
      specialize (Eg x _ Hg). rewrite Eg. reflexivity.
Qed.

Lemma merge_topics_spec ordI : (forall l, Permutation (ordI l) l) -> forall l m,
  (forall ta, In ta l -> NoDup (keys (snd ta)) /\ (forall k, In k (keys (snd ta)) -> In k (keys m))) ->
  exists m', merge_topics ordI l m = Ok m' /\ keys m' = keys m /\
    forall x v, mget x m = Some v -> mget x m' = Some (v ++ flat_map (pick x) l).
Proof.
  intros HI. induction l as [|[t a] l IH]; intros m Hl; cbn [merge_topics].
  - exists m. split; [reflexivity|]. split; [reflexivity|]. intros; cbn. rewrite app_nil_r. assumption.
  - destruct (Hl (t, a) ltac:(left; reflexivity)) as [Hna Hka]. cbn [snd] in *.
    assert (Hn' : NoDup (keys (ordI a))) by (eapply Permutation_NoDup; [apply Permutation_map, Permutation_sym, HI|exact Hna]).
    destruct (madd_all_spec t (ordI a) m Hn') as [m1 [E1 [K1 G1]]].
    { intros k Hk. apply Hka. eapply Permutation_in; [apply Permutation_map, HI|exact Hk]. }
    rewrite E1. cbn [rbind].
    destruct (IH m1) as [m2 [E2 [K2 G2]]].
    { intros ta Hta. rewrite K1. apply Hl. right; exact Hta. }
    exists m2. split; [exact E2|]. split; [congruence|].
    intros x v Hx. rewrite (G2 x _ (G1 x v Hx)). cbn [flat_map]. rewrite <- app_assoc. do 2 f_equal.
    f_equal. unfold pick. cbn [snd fst].
    rewrite (mget_perm x (ordI a) a Hn' (HI a)). reflexivity.
Qed.

Lemma init_keys ms : forall acc : list (bytes * list (bytes * list Z)), NoDup (keys acc ++ map fst ms) ->
  (forall x v, mget x acc = Some v -> v = []) ->
  let init := fold_left (fun acc (m : bytes * bytes) => mset (fst m) [] acc) ms acc in
  keys init = keys acc ++ map fst ms /\ (forall x v, mget x init = Some v -> v = []).
Proof.
  induction ms as [|m ms IH]; intros acc Hnd Hv; cbn [fold_left map].
  - rewrite app_nil_r. split; [reflexivity|exact Hv].
  - cbn [map] in Hnd.
    assert (Hf : ~ In (fst m) (keys acc)) by (apply NoDup_remove in Hnd; intros H; apply (proj2 Hnd), in_or_app; left; exact H).
    destruct (IH (mset (fst m) [] acc)) as [K G].
    + rewrite mset_fresh by exact Hf. unfold keys. rewrite map_app, <- app_assoc. exact Hnd.
    + intros x v. rewrite mget_mset. destruct (beqb x (fst m)); [congruence|apply Hv].
    + cbv zeta in *. split; [|exact G]. rewrite K, mset_fresh by exact Hf. unfold keys. rewrite map_app, <- app_assoc. reflexivity.
Qed.

Lemma encode_all_spec l :
  (forall k ps, In (k, ps) l -> ok_ma (mkMA 0 ps [])) ->
  exists ga, encode_all l = Ok ga /\ map fst ga = keys l /\
    forall k ps, NoDup (keys l) -> In (k, ps) l ->
      exists b, In (k, b) ga /\ newMemberAssignment b = Ok (mkMA 0 ps []) /\ b = enc Assignment_ty (0, (ps, Some [])).
Proof.
  induction l as [|[k ps] l IH]; intros Hok; cbn [encode_all].
  - exists []. split; [reflexivity|]. split; [reflexivity|]. intros k ps _ [].
  - destruct (ma_bytes (mkMA 0 ps []) (Hok k ps ltac:(left; reflexivity)) eq_refl) as [b [Eb [Wb Db]]].
    cbn [ma_version ma_parts] in Wb. rewrite Eb. cbn [rbind].
    destruct IH as [ga [Eg [Kg Gg]]]; [intros; apply (Hok k0); right; assumption|].
    rewrite Eg. cbn [rbind]. exists ((k, b) :: ga). split; [reflexivity|].
    split; [cbn; rewrite Kg; reflexivity|].
    intros k' ps' Hnd Hin. cbn in Hnd. inversion Hnd as [|? ? Hk Hnd']; subst.
    destruct Hin as [[= <- <-]|Hin].
    + eexists. split; [left; reflexivity|split; [exact Db|reflexivity]].
    + destruct (Gg k' ps' Hnd' Hin) as [b' [H1 H2]]. exists b'. split; [right; exact H1|exact H2].
Qed.

(** *** what a member learns about a topic from the leader's message *)
Definition assigned (ga : list (bytes * bytes)) (m t : bytes) : list Z :=
  match mget m ga with
  | None => []
  | Some b => match newMemberAssignment b with
              | Ok ma => flat_map (fun p => if beqb (fst p) t then snd p else []) (ma_parts ma)
              | _ => []
              end
  end.

Definition meta_ok (tm : topicMeta) : Prop :=
  zlen (fst tm) < 2 ^ 16 /\ zlen (snd tm) < 2 ^ 31 /\ Forall i32 (snd tm).

(** side conditions: distinct members with decodable subscriptions, distinct topics of
    sizes that fit the message format, each topic wanted by somebody *)
Definition group_ok (ms : list member) (metas : list topicMeta) : Prop :=
  Forall parses ms /\ NoDup (map fst ms) /\ NoDup (map fst metas) /\ Forall meta_ok metas
  /\ zlen metas < 2 ^ 31
  /\ (forall t, In t (map fst metas) -> exists m, In m ms /\ subscribes t m = true).

Lemma seg_part_ok ms tm m ps : meta_ok tm -> In (m, ps) (snd (topic_plan ms tm)) -> ok_part (fst tm, ps).
Proof.
  intros [H1 [H2 H3]] Hin. unfold topic_plan, plan in Hin. cbn [snd] in Hin.
  repeat split; cbn [fst snd]; try exact H1.
  - apply In_nth_error in Hin. destruct Hin as [n Hn].
    fold (plan (subs_of ms (fst tm)) (isort Z.ltb (snd tm))) in Hn.
    assert (Hsub : subs_of ms (fst tm) <> []) by (intros E; rewrite E in Hn; destruct n; discriminate).
    pose proof (plan_concat (subs_of ms (fst tm)) (isort Z.ltb (snd tm)) Hsub) as Hc.
    apply nth_error_In in Hn.
    assert (zlen ps <= zlen (flat_map snd (plan (subs_of ms (fst tm)) (isort Z.ltb (snd tm))))).
    { clear Hc. induction (plan (subs_of ms (fst tm)) (isort Z.ltb (snd tm))) as [|x l IH]; [contradiction|].
      cbn [flat_map]. rewrite zlen_app. pose proof (zlen_nonneg (snd x)). pose proof (zlen_nonneg (flat_map snd l)).
      destruct Hn as [->|Hn]; [cbn [snd]; lia|]. specialize (IH Hn). lia. }
    rewrite Hc in H. assert (zlen (isort Z.ltb (snd tm)) = zlen (snd tm)).
    { unfold zlen. rewrite (Permutation_length (isort_perm Z.ltb (snd tm))). reflexivity. }
    assert (2 ^ 31 < 2 ^ 32) by (cbn; lia). lia.
  - rewrite Forall_forall in *. intros x Hx. apply H3.
    apply (Permutation_in _ (isort_perm Z.ltb (snd tm))). eapply segs_sub; eassumption.
Qed.

Lemma pick_parts_ok ms metas m : Forall meta_ok metas -> Forall ok_part (flat_map (pick m) (map (topic_plan ms) metas)).
Proof.
  induction 1 as [|tm metas Ht Hm IH]; cbn [map flat_map]; [constructor|].
  apply Forall_app. split; [|exact IH]. unfold pick.
  destruct (mget m (snd (topic_plan ms tm))) as [ps|] eqn:E; constructor; [|constructor].
  apply mget_in in E. exact (seg_part_ok ms tm m ps Ht E).
Qed.
Lemma flat_map_pick_len m l : zlen (flat_map (pick m) l) <= zlen l.
Proof. induction l as [|x l IH]; cbn [flat_map]; [cbn; lia|]. rewrite zlen_app, zlen_cons.
  unfold pick at 1. destruct (mget m (snd x)); rewrite ?zlen_cons, ?zlen_nil; lia. Qed.

Lemma flat_map_perm {A B} (f : A -> list B) l1 l2 : Permutation l1 l2 -> Permutation (flat_map f l1) (flat_map f l2).
Proof. apply Permutation_flat_map. Qed.

(** Selecting one topic from the picked list gives that topic's share. *)
Lemma pick_topic m t (l : list (bytes * list (bytes * list Z))) : NoDup (keys l) ->
  flat_map (fun p => if beqb (fst p) t then snd p else []) (flat_map (pick m) l)
  = match mget t l with Some a => match mget m a with Some ps => ps | None => [] end | None => [] end.
Proof.
  induction l as [|[t' a] l IH]; intros Hnd; cbn [flat_map mget]; [reflexivity|].
  cbn in Hnd. inversion Hnd as [|? ? Hk Hnd']; subst.
  rewrite flat_map_app, (IH Hnd'). unfold pick. cbn [snd fst].
  destruct (beqb t t') eqn:E.
  - apply beqb_true in E. subst t'.
    assert (mget t l = None) as -> by (apply mget_none; exact Hk). rewrite app_nil_r.
    destruct (mget m a); cbn; [rewrite beqb_refl, app_nil_r; reflexivity|reflexivity].
  - destruct (mget m a); cbn; [|reflexivity].
    assert (beqb t' t = false) as -> by (apply beqb_false; apply beqb_false in E; congruence).
    reflexivity.
Qed.

Lemma topic_plans_keys ms metas : keys (map (topic_plan ms) metas) = map fst metas.
Proof. unfold keys. rewrite map_map. reflexivity. Qed.

Section Main.
  Variable ordT : list (bytes * list (bytes * list Z)) -> list (bytes * list (bytes * list Z)).
  Variable ordI : list (bytes * list Z) -> list (bytes * list Z).
  Variable ordM : list (bytes * list (bytes * list Z)) -> list (bytes * list (bytes * list Z)).
  Hypothesis HT : forall l, Permutation (ordT l) l.
  Hypothesis HI : forall l, Permutation (ordI l) l.
  Hypothesis HM : forall l, Permutation (ordM l) l.

  Lemma assign_spec ms metas : group_ok ms metas ->
    exists ga, assign ordT ordI ordM ms metas = Ok ga /\
      Permutation (map fst ga) (map fst ms) /\
      (forall m t, In m (map fst ms) ->
        assigned ga m t = match mget t (map (topic_plan ms) metas) with
                          | Some a => match mget m a with Some ps => ps | None => [] end
                          | None => [] end) /\
      (forall m b, In (m, b) ga -> exists parts, newMemberAssignment b = Ok (mkMA 0 parts []) /\
         Forall (fun p => In (fst p) (map fst metas)) parts /\ NoDup (map fst parts)) /\
      (forall m, In m (map fst ms) -> exists b, In (m, b) ga /\
         newMemberAssignment b = Ok (mkMA 0 (flat_map (pick m) (ordT (map (topic_plan ms) metas))) []) /\
         b = enc Assignment_ty (0, (flat_map (pick m) (ordT (map (topic_plan ms) metas)), Some []))).
  Proof using HT HI HM.
    intros [Hp [Hnd [Hnt [Hmo [Hml Hsub]]]]].
    unfold assign. rewrite topicAssignments_plan; cbn [app]; try assumption.
    2:{ intros tm Htm E. destruct (Hsub (fst tm)) as [[m raw] [H1 H2]]; [apply in_map; exact Htm|].
        assert (In m (subs_of ms (fst tm))) by (apply subs_of_in; eauto). rewrite E in H. contradiction. }
    cbn [rbind]. set (ta := map (topic_plan ms) metas).
    destruct (init_keys ms []) as [K0 V0]; [exact Hnd|discriminate|].
    cbv zeta. cbv zeta in K0, V0.
    match type of K0 with keys ?i = _ => set (init := i) in * end. cbn [app keys map] in K0.
    destruct (merge_topics_spec ordI HI (ordT ta) init) as [ma [E1 [K1 G1]]].
    { intros x Hx. apply (Permutation_in _ (HT ta)) in Hx. unfold ta in Hx. apply in_map_iff in Hx.
      destruct Hx as [tm [<- Htm]]. unfold topic_plan. cbn [snd]. rewrite plan_keys. split.
      - apply subs_of_nodup; exact Hnd.
      - intros k Hk. rewrite K0. apply subs_of_in in Hk. destruct Hk as [raw [Hk _]].
        apply (in_map fst) in Hk. exact Hk. }
    rewrite E1. cbn [rbind].
    assert (Kma : keys ma = map fst ms) by congruence.
    assert (Nma : NoDup (keys ma)) by (rewrite Kma; exact Hnd).
    assert (Gma : forall m, In m (map fst ms) -> mget m ma = Some (flat_map (pick m) (ordT ta))).
    { intros m Hm. rewrite <- K0 in Hm. destruct (mget_some_in m init Hm) as [v Hv].
      rewrite (G1 m v Hv). rewrite (V0 m v Hv). reflexivity. }
    assert (Hok : forall k ps, In (k, ps) (ordM ma) -> ok_ma (mkMA 0 ps [])).
    { intros k ps Hin. apply (Permutation_in _ (HM ma)) in Hin.
      assert (Hk : In k (map fst ms)) by (rewrite <- Kma; apply (in_map fst) in Hin; exact Hin).
      apply (in_mget _ _ _ Nma) in Hin. rewrite (Gma k Hk) in Hin. injection Hin as <-.
      split; [unfold i16, ma_version; change (2 ^ 15) with 32768; lia|]. cbn [ma_parts]. split.
      - pose proof (flat_map_pick_len k (ordT ta)).
        assert (zlen (ordT ta) = zlen metas).
        { unfold zlen. rewrite (Permutation_length (HT ta)). unfold ta. rewrite map_length. reflexivity. }
        lia.
      - eapply Permutation_Forall; [apply Permutation_flat_map, Permutation_sym, HT|].
        apply pick_parts_ok; exact Hmo. }
    destruct (encode_all_spec (ordM ma) Hok) as [ga [E2 [K2 G2]]].
    rewrite E2. cbn [rbind].
    assert (Nm : NoDup (keys (ordM ma))) by (eapply Permutation_NoDup; [apply Permutation_map, Permutation_sym, HM|exact Nma]).
    assert (Pk : Permutation (map fst ga) (map fst ms)).
    { rewrite K2, <- Kma. apply Permutation_map, HM. }
    assert (Hlen : (length ms - length ga = 0)%nat).
    { apply Permutation_length in Pk. rewrite !map_length in Pk. lia. }
    rewrite Hlen. cbn [repeat]. rewrite app_nil_r.
    exists ga. split; [reflexivity|]. split; [exact Pk|].
    assert (Nga : NoDup (keys ga)) by (eapply Permutation_NoDup; [apply Permutation_sym; exact Pk|exact Hnd]).
    assert (Ndec : forall m, In m (map fst ms) -> exists b, In (m, b) ga /\
        newMemberAssignment b = Ok (mkMA 0 (flat_map (pick m) (ordT ta)) []) /\
        b = enc Assignment_ty (0, (flat_map (pick m) (ordT ta), Some []))).
    { intros m Hm. apply (G2 m _ Nm). apply (Permutation_in _ (Permutation_sym (HM ma))).
      apply mget_in. apply Gma; exact Hm. }
    split; [|split; [|exact Ndec]].
    - intros m t Hm. destruct (Ndec m Hm) as [b [Hb [Db _]]].
      unfold assigned. rewrite (in_mget _ _ _ Nga Hb), Db. cbn [ma_parts].
      assert (NT : NoDup (keys (ordT ta))).
      { eapply Permutation_NoDup; [apply Permutation_map, Permutation_sym, HT|].
        change (NoDup (keys (map (topic_plan ms) metas))). rewrite topic_plans_keys. exact Hnt. }
      rewrite pick_topic by exact NT. rewrite (mget_perm t (ordT ta) ta NT (HT ta)). reflexivity.
    - intros m b Hin.
      assert (Hm : In m (map fst ms)) by (apply (Permutation_in _ Pk); apply (in_map fst) in Hin; exact Hin).
      destruct (Ndec m Hm) as [b' [Hb' [Db' _]]].
      assert (b' = b).
      { apply (in_mget _ _ _ Nga) in Hin. apply (in_mget _ _ _ Nga) in Hb'. congruence. }
      subst b'. eexists. split; [exact Db'|].
      assert (Hkeys : forall l, incl (keys l) (map fst metas) -> Forall (fun p => In (fst p) (map fst metas)) (flat_map (pick m) l)).
      { induction l as [|x l IH]; intros Hi; cbn [flat_map]; [constructor|].
        apply Forall_app. split.
        - unfold pick. destruct (mget m (snd x)); constructor; [|constructor]. cbn [fst]. apply Hi. left; reflexivity.
        - apply IH. intros y Hy. apply Hi. right; exact Hy. }
      split.
      + apply Hkeys. intros y Hy. rewrite <- (topic_plans_keys ms metas).
        eapply Permutation_in; [apply Permutation_map, (HT ta)|exact Hy].
      + assert (NT : NoDup (keys (ordT ta))).
        { eapply Permutation_NoDup; [apply Permutation_map, Permutation_sym, HT|].
          change (NoDup (keys (map (topic_plan ms) metas))). rewrite topic_plans_keys. exact Hnt. }
        clear -NT. induction (ordT ta) as [|x l IH]; cbn [flat_map]; [constructor|].
        cbn in NT. inversion NT as [|? ? Hx Hn]; subst. rewrite map_app.
        unfold pick at 1. destruct (mget m (snd x)); cbn [map app fst]; [|apply IH; exact Hn].
        constructor; [|apply IH; exact Hn].
        intros Hin. apply Hx. clear -Hin. apply in_map_iff in Hin. destruct Hin as [[a b] [E Hin]]. cbn in E; subst.
        apply in_flat_map in Hin. destruct Hin as [y [Hy Hp]]. unfold pick in Hp.
        destruct (mget m (snd y)); [|contradiction]. destruct Hp as [[= <- _]|[]]. apply in_map; exact Hy.
  Qed.
End Main.

(** *** Consequences in the vocabulary of the properties *)
Section Consequences.
  Variable ordT : list (bytes * list (bytes * list Z)) -> list (bytes * list (bytes * list Z)).
  Variable ordI : list (bytes * list Z) -> list (bytes * list Z).
  Variable ordM : list (bytes * list (bytes * list Z)) -> list (bytes * list (bytes * list Z)).
  Hypothesis HT : forall l, Permutation (ordT l) l.
  Hypothesis HI : forall l, Permutation (ordI l) l.
  Hypothesis HM : forall l, Permutation (ordM l) l.

  Lemma mget_topic_plan ms metas t P : NoDup (map fst metas) -> In (t, P) metas ->
    mget t (map (topic_plan ms) metas) = Some (plan (subs_of ms t) (isort Z.ltb P)).
  Proof using.
    intros Hn Hin. apply in_mget; [rewrite topic_plans_keys; exact Hn|].
    apply (in_map (topic_plan ms)) in Hin. exact Hin.
  Qed.

  Lemma plan_assoc_concat (a : list (bytes * list Z)) : NoDup (keys a) ->
    flat_map (fun m => match mget m a with Some ps => ps | None => [] end) (keys a) = flat_map snd a.
  Proof using.
    induction a as [|[k v] a IH]; intros Hn; cbn [keys map flat_map fst]; [reflexivity|].
    cbn in Hn. inversion Hn as [|? ? Hk Hn']; subst. cbn [mget snd]. rewrite beqb_refl. f_equal.
    fold (keys a). rewrite <- (IH Hn'). rewrite !flat_map_concat_map. f_equal. apply map_ext_in. intros x Hx.
    destruct (beqb x k) eqn:E; [|reflexivity]. apply beqb_true in E. subst. contradiction.
  Qed.

  Lemma flat_map_ext_in' {A B} (f g : A -> list B) l : (forall x, In x l -> f x = g x) -> flat_map f l = flat_map g l.
  Proof using. intros H. rewrite !flat_map_concat_map. f_equal. apply map_ext_in. exact H. Qed.

  Lemma range_assignment ms metas : group_ok ms metas ->
    exists ga, assign ordT ordI ordM ms metas = Ok ga /\
      Permutation (map fst ga) (map fst ms) /\
      forall t P, In (t, P) metas -> exists subs L,
        StronglySorted (leo bltb) subs /\ NoDup subs /\
        (forall m, In m subs <-> exists raw, In (m, raw) ms /\ subscribes t (m, raw) = true) /\
        StronglySorted (leo Z.ltb) L /\ Permutation L P /\
        flat_map (fun m => assigned ga m t) subs = L /\
        (forall i m, nth_error subs i = Some m ->
           zlen (assigned ga m t) = zlen P / zlen subs + (if Z.of_nat i <? zlen P mod zlen subs then 1 else 0)) /\
        (forall m, In m (map fst ms) -> ~ In m subs -> assigned ga m t = []).
  Proof using HT HI HM.
    intros Hg. destruct (assign_spec ordT ordI ordM HT HI HM ms metas Hg) as [ga [E [Pk [Ga _]]]].
    destruct Hg as [Hp [Hnd [Hnt [Hmo [Hml Hsub]]]]].
    exists ga. split; [exact E|]. split; [exact Pk|].
    intros t P Hin. exists (subs_of ms t), (isort Z.ltb P).
    assert (Hne : subs_of ms t <> []).
    { intros E0. destruct (Hsub t) as [[m raw] [H1 H2]]; [apply (in_map fst) in Hin; exact Hin|].
      assert (In m (subs_of ms t)) by (apply subs_of_in; eauto). rewrite E0 in H. contradiction. }
    assert (Hsm : forall m, In m (subs_of ms t) -> In m (map fst ms)).
    { intros m Hm. apply subs_of_in in Hm. destruct Hm as [raw [Hm _]]. apply (in_map fst) in Hm. exact Hm. }
    assert (Has : forall m, In m (map fst ms) ->
      assigned ga m t = match mget m (plan (subs_of ms t) (isort Z.ltb P)) with Some ps => ps | None => [] end).
    { intros m Hm. rewrite (Ga m t Hm), (mget_topic_plan ms metas t P Hnt Hin). reflexivity. }
    assert (Hnp : NoDup (keys (plan (subs_of ms t) (isort Z.ltb P)))) by (rewrite plan_keys; apply subs_of_nodup; exact Hnd).
    split; [apply isort_sorted, bltb_st|]. split; [apply subs_of_nodup; exact Hnd|].
    split; [intros m; apply subs_of_in|]. split; [apply isort_sorted, Zltb_st|]. split; [apply isort_perm|].
    split.
    - rewrite (flat_map_ext_in' _ _ _ (fun m Hm => Has m (Hsm m Hm))).
      pose proof (plan_assoc_concat _ Hnp) as Hc. rewrite plan_keys in Hc. rewrite Hc.
      apply plan_concat. exact Hne.
    - split.
      + intros i m Hi. pose proof (nth_error_In _ _ Hi) as Him. rewrite (Has m (Hsm m Him)).
        assert (Hl : zlen P = zlen (isort Z.ltb P)) by (unfold zlen; rewrite (Permutation_length (isort_perm Z.ltb P)); reflexivity).
        rewrite Hl.
        destruct (nth_error (plan (subs_of ms t) (isort Z.ltb P)) i) as [[m' ps]|] eqn:En.
        * pose proof (plan_sizes _ _ _ _ _ En) as [H1 H2]. rewrite Hi in H1. injection H1 as <-.
          apply nth_error_In in En. rewrite (in_mget _ _ _ Hnp En). exact H2.
        * exfalso. apply nth_error_None in En.
          assert (Hk : length (keys (plan (subs_of ms t) (isort Z.ltb P))) = length (subs_of ms t)) by (rewrite plan_keys; reflexivity).
          unfold keys in Hk. rewrite map_length in Hk.
          assert (nth_error (subs_of ms t) i <> None) by congruence. apply nth_error_Some in H. lia.
      + intros m Hm Hns. rewrite (Has m Hm).
        assert (mget m (plan (subs_of ms t) (isort Z.ltb P)) = None) as -> by (apply mget_none; rewrite plan_keys; exact Hns).
        reflexivity.
  Qed.

  Lemma unique_owner ms metas ga t P p : group_ok ms metas ->
    assign ordT ordI ordM ms metas = Ok ga -> In (t, P) metas -> NoDup P -> In p P ->
    exists m, (In m (map fst ms) /\ In p (assigned ga m t)) /\
      (exists raw, In (m, raw) ms /\ subscribes t (m, raw) = true) /\
      forall m', In m' (map fst ms) -> In p (assigned ga m' t) -> m' = m.
  Proof using HT HI HM.
    intros Hg E Hin HP Hp. destruct (range_assignment ms metas Hg) as [ga' [E' [_ R]]].
    rewrite E in E'. injection E' as <-.
    destruct (R t P Hin) as [subs [L [_ [Hn [Hs [_ [HL [Hc [_ Hns]]]]]]]]].
    assert (NL : NoDup (flat_map (fun m => assigned ga m t) subs)).
    { rewrite Hc. eapply Permutation_NoDup; [apply Permutation_sym; exact HL|exact HP]. }
    assert (Hpi : In p (flat_map (fun m => assigned ga m t) subs)).
    { rewrite Hc. eapply Permutation_in; [apply Permutation_sym; exact HL|exact Hp]. }
    apply in_flat_map in Hpi. destruct Hpi as [m [Hm Hpm]].
    exists m. split; [|split].
    - split; [|exact Hpm]. apply Hs in Hm. destruct Hm as [raw [Hm _]]. apply (in_map fst) in Hm. exact Hm.
    - apply Hs; exact Hm.
    - intros m' Hm' Hpm'.
      assert (Hm's : In m' subs).
      { destruct (in_dec (list_eq_dec Z.eq_dec) m' subs) as [|Hno]; [assumption|].
        rewrite (Hns m' Hm' Hno) in Hpm'. contradiction. }
      clear -NL Hm Hpm Hm's Hpm'.
      induction subs as [|x subs IH]; [contradiction|]. cbn [flat_map] in NL.
      assert (Nx : forall q, In q (assigned ga x t) -> ~ In q (flat_map (fun m => assigned ga m t) subs)).
      { intros q H1 H2. clear -NL H1 H2. induction (assigned ga x t) as [|a l IH]; [contradiction|].
        cbn in NL. inversion NL as [|? ? Ha NL']; subst. destruct H1 as [->|H1]; [|apply IH; assumption].
        apply Ha, in_or_app. right; exact H2. }
      assert (NR : NoDup (flat_map (fun m => assigned ga m t) subs)).
      { clear -NL. induction (assigned ga x t) as [|a l IH]; [exact NL|]. cbn in NL. inversion NL; subst. apply IH; assumption. }
      destruct Hm as [->|Hm], Hm's as [->|Hm's]; try reflexivity.
      + exfalso. apply (Nx p Hpm). apply in_flat_map. eauto.
      + exfalso. apply (Nx p Hpm'). apply in_flat_map. eauto.
      + apply IH; assumption.
  Qed.

  (** a topic nobody wants makes the leader divide by zero *)
  Lemma orphan_topic_panics ms metas : Forall parses ms ->
    (exists t, In t (map fst metas) /\ forall m, In m ms -> subscribes t m = false) ->
    NoDup (map fst ms) ->
    assign ordT ordI ordM ms metas = Panic.
  Proof using.
    intros Hp [t [Ht Hno]] Hnd. unfold assign.
    assert (H : forall acc, topicAssignments ms metas acc = Panic).
    { induction metas as [|[t' ps] metas IH]; [contradiction|]. intros acc. cbn [topicAssignments].
      rewrite membersWithTopic_filter by exact Hp. cbn [rbind]. fold (subs_of ms t').
      destruct (subs_of ms t') as [|s ss] eqn:Es; [reflexivity|].
      rewrite assignPartitions_plan; [|discriminate|rewrite <- Es; apply subs_of_nodup; exact Hnd].
      cbn [rbind]. apply IH. cbn [map fst] in Ht. destruct Ht as [Ht|Ht]; [|exact Ht]. exfalso. subst t'.
      assert (Hin : In s (subs_of ms t)) by (rewrite Es; left; reflexivity).
      apply subs_of_in in Hin. destruct Hin as [raw [H1 H2]]. rewrite (Hno _ H1) in H2. discriminate. }
    rewrite H. reflexivity.
  Qed.
End Consequences.

(** Order independence. *)
Lemma subs_of_perm ms ms' t : Permutation ms ms' -> subs_of ms t = subs_of ms' t.
Proof.
  intros H. unfold subs_of. apply (isort_perm_eq bltb bltb_st). apply Permutation_map.
  induction H; cbn; try reflexivity.
  - destruct (subscribes t x); [constructor|]; assumption.
  - destruct (subscribes t x), (subscribes t y); try reflexivity. apply perm_swap.
  - etransitivity; eassumption.
Qed.

(** Same topics, in any order, each with the same partitions in any order. *)
Definition same_metas (metas metas' : list (bytes * list Z)) : Prop :=
  exists mid, Permutation metas mid /\
    Forall2 (fun a b => fst a = fst b /\ Permutation (snd a) (snd b)) mid metas'.

Lemma assign_order_independent ordT ordI ordM ordT' ordI' ordM' ms ms' metas metas' ga ga' :
  (forall l, Permutation (ordT l) l) -> (forall l, Permutation (ordI l) l) -> (forall l, Permutation (ordM l) l) ->
  (forall l, Permutation (ordT' l) l) -> (forall l, Permutation (ordI' l) l) -> (forall l, Permutation (ordM' l) l) ->
  group_ok ms metas -> group_ok ms' metas' -> Permutation ms ms' -> same_metas metas metas' ->
  assign ordT ordI ordM ms metas = Ok ga -> assign ordT' ordI' ordM' ms' metas' = Ok ga' ->
  forall m t, In m (map fst ms) -> assigned ga m t = assigned ga' m t.
Proof.
  intros HT HI HM HT' HI' HM' Hg Hg' HP [mid [Hm1 Hm2]] E E' m t Hm.
  destruct (assign_spec ordT ordI ordM HT HI HM ms metas Hg) as [g [Eg [_ [Ga _]]]].
  destruct (assign_spec ordT' ordI' ordM' HT' HI' HM' ms' metas' Hg') as [g' [Eg' [_ [Ga' _]]]].
  rewrite E in Eg. injection Eg as <-. rewrite E' in Eg'. injection Eg' as <-.
  rewrite (Ga m t Hm). rewrite (Ga' m t).
  2:{ eapply Permutation_in; [apply Permutation_map; exact HP|exact Hm]. }
  destruct Hg as [_ [_ [Hnt _]]].
  assert (Hn1 : NoDup (keys (map (topic_plan ms) metas))) by (rewrite topic_plans_keys; exact Hnt).
  rewrite (mget_perm t _ (map (topic_plan ms) mid) Hn1) by (apply Permutation_map; exact Hm1).
  replace (map (topic_plan ms) mid) with (map (topic_plan ms') metas'); [reflexivity|].
  clear -Hm2 HP. induction Hm2 as [|[a p] [b q] l l' [H1 H2] _ IH]; cbn [map]; [reflexivity|].
  cbn [fst snd] in *. subst b. f_equal; [|exact IH]. unfold topic_plan. cbn [fst snd].
  rewrite (subs_of_perm ms ms' a HP), (isort_perm_eq Z.ltb Zltb_st p q H2). reflexivity.
Qed.
