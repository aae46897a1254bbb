(** Facts about the request builders. *)
From Verif Require Import Base BaseFacts Builders BuildersSpec.

Lemma beqb_iff : forall a b, beqb a b = true <-> a = b.
Proof. intros a b. unfold beqb. destruct (bytes_eq_dec a b); split; congruence. Qed.
Lemma beqb_no : forall a b, beqb a b = false <-> a <> b.
Proof. intros a b. unfold beqb. destruct (bytes_eq_dec a b); split; congruence. Qed.

(** ** at_name *)
Section AtName.
Context {A : Type} (k : bytes) (f : A -> A) (new : A).

Lemma at_name_in_key : forall l, In k (map fst (at_name k f new l)).
Proof.
  induction l as [|[k' a] l IH]; cbn; [auto|].
  destruct (beqb k' k) eqn:E; cbn; [apply beqb_iff in E; auto|auto].
Qed.

Lemma at_name_keys : forall l t, In t (map fst (at_name k f new l)) <-> In t (map fst l) \/ t = k.
Proof.
  induction l as [|[k' a] l IH]; intro t; cbn.
  - split; intros [H|H]; auto; contradiction.
  - destruct (beqb k' k) eqn:E; cbn.
    + apply beqb_iff in E. subst. tauto || (split; intros; intuition congruence).
    + rewrite IH. tauto.
Qed.

Lemma at_name_nodup : forall l, NoDup (map fst l) -> NoDup (map fst (at_name k f new l)).
Proof.
  induction l as [|[k' a] l IH]; intro H; cbn; [repeat constructor; auto|].
  inversion H; subst. destruct (beqb k' k) eqn:E; cbn; [constructor; auto|].
  apply beqb_no in E. constructor; auto.
  rewrite at_name_keys. intros [X|X]; [auto|congruence].
Qed.

Lemma at_name_in : forall l, NoDup (map fst l) -> forall t a,
  In (t, a) (at_name k f new l) <->
  (t <> k /\ In (t, a) l) \/
  (t = k /\ ((exists b, In (k, b) l /\ a = f b) \/ (~ In k (map fst l) /\ a = new))).
Proof.
  induction l as [|[k' x] l IH]; intros ND t a; cbn.
  - split.
    + intros [H|[]]. injection H; intros; subst. right. split; auto.
    + intros [[_ []]|[-> [[b [[] _]]|[_ ->]]]]. auto.
  - inversion ND; subst. destruct (beqb k' k) eqn:E; cbn.
    + apply beqb_iff in E. subst. split.
      * intros [H|H].
        -- injection H; intros; subst. right. split; auto. left. exists x. auto.
        -- left. split; auto. intros ->. apply H1. apply in_map_iff. exists (k, a). auto.
      * intros [[N [H|H]]|[-> [[b [[H|H] ->]]|[N _]]]].
        -- injection H; intros; subst. congruence.
        -- auto.
        -- injection H; intros; subst. auto.
        -- exfalso. apply H1. apply in_map_iff. exists (k, b). auto.
        -- exfalso. apply N. auto.
    + apply beqb_no in E. rewrite (IH H2). split.
      * intros [H|[[N H]|[-> [[b [H ->]]|[N ->]]]]].
        -- injection H; intros; subst. left. auto.
        -- left. auto.
        -- right. split; auto. left. exists b. auto.
        -- right. split; auto. right. split; auto. intros [X|X]; [congruence|auto].
      * intros [[N [H|H]]|[-> [[b [[H|H] ->]]|[N ->]]]].
        -- left. auto.
        -- right. left. auto.
        -- injection H; intros; subst. congruence.
        -- right. right. split; auto. left. exists b. auto.
        -- right. right. split; auto. right. split; auto.
Qed.

Lemma at_name_forall : forall (P : bytes * A -> Prop) l,
  Forall P l -> (forall a, P (k, a) -> P (k, f a)) -> P (k, new) -> Forall P (at_name k f new l).
Proof.
  intros P l H HF HN. induction H as [|[k' a] l H0 H IH]; cbn; [repeat constructor; auto|].
  destruct (beqb k' k) eqn:E; [apply beqb_iff in E; subst|]; constructor; auto.
Qed.
End AtName.

Lemma key_unique : forall {A} (l : list (bytes * A)) k a b,
  NoDup (map fst l) -> In (k, a) l -> In (k, b) l -> a = b.
Proof.
  intros A l k a b. induction l as [|[k' x] l IH]; intros ND HA HB; [contradiction|].
  inversion ND; subst. destruct HA as [HA|HA], HB as [HB|HB].
  - congruence.
  - injection HA; intros; subst. exfalso. apply H1. apply in_map_iff. exists (k, b). auto.
  - injection HB; intros; subst. exfalso. apply H1. apply in_map_iff. exists (k, a). auto.
  - auto.
Qed.

(** ** Offset commit *)
Lemma put_part_keys : forall p v ps q, In q (map fst (put_part p v ps)) <-> In q (map fst ps) \/ q = p.
Proof.
  induction ps as [|[r w] ps IH]; intro q; cbn.
  - split; intros [H|H]; auto; contradiction.
  - destruct (r =? p) eqn:E; cbn; [assert (r = p) by lia; subst; intuition congruence|rewrite IH; tauto].
Qed.
Lemma put_part_nodup : forall p v ps, NoDup (map fst ps) -> NoDup (map fst (put_part p v ps)).
Proof.
  induction ps as [|[r w] ps IH]; intro H; cbn; [repeat constructor; auto|].
  inversion H; subst. destruct (r =? p) eqn:E; cbn; [constructor; auto|].
  constructor; auto. rewrite put_part_keys. intros [X|X]; [auto|lia].
Qed.
Lemma put_part_nonempty : forall p v ps, put_part p v ps <> [].
Proof. intros p v [|[q w] ps]; cbn; [congruence|]. destruct (q =? p); congruence. Qed.
Lemma put_part_in : forall p v ps, NoDup (map fst ps) -> forall q w,
  In (q, w) (put_part p v ps) <-> (q <> p /\ In (q, w) ps) \/ (q = p /\ w = v).
Proof.
  induction ps as [|[r x] ps IH]; intros ND q w; cbn.
  - split; [intros [H|[]]; right; split; congruence|].
    intros [[_ []]|[-> ->]]. auto.
  - inversion ND; subst. destruct (r =? p) eqn:E; cbn.
    + assert (r = p) by lia. subst. split.
      * intros [H|H]; [right; split; congruence|]. left. split; auto.
        intros ->. apply H1. apply in_map_iff. exists (p, w). auto.
      * intros [[N [H|H]]|[-> ->]]; auto. congruence.
    + rewrite (IH H2). split.
      * intros [H|[[N H]|[-> ->]]]; auto. left. split; auto. injection H; intros; subst. lia.
      * intros [[N [H|H]]|[-> ->]]; auto.
Qed.

Definition oc_run (adds : list (bytes * Z * (Z * bytes))) : list (bytes * list (Z * (Z * bytes))) :=
  fold_left (fun r a => oc_add r (fst (fst a)) (snd (fst a)) (fst (snd a)) (snd (snd a))) adds [].

Lemma fold_snoc : forall {A B} (f : A -> B -> A) l x a, fold_left f (l ++ [x]) a = f (fold_left f l a) x.
Proof. intros. rewrite fold_left_app. reflexivity. Qed.

Lemma snoc_inv : forall {A} (l : list A) x b y a, l ++ [x] = b ++ y :: a ->
  (a = [] /\ l = b /\ x = y) \/ (exists a', a = a' ++ [x] /\ l = b ++ y :: a').
Proof.
  intros A l x b y a. induction a as [|z a _] using rev_ind; intro E.
  - left. apply app_inj_tail in E. tauto.
  - right. exists a. change (b ++ y :: a ++ [z]) with (b ++ (y :: a) ++ [z]) in E. rewrite app_assoc in E.
    apply app_inj_tail in E. destruct E as [-> ->]. auto.
Qed.

Lemma said_last_snoc : forall {V} (adds : list (bytes * Z * V)) t p v t' p' v',
  said_last (adds ++ [(t, p, v)]) t' p' v' <->
  ((t', p') <> (t, p) /\ said_last adds t' p' v') \/ ((t', p') = (t, p) /\ v' = v).
Proof.
  intros V adds t p v t' p' v'. split.
  - intros [bf [af [E N]]]. destruct (snoc_inv _ _ _ _ _ E) as [[-> [-> X]]|[af' [-> ->]]].
    + right. split; congruence.
    + left. split.
      * intro X. apply (N v). injection X; intros; subst. apply in_or_app. right. left. reflexivity.
      * exists bf, af'. split; auto. intros w H. apply (N w). apply in_or_app. auto.
  - intros [[D [bf [af [-> N]]]]|[X ->]].
    + exists bf, (af ++ [(t, p, v)]). split; [rewrite <- app_assoc; reflexivity|].
      intros w H. apply in_app_or in H. destruct H as [H|[H|[]]]; [eapply N; eauto|].
      apply D. congruence.
    + injection X; intros; subst. exists adds, []. split; auto.
Qed.

Lemma oc_ok : forall adds,
  unique_entries (oc_run adds) /\
  forall t p v, entry (oc_run adds) t p v <-> said_last adds t p v.
Proof.
  induction adds as [|[[t p] [o m]] adds IH] using rev_ind.
  - split; [split; constructor|]. intros t p v. split.
    + intros [ps [[] _]].
    + intros [bf [af [E _]]]. destruct bf; discriminate.
  - unfold oc_run in *. rewrite fold_snoc. set (r := fold_left _ adds []) in *. cbn [fst snd].
    destruct IH as [[ND FA] IE]. unfold oc_add. rewrite Forall_forall in FA.
    split; [split|].
    + apply at_name_nodup; auto.
    + apply at_name_forall; cbn [snd].
      * rewrite Forall_forall. exact FA.
      * intros a [H1 H2]. split; [apply put_part_nonempty|apply put_part_nodup; auto].
      * split; [discriminate|]. repeat constructor. auto.
    + intros t' p' v. rewrite said_last_snoc, <- IE. unfold entry. split.
      * intros [ps [H1 H2]]. apply at_name_in in H1; auto.
        destruct H1 as [[N H1]|[-> [[b [H1 ->]]|[N ->]]]].
        -- left. split; [congruence|]. exists ps. auto.
        -- destruct (FA _ H1) as [_ ND']. apply put_part_in in H2; auto.
           destruct H2 as [[N H2]|[-> ->]]; [left|right; auto].
           split; [congruence|]. exists b. auto.
        -- apply put_part_in in H2; [|constructor]. destruct H2 as [[_ []]|[-> ->]]. right. auto.
      * intros [[N [ps [H1 H2]]]|[X ->]].
        -- destruct (FA _ H1) as [_ ND']. destruct (bytes_eq_dec t' t) as [->|NT].
           ++ exists (put_part p (o, m) ps). split; [apply at_name_in; auto; right; split; auto; left; exists ps; auto|].
              apply put_part_in; auto. left. split; auto. congruence.
           ++ exists ps. split; auto. apply at_name_in; auto.
        -- injection X; intros; subst.
           destruct (in_dec bytes_eq_dec t (map fst r)) as [I|I].
           ++ apply in_map_iff in I. destruct I as [[t0 ps] [E I]]. cbn in E. subst t0.
              exists (put_part p (o, m) ps). split; [apply at_name_in; auto; right; split; auto; left; exists ps; auto|].
              apply put_part_in; [apply (FA _ I)|]. auto.
           ++ exists [(p, (o, m))]. split; [apply at_name_in; auto; right; split; auto|left; auto].
Qed.

(** ** Requests that name partitions *)
Lemma add_pid_in : forall p ps q, In q (add_pid p ps) <-> In q ps \/ q = p.
Proof.
  induction ps as [|r ps IH]; intro q; cbn.
  - split; intros [H|H]; auto; contradiction.
  - destruct (r =? p) eqn:E; cbn; [assert (r = p) by lia; subst; intuition congruence|rewrite IH; tauto].
Qed.
Lemma add_pid_nodup : forall p ps, NoDup ps -> NoDup (add_pid p ps).
Proof.
  induction ps as [|r ps IH]; intro H; cbn; [repeat constructor; auto|].
  inversion H; subst. destruct (r =? p) eqn:E; constructor; auto.
  rewrite add_pid_in. intros [X|X]; [auto|lia].
Qed.
Lemma add_pid_nonempty : forall p ps, add_pid p ps <> [].
Proof. intros p [|q ps]; cbn; [congruence|]. destruct (q =? p); congruence. Qed.

Definition pid_run (adds : list (bytes * Z)) : list (bytes * list Z) :=
  fold_left (fun r a => at_name (fst a) (add_pid (snd a)) [snd a] r) adds [].

Lemma pid_ok : forall adds,
  unique_names (pid_run adds) /\
  forall t p, names (pid_run adds) t p <-> In (t, p) adds.
Proof.
  induction adds as [|[t p] adds IH] using rev_ind.
  - split; [split; constructor|]. intros t p. split; [intros [ps [[] _]]|intros []].
  - unfold pid_run in *. rewrite fold_snoc. set (r := fold_left _ adds []) in *. cbn [fst snd].
    destruct IH as [[ND FA] IE]. rewrite Forall_forall in FA.
    split; [split|].
    + apply at_name_nodup; auto.
    + apply at_name_forall; cbn [snd].
      * rewrite Forall_forall. exact FA.
      * intros a [H1 H2]. split; [apply add_pid_nonempty|apply add_pid_nodup; auto].
      * split; [discriminate|]. repeat constructor. auto.
    + intros t' p'. rewrite in_app_iff, <- IE. unfold names. split.
      * intros [ps [H1 H2]]. apply at_name_in in H1; auto.
        destruct H1 as [[N H1]|[-> [[b [H1 ->]]|[N ->]]]].
        -- left. exists ps. auto.
        -- apply add_pid_in in H2. destruct H2 as [H2| ->]; [left; exists b; auto|right; left; auto].
        -- destruct H2 as [->|[]]. right. left. auto.
      * intros [[ps [H1 H2]]|[X|[]]].
        -- destruct (bytes_eq_dec t' t) as [->|NT].
           ++ exists (add_pid p ps). split; [apply at_name_in; auto; right; split; auto; left; exists ps; auto|].
              apply add_pid_in; auto.
           ++ exists ps. split; auto. apply at_name_in; auto.
        -- injection X; intros; subst.
           destruct (in_dec bytes_eq_dec t' (map fst r)) as [I|I].
           ++ apply in_map_iff in I. destruct I as [[t0 ps] [E I]]. cbn in E. subst t0.
              exists (add_pid p' ps). split; [apply at_name_in; auto; right; split; auto; left; exists ps; auto|].
              apply add_pid_in; auto.
           ++ exists [p']. split; [apply at_name_in; auto; right; split; auto|left; auto].
Qed.

(** ** Requests that keep every addition *)
Definition kept_run {V} (adds : list (bytes * V)) : list (bytes * list V) :=
  fold_left (fun r a => at_name (fst a) (fun ps => ps ++ [snd a]) [snd a] r) adds [].

Lemma kept_ok : forall {V} (adds : list (bytes * V)),
  NoDup (map fst (kept_run adds)) /\
  (forall t, In t (map fst (kept_run adds)) <-> In t (map fst adds)) /\
  forall t ps, In (t, ps) (kept_run adds) -> ps = map snd (filter (fun a => beqb (fst a) t) adds).
Proof.
  intros V. induction adds as [|[t v] adds IH] using rev_ind.
  - split; [constructor|]. split; [intro t; tauto|intros t ps []].
  - unfold kept_run in *. rewrite fold_snoc. set (r := fold_left _ adds []) in *. cbn [fst snd].
    destruct IH as [ND [KE IE]]. split; [apply at_name_nodup; auto|]. split.
    + intro t'. rewrite at_name_keys, KE, map_app, in_app_iff. cbn. intuition congruence.
    + intros t' ps H. rewrite filter_app, map_app. cbn. apply at_name_in in H; auto.
      destruct H as [[N H]|[-> [[b [H ->]]|[N ->]]]].
      * rewrite (proj2 (beqb_no t t')) by congruence. cbn. rewrite app_nil_r. auto.
      * rewrite (proj2 (beqb_iff t t)) by reflexivity. cbn. f_equal. auto.
      * rewrite (proj2 (beqb_iff t t)) by reflexivity. cbn.
        replace (filter (fun a => beqb (fst a) t) adds) with (@nil (bytes * V)); [reflexivity|].
        symmetry. rewrite KE in N. clear - N. induction adds as [|[t' w] adds IH]; [reflexivity|]. cbn in *.
        rewrite (proj2 (beqb_no t' t)) by tauto. apply IH. tauto.
Qed.

(** ** Topic creation *)
Definition ct_ordered (x : ctopic) : Prop := StronglySorted Z.lt (map fst (fst (snd (snd (snd x))))).

Lemma ra_put_spec : forall p rs l, StronglySorted Z.lt (map fst l) ->
  match ra_put p rs l with
  | inr l' => Forall (fun q => q < p) (map fst l) /\ l' = l ++ [(p, rs)]
  | inl e => e = CTRange /\ exists q, In q (map fst l) /\ p <= q
  end.
Proof.
  intros p rs l. induction l as [|[q w] l IH]; intro S; cbn.
  - split; auto.
  - inversion S; subst. destruct (q >=? p) eqn:E1.
    + split; auto. exists q. split; auto. lia.
    + destruct (q =? p) eqn:E2; [lia|]. specialize (IH H1). destruct (ra_put p rs l) as [e|l'].
      * destruct IH as [-> [q' [I L]]]. split; auto. exists q'. auto.
      * destruct IH as [F ->]. split; auto. constructor; auto. lia.
Qed.

Lemma sorted_snoc : forall l p, StronglySorted Z.lt l -> Forall (fun q => q < p) l -> StronglySorted Z.lt (l ++ [p]).
Proof.
  induction l as [|q l IH]; intros p S F; cbn; [repeat constructor|].
  inversion S; subst. inversion F; subst. constructor; auto.
  apply Forall_app. split; auto.
Qed.

Definition ct_inv (ts : list ctopic) : Prop := NoDup (map fst ts) /\ Forall ct_ordered ts.

Lemma ra_add_spec : forall ts t p rs, ct_inv ts ->
  match ra_add ts t p rs with
  | inl CTNotFound => ~ In t (map fst ts)
  | inl CTRange => exists x q, In x ts /\ fst x = t /\ In q (map fst (fst (snd (snd (snd x))))) /\ p <= q
  | inr ts' =>
      exists a n rf ras cs b,
        ts = a ++ (t, (n, (rf, (ras, cs)))) :: b /\
        ts' = a ++ (t, (n, (rf, (ras ++ [(p, rs)], cs)))) :: b /\
        Forall (fun q => q < p) (map fst ras)
  end.
Proof.
  intros ts t p rs. induction ts as [|[t' [n [rf [ras cs]]]] ts IH]; intros [ND FA].
  - cbn. auto.
  - cbn [ra_add]. inversion ND; subst. inversion FA; subst.
    destruct (beqb t' t) eqn:E.
    + apply beqb_iff in E. subst. pose proof (ra_put_spec p rs ras H3) as X.
      destruct (ra_put p rs ras) as [e|ras'].
      * destruct X as [-> [q [I L]]]. exists (t, (n, (rf, (ras, cs)))), q. cbn. auto.
      * destruct X as [F ->]. exists [], n, rf, ras, cs, ts. auto.
    + apply beqb_no in E. specialize (IH (conj H2 H4)).
      destruct (ra_add ts t p rs) as [[|]|ts''].
      * cbn. intros [X|X]; auto.
      * destruct IH as [x [q [I X]]]. exists x, q. split; [right; auto|auto].
      * destruct IH as [a [n' [rf' [ras' [cs' [b [-> [-> F]]]]]]]].
        exists ((t', (n, (rf, (ras, cs)))) :: a), n', rf', ras', cs', b. auto.
Qed.

Lemma ct_add_spec : forall ts t n rf,
  match ct_add ts t n rf with
  | Some ts' => ~ In t (map fst ts) /\ ts' = ts ++ [(t, (n, (rf, ([], []))))]
  | None => In t (map fst ts)
  end.
Proof.
  intros ts t n rf. unfold ct_add. destruct (existsb _ ts) eqn:E.
  - apply existsb_exists in E. destruct E as [x [I E]]. apply beqb_iff in E. subst. apply in_map. exact I.
  - split; auto. intro I. apply in_map_iff in I. destruct I as [x [Ex I]].
    assert (X : existsb (fun x => beqb (fst x) t) ts = true) by (apply existsb_exists; exists x; split; auto; apply beqb_iff; auto).
    congruence.
Qed.

Lemma nodup_snoc : forall {A} (l : list A) x, NoDup l -> ~ In x l -> NoDup (l ++ [x]).
Proof.
  intros. apply NoDup_rev in H. rewrite <- (rev_involutive (l ++ [x])). apply NoDup_rev.
  rewrite rev_app_distr. cbn. constructor; auto. rewrite <- in_rev. auto.
Qed.

Lemma ct_step_inv : forall ts o, ct_inv ts -> ct_inv (fst (ct_step ts o)).
Proof.
  intros ts [t n rf|t p rs] I; cbn [ct_step].
  - pose proof (ct_add_spec ts t n rf) as X. destruct (ct_add ts t n rf) as [ts'|]; cbn [fst]; [|exact I].
    destruct X as [N ->], I as [ND FA]. split.
    + rewrite map_app. apply nodup_snoc; auto.
    + apply Forall_app. split; auto. repeat constructor.
  - pose proof (ra_add_spec ts t p rs I) as X. destruct (ra_add ts t p rs) as [e|ts']; cbn [fst]; [exact I|].
    destruct X as [a [n [rf [ras [cs [b [-> [-> F]]]]]]]], I as [ND FA]. split.
    + rewrite map_app in *. exact ND.
    + apply Forall_app in FA. destruct FA as [F1 F2]. inversion F2; subst.
      apply Forall_app. split; auto. constructor; auto. unfold ct_ordered in *. cbn in *.
      rewrite map_app. apply sorted_snoc; auto.
Qed.

Lemma ct_run_app : forall ops1 ops2 ts, ct_run ts (ops1 ++ ops2) = ct_run (ct_run ts ops1) ops2.
Proof. induction ops1 as [|o ops1 IH]; intros; cbn; auto. Qed.
Lemma ct_run_inv : forall ops ts, ct_inv ts -> ct_inv (ct_run ts ops).
Proof. induction ops as [|o ops IH]; intros ts I; cbn; auto using ct_step_inv. Qed.
Lemma ct_inv_nil : ct_inv [].
Proof. split; constructor. Qed.

(** the topics of the request are those of the AddTopic calls *)
Lemma ct_topics : forall ops ts t,
  ct_inv ts ->
  In t (map fst (ct_run ts ops)) <-> In t (map fst ts) \/ exists n rf, In (CAddTopic t n rf) ops.
Proof.
  induction ops as [|o ops IH]; intros ts t I; cbn [ct_run].
  - split; [auto|]. intros [H|[n [rf []]]]. auto.
  - rewrite IH by (apply ct_step_inv; auto). destruct o as [t' n rf|t' p rs]; cbn [ct_step].
    + pose proof (ct_add_spec ts t' n rf) as X. destruct (ct_add ts t' n rf) as [ts'|]; cbn [fst].
      * destruct X as [N ->]. rewrite map_app, in_app_iff. cbn. split.
        -- intros [[H|[H|[]]]|[n' [rf' H]]]; auto.
           ++ right. exists n, rf. left. congruence.
           ++ right. exists n', rf'. auto.
        -- intros [H|[n' [rf' [H|H]]]]; auto.
           ++ left. right. left. congruence.
           ++ right. exists n', rf'. auto.
      * split.
        -- intros [H|[n' [rf' H]]]; auto. right. exists n', rf'. right. auto.
        -- intros [H|[n' [rf' [H|H]]]]; auto.
           ++ left. congruence.
           ++ right. exists n', rf'. auto.
    + pose proof (ra_add_spec ts t' p rs I) as X. destruct (ra_add ts t' p rs) as [e|ts']; cbn [fst].
      * split; intros [H|[n' [rf' H]]]; auto; right; exists n', rf'; [right; auto|destruct H; [discriminate|auto]].
      * destruct X as [a [n [rf [ras [cs [b [-> [-> F]]]]]]]]. rewrite !map_app. cbn.
        split; intros [H|[n' [rf' H]]]; auto; right; exists n', rf'; [right; auto|destruct H; [discriminate|auto]].
Qed.

Lemma ct_refused : forall ops t n rf,
  let ts := ct_run [] ops in
  snd (ct_step ts (CAddTopic t n rf)) = false <-> exists n' rf', In (CAddTopic t n' rf') ops.
Proof.
  intros ops t n rf ts. cbn [ct_step]. pose proof (ct_add_spec ts t n rf) as X.
  pose proof (ct_topics ops [] t ct_inv_nil) as T. fold ts in T. cbn in T.
  destruct (ct_add ts t n rf); cbn [snd].
  - destruct X as [N _]. split; [discriminate|]. intro H. exfalso. apply N. apply T. auto.
  - split; [|auto]. intros _. apply T in X. destruct X as [[]|X]. exact X.
Qed.

(** ** Config changes *)
Section Cfg.
Context {V : Type} (val : V -> bytes).
Notation cfgs := (list (Z * (bytes * list (bytes * V)))).

Lemma cfg_put_keys : forall n v es es', cfg_put val n v es = Some es' ->
  forall m, In m (map fst es') <-> In m (map fst es) \/ m = n.
Proof.
  induction es as [|[m w] es IH]; intros es' H m'; cbn in H.
  - injection H as <-. cbn. split; intros [X|X]; auto; contradiction.
  - destruct (beqb m n) eqn:E.
    + destruct (beqb (val w) (val v)); [|discriminate]. injection H as <-. apply beqb_iff in E. subst. cbn. intuition congruence.
    + destruct (cfg_put val n v es) as [r|]; [|discriminate]. injection H as <-. cbn. rewrite (IH r eq_refl). tauto.
Qed.

Lemma cfg_put_spec : forall n v es, NoDup (map fst es) ->
  match cfg_put val n v es with
  | Some es' => NoDup (map fst es') /\
      (forall m w, In (m, w) es' <-> In (m, w) es \/ (~ In n (map fst es) /\ m = n /\ w = v)) /\
      (forall w, In (n, w) es -> val w = val v)
  | None => exists w, In (n, w) es /\ val w <> val v
  end.
Proof.
  induction es as [|[m w] es IH]; intro ND; cbn [cfg_put].
  - split; [repeat constructor; auto|]. split; [|intros w []].
    intros m w. cbn. split.
    + intros [H|[]]. injection H as -> ->. auto.
    + intros [[]|[_ [-> ->]]]. auto.
  - inversion ND; subst. destruct (beqb m n) eqn:E.
    + apply beqb_iff in E. subst. destruct (beqb (val w) (val v)) eqn:EV.
      * apply beqb_iff in EV. split; [exact ND|]. split.
        -- intros m' w'. split; [auto|]. intros [H|[N _]]; auto. exfalso. apply N. left. reflexivity.
        -- intros w' [H|H]; [congruence|]. exfalso. apply H1. apply in_map_iff. exists (n, w'). auto.
      * apply beqb_no in EV. exists w. split; [left; reflexivity|auto].
    + apply beqb_no in E. specialize (IH H2). pose proof (cfg_put_keys n v es) as K.
      destruct (cfg_put val n v es) as [r|].
      * destruct IH as [N2 [I2 V2]]. split; [|split].
        -- cbn. constructor; auto. rewrite (K r eq_refl). intros [X|X]; auto.
        -- intros m' w'. cbn. rewrite I2. split.
           ++ intros [H|[H|[N [-> ->]]]]; auto. right. split; auto. intros [X|X]; auto.
           ++ intros [[H|H]|[N [-> ->]]]; auto. right. right. auto 6.
        -- intros w' [H|H]; [congruence|]. auto.
      * destruct IH as [w' [I D]]. exists w'. split; [right; auto|auto].
Qed.

Definition rkey (x : Z * (bytes * list (bytes * V))) := (fst x, fst (snd x)).

Lemma cfg_add_keys : forall rs rt rn n v rs', cfg_add val rs rt rn n v = Some rs' ->
  forall k, In k (map rkey rs') <-> In k (map rkey rs) \/ k = (rt, rn).
Proof.
  induction rs as [|[rt' [rn' es]] rs IH]; intros rt rn n v rs' H k; cbn [cfg_add] in H.
  - injection H as <-. cbn. split; intros [X|X]; auto; contradiction.
  - destruct ((rt' =? rt) && beqb rn' rn) eqn:E.
    + destruct (cfg_put val n v es); [|discriminate]. injection H as <-.
      apply andb_prop in E. destruct E as [E1 E2]. apply beqb_iff in E2. assert (rt' = rt) by lia. subst.
      unfold rkey. cbn. intuition congruence.
    + destruct (cfg_add val rs rt rn n v) as [r|] eqn:ER; [|discriminate]. injection H as <-. cbn [map In].
      rewrite (IH _ _ _ _ _ ER). unfold rkey at 1 3. tauto.
Qed.

Lemma cfg_add_spec : forall rs rt rn n v, cfg_unique rs ->
  match cfg_add val rs rt rn n v with
  | Some rs' => cfg_unique rs' /\
      (forall a b m w, cfg_entry rs' a b m w <->
         cfg_entry rs a b m w \/ ((forall u, ~ cfg_entry rs rt rn n u) /\ a = rt /\ b = rn /\ m = n /\ w = v)) /\
      (forall w, cfg_entry rs rt rn n w -> val w = val v)
  | None => exists w, cfg_entry rs rt rn n w /\ val w <> val v
  end.
Proof.
  induction rs as [|[rt' [rn' es]] rs IH]; intros rt rn n v [ND FA]; cbn [cfg_add].
  - split; [|split].
    + split; repeat constructor; auto.
    + intros a b m w. unfold cfg_entry. split.
      * intros [es [[H|[]] I]]. injection H as <- <- <-. destruct I as [I|[]]. injection I as <- <-.
        right. split; auto. intros u [es [[] _]].
      * intros [[es [[] _]]|[_ [-> [-> [-> ->]]]]]. exists [(n, v)]. split; left; reflexivity.
    + intros w [es [[] _]].
  - inversion ND; subst. inversion FA; subst. cbn [snd fst] in *.
    destruct ((rt' =? rt) && beqb rn' rn) eqn:E.
    + apply andb_prop in E. destruct E as [E1 E2]. apply beqb_iff in E2. assert (rt' = rt) by lia. subst. clear E1.
      assert (U : forall es' w m, In (rt, (rn, es')) ((rt, (rn, es)) :: rs) -> In (m, w) es' -> In (m, w) es).
      { intros es' w m [H|H] I; [congruence|]. exfalso. apply H1. apply in_map_iff. exists (rt, (rn, es')). auto. }
      pose proof (cfg_put_spec n v es H3) as X. destruct (cfg_put val n v es) as [es'|].
      * destruct X as [N2 [I2 V2]]. split; [|split].
        -- split; [exact ND|constructor; auto].
        -- intros a b m w. unfold cfg_entry. split.
           ++ intros [e [[H|H] I]].
              ** injection H as <- <- <-. apply I2 in I. destruct I as [I|[N [-> ->]]].
                 { left. exists es. split; [left; reflexivity|auto]. }
                 right. split; auto. intros u [e' [He I]]. apply N. apply in_map_iff. exists (n, u). split; auto. eapply U; eauto.
              ** left. exists e. split; [right; auto|auto].
           ++ intros [[e [[H|H] I]]|[N [-> [-> [-> ->]]]]].
              ** injection H as <- <- <-. exists es'. split; [left; reflexivity|]. apply I2. auto.
              ** exists e. split; [right; auto|auto].
              ** exists es'. split; [left; reflexivity|]. apply I2. right. split; auto.
                 intro Y. apply in_map_iff in Y. destruct Y as [[n0 u] [Y I]]. cbn in Y. subst.
                 apply (N u). exists es. split; [left; reflexivity|auto].
        -- intros w [e [He I]]. apply V2. eapply U; eauto.
      * destruct X as [w [I D]]. exists w. split; auto. exists es. split; [left; reflexivity|auto].
    + assert (NK : (rt', rn') <> (rt, rn)).
      { intro K. injection K as -> ->. rewrite Z.eqb_refl, (proj2 (beqb_iff rn rn)) in E by reflexivity. discriminate. }
      specialize (IH rt rn n v (conj H2 H4)). pose proof (cfg_add_keys rs rt rn n v) as K.
      destruct (cfg_add val rs rt rn n v) as [r|].
      * destruct IH as [[N2 F2] [I2 V2]]. split; [|split].
        -- split; [|constructor; auto]. cbn [map fst snd]. constructor; auto.
           intro X. apply (K r eq_refl) in X. destruct X; auto.
        -- intros a b m w. split.
           ++ intros [e [[H|H] I]].
              ** injection H as <- <- <-. left. exists es. split; [left; reflexivity|auto].
              ** assert (Y : cfg_entry r a b m w) by (exists e; auto). apply I2 in Y. destruct Y as [[e' [Y1 Y2]]|[N Y]].
                 { left. exists e'. split; [right; auto|auto]. }
                 right. split; auto. intros u [e' [[He|He] Iu]]; [congruence|]. apply (N u). exists e'. auto.
           ++ intros [[e [[H|H] I]]|[N [-> [-> [-> ->]]]]].
              ** injection H as <- <- <-. exists es. split; [left; reflexivity|auto].
              ** assert (Y : cfg_entry r a b m w) by (apply I2; left; exists e; auto).
                 destruct Y as [e' [Y1 Y2]]. exists e'. split; [right; auto|auto].
              ** assert (Y : cfg_entry r rt rn n v).
                 { apply I2. right. split; auto. intros u [e [He I]]. apply (N u). exists e. split; [right; auto|auto]. }
                 destruct Y as [e' [Y1 Y2]]. exists e'. split; [right; auto|auto].
        -- intros w [e [[H|H] I]]; [congruence|]. apply V2. exists e. auto.
      * destruct IH as [w [[e [He I]] D]]. exists w. split; auto. exists e. split; [right; auto|auto].
Qed.
End Cfg.

Definition ca_tuple (a : cfgadd) : Z * bytes * bytes * bytes := (ca_type a, ca_res a, ca_name a, ca_val a).

Section CfgRun.
Context {V : Type} (val : V -> bytes) (wrap : bytes -> V) (vw : forall b, val (wrap b) = b).
Notation cfgs := (list (Z * (bytes * list (bytes * V)))).

Definition cfg_step (rs : cfgs) (a : cfgadd) : cfgs * bool :=
  match cfg_add val rs (ca_type a) (ca_res a) (ca_name a) (wrap (ca_val a)) with Some r => (r, true) | None => (rs, false) end.
Definition cfg_run (adds : list cfgadd) : cfgs := fold_left (fun r a => fst (cfg_step r a)) adds [].

Lemma said_first_snoc : forall adds rt rn n v rt' rn' n' v',
  said_first (adds ++ [(rt, rn, n, v)]) rt' rn' n' v' <->
  said_first adds rt' rn' n' v' \/
  ((forall w, ~ In (rt, rn, n, w) adds) /\ rt' = rt /\ rn' = rn /\ n' = n /\ v' = v).
Proof.
  intros. split.
  - intros [bf [af [E N]]]. destruct (snoc_inv _ _ _ _ _ E) as [[-> [-> X]]|[af' [-> ->]]].
    + injection X as -> -> -> ->. right. auto.
    + left. exists bf, af'. auto.
  - intros [[bf [af [-> N]]]|[N [-> [-> [-> ->]]]]].
    + exists bf, (af ++ [(rt, rn, n, v)]). split; auto. rewrite <- app_assoc. reflexivity.
    + exists adds, []. auto.
Qed.

Lemma said_first_some : forall adds rt rn n w, In (rt, rn, n, w) adds -> exists v, said_first adds rt rn n v.
Proof.
  induction adds as [|[[[a b] c] d] adds IH] using rev_ind; intros rt rn n w I; [contradiction|].
  destruct (in_dec (fun x y : Z * bytes * bytes => ltac:(repeat decide equality)) (rt, rn, n) (map fst adds)) as [J|J].
  - apply in_map_iff in J. destruct J as [[k u] [E J]]. cbn in E. subst k.
    destruct (IH rt rn n u J) as [v S]. exists v. apply said_first_snoc. auto.
  - apply in_app_or in I. destruct I as [I|[I|[]]].
    + exfalso. apply J. apply in_map_iff. exists (rt, rn, n, w). auto.
    + injection I as -> -> -> ->. exists w. apply said_first_snoc. right. split; auto.
      intros u Hu. apply J. apply in_map_iff. exists (rt, rn, n, u). auto.
Qed.

Lemma cfg_run_ok : forall adds,
  let tup := map ca_tuple adds in
  cfg_unique (cfg_run adds) /\
  (forall rt rn n u, cfg_entry (cfg_run adds) rt rn n u <-> exists v, u = wrap v /\ said_first tup rt rn n v).
Proof.
  induction adds as [|a adds IH] using rev_ind.
  - cbn. split; [split; constructor|]. intros. split; [intros [es [[] _]]|].
    intros [v [_ [bf [af [E _]]]]]. destruct bf; discriminate.
  - cbn zeta in *. unfold cfg_run in *. rewrite fold_snoc. set (rs := fold_left _ adds []) in *.
    destruct IH as [U IE]. unfold cfg_step. rewrite map_app. cbn [map]. unfold ca_tuple at 2.
    pose proof (cfg_add_spec val rs (ca_type a) (ca_res a) (ca_name a) (wrap (ca_val a)) U) as X.
    destruct (cfg_add val rs _ _ _ _) as [rs'|]; cbn [fst].
    + destruct X as [U' [I2 V2]]. split; [exact U'|]. intros rt rn n u. rewrite I2, IE. split.
      * intros [[v [-> S]]|[N [-> [-> [-> ->]]]]].
        -- exists v. split; auto. apply said_first_snoc. auto.
        -- exists (ca_val a). split; auto. apply said_first_snoc. right. split; auto.
           intros w I. destruct (said_first_some _ _ _ _ _ I) as [v S]. apply (N (wrap v)). apply IE. exists v. auto.
      * intros [v [-> S]]. apply said_first_snoc in S. destruct S as [S|[N [-> [-> [-> ->]]]]].
        -- left. exists v. auto.
        -- right. split; auto. intros u I. apply IE in I. destruct I as [v [_ [bf [af [E _]]]]].
           apply (N v). rewrite E. apply in_or_app. right. left. reflexivity.
    + split; [exact U|]. intros rt rn n u. rewrite IE. split; intros [v [-> S]]; exists v; split; auto.
      * apply said_first_snoc. auto.
      * apply said_first_snoc in S. destruct S as [S|[N [-> [-> [-> ->]]]]]; [exact S|].
        exfalso. destruct X as [w [I D]]. apply IE in I. destruct I as [v [_ [bf [af [E _]]]]].
        apply (N v). rewrite E. apply in_or_app. right. left. reflexivity.
Qed.

Lemma cfg_refused : forall adds a,
  snd (cfg_step (cfg_run adds) a) = false <->
  exists v, said_first (map ca_tuple adds) (ca_type a) (ca_res a) (ca_name a) v /\ v <> ca_val a.
Proof.
  intros adds a. destruct (cfg_run_ok adds) as [U IE]. cbn zeta in IE. unfold cfg_step.
  pose proof (cfg_add_spec val (cfg_run adds) (ca_type a) (ca_res a) (ca_name a) (wrap (ca_val a)) U) as X.
  destruct (cfg_add val (cfg_run adds) _ _ _ _) as [rs'|]; cbn [snd].
  - destruct X as [_ [_ V2]]. split; [discriminate|]. intros [v [S D]].
    exfalso. apply D. rewrite <- (vw v), <- (vw (ca_val a)). apply V2. apply IE. exists v. auto.
  - split; auto. intros _. destruct X as [w [I D]]. apply IE in I. destruct I as [v [-> S]].
    exists v. split; auto. intros ->. congruence.
Qed.
End CfgRun.

(** The statements with the functions of the model. *)
Definition ac_run adds := fold_left (fun r a => fst (ac_step r a)) adds [].
Definition iac_run adds := fold_left (fun r a => fst (iac_step r a)) adds [].

Lemma ac_ok : forall adds a,
  cfg_unique (ac_run adds) /\
  (forall rt rn n v, cfg_entry (ac_run adds) rt rn n v <-> said_first (map ca_tuple adds) rt rn n v) /\
  (snd (ac_step (ac_run adds) a) = false <->
   exists v, said_first (map ca_tuple adds) (ca_type a) (ca_res a) (ca_name a) v /\ v <> ca_val a).
Proof.
  intros adds a. destruct (cfg_run_ok (fun x => x) (fun x => x) adds) as [U IE].
  split; [exact U|]. split; [|exact (cfg_refused (fun x => x) (fun x => x) (fun b => eq_refl) adds a)].
  intros rt rn n v. etransitivity; [exact (IE rt rn n v)|]. split; [intros [w [-> S]]; auto|intro S; exists v; auto].
Qed.
Lemma iac_ok : forall adds a,
  cfg_unique (iac_run adds) /\
  (forall rt rn n u, cfg_entry (iac_run adds) rt rn n u <->
     fst u = 0 /\ said_first (map ca_tuple adds) rt rn n (snd u)) /\
  (snd (iac_step (iac_run adds) a) = false <->
   exists v, said_first (map ca_tuple adds) (ca_type a) (ca_res a) (ca_name a) v /\ v <> ca_val a).
Proof.
  intros adds a. destruct (cfg_run_ok (@snd Z bytes) (fun v => (0, v)) adds) as [U IE].
  split; [exact U|]. split; [|exact (cfg_refused (@snd Z bytes) (fun v => (0, v)) (fun b => eq_refl) adds a)].
  intros rt rn n [o v]. etransitivity; [exact (IE rt rn n (o, v))|]. cbn.
  split; [intros [w [E S]]; injection E as -> ->; auto|intros [-> S]; exists v; auto].
Qed.

Definition of_run (adds : list (bytes * Z)) := fold_left (fun r a => of_add r (fst a) (snd a)) adds [].
Definition ld_run (adds : list (bytes * Z)) := fold_left (fun r a => ld_add r (fst a) (snd a)) adds [].
Definition lr_run (adds : list (bytes * Z)) := fold_left (fun r a => lr_add r (fst a) (snd a)) adds [].
Definition el_run (adds : list (bytes * Z)) := fold_left (fun r a => el_add r (fst a) (snd a)) adds [].
Definition ar_run (adds : list (bytes * (Z * list Z))) :=
  fold_left (fun r a => ar_add r (fst a) (fst (snd a)) (snd (snd a))) adds [].
Lemma ar_run_kept : forall adds, ar_run adds = kept_run adds.
Proof.
  intro adds. unfold ar_run, kept_run. generalize (@nil (bytes * list (Z * list Z))) as r.
  induction adds as [|[t [p rs]] adds IH]; intro r; cbn; [reflexivity|]. apply IH.
Qed.

(** refutation of the overwriting half of the documentation of AddReplicaAssignment *)
Lemma ra_overwrite_never : forall ts t p rs ts', ct_inv ts -> ra_add ts t p rs = inr ts' ->
  forall x, In x ts -> fst x = t -> ~ In p (map fst (fst (snd (snd (snd x))))).
Proof.
  intros ts t p rs ts' I E x Ix Ex. pose proof (ra_add_spec ts t p rs I) as X. rewrite E in X.
  destruct X as [a [n [rf [ras [cs [b [-> [_ F]]]]]]]]. destruct I as [ND _].
  assert (x = (t, (n, (rf, (ras, cs))))).
  { destruct x as [t' y]. cbn in Ex. subst t'. f_equal. eapply key_unique; eauto. apply in_or_app. right. left. reflexivity. }
  subst x. cbn. intro Ip. rewrite Forall_forall in F. specialize (F p Ip). lia.
Qed.

Lemma ra_ok : forall ops t p rs,
  let ts := ct_run [] ops in
  (forall x, In x ts -> StronglySorted Z.lt (map fst (fst (snd (snd (snd x)))))) /\
  NoDup (map fst ts) /\
  (snd (ct_step ts (CAddReplicas t p rs)) = true <->
   exists n rf ras cs, In (t, (n, (rf, (ras, cs)))) ts /\ Forall (fun q => q < p) (map fst ras)) /\
  (forall n rf ras cs, In (t, (n, (rf, (ras, cs)))) ts -> Forall (fun q => q < p) (map fst ras) ->
   In (t, (n, (rf, (ras ++ [(p, rs)], cs)))) (ct_run [] (ops ++ [CAddReplicas t p rs]))).
Proof.
  intros ops t p rs ts. pose proof (ct_run_inv ops [] ct_inv_nil) as I. fold ts in I.
  pose proof (ra_add_spec ts t p rs I) as X. destruct I as [ND FA].
  assert (U : forall y z, In (t, y) ts -> In (t, z) ts -> y = z) by (intros; eapply key_unique; eauto).
  split; [intros x Ix; rewrite Forall_forall in FA; exact (FA x Ix)|].
  split; [exact ND|]. rewrite ct_run_app. fold ts. cbn [ct_run ct_step].
  destruct (ra_add ts t p rs) as [[|]|ts']; cbn [snd fst].
  - split; [split; [discriminate|]|].
    + intros [n [rf [ras [cs [H _]]]]]. exfalso. apply X. apply in_map_iff. eexists; split; [|exact H]. reflexivity.
    + intros n rf ras cs H. exfalso. apply X. apply in_map_iff. eexists; split; [|exact H]. reflexivity.
  - destruct X as [[t' y] [q [Ix [Ex [Iq L]]]]]. cbn in Ex. subst t'.
    assert (K : forall n rf ras cs, In (t, (n, (rf, (ras, cs)))) ts -> Forall (fun q => q < p) (map fst ras) -> False).
    { intros n rf ras cs H F. rewrite (U _ _ Ix H) in Iq. cbn in Iq. rewrite Forall_forall in F. specialize (F q Iq). lia. }
    split; [split; [discriminate|]|].
    + intros [n [rf [ras [cs [H F]]]]]. exfalso. eauto.
    + intros. exfalso. eauto.
  - destruct X as [a [n [rf [ras [cs [b [E [-> F]]]]]]]].
    assert (H : In (t, (n, (rf, (ras, cs)))) ts) by (rewrite E; apply in_or_app; right; left; reflexivity).
    split; [split; auto|].
    + intros _. exists n, rf, ras, cs. auto.
    + intros n' rf' ras' cs' H' F'. pose proof (U _ _ H H') as Y. injection Y as <- <- <- <-.
      apply in_or_app. right. left. reflexivity.
Qed.

Lemma ra_overwrite_refuted : exists ops t p rs rs',
  let ts := ct_run [] ops in
  snd (ct_step ts (CAddReplicas t p rs)) = true /\
  snd (ct_step (ct_run ts [CAddReplicas t p rs]) (CAddReplicas t p rs')) = false.
Proof. exists [CAddTopic [97] (-1) (-1)], [97], 0, [1], [2]. vm_compute. auto. Qed.

Lemma ar_ok : forall adds,
  NoDup (map fst (ar_run adds)) /\
  (forall t, In t (map fst (ar_run adds)) <-> In t (map fst adds)) /\
  forall t ps, In (t, ps) (ar_run adds) -> ps = map snd (filter (fun a => beqb (fst a) t) adds).
Proof. intro adds. rewrite ar_run_kept. exact (kept_ok adds). Qed.
