(** Proofs about the joining loop, closing and metadata comparison. *)
From Verif Require Import Base BaseFacts Wire Group GroupFacts Responses Fetch ResponseSpec SortFacts Gcons GconsSpec GconsFacts.

(** ** C44 *)
Lemma own_app i a b : own i (a ++ b) = own i a ++ own i b.
Proof. apply filter_app. Qed.

Definition phase_ok (i : nat) (p : lphase) (o : list gev) : Prop :=
  match p with
  | PWait | PSet _ _ => exists q jm, o = q ++ [GJoin i jm]
  | PSync => exists q jm n m, o = q ++ [GJoin i jm; GJoined i n m]
  | PSyncWait => exists q jm n m n' m', o = q ++ [GJoin i jm; GJoined i n m; GSync i n' m']
  | _ => True
  end.
Definition Iown (g : gst) (tr : list gev) : Prop :=
  (g_closed g = true -> In GClosing tr) /\
  forall i s, nth_error (g_sess g) i = Some s -> phase_ok i (s_loop s) (own i tr).
Definition Pret (pre : list gev) (ev : gev) : Prop :=
  match ev with
  | GRet i None => In GClosing pre \/
      exists q jm n m n' m' parts, own i pre = q ++ [GJoin i jm; GJoined i n m; GSync i n' m'; GSynced i parts]
  | _ => True
  end.

Lemma own_nil i evs : Forall (fun ev => of_session i ev = false) evs -> own i evs = [].
Proof. induction 1 as [|x l H _ IH]; [reflexivity|]. cbn. now rewrite H. Qed.
Lemma own_skip i tr evs : Forall (fun ev => of_session i ev = false) evs -> own i (tr ++ evs) = own i tr.
Proof. intros F. rewrite own_app, (own_nil i evs F). apply app_nil_r. Qed.

Lemma own_setl g i p m m' q tr evs : Iown g tr -> nth_error (g_sess g) i = Some (mkS q m) ->
  (forall j, j <> i -> Forall (fun ev => of_session j ev = false) evs) ->
  phase_ok i p (own i (tr ++ evs)) ->
  forall j s, nth_error (upd i (mkS p m') (g_sess g)) j = Some s -> phase_ok j (s_loop s) (own j (tr ++ evs)).
Proof.
  intros [_ H] N F P j s. rewrite nth_upd by (apply nth_error_Some; congruence).
  destruct (j =? i)%nat eqn:E.
  - apply Nat.eqb_eq in E; subst j. intros X; inversion X; subst. exact P.
  - apply Nat.eqb_neq in E. intros X. rewrite own_skip by auto. apply H; exact X.
Qed.
Lemma own_same g tr evs : Iown g tr -> (forall j, Forall (fun ev => of_session j ev = false) evs) ->
  forall j s, nth_error (g_sess g) j = Some s -> phase_ok j (s_loop s) (own j (tr ++ evs)).
Proof. intros [_ H] F j s. rewrite own_skip by auto. apply H. Qed.
Ltac fse := intros ?j; intros; repeat (apply Forall_cons; [cbn [of_session]; first [reflexivity|apply Nat.eqb_neq; congruence]|]); apply Forall_nil.

Lemma own_step g tr op g' evs : any_op g op -> Iown g tr -> gstep g op = Ok (g', evs) ->
  Iown g' (tr ++ evs) /\ forall pre ev post, evs = pre ++ ev :: post -> Pret (tr ++ pre) ev.
Proof.
  intros _ Hi E. apply gstep_trans in E. destruct E as [[-> ->]|T].
  { rewrite app_nil_r. split; [exact Hi|apply at_nil]. }
  pose proof Hi as [Hcl Hph].
  destruct T; try match goal with H : _ \/ _ |- _ => destruct H; subst evs end;
  (split; [split; [flat; rewrite ?join_failed_closed, ?sync_failed_closed; intros X; apply in_or_app; first [left; auto; fail|right; left; reflexivity]
                  |unfold setl; flat; rewrite ?join_failed_sess, ?sync_failed_sess]|]).
  all: try (apply at_nil).
  all: try (first [apply at_one|apply at_two]; cbn [Pret]; auto; left; try (apply in_or_app; left); auto; fail).
  all: try (eapply own_setl; [exact Hi|eassumption|fse|exact I]; fail).
  all: try (apply own_same; [exact Hi|fse]; fail).
  all: try (eapply own_setl; [exact Hi|eassumption|fse|rewrite own_skip by (repeat constructor); apply (Hph i _ H)]; fail).
  - eapply own_setl; [exact Hi|eassumption|fse|]. rewrite own_app. cbn [own filter of_session]. rewrite Nat.eqb_refl.
    exists (own i tr), (g_member g). reflexivity.
  - eapply own_setl; [exact Hi|eassumption|fse|]. rewrite own_app. cbn [own filter of_session]. rewrite Nat.eqb_refl.
    destruct (Hph i _ H) as (q & jm & ->). exists q, jm, (g_gen g), mm. rewrite <- app_assoc. reflexivity.
  - eapply own_setl; [exact Hi|eassumption|fse|]. rewrite own_app. cbn [own filter of_session]. rewrite Nat.eqb_refl.
    destruct (Hph i _ H) as (q & jm & n & mm & ->). exists q, jm, n, mm, (g_gen g), (g_member g). rewrite <- app_assoc. reflexivity.
  - apply at_two; cbn [Pret]; auto. right. rewrite own_app. cbn [own filter of_session]. rewrite Nat.eqb_refl.
    destruct (Hph i _ H) as (q & jm & n & mm & n' & m' & ->). exists q, jm, n, mm, n', m', (parts_of ma). rewrite <- app_assoc. reflexivity.
  - rewrite app_nil_r. intros j s X. destruct (Nat.lt_ge_cases j (length (g_sess g))) as [L|L].
    + rewrite nth_error_app1 in X by exact L. apply (Hph j s X).
    + rewrite nth_error_app2 in X by exact L. destruct (j - length (g_sess g))%nat as [|k]; [|destruct k; discriminate].
      inversion X; subst. exact I.
Qed.

Lemma own_init : Iown ginit [].
Proof. split; [discriminate|]. intros [|[|i]] s X; inversion X; exact I. Qed.

Lemma loop_ends ops g tr pre i post : grun ginit ops = Ok (g, tr) -> tr = pre ++ GRet i None :: post ->
  In GClosing pre \/
  exists q jm n m n' m' parts, own i pre = q ++ [GJoin i jm; GJoined i n m; GSync i n' m'; GSynced i parts].
Proof.
  intros Hr E.
  exact (proj2 (run_inv any_op Iown Pret own_step ops ginit [] g tr (guarded_any _ _) own_init Hr) pre (GRet i None) post E).
Qed.

(** the assignment of the sync answer is the one installed *)
Lemma parts_pairs ps : flat_map (fun p : bytes * list Z => map (fun x => (fst p, x)) (snd p)) ps = pairs_of ps.
Proof. unfold pairs_of. now rewrite flat_map_concat_map. Qed.
Lemma installed g op g' evs i : gstep g op = Ok (g', evs) -> In (GRet i None) evs ->
  g_closed g = true \/
  exists payload ma, op = OSyncAns i (Ok payload) /\ newMemberAssignment payload = Ok ma /\
    evs = [GSynced i (pairs_of (ma_parts ma)); GRet i None] /\ g_sc g' = pairs_of (ma_parts ma).
Proof.
  intros E I0. apply gstep_trans in E. destruct E as [[-> ->]|T]; [destruct I0|].
  destruct T; auto; try match goal with H : _ \/ _ |- _ => destruct H; subst evs end; cbn in I0;
    try (intuition discriminate).
  right. destruct I0 as [X|[X|[]]]; [discriminate|]. inversion X; subst.
  exists b, ma. unfold parts_of. rewrite parts_pairs. repeat split; auto.
Qed.

(** *** the coordinator *)
Definition need_step (i : nat) (a : bool) (ev : gev) : bool :=
  match ev with
  | GFailed j e => if (j =? i)%nat && moved e then true else a
  | GFound j => if (j =? i)%nat then false else a
  | _ => a
  end.
Definition needs (i : nat) (tr : list gev) : bool := fold_left (need_step i) tr false.
Lemma needs_app i tr evs : needs i (tr ++ evs) = fold_left (need_step i) evs (needs i tr).
Proof. apply fold_left_app. Qed.

Record Ico (g : gst) (tr : list gev) (old : list session) (l : lphase) (m : mphase) : Prop := {
  O_sess : g_sess g = old ++ [mkS l m];
  O_old : Forall finished old;
  O_need : forall i, needs i tr = true -> (i < length old)%nat \/
    (i = length old /\ (l = PDone \/ (l = PHead /\ g_avail g = false))) }.
Definition Icoord (g : gst) (tr : list gev) : Prop := exists old l m, Ico g tr old l m.
Definition Pfound (pre : list gev) (ev : gev) : Prop := match ev with GJoin i _ => needs i pre = false | _ => True end.

Lemma coord_step g tr op g' evs : single g op -> Icoord g tr -> gstep g op = Ok (g', evs) ->
  Icoord g' (tr ++ evs) /\ forall pre ev post, evs = pre ++ ev :: post -> Pfound (tr ++ pre) ev.
Proof.
  intros Hc (old & l & m & Hi) E. apply gstep_trans in E. destruct E as [[-> ->]|T].
  { rewrite app_nil_r. split; [now exists old, l, m|apply at_nil]. }
  destruct Hi as [Is Io In].
  destruct T; cbn [single] in Hc; try last_session Is Io;
    try match goal with H : _ \/ _ |- _ => destruct H; subst evs end.
  all: match goal with |- _ /\ ?G => assert (Q : G) end;
    [first [apply at_nil|apply at_one|apply at_two]; cbn [Pfound]; auto|split; [|exact Q]; clear Q].
  all: try (unshelve eexists old, _, _; [shelve|shelve|]; econstructor;
     [flat; rewrite ?join_failed_sess, ?sync_failed_sess; rewrite Is; rewrite ?upd_last; reflexivity|exact Io|];
     intros i X; rewrite ?needs_app in X; cbn [fold_left need_step] in X; flat;
     destruct (In i) as [Y|[-> Y]]; auto; right; split; auto; intuition (try discriminate; try congruence); fail).
  - exists old, PJoin, m0. constructor; [flat; rewrite Is, upd_last; reflexivity|exact Io|].
    intros i X. rewrite needs_app in X. cbn [fold_left need_step] in X.
    destruct (length old =? i)%nat eqn:Q; [discriminate|]. apply Nat.eqb_neq in Q.
    destruct (In i X) as [Y|[-> Y]]; [auto|congruence].
  - destruct (needs (length old) tr) eqn:Q; [|reflexivity]. destruct (In _ Q) as [Y|[_ [Y|[Y _]]]]; [lia|discriminate|discriminate].
  - exists old, PDone, m0. constructor; [flat; rewrite join_failed_sess, Is, upd_last; reflexivity|exact Io|].
    intros i X. rewrite needs_app in X. cbn [fold_left need_step] in X.
    destruct (length old =? i)%nat eqn:Q; [apply Nat.eqb_eq in Q; subst; auto|].
    cbn [andb] in X. destruct (In i X) as [Y|[-> Y]]; auto.
  - exists old, PHead, m0. constructor; [flat; rewrite join_failed_sess, Is, upd_last; reflexivity|exact Io|].
    destruct (join_failed_fields g e txt) as (_ & _ & _ & _ & _ & _ & _ & _ & Fa & _).
    intros i X. rewrite needs_app in X. cbn [fold_left need_step] in X. unfold setl; flat.
    destruct (length old =? i)%nat eqn:Q; cbn [andb] in X; [|destruct (In i X) as [Y|[-> [Y|[Y _]]]]; auto; discriminate].
    apply Nat.eqb_eq in Q; subst i. destruct (moved e) eqn:M; [right; split; [reflexivity|right; split; [reflexivity|apply Fa; reflexivity]]|].
    destruct (In _ X) as [Y|[_ [Y|[Y _]]]]; auto; discriminate.
  - exists old, PHead, m0. constructor; [flat; rewrite join_failed_sess, Is, upd_last; reflexivity|exact Io|].
    destruct (join_failed_fields g e txt) as (_ & _ & _ & _ & _ & _ & _ & _ & Fa & _).
    intros i X. rewrite needs_app in X. cbn [fold_left need_step] in X. unfold setl; flat.
    destruct (length old =? i)%nat eqn:Q; cbn [andb] in X; [|destruct (In i X) as [Y|[-> [Y|[Y _]]]]; auto; discriminate].
    apply Nat.eqb_eq in Q; subst i. destruct (moved e) eqn:M; [right; split; [reflexivity|right; split; [reflexivity|apply Fa; reflexivity]]|].
    destruct (In _ X) as [Y|[_ [Y|[Y _]]]]; auto; discriminate.
  - exists old, PHead, m0. constructor; [flat; rewrite sync_failed_sess, Is, upd_last; reflexivity|exact Io|].
    destruct (sync_failed_fields g e) as (_ & _ & _ & _ & _ & _ & _ & _ & Fa & _).
    intros i X. rewrite needs_app in X. cbn [fold_left need_step] in X. unfold setl; flat.
    destruct (length old =? i)%nat eqn:Q; cbn [andb] in X; [|destruct (In i X) as [Y|[-> [Y|[Y _]]]]; auto; discriminate].
    apply Nat.eqb_eq in Q; subst i. destruct (moved e) eqn:M; [right; split; [reflexivity|right; split; [reflexivity|apply Fa; reflexivity]]|].
    destruct (In _ X) as [Y|[_ [Y|[Y _]]]]; auto; discriminate.
  - exists old, PHead, m0. constructor; [flat; rewrite sync_failed_sess, Is, upd_last; reflexivity|exact Io|].
    destruct (sync_failed_fields g e) as (_ & _ & _ & _ & _ & _ & _ & _ & Fa & _).
    intros i X. rewrite needs_app in X. cbn [fold_left need_step] in X. unfold setl; flat.
    destruct (length old =? i)%nat eqn:Q; cbn [andb] in X; [|destruct (In i X) as [Y|[-> [Y|[Y _]]]]; auto; discriminate].
    apply Nat.eqb_eq in Q; subst i. destruct (moved e) eqn:M; [right; split; [reflexivity|right; split; [reflexivity|apply Fa; reflexivity]]|].
    destruct (In _ X) as [Y|[_ [Y|[Y _]]]]; auto; discriminate.
  - rewrite app_nil_r. exists (g_sess g), PHead, MWait. constructor; [reflexivity|exact Hc|].
    intros i X. left. rewrite Is, app_length. cbn. destruct (In i X) as [Y|[-> Y]]; lia.
Qed.

Lemma coord_init : Icoord ginit [].
Proof. exists [], PHead, MWait. constructor; cbn; auto. intros; discriminate. Qed.
Lemma needs_found i b : forall a, fold_left (need_step i) b a = false -> a = true -> In (GFound i) b.
Proof.
  induction b as [|x b IH]; intros a H Ha; [cbn in H; congruence|]. cbn in H.
  destruct (need_step i a x) eqn:Q; [right; eapply IH; [exact H|reflexivity]|].
  subst a. destruct x; cbn in Q; try discriminate.
  - destruct (i0 =? i)%nat eqn:J; [|discriminate]. apply Nat.eqb_eq in J; subst. left; reflexivity.
  - destruct (_ && _); discriminate.
Qed.
Lemma lookup_again ops g tr a i e b m c : guarded single ginit ops -> grun ginit ops = Ok (g, tr) ->
  tr = a ++ GFailed i e :: b ++ GJoin i m :: c -> moved e = true -> In (GFound i) b.
Proof.
  intros Hg Hr E He.
  assert (tr = (a ++ GFailed i e :: b) ++ GJoin i m :: c) as E' by (rewrite E, <- app_assoc; reflexivity).
  pose proof (proj2 (run_inv single Icoord Pfound coord_step ops ginit [] g tr Hg coord_init Hr) _ _ _ E') as P.
  cbn [Pfound app] in P.
  replace (a ++ GFailed i e :: b) with ((a ++ [GFailed i e]) ++ b) in P by (rewrite <- app_assoc; reflexivity).
  rewrite needs_app in P. eapply needs_found; [exact P|]. rewrite needs_app. cbn [fold_left need_step].
  now rewrite Nat.eqb_refl, He.
Qed.

(** ** C45 *)
Definition counts (g : gst) (l : lphase) (m : mphase) : Prop :=
  match l, m with
  | PDone, MWait => g_wg g = 0
  | PDone, MStart k => g_wg g + zlen k = zlen (g_sc g)
  | PDone, MIdle => g_wg g = zlen (g_sc g)
  | _, MWait => g_sc g = [] /\ g_wg g = 0
  | _, _ => False
  end.
Definition no_start (m : mphase) : Prop := match m with MStart (_ :: _) => False | _ => True end.
Record Isf (g : gst) (tr : list gev) (old : list session) (l : lphase) (m : mphase) : Prop := {
  F_sess : g_sess g = old ++ [mkS l m];
  F_old : Forall finished old;
  F_phase : (l <> PHead -> l <> PDone -> g_coord g = true) /\ (l = PDone -> g_closed g = false -> g_coord g = true);
  F_avail : g_avail g = true -> g_coord g = true;
  F_joined : g_joined g = true -> g_coord g = true;
  F_member : g_member g <> [] -> g_coord g = true;
  F_com : g_com g <> [] -> g_coord g = true;
  F_chan : g_closed g = false -> g_chan g = false /\ counts g l m /\ ~ In GClosing tr;
  F_closed : g_closed g = true -> g_sc g = [] /\ g_wg g = 0 /\ l <> PSync /\ l <> PSyncWait /\ no_start m }.
Definition Isafe (g : gst) (tr : list gev) : Prop := exists old l m, Isf g tr old l m.
Definition Pstart (pre : list gev) (ev : gev) : Prop := match ev with GStarted _ => ~ In GClosing pre | _ => True end.

Lemma notin_closing tr evs : ~ In GClosing tr -> ~ In GClosing evs -> ~ In GClosing (tr ++ evs).
Proof. intros A B X. apply in_app_or in X. tauto. Qed.
Ltac notin := apply notin_closing; [assumption|cbn [In]; intuition discriminate].
Ltac field :=
  unfold setl; flat; rewrite ?join_failed_closed, ?sync_failed_closed;
  match goal with
  | Fm : g_member _ = (if _ then _ else _), Fc : g_coord _ = _, Fj : g_joined _ = _, Fh : g_chan _ = _, Fs : g_sc _ = _, Fw : g_wg _ = _, Fo : g_com _ = _ |- _ =>
      rewrite ?Fm, ?Fc, ?Fj, ?Fh, ?Fs, ?Fw, ?Fo
  | _ => idtac
  end;
  match goal with CC : g_closed _ = _ |- _ => rewrite ?CC | _ => idtac end;
  repeat split; intros; try discriminate; try congruence; try assumption; auto; try notin.

Lemma safe_step g tr op g' evs : orderly g op -> Isafe g tr -> gstep g op = Ok (g', evs) ->
  Isafe g' (tr ++ evs) /\ forall pre ev post, evs = pre ++ ev :: post -> Pstart (tr ++ pre) ev.
Proof.
  intros Hc (old & l & m & Hi) E. apply gstep_trans in E. destruct E as [[-> ->]|T].
  { rewrite app_nil_r. split; [now exists old, l, m|apply at_nil]. }
  destruct Hi as [Is Io [Ip1 Ip2] Ia Ij Im Ic Ih Il].
  destruct T; cbn [orderly] in Hc; try last_session Is Io;
    try match goal with H : _ \/ _ |- _ => destruct H; subst evs end.
  all: match goal with |- _ /\ ?G => assert (Q : G) end;
    [first [apply at_nil|apply at_one|apply at_two]; cbn [Pstart]; auto|split; [|exact Q]; clear Q].
  all: assert (CC : g_closed g = true \/ g_closed g = false) by (destruct (g_closed g); auto);
    destruct CC as [CC|CC]; try congruence;
    first [destruct (Il CC) as (L1 & L2 & L3 & L4 & L5)|destruct (Ih CC) as (L1 & L2 & L3)]; clear Il Ih;
    try contradiction; try congruence; try (exact L3).
  all: try (destruct (join_failed_fields g e txt) as (Fm & _ & Fc & Fj & Fh & Fs & Fw & Fo & _ & Fb)).
  all: try (destruct (sync_failed_fields g e) as (Fm & _ & Fc & Fj & Fh & Fs & Fw & Fo & _ & Fb)).
  all: try (destruct m0; try contradiction; cbn [counts] in L2).
  all: try (assert (CO : g_coord g = true)
    by (first [assumption|apply Ip1; discriminate|apply Ia; assumption|apply Ip2; [reflexivity|assumption]])).
  all: try match type of L2 with _ /\ _ => destruct L2 as [L2 L2'] end.
  all: rewrite ?app_nil_r.
  all: try (unshelve eexists old, _, _; [shelve|shelve|]; constructor;
     [flat; rewrite ?join_failed_sess, ?sync_failed_sess; rewrite Is; rewrite ?upd_last; reflexivity|exact Io|..];
     field; cbn [counts]; field; try (change reports with is_kafka in *; destruct (is_kafka 25 e); congruence); fail).
  - exists old, PDone, (MStart (g_sc g)). constructor; [flat; rewrite Is, upd_last; reflexivity|exact Io|..]; field.
    cbn [counts] in *. flat. lia.
  - exists old, p, (MStart l0). constructor; [flat; rewrite Is, upd_last; reflexivity|exact Io|..]; field.
    destruct p; try contradiction. cbn [counts] in *. flat. rewrite zlen_cons in L2. lia.
  - exists old, p, MIdle. constructor; [flat; rewrite Is, upd_last; reflexivity|exact Io|..]; field.
    destruct p; try contradiction. cbn [counts] in *. flat. cbn in L2. lia.
  - exists old, l, m. constructor; [exact Is|exact Io|..]; field. apply Ic. eapply nth_nonnil; eassumption.
  - exists old, l, m. constructor; [exact Is|exact Io|..]; field. apply Ic. eapply nth_nonnil; eassumption.
  - exists (g_sess g), PHead, MWait. constructor; [reflexivity|exact Hc|..]; field. rewrite L1, L2. reflexivity.
  - exists (g_sess g), PHead, MWait. constructor; [reflexivity|exact Hc|..]; field.
    rewrite Is in Hc. apply Forall_app in Hc. destruct Hc as [_ Hc]. inversion Hc as [|? ? Hn _]; subst.
    injection Hn as -> ->. cbn [counts] in L2. flat. lia.
  - destruct Hc; congruence.
  - destruct Hc as [Hc _]. rewrite Is in Hc. apply Forall_app in Hc. destruct Hc as [_ Hc]. inversion Hc as [|? ? Hn _]; subst.
    assert (W : g_wg g - zlen (g_sc g) = 0).
    { destruct l, m; cbn in Hn, L2; try contradiction; try (destruct L2 as [-> ->]; reflexivity); lia. }
    exists old, l, m. rewrite W. constructor; [exact Is|exact Io|..]; field.
    all: try (intros ->; cbn in Hn; contradiction).
    destruct l, m; cbn in *; auto; contradiction.
Qed.

Lemma safe_init : Isafe ginit [].
Proof. exists [], PHead, MWait. constructor; cbn; auto; intros; try discriminate; try congruence. split; congruence. Qed.

Lemma safe_progress g tr op : orderly g op -> Isafe g tr -> exists r, gstep g op = Ok r.
Proof.
  intros Hc (old & l & m & Hi). destruct Hi as [Is Io [Ip1 Ip2] Ia Ij Im Ic Ih Il].
  assert (Hw : forall w, (l = PDone -> m = MIdle) -> settled (mkS l m) -> w = g_wg g - zlen (g_sc g) -> (w <? 0) = false).
  { intros w _ Hs ->. destruct (g_closed g) eqn:CC.
    - destruct (Il eq_refl) as (-> & -> & _). reflexivity.
    - destruct (Ih eq_refl) as (_ & L2 & _).
      destruct l, m; cbn in Hs, L2; try contradiction; try (destruct L2 as [-> ->]; reflexivity). lia. }
  destruct op as [i ans|i|i ans txt|i|i|i ans|i|i|i| | |k|k| | |ans]; cbn [gstep orderly] in *; unfold done.
  - destruct (nth_error (g_sess g) i) as [[p q]|]; [destruct p|]; try (eexists; reflexivity).
    destruct (g_closed g), (g_avail g); try (eexists; reflexivity). destruct ans; try contradiction; eexists; reflexivity.
  - destruct (nth_error (g_sess g) i) as [[p q]|]; [destruct p|]; try (eexists; reflexivity).
    match goal with |- context [if ?c then _ else _] => destruct c end; eexists; reflexivity.
  - destruct (nth_error (g_sess g) i) as [[p q]|]; [destruct p|]; try (eexists; reflexivity).
    destruct ans as [[n [a b]]|e| |]; try contradiction; [eexists; reflexivity|]. match goal with |- context [if ?c then _ else _] => destruct c end; eexists; reflexivity.
  - destruct (nth_error (g_sess g) i) as [[p q]|]; [destruct p|]; try (eexists; reflexivity).
    match goal with |- context [if ?c then _ else _] => destruct c end; eexists; reflexivity.
  - destruct (nth_error (g_sess g) i) as [[p q]|]; [destruct p|]; eexists; reflexivity.
  - destruct (nth_error (g_sess g) i) as [[p q]|]; [destruct p|]; try (eexists; reflexivity).
    destruct Hc as [Hc1 Hc2]. destruct ans as [b|e| |]; try contradiction; [|eexists; reflexivity].
    specialize (Hc2 b eq_refl). destruct (newMemberAssignment b); try contradiction; eexists; reflexivity.
  - destruct (nth_error (g_sess g) i) as [[p q]|]; [destruct q|]; try (eexists; reflexivity).
    destruct (g_chan g); eexists; reflexivity.
  - destruct (nth_error (g_sess g) i) as [[p q]|]; [destruct p, q|]; eexists; reflexivity.
  - destruct (nth_error (g_sess g) i) as [[p q]|]; [destruct q as [|[|x q]|]|]; eexists; reflexivity.
  - destruct (g_closed g); [eexists; reflexivity|]. destruct (g_joined g); [|eexists; reflexivity].
    rewrite Ij by reflexivity. eexists; reflexivity.
  - destruct (g_member g); eexists; reflexivity.
  - destruct (nth_error (g_com g) k) as [[|mm]|]; eexists; reflexivity.
  - destruct (nth_error (g_com g) k) as [[|mm]|] eqn:N; try (eexists; reflexivity).
    rewrite Ic by (eapply nth_nonnil; eassumption). eexists; reflexivity.
  - destruct (negb _); [eexists; reflexivity|]. unfold gstop.
    rewrite Is in Hc. apply Forall_app in Hc. destruct Hc as [_ Hc]. inversion Hc as [|? ? Hn _]; subst. injection Hn as -> ->.
    rewrite (Hw _ (fun _ => eq_refl) I eq_refl). eexists; reflexivity.
  - destruct (g_chan g); [eexists; reflexivity|]. unfold gstop. cbn [g_wg g_sc set_close].
    destruct Hc as [Hc _]. rewrite Is in Hc. apply Forall_app in Hc. destruct Hc as [_ Hc]. inversion Hc as [|? ? Hn _]; subst.
    rewrite (Hw _ ltac:(intros ->; destruct m; cbn in Hn; tauto) Hn eq_refl). eexists; reflexivity.
  - destruct Hc as [u ->]. destruct (negb _); [eexists; reflexivity|]. destruct (g_joined g) eqn:J; [|eexists; reflexivity].
    rewrite Ij by reflexivity. eexists; reflexivity.
Qed.

Lemma safe_run ops : forall g tr, guarded orderly g ops -> Isafe g tr -> exists r, grun g ops = Ok r.
Proof.
  induction ops as [|op ops IH]; intros g tr Hg Hi; cbn [grun guarded] in *; [eexists; reflexivity|].
  destruct Hg as [H1 H2]. destruct (safe_progress g tr op H1 Hi) as [[g1 e1] E]. rewrite E in *. cbn [fst] in H2.
  destruct (safe_step g tr op g1 e1 H1 Hi E) as [Hi' _].
  destruct (IH g1 _ H2 Hi') as [[g2 e2] E2]. cbn [rbind fst snd]. rewrite E2. eexists; reflexivity.
Qed.
Lemma no_panic ops : guarded orderly ginit ops -> exists g tr, grun ginit ops = Ok (g, tr).
Proof. intros H. destruct (safe_run ops ginit [] H safe_init) as [[g tr] E]. eauto. Qed.
Lemma closed_starts_nothing ops g tr a b p c : guarded orderly ginit ops -> grun ginit ops = Ok (g, tr) ->
  tr = a ++ GClosing :: b ++ GStarted p :: c -> False.
Proof.
  intros Hg Hr E.
  assert (tr = (a ++ GClosing :: b) ++ GStarted p :: c) as E' by (rewrite E, <- app_assoc; reflexivity).
  pose proof (proj2 (run_inv orderly Isafe Pstart safe_step ops ginit [] g tr Hg safe_init Hr) _ _ _ E') as P.
  cbn [Pstart app] in P. apply P. apply in_or_app. right. left. reflexivity.
Qed.

(** ** C46 *)
Definition pview (p : nopart) : Z * (Z * Z) := (fst (snd p), (fst p, fst (snd (snd p)))).
Definition tview (t : Z * (bytes * (bool * list nopart))) : bytes * (Z * list (Z * (Z * Z))) :=
  (fst (snd t), (fst t, map pview (snd (snd (snd t))))).
Lemma parts_same_view a : forall b, parts_same a b = true <-> map pview a = map pview b.
Proof.
  induction a as [|x a IH]; intros [|y b]; cbn; try (split; congruence).
  rewrite andb_true_iff, IH. unfold part_same, pview. rewrite !andb_true_iff, !Z.eqb_eq.
  split; [intros (((-> & ->) & ->) & ->); reflexivity|]. intros X; inversion X. auto.
Qed.
Lemma topics_same_view a : forall b, topics_same a b = true <-> map tview a = map tview b.
Proof.
  induction a as [|[e [n [i ps]]] a IH]; intros [|[e' [n' [i' ps']]] b]; cbn; try (split; congruence).
  rewrite !andb_true_iff, IH, parts_same_view, Z.eqb_eq, beqb_true. unfold tview; cbn.
  split; [intros (((-> & ->) & ->) & ->); reflexivity|]. intros X; inversion X. auto.
Qed.
Lemma same_view a b : ifTopicMetadatasSame a b = true <-> option_map (map tview) a = option_map (map tview) b.
Proof.
  destruct a, b; cbn; try (split; congruence). rewrite topics_same_view. split; congruence.
Qed.

(** lists in order with the same elements are the same *)
Section Ordered.
Context {A : Type} (lt : A -> A -> Prop) (irr : forall x, ~ lt x x) (tr : forall x y z, lt x y -> lt y z -> lt x z).
Lemma ordered_unique a : forall b, StronglySorted lt a -> StronglySorted lt b -> (forall x, In x a <-> In x b) -> a = b.
Proof.
  induction a as [|x a IH]; intros [|y b] Ha Hb He.
  - reflexivity.
  - destruct (proj2 (He y) (or_introl eq_refl)).
  - destruct (proj1 (He x) (or_introl eq_refl)).
  - inversion Ha as [|? ? Ha1 Ha2]; subst. inversion Hb as [|? ? Hb1 Hb2]; subst.
    rewrite Forall_forall in Ha2, Hb2.
    assert (x = y).
    { destruct (proj1 (He x) (or_introl eq_refl)) as [->|X]; [reflexivity|].
      destruct (proj2 (He y) (or_introl eq_refl)) as [->|Y]; [reflexivity|].
      destruct (irr x). eapply tr; [apply Ha2; exact Y|apply Hb2; exact X]. }
    subst y. f_equal. apply IH; auto. intros z. split; intros Z0.
    + destruct (proj1 (He z) (or_intror Z0)) as [->|X]; [|exact X]. destruct (irr z). apply Ha2; exact Z0.
    + destruct (proj2 (He z) (or_intror Z0)) as [->|X]; [|exact X]. destruct (irr z). apply Hb2; exact Z0.
Qed.
End Ordered.

Lemma sorted_map {A B} (f : A -> B) (R : B -> B -> Prop) l :
  StronglySorted (fun a b => R (f a) (f b)) l -> StronglySorted R (map f l).
Proof.
  induction 1 as [|x l H IH F]; cbn; constructor; auto. rewrite Forall_map. exact F.
Qed.
Lemma names_differ (ts : list (Z * (bytes * (bool * list nopart)))) t t' :
  StronglySorted (fun a b => bltb (fst (snd a)) (fst (snd b)) = true) ts ->
  In t ts -> In t' ts -> fst (snd t) = fst (snd t') -> t = t'.
Proof.
  induction 1 as [|x l H IH F]; [intros []|]. rewrite Forall_forall in F.
  intros [->|A] [->|B] E; auto.
  - apply F in B. rewrite E, bltb_irrefl in B. discriminate.
  - apply F in A. rewrite E, bltb_irrefl in A. discriminate.
Qed.
Lemma tview_says a n e vs : in_order a ->
  In (n, (e, vs)) (map tview a) <->
  says_topic a n e /\ StronglySorted (fun x y => fst x < fst y) vs /\ (forall x, In x vs <-> says_part a n (fst x) (fst (snd x)) (snd (snd x))).
Proof.
  intros [Ho Hp]. rewrite Forall_forall in Hp. split.
  - intros X. apply in_map_iff in X. destruct X as [[e' [n' [i ps]]] [E X]]. unfold tview in E; cbn in E. inversion E; subst.
    specialize (Hp _ X). cbn in Hp. repeat split.
    + exists i, ps. exact X.
    + apply (sorted_map pview (fun x y => fst x < fst y)). exact Hp.
    + intros Y. apply in_map_iff in Y. destruct Y as [[pe [id [l r]]] [<- Y]]. cbn. exists e, i, ps, r. auto.
    + intros (te & i' & ps' & r & Y1 & Y2). pose proof (names_differ _ _ _ Ho X Y1 eq_refl) as Q. inversion Q; subst.
      destruct x as [id [pe l]]. apply in_map_iff. eexists; split; [|exact Y2]. reflexivity.
  - intros ((i & ps & X) & Hs & He). apply in_map_iff. exists (e, (n, (i, ps))). split; [|exact X].
    unfold tview; cbn. do 2 f_equal. specialize (Hp _ X). cbn in Hp.
    apply (ordered_unique (fun x y : Z * (Z * Z) => fst x < fst y)); auto; try (intros; lia).
    + apply (sorted_map pview (fun x y => fst x < fst y)). exact Hp.
    + intros x. rewrite He. split.
      * intros Y. apply in_map_iff in Y. destruct Y as [[pe [id [l r]]] [<- Y]]. cbn. exists e, i, ps, r. auto.
      * intros (te & i' & ps' & r & Y1 & Y2). pose proof (names_differ _ _ _ Ho X Y1 eq_refl) as Q. inversion Q; subst.
        destruct x as [id [pe l]]. apply in_map_iff. eexists; split; [|exact Y2]. reflexivity.
Qed.
Lemma says_view a n e : says_topic a n e <-> exists vs, In (n, (e, vs)) (map tview a).
Proof.
  split.
  - intros (i & ps & X). exists (map pview ps). apply in_map_iff. eexists; split; [|exact X]. reflexivity.
  - intros (vs & X). apply in_map_iff in X. destruct X as [[e' [n' [i ps]]] [E X]]. inversion E; subst. exists i, ps. exact X.
Qed.
Lemma says_part_view a n id e l : says_part a n id e l <-> exists te vs, In (n, (te, vs)) (map tview a) /\ In (id, (e, l)) vs.
Proof.
  split.
  - intros (te & i & ps & r & X & Y). exists te, (map pview ps). split; apply in_map_iff; eexists; split; try eassumption; reflexivity.
  - intros (te & vs & X & Y). apply in_map_iff in X. destruct X as [[e' [n' [i ps]]] [E X]]. inversion E; subst.
    apply in_map_iff in Y. destruct Y as [[pe [id' [l' r]]] [E' Y]]. inversion E'; subst. exists te, i, ps, r. auto.
Qed.
Lemma same_says a b : in_order a -> in_order b ->
  (ifTopicMetadatasSame (Some a) (Some b) = true <->
   (forall n e, says_topic a n e <-> says_topic b n e) /\ (forall n id e l, says_part a n id e l <-> says_part b n id e l)).
Proof.
  intros Ha Hb. cbn [ifTopicMetadatasSame]. rewrite topics_same_view. split.
  - intros E. split; intros; [rewrite !says_view|rewrite !says_part_view]; rewrite E; reflexivity.
  - intros [H1 H2].
    apply (ordered_unique (fun x y : bytes * (Z * list (Z * (Z * Z))) => bltb (fst x) (fst y) = true)).
    + intros x. rewrite bltb_irrefl. discriminate.
    + intros x y z. apply bltb_trans.
    + apply (sorted_map tview (fun x y => bltb (fst x) (fst y) = true)). exact (proj1 Ha).
    + apply (sorted_map tview (fun x y => bltb (fst x) (fst y) = true)). exact (proj1 Hb).
    + intros [n [e vs]]. rewrite !tview_says by assumption. rewrite H1.
      split; intros (X & Y & W); (split; [exact X|split; [exact Y|]]); intros x; rewrite W, H2; reflexivity.
Qed.
Lemma view_metas a b : map tview a = map tview b -> metas_of a = metas_of b.
Proof.
  intros E. assert (M : forall t, metas_of t = map (fun v => (fst v, map fst (snd (snd v)))) (map tview t)).
  { intros t. unfold metas_of. rewrite map_map. apply map_ext. intros [e [n [i ps]]]. cbn. now rewrite map_map. }
  now rewrite !M, E.
Qed.
Lemma same_metas_of a b : ifTopicMetadatasSame (Some a) (Some b) = true -> metas_of a = metas_of b.
Proof. cbn. intros E. apply topics_same_view in E. now apply view_metas. Qed.
Lemma same_equiv : (forall a, ifTopicMetadatasSame a a = true) /\
  (forall a b, ifTopicMetadatasSame a b = true -> ifTopicMetadatasSame b a = true) /\
  (forall a b c, ifTopicMetadatasSame a b = true -> ifTopicMetadatasSame b c = true -> ifTopicMetadatasSame a c = true).
Proof. repeat split; intros; rewrite same_view in *; congruence. Qed.

(** decoded metadata is in order *)
Lemma presented_in_order ts ts' : presented_topics ts ts' -> NoDup (map (fun t => fst (snd t)) ts) ->
  Forall (fun t => NoDup (map (fun p : nopart => fst (snd p)) (snd (snd (snd t))))) ts -> in_order ts' /\
  (forall n e, says_topic ts' n e <-> says_topic ts n e) /\ (forall n id e l, says_part ts' n id e l <-> says_part ts n id e l).
Proof.
  intros (ts1 & P & S & F) N NP.
  assert (N1 : NoDup (map (fun t => fst (snd t)) ts1)) by (eapply Permutation_NoDup; [apply Permutation_map; exact P|exact N]).
  assert (NP1 : Forall (fun t => NoDup (map (fun p : nopart => fst (snd p)) (snd (snd (snd t))))) ts1)
    by (eapply Permutation_Forall; [exact P|exact NP]).
  assert (O : in_order ts' /\ (forall n e, says_topic ts' n e <-> says_topic ts1 n e) /\
     (forall n id e l, says_part ts' n id e l <-> says_part ts1 n id e l)).
  { clear -S F N1 NP1. split.
    - split.
      + revert S N1. induction F as [|x y l l' (E1 & E2 & E3 & _) F IH]; intros S N; [constructor|].
        inversion S as [|? ? S1 S2]; subst. inversion NP1; subst. cbn in N. inversion N as [|? ? N1 N2]; subst. constructor; [apply IH; auto|].
        clear IH. rewrite <- E2. rewrite Forall_forall in S2. apply Forall_forall. intros z Hz.
        assert (exists w, In w l /\ fst (snd w) = fst (snd z)) as (w & W1 & W2).
        { clear -F Hz. induction F as [|a b l l' (_ & E & _) F IH]; [destruct Hz|]. destruct Hz as [->|Hz]; [exists a; split; [now left|exact E]|].
          destruct (IH Hz) as (w & A & B). exists w. split; [now right|exact B]. }
        rewrite <- W2. destruct (bltb (fst (snd x)) (fst (snd w))) eqn:Q; [reflexivity|].
        destruct N1. rewrite (bltb_tricho _ _ Q (S2 w W1)). apply in_map_iff. exists w; auto.
      + apply Forall_forall. intros t Ht.
        assert (exists w, In w ts1 /\ presented_parts (snd (snd (snd w))) (snd (snd (snd t)))) as (w & W1 & [W2 W3]).
        { clear -F Ht. induction F as [|a b l l' (_ & _ & _ & E) F IH]; [destruct Ht|]. destruct Ht as [->|Ht]; [exists a; split; [now left|exact E]|].
          destruct (IH Ht) as (w & A & B). exists w. split; [now right|exact B]. }
        rewrite Forall_forall in NP1. specialize (NP1 w W1).
        apply (Permutation_map (fun p : nopart => fst (snd p))) in W2. apply (Permutation_NoDup W2) in NP1.
        clear -W3 NP1. induction W3 as [|x l S IH F]; constructor.
        * apply IH. cbn in NP1. now inversion NP1.
        * cbn in NP1. inversion NP1 as [|? ? A B]; subst. rewrite Forall_forall in *. intros z Hz. specialize (F z Hz).
          assert (fst (snd x) <> fst (snd z)); [|lia]. intros E. apply A. rewrite E. apply in_map_iff. exists z; auto.
    - clear S N1 NP1. induction F as [|x y l l' (E1 & E2 & E3 & E4) F [IH1 IH2]].
      + split; intros; split; [intros (? & ? & [])|intros (? & ? & [])|intros (? & ? & ? & ? & [] & _)|intros (? & ? & ? & ? & [] & _)].
      + destruct x as [e1 [n1 [i1 p1]]], y as [e2 [n2 [i2 p2]]]. cbn in E1, E2, E3, E4. subst e2 n2 i2. destruct E4 as [E4 _]. split.
        * intros n e. specialize (IH1 n e). split; intros (i & ps & [X|X]).
          -- inversion X; subst. exists i, p1. now left.
          -- destruct (proj1 IH1) as (i' & ps' & Y); [exists i, ps; exact X|]. exists i', ps'. now right.
          -- inversion X; subst. exists i, p2. now left.
          -- destruct (proj2 IH1) as (i' & ps' & Y); [exists i, ps; exact X|]. exists i', ps'. now right.
        * intros n id e l0. specialize (IH2 n id e l0). split; intros (te & i & ps & r & [X|X] & Y).
          -- inversion X; subst. exists te, i, p1, r. split; [now left|]. eapply Permutation_in; [apply Permutation_sym; exact E4|exact Y].
          -- destruct (proj1 IH2) as (te' & i' & ps' & r' & Y1 & Y2); [exists te, i, ps, r; auto|]. exists te', i', ps', r'. split; [now right|exact Y2].
          -- inversion X; subst. exists te, i, p2, r. split; [now left|]. eapply Permutation_in; [exact E4|exact Y].
          -- destruct (proj2 IH2) as (te' & i' & ps' & r' & Y1 & Y2); [exists te, i, ps, r; auto|]. exists te', i', ps', r'. split; [now right|exact Y2]. }
  destruct O as (O1 & O2 & O3). split; [exact O1|]. split; intros; [rewrite O2|rewrite O3]; unfold says_topic, says_part; split.
  - intros (i & ps & X). exists i, ps. eapply Permutation_in; [apply Permutation_sym; exact P|exact X].
  - intros (i & ps & X). exists i, ps. eapply Permutation_in; [exact P|exact X].
  - intros (te & i & ps & r & X & Y). exists te, i, ps, r. split; [|exact Y]. eapply Permutation_in; [apply Permutation_sym; exact P|exact X].
  - intros (te & i & ps & r & X & Y). exists te, i, ps, r. split; [|exact Y]. eapply Permutation_in; [exact P|exact X].
Qed.
Lemma same_nil a : (ifTopicMetadatasSame None a = true <-> a = None) /\ (ifTopicMetadatasSame a None = true <-> a = None).
Proof. destruct a; cbn; split; split; congruence. Qed.

Lemma installed_wire g i m v ps u : nth_error (g_sess g) i = Some (mkS PSyncWait m) ->
  i16 v -> zlen ps < 2 ^ 31 -> Forall ok_part ps -> match u with None => True | Some b => zlen b < 2 ^ 31 end ->
  exists g', gstep g (OSyncAns i (Ok (enc Assignment_ty (v, (ps, u))))) = Ok (g', [GSynced i (pairs_of ps); GRet i None]) /\
    g_sc g' = pairs_of ps.
Proof.
  intros N Hv Hl Hp Hu. cbn [gstep]. rewrite N, (newMemberAssignment_wire v ps u Hv Hl Hp Hu).
  unfold parts_of. cbn [ma_parts]. rewrite parts_pairs. eexists. split; [reflexivity|].
  unfold set_loop. cbn [g_sess set_sc]. rewrite N. reflexivity.
Qed.
