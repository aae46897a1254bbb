(** Proofs about the group consumer. *)
From Verif Require Import Base BaseFacts Wire Group GroupFacts Responses Fetch ResponseSpec ErrorCode Gcons GconsSpec.

(** ** Lists of sessions *)
Lemma nth_upd {A} i (x : A) l j : (i < length l)%nat ->
  nth_error (upd i x l) j = if (j =? i)%nat then Some x else nth_error l j.
Proof.
  revert i j; induction l as [|h t IH]; intros i j H; cbn in H; [lia|].
  destruct i, j; cbn; auto. apply IH. lia.
Qed.
Lemma upd_last {A} (old : list A) x y : upd (length old) y (old ++ [x]) = old ++ [y].
Proof. induction old; cbn; congruence. Qed.
Lemma upd_length {A} i (x : A) l : length (upd i x l) = length l.
Proof. revert i; induction l; intros [|i]; cbn; auto. Qed.

Lemma only_last old s i p m : Forall finished old -> nth_error (old ++ [s]) i = Some (mkS p m) ->
  (p <> PDone \/ m <> MIdle) -> i = length old /\ s = mkS p m.
Proof.
  intros F H N. destruct (Nat.lt_ge_cases i (length old)) as [L|L].
  - rewrite nth_error_app1 in H by lia. apply nth_error_In in H.
    rewrite Forall_forall in F. apply F in H. unfold finished in H. inversion H. intuition congruence.
  - rewrite nth_error_app2 in H by lia.
    destruct (i - length old)%nat as [|k] eqn:K; cbn in H; [|destruct k; discriminate].
    split; [lia|congruence].
Qed.

(** ** Runs *)
Lemma run_inv (ok : gst -> gop -> Prop) (Inv : gst -> list gev -> Prop) (P : list gev -> gev -> Prop) :
  (forall g tr op g' evs, ok g op -> Inv g tr -> gstep g op = Ok (g', evs) ->
     Inv g' (tr ++ evs) /\ forall pre ev post, evs = pre ++ ev :: post -> P (tr ++ pre) ev) ->
  forall ops g tr g' tr', guarded ok g ops -> Inv g tr -> grun g ops = Ok (g', tr') ->
    Inv g' (tr ++ tr') /\ forall pre ev post, tr' = pre ++ ev :: post -> P (tr ++ pre) ev.
Proof.
  intros St; induction ops as [|op ops IH]; intros g tr g' tr' Hc Hi Hr; cbn [grun guarded] in *.
  - inversion Hr; subst. rewrite app_nil_r. split; [exact Hi|]. intros [|] ? ? X; discriminate.
  - destruct Hc as [Hc1 Hc2]. destruct (gstep g op) as [[g1 e1]|?| |] eqn:E1; try discriminate. cbn in Hr, Hc2.
    destruct (grun g1 ops) as [[g2 e2]|?| |] eqn:E2; try discriminate. cbn in Hr.
    inversion Hr; subst; clear Hr.
    destruct (St _ _ _ _ _ Hc1 Hi E1) as [Hi1 Hp1].
    destruct (IH g1 (tr ++ e1) g' e2 Hc2 Hi1 E2) as [Hi2 Hp2].
    split; [now rewrite app_assoc|].
    intros pre ev post X.
    destruct (app_eq_app _ _ _ _ X) as [l [[A B]|[A B]]].
    + destruct l as [|x l]; cbn in *.
      * rewrite app_nil_r in A. subst pre. rewrite <- (app_nil_r (tr ++ e1)). apply (Hp2 [] ev post). now symmetry.
      * inversion B; subst. eapply Hp1. reflexivity.
    + subst pre. rewrite app_assoc. eapply Hp2. exact B.
Qed.

(** ** The transitions one by one *)
Definition setl (g : gst) (i : nat) (p : lphase) (m : mphase) : gst := set_sess g (upd i (mkS p m) (g_sess g)).

Inductive gtrans (g : gst) : gop -> gst -> list gev -> Prop :=
| TLookClosed i ans m : nth_error (g_sess g) i = Some (mkS PHead m) -> g_closed g = true ->
    gtrans g (OLook i ans) (setl g i PDone m) [GRet i None]
| TLookAvail i ans m : nth_error (g_sess g) i = Some (mkS PHead m) -> g_closed g = false -> g_avail g = true ->
    gtrans g (OLook i ans) (setl g i PJoin m) []
| TLookFound i u m : nth_error (g_sess g) i = Some (mkS PHead m) -> g_closed g = false -> g_avail g = false ->
    gtrans g (OLook i (Ok u)) (setl (set_avail g false true) i PJoin m) [GFound i]
| TJoinClosed i m : nth_error (g_sess g) i = Some (mkS PJoin m) -> g_closed g = true ->
    gtrans g (OJoin i) (setl (set_avail g true (g_coord g)) i PDone m) [GRet i None]
| TJoin i m : nth_error (g_sess g) i = Some (mkS PJoin m) -> g_closed g = false ->
    gtrans g (OJoin i) (setl (set_avail g true (g_coord g)) i PWait m) [GJoin i (g_member g)]
| TJoinErrClosed i e txt m : nth_error (g_sess g) i = Some (mkS PWait m) -> g_closed g = true ->
    gtrans g (OJoinAns i (Err e) txt) (setl (join_failed g e txt) i PDone m) [GFailed i e; GRet i None]
| TJoinErr i e txt m evs : nth_error (g_sess g) i = Some (mkS PWait m) -> g_closed g = false ->
    evs = [GFailed i e] \/ evs = [GFailed i e; GRet i (Some e)] ->
    gtrans g (OJoinAns i (Err e) txt) (setl (join_failed g e txt) i PHead m) evs
| TJoinOk i n mm l txt m : nth_error (g_sess g) i = Some (mkS PWait m) ->
    gtrans g (OJoinAns i (Ok (n, (mm, l))) txt) (setl (set_id g (g_member g) n (g_leader g)) i (PSet mm (beqb l mm)) m) []
| TSetClosed i mm ldr m : nth_error (g_sess g) i = Some (mkS (PSet mm ldr) m) -> g_closed g = true ->
    gtrans g (OSet i) (setl (set_id g mm (g_gen g) ldr) i PDone m) [GJoined i (g_gen g) mm; GRet i None]
| TSet i mm ldr m : nth_error (g_sess g) i = Some (mkS (PSet mm ldr) m) -> g_closed g = false ->
    gtrans g (OSet i) (setl (set_id g mm (g_gen g) ldr) i PSync m) [GJoined i (g_gen g) mm]
| TSync i m : nth_error (g_sess g) i = Some (mkS PSync m) ->
    gtrans g (OSync i) (setl g i PSyncWait m) [GSync i (g_gen g) (g_member g)]
| TSyncErr i e m evs : nth_error (g_sess g) i = Some (mkS PSyncWait m) ->
    evs = [GFailed i e] \/ evs = [GFailed i e; GRet i (Some e)] ->
    gtrans g (OSyncAns i (Err e)) (setl (sync_failed g e) i PHead m) evs
| TSyncBad i b e m evs : nth_error (g_sess g) i = Some (mkS PSyncWait m) -> newMemberAssignment b = Err e ->
    evs = [GBad i] \/ evs = [GBad i; GRet i (Some (EWrap e))] ->
    gtrans g (OSyncAns i (Ok b)) (setl g i PHead m) evs
| TSyncOk i b ma m : nth_error (g_sess g) i = Some (mkS PSyncWait m) -> newMemberAssignment b = Ok ma ->
    gtrans g (OSyncAns i (Ok b)) (setl (set_sc g (parts_of ma) (g_wg g)) i PDone m) [GSynced i (parts_of ma); GRet i None]
| TTakeClose i p : nth_error (g_sess g) i = Some (mkS p MWait) -> g_chan g = true ->
    gtrans g (OTakeClose i) (setl (set_close g (g_closed g) false) i p MIdle) []
| TTakeJoined i : nth_error (g_sess g) i = Some (mkS PDone MWait) ->
    gtrans g (OTakeJoined i) (setl (set_joined g true) i PDone (MStart (g_sc g))) []
| TStart i p x l : nth_error (g_sess g) i = Some (mkS p (MStart (x :: l))) ->
    gtrans g (OStartOne i) (setl (set_sc g (g_sc g) (g_wg g + 1)) i p (MStart l)) [GStarted x]
| TStarted i p : nth_error (g_sess g) i = Some (mkS p (MStart [])) ->
    gtrans g (OStartOne i) (setl g i p MIdle) []
| TBeat : g_closed g = false -> g_joined g = true -> g_coord g = true ->
    gtrans g OBeat g [GBeat (g_gen g) (g_member g)]
| TCheck : g_member g <> [] -> gtrans g OCheck (set_gcom g (g_com g ++ [CChecked])) []
| TRead k : nth_error (g_com g) k = Some CChecked -> gtrans g (ORead k) (set_gcom g (upd k (CRead (g_member g)) (g_com g))) []
| TSend k mm : nth_error (g_com g) k = Some (CRead mm) -> g_coord g = true ->
    gtrans g (OSend k) (set_gcom g (del k (g_com g))) [GCommit (g_gen g) mm]
| TRestart : 0 <= g_wg g - zlen (g_sc g) ->
    gtrans g ORestart (set_sess (set_joined (set_sc g [] (g_wg g - zlen (g_sc g))) false) (g_sess g ++ [mkS PHead MWait])) []
| TClose : g_chan g = false -> 0 <= g_wg g - zlen (g_sc g) ->
    gtrans g OClose (set_sc (set_close g true true) [] (g_wg g - zlen (g_sc g))) [GClosing]
| TLeave u : g_closed g = true -> g_joined g = true -> g_coord g = true ->
    gtrans g (OLeave (Ok u)) (set_joined (set_id g [] (g_gen g) (g_leader g)) false) [GLeft (g_member g)].

Lemma join_failed_sess g e t : g_sess (join_failed g e t) = g_sess g.
Proof. unfold join_failed. destruct (is_kafka 25 e), (_ || _); reflexivity. Qed.
Lemma sync_failed_sess g e : g_sess (sync_failed g e) = g_sess g.
Proof. unfold sync_failed. destruct (is_kafka 25 e), (_ || _); reflexivity. Qed.
Lemma join_failed_closed g e t : g_closed (join_failed g e t) = g_closed g.
Proof. unfold join_failed. destruct (is_kafka 25 e), (_ || _); reflexivity. Qed.

Lemma set_loop_setl g0 g i s p : nth_error (g_sess g0) i = Some s -> g_sess g = g_sess g0 ->
  set_loop g i p = setl g i p (s_main s).
Proof. intros H E. unfold set_loop, setl. rewrite E, H. reflexivity. Qed.
Lemma set_main_setl g0 g i s p : nth_error (g_sess g0) i = Some s -> g_sess g = g_sess g0 ->
  set_main g i p = setl g i (s_loop s) p.
Proof. intros H E. unfold set_main, setl. rewrite E, H. reflexivity. Qed.

Ltac sloop := repeat match goal with
  | N : nth_error (g_sess ?g) ?i = Some _, E : context [set_loop ?G ?i ?p] |- _ =>
      rewrite (set_loop_setl g G i _ p N ltac:(first [reflexivity|apply join_failed_sess|apply sync_failed_sess])) in E
  | N : nth_error (g_sess ?g) ?i = Some _, E : context [set_main ?G ?i ?p] |- _ =>
      rewrite (set_main_setl g G i _ p N ltac:(first [reflexivity|apply join_failed_sess|apply sync_failed_sess])) in E
  end.
Lemma gstep_trans g op g' evs : gstep g op = Ok (g', evs) -> (g' = g /\ evs = []) \/ gtrans g op g' evs.
Proof.
  assert (Same : Ok (g, []) = Ok (g', evs) -> (g' = g /\ evs = []) \/ gtrans g op g' evs)
    by (intros X; inversion X; auto).
  intros E; destruct op as [i ans|i|i ans txt|i|i|i ans|i|i|i| | |k|k| | |ans]; cbn [gstep] in E.
  - destruct (nth_error (g_sess g) i) as [[p m]|] eqn:N; [|exact (Same E)]. destruct p; try exact (Same E).
    unfold done in E. sloop.
    destruct (g_closed g) eqn:C; [inversion E; subst; right; econstructor; eassumption|].
    destruct (g_avail g) eqn:A; [inversion E; subst; right; econstructor; eassumption|].
    destruct ans as [u|?| |]; try discriminate; [|exact (Same E)].
    sloop. inversion E; subst; right.
    econstructor; eassumption.
  - destruct (nth_error (g_sess g) i) as [[p m]|] eqn:N; [|exact (Same E)]. destruct p; try exact (Same E).
    unfold done in E. sloop. cbn [g_closed set_avail] in E.
    destruct (g_closed g) eqn:C; inversion E; subst; right; econstructor; eassumption.
  - destruct (nth_error (g_sess g) i) as [[p m]|] eqn:N; [|exact (Same E)]. destruct p; try exact (Same E).
    destruct ans as [[n [mm l]]|e| |]; try discriminate.
    + sloop. inversion E; subst; right. econstructor; eassumption.
    + rewrite join_failed_closed in E. unfold again in E.
      sloop.
      destruct (g_closed g) eqn:C; inversion E; subst; right; [econstructor; eassumption|].
      apply TJoinErr; [exact N|exact C|]. destruct (stays e); auto.
  - destruct (nth_error (g_sess g) i) as [[p m]|] eqn:N; [|exact (Same E)]. destruct p as [| | |mm ldr| | |]; try exact (Same E).
    sloop. cbn [g_closed g_gen set_id] in E.
    destruct (g_closed g) eqn:C; inversion E; subst; right; econstructor; eassumption.
  - destruct (nth_error (g_sess g) i) as [[p m]|] eqn:N; [|exact (Same E)]. destruct p; try exact (Same E).
    sloop. inversion E; subst; right; econstructor; eassumption.
  - destruct (nth_error (g_sess g) i) as [[p m]|] eqn:N; [|exact (Same E)]. destruct p; try exact (Same E).
    destruct ans as [b|e| |]; try discriminate.
    + destruct (newMemberAssignment b) as [ma|e| |] eqn:B; try discriminate; unfold again in E;
        sloop; inversion E; subst; right.
      * econstructor; eassumption.
      * eapply TSyncBad; [exact N|exact B|]. destruct (stays (EWrap e)); auto.
    + unfold again in E. sloop. inversion E; subst; right.
      apply TSyncErr; [exact N|]. destruct (stays e); auto.
  - destruct (nth_error (g_sess g) i) as [[p m]|] eqn:N; [|exact (Same E)]. destruct m; try exact (Same E).
    destruct (g_chan g) eqn:C; [|exact (Same E)].
    sloop. inversion E; subst; right; econstructor; eassumption.
  - destruct (nth_error (g_sess g) i) as [[p m]|] eqn:N; [|exact (Same E)]. destruct p; try exact (Same E).
    destruct m; try exact (Same E).
    sloop. inversion E; subst; right; econstructor; eassumption.
  - destruct (nth_error (g_sess g) i) as [[p m]|] eqn:N; [|exact (Same E)]. destruct m as [|[|x l]|]; try exact (Same E);
    sloop; inversion E; subst; right; econstructor; eassumption.
  - destruct (g_closed g) eqn:C; [exact (Same E)|]. destruct (g_joined g) eqn:J; [|exact (Same E)].
    destruct (g_coord g) eqn:D; [|discriminate]. inversion E; subst; right; econstructor; eassumption.
  - destruct (g_member g) eqn:M; [exact (Same E)|]. inversion E; subst; right; econstructor; congruence.
  - destruct (nth_error (g_com g) k) as [[|mm]|] eqn:N; try exact (Same E). inversion E; subst; right; econstructor; eassumption.
  - destruct (nth_error (g_com g) k) as [[|mm]|] eqn:N; try exact (Same E).
    destruct (g_coord g) eqn:D; [|discriminate]. inversion E; subst; right; econstructor; eassumption.
  - destruct (negb _); [exact (Same E)|]. unfold gstop in E. destruct (_ <? 0) eqn:W; [discriminate|]. cbn in E.
    inversion E; subst; right. apply TRestart. lia.
  - destruct (g_chan g) eqn:C; [exact (Same E)|]. unfold gstop in E. cbn [g_wg g_sc set_close] in E.
    destruct (_ <? 0) eqn:W; [discriminate|]. cbn in E. inversion E; subst; right. apply TClose; [assumption|lia].
  - destruct (g_closed g) eqn:C; [|exact (Same E)]. cbn [negb] in E. destruct (g_joined g) eqn:J; [|exact (Same E)].
    destruct (g_coord g) eqn:D; [|discriminate]. destruct ans; try discriminate. inversion E; subst; right. apply TLeave; assumption.
Qed.

(** ** Events of short lists *)
Lemma at_nil {A} (P : list A -> A -> Prop) tr : forall pre ev post, [] = pre ++ ev :: post -> P (tr ++ pre) ev.
Proof. intros [|] ? ? X; discriminate. Qed.
Lemma at_one {A} (P : list A -> A -> Prop) tr a : P tr a -> forall pre ev post, [a] = pre ++ ev :: post -> P (tr ++ pre) ev.
Proof. intros H [|x [|y pre]] ev post X; inversion X; subst. now rewrite app_nil_r. Qed.
Lemma at_two {A} (P : list A -> A -> Prop) tr a b : P tr a -> P (tr ++ [a]) b ->
  forall pre ev post, [a; b] = pre ++ ev :: post -> P (tr ++ pre) ev.
Proof. intros H1 H2 [|x [|y [|z pre]]] ev post X; inversion X; subst; [now rewrite app_nil_r|exact H2]. Qed.
Ltac short := first [apply at_nil | apply at_one | apply at_two].

Lemma ident_app tr evs : ident (tr ++ evs) = fold_left id_step evs (ident tr).
Proof. apply fold_left_app. Qed.

(** what a failed join or sync changes *)
Lemma join_failed_fields g e t : let g' := join_failed g e t in
  g_member g' = (if is_kafka 25 e then [] else g_member g) /\ g_gen g' = g_gen g /\ g_coord g' = g_coord g /\
  g_joined g' = g_joined g /\ g_chan g' = g_chan g /\ g_sc g' = g_sc g /\ g_wg g' = g_wg g /\ g_com g' = g_com g /\
  (moved e = true -> g_avail g' = false) /\ (g_avail g' = true -> g_avail g = true).
Proof.
  unfold join_failed, moved. change reports with is_kafka.
  destruct (is_kafka 25 e), (is_kafka 15 e), (is_kafka 16 e), (err_root e), t;
    cbn; repeat split; congruence.
Qed.
Lemma sync_failed_fields g e : let g' := sync_failed g e in
  g_member g' = (if is_kafka 25 e then [] else g_member g) /\ g_gen g' = g_gen g /\ g_coord g' = g_coord g /\
  g_joined g' = g_joined g /\ g_chan g' = g_chan g /\ g_sc g' = g_sc g /\ g_wg g' = g_wg g /\ g_com g' = g_com g /\
  (moved e = true -> g_avail g' = false) /\ (g_avail g' = true -> g_avail g = true).
Proof.
  unfold sync_failed, moved. change reports with is_kafka.
  destruct (is_kafka 25 e), (is_kafka 15 e), (is_kafka 16 e); cbn; repeat split; congruence.
Qed.
Lemma sync_failed_closed g e : g_closed (sync_failed g e) = g_closed g.
Proof. unfold sync_failed. destruct (is_kafka 25 e), (_ || _); reflexivity. Qed.

(** ** C43: joins, whatever the schedule *)
Definition any_op (g : gst) (op : gop) : Prop := True.
Lemma guarded_any ops : forall g, guarded any_op g ops.
Proof. induction ops as [|op ops IH]; intros g; cbn; [exact I|]. split; [exact I|]. destruct (gstep g op); auto. Qed.

Definition Imem (g : gst) (tr : list gev) : Prop := g_member g = member_of (ident tr).
Definition Pjoin (pre : list gev) (ev : gev) : Prop :=
  match ev with GJoin _ m | GSync _ _ m | GBeat _ m | GLeft m => m = member_of (ident pre) | _ => True end.
Lemma mem_step g tr op g' evs : any_op g op -> Imem g tr -> gstep g op = Ok (g', evs) ->
  Imem g' (tr ++ evs) /\ forall pre ev post, evs = pre ++ ev :: post -> Pjoin (tr ++ pre) ev.
Proof.
  unfold Imem. intros _ Hi E. apply gstep_trans in E. destruct E as [[-> ->]|T].
  { rewrite app_nil_r. split; [exact Hi|apply at_nil]. }
  pose proof (fun e t => proj1 (join_failed_fields g e t)) as JF.
  pose proof (fun e => proj1 (sync_failed_fields g e)) as SF.
  destruct T; try match goal with H : _ \/ _ |- _ => destruct H; subst evs end;
    (split; [rewrite ?ident_app; cbn [fold_left id_step] | short; cbn [Pjoin]; auto]);
    cbn [setl set_sess set_id set_avail set_joined set_close set_sc set_gcom g_member];
    rewrite ?JF, ?SF; try (change reports with is_kafka in *; destruct (is_kafka 25 e)); auto.
Qed.

(** ** C43 on calm schedules *)
Definition is_set (l : lphase) : Prop := match l with PSet _ _ => True | _ => False end.
Record Iid (g : gst) (tr : list gev) (old : list session) (l : lphase) (m : mphase) : Prop := {
  I_sess : g_sess g = old ++ [mkS l m];
  I_old : Forall finished old;
  I_mem : g_member g = member_of (ident tr);
  I_gen : ~ is_set l -> ident tr = None \/ ident tr = Some (g_gen g, g_member g);
  I_sync : l = PSync \/ l = PSyncWait -> ident tr <> None;
  I_done : l = PDone -> g_closed g = false -> ident tr <> None;
  I_joined : g_joined g = true -> l = PDone /\ ident tr <> None;
  I_com : g_com g <> [] -> ~ is_set l /\ ident tr <> None /\ g_member g <> [];
  I_read : Forall (fun c => c = CChecked \/ c = CRead (g_member g)) (g_com g) }.
Definition Iident (g : gst) (tr : list gev) : Prop := exists old l m, Iid g tr old l m.

Lemma Iident_init : Iident ginit [].
Proof. exists [], PHead, MWait. constructor; cbn; auto; intros; try discriminate; try tauto. destruct H; discriminate. Qed.

Lemma Forall_del {A} (P : A -> Prop) k l : Forall P l -> Forall P (del k l).
Proof. intros H; revert k; induction H; intros [|k]; cbn; auto. Qed.
Lemma Forall_upd {A} (P : A -> Prop) k x l : Forall P l -> P x -> Forall P (upd k x l).
Proof. intros H; revert k; induction H; intros [|k] Hx; cbn; auto. Qed.
Lemma del_nil {A} k (l : list A) : del k l <> [] -> l <> [].
Proof. destruct l, k; cbn; congruence. Qed.
Lemma nth_nonnil {A} k (l : list A) x : nth_error l k = Some x -> l <> [].
Proof. destruct l; [destruct k; discriminate|discriminate]. Qed.
Lemma upd_nonnil {A} k (x : A) l : upd k x l <> [] -> l <> [].
Proof. destruct l, k; cbn; congruence. Qed.

Ltac last_session I_s I_o :=
  match goal with
  | N : nth_error (g_sess ?g) ?i = Some (mkS ?p ?m) |- _ =>
      rewrite I_s in N; apply only_last in N; [|exact I_o|first [left; discriminate|right; discriminate]];
      destruct N as [-> N]; injection N as -> ->
  end.
Ltac flat := cbn [setl set_sess set_id set_avail set_joined set_close set_sc set_gcom
  g_member g_gen g_leader g_avail g_coord g_joined g_closed g_chan g_sc g_wg g_sess g_com].

Lemma ident_some g tr : ident tr = None \/ ident tr = Some (g_gen g, g_member g) -> ident tr <> None ->
  ident tr = Some (g_gen g, g_member g).
Proof. tauto. Qed.

Lemma ident_step g tr op g' evs : calm g op -> Iident g tr -> gstep g op = Ok (g', evs) ->
  Iident g' (tr ++ evs) /\ forall pre ev post, evs = pre ++ ev :: post -> carries (ident (tr ++ pre)) ev.
Proof.
  intros Hc (old & l & m & Hi) E. apply gstep_trans in E. destruct E as [[-> ->]|T].
  { rewrite app_nil_r. split; [now exists old, l, m|apply (at_nil (fun p => carries (ident p)))]. }
  destruct Hi as [Is Io Im Ig Iy Id Ij Ic Ir].
  destruct T; cbn [calm] in Hc; try last_session Is Io;
    try match goal with H : _ \/ _ |- _ => destruct H; subst evs end.
  all: match goal with |- _ /\ ?G => assert (Q : G) end;
    [first [apply (at_nil (fun p => carries (ident p)))
           |apply (at_one (fun p => carries (ident p)))
           |apply (at_two (fun p => carries (ident p)))]; cbn [carries]; auto|split; [|exact Q]; clear Q].

  all: try (apply ident_some; [apply Ig|]; [cbn; tauto|auto; tauto]).
  all: try (unshelve eexists old, _, _; [shelve|shelve|]; econstructor;
     [flat; rewrite Is; rewrite ?upd_last; reflexivity|exact Io|..]; rewrite ?ident_app; cbn [fold_left id_step]; flat;
     [auto..]; try (intros; intuition (try discriminate; try congruence)); fail).
  (* failed joins and syncs *)
  1-3: destruct (join_failed_fields g e txt) as (Fm & Fg & Fc & Fj & Fh & Fs & Fw & Fo & Fa & Fb);
       pose proof (join_failed_sess g e txt) as Fse; pose proof (join_failed_closed g e txt) as Fcl.
  1-3: exists old; do 2 eexists; constructor; flat; rewrite ?Fse, ?Fm, ?Fg, ?Fj, ?Fo, ?Fcl, ?Hc, ?ident_app, ?Is, ?upd_last; cbn [fold_left id_step];
       try reflexivity; try assumption; try apply Forall_nil; try (change reports with is_kafka in *; destruct (is_kafka 25 e); cbn [member_of]; intuition (try discriminate; try congruence)).
  4-5: destruct (sync_failed_fields g e) as (Fm & Fg & Fc & Fj & Fh & Fs & Fw & Fo & Fa & Fb);
       pose proof (sync_failed_sess g e) as Fse; pose proof (sync_failed_closed g e) as Fcl.
  4-5: exists old; do 2 eexists; constructor; flat; rewrite ?Fse, ?Fm, ?Fg, ?Fj, ?Fo, ?Fcl, ?Hc, ?ident_app, ?Is, ?upd_last; cbn [fold_left id_step];
       try reflexivity; try assumption; try apply Forall_nil; try (change reports with is_kafka in *; destruct (is_kafka 25 e); cbn [member_of]; intuition (try discriminate; try congruence)).
  1-3: exists old; do 2 eexists; constructor; flat; rewrite ?Hc, ?ident_app, ?Is, ?upd_last; cbn [fold_left id_step];
       try reflexivity; try assumption; try apply Forall_nil; cbn [is_set]; intuition (try discriminate; try congruence).
  - (* heartbeat *) destruct (Ij H0) as [-> X]. apply ident_some; [apply Ig; cbn; tauto|exact X].
  - (* check *) rewrite app_nil_r. exists old, l, m. constructor; flat; auto.
    + rewrite Is in Hc. apply Forall_app in Hc. destruct Hc as [_ Hc]. inversion Hc as [|? ? Hn _]; subst.
      intros _. change (~ is_set l) in Hn. split; [exact Hn|]. split; [|assumption].
      intros X. rewrite Im, X in H. cbn in H. congruence.
    + apply Forall_app; split; auto.
  - (* read *) rewrite app_nil_r. exists old, l, m. constructor; flat; auto.
    + intros X. apply Ic. eapply nth_nonnil; eassumption.
    + apply Forall_upd; auto.
  - (* send *)
    assert (mm = g_member g) as ->.
    { rewrite Forall_forall in Ir. apply nth_error_In in H. apply Ir in H. destruct H; congruence. }
    destruct (Ic (nth_nonnil _ _ _ H)) as (X1 & X2 & X3). split; [|exact X3]. apply ident_some; auto.
  - exists old, l, m. constructor; flat; rewrite ?ident_app; cbn [fold_left id_step]; auto.
    + intros X. apply Ic. eapply del_nil; eassumption.
    + apply Forall_del; auto.
  - (* restart *) rewrite app_nil_r. exists (g_sess g), PHead, MWait. constructor; flat; auto; intros; try discriminate.
    + rewrite Is in Hc. apply Forall_app in Hc. destruct Hc as [_ Hc]. inversion Hc as [|? ? Hn _]; subst.
      injection Hn as -> ->. apply Ig. cbn. tauto.
    + destruct H0; discriminate.
    + destruct (Ic H0) as (X1 & X2 & X3). auto.
  - (* leave *) destruct (Ij H0) as [-> X]. destruct (Ig ltac:(cbn; tauto)) as [Y|Y]; [contradiction|]. eauto.
  - exists old, l, m. constructor; flat; rewrite ?ident_app; cbn [fold_left id_step]; auto; intros; try discriminate.
    + destruct (Ij H0) as [-> X]. destruct H2; discriminate.
    + congruence.
    + rewrite Hc. constructor.
Qed.

Lemma requests_carry ops g tr pre ev post : guarded calm ginit ops -> grun ginit ops = Ok (g, tr) ->
  tr = pre ++ ev :: post -> carries (ident pre) ev.
Proof.
  intros Hg Hr E.
  exact (proj2 (run_inv calm Iident (fun p => carries (ident p)) ident_step ops ginit [] g tr Hg Iident_init Hr) pre ev post E).
Qed.
Lemma joins_carry ops g tr pre ev post : grun ginit ops = Ok (g, tr) -> tr = pre ++ ev :: post -> Pjoin pre ev.
Proof.
  intros Hr E.
  exact (proj2 (run_inv any_op Imem Pjoin mem_step ops ginit [] g tr (guarded_any _ _) eq_refl Hr) pre ev post E).
Qed.
Lemma none_stays b : (forall k n m', ~ In (GJoined k n m') b) -> fold_left id_step b None = None.
Proof.
  induction b as [|x b IH]; intros Hb; [reflexivity|]. cbn [fold_left].
  assert (id_step None x = None) as ->.
  { destruct x; cbn; auto; [|destruct (reports 25 e); auto]. destruct (Hb i gen member). left; reflexivity. }
  apply IH. intros k n m' X. apply (Hb k n m'). right; exact X.
Qed.
Lemma rejected ops g tr a i e b : grun ginit ops = Ok (g, tr) -> reports 25 e = true ->
  (forall k n m', ~ In (GJoined k n m') b) -> ident (a ++ GFailed i e :: b) = None.
Proof.
  intros Hr He Hn.
  replace (a ++ GFailed i e :: b) with ((a ++ [GFailed i e]) ++ b) by (rewrite <- app_assoc; reflexivity).
  rewrite ident_app. rewrite ident_app. cbn [fold_left id_step]. rewrite He. now apply none_stays.
Qed.
Lemma rejected_join ops g tr a i e b j m c : grun ginit ops = Ok (g, tr) ->
  tr = a ++ GFailed i e :: b ++ GJoin j m :: c -> reports 25 e = true ->
  (forall k n m', ~ In (GJoined k n m') b) -> m = [].
Proof.
  intros Hr E He Hn.
  assert (tr = (a ++ GFailed i e :: b) ++ GJoin j m :: c) as E' by (rewrite E, <- app_assoc; reflexivity).
  pose proof (joins_carry _ _ _ _ _ _ Hr E') as P. cbn in P. rewrite (rejected _ _ _ _ i e b Hr He Hn) in P. exact P.
Qed.
Lemma rejected_commit ops g tr a i e b n m c : guarded calm ginit ops -> grun ginit ops = Ok (g, tr) ->
  tr = a ++ GFailed i e :: b ++ GCommit n m :: c -> reports 25 e = true ->
  exists k n' m', In (GJoined k n' m') b.
Proof.
  intros Hg Hr E He.
  assert (tr = (a ++ GFailed i e :: b) ++ GCommit n m :: c) as E' by (rewrite E, <- app_assoc; reflexivity).
  pose proof (requests_carry _ _ _ _ _ _ Hg Hr E') as [P _].
  assert (D : (exists k n' m', In (GJoined k n' m') b) \/ (forall k n' m', ~ In (GJoined k n' m') b)).
  { clear. induction b as [|x b [(k & n' & m' & X)|N]].
    - right. intros ? ? ? [].
    - left. exists k, n', m'. right; exact X.
    - assert (J : (exists k n m, x = GJoined k n m) \/ (forall k n m, x <> GJoined k n m))
        by (destruct x; try (right; intros; discriminate); left; eauto).
      destruct J as [(k & n & m & ->)|J]; [left; exists k, n, m; left; reflexivity|].
      right. intros k n m [X|X]; [apply (J k n m X)|apply (N k n m X)]. }
  destruct D as [D|D]; [exact D|]. rewrite (rejected _ _ _ a i e b Hr He D) in P. discriminate.
Qed.

(** ** Errors that joinAndSync returns *)
Lemma stays_not e : stays e = false <-> (forall c, err_root e = EKafka c -> ~ In c [22; 25; 27]) /\ (forall c, e = EKafka c -> retriable c = false).
Proof.
  unfold stays, is_kafka. rewrite !orb_false_iff. split.
  - intros [[[A B] C] D]. split.
    + intros c R. rewrite R in *. apply Z.eqb_neq in A, B, C. cbn. intuition.
    + intros c ->. exact D.
  - intros [A B]. assert (D : match e with EKafka c => retriable c | _ => false end = false) by (destruct e; try reflexivity; apply B; reflexivity).
    rewrite D. destruct (err_root e) eqn:R; try (repeat split; reflexivity).
    all: try (specialize (A _ eq_refl); cbn in A; repeat split; apply Z.eqb_neq; intuition).
Qed.
Lemma again_returned g i0 ev e0 i e : (forall j x, ev <> GRet j x) -> In (GRet i (Some e)) (snd (again g i0 ev e0)) <->
  snd (again g i0 ev e0) = [ev; GRet i (Some e)] /\ i = i0 /\ e = e0 /\ stays e = false.
Proof.
  intros N. unfold again. cbn [snd]. destruct (stays e0) eqn:S; cbn.
  - split; [intros [H|[]]; exfalso; eapply N; exact H|intros (H & _); discriminate H].
  - split.
    + intros [H|[H|[]]]; [exfalso; eapply N; exact H|]. injection H as -> ->. auto.
    + intros (H & _). injection H as H1 H2. subst. right. left. reflexivity.
Qed.
Lemma again_failed g i0 ev e0 i e : In (GFailed i e) (snd (again g i0 ev e0)) -> (ev = GFailed i0 e0 \/ ev = GBad i0) ->
  stays e = false -> In (GRet i (Some e)) (snd (again g i0 ev e0)).
Proof.
  unfold again. cbn [snd]. intros H [-> | ->] S; destruct (stays e0) eqn:S0; cbn in *; intuition; try discriminate.
  - injection H0 as -> ->. congruence.
  - injection H0 as -> ->. auto.
Qed.
