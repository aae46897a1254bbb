(** Lemmas about the simple producer. *)
From Verif Require Import Base BaseFacts Prims Wire Records RecordSpec RecordFacts DeliverFacts Requests RequestSpec RequestPrep Responses Producer ProducerSpec.

Lemma rbind_inv {A B} (r : res A) (k : A -> res B) b : rbind r k = Ok b -> exists a, r = Ok a /\ k a = Ok b.
Proof. destruct r; cbn [rbind]; intros H; try discriminate. eexists; split; [reflexivity|exact H]. Qed.
Ltac rb H a E := apply rbind_inv in H; destruct H as [a [E H]].

Section Zip.
Variable zip : Z -> bytes -> res bytes.
Variable g : scfg.

Lemma sflush_inv h n recs a : sflush zip g h n recs = Ok a ->
  g_leader g = true /\ t_msgs a = map (deref h) recs /\
  (t_err a = None -> exists ver corr ts got raw r, n = NSend ver corr ts got (Ok raw) /\ answer 0 ver raw = Ok r /\ reached a = got) /\
  (forall ver corr ts out, t_wire a = Some (ver, corr, ts, out) ->
     exists r, prepare zip corr ver (new_request (Some (g_client g)) (produce_body g ts (t_msgs a))) = Ok (out, r)).
Proof.
  unfold sflush. destruct (g_leader g); cbn [negb]; [|discriminate]. intros H. split; [reflexivity|].
  destruct n as [e|ver corr ts got reply].
  - injection H as <-. cbn [t_msgs t_err t_wire]. repeat split; intros; discriminate.
  - rb H w E. destruct w as [out rq]. cbn [fst] in H.
    assert (Hw : forall wire, wire = (if got then Some (ver, corr, ts, out) else None) ->
              forall ver0 corr0 ts0 out0, wire = Some (ver0, corr0, ts0, out0) ->
              exists r, prepare zip corr0 ver0 (new_request (Some (g_client g)) (produce_body g ts0 (map (deref h) recs))) = Ok (out0, r)).
    { intros wire -> v' c' t' o'. destruct got; [|discriminate]. intros X. injection X as <- <- <- <-. eexists; exact E. }
    destruct reply as [raw|e| |]; try discriminate.
    + destruct (answer 0 ver raw) as [r|e| |] eqn:Ea; try discriminate; injection H as <-; cbn [t_msgs t_err t_wire].
      * split; [reflexivity|]. split; [|apply (Hw _ eq_refl)]. intros _. exists ver, corr, ts, got, raw, r.
        repeat split; [exact Ea|]. unfold reached. cbn [t_wire]. destruct got; reflexivity.
      * split; [reflexivity|]. split; [discriminate|apply (Hw _ eq_refl)].
    + injection H as <-; cbn [t_msgs t_err t_wire]. split; [reflexivity|]. split; [discriminate|apply (Hw _ eq_refl)].
Qed.
Lemma sflush_succeeds h n recs a : succeeds n -> sflush zip g h n recs = Ok a -> t_err a = None /\ reached a = true.
Proof.
  intros (ver & corr & ts & raw & r & -> & Ha). unfold sflush. destruct (g_leader g); cbn [negb]; [|discriminate].
  intros H. rb H w E. rewrite Ha in H. injection H as <-. split; reflexivity.
Qed.
Lemma sflush_honest h n recs a : honest n -> sflush zip g h n recs = Ok a -> t_err a = None -> reached a = true.
Proof.
  intros Hn H He. destruct (sflush_inv _ _ _ _ H) as (_ & _ & X & _). destruct (X He) as (ver & corr & ts & got & raw & r & -> & _ & ->).
  exact Hn.
Qed.

(** What an operation does to the queue. *)
Lemma sadd_inv h n k v s s' e a : sadd zip g h n k v s = Ok (s', e, a) ->
  s_closed s' = s_closed s /\ s_timer s' = s_timer s /\
  ((s_closed s = true /\ s' = s /\ e = Some EClosed /\ a = None) \/
   (s_closed s = false /\ e = None /\
    ((a = None /\ s_recs s' = s_recs s ++ [mkP k (oget h v)] /\ zlen (s_recs s') < g_max g) \/
     (exists t, a = Some t /\ s_recs s' = [] /\ g_max g <= zlen (s_recs s) + 1 /\ sflush zip g h n (s_recs s ++ [mkP k (oget h v)]) = Ok t)))).
Proof.
  unfold sadd. destruct (s_closed s) eqn:Ec.
  - intros H. injection H as <- <- <-. repeat split; [exact Ec|]. left. repeat split.
  - destruct (Z.leb_spec (g_max g) (zlen (s_recs s ++ [mkP k (oget h v)]))) as [Hl|Hl]; intros H.
    + rb H t E. injection H as <- <- <-. cbn [s_closed s_timer s_recs]. repeat split. right. repeat split. right.
      exists t. repeat split; [rewrite zlen_app in Hl; exact Hl|exact E].
    + injection H as <- <- <-. cbn [s_closed s_timer s_recs]. repeat split. right. repeat split. left. repeat split. exact Hl.
Qed.
Lemma sflushop_inv h n s s' e a : sflushop zip g h n s = Ok (s', e, a) ->
  s_closed s' = s_closed s /\ s_timer s' = s_timer s /\
  ((s_recs s = [] /\ s' = s /\ e = None /\ a = None) \/
   (s_recs s <> [] /\ s_recs s' = [] /\ exists t, a = Some t /\ e = t_err t /\ sflush zip g h n (s_recs s) = Ok t)).
Proof.
  unfold sflushop. destruct (s_recs s) as [|r recs] eqn:Er.
  - intros H. injection H as <- <- <-. repeat split. left. repeat split.
  - intros H. rb H t E. injection H as <- <- <-. cbn [s_closed s_timer s_recs]. repeat split. right.
    repeat split; [discriminate|]. exists t. repeat split. exact E.
Qed.
Lemma stick_inv h n s s' e a : stick zip g h n s = Ok (s', e, a) ->
  s_closed s' = s_closed s /\ s_timer s' = s_timer s /\ e = None /\
  ((s' = s /\ a = None /\ (s_timer s = false \/ s_recs s = [])) \/
   (s_timer s = true /\ s_recs s <> [] /\ s_recs s' = [] /\ exists t, a = Some t /\ sflush zip g h n (s_recs s) = Ok t)).
Proof.
  unfold stick. destruct (s_timer s) eqn:Et.
  - intros H. rb H x E. destruct x as [[s1 e1] a1]. cbn [fst snd] in H. injection H as <- <- <-.
    destruct (sflushop_inv _ _ _ _ _ _ E) as (H1 & H2 & [(H3 & -> & -> & ->)|(H3 & H4 & t & -> & -> & H5)]).
    + repeat split; [exact Et|]. left. repeat split. right; exact H3.
    + repeat split; [exact H1|rewrite H2; exact Et|]. right. repeat split; [exact H3|exact H4|]. exists t. split; [reflexivity|exact H5].
  - intros H. injection H as <- <- <-. repeat split; [exact Et|]. left. repeat split. left; reflexivity.
Qed.
Lemma sclose_inv h n s s' e a : sclose zip g h n s = Ok (s', e, a) ->
  s_closed s' = true /\ s_recs s' = s_recs s /\ s_timer s' = s_timer s /\ e = None /\
  ((s_closed s = true /\ a = None /\ s' = s) \/
   (s_closed s = false /\ ((s_recs s = [] /\ a = None) \/ (s_recs s <> [] /\ exists t, a = Some t /\ sflush zip g h n (s_recs s) = Ok t)))).
Proof.
  unfold sclose. destruct (s_closed s) eqn:Ec.
  - intros H. injection H as <- <- <-. repeat split; [exact Ec|]. left. repeat split.
  - destruct (s_recs s) as [|r recs] eqn:Er; intros H.
    + destruct (g_owned g && negb (g_leader g)); [discriminate|]. injection H as <- <- <-. cbn. repeat split. right. split; [reflexivity|]. left. split; reflexivity.
    + rb H t E. destruct (g_owned g && negb (g_leader g)); [discriminate|]. injection H as <- <- <-. cbn. repeat split. right. split; [reflexivity|].
      right. split; [discriminate|]. exists t. split; [reflexivity|exact E].
Qed.

(** ** Accounting *)
Definition queued (st : sstate) : list message := map (deref (fst st)) (s_recs (snd st)).
Lemma accepted_app a b : accepted (a ++ b) = accepted a ++ accepted b.
Proof. apply flat_map_app. Qed.
Lemma flushes_app a b : flushes (a ++ b) = flushes a ++ flushes b.
Proof. apply flat_map_app. Qed.
Lemma accepted_cons e l : accepted (e :: l) = accepted [e] ++ accepted l.
Proof. apply (accepted_app [e] l). Qed.
Lemma flushes_cons e l : flushes (e :: l) = flushes [e] ++ flushes l.
Proof. apply (flushes_app [e] l). Qed.

Lemma srun_app st l1 l2 r : srun zip g st (l1 ++ l2) = Ok r ->
  exists st1 e1 e2, srun zip g st l1 = Ok (st1, e1) /\ srun zip g st1 l2 = Ok (fst r, e2) /\ snd r = e1 ++ e2.
Proof.
  revert st r. induction l1 as [|o l1 IH]; intros st r H; cbn [app srun] in *.
  - exists st, [], (snd r). repeat split. rewrite H. destruct r; reflexivity.
  - rb H x E. rb H y E2. injection H as <-. destruct (IH _ _ E2) as (st1 & e1 & e2 & H1 & H2 & H3).
    exists st1, (snd x :: e1), e2. rewrite E. cbn [rbind]. rewrite H1. cbn [rbind fst snd]. repeat split; [exact H2|].
    rewrite H3. reflexivity.
Qed.

Section Proj.
  (** a view of messages that the writes in question do not change *)
  Context {B : Type}.
  Variable f : message -> B.
  Definition unseen (o : sop) : Prop :=
    match o with OWrite r i x => forall h p, f (deref (write h r i x) p) = f (deref h p) | _ => True end.
  Definition view (l : list message) : list B := map f l.

  Lemma step_account st on st' e : sstep zip g st on = Ok (st', e) -> unseen (fst on) -> fst on <> OClose ->
    view (queued st) ++ view (accepted [e]) = view (flat_map t_msgs (flushes [e])) ++ view (queued st').
  Proof.
    destruct st as [h s], on as [o n]. cbn [fst]. unfold sstep, queued. intros H Hu Hc. destruct o as [k v| | | | |r i x].
    - rb H y E. destruct y as [[s' er] a]. injection H as <- <-. cbn [fst snd] in *.
      destruct (sadd_inv _ _ _ _ _ _ _ _ E) as (_ & _ & [(C & -> & -> & ->)|(C & -> & [(-> & R & _)|(t & -> & R & _ & F)])]);
        unfold accepted, flushes; cbn [flat_map e_op e_ret e_att e_key e_val app].
      + unfold view. cbn [map]. rewrite app_nil_r. reflexivity.
      + rewrite R. unfold view. rewrite map_app, map_app. cbn [map app]. reflexivity.
      + destruct (sflush_inv _ _ _ _ F) as (_ & M & _). rewrite R, M. unfold view. cbn [map flat_map]. rewrite !app_nil_r, map_app, map_app. reflexivity.
    - rb H y E. destruct y as [[s' er] a]. injection H as <- <-. cbn [fst snd] in *.
      destruct (sflushop_inv _ _ _ _ _ _ E) as (_ & _ & [(R & -> & -> & ->)|(_ & R & t & -> & -> & F)]);
        unfold accepted, flushes; cbn [flat_map e_op e_ret e_att e_key e_val app].
      + unfold view; cbn [map]; rewrite app_nil_r; reflexivity.
      + destruct (sflush_inv _ _ _ _ F) as (_ & M & _). rewrite R, M. unfold view. cbn [map]. rewrite !app_nil_r. reflexivity.
    - rb H y E. destruct y as [[s' er] a]. injection H as <- <-. cbn [fst snd] in *.
      destruct (stick_inv _ _ _ _ _ _ E) as (_ & _ & -> & [(-> & -> & _)|(_ & _ & R & t & -> & F)]);
        unfold accepted, flushes; cbn [flat_map e_op e_ret e_att e_key e_val app].
      + unfold view; cbn [map]; rewrite app_nil_r; reflexivity.
      + destruct (sflush_inv _ _ _ _ F) as (_ & M & _). rewrite R, M. unfold view. cbn [map]. rewrite !app_nil_r. reflexivity.
    - injection H as <- <-. unfold accepted, flushes; cbn. unfold view. cbn [map]. rewrite app_nil_r. reflexivity.
    - congruence.
    - injection H as <- <-. unfold accepted, flushes; cbn -[deref write]. unfold view. cbn [map]. rewrite app_nil_r, !map_map.
      apply map_ext. intros p. symmetry. apply Hu.
  Qed.

  Lemma run_account ops : forall st st' evs, srun zip g st ops = Ok (st', evs) -> Forall (fun o => unseen (fst o)) ops -> ~ In OClose (map fst ops) ->
    view (queued st) ++ view (accepted evs) = view (flat_map t_msgs (flushes evs)) ++ view (queued st').
  Proof.
    induction ops as [|o ops IH]; intros st st' evs H Hu Hc; cbn [srun] in H.
    - injection H as <- <-. cbn. rewrite app_nil_r. reflexivity.
    - rb H x E. rb H y E2. injection H as <- <-. destruct x as [st1 e1], y as [st2 es]. cbn [fst snd] in *.
      inversion Hu as [|? ? Hu1 Hu2]; subst. cbn [map In] in Hc.
      pose proof (step_account _ _ _ _ E Hu1 (fun X => Hc (or_introl X))) as A.
      pose proof (IH _ _ _ E2 Hu2 (fun X => Hc (or_intror X))) as A2.
      rewrite accepted_cons, flushes_cons, flat_map_app. unfold view in *. rewrite !map_app, app_assoc, A, <- !app_assoc, A2. reflexivity.
  Qed.
End Proj.

(** operations that keep a closed producer from sending: everything but Flush and ticks *)
Definition quiet (o : sop) : Prop := o <> OFlush /\ o <> OTick.
Lemma closed_step st on st' e : sstep zip g st on = Ok (st', e) -> s_closed (snd st) = true ->
  s_closed (snd st') = true /\ accepted [e] = [] /\ (quiet (fst on) \/ s_recs (snd st) = [] -> flushes [e] = [] /\ s_recs (snd st') = s_recs (snd st)).
Proof.
  destruct st as [h s], on as [o n]. cbn [fst snd]. unfold sstep, quiet. intros H Hc. destruct o as [k v| | | | |r i x].
  - rb H y E. destruct y as [[s' er] a]. injection H as <- <-. cbn [fst snd].
    destruct (sadd_inv _ _ _ _ _ _ _ _ E) as (Q & _ & [(C & -> & -> & ->)|(C & _)]); [|congruence]. repeat split. exact Hc.
  - rb H y E. destruct y as [[s' er] a]. injection H as <- <-. cbn [fst snd].
    destruct (sflushop_inv _ _ _ _ _ _ E) as (Q & _ & [(R & -> & -> & ->)|(R & R' & _)]).
    + repeat split. exact Hc.
    + split; [rewrite Q; exact Hc|]. split; [reflexivity|]. intros [[X _]|X]; congruence.
  - rb H y E. destruct y as [[s' er] a]. injection H as <- <-. cbn [fst snd].
    destruct (stick_inv _ _ _ _ _ _ E) as (Q & _ & _ & [(-> & -> & _)|(_ & R & R' & _)]).
    + repeat split. exact Hc.
    + split; [rewrite Q; exact Hc|]. split; [reflexivity|]. intros [[_ X]|X]; congruence.
  - injection H as <- <-. cbn. repeat split. exact Hc.
  - rb H y E. destruct y as [[s' er] a]. injection H as <- <-. cbn [fst snd].
    destruct (sclose_inv _ _ _ _ _ _ E) as (Q & _ & _ & _ & [(_ & -> & ->)|(C & _)]); [|congruence]. repeat split. exact Q.
  - injection H as <- <-. repeat split. exact Hc.
Qed.
Lemma closed_run ops : forall st st' evs, srun zip g st ops = Ok (st', evs) -> s_closed (snd st) = true ->
  s_closed (snd st') = true /\ accepted evs = [] /\
  (Forall (fun o => quiet (fst o)) ops \/ s_recs (snd st) = [] -> flushes evs = [] /\ s_recs (snd st') = s_recs (snd st)).
Proof.
  induction ops as [|o ops IH]; intros st st' evs H Hc; cbn [srun] in H.
  - injection H as <- <-. repeat split. exact Hc.
  - rb H x E. rb H y E2. injection H as <- <-. destruct x as [st1 e1], y as [st2 es]. cbn [fst snd] in *.
    destruct (closed_step _ _ _ _ E Hc) as (C1 & A1 & F1). destruct (IH _ _ _ E2 C1) as (C2 & A2 & F2).
    rewrite accepted_cons, A1, A2. split; [exact C2|]. split; [reflexivity|]. intros Hq.
    assert (X : quiet (fst o) \/ s_recs (snd st) = []) by (destruct Hq as [Hq|Hq]; [inversion Hq; left; assumption|right; exact Hq]).
    destruct (F1 X) as (F1a & F1b).
    assert (X2 : Forall (fun o => quiet (fst o)) ops \/ s_recs (snd st1) = []) by (destruct Hq as [Hq|Hq]; [inversion Hq; left; assumption|right; congruence]).
    destruct (F2 X2) as (F2a & F2b). rewrite flushes_cons, F1a, F2a. split; [reflexivity|congruence].
Qed.

(** ** Batch sizes *)
Definition small_queue (st : sstate) : Prop := zlen (s_recs (snd st)) < Z.max 1 (g_max g).
Definition size_ok (a : attempt) : Prop := 1 <= zlen (t_msgs a) <= Z.max 1 (g_max g).
Lemma flushed_size h n recs a : recs <> [] -> zlen recs <= Z.max 1 (g_max g) -> sflush zip g h n recs = Ok a -> size_ok a.
Proof.
  intros Hn Hl H. destruct (sflush_inv _ _ _ _ H) as (_ & M & _). unfold size_ok. rewrite M. unfold zlen in *. rewrite map_length.
  destruct recs; [congruence|]. cbn [length] in *. lia.
Qed.
Lemma step_size st on st' e : sstep zip g st on = Ok (st', e) -> small_queue st -> small_queue st' /\ Forall size_ok (flushes [e]).
Proof.
  destruct st as [h s], on as [o n]. unfold sstep, small_queue. cbn [snd]. intros H Hs. destruct o as [k v| | | | |r i x].
  - rb H y E. destruct y as [[s' er] a]. injection H as <- <-. cbn [fst snd].
    destruct (sadd_inv _ _ _ _ _ _ _ _ E) as (_ & _ & [(C & -> & -> & ->)|(C & -> & [(-> & R & L)|(t & -> & R & L & F)])]);
      unfold flushes; cbn [flat_map e_att app].
    + split; [exact Hs|constructor].
    + split; [lia|constructor].
    + rewrite R. split; [cbn; lia|]. constructor; [|constructor]. eapply flushed_size; [|..|exact F].
      * intros X. destruct (s_recs s); discriminate X.
      * rewrite zlen_app. change (zlen [mkP k (oget h v)]) with 1. lia.
  - rb H y E. destruct y as [[s' er] a]. injection H as <- <-. cbn [fst snd].
    destruct (sflushop_inv _ _ _ _ _ _ E) as (_ & _ & [(R & -> & -> & ->)|(N & R & t & -> & -> & F)]); unfold flushes; cbn [flat_map e_att app].
    + split; [exact Hs|constructor].
    + rewrite R. split; [cbn; lia|]. constructor; [|constructor]. eapply flushed_size; [exact N|lia|exact F].
  - rb H y E. destruct y as [[s' er] a]. injection H as <- <-. cbn [fst snd].
    destruct (stick_inv _ _ _ _ _ _ E) as (_ & _ & -> & [(-> & -> & _)|(_ & N & R & t & -> & F)]); unfold flushes; cbn [flat_map e_att app].
    + split; [exact Hs|constructor].
    + rewrite R. split; [cbn; lia|]. constructor; [|constructor]. eapply flushed_size; [exact N|lia|exact F].
  - injection H as <- <-. split; [exact Hs|constructor].
  - rb H y E. destruct y as [[s' er] a]. injection H as <- <-. cbn [fst snd].
    destruct (sclose_inv _ _ _ _ _ _ E) as (_ & -> & _ & _ & [(_ & -> & _)|(_ & [(_ & ->)|(N & t & -> & F)])]); unfold flushes; cbn [flat_map e_att app].
    + split; [exact Hs|constructor].
    + split; [exact Hs|constructor].
    + split; [exact Hs|]. constructor; [|constructor]. eapply flushed_size; [exact N|lia|exact F].
  - injection H as <- <-. split; [exact Hs|constructor].
Qed.
Lemma run_size ops : forall st st' evs, srun zip g st ops = Ok (st', evs) -> small_queue st -> small_queue st' /\ Forall size_ok (flushes evs).
Proof.
  induction ops as [|o ops IH]; intros st st' evs H Hs; cbn [srun] in H.
  - injection H as <- <-. split; [exact Hs|constructor].
  - rb H x E. rb H y E2. injection H as <- <-. destruct x as [st1 e1], y as [st2 es]. cbn [fst snd] in *.
    destruct (step_size _ _ _ _ E Hs) as (S1 & F1). destruct (IH _ _ _ E2 S1) as (S2 & F2). split; [exact S2|].
    rewrite flushes_cons. apply Forall_app. split; assumption.
Qed.

(** ** Each flush of a run is an execution of flush *)
Lemma step_flush st on st' e a : sstep zip g st on = Ok (st', e) -> e_att e = Some a ->
  exists recs, sflush zip g (fst st) (snd on) recs = Ok a.
Proof.
  destruct st as [h s], on as [o n]. unfold sstep. cbn [fst snd]. intros H Ha. destruct o as [k v| | | | |r i x].
  - rb H y E. destruct y as [[s' er] b]. injection H as <- <-. cbn [e_att fst snd] in Ha.
    destruct (sadd_inv _ _ _ _ _ _ _ _ E) as (_ & _ & [(C & -> & -> & ->)|(C & -> & [(-> & R & L)|(t & -> & R & L & F)])]); try discriminate.
    injection Ha as ->. eexists; exact F.
  - rb H y E. destruct y as [[s' er] b]. injection H as <- <-. cbn [e_att fst snd] in Ha.
    destruct (sflushop_inv _ _ _ _ _ _ E) as (_ & _ & [(R & -> & -> & ->)|(N & R & t & -> & -> & F)]); try discriminate.
    injection Ha as ->. eexists; exact F.
  - rb H y E. destruct y as [[s' er] b]. injection H as <- <-. cbn [e_att fst snd] in Ha.
    destruct (stick_inv _ _ _ _ _ _ E) as (_ & _ & -> & [(-> & -> & _)|(_ & N & R & t & -> & F)]); try discriminate.
    injection Ha as ->. eexists; exact F.
  - injection H as <- <-. discriminate.
  - rb H y E. destruct y as [[s' er] b]. injection H as <- <-. cbn [e_att fst snd] in Ha.
    destruct (sclose_inv _ _ _ _ _ _ E) as (_ & _ & _ & _ & [(_ & -> & _)|(_ & [(_ & ->)|(N & t & -> & F)])]); try discriminate.
    injection Ha as ->. eexists; exact F.
  - injection H as <- <-. discriminate.
Qed.
Lemma run_flush ops : forall st st' evs, srun zip g st ops = Ok (st', evs) ->
  Forall2 (fun o e => e_op e = fst o /\ forall a, e_att e = Some a -> exists h recs, sflush zip g h (snd o) recs = Ok a) ops evs.
Proof.
  induction ops as [|o ops IH]; intros st st' evs H; cbn [srun] in H.
  - injection H as <- <-. constructor.
  - rb H x E. rb H y E2. injection H as <- <-. destruct x as [st1 e1], y as [st2 es]. cbn [fst snd] in *.
    constructor; [|exact (IH _ _ _ E2)]. split.
    + destruct st as [h s], o as [o n]. unfold sstep in E. destruct o; cbv zeta in E; (lazymatch type of E with rbind _ _ = _ => rb E z HZ | _ => idtac end); injection E as <- <-; reflexivity.
    + intros a Ha. destruct (step_flush _ _ _ _ _ E Ha) as [recs Hr]. exists (fst st), recs. exact Hr.
Qed.
Lemma in_flushes a evs : In a (flushes evs) -> exists e, In e evs /\ e_att e = Some a.
Proof.
  unfold flushes. rewrite in_flat_map. intros (e & He & Ha). exists e. split; [exact He|].
  destruct (e_att e); [|contradiction]. destruct Ha as [->|[]]. reflexivity.
Qed.
Lemma Forall2_in_r {A B} (P : A -> B -> Prop) l1 l2 y : Forall2 P l1 l2 -> In y l2 -> exists x, In x l1 /\ P x y.
Proof.
  induction 1 as [|a b l1 l2 Hab H IH]; intros Hy; [contradiction|]. destruct Hy as [->|Hy].
  - exists a. split; [left; reflexivity|exact Hab].
  - destruct (IH Hy) as (x & Hx & Px). exists x. split; [right; exact Hx|exact Px].
Qed.
Lemma run_flushes ops st st' evs a : srun zip g st ops = Ok (st', evs) -> In a (flushes evs) ->
  exists o h recs, In o ops /\ sflush zip g h (snd o) recs = Ok a.
Proof.
  intros H Ha. destruct (in_flushes _ _ Ha) as (e & He & Hea). destruct (Forall2_in_r _ _ _ _ (run_flush _ _ _ _ H) He) as (o & Ho & _ & X).
  destruct (X a Hea) as (h & recs & Hr). exists o, h, recs. split; assumption.
Qed.
Lemma all_reached ops st st' evs : srun zip g st ops = Ok (st', evs) -> Forall (fun o => succeeds (snd o)) ops ->
  received evs = flat_map t_msgs (flushes evs).
Proof.
  intros H Hs. unfold received. f_equal. assert (X : Forall (fun a => reached a = true) (flushes evs)).
  { apply Forall_forall. intros a Ha. destruct (run_flushes _ _ _ _ _ H Ha) as (o & h & recs & Ho & Hr).
    rewrite Forall_forall in Hs. exact (proj2 (sflush_succeeds _ _ _ _ (Hs _ Ho) Hr)). }
  induction X as [|a l Ha X IH]; [reflexivity|]. cbn [filter]. rewrite Ha, IH. reflexivity.
Qed.
Lemma Forall_app_l {A} (P : A -> Prop) a b : Forall P (a ++ b) -> Forall P a.
Proof. intros H. apply Forall_app in H. exact (proj1 H). Qed.
Lemma Forall_app_r {A} (P : A -> Prop) a b : Forall P (a ++ b) -> Forall P b.
Proof. intros H. apply Forall_app in H. exact (proj2 H). Qed.

(** *** From the first operation to the one after Close *)
Lemma close_account {B} (f : message -> B) ops1 n ops2 h st evs :
  srun zip g (h, sp0) (ops1 ++ (OClose, n) :: ops2) = Ok (st, evs) ->
  Forall (fun o => unseen f (fst o)) ops1 -> ~ In OClose (map fst ops1) -> Forall (fun o => quiet (fst o)) ops2 ->
  map f (flat_map t_msgs (flushes evs)) = map f (accepted evs).
Proof.
  intros H Hu Hc Hq. destruct (srun_app _ _ _ _ H) as (st1 & e1 & e2 & H1 & H2 & H3). cbn [fst snd] in *. subst evs.
  pose proof (run_account f _ _ _ _ H1 Hu Hc) as A. unfold view in A. cbn [queued fst snd s_recs sp0 map app] in A.
  cbn [srun] in H2. rb H2 x E. rb H2 y E2. injection H2 as <- <-. destruct x as [st2 ec], y as [st3 es]. cbn [fst snd] in *.
  assert (C : s_closed (snd st2) = true /\ accepted [ec] = [] /\ map f (flat_map t_msgs (flushes [ec])) = map f (queued st1)).
  { destruct st1 as [h1 s1]. unfold sstep in E. rb E z HZ. destruct z as [[s' er] a]. injection E as <- <-. cbn [fst snd].
    destruct (sclose_inv _ _ _ _ _ _ HZ) as (Q & _ & _ & -> & X). split; [exact Q|]. split; [reflexivity|].
    destruct X as [(C & _)|(C & [(R & ->)|(N & t & -> & F)])].
    - exfalso. clear -H1 C Hc. revert H1. generalize (h, sp0), (eq_refl : s_closed (snd (h, sp0)) = false). revert e1 Hc.
      induction ops1 as [|o ops IH]; intros e1 Hc st Hs H; cbn [srun] in H.
      + injection H as -> <-. cbn [snd] in Hs. congruence.
      + rb H x E. rb H y E2. destruct x as [st1 e], y as [st2 es]. cbn [fst snd map In] in *. injection H as E3 <-. subst st2.
        apply (IH es (fun X => Hc (or_intror X)) st1); [|exact E2].
        destruct st as [h0 s], o as [o n]. unfold sstep in E. destruct o as [k v| | | | |r i x]; [| | | |exfalso; apply Hc; left; reflexivity|].
        * rb E z HZ. destruct z as [[s' er] a]. injection E as <- <-. cbn [fst snd] in *. rewrite (proj1 (sadd_inv _ _ _ _ _ _ _ _ HZ)). exact Hs.
        * rb E z HZ. destruct z as [[s' er] a]. injection E as <- <-. cbn [fst snd] in *. rewrite (proj1 (sflushop_inv _ _ _ _ _ _ HZ)). exact Hs.
        * rb E z HZ. destruct z as [[s' er] a]. injection E as <- <-. cbn [fst snd] in *. rewrite (proj1 (stick_inv _ _ _ _ _ _ HZ)). exact Hs.
        * injection E as <- <-. exact Hs.
        * injection E as <- <-. exact Hs.
    - unfold queued. cbn [fst snd]. rewrite R. reflexivity.
    - destruct (sflush_inv _ _ _ _ F) as (_ & M & _). unfold flushes. cbn [flat_map e_att app]. rewrite app_nil_r, M. reflexivity. }
  destruct C as (C & A1 & F1). destruct (closed_run _ _ _ _ E2 C) as (_ & A2 & F2). destruct (F2 (or_introl Hq)) as (F3 & _).
  rewrite accepted_app, flushes_app, (accepted_cons ec), (flushes_cons ec), A1, A2, F3, flat_map_app, flat_map_app, !map_app, F1.
  cbn [map flat_map app]. rewrite !app_nil_r. symmetry. exact A.
Qed.
End Zip.

Definition no_write (o : sop) : Prop := match o with OWrite _ _ _ => False | _ => True end.
Lemma no_write_unseen {B} (f : message -> B) o : no_write o -> unseen f o.
Proof. destruct o; cbn; try (intros; exact I). intros []. Qed.
Lemma values_unseen o : unseen (@snd (option bytes) bytes) o.
Proof. destruct o; cbn; try exact I. intros; reflexivity. Qed.

(** *** C32 *)
Theorem once_in_order zip g h ops1 n ops2 st evs :
  srun zip g (h, sp0) (ops1 ++ (OClose, n) :: ops2) = Ok (st, evs) ->
  ~ In OClose (map fst ops1) -> Forall (fun o => quiet (fst o)) ops2 ->
  Forall (fun o => no_write (fst o)) ops1 -> Forall (fun o => succeeds (snd o)) (ops1 ++ (OClose, n) :: ops2) ->
  received evs = accepted evs /\ Forall (fun a => 1 <= zlen (t_msgs a) <= Z.max 1 (g_max g)) (flushes evs).
Proof.
  intros H Hc Hq Hw Hs. split.
  - rewrite (all_reached _ _ _ _ _ _ H Hs). rewrite <- (map_id (flat_map _ _)), <- (map_id (accepted evs)).
    apply (close_account zip g (fun m => m) _ _ _ _ _ _ H); [|exact Hc|exact Hq].
    eapply Forall_impl; [|exact Hw]. intros o. apply no_write_unseen.
  - apply (run_size zip g _ _ _ _ H). unfold small_queue. cbn. lia.
Qed.
Theorem once_in_order_values zip g h ops1 n ops2 st evs :
  srun zip g (h, sp0) (ops1 ++ (OClose, n) :: ops2) = Ok (st, evs) ->
  ~ In OClose (map fst ops1) -> Forall (fun o => quiet (fst o)) ops2 ->
  Forall (fun o => succeeds (snd o)) (ops1 ++ (OClose, n) :: ops2) ->
  map snd (received evs) = map snd (accepted evs).
Proof.
  intros H Hc Hq Hs. rewrite (all_reached _ _ _ _ _ _ H Hs). apply (close_account zip g snd _ _ _ _ _ _ H); [|exact Hc|exact Hq].
  apply Forall_forall. intros o _. apply values_unseen.
Qed.
Theorem before_close zip g h ops st evs :
  srun zip g (h, sp0) ops = Ok (st, evs) -> ~ In OClose (map fst ops) -> Forall (fun o => no_write (fst o)) ops ->
  accepted evs = flat_map t_msgs (flushes evs) ++ map (deref (fst st)) (s_recs (snd st)).
Proof.
  intros H Hc Hw. pose proof (run_account zip g (fun m => m) _ _ _ _ H) as A. unfold view in A. rewrite !map_id in A.
  apply A; [|exact Hc]. eapply Forall_impl; [|exact Hw]. intros o. apply no_write_unseen.
Qed.

(** *** C33 *)
Theorem flush_reports zip g h ops st evs e a :
  srun zip g (h, sp0) ops = Ok (st, evs) -> Forall (fun o => honest (snd o)) ops ->
  In e evs -> e_op e = OFlush -> e_att e = Some a -> e_ret e = t_err a /\ (e_ret e = None -> reached a = true).
Proof.
  intros H Hh He Ho Ha.
  assert (X : e_ret e = t_err a).
  { clear Hh. revert H He. generalize (h, sp0). revert evs. induction ops as [|o ops IH]; intros evs s0 H He; cbn [srun] in H.
    - injection H as <- <-. contradiction.
    - rb H x E. rb H y E2. injection H as <- <-. destruct x as [st1 e1], y as [st2 es]. cbn [fst snd] in *.
      destruct He as [->|He]; [|exact (IH _ _ E2 He)].
      destruct s0 as [h0 s], o as [o n]. unfold sstep in E. destruct o; cbv zeta in E; (lazymatch type of E with rbind _ _ = _ => rb E z HZ | _ => idtac end); injection E as <- <-; cbn [e_op] in Ho; try discriminate Ho.
      destruct z as [[s' er] b]. cbn [e_ret e_att fst snd] in *.
      destruct (sflushop_inv _ _ _ _ _ _ _ _ HZ) as (_ & _ & [(R & -> & -> & ->)|(N & R & t & -> & -> & F)]); [discriminate|].
      injection Ha as ->. reflexivity. }
  split; [exact X|]. intros Hn. rewrite X in Hn.
  assert (Hin : In a (flushes evs)) by (unfold flushes; apply in_flat_map; exists e; rewrite Ha; split; [exact He|left; reflexivity]).
  destruct (run_flushes _ _ _ _ _ _ _ H Hin) as (o & h' & recs & Hio & Hr). rewrite Forall_forall in Hh. exact (sflush_honest _ _ _ _ _ _ (Hh _ Hio) Hr Hn).
Qed.

(** *** C34 *)
Theorem nothing_after_close zip g h ops1 n ops2 st evs :
  srun zip g (h, sp0) (ops1 ++ (OClose, n) :: ops2) = Ok (st, evs) ->
  exists st1 st2 e1 ec e2, srun zip g (h, sp0) ops1 = Ok (st1, e1) /\ sstep zip g st1 (OClose, n) = Ok (st2, ec) /\
    evs = e1 ++ ec :: e2 /\ accepted e2 = [] /\
    (s_recs (snd st1) = [] \/ Forall (fun o => quiet (fst o)) ops2 -> flushes e2 = []).
Proof.
  intros H. destruct (srun_app _ _ _ _ _ _ H) as (st1 & e1 & e2 & H1 & H2 & H3). cbn [fst snd] in *.
  cbn [srun] in H2. rb H2 x E. rb H2 y E2. injection H2 as <- <-. destruct x as [st2 ec], y as [st3 es]. cbn [fst snd] in *.
  assert (C : s_closed (snd st2) = true /\ s_recs (snd st2) = s_recs (snd st1)).
  { destruct st1 as [h1 s1]. unfold sstep in E. rb E z HZ. destruct z as [[s' er] a]. injection E as <- <-.
    destruct (sclose_inv _ _ _ _ _ _ _ _ HZ) as (Q & R & _). split; assumption. }
  destruct C as (C & R). destruct (closed_run _ _ _ _ _ _ E2 C) as (_ & A & F).
  exists st1, st2, e1, ec, es. repeat split; try assumption. intros [X|X]; apply F; [right; congruence|left; exact X].
Qed.
