(** Facts about the Close functions. *)
From Verif Require Import Base BaseFacts Closing.

Lemma brokers_first : forall b, bs_closed b = false ->
  exists b', brokers_close b = Done b' /\ map fst (bs_handles b') = map fst (bs_handles b) /\
             Forall (fun x => snd x = false) (bs_handles b').
Proof.
  intros b H. unfold brokers_close. rewrite H. eexists. split; [reflexivity|]. cbn. split.
  - rewrite map_map. reflexivity.
  - apply Forall_forall. intros x I. apply in_map_iff in I. destruct I as [y [<- _]]. reflexivity.
Qed.
(** every second close of a broker list panics *)
Lemma brokers_second : forall b b', brokers_close b = Done b' -> brokers_close b' = Crash.
Proof. intros b b'. unfold brokers_close. destruct (bs_closed b); [discriminate|]. intro H. injection H as <-. reflexivity. Qed.

Lemma sprod_second : forall p p' t, sprod_close p = Done (p', t) -> sprod_close p' = Done (p', []).
Proof.
  intros p p' t. unfold sprod_close. destruct (sp_once p) eqn:E.
  - intro H. injection H as <- <-. rewrite E. reflexivity.
  - destruct (sp_leader p).
    + destruct (sp_chan p); [discriminate|]. intro H. injection H as <- <-. reflexivity.
    + destruct (sp_child p); [|discriminate]. destruct (sp_records p); [|discriminate].
      intro H. injection H as <- <-. reflexivity.
Qed.
(** the first close sends what is buffered, once, and closes the connection unless the
    parent owns it *)
Lemma sprod_first : forall rs h child,
  sprod_close (mkSp false rs (Some h) child false false) =
  Done (mkSp true rs (Some (if child then h else false)) child true true, match rs with [] => [] | _ => [rs] end).
Proof. intros [|r rs] h child; reflexivity. Qed.

Lemma closes_second : forall l l' t, closes l = Done (l', t) -> closes l' = Done (l', []).
Proof.
  induction l as [|[k p] l IH]; intros l' t H; cbn in H.
  - injection H as <- <-. reflexivity.
  - destruct (sprod_close p) as [[p' t1]| |] eqn:EP; try discriminate. cbn in H.
    destruct (closes l) as [[l1 t2]| |]; try discriminate. cbn in H. injection H as <- <-.
    cbn. rewrite (sprod_second _ _ _ EP). cbn. rewrite (IH l1 t2 eq_refl). reflexivity.
Qed.
Lemma close_handles_idem : forall l : list (Z * bool),
  map (fun x => (fst x, broker_close (snd x))) (map (fun x => (fst x, broker_close (snd x))) l) =
  map (fun x => (fst x, broker_close (snd x))) l.
Proof. intro l. rewrite map_map. reflexivity. Qed.
Lemma mprod_second : forall p p' t, mprod_close p = Done (p', t) -> mprod_close p' = Done (p', []).
Proof.
  intros p p' t. unfold mprod_close. destruct (mp_cur p) as [c|].
  - destruct (sprod_close c) as [[c' t1]| |] eqn:EC; cbn; try discriminate.
    destruct (closes (mp_sps p)) as [[l t2]| |] eqn:EL; cbn; try discriminate.
    intro H. injection H as <- <-. cbn. rewrite (sprod_second _ _ _ EC). cbn.
    rewrite (closes_second _ _ _ EL). cbn. rewrite close_handles_idem. reflexivity.
  - cbn. destruct (closes (mp_sps p)) as [[l t2]| |] eqn:EL; cbn; try discriminate.
    intro H. injection H as <- <-. cbn. rewrite (closes_second _ _ _ EL). cbn. rewrite close_handles_idem. reflexivity.
Qed.

Lemma stops_done : forall n wg, Z.of_nat n <= wg -> stops n wg = Done (wg - Z.of_nat n).
Proof.
  induction n as [|n IH]; intros wg H; cbn [stops]; [f_equal; lia|].
  destruct (wg <=? 0) eqn:E; [lia|]. rewrite IH by lia. f_equal. lia.
Qed.
Lemma stops_crash : forall n wg, 0 <= wg < Z.of_nat n -> stops n wg = Crash.
Proof.
  induction n as [|n IH]; intros wg H; cbn [stops]; [lia|].
  destruct (wg <=? 0) eqn:E; [reflexivity|]. apply IH. lia.
Qed.

(** a consumer with all its partition consumers running closes, once; the second close
    panics, whether it has partition consumers or not *)
Lemma cons_closes : forall n b, bs_closed b = false ->
  exists c', cons_close (mkCo n (Z.of_nat n) b) = Done c' /\ bs_closed (co_brokers c') = true /\ cons_close c' = Crash.
Proof.
  intros n b H. unfold cons_close. cbn [co_n co_wg co_brokers]. rewrite stops_done by lia. cbn [obind].
  rewrite Z.sub_diag. cbn. unfold brokers_close at 1. rewrite H. cbn.
  eexists. split; [reflexivity|]. split; [reflexivity|]. cbn.
  destruct n as [|n]; reflexivity.
Qed.

Lemma gcons_closes : forall n b reader, bs_closed b = false ->
  exists g', gcons_close (mkGc false reader n (Z.of_nat n) b) = Done g' /\
    (reader = false -> gcons_close g' = Blocks) /\ (reader = true -> gcons_close g' = Crash).
Proof.
  intros n b reader H. unfold gcons_close. cbn [gc_chan gc_reader gc_n gc_wg gc_brokers andb].
  rewrite stops_done by lia. cbn [obind]. unfold brokers_close at 1. rewrite H. cbn [obind].
  eexists. split; [reflexivity|]. cbn [gc_chan gc_reader gc_n gc_wg gc_brokers].
  split; intros ->; cbn [negb andb]; [reflexivity|]. cbn. reflexivity.
Qed.

Lemma brokers_refuted : exists b b', brokers_close b = Done b' /\ brokers_close b' = Crash.
Proof. exists (mkBs false [(1, true)]). eexists. split; reflexivity. Qed.
Lemma gcons_refuted : exists g g', gcons_close g = Done g' /\ gcons_close g' = Blocks.
Proof. exists (mkGc false false 2 2 (mkBs false [(1, true)])). eexists. split; reflexivity. Qed.
Lemma cons_refuted : exists c c', cons_close c = Done c' /\ cons_close c' = Crash.
Proof. exists (mkCo 2 2 (mkBs false [(1, true)])). eexists. split; reflexivity. Qed.
