(** Proofs about a producer, the broker and the successive consumers of a group. *)
From Verif Require Import Base BaseFacts Wire RequestSpec RecordSpec RecordFacts RequestPrep Producer ProducerSpec ProducerFacts ProducerWire Records Fetch FetchSpec DeliverFacts Consumer ConsumerSpec ConsumerFacts EndSpec EndFacts RestartSpec RestartFacts.

Lemma in_order_in topic pid D : forall t pos, in_order topic pid D pos t -> forall m, In m (msgs t) -> In m D.
Proof.
  induction t as [|e t IH]; intros pos Ho m Hm; [destruct Hm|].
  destruct e as [o mx|tp p m'|w o|o ok]; cbn [in_order] in Ho.
  - exact (IH _ (proj2 Ho) m Hm).
  - destruct Ho as (_ & _ & Hn & Ho). change (msgs (TMsg tp p m' :: t)) with (m' :: msgs t) in Hm. destruct Hm as [->|Hm]; [|exact (IH _ Ho m Hm)].
    unfold next_msg in Hn. apply find_some in Hn. apply Hn.
  - exact (IH _ Ho m Hm).
  - exact (IH _ Ho m Hm).
Qed.
(** what any consumer of the group hands out is in the log *)
Lemma handed_in_log unzip zip topic pid first L xs : log_ok unzip L -> group_history unzip zip topic pid first L xs ->
  forall y n, In y xs -> In n (msgs (ss_trace y)) -> In n (log_msgs L).
Proof.
  intros HL Hh y n Hy Hn. apply In_nth_error in Hy. destruct Hy as [i Hi]. destruct (Hh i y Hi) as (_ & (Hhr & Hrun & _) & (rest & EL) & _).
  rewrite EL in HL |- *. destruct (log_ok_app _ _ _ HL) as [HLy _]. rewrite log_msgs_app. apply in_or_app. left.
  exact (in_order_in _ _ _ _ _ (consumer_in_order unzip zip _ _ _ _ _ _ _ _ HLy Hhr Hrun) n Hn).
Qed.

Definition grp_holds (first : Z) (ms : list message) (xs : list session) : Prop :=
  (forall x v k m, In x xs -> v = position (ss_pos x) (ss_trace x) \/ In v (commits (ss_trace x)) ->
     nth_error ms k = Some m -> first + Z.of_nat k < v ->
     exists y n, In y xs /\ In n (msgs (ss_trace y)) /\ m_offset n = first + Z.of_nat k /\ seen n = sent m) /\
  (forall y n, In y xs -> In n (msgs (ss_trace y)) -> exists k m, nth_error ms k = Some m /\ m_offset n = first + Z.of_nat k /\ seen n = sent m).

Section EndGroup.
Variable unzip zip : Z -> bytes -> res bytes.
Variable g : scfg.
Hypothesis Hg : sane_cfg g.
Hypothesis Hcodec : codec_ok zip unzip (g_codec g).

Lemma group_log epoch first evs L L' : placed unzip first epoch L (filter reached (flushes evs)) -> Forall2 (renumbered unzip) L L' ->
  first + zlen (received evs) < 2 ^ 63 ->
  forall zip' xs, group_history unzip zip' (g_topic g) (g_part g) first L' xs -> grp_holds first (received evs) xs.
Proof using.
  intros HL HR Hmax zip' xs Hh.
  destruct (numbered_log unzip epoch _ _ _ _ HL HR) as [Hc Hs]. fold (received evs) in Hs.
  assert (Hlen : zlen (log_msgs L') = zlen (received evs)).
  { apply (f_equal (@length _)) in Hs. rewrite !map_length in Hs. unfold zlen. congruence. }
  assert (Hlog : log_ok unzip L').
  { split; [|split; [|split]].
    - clear -HR. induction HR as [|w w' L L' (_ & _ & W & _) _ IH]; constructor; assumption.
    - clear -HR. induction HR as [|w w' L L' (_ & _ & _ & W) _ IH]; constructor; assumption.
    - apply (consecutive_sorted _ _ Hc).
    - eapply Forall_impl; [|apply (consecutive_bounds _ _ Hc)]. intros m Hb. cbv beta in Hb. lia. }
  assert (Hk : forall k, option_map seen (nth_error (log_msgs L') k) = option_map sent (nth_error (received evs) k)).
  { intros k. rewrite <- !nth_error_map, Hs. reflexivity. }
  split.
  - intros x v k m Hx Hv Hm Hlt. specialize (Hk k). rewrite Hm in Hk. destruct (nth_error (log_msgs L') k) as [n|] eqn:En; [|discriminate Hk].
    cbn [option_map] in Hk. assert (Hk1 : seen n = sent m) by congruence. pose proof (consecutive_nth _ _ _ _ Hc En) as Ho.
    destruct (at_least_once unzip zip' _ _ _ _ _ Hlog Hh x v n Hx Hv (nth_error_In _ _ En)) as (y & Hy & Hn); [lia|].
    exists y, n. repeat split; assumption.
  - intros y n Hy Hn. pose proof (handed_in_log unzip zip' _ _ _ _ _ Hlog Hh y n Hy Hn) as Hin. apply In_nth_error in Hin. destruct Hin as [k En].
    specialize (Hk k). rewrite En in Hk. destruct (nth_error (received evs) k) as [m|] eqn:Em; [|discriminate Hk]. cbn [option_map] in Hk.
    exists k, m. split; [exact Em|]. split; [exact (consecutive_nth _ _ _ _ Hc En)|congruence].
Qed.

Theorem group_receives st0 ops st evs epoch first :
  srun zip g st0 ops = Ok (st, evs) -> Forall (fun o => sends9 (snd o)) ops ->
  Forall sane_msg (received evs) -> Forall sane_wire (wires evs) ->
  Forall (fun a => 1 <= zlen (t_msgs a) < 2 ^ 31) (flushes evs) ->
  exists L, broker_log (g_topic g) (g_part g) epoch first (wires evs) = Some (map enc_wb L) /\
    Forall2 (fun w a => wb_recs w = map spec_record (t_msgs a)) L (filter reached (flushes evs)) /\
    forall L', Forall2 (renumbered unzip) L L' -> first + zlen (received evs) < 2 ^ 63 ->
    forall zip' xs, group_history unzip zip' (g_topic g) (g_part g) first L' xs -> grp_holds first (received evs) xs.
Proof using Hg Hcodec.
  intros H H9 Hm Hw Hn. destruct (log_placed unzip zip g Hg Hcodec st0 ops st evs epoch H H9 Hm Hw Hn first) as (L & EL & HL).
  exists L. split; [exact EL|]. split.
  { clear EL. revert first HL. generalize (filter reached (flushes evs)) as ats. induction L as [|w L IH]; intros [|a ats] f HL; try contradiction; constructor.
    - exact (proj1 (proj2 (proj1 HL))).
    - exact (IH ats _ (proj2 HL)). }
  intros L' HR Hmax zip' xs. exact (group_log epoch first evs L L' HL HR Hmax zip' xs).
Qed.
Theorem group_end_to_end h ops1 n ops2 st evs epoch first :
  srun zip g (h, sp0) (ops1 ++ (OClose, n) :: ops2) = Ok (st, evs) ->
  ~ In OClose (map fst ops1) -> Forall (fun o => quiet (fst o)) ops2 -> Forall (fun o => no_write (fst o)) ops1 ->
  Forall (fun o => succeeds (snd o) /\ sends9 (snd o)) (ops1 ++ (OClose, n) :: ops2) ->
  Forall sane_msg (accepted evs) -> Forall sane_wire (wires evs) -> g_max g <= 1 ->
  i32 epoch -> 0 <= first -> first + zlen (accepted evs) < 2 ^ 63 ->
  exists L, broker_log (g_topic g) (g_part g) epoch first (wires evs) = Some (map enc_wb L) /\
    forall zip' xs, group_history unzip zip' (g_topic g) (g_part g) first L xs -> grp_holds first (accepted evs) xs.
Proof using Hg Hcodec.
  intros H Hc Hq Hw Hs Hm Hwi H1 Hep H0 Hmax.
  assert (Hs1 : Forall (fun o => succeeds (snd o)) (ops1 ++ (OClose, n) :: ops2)) by (eapply Forall_impl; [|exact Hs]; intros o [A _]; exact A).
  assert (Hs2 : Forall (fun o => sends9 (snd o)) (ops1 ++ (OClose, n) :: ops2)) by (eapply Forall_impl; [|exact Hs]; intros o [_ A]; exact A).
  destruct (once_in_order zip g h ops1 n ops2 st evs H Hc Hq Hw Hs1) as [E Hn]. rewrite <- E in *.
  assert (Hn' : Forall (fun a => 1 <= zlen (t_msgs a) < 2 ^ 31) (flushes evs)).
  { eapply Forall_impl; [|exact Hn]. intros a Ha. cbv beta in Ha. lia. }
  destruct (log_placed unzip zip g Hg Hcodec _ _ _ _ epoch H Hs2 Hm Hwi Hn' first) as (L & EL & HL). exists L. split; [exact EL|].
  assert (HR : Forall2 (renumbered unzip) L L).
  { apply (single_renumbered unzip epoch Hep _ _ _ HL H0); [exact Hmax|]. apply Forall_forall. intros a Ha. apply filter_In in Ha.
    rewrite Forall_forall in Hn. pose proof (Hn a (proj1 Ha)) as X. cbv beta in X. lia. }
  intros zip' xs. exact (group_log epoch first evs L L HL HR Hmax zip' xs).
Qed.
End EndGroup.
