(** Proofs about producer, broker and consumer together. *)
From Verif Require Import Base BaseFacts Wire RequestSpec RecordSpec RecordFacts RequestPrep Producer ProducerSpec ProducerFacts ProducerWire Records Fetch FetchSpec DeliverFacts Consumer ConsumerSpec ConsumerFacts EndSpec.

(** *** One request *)
Lemma set_fields h n payload : i32 n -> 0 <= n -> set_count (enc_sbatch h n payload) = n.
Proof.
  intros Hn H0. unfold set_count, enc_sbatch. cbv zeta.
  set (tl := enc_sbatch_tail h n payload).
  assert (E : firstn 4 (skipn 57 (be 8 (sb_base h) ++ be 4 (zlen tl + 9) ++ be 4 (sb_epoch h) ++ be 1 2 ++ be 4 (crc32c tl) ++ tl)) = be 4 n) by reflexivity.
  rewrite E. unfold i32 in Hn. rewrite unbe_be. apply Z.mod_small. change (2 ^ (8 * Z.of_nat 4)) with (2 * 2 ^ 31). lia.
Qed.
Lemma set_appended off epoch h n payload : append_set off epoch (enc_sbatch h n payload) =
  enc_sbatch (mkSBatch off epoch (sb_attr h) (sb_lod h) (sb_bts h) (sb_mts h) (sb_pid h) (sb_pepoch h) (sb_seq h)) n payload.
Proof.
  unfold enc_sbatch. cbv zeta.
  replace (enc_sbatch_tail (mkSBatch off epoch (sb_attr h) (sb_lod h) (sb_bts h) (sb_mts h) (sb_pid h) (sb_pepoch h) (sb_seq h)) n payload)
    with (enc_sbatch_tail h n payload) by reflexivity.
  set (tl := enc_sbatch_tail h n payload).
  pose proof (layout21 (sb_base h) (zlen tl + 9) (sb_epoch h) 2 (crc32c tl) tl) as L. cbv zeta in L. destruct L as [L1 [_ [_ L4]]].
  unfold append_set. rewrite L1, L4. reflexivity.
Qed.

Lemma sane_record m : sane_msg m -> wf_srecord (spec_record m).
Proof. destruct m as [k v]. exact (produced_wf (k, v)). Qed.

Lemma wire_net zip g h n recs a ver corr ts out : sflush zip g h n recs = Ok a -> t_wire a = Some (ver, corr, ts, out) ->
  exists got reply, n = NSend ver corr ts got reply.
Proof.
  unfold sflush. destruct (g_leader g); cbn [negb]; [|discriminate]. destruct n as [e|v c t got reply].
  - intros H Hw. injection H as <-. discriminate.
  - intros H Hw. rb H w E. destruct w as [o r]. cbn [fst] in H.
    assert (Hg : (if got then Some (v, c, t, o) else None) = Some (ver, corr, ts, out)).
    { destruct reply as [raw|e| |]; try discriminate.
      - destruct (Responses.answer 0 v raw); try discriminate; injection H as <-; exact Hw.
      - injection H as <-. exact Hw. }
    destruct got; [|discriminate]. injection Hg as -> -> -> _. eexists _, _. reflexivity.
Qed.

Section End.
Variable unzip zip : Z -> bytes -> res bytes.
Variable g : scfg.
Hypothesis Hg : sane_cfg g.
Hypothesis Hcodec : codec_ok zip unzip (g_codec g).

(** the batch as the broker keeps it *)
Definition kept (off epoch : Z) (w : wbatch) (a : attempt) : Prop :=
  sb_base (wb_h w) = off /\ wb_recs w = map spec_record (t_msgs a) /\ (i64 off -> i32 epoch -> wf_wb unzip w) /\ rejects_cuts unzip w.

Lemma attempt_kept st0 ops st evs a ver corr ts out off epoch :
  srun zip g st0 ops = Ok (st, evs) -> In a (flushes evs) -> t_wire a = Some (ver, corr, ts, out) ->
  Forall (fun o => sends9 (snd o)) ops -> Forall sane_msg (t_msgs a) -> sane_wire out -> 1 <= zlen (t_msgs a) < 2 ^ 31 ->
  exists set w, produce_set (g_topic g) (g_part g) out = Some set /\ set_count set = zlen (t_msgs a) /\
    append_set off epoch set = enc_wb w /\ kept off epoch w a.
Proof.
  intros H Ha Hw H9 Hm Hl Hn.
  destruct (run_flushes _ _ _ _ _ _ _ H Ha) as (o & h & recs & Ho & Hf).
  destruct (wire_net _ _ _ _ _ _ _ _ _ _ Hf Hw) as (got & reply & En).
  rewrite Forall_forall in H9. pose proof (H9 o Ho) as X. rewrite En in X. cbn in X. destruct X as (-> & Hcorr & Hts). clear H9.
  destruct Hg as (G1 & G2 & G3 & G4 & G5 & G6 & G7 & G8).
  destruct (wire_batch_sized zip g st0 ops st evs a corr ts out [] H Ha Hw G1 G2 G3 G4 G5 G6 G7 Hcorr Hn Hl) as (payload & Hsz & Hpay & Hr).
  set (ms := t_msgs a) in *. set (set := enc_sbatch (spec_batch (g_codec g) ts ms) (zlen ms) payload) in *.
  rewrite app_nil_r in Hr. unfold sane_wire in Hl. pose proof (zlen_nonneg payload) as Hp0.
  set (hh := mkSBatch off epoch (g_codec g) (zlen ms - 1) ts ts (-1) 0 0).
  exists set, (mkWB hh (map spec_record ms) payload).
  assert (Hlm : zlen (map spec_record ms) = zlen ms) by (unfold zlen; rewrite map_length; reflexivity).
  assert (Hcd : Z.land (g_codec g) 7 = g_codec g) by (apply FetchFacts.land7_id; lia).
  split; [|split; [|split; [|split; [|split; [|split]]]]].
  - unfold produce_set. rewrite Hr. unfold spec_request. destruct (list_eq_dec Z.eq_dec (g_topic g) (g_topic g)); [|congruence].
    rewrite Z.eqb_refl. reflexivity.
  - apply set_fields; [unfold i32; lia|lia].
  - unfold enc_wb. cbn [wb_h wb_recs wb_payload]. rewrite Hlm. apply set_appended.
  - reflexivity.
  - reflexivity.
  - intros Hoff Hep. split.
    + unfold wf_wb_common. cbn [wb_h wb_recs wb_payload]. rewrite Hlm.
      repeat split; try assumption; try (unfold wb_codec, hh; cbn [wb_h sb_base sb_epoch sb_attr sb_lod sb_bts sb_mts sb_pid sb_pepoch sb_seq]; unfold i16, i32, i64 in *; lia).
      * rewrite Forall_map. eapply Forall_impl; [|exact Hm]. intros m. apply sane_record.
      * rewrite Forall_map. apply Forall_forall. intros m _. constructor.
      * rewrite Forall_map. apply Forall_forall. intros m _. cbn. rewrite Z.add_0_r. exact Hoff.
    + unfold wb_codec. cbn [wb_h wb_recs wb_payload hh sb_attr]. rewrite Hcd.
      destruct (Z.eqb_spec (g_codec g) 0) as [Hc|Hc]; [exact Hpay|].
      assert (nonempty (map spec_record ms) = true) as -> by (destruct ms; [change (zlen (@nil message)) with 0 in Hn; lia|reflexivity]).
      apply (Hcodec Hc _ _ Hpay).
  - unfold rejects_cuts, wb_codec. cbn [wb_h wb_recs wb_payload hh sb_attr]. rewrite Hcd.
    destruct (Z.eqb_spec (g_codec g) 0) as [Hc|Hc]; [left; exact Hc|right].
    apply (Hcodec Hc _ _ Hpay).
Qed.

(** *** All requests *)
Fixpoint placed (off epoch : Z) (L : list wbatch) (ats : list attempt) : Prop :=
  match L, ats with
  | [], [] => True
  | w :: L', a :: ats' => kept off epoch w a /\ placed (off + zlen (t_msgs a)) epoch L' ats'
  | _, _ => False
  end.

Lemma wires_reached evs : wires evs = flat_map (fun a => match t_wire a with Some (_, _, _, out) => [out] | None => [] end) (filter reached (flushes evs)).
Proof.
  unfold wires. induction (flushes evs) as [|a l IH]; [reflexivity|]. cbn [flat_map filter]. unfold reached at 1.
  destruct (t_wire a) as [[[[? ?] ?] ?]|] eqn:E; cbn [flat_map app]; [rewrite E; cbn [app]; f_equal; exact IH|exact IH].
Qed.

Lemma log_placed st0 ops st evs epoch :
  srun zip g st0 ops = Ok (st, evs) -> Forall (fun o => sends9 (snd o)) ops ->
  Forall sane_msg (received evs) -> Forall sane_wire (wires evs) ->
  Forall (fun a => 1 <= zlen (t_msgs a) < 2 ^ 31) (flushes evs) ->
  forall first, exists L, broker_log (g_topic g) (g_part g) epoch first (wires evs) = Some (map enc_wb L) /\
    placed first epoch L (filter reached (flushes evs)).
Proof.
  intros H H9 Hm Hw Hn. rewrite wires_reached in *. unfold received in Hm.
  assert (Hin : forall a, In a (filter reached (flushes evs)) -> In a (flushes evs) /\ reached a = true) by (intros a; apply filter_In).
  revert Hin Hm Hw. generalize (filter reached (flushes evs)) as ats. induction ats as [|a ats IH]; intros Hin Hm Hw first.
  - exists []. split; [reflexivity|exact I].
  - cbn [flat_map] in Hm, Hw. apply Forall_app in Hm. destruct Hm as [Hm1 Hm2]. apply Forall_app in Hw. destruct Hw as [Hw1 Hw2].
    destruct (Hin a (or_introl eq_refl)) as [Ha Hr]. unfold reached in Hr. destruct (t_wire a) as [[[[ver corr] ts] out]|] eqn:Et; [|discriminate].
    rewrite Forall_forall in Hn. pose proof (Hn a Ha) as Hna. apply Forall_inv in Hw1.
    destruct (attempt_kept st0 ops st evs a ver corr ts out first epoch H Ha Et H9 Hm1 Hw1 Hna) as (set & w & E1 & E2 & E3 & Hk).
    destruct (IH (fun b Hb => Hin b (or_intror Hb)) Hm2 Hw2 (first + zlen (t_msgs a))) as (L & E4 & HL).
    exists (w :: L). split; [|split; assumption].
    cbn [flat_map]. rewrite Et. cbn [app broker_log map]. rewrite E1, E2, E4, E3. reflexivity.
Qed.

(** *** Numbered logs *)
Fixpoint consecutive (off : Z) (l : list Message) : Prop :=
  match l with [] => True | m :: l' => m_offset m = off /\ consecutive (off + 1) l' end.
Lemma consecutive_app : forall a off b, consecutive off a -> consecutive (off + zlen a) b -> consecutive off (a ++ b).
Proof.
  induction a as [|m a IH]; intros off b Ha Hb.
  - cbn [app]. change (zlen (@nil Message)) with 0 in Hb. rewrite Z.add_0_r in Hb. exact Hb.
  - destruct Ha as [H1 H2]. cbn [app]. split; [exact H1|]. apply IH; [exact H2|]. rewrite zlen_cons in Hb. replace (off + 1 + zlen a) with (off + (1 + zlen a)) by lia. exact Hb.
Qed.
Lemma consecutive_nth : forall l off k m, consecutive off l -> nth_error l k = Some m -> m_offset m = off + Z.of_nat k.
Proof.
  induction l as [|x l IH]; intros off k m H E.
  - destruct k; discriminate.
  - destruct H as [H1 H2]. destruct k as [|k]; cbn [nth_error] in E; [injection E as <-; lia|]. rewrite (IH (off + 1) k m H2 E). lia.
Qed.
Lemma consecutive_bounds l off : consecutive off l -> Forall (fun m => off <= m_offset m < off + zlen l) l.
Proof.
  intros H. apply Forall_forall. intros m Hin. apply In_nth_error in Hin. destruct Hin as [k Hk]. rewrite (consecutive_nth _ _ _ _ H Hk).
  assert (k < length l)%nat by (apply nth_error_Some; congruence). unfold zlen. lia.
Qed.
Lemma consecutive_sorted : forall l off, consecutive off l -> StronglySorted before l.
Proof.
  induction l as [|x l IH]; intros off H; [constructor|]. destruct H as [H1 H2]. constructor; [apply (IH (off + 1)); exact H2|].
  eapply Forall_impl; [|apply (consecutive_bounds _ _ H2)]. intros m Hb. unfold before. cbv beta in Hb. lia.
Qed.
Lemma next_consecutive : forall l off k, consecutive off l -> next_msg l (off + Z.of_nat k) = nth_error l k.
Proof.
  induction l as [|x l IH]; intros off k H; [destruct k; reflexivity|]. destruct H as [H1 H2]. unfold next_msg. cbn [find].
  destruct k as [|k]; cbn [nth_error].
  - destruct (Z.leb_spec (off + Z.of_nat 0) (m_offset x)); [reflexivity|lia].
  - destruct (Z.leb_spec (off + Z.of_nat (S k)) (m_offset x)); [lia|]. fold (next_msg l (off + Z.of_nat (S k))).
    replace (off + Z.of_nat (S k)) with ((off + 1) + Z.of_nat k) by lia. apply IH. exact H2.
Qed.

Lemma in_order_prefix topic pid l off : consecutive off l -> forall t k, in_order topic pid l (off + Z.of_nat k) t -> resets t = [] ->
  prefix (msgs t) (skipn k l) /\ position (off + Z.of_nat k) t = off + Z.of_nat k + zlen (msgs t).
Proof.
  intros Hc. induction t as [|e t IH]; intros k Ho Hr.
  - split; [exists (skipn k l); reflexivity|]. cbn. lia.
  - destruct e as [o r|tp p m|w o|o r]; cbn [in_order] in Ho.
    + exact (IH k (proj2 Ho) Hr).
    + destruct Ho as (_ & _ & Hn & Ho). rewrite (next_consecutive _ _ _ Hc) in Hn.
      rewrite (consecutive_nth _ _ _ _ Hc Hn) in Ho. replace (off + Z.of_nat k + 1) with (off + Z.of_nat (S k)) in Ho by lia.
      destruct (IH (S k) Ho Hr) as [[b Hb] Hp]. split.
      * exists b. unfold msgs. cbn [flat_map app]. fold (msgs t). cbn [app]. change (skipn (S k) l) with (skipn (S k) l) in Hb. rewrite <- Hb.
        clear -Hn. revert l Hn. induction k as [|k IHk]; intros [|x l] Hn; try discriminate; cbn [nth_error] in Hn.
        { injection Hn as ->. reflexivity. }
        { cbn [skipn]. apply IHk. exact Hn. }
      * change (position (off + Z.of_nat k) (TMsg tp p m :: t)) with (position (m_offset m + 1) t). rewrite (consecutive_nth _ _ _ _ Hc Hn).
        replace (off + Z.of_nat k + 1) with (off + Z.of_nat (S k)) by lia. rewrite Hp.
        change (msgs (TMsg tp p m :: t)) with (m :: msgs t). rewrite zlen_cons. lia.
    + discriminate Hr.
    + exact (IH k Ho Hr).
Qed.

(** the log of a broker that numbers the records *)
Lemma numbered_msgs h ms : forall i, consecutive (sb_base h + i) (map (exp_msg h) (numbered i (map spec_record ms))) /\
  map seen (map (exp_msg h) (numbered i (map spec_record ms))) = map sent ms /\
  zlen (map (exp_msg h) (numbered i (map spec_record ms))) = zlen ms.
Proof.
  induction ms as [|m ms IH]; intros i; cbn [map numbered].
  - repeat split.
  - destruct (IH (i + 1)) as (A & B & C). split; [split; [reflexivity|]|split].
    + replace (sb_base h + i + 1) with (sb_base h + (i + 1)) by lia. exact A.
    + rewrite B; reflexivity.
    + rewrite !zlen_cons. rewrite C. reflexivity.
Qed.
Lemma numbered_log epoch : forall ats L L' off, placed off epoch L ats -> Forall2 (renumbered unzip) L L' ->
  consecutive off (log_msgs L') /\ map seen (log_msgs L') = map sent (flat_map t_msgs ats).
Proof.
  induction ats as [|a ats IH]; intros L L' off Hp HR; destruct L as [|w L]; try contradiction; inversion HR; subst.
  - split; [exact I|reflexivity].
  - destruct Hp as [(K1 & K2 & _) Hp]. match goal with H : renumbered _ _ _ |- _ => destruct H as (R1 & R2 & _) end.
    match goal with H : Forall2 _ L _ |- _ => destruct (IH _ _ _ Hp H) as [I1 I2] end.
    destruct (numbered_msgs (wb_h w) (t_msgs a) 0) as (N1 & N2 & N3).
    unfold log_msgs. cbn [flat_map]. rewrite R1, R2, K2. split.
    + apply consecutive_app; [rewrite Z.add_0_r in N1; rewrite <- K1; exact N1|]. rewrite N3. exact I1.
    + rewrite !map_app, N2. f_equal. exact I2.
Qed.

Lemma consume_log epoch first evs L L' ats : placed first epoch L ats -> Forall2 (renumbered unzip) L L' ->
  ats = filter reached (flushes evs) -> first + zlen (received evs) < 2 ^ 63 ->
  forall zip' c from mx cops s t, honest_run unzip zip' c L' (cinit first from mx) cops -> crun c (cinit first from mx) cops = Ok (s, t) ->
    resets t = [] ->
    prefix (map seen (msgs t)) (map sent (received evs)) /\
    (position first t = first + zlen (received evs) -> map seen (msgs t) = map sent (received evs)).
Proof.
  intros HL HR -> Hmax zip' c from mx cops s t Hh Hrun Hrs.
  destruct (numbered_log epoch _ _ _ _ HL HR) as [Hc Hs]. fold (received evs) in Hs.
  assert (Hlen : zlen (log_msgs L') = zlen (received evs)).
  { apply (f_equal (@length _)) in Hs. rewrite !map_length in Hs. unfold zlen. congruence. }
  assert (Hlog : log_ok unzip L').
  { split; [|split; [|split]].
    - clear -HR. induction HR as [|w w' L L' (_ & _ & W & _) _ IH]; constructor; assumption.
    - clear -HR. induction HR as [|w w' L L' (_ & _ & _ & W) _ IH]; constructor; assumption.
    - apply (consecutive_sorted _ _ Hc).
    - eapply Forall_impl; [|apply (consecutive_bounds _ _ Hc)]. intros m Hb. cbv beta in Hb. lia. }
  pose proof (consumer_in_order unzip zip' c L' first from mx cops s t Hlog Hh Hrun) as Ho.
  replace first with (first + Z.of_nat 0) in Ho by lia.
  destruct (in_order_prefix _ _ _ _ Hc t 0%nat Ho Hrs) as [[b Hb] Hp]. cbn [skipn] in Hb. cbn [Z.of_nat] in Hp. rewrite Z.add_0_r in Hp.
  rewrite <- Hs, Hb, map_app. split; [exists (map seen b); reflexivity|].
  intros Hpos. rewrite Hp in Hpos. rewrite <- Hlen, Hb, zlen_app in Hpos. destruct b as [|x b]; [rewrite app_nil_r; reflexivity|].
  rewrite zlen_cons in Hpos. pose proof (zlen_nonneg b). lia.
Qed.

Theorem consumed_is_received st0 ops st evs epoch first :
  srun zip g st0 ops = Ok (st, evs) -> Forall (fun o => sends9 (snd o)) ops ->
  Forall sane_msg (received evs) -> Forall sane_wire (wires evs) ->
  Forall (fun a => 1 <= zlen (t_msgs a) < 2 ^ 31) (flushes evs) ->
  exists L, broker_log (g_topic g) (g_part g) epoch first (wires evs) = Some (map enc_wb L) /\
    Forall2 (fun w a => wb_recs w = map spec_record (t_msgs a)) L (filter reached (flushes evs)) /\
    forall L', Forall2 (renumbered unzip) L L' -> first + zlen (received evs) < 2 ^ 63 ->
    forall zip' c from mx cops s t, honest_run unzip zip' c L' (cinit first from mx) cops -> crun c (cinit first from mx) cops = Ok (s, t) ->
    resets t = [] ->
    prefix (map seen (msgs t)) (map sent (received evs)) /\
    (position first t = first + zlen (received evs) -> map seen (msgs t) = map sent (received evs)).
Proof.
  intros H H9 Hm Hw Hn. destruct (log_placed st0 ops st evs epoch H H9 Hm Hw Hn first) as (L & EL & HL).
  exists L. split; [exact EL|]. split.
  { clear EL. revert first HL. generalize (filter reached (flushes evs)) as ats. induction L as [|w L IH]; intros [|a ats] f HL; try contradiction; constructor.
    - exact (proj1 (proj2 (proj1 HL))).
    - exact (IH ats _ (proj2 HL)). }
  intros L' HR Hmax. exact (consume_log epoch first evs L L' _ HL HR eq_refl Hmax).
Qed.

(** Batches of one message are numbered as they are sent. *)
Lemma single_renumbered epoch : i32 epoch -> forall ats L off, placed off epoch L ats -> 0 <= off -> off + zlen (flat_map t_msgs ats) < 2 ^ 63 ->
  Forall (fun a => zlen (t_msgs a) = 1) ats -> Forall2 (renumbered unzip) L L.
Proof.
  intros Hep. induction ats as [|a ats IH]; intros L off Hp Ho Hl H1; destruct L as [|w L]; try contradiction; constructor.
  - destruct Hp as [(K1 & K2 & K3 & K4) _]. apply Forall_inv in H1. cbn [flat_map] in Hl. rewrite zlen_app in Hl. pose proof (zlen_nonneg (flat_map t_msgs ats)).
    split; [reflexivity|]. split; [|split; [apply K3; [unfold i64; lia|exact Hep]|exact K4]]. rewrite K2.
    destruct (t_msgs a) as [|m [|m' ms]]; [reflexivity|reflexivity|]. rewrite !zlen_cons in H1. pose proof (zlen_nonneg ms). lia.
  - destruct Hp as [_ Hp]. inversion H1; subst. cbn [flat_map] in Hl. rewrite zlen_app in Hl.
    apply (IH L (off + zlen (t_msgs a))); [exact Hp|pose proof (zlen_nonneg (t_msgs a)); lia|lia|assumption].
Qed.

Theorem end_to_end h ops1 n ops2 st evs epoch first :
  srun zip g (h, sp0) (ops1 ++ (OClose, n) :: ops2) = Ok (st, evs) ->
  ~ In OClose (map fst ops1) -> Forall (fun o => quiet (fst o)) ops2 -> Forall (fun o => no_write (fst o)) ops1 ->
  Forall (fun o => succeeds (snd o) /\ sends9 (snd o)) (ops1 ++ (OClose, n) :: ops2) ->
  Forall sane_msg (accepted evs) -> Forall sane_wire (wires evs) -> g_max g <= 1 ->
  i32 epoch -> 0 <= first -> first + zlen (accepted evs) < 2 ^ 63 ->
  exists L, broker_log (g_topic g) (g_part g) epoch first (wires evs) = Some (map enc_wb L) /\
    forall zip' c from mx cops s t, honest_run unzip zip' c L (cinit first from mx) cops -> crun c (cinit first from mx) cops = Ok (s, t) ->
    resets t = [] ->
    prefix (map seen (msgs t)) (map sent (accepted evs)) /\
    (position first t = first + zlen (accepted evs) -> map seen (msgs t) = map sent (accepted evs)).
Proof.
  intros H Hc Hq Hw Hs Hm Hwi H1 Hep H0 Hmax.
  assert (Hs1 : Forall (fun o => succeeds (snd o)) (ops1 ++ (OClose, n) :: ops2)) by (eapply Forall_impl; [|exact Hs]; intros o [A _]; exact A).
  assert (Hs2 : Forall (fun o => sends9 (snd o)) (ops1 ++ (OClose, n) :: ops2)) by (eapply Forall_impl; [|exact Hs]; intros o [_ A]; exact A).
  destruct (once_in_order zip g h ops1 n ops2 st evs H Hc Hq Hw Hs1) as [E Hn]. rewrite <- E in *.
  assert (Hn' : Forall (fun a => 1 <= zlen (t_msgs a) < 2 ^ 31) (flushes evs)).
  { eapply Forall_impl; [|exact Hn]. intros a Ha. cbv beta in Ha. lia. }
  destruct (log_placed _ _ _ _ epoch H Hs2 Hm Hwi Hn' first) as (L & EL & HL). exists L. split; [exact EL|].
  assert (HR : Forall2 (renumbered unzip) L L).
  { apply (single_renumbered epoch Hep _ _ _ HL H0); [exact Hmax|]. apply Forall_forall. intros a Ha. apply filter_In in Ha.
    rewrite Forall_forall in Hn. pose proof (Hn a (proj1 Ha)) as X. cbv beta in X. lia. }
  intros zip' c from mx cops s t. exact (consume_log _ _ _ _ _ _ HL HR eq_refl Hmax zip' c from mx cops s t).
Qed.
End End.
