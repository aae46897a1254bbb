(** A fetch size that is too small grows until a record fits. *)
From Verif Require Import Base BaseFacts RecordSpec Records Fetch FetchSpec RecordFacts FetchFacts DeliverFacts.

(** simple_consumer.go:472-473: FetchMaxBytes *= 2 (int32) when the decoder reports
    maxBytesTooSmall *)
Definition next_max (evs : list event) (max : Z) : Z :=
  match evs with
  | [EvErr EMaxBytesTooSmall] => sint 32 (max * 2)
  | _ => max
  end.

Section Grow.
  Variable unzip zip : Z -> bytes -> res bytes.

  (** One fetch: the broker returns the first [max] bytes of the log (from the requested
      offset on), in a response that arrives in one read. *)
  Definition resp_for (p : presp) (log : bytes) (max : Z) : presp :=
    mkPR (pr_corr p) (pr_throttle p) (pr_session p) (pr_topic p) (pr_pid p) (pr_hw p) (pr_lso p) (pr_logstart p)
         (pr_aborted p) (firstn (Z.to_nat max) log).
  Definition fetch_round (v st : Z) (p : presp) (log : bytes) (max : Z) : res (list event * dst) :=
    let r := resp_for p log max in
    streamDecode unzip zip v st (zlen (enc_presp v r)) (mkStream [enc_presp v r] ETimeout).
  (** [n] fetches in a row, nothing delivered so far *)
  Fixpoint fetch_max (n : nat) (v st : Z) (p : presp) (log : bytes) (max : Z) : Z :=
    match n with
    | O => max
    | S k => let m := fetch_max k v st p log max in
             match fetch_round v st p log m with Ok (evs, _) => next_max evs m | _ => m end
    end.

  (** an uncompressed batch with records *)
  Definition plain (w : wbatch) : Prop := wf_wb unzip w /\ wb_recs w <> [] /\ wb_codec w = 0.

  Lemma cut_log : forall ws k, Forall plain ws ->
    exists rs, firstn k (flat_map enc_wb ws) = enc_rset rs /\ wf_rset unzip rs /\
      (forall w ws', ws = w :: ws' ->
         if Nat.ltb k (length (enc_wb w)) then rs = mkRS [] (Some (w, k))
         else exists ws1, rs_whole rs = w :: ws1).
  Proof.
    induction ws as [|w ws IH]; intros k Hp.
    - exists (mkRS [] None). cbn [flat_map]. rewrite firstn_nil. split; [reflexivity|]. split; [split; [constructor|exact I]|].
      intros; discriminate.
    - inversion Hp as [|? ? [Hw [Hr Hc]] Hp']; subst. cbn [flat_map]. rewrite firstn_app.
      destruct (Nat.ltb_spec k (length (enc_wb w))) as [Hk|Hk].
      + exists (mkRS [] (Some (w, k))). unfold enc_rset. cbn [rs_whole rs_cut flat_map app].
        replace (k - length (enc_wb w))%nat with O by lia. rewrite firstn_O, app_nil_r.
        split; [reflexivity|]. split; [split; [constructor|repeat split; try assumption; apply Hw]|].
        intros w0 ws0 E. injection E as <- <-. destruct (Nat.ltb_spec k (length (enc_wb w))); [reflexivity|lia].
      + destruct (IH (k - length (enc_wb w))%nat Hp') as [rs [E [[W1 W2] _]]].
        exists (mkRS (w :: rs_whole rs) (rs_cut rs)). unfold enc_rset in *. cbn [rs_whole rs_cut flat_map].
        rewrite <- app_assoc, <- E. assert (Ef : firstn k (enc_wb w) = enc_wb w) by (apply firstn_all2; lia). rewrite Ef.
        split; [reflexivity|]. split; [split; [constructor; assumption|exact W2]|].
        intros w0 ws0 E0. injection E0 as <- <-. destruct (Nat.ltb_spec k (length (enc_wb w))); [lia|].
        eexists; reflexivity.
  Qed.

  Definition wf_resp (p : presp) : Prop :=
    zlen (pr_topic p) < 2 ^ 15 /\ i32 (pr_pid p) /\ (match pr_aborted p with None => True | Some l => zlen l < 2 ^ 31 end).

  Lemma round_cut v st p ws max : (v = 0 \/ v = 7 \/ v = 10) -> wf_resp p -> Forall plain ws -> 0 < max < 2 ^ 31 ->
    exists rs s', firstn (Z.to_nat max) (flat_map enc_wb ws) = enc_rset rs /\
      (forall w ws', ws = w :: ws' ->
         if Nat.ltb (Z.to_nat max) (length (enc_wb w)) then rs = mkRS [] (Some (w, Z.to_nat max))
         else exists ws1, rs_whole rs = w :: ws1) /\
      fetch_round v st p (flat_map enc_wb ws) max = Ok (exp_presp st (resp_for p (flat_map enc_wb ws) max) rs, s').
  Proof.
    intros Hv [H1 [H2 H3]] Hp Hm. destruct (cut_log ws (Z.to_nat max) Hp) as [rs [E [W C]]].
    set (r := resp_for p (flat_map enc_wb ws) max).
    destruct (stream_decode_at unzip zip v st r rs [] [enc_presp v r] ETimeout Hv) as [s' [E1 _]].
    - unfold wf_presp, r. cbn. repeat split; try assumption; try apply H2. unfold zlen. rewrite firstn_length. lia.
    - exact W.
    - exact E.
    - cbn. reflexivity.
    - apply fields_ok_one. rewrite part_fields_sum. unfold enc_presp. rewrite !app_length. lia.
    - exists rs, s'. split; [exact E|]. split; [exact C|exact E1].
  Qed.

  Definition need (w : wbatch) (r : srecord) : Z := 61 + zlen (enc_srecord r).

  Lemma need_le w r rs : wf_wb unzip w -> wb_codec w = 0 -> wb_recs w = r :: rs -> need w r <= zlen (enc_wb w).
  Proof.
    intros [_ Hz] Hc Hr. rewrite Hc in Hz. cbn in Hz. unfold need. rewrite enc_wb_len, Hz, Hr. cbn [flat_map].
    rewrite zlen_app. pose proof (zlen_nonneg (flat_map enc_srecord rs)). lia.
  Qed.

  Lemma round_small v st p w ws r rs max : (v = 0 \/ v = 7 \/ v = 10) -> wf_resp p -> Forall plain (w :: ws) ->
    wb_recs w = r :: rs -> 0 < max < 2 ^ 31 -> max < need w r ->
    exists s', fetch_round v st p (flat_map enc_wb (w :: ws)) max = Ok ([EvErr EMaxBytesTooSmall], s').
  Proof.
    intros Hv Hp Hpl Hr Hm Hn. destruct (round_cut v st p (w :: ws) max Hv Hp Hpl Hm) as [rset [s' [E [C R]]]].
    inversion Hpl as [|? ? [Hw [Hre Hc]] _]; subst. pose proof (need_le w r rs Hw Hc Hr) as HL.
    exists s'. rewrite R. do 2 f_equal. specialize (C w ws eq_refl).
    destruct (Nat.ltb_spec (Z.to_nat max) (length (enc_wb w))) as [Hlt|Hge]; [|unfold zlen in HL; lia]. subst rset.
    assert (Ew : exp_rset (pr_topic p) (pr_pid p) st (mkRS [] (Some (w, Z.to_nat max))) = []).
    { unfold exp_rset, exp_cut, exp_events. cbn [rs_whole rs_cut exp_all flat_map app]. rewrite Hr. cbn [whole].
      pose proof (enc_srecord_pos r).
      unfold need, zlen in *. destruct (Nat.leb_spec (length (enc_srecord r)) (Z.to_nat max - 61)); [lia|reflexivity]. }
    unfold exp_presp. cbn [resp_for pr_topic pr_pid]. rewrite Ew. cbn [nonempty].
    rewrite <- E. cbn [flat_map]. rewrite firstn_app.
    assert (Hne : length (firstn (Z.to_nat max) (enc_wb w)) = Z.to_nat max) by (rewrite firstn_length; lia).
    destruct (firstn (Z.to_nat max) (enc_wb w)); [cbn in Hne; lia|reflexivity].
  Qed.

  Lemma round_large v st p w ws r rs max : (v = 0 \/ v = 7 \/ v = 10) -> wf_resp p -> Forall plain (w :: ws) ->
    wb_recs w = r :: rs -> st <= sb_base (wb_h w) + sr_od r -> 0 < max < 2 ^ 31 -> need w r <= max ->
    exists evs s', fetch_round v st p (flat_map enc_wb (w :: ws)) max =
      Ok (EvMsg (pr_topic p) (pr_pid p) (exp_msg (wb_h w) r) :: evs, s').
  Proof.
    intros Hv Hp Hpl Hr Hst Hm Hn. destruct (round_cut v st p (w :: ws) max Hv Hp Hpl Hm) as [rset [s' [E [C R]]]].
    specialize (C w ws eq_refl).
    assert (Hw : wanted st (exp_msg (wb_h w) r) = true) by (unfold wanted; cbn; lia).
    assert (Hx : exists evs, exp_rset (pr_topic p) (pr_pid p) st rset = EvMsg (pr_topic p) (pr_pid p) (exp_msg (wb_h w) r) :: evs).
    { unfold exp_rset. destruct (Nat.ltb_spec (Z.to_nat max) (length (enc_wb w))) as [Hlt|Hge].
      - subst rset. unfold exp_cut, exp_events. cbn [rs_whole rs_cut exp_all flat_map app]. rewrite Hr. cbn [whole].
        unfold need, zlen in *. destruct (Nat.leb_spec (length (enc_srecord r)) (Z.to_nat max - 61)); [|lia].
        cbn [map filter]. rewrite Hw. eexists; reflexivity.
      - destruct C as [ws1 C]. rewrite C. unfold exp_all at 1. cbn [flat_map]. rewrite Hr. unfold exp_events at 1. cbn [map filter].
        rewrite Hw. eexists; reflexivity. }
    destruct Hx as [evs Hx]. exists evs, s'. rewrite R. unfold exp_presp. cbn [resp_for pr_topic pr_pid]. rewrite Hx. reflexivity.
  Qed.

  Lemma grow_step v st p w ws r rs max n : (v = 0 \/ v = 7 \/ v = 10) -> wf_resp p -> Forall plain (w :: ws) ->
    wb_recs w = r :: rs -> 0 < max -> need w r <= 2 ^ 30 ->
    max * 2 ^ Z.of_nat n < need w r ->
    forall k, (k <= S n)%nat -> fetch_max k v st p (flat_map enc_wb (w :: ws)) max = max * 2 ^ Z.of_nat k.
  Proof.
    intros Hv Hp Hpl Hr Hm Hn Hlt. induction k as [|k IH]; intros Hk; [cbn [fetch_max]; change (2 ^ Z.of_nat 0) with 1; lia|].
    cbn [fetch_max]. cbv zeta. rewrite IH by lia. clear IH.
    assert (Hpow : 2 ^ Z.of_nat k <= 2 ^ Z.of_nat n) by (apply Z.pow_le_mono_r; lia).
    assert (Hpos : 0 < 2 ^ Z.of_nat k) by (apply Z.pow_pos_nonneg; lia).
    assert (Hb : max * 2 ^ Z.of_nat k < need w r) by nia.
    assert (P : 2 ^ 31 = 2 * 2 ^ 30) by reflexivity.
    destruct (round_small v st p w ws r rs (max * 2 ^ Z.of_nat k) Hv Hp Hpl Hr ltac:(nia) Hb) as [s' E].
    rewrite E. cbn [next_max]. rewrite Nat2Z.inj_succ, Z.pow_succ_r by lia.
    rewrite sint_id by (try lia; change (2 ^ (32 - 1)) with (2 ^ 31); nia). nia.
  Qed.

  Theorem grow_delivers v st p w ws r rs max : (v = 0 \/ v = 7 \/ v = 10) -> wf_resp p -> Forall plain (w :: ws) ->
    wb_recs w = r :: rs -> st <= sb_base (wb_h w) + sr_od r -> 0 < max < 2 ^ 31 -> need w r <= 2 ^ 30 ->
    exists n evs s',
      (forall k, (k < n)%nat -> exists s, fetch_round v st p (flat_map enc_wb (w :: ws)) (fetch_max k v st p (flat_map enc_wb (w :: ws)) max)
                   = Ok ([EvErr EMaxBytesTooSmall], s)) /\
      fetch_round v st p (flat_map enc_wb (w :: ws)) (fetch_max n v st p (flat_map enc_wb (w :: ws)) max)
        = Ok (EvMsg (pr_topic p) (pr_pid p) (exp_msg (wb_h w) r) :: evs, s').
  Proof.
    intros Hv Hp Hpl Hr Hst Hm Hn.
    assert (Hneed : 61 <= need w r) by (unfold need; pose proof (zlen_nonneg (enc_srecord r)); lia).
    (* the first n with max * 2^n >= need *)
    assert (Hex : exists n, need w r <= max * 2 ^ Z.of_nat n /\ (n = O \/ exists n', n = S n' /\ max * 2 ^ Z.of_nat n' < need w r)).
    { assert (Hbig : exists N, need w r <= max * 2 ^ Z.of_nat N).
      { exists 30%nat. change (2 ^ Z.of_nat 30) with (2 ^ 30). nia. }
      destruct Hbig as [N HN]. revert HN. induction N as [|N IH]; intros HN; [exists O; split; [exact HN|left; reflexivity]|].
      destruct (Z.le_gt_cases (need w r) (max * 2 ^ Z.of_nat N)) as [H|H]; [exact (IH H)|].
      exists (S N). split; [exact HN|]. right. exists N. split; [reflexivity|lia]. }
    destruct Hex as [n [Hge Hmin]]. exists n.
    assert (Hfm : forall k, (k <= n)%nat -> fetch_max k v st p (flat_map enc_wb (w :: ws)) max = max * 2 ^ Z.of_nat k).
    { destruct Hmin as [->|[n' [-> Hlt]]].
      - intros k Hk. assert (k = O) as -> by lia. cbn [fetch_max]. change (2 ^ Z.of_nat 0) with 1. lia.
      - intros k Hk. eapply grow_step with (n := n'); eauto; lia. }
    assert (P : 2 ^ 31 = 2 * 2 ^ 30) by reflexivity.
    assert (Hsmall : max * 2 ^ Z.of_nat n < 2 ^ 31).
    { destruct Hmin as [->|[n' [-> Hlt]]]; [change (2 ^ Z.of_nat 0) with 1; lia|].
      rewrite Nat2Z.inj_succ, Z.pow_succ_r by lia. nia. }
    assert (Hpos : 0 < 2 ^ Z.of_nat n) by (apply Z.pow_pos_nonneg; lia).
    destruct (round_large v st p w ws r rs (max * 2 ^ Z.of_nat n) Hv Hp Hpl Hr Hst ltac:(nia) Hge) as [evs [s' E]].
    exists evs, s'. split.
    - intros k Hk. rewrite Hfm by lia. destruct Hmin as [->|[n' [-> Hlt]]]; [lia|].
      assert (Hpow : 2 ^ Z.of_nat k <= 2 ^ Z.of_nat n') by (apply Z.pow_le_mono_r; lia).
      assert (Hpk : 0 < 2 ^ Z.of_nat k) by (apply Z.pow_pos_nonneg; lia).
      eapply round_small; eauto; nia.
    - rewrite Hfm by lia. exact E.
  Qed.
End Grow.
