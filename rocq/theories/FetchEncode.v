(** FetchResponse.Encode (message_encode.go) against the stream decoder of fetch responses. *)
From Verif Require Import Base BaseFacts RecordSpec Records RecordFacts Fetch FetchSpec FetchFacts DeliverFacts FetchKeep FetchOld FetchGrow FetchRefute RespEncode.

(** fetch_response.go:15-29 PartitionResponse (RecordBatchesSize is not used) *)
Record PartResp := mkPartR {
  fp_pid : Z; fp_ec : Z; fp_hw : Z; fp_lso : Z; fp_start : Z; fp_aborted : list (Z * Z); fp_batches : list RecordBatch }.
(** fetch_response.go:31-37 FetchResponse; the map of responses is the list of its entries in
    the order of the iteration *)
Record FetchResp := mkFR {
  fr_corr : Z; fr_throttle : Z; fr_ec : Z; fr_session : Z; fr_topics : list (bytes * list PartResp) }.

Section Enc.
  Variable zip : Z -> bytes -> res bytes.
  (** message_encode.go:53-102: the size of the batches is filled in afterwards *)
  Definition enc_fpart (p : PartResp) : res bytes :=
    rbind (rcat (map (batch_encode zip) (fp_batches p))) (fun batches =>
    Ok (be 4 (fp_pid p) ++ be 2 (fp_ec p) ++ be 8 (fp_hw p) ++ be 8 (fp_lso p) ++ be 8 (fp_start p) ++
        be 4 (sint 32 (zlen (fp_aborted p))) ++ flat_map (fun x => be 8 (fst x) ++ be 8 (snd x)) (fp_aborted p) ++
        be 4 (uint 32 (zlen batches)) ++ batches)).
  (** message_encode.go:38-103 *)
  Definition enc_ftopic (t : bytes * list PartResp) : res bytes :=
    rcat ([Ok (be 2 (sint 16 (zlen (fst t)))); Ok (fst t); Ok (be 4 (sint 32 (zlen (snd t))))] ++ map enc_fpart (snd t)).
  (** message_encode.go:9-106: the same in every version; no length in front *)
  Definition enc_fetchresp (r : FetchResp) : res bytes :=
    rcat ([Ok (be 4 (fr_corr r)); Ok (be 4 (fr_throttle r)); Ok (be 2 (fr_ec r)); Ok (be 4 (fr_session r));
           Ok (be 4 (sint 32 (zlen (fr_topics r))))] ++ map enc_ftopic (fr_topics r)).
End Enc.

(** what the records of a batch are for the consumer *)
Definition record_event (topic : bytes) (pid : Z) (b : RecordBatch) (r : Records.Record) : event :=
  EvMsg topic pid (mkMsg (rb_base b + r_od r) 2 (r_attr r) ((r_ts r + rb_bts b) mod 2 ^ 64) (nz (r_key r)) (nz (r_value r)) (r_headers r)).
Definition good_batch (unzip zip : Z -> bytes -> res bytes) (start : Z) (b : RecordBatch) : Prop :=
  (Z.land (rb_attr b) 7 <= 3 /\ forall x c, Z.land (rb_attr b) 7 <> 0 -> zip (Z.land (rb_attr b) 7) x = Ok c -> unzip (Z.land (rb_attr b) 7) c = Ok x) /\
  rb_magic b = 2 /\ wf_sbatch (sb_of b) /\ rb_records b <> [] /\ zlen (rb_records b) < 2 ^ 31 /\
  Forall (fun r => key_ok r /\ wf_record r /\ i64 (rb_base b + r_od r) /\ start <= rb_base b + r_od r) (rb_records b).

Section Facts.
  Variable unzip zip : Z -> bytes -> res bytes.
  Lemma batch_wire start b out : good_batch unzip zip start b -> batch_encode zip b = Ok out -> zlen out < 2 ^ 31 ->
    exists w, out = enc_wb w /\ wf_wb unzip w /\ wb_h w = sb_of b /\ wb_recs w = map to_spec (rb_records b).
  Proof.
    intros ((Hcd & Hz) & Hm & Hsb & Hne & Hn & Hr) Hout Hol.
    destruct (batch_payload zip (rb_attr b) (rb_records b)) as [payload| | |] eqn:Hpay;
      try (unfold batch_encode in Hout; rewrite Hpay in Hout; discriminate).
    assert (Hlout : zlen out = 61 + zlen payload).
    { unfold batch_encode in Hout. rewrite Hpay in Hout.
      cbn [rbind] in Hout. apply Ok_inj in Hout. subst out. unfold batch_tail. rewrite !zlen_app, !zlen_be. lia. }
    pose proof (zlen_nonneg payload) as Hp0. assert (2 ^ 32 = 2 * 2 ^ 31) as P32 by reflexivity.
    rewrite batch_encode_spec with (payload := payload) in Hout; [|assumption|lia|exact Hpay|lia]. apply Ok_inj in Hout.
    set (recs := map to_spec (rb_records b)).
    assert (Hraw : flat_map record_encode (rb_records b) = flat_map enc_srecord recs).
    { unfold recs. clear - Hr. induction Hr as [|r l [Hk _] _ IH]; [reflexivity|]. cbn [map flat_map]. rewrite IH.
      rewrite record_encode_spec by exact Hk. reflexivity. }
    assert (Hlen : zlen recs = zlen (rb_records b)) by (unfold recs, zlen; rewrite !map_length; reflexivity).
    exists (mkWB (sb_of b) recs payload). split; [|split; [|split; reflexivity]].
    - subst out. unfold enc_wb. cbn [wb_h wb_recs wb_payload]. rewrite Hlen. reflexivity.
    - split.
      + unfold wf_wb_common. cbn [wb_h wb_recs wb_payload].
        split; [exact Hsb|]. split; [|split; [|split; [|split; [lia|split; [lia|exact Hcd]]]]]; unfold recs; rewrite Forall_map; eapply Forall_impl; try exact Hr;
          cbv beta; intros r [K1 [K2 [K3 K4]]]; [exact K2|apply to_spec_headers|exact K3].
      + unfold wb_codec. cbn [wb_h sb_of sb_attr wb_recs wb_payload].
        unfold batch_payload in Hpay. cbv zeta in Hpay. rewrite (land73 _ Hcd), Hraw in Hpay.
        destruct (Z.eqb_spec (Z.land (rb_attr b) 7) 0) as [Hc|Hc]; [congruence|].
        assert (nonempty recs = true) as -> by (unfold recs; destruct (rb_records b); [congruence|reflexivity]).
        destruct (zip _ (flat_map enc_srecord recs)) as [c| | |] eqn:Ez; try discriminate.
        injection Hpay as ->. apply Hz; assumption.
  Qed.

  Definition batch_events (topic : bytes) (pid : Z) (b : RecordBatch) : list event := map (record_event topic pid b) (rb_records b).
  Lemma batch_events_exp start topic pid b w : Forall (fun r => start <= rb_base b + r_od r) (rb_records b) ->
    wb_h w = sb_of b -> wb_recs w = map to_spec (rb_records b) ->
    exp_events topic pid start (wb_h w) (wb_recs w) = batch_events topic pid b.
  Proof.
    intros Hs Hh Hr. unfold exp_events, batch_events. rewrite Hh, Hr, map_map. rewrite <- map_map.
    assert (Em : forall r, exp_msg (sb_of b) (to_spec r) = mkMsg (rb_base b + r_od r) 2 (r_attr r) ((r_ts r + rb_bts b) mod 2 ^ 64)
                       (nz (r_key r)) (nz (r_value r)) (r_headers r)).
    { intros r. unfold exp_msg, to_spec, sb_of. cbn -[Z.pow]. f_equal.
      - destruct (r_value r) as [[|]|]; reflexivity.
      - rewrite map_map. rewrite <- (map_id (r_headers r)) at 2. apply map_ext. intros [x y]. reflexivity. }
    rewrite map_map. clear Hh Hr. induction Hs as [|r l H _ IH]; [reflexivity|]. cbn [map filter]. rewrite Em. unfold wanted at 1. cbn [m_offset].
    destruct (Z.leb_spec start (rb_base b + r_od r)); [|lia]. cbn [map]. f_equal. exact IH.
  Qed.
  Lemma batches_wire start bs : forall out, Forall (good_batch unzip zip start) bs -> rcat (map (batch_encode zip) bs) = Ok out -> zlen out < 2 ^ 31 ->
    exists ws, out = flat_map enc_wb ws /\ Forall (wf_wb unzip) ws /\
      forall topic pid, exp_all topic pid start ws = flat_map (batch_events topic pid) bs.
  Proof.
    induction bs as [|b bs IH]; intros out H E Hl.
    - injection E as <-. exists []. repeat split; constructor.
    - inversion H as [|? ? Hb Hbs]; subst. cbn [map rcat] in E. destruct (batch_encode zip b) as [o1| | |] eqn:E1; cbn [rbind] in E; try discriminate.
      destruct (rcat (map (batch_encode zip) bs)) as [o2| | |] eqn:E2; cbn [rbind] in E; try discriminate. apply Ok_inj in E. subst out.
      rewrite zlen_app in Hl. pose proof (zlen_nonneg o1). pose proof (zlen_nonneg o2).
      destruct (batch_wire start b o1 Hb E1 ltac:(lia)) as (w & -> & Hw & Hh & Hr).
      destruct (IH o2 Hbs eq_refl ltac:(lia)) as (ws & -> & Hws & Hev). exists (w :: ws). split; [reflexivity|]. split; [constructor; assumption|].
      intros topic pid. unfold exp_all. cbn [flat_map]. f_equal; [|apply Hev]. apply batch_events_exp; [|exact Hh|exact Hr].
      destruct Hb as (_ & _ & _ & _ & _ & K). eapply Forall_impl; [|exact K]. intros r (_ & _ & _ & Q). exact Q.
  Qed.
  (** one topic with one partition; nothing is left of the response afterwards *)
  Theorem fetchresp_read v start corr throttle session topic part out fin :
    v = 7 \/ v = 10 -> fp_ec part = 0 -> zlen topic < 2 ^ 15 -> i32 (fp_pid part) -> zlen (fp_aborted part) < 2 ^ 31 ->
    Forall (good_batch unzip zip start) (fp_batches part) ->
    enc_fetchresp zip (mkFR corr throttle 0 session [(topic, [part])]) = Ok out -> zlen out < 2 ^ 31 ->
    exists s', streamDecode unzip zip v start (zlen out) (mkStream [out] fin) = Ok (flat_map (batch_events topic (fp_pid part)) (fp_batches part), s') /\
      concat (st_chunks (d_in s')) = [].
  Proof.
    intros Hv Hec Ht Hp Ha Hb E Hl. unfold enc_fetchresp, enc_ftopic, enc_fpart in E. cbn [fr_corr fr_throttle fr_ec fr_session fr_topics map app rcat rbind fst snd] in E.
    destruct (rcat (map (batch_encode zip) (fp_batches part))) as [recs| | |] eqn:Er; cbn [rbind] in E; try discriminate. apply Ok_inj in E.
    set (p := mkPR corr throttle session topic (fp_pid part) (fp_hw part) (fp_lso part) (fp_start part) (Some (fp_aborted part)) recs).
    pose proof (zlen_nonneg topic). pose proof (zlen_nonneg (fp_aborted part)).
    assert (Eo : out = enc_presp v p).
    { rewrite <- E. unfold enc_presp, enc_presp_head, enc_presp_part, p, enc_aborted. cbn [pr_corr pr_throttle pr_session pr_topic pr_pid pr_hw pr_lso pr_logstart pr_aborted pr_records].
      assert ((v =? 0) = false) as -> by (destruct Hv as [-> | ->]; reflexivity).
      rewrite Hec, be4_uint, !sint_id by (try (change (zlen [part]) with 1); try (change (zlen [(topic, [part])]) with 1); lia).
      change (zlen [part]) with 1. change (zlen [(topic, [part])]) with 1. rewrite ?app_nil_r, <- !app_assoc. reflexivity. }
    assert (Hrl : zlen recs < 2 ^ 31).
    { rewrite Eo in Hl. unfold enc_presp in Hl. rewrite !zlen_app in Hl. cbn [p pr_records] in Hl.
      pose proof (zlen_nonneg (enc_presp_head v p)). pose proof (zlen_nonneg (enc_presp_part v 0 p)). unfold p in *. lia. }
    destruct (batches_wire start (fp_batches part) recs Hb Er Hrl) as (ws & Ew & Hws & Hev).
    destruct (stream_first_read unzip zip v start p (mkRS ws None) [] out [] fin) as (s' & D & C).
    - destruct Hv as [-> | ->]; auto.
    - unfold wf_presp, p. cbn [pr_topic pr_pid pr_aborted pr_records]. auto.
    - split; [exact Hws|exact I].
    - unfold enc_rset. cbn [rs_whole rs_cut p pr_records]. rewrite app_nil_r. exact Ew.
    - cbn [concat]. rewrite !app_nil_r. exact Eo.
    - rewrite <- Eo. pose proof (zlen_nonneg (pr_records p)). lia.
    - rewrite <- Eo in D. exists s'. split; [|exact C]. rewrite D. do 2 f_equal.
      unfold exp_presp, exp_rset. cbn [rs_whole rs_cut]. rewrite app_nil_r. cbn [p pr_topic pr_pid]. rewrite Hev.
      destruct (fp_batches part) as [|b bs] eqn:Ebs.
      + cbn [map rcat] in Er. injection Er as <-. unfold enc_rset. cbn [rs_whole rs_cut]. rewrite <- Ew. reflexivity.
      + inversion Hb as [|? ? (_ & _ & _ & Hne & _) _]; subst. cbn [flat_map batch_events]. unfold batch_events at 1 2. destruct (rb_records b) as [|r0 rs0]; [congruence|].
        reflexivity.
  Qed.
End Facts.
