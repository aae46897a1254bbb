From Verif Require Import Base BaseFacts Prims Wire RequestSpec RecordSpec Records RecordFacts DeliverFacts RequestPrep Requests Responses Producer ProducerSpec ProducerFacts ProducerWire ProducerRefute BulkSpec.

Lemma record_size m : msg_size m <= zlen (enc_srecord (spec_record m)).
Proof.
  destruct m as [k v]. unfold enc_srecord, msg_size, spec_record, enc_sbody. cbn [fst snd sr_attr sr_ts sr_od sr_key sr_value sr_headers].
  rewrite !zlen_app. unfold enc_vbytes. destruct k; rewrite ?zlen_app;
  repeat match goal with |- context [zlen ?x] => lazymatch goal with H : 0 <= zlen x |- _ => fail | _ => pose proof (zlen_nonneg x) end end; rewrite ?zlen_nil in *; lia.
Qed.
Lemma records_size ms : total ms <= zlen (flat_map enc_srecord (map spec_record ms)).
Proof.
  induction ms as [|m ms IH]; [reflexivity|]. cbn [map flat_map total fold_right]. rewrite zlen_app.
  pose proof (record_size m). unfold total in IH. lia.
Qed.
Lemma request_size zip g corr client ts ms out r : Z.land (g_codec g) 3 = 0 ->
  prepare zip corr 9 (new_request client (produce_body g ts ms)) = Ok (out, r) -> 61 + total ms <= zlen out.
Proof.
  intros Hc Hp. destruct (produce_size _ _ _ _ _ _ _ _ Hp) as (b & Eb & Hsz).
  unfold batch_encode in Eb. cbn [createRecordBatch rb_attr rb_records] in Eb. unfold batch_payload in Eb. rewrite Hc in Eb. cbn [Z.eqb rbind] in Eb.
  apply Ok_inj in Eb. rewrite records_spec in Eb. rewrite <- Eb in Hsz. unfold batch_tail in Hsz. rewrite !zlen_app, !zlen_be in Hsz.
  pose proof (records_size ms). lia.
Qed.
Lemma prepared zip g corr client ts ms : Z.land (g_codec g) 3 = 0 ->
  exists w, prepare zip corr 9 (new_request client (produce_body g ts ms)) = Ok w.
Proof.
  intros Hc. unfold prepare, new_request, produce_body, encode, headerVersion. cbn [h_hv h_key h_client h_ver api_key].
  change (hv_switch 0 9) with (Some 2). cbn [rbind encode_body]. unfold enc_produce. cbn [rcat]. unfold Requests.pr_topic. cbn [snd rcat]. unfold pr_part. cbn [snd batches].
  unfold batch_encode. cbn [createRecordBatch rb_attr rb_records]. unfold batch_payload. rewrite Hc. cbn [Z.eqb rbind]. eexists. reflexivity.
Qed.
Lemma wire_size zip g st0 ops st evs a corr ts out : srun zip g st0 ops = Ok (st, evs) -> In a (flushes evs) ->
  t_wire a = Some (9, corr, ts, out) -> Z.land (g_codec g) 3 = 0 -> 61 + total (t_msgs a) <= zlen out.
Proof.
  intros H Ha Hw Hc. destruct (run_flushes _ _ _ _ _ _ _ H Ha) as (o & h & recs & _ & Hr).
  destruct (sflush_inv _ _ _ _ _ _ Hr) as (_ & _ & _ & X). destruct (X _ _ _ _ Hw) as (r & Hp). exact (request_size _ _ _ _ _ _ _ _ Hc Hp).
Qed.
Lemma count_only zip g h n k v s s' e a : sadd zip g h n k v s = Ok (s', e, a) -> s_closed s = false ->
  (a <> None <-> g_max g <= zlen (s_recs s) + 1).
Proof.
  intros H Hc. destruct (sadd_inv _ _ _ _ _ _ _ _ _ _ H) as (_ & _ & [(C & _)|(_ & _ & [(-> & R & L)|(t & -> & _ & L & _)])]).
  - congruence.
  - rewrite R, zlen_app in L. cbn [zlen length Z.of_nat] in L. split; [congruence|]. change (zlen [mkP k (oget h v)]) with 1 in L. lia.
  - split; [intros _; exact L|discriminate].
Qed.
Lemma any_size n : 0 <= n -> exists st evs a corr ts out,
  srun zx (gx 2) ([repeat 0 (Z.to_nat n)], sp0) [(OAdd None (Some 0%nat), good); (OAdd None (Some 0%nat), good)] = Ok (st, evs) /\
  flushes evs = [a] /\ map msg_size (t_msgs a) = [n; n] /\ t_wire a = Some (9, corr, ts, out) /\ 2 * n < zlen out.
Proof.
  intros Hn. set (v := repeat 0 (Z.to_nat n)). assert (Hv : zlen v = n) by (unfold v, zlen; rewrite repeat_length; lia).
  destruct (prepared zx (gx 2) 7 (Some [99]) 1000 [(None, v); (None, v)] eq_refl) as [[out r] Hp].
  pose proof (request_size zx (gx 2) 7 (Some [99]) 1000 [(None, v); (None, v)] out r eq_refl Hp) as Hs.
  clearbody v. set (a := mkAtt [(None, v); (None, v)] (Some (9, 7, 1000, out)) None).
  assert (Hf : sflush zx (gx 2) [v] good [mkP None v; mkP None v] = Ok a).
  { destruct good_succeeds as (ver & corr & ts & raw & rr & Eg & Ea). rewrite Eg.
    assert (Ev : ver = 9 /\ corr = 7 /\ ts = 1000) by (unfold good in Eg; inversion Eg; auto). destruct Ev as (-> & -> & ->). clear Eg.
    unfold sflush. change (negb (g_leader (gx 2))) with false. cbv iota zeta. change (map (deref [v]) _) with [(@None bytes, v); (@None bytes, v)].
    change (g_client (gx 2)) with [99]. rewrite Hp. cbn [rbind fst]. rewrite Ea. reflexivity. }
  assert (H2 : sstep zx (gx 2) ([v], mkSP [mkP None v] false true) (OAdd None (Some 0%nat), good) =
     Ok (([v], mkSP [] false true), mkEv (OAdd None (Some 0%nat)) None v None (Some a))).
  { cbn [sstep]. unfold sadd. cbn [s_closed s_recs app oget buf nth]. change (g_max (gx 2) <=? zlen [mkP None v; mkP None v]) with true.
    cbv iota zeta. rewrite Hf. reflexivity. }
  do 2 eexists. exists a, 7, 1000, out. cbn [srun].
  change (sstep zx (gx 2) ([v], sp0) (OAdd None (Some 0%nat), good)) with
    (Ok (([v], mkSP [mkP None v] false true), mkEv (OAdd None (Some 0%nat)) None v None None)).
  cbn [rbind fst snd]. rewrite H2. cbn [rbind fst snd]. split; [reflexivity|]. split; [reflexivity|].
  unfold total, msg_size in *. cbn [a t_msgs t_wire map fst snd fold_right] in *. rewrite !zlen_nil in *.
  split; [rewrite Z.add_0_l, Hv; reflexivity|]. split; [reflexivity|lia].
Qed.
