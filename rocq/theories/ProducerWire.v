(** The bytes of a produced batch, and the hash. *)
From Verif Require Import Base BaseFacts Prims PrimsFacts Wire WireFacts Records RecordSpec RecordFacts DeliverFacts Requests RequestSpec RequestFacts RequestPrep Responses Producer ProducerSpec ProducerFacts.

Lemma records_spec ms : flat_map record_encode (map (fun m : message => new_record (fst m) (snd m)) ms) = flat_map enc_srecord (map spec_record ms).
Proof.
  induction ms as [|m ms IH]; [reflexivity|]. cbn [map flat_map]. rewrite IH. f_equal.
  rewrite record_encode_spec; [reflexivity|]. right. cbn. lia.
Qed.

(** the record set in a produce request *)
Lemma produce_size zip corr client g ts ms out r :
  prepare zip corr 9 (new_request client (produce_body g ts ms)) = Ok (out, r) ->
  exists b, batch_encode zip (createRecordBatch (g_magic g) (g_codec g) ts (map (fun m => new_record (fst m) (snd m)) ms)) = Ok b /\
  zlen b <= zlen out.
Proof.
  unfold prepare, new_request, produce_body, encode, headerVersion. cbn [h_hv h_key h_client h_ver api_key].
  change (hv_switch 0 9) with (Some 2). cbn [rbind encode_body]. intros H.
  unfold enc_produce in H. rb H w E. rb E w2 E2. rb E2 tb E3. apply Ok_inj in H. apply Ok_inj in E. apply Ok_inj in E2.
  apply (f_equal fst) in H. apply (f_equal fst) in E. cbn [fst] in H, E. assert (Ho : out = w2) by (transitivity (fst w); symmetry; assumption). clear H E. subst out w2. clear w.
  cbn [rcat] in E3. rb E3 x E4. apply Ok_inj in E3. subst tb. unfold Requests.pr_topic in E4. rb E4 ps E5. apply Ok_inj in E4. subst x.
  cbn [snd rcat] in E5. rb E5 x E6. apply Ok_inj in E5. subst ps. unfold pr_part in E6. rb E6 pl E7. apply Ok_inj in E6. subst x. cbn [snd batches] in E7.
  rb E7 b Hb. cbn [rbind] in E7. apply Ok_inj in E7. subst pl. exists b. split; [exact Hb|].
  rewrite !zlen_app. repeat match goal with |- context [zlen ?x] => lazymatch goal with H : 0 <= zlen x |- _ => fail | _ => pose proof (zlen_nonneg x) end end. lia.
Qed.

Lemma wire_batch_sized zip g st0 ops st evs a corr ts out rest :
  srun zip g st0 ops = Ok (st, evs) -> In a (flushes evs) -> t_wire a = Some (9, corr, ts, out) ->
  g_magic g = 2 -> 0 <= g_codec g <= 3 -> i16 (g_acks g) -> i32 (g_timeout g) -> i32 (g_part g) ->
  zlen (g_topic g) < 2 ^ 15 -> zlen (g_client g) < 2 ^ 15 -> i32 corr ->
  1 <= zlen (t_msgs a) < 2 ^ 31 -> zlen out < 2 ^ 31 - 1 ->
  exists payload, 61 + zlen payload <= zlen out /\
    (if g_codec g =? 0 then payload = flat_map enc_srecord (map spec_record (t_msgs a))
     else zip (g_codec g) (flat_map enc_srecord (map spec_record (t_msgs a))) = Ok payload) /\
    broker_reads 0 9 S_Produce_9 (out ++ rest) =
    Some (zlen out - 4, (0, 9, corr, Some (g_client g)),
          spec_request (g_topic g) (g_part g) (g_acks g) (g_timeout g)
            (enc_sbatch (spec_batch (g_codec g) ts (t_msgs a)) (zlen (t_msgs a)) payload), rest).
Proof.
  intros H Ha Hw Hm Hc Hac Hti Hpa Hto Hcl Hco Hn Hl.
  destruct (run_flushes _ _ _ _ _ _ _ H Ha) as (o & h & recs & _ & Hr).
  destruct (sflush_inv _ _ _ _ _ _ Hr) as (_ & _ & _ & X). destruct (X _ _ _ _ Hw) as (r & Hp). clear X Hr.
  set (ms := t_msgs a) in *. set (rs := map (fun m : message => new_record (fst m) (snd m)) ms) in *.
  set (bt := createRecordBatch (g_magic g) (g_codec g) ts rs) in *.
  assert (Hlr : zlen rs = zlen ms) by (unfold rs, zlen; rewrite map_length; reflexivity).
  assert (Hcc : Z.land (g_codec g) 3 = g_codec g).
  { change 3 with (Z.ones 2). rewrite Z.land_ones by lia. apply Z.mod_small. change (2 ^ 2) with 4. lia. }
  destruct (produce_size _ _ _ _ _ _ _ _ Hp) as (b & Eb & Hsz). change (batch_encode zip bt = Ok b) in Eb.
  assert (Hpay : exists payload, batch_payload zip (g_codec g) rs = Ok payload).
  { pose proof Eb as Y. unfold batch_encode in Y. cbn [createRecordBatch bt rb_attr rb_records] in Y. rb Y pl E. exists pl. exact E. }
  destruct Hpay as [payload Hpay].
  assert (Hlb : zlen b = 61 + zlen payload).
  { pose proof Eb as Y. unfold batch_encode in Y. cbn [createRecordBatch bt rb_attr rb_records] in Y. rewrite Hpay in Y.
    cbn [rbind] in Y. apply Ok_inj in Y. subst b. unfold batch_tail. rewrite !zlen_app, !zlen_be. lia. }
  assert (P32 : 2 ^ 32 = 2 * 2 ^ 31) by reflexivity.
  pose proof (zlen_nonneg payload).
  assert (Eb2 : b = enc_sbatch (spec_batch (g_codec g) ts ms) (zlen ms) payload).
  { apply Ok_inj. rewrite <- Eb. rewrite (batch_encode_spec zip bt payload); [|unfold bt; cbn [createRecordBatch rb_magic]; rewrite Hm; reflexivity|cbn [bt createRecordBatch rb_records]; lia|exact Hpay|lia].
    cbn [bt createRecordBatch rb_records]. rewrite Hlr. f_equal. unfold sb_of, spec_batch. cbn [rb_base rb_epoch rb_attr rb_lod rb_bts rb_mts rb_pid rb_pepoch rb_seq bt createRecordBatch].
    rewrite Hlr. rewrite (sint_id 32 (zlen ms)) by (try lia; change (2 ^ (32 - 1)) with (2 ^ 31); lia).
    rewrite sint_id by (try lia; change (2 ^ (32 - 1)) with (2 ^ 31); lia). reflexivity. }
  exists payload. split; [lia|]. split.
  { unfold batch_payload in Hpay. rewrite Hcc in Hpay. unfold rs in Hpay. rewrite records_spec in Hpay.
    destruct (g_codec g =? 0); [congruence|]. destruct (zip (g_codec g) _); [|discriminate..]. congruence. }
  rewrite <- Eb2.
  assert (Hpl : payloads zip [(g_topic g, [(g_part g, [bt])])] [(g_topic g, [(g_part g, b)])]).
  { constructor; [|constructor]. split; [reflexivity|]. constructor; [|constructor]. split; [reflexivity|]. exists [b].
    split; [constructor; [exact Eb|constructor]|]. cbn. rewrite app_nil_r. reflexivity. }
  assert (Hwf : wf S_Produce_9 (produce_value_9 None (g_acks g) (g_timeout g) [(g_topic g, [(g_part g, b)])])).
  { assert (Hb : zlen b < 2 ^ 31 - 1) by lia. clear -Hac Hti Hpa Hto Hb. unfold S_Produce_9, produce_value_9. cbn [wf fst snd map].
    assert (Ht : forall A (x : A), zlen [x] < 2 ^ 31 - 1) by (intros; reflexivity).
    assert (H0 : zlen (@nil (Z * bytes)) < 2 ^ 31 /\ Forall wf_tag []) by (split; [reflexivity|constructor]).
    refine (conj I (conj Hac (conj Hti (conj (conj (Ht _ _) (Forall_cons _ _ (Forall_nil _))) H0)))).
    refine (conj Hto (conj (conj (Ht _ _) (Forall_cons _ _ (Forall_nil _))) H0)).
    exact (conj Hpa (conj Hb H0)). }
  change (produce_body g ts ms) with (QProduce None (g_acks g) (g_timeout g) [(g_topic g, [(g_part g, [bt])])]) in Hp.
  rewrite (prepare_produce_9 _ _ _ _ _ _ _ _ Hpl Hwf) in Hp.
  assert (Eo : out = request_bytes (QProduce None (g_acks g) (g_timeout g) [(g_topic g, [(g_part g, [bt])])]) 9 corr (Some (g_client g))
                (V S_Produce_9 (produce_value_9 None (g_acks g) (g_timeout g) [(g_topic g, [(g_part g, b)])]))) by congruence.
  subst out.
  assert (H9 : i16 9) by (unfold i16; lia).
  refine (broker_reads_request (QProduce None (g_acks g) (g_timeout g) [(g_topic g, [(g_part g, [bt])])]) 9 corr (Some (g_client g))
    (V S_Produce_9 (produce_value_9 None (g_acks g) (g_timeout g) [(g_topic g, [(g_part g, b)])])) rest Hwf H9 Hco Hcl _). lia.
Qed.

Theorem wire_batch zip g st0 ops st evs a corr ts out rest :
  srun zip g st0 ops = Ok (st, evs) -> In a (flushes evs) -> t_wire a = Some (9, corr, ts, out) ->
  g_magic g = 2 -> 0 <= g_codec g <= 3 -> i16 (g_acks g) -> i32 (g_timeout g) -> i32 (g_part g) ->
  zlen (g_topic g) < 2 ^ 15 -> zlen (g_client g) < 2 ^ 15 -> i32 corr ->
  1 <= zlen (t_msgs a) < 2 ^ 31 -> zlen out < 2 ^ 31 - 1 ->
  exists payload,
    (if g_codec g =? 0 then payload = flat_map enc_srecord (map spec_record (t_msgs a))
     else zip (g_codec g) (flat_map enc_srecord (map spec_record (t_msgs a))) = Ok payload) /\
    broker_reads 0 9 S_Produce_9 (out ++ rest) =
    Some (zlen out - 4, (0, 9, corr, Some (g_client g)),
          spec_request (g_topic g) (g_part g) (g_acks g) (g_timeout g)
            (enc_sbatch (spec_batch (g_codec g) ts (t_msgs a)) (zlen (t_msgs a)) payload), rest).
Proof.
  intros H Ha Hw Hm Hc Hac Hti Hpa Hto Hcl Hco Hn Hl.
  destruct (wire_batch_sized zip g st0 ops st evs a corr ts out rest H Ha Hw Hm Hc Hac Hti Hpa Hto Hcl Hco Hn Hl) as (payload & _ & X).
  exists payload. exact X.
Qed.

(** ** The hash *)
Lemma lor_add a b k : 0 <= a < 2 ^ k -> 0 <= b -> 0 <= k -> Z.lor a (Z.shiftl b k) = a + 2 ^ k * b.
Proof.
  intros Ha Hb Hk. rewrite Z.shiftl_mul_pow2 by exact Hk. rewrite (Z.mul_comm b).
  assert (Hand : Z.land a (2 ^ k * b) = 0).
  { apply Z.bits_inj'. intros i Hi. rewrite Z.land_spec, Z.bits_0. destruct (Z.ltb_spec i k) as [X|X].
    - rewrite Z.mul_comm, Z.mul_pow2_bits_low by exact X. apply andb_false_r.
    - destruct (Z.eq_dec a 0) as [->|N]; [rewrite Z.testbit_0_l; reflexivity|].
      rewrite (Z.bits_above_log2 a i); [reflexivity|lia|].
      apply Z.log2_lt_pow2; [lia|]. eapply Z.lt_le_trans; [apply Ha|]. apply Z.pow_le_mono_r; lia. }
  pose proof (Z.add_nocarry_lxor _ _ Hand) as E. rewrite E. symmetry. apply Z.lxor_lor. exact Hand.
Qed.

Lemma shiftr_div x n : 0 <= n -> Z.shiftr x n = x / 2 ^ n.
Proof. apply Z.shiftr_div_pow2. Qed.
Lemma lxor_shift a b k : 0 <= a < 2 ^ k -> 0 <= b -> 0 <= k -> Z.lxor (Z.shiftl b k) a = a + 2 ^ k * b.
Proof.
  intros Ha Hb Hk. rewrite <- (lor_add a b k Ha Hb Hk), Z.lxor_comm. apply Z.lxor_lor.
  apply Z.bits_inj'. intros i Hi. rewrite Z.land_spec, Z.bits_0. destruct (Z.ltb_spec i k) as [X|X].
  - rewrite Z.shiftl_spec_low by exact X. apply andb_false_r.
  - destruct (Z.eq_dec a 0) as [->|N]; [rewrite Z.testbit_0_l; reflexivity|].
    rewrite (Z.bits_above_log2 a i); [reflexivity|lia|].
    apply Z.log2_lt_pow2; [lia|]. eapply Z.lt_le_trans; [apply Ha|]. apply Z.pow_le_mono_r; lia.
Qed.
Lemma word4 a b c e : byte_ok a -> byte_ok b -> byte_ok c -> byte_ok e ->
  Z.lor (Z.lor (Z.lor a (Z.shiftl b 8)) (Z.shiftl c 16)) (Z.shiftl e 24) = le_num [a; b; c; e].
Proof.
  unfold byte_ok. intros. rewrite (lor_add a b 8) by (try lia; change (2 ^ 8) with 256; lia). change (2 ^ 8) with 256.
  rewrite (lor_add _ c 16) by (try lia; change (2 ^ 16) with 65536; lia). change (2 ^ 16) with 65536.
  rewrite (lor_add _ e 24) by (try lia; change (2 ^ 24) with 16777216; lia). change (2 ^ 24) with 16777216. cbn [le_num fold_right]. lia.
Qed.

Fixpoint words4 (d : bytes) : list Z * bytes :=
  match d with
  | a :: b :: c :: e :: t => let r := words4 t in (le_num [a; b; c; e] :: fst r, snd r)
  | _ => ([], d)
  end.
Definition mround (h k : Z) : Z := Z.lxor (mul32 h M) (mul32 (xshift 24 (mul32 k M)) M).
Definition mfinish (h : Z) (rest : bytes) : Z := match rest with [] => h | _ => mul32 (Z.lxor h (le_num rest)) M end.
Lemma mix_spec k : mix k = mul32 (xshift 24 (mul32 k M)) M.
Proof. unfold mix. cbv zeta. rewrite shiftr_div by lia. reflexivity. Qed.
Lemma loop_words n : forall d h, (length d <= n)%nat -> bytes_ok d -> murmur_loop h d = mfinish (fold_left mround (fst (words4 d)) h) (snd (words4 d)).
Proof.
  induction n as [|n IH]; intros d h Hl Hb.
  - destruct d; [reflexivity|cbn in Hl; lia].
  - destruct d as [|a [|b [|c [|e t]]]]; unfold bytes_ok in Hb; rewrite ?Forall_cons_iff in Hb.
    + reflexivity.
    + cbn. unfold mul32, mm, M. rewrite Z.add_0_r. reflexivity.
    + cbn [words4 fst snd fold_left mfinish murmur_loop]. rewrite Z.lxor_assoc. rewrite (lxor_shift a b 8) by (unfold byte_ok in *; try lia; change (2 ^ 8) with 256; lia).
      unfold mul32, uint, mm, M. change (2 ^ 8) with 256. cbn [le_num fold_right]. do 3 f_equal. lia.
    + cbn [words4 fst snd fold_left mfinish murmur_loop]. rewrite !Z.lxor_assoc. rewrite (lxor_shift a b 8) by (unfold byte_ok in *; try lia; change (2 ^ 8) with 256; lia).
      change (2 ^ 8) with 256. rewrite (lxor_shift _ c 16) by (unfold byte_ok in *; try lia; change (2 ^ 16) with 65536; lia). change (2 ^ 16) with 65536.
      unfold mul32, uint, mm, M. cbn [le_num fold_right]. do 3 f_equal. lia.
    + cbn [words4 murmur_loop]. cbv zeta. cbn [fst snd fold_left]. destruct Hb as (Ha & Hb & Hc & He & Ht).
      rewrite word4 by assumption. rewrite mix_spec. rewrite IH; [reflexivity| cbn in Hl; lia|exact Ht].
Qed.
Lemma words4_spec n : forall d, (length d <= n)%nat ->
  words4 d = (map (fun i => le_num (firstn 4 (skipn (4 * i) d))) (seq 0 (length d / 4)), skipn (4 * (length d / 4)) d).
Proof.
  induction n as [|n IH]; intros d Hl.
  - destruct d; [reflexivity|cbn in Hl; lia].
  - destruct d as [|a [|b [|c [|e t]]]]; try reflexivity.
    cbn [words4]. cbv zeta. rewrite IH by (cbn in Hl; lia). cbn [fst snd].
    replace (length (a :: b :: c :: e :: t) / 4)%nat with (S (length t / 4)).
    2:{ cbn [length]. change (S (S (S (S (length t))))) with (4 + length t)%nat.
        replace (4 + length t)%nat with (1 * 4 + length t)%nat by lia. rewrite Nat.div_add_l by lia. lia. }
    cbn [seq map]. f_equal; [f_equal|].
    + rewrite <- seq_shift, map_map. apply map_ext. intros i. replace (4 * S i)%nat with (S (S (S (S (4 * i))))) by lia. reflexivity.
    + replace (4 * S (length t / 4))%nat with (S (S (S (S (4 * (length t / 4)))))) by lia. reflexivity.
Qed.
Theorem murmur_is_spec d : bytes_ok d -> MurmurHash2 d 0 = murmur_spec d.
Proof.
  intros Hb. unfold MurmurHash2, murmur_spec, murmur_spec_seed. rewrite (loop_words (length d) d _ (le_n _) Hb), (words4_spec (length d) d (le_n _)).
  cbv zeta. cbn [fst snd]. rewrite !shiftr_div by lia. unfold xshift, mul32, uint, mm, M, mfinish. reflexivity.
Qed.
Lemma lxor_range a b n : 0 <= n -> 0 <= a < 2 ^ n -> 0 <= b < 2 ^ n -> 0 <= Z.lxor a b < 2 ^ n.
Proof.
  intros Hn Ha Hb. assert (H0 : 0 <= Z.lxor a b) by (apply Z.lxor_nonneg; lia). split; [exact H0|].
  destruct (Z.eq_dec (Z.lxor a b) 0) as [->|N]; [lia|]. apply Z.log2_lt_pow2; [lia|].
  pose proof (Z.log2_lxor a b ltac:(lia) ltac:(lia)) as L.
  assert (forall x, 0 <= x < 2 ^ n -> Z.log2 x < n \/ x = 0) as X.
  { intros x Hx. destruct (Z.eq_dec x 0) as [->|Nx]; [right; reflexivity|left]. apply Z.log2_lt_pow2; lia. }
  destruct (X a Ha) as [Xa| ->], (X b Hb) as [Xb| ->]; rewrite ?Z.lxor_0_l, ?Z.lxor_0_r in *; try congruence; try lia.
Qed.
Lemma murmur_range d : 0 <= murmur_spec d < 2 ^ 32.
Proof.
  unfold murmur_spec, murmur_spec_seed. cbv zeta. match goal with |- 0 <= xshift 15 (mul32 ?a ?b) < _ => set (x := a) end.
  unfold xshift, mul32. assert (Hy : 0 <= (x * M) mod 2 ^ 32 < 2 ^ 32) by (apply Z.mod_pos_bound; lia).
  apply lxor_range; [lia|exact Hy|]. split; [apply Z.div_pos; lia|]. apply Z.div_lt_upper_bound; lia.
Qed.
