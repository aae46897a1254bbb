(** From the producer's records to the consumer's messages. *)
From Verif Require Import Base BaseFacts RecordSpec Records Fetch FetchSpec RecordFacts FetchFacts.

(** *** chunks: everything in one read *)
Lemma unsplit_one c cs pos len : (pos + len <= length c)%nat -> unsplit (c :: cs) pos len.
Proof.
  intros H. cbn [unsplit]. destruct (Nat.ltb_spec pos (length c)); [exact H|].
  assert (len = 0)%nat by lia. assert (pos - length c = 0)%nat by lia. subst len. rewrite H2. clear.
  induction cs as [|c cs IH]; cbn [unsplit]; [exact I|].
  destruct (Nat.ltb_spec 0 (length c)); [lia|]. exact IH.
Qed.
Lemma fields_ok_one : forall ls c cs pos, (pos + list_sum ls <= length c)%nat -> fields_ok (c :: cs) pos ls.
Proof.
  induction ls as [|l ls IH]; intros c cs pos H; cbn [fields_ok]; [exact I|].
  cbn [list_sum fold_right] in H. fold (list_sum ls) in H. split; [apply unsplit_one; lia|apply IH; lia].
Qed.
Lemma part_fields_sum v p : list_sum (part_fields v p) = length (enc_presp_part v 0 p).
Proof.
  unfold part_fields, enc_presp_part. destruct (v =? 0).
  - rewrite !app_length, !be_length. reflexivity.
  - unfold enc_aborted. destruct (pr_aborted p) as [l|].
    + rewrite !app_length, !be_length. rewrite !list_sum_app. cbn [list_sum fold_right].
      assert (E : length (flat_map (fun x : Z * Z => be 8 (fst x) ++ be 8 (snd x)) l) = list_sum (flat_map (fun _ => [8; 8]%nat) l)).
      { induction l as [|x l IH]; [reflexivity|]. cbn [flat_map]. rewrite list_sum_app, !app_length, !be_length, IH. reflexivity. }
      rewrite E. lia.
    + rewrite !app_length, !be_length. reflexivity.
Qed.
(** the response header and the partition header arrive in the first read *)
Lemma fields_first v p c cs : (length (enc_presp_head v p) + length (enc_presp_part v 0 p) <= length c)%nat ->
  fields_ok (c :: cs) (length (enc_presp_head v p)) (part_fields v p).
Proof. intros H. apply fields_ok_one. rewrite part_fields_sum. exact H. Qed.

Lemma Ok_inj {A} (a b : A) : Ok a = Ok b -> a = b.
Proof. congruence. Qed.

(** *** C06 *)
Lemma skipn_skipn' {A} a b (l : list A) : skipn a (skipn b l) = skipn (a + b) l.
Proof.
  revert l a; induction b as [|b IH]; intros l a; [rewrite Nat.add_0_r; reflexivity|].
  rewrite Nat.add_succ_r. destruct l as [|x l]; [rewrite skipn_nil; reflexivity|]. cbn [skipn]. apply IH.
Qed.
Lemma layout21 a l e m c (tail : bytes) :
  let out := be 8 a ++ be 4 l ++ be 4 e ++ be 1 m ++ be 4 c ++ tail in
  firstn 4 (skipn 8 out) = be 4 l /\ firstn 4 (skipn 17 out) = be 4 c /\ skipn 21 out = tail /\
  skipn 16 out = be 1 m ++ be 4 c ++ tail.
Proof. repeat split; reflexivity. Qed.
Lemma layout_tail a b c d e f g n (payload : bytes) :
  let t := be 2 a ++ be 4 b ++ be 8 c ++ be 8 d ++ be 8 e ++ be 2 f ++ be 4 g ++ be 4 n ++ payload in
  firstn 4 (skipn 2 t) = be 4 b /\ firstn 4 (skipn 36 t) = be 4 n /\ skipn 40 t = payload.
Proof. repeat split; reflexivity. Qed.
Lemma batch_layout zip b out : batch_encode zip b = Ok out -> zlen out < 2 ^ 32 -> zlen (rb_records b) < 2 ^ 31 ->
  unbe (firstn 4 (skipn 8 out)) = zlen out - 12 /\
  firstn 4 (skipn 17 out) = be 4 (crc32c (skipn 21 out)) /\
  unbe (firstn 4 (skipn 57 out)) = zlen (rb_records b) /\
  batch_payload zip (rb_attr b) (rb_records b) = Ok (skipn 61 out).
Proof.
  intros H Hl Hn. unfold batch_encode in H. destruct (batch_payload zip (rb_attr b) (rb_records b)) as [payload| | |] eqn:Ep; try discriminate.
  cbn [rbind] in H. apply Ok_inj in H. rename H into Ho. symmetry in Ho.
  assert (Htot : zlen out = 21 + zlen (batch_tail b payload)) by (rewrite Ho, !zlen_app, !zlen_be; lia).
  pose proof (layout21 (rb_base b) (uint 32 (8 + 4 + 4 + 1 + 4 + zlen (batch_tail b payload) - 12)) (rb_epoch b) (rb_magic b)
     (crc32c (batch_tail b payload)) (batch_tail b payload)) as L. cbv zeta in L. rewrite <- Ho in L. destruct L as [L1 [L2 [L3 _]]].
  pose proof (layout_tail (rb_attr b) (rb_lod b) (rb_bts b) (rb_mts b) (rb_pid b) (rb_pepoch b) (rb_seq b) (sint 32 (zlen (rb_records b))) payload) as M.
  cbv zeta in M. fold (batch_tail b payload) in M. destruct M as [_ [M1 M2]].
  pose proof (zlen_nonneg (batch_tail b payload)). pose proof (zlen_nonneg (rb_records b)).
  split; [|split; [|split]].
  - rewrite L1, Htot, unbe_be, uint_small by lia. change (256 ^ Z.of_nat 4) with (2 ^ 32). rewrite Z.mod_small by lia. lia.
  - rewrite L2, L3. reflexivity.
  - change 57%nat with (36 + 21)%nat. rewrite <- skipn_skipn', L3, M1.
    rewrite unbe_be. rewrite sint_id by (try lia; change (2 ^ (32 - 1)) with (2 ^ 31); lia).
    apply Z.mod_small. change (256 ^ Z.of_nat 4) with (2 * 2 ^ 31). lia.
  - change 61%nat with (40 + 21)%nat. rewrite <- skipn_skipn', L3, M2. reflexivity.
Qed.
Lemma batch_lod zip magic codec ts rs out :
  batch_encode zip (createRecordBatch magic codec ts rs) = Ok out -> 1 <= zlen rs < 2 ^ 31 ->
  unbe (firstn 4 (skipn 23 out)) = zlen rs - 1.
Proof.
  intros H Hn. set (b := createRecordBatch magic codec ts rs) in *. unfold batch_encode in H.
  destruct (batch_payload _ _ _) as [payload| | |]; try discriminate.
  cbn [rbind] in H. apply Ok_inj in H. rename H into Ho. symmetry in Ho.
  pose proof (layout21 (rb_base b) (uint 32 (8 + 4 + 4 + 1 + 4 + zlen (batch_tail b payload) - 12)) (rb_epoch b) (rb_magic b)
     (crc32c (batch_tail b payload)) (batch_tail b payload)) as L. cbv zeta in L. rewrite <- Ho in L. destruct L as [_ [_ [L3 _]]].
  pose proof (layout_tail (rb_attr b) (rb_lod b) (rb_bts b) (rb_mts b) (rb_pid b) (rb_pepoch b) (rb_seq b) (sint 32 (zlen (rb_records b))) payload) as M.
  cbv zeta in M. fold (batch_tail b payload) in M. destruct M as [M1 _].
  change 23%nat with (2 + 21)%nat. rewrite <- skipn_skipn', L3, M1. cbn [b createRecordBatch rb_lod].
  rewrite unbe_be. change (256 ^ Z.of_nat 4) with (2 * 2 ^ 31).
  rewrite (sint_id 32 (zlen rs)) by (try lia; change (2 ^ (32 - 1)) with (2 ^ 31); lia).
  rewrite sint_id by (try lia; change (2 ^ (32 - 1)) with (2 ^ 31); lia). apply Z.mod_small. lia.
Qed.

(** *** C05 *)
(** What the broker does to a batch it appends: it writes the base offset and the
    leader epoch, which the checksum does not cover. *)
Definition broker_assign (off epoch : Z) (b : bytes) : bytes :=
  be 8 off ++ firstn 4 (skipn 8 b) ++ be 4 epoch ++ skipn 16 b.

Definition produced (kv : option bytes * bytes) : Record := new_record (fst kv) (snd kv).
Definition kv_ok (kv : option bytes * bytes) : Prop := olen (fst kv) + zlen (snd kv) < 2 ^ 31 - 64.

Lemma varint_len x : zlen (varint x) <= 10.
Proof. unfold varint, uvarint. pose proof (uvarint_length (zigzag x)) as H. unfold uvarint in H. unfold zlen. lia. Qed.
Lemma produced_wf kv : kv_ok kv -> wf_srecord (to_spec (produced kv)).
Proof.
  destruct kv as [k v]. unfold kv_ok. cbn [fst snd]. intros H.
  pose proof (zlen_nonneg v). assert (Hk : 0 <= olen k) by (destruct k; cbn [olen]; [apply zlen_nonneg|lia]).
  unfold wf_srecord, to_spec, produced, new_record. cbn -[zlen enc_sbody Z.pow varint].
  repeat split; try (unfold i8, i32, i64; lia); try constructor.
  - destruct k; cbn [wf_vbytes olen] in *; [lia|exact I].
  - unfold enc_sbody. cbn [sr_attr sr_ts sr_od sr_key sr_value sr_headers flat_map]. rewrite !zlen_app, zlen_be. change (zlen (@nil Z)) with 0.
    pose proof (varint_len 0). pose proof (varint_len (zlen (@nil (bytes * option bytes)))).
    unfold enc_vbytes. rewrite zlen_app. pose proof (varint_len (zlen v)).
    destruct k as [k|]; cbn [olen] in *; [rewrite zlen_app; pose proof (varint_len (zlen k))|pose proof (varint_len (-1))]; lia.
Qed.

Section Codec.
  Variable unzip zip : Z -> bytes -> res bytes.
  Theorem produced_delivered codec ts off epoch kvs out v p start chunks rest fin :
    (v = 0 \/ v = 7 \/ v = 10) -> 0 <= codec <= 3 ->
    (forall b c, codec <> 0 -> zip codec b = Ok c -> unzip codec c = Ok b) ->
    i64 off -> i32 epoch -> 0 <= ts < 2 ^ 63 -> kvs <> [] -> Forall kv_ok kvs -> zlen kvs < 2 ^ 31 ->
    batch_encode zip (createRecordBatch 2 codec ts (map produced kvs)) = Ok out -> zlen out < 2 ^ 31 ->
    wf_presp p -> pr_records p = broker_assign off epoch out -> start <= off ->
    concat chunks = enc_presp v p ++ rest ->
    fields_ok chunks (length (enc_presp_head v p)) (part_fields v p) ->
    exists s', streamDecode unzip zip v start (zlen (enc_presp v p)) (mkStream chunks fin) =
      Ok (map (fun kv => EvMsg (pr_topic p) (pr_pid p)
                (mkMsg off 2 0 ts (nz (fst kv)) (nz (Some (snd kv))) [])) kvs, s') /\
      concat (st_chunks (d_in s')) = rest.
  Proof.
    intros Hv Hcodec Hz Hoff Hep Hts Hne Hkv Hn Hout Hol Hwf Hrec Hst Hch Hf.
    assert (Hpay : exists payload, batch_payload zip codec (map produced kvs) = Ok payload).
    { unfold batch_encode in Hout. cbn [createRecordBatch rb_attr rb_records] in Hout.
      destruct (batch_payload zip codec (map produced kvs)) as [payload| | |]; try discriminate. eexists; reflexivity. }
    destruct Hpay as [payload Hpay].
    assert (Hlr : zlen (map produced kvs) = zlen kvs) by (unfold zlen; rewrite map_length; reflexivity).
    assert (Hlout : zlen out = 61 + zlen payload).
    { unfold batch_encode in Hout. cbn [createRecordBatch rb_attr rb_records] in Hout. rewrite Hpay in Hout.
      cbn [rbind] in Hout. apply Ok_inj in Hout. subst out. unfold batch_tail. rewrite !zlen_app, !zlen_be. lia. }
    pose proof (zlen_nonneg payload) as Hp0. pose proof (zlen_nonneg kvs) as Hk0.
    assert (2 ^ 32 = 2 * 2 ^ 31) as P32 by reflexivity.
    rewrite batch_encode_spec with (payload := payload) in Hout; [|reflexivity|cbn [createRecordBatch rb_records]; lia|exact Hpay|lia].
    apply Ok_inj in Hout. cbn [createRecordBatch rb_records] in Hout. rewrite Hlr in Hout.
    set (h0 := sb_of (createRecordBatch 2 codec ts (map produced kvs))) in *.
    set (h := mkSBatch off epoch (sb_attr h0) (sb_lod h0) (sb_bts h0) (sb_mts h0) (sb_pid h0) (sb_pepoch h0) (sb_seq h0)).
    set (recs := map to_spec (map produced kvs)).
    assert (Hraw : flat_map record_encode (map produced kvs) = flat_map enc_srecord recs).
    { unfold recs. clear. induction kvs as [|kv kvs IH]; [reflexivity|]. cbn [map flat_map]. rewrite IH.
      rewrite record_encode_spec; [reflexivity|]. right. cbn. lia. }
    assert (Hlen : zlen recs = zlen kvs) by (unfold recs, zlen; rewrite !map_length; reflexivity).
    assert (Hb : broker_assign off epoch out = enc_wb (mkWB h recs payload)).
    { unfold enc_wb. cbn [wb_h wb_recs wb_payload]. rewrite Hlen. rewrite <- Hout. unfold enc_sbatch. cbv zeta.
      replace (enc_sbatch_tail h (zlen kvs) payload) with (enc_sbatch_tail h0 (zlen kvs) payload) by reflexivity.
      set (tl := enc_sbatch_tail h0 (zlen kvs) payload).
      pose proof (layout21 (sb_base h0) (zlen tl + 9) (sb_epoch h0) 2 (crc32c tl) tl) as L. cbv zeta in L. destruct L as [L1 [_ [_ L4]]].
      unfold broker_assign. rewrite L1, L4. reflexivity. }
    assert (Hwlod : i32 (sint 32 (sint 32 (zlen (map produced kvs)) - 1))).
    { rewrite Hlr. rewrite (sint_id 32 (zlen kvs)) by (try lia; change (2 ^ (32 - 1)) with (2 ^ 31); lia).
      rewrite sint_id by (try lia; change (2 ^ (32 - 1)) with (2 ^ 31); lia). unfold i32; lia. }
    assert (Hcd : wb_codec (mkWB h recs payload) = codec) by (unfold wb_codec; cbn; apply land7_id; lia).
    assert (Hwb : wf_wb unzip (mkWB h recs payload)).
    { split.
      - unfold wf_wb_common. cbn [wb_h wb_recs wb_payload]. repeat split; try assumption;
          try (unfold h, h0, sb_of, createRecordBatch; cbn [sb_base sb_epoch sb_attr sb_lod sb_bts sb_mts sb_pid sb_pepoch sb_seq rb_attr rb_lod rb_bts rb_mts rb_pid rb_pepoch rb_seq]; unfold i16, i32, i64 in *; lia).
        + unfold recs. rewrite !Forall_map. eapply Forall_impl; [|exact Hkv]. intros kv. apply produced_wf.
        + unfold recs. rewrite !Forall_map. apply Forall_forall. intros; apply to_spec_headers.
        + unfold recs. rewrite !Forall_map. apply Forall_forall. intros kv _. cbn. rewrite Z.add_0_r. exact Hoff.
        + rewrite Hcd. lia.
      - rewrite Hcd. cbn [wb_recs wb_payload].
        unfold batch_payload in Hpay. rewrite land73 in Hpay by (change (wb_codec (mkWB h recs payload) <= 3); lia). change (Z.land codec 7) with (wb_codec (mkWB h recs payload)) in Hpay. rewrite Hcd in Hpay.
        rewrite Hraw in Hpay. destruct (Z.eqb_spec codec 0) as [Hc|Hc]; [congruence|].
        assert (nonempty recs = true) as -> by (unfold recs; destruct kvs; [congruence|reflexivity]).
        destruct (zip codec (flat_map enc_srecord recs)) as [c| | |] eqn:Ez; try discriminate.
        injection Hpay as ->. apply Hz; assumption. }
    destruct (stream_decode_at unzip zip v start p (mkRS [mkWB h recs payload] None) rest chunks fin Hv Hwf) as [s' [E1 E2]].
    - split; [constructor; [exact Hwb|constructor]|exact I].
    - rewrite Hrec, Hb. unfold enc_rset. cbn [rs_whole rs_cut flat_map]. rewrite !app_nil_r. reflexivity.
    - exact Hch.
    - exact Hf.
    - exists s'. split; [|exact E2]. rewrite E1. do 2 f_equal. unfold exp_presp, exp_rset, exp_all. cbn [rs_whole rs_cut flat_map wb_h wb_recs].
      rewrite !app_nil_r. unfold exp_events.
      assert (Em : map (exp_msg h) recs = map (fun kv => mkMsg off 2 0 ts (nz (fst kv)) (nz (Some (snd kv))) []) kvs).
      { unfold recs. rewrite !map_map. apply map_ext. intros kv. unfold exp_msg. cbn. f_equal; [lia|].
        apply Z.mod_small. change (2 ^ 64) with (2 * 2 ^ 63). lia. }
      rewrite Em.
      assert (Ef : forall l : list (option bytes * bytes), filter (wanted start) (map (fun kv => mkMsg off 2 0 ts (nz (fst kv)) (nz (Some (snd kv))) []) l)
                   = map (fun kv => mkMsg off 2 0 ts (nz (fst kv)) (nz (Some (snd kv))) []) l).
      { induction l as [|x l IH]; [reflexivity|]. cbn [map filter]. unfold wanted at 1. cbn [m_offset].
        destruct (Z.leb_spec start off); [|lia]. f_equal. exact IH. }
      rewrite Ef, map_map. destruct kvs as [|kv kvs']; [congruence|]. reflexivity.
  Qed.

  (** any batch of records, headers and timestamps included *)
  Theorem records_delivered b out v p start chunks rest fin :
    (v = 0 \/ v = 7 \/ v = 10) ->
    Z.land (rb_attr b) 7 <= 3 -> (forall x c, Z.land (rb_attr b) 7 <> 0 -> zip (Z.land (rb_attr b) 7) x = Ok c -> unzip (Z.land (rb_attr b) 7) c = Ok x) ->
    rb_magic b = 2 -> wf_sbatch (sb_of b) -> rb_records b <> [] -> zlen (rb_records b) < 2 ^ 31 ->
    Forall (fun r => key_ok r /\ wf_record r /\ i64 (rb_base b + r_od r) /\ start <= rb_base b + r_od r) (rb_records b) ->
    batch_encode zip b = Ok out -> zlen out < 2 ^ 31 ->
    wf_presp p -> pr_records p = out ->
    concat chunks = enc_presp v p ++ rest ->
    fields_ok chunks (length (enc_presp_head v p)) (part_fields v p) ->
    exists s', streamDecode unzip zip v start (zlen (enc_presp v p)) (mkStream chunks fin) =
      Ok (map (fun r => EvMsg (pr_topic p) (pr_pid p)
                (mkMsg (rb_base b + r_od r) 2 (r_attr r) ((r_ts r + rb_bts b) mod 2 ^ 64)
                       (nz (r_key r)) (nz (r_value r)) (r_headers r))) (rb_records b), s') /\
      concat (st_chunks (d_in s')) = rest.
  Proof.
    intros Hv Hcd Hz Hm Hsb Hne Hn Hr Hout Hol Hwf Hrec Hch Hf.
    destruct (batch_payload zip (rb_attr b) (rb_records b)) as [payload| | |] eqn:Hpay;
      try (unfold batch_encode in Hout; rewrite Hpay in Hout; discriminate).
    assert (Hlout : zlen out = 61 + zlen payload).
    { unfold batch_encode in Hout. rewrite Hpay in Hout.
      cbn [rbind] in Hout. apply Ok_inj in Hout. subst out. unfold batch_tail. rewrite !zlen_app, !zlen_be. lia. }
    pose proof (zlen_nonneg payload) as Hp0.
    assert (2 ^ 32 = 2 * 2 ^ 31) as P32 by reflexivity.
    rewrite batch_encode_spec with (payload := payload) in Hout; [|assumption|lia|exact Hpay|lia].
    apply Ok_inj in Hout.
    set (recs := map to_spec (rb_records b)).
    assert (Hraw : flat_map record_encode (rb_records b) = flat_map enc_srecord recs).
    { unfold recs. clear - Hr. induction Hr as [|r l [Hk _] _ IH]; [reflexivity|]. cbn [map flat_map]. rewrite IH.
      rewrite record_encode_spec by exact Hk. reflexivity. }
    assert (Hlen : zlen recs = zlen (rb_records b)) by (unfold recs, zlen; rewrite !map_length; reflexivity).
    assert (Hwb : wf_wb unzip (mkWB (sb_of b) recs payload)).
    { split.
      - unfold wf_wb_common. cbn [wb_h wb_recs wb_payload].
        split; [exact Hsb|]. split; [|split; [|split; [|split; [lia|split; [lia|exact Hcd]]]]]; unfold recs; rewrite Forall_map; eapply Forall_impl; try exact Hr;
          cbv beta; intros r [K1 [K2 [K3 K4]]]; [exact K2|apply to_spec_headers|exact K3].
      - unfold wb_codec. cbn [wb_h sb_of sb_attr wb_recs wb_payload].
        unfold batch_payload in Hpay. cbv zeta in Hpay. rewrite (land73 _ Hcd), Hraw in Hpay.
        destruct (Z.eqb_spec (Z.land (rb_attr b) 7) 0) as [Hc|Hc]; [congruence|].
        assert (nonempty recs = true) as -> by (unfold recs; destruct (rb_records b); [congruence|reflexivity]).
        destruct (zip _ (flat_map enc_srecord recs)) as [c| | |] eqn:Ez; try discriminate.
        injection Hpay as ->. apply Hz; assumption. }
    destruct (stream_decode_at unzip zip v start p (mkRS [mkWB (sb_of b) recs payload] None) rest chunks fin Hv Hwf) as [s' [E1 E2]].
    - split; [constructor; [exact Hwb|constructor]|exact I].
    - rewrite Hrec, <- Hout. unfold enc_rset. cbn [rs_whole rs_cut flat_map]. rewrite !app_nil_r. unfold enc_wb. cbn [wb_h wb_recs wb_payload].
      rewrite Hlen. reflexivity.
    - exact Hch.
    - exact Hf.
    - exists s'. split; [|exact E2]. rewrite E1. do 2 f_equal. unfold exp_presp, exp_rset, exp_all. cbn [rs_whole rs_cut flat_map wb_h wb_recs].
      rewrite !app_nil_r. unfold exp_events.
      assert (Em : map (exp_msg (sb_of b)) recs = map (fun r => mkMsg (rb_base b + r_od r) 2 (r_attr r) ((r_ts r + rb_bts b) mod 2 ^ 64)
                       (nz (r_key r)) (nz (r_value r)) (r_headers r)) (rb_records b)).
      { unfold recs. rewrite map_map. apply map_ext. intros r. unfold exp_msg, to_spec, sb_of. cbn -[Z.pow]. f_equal.
        - destruct (r_value r) as [[|]|]; reflexivity.
        - rewrite map_map. rewrite <- (map_id (r_headers r)) at 2. apply map_ext. intros [x y]. reflexivity. }
      rewrite Em.
      assert (Ef : filter (wanted start) (map (fun r => mkMsg (rb_base b + r_od r) 2 (r_attr r) ((r_ts r + rb_bts b) mod 2 ^ 64)
                       (nz (r_key r)) (nz (r_value r)) (r_headers r)) (rb_records b))
                   = map (fun r => mkMsg (rb_base b + r_od r) 2 (r_attr r) ((r_ts r + rb_bts b) mod 2 ^ 64)
                       (nz (r_key r)) (nz (r_value r)) (r_headers r)) (rb_records b)).
      { clear - Hr. induction Hr as [|r l [_ [_ [_ K]]] _ IH]; [reflexivity|]. cbn [map filter]. unfold wanted at 1. cbn [m_offset].
        destruct (Z.leb_spec start (rb_base b + r_od r)); [|lia]. f_equal. exact IH. }
      rewrite Ef, map_map. destruct (rb_records b); [congruence|]. reflexivity.
  Qed.
End Codec.
