From Verif Require Import Base BaseFacts RecordSpec Records Fetch FetchSpec.

Lemma get_uvarint_cut : forall f x i acc k,
  (i + f <= 10)%nat -> 0 <= x -> (k < length (put_uvarint f x))%nat ->
  get_uvarint_at i (firstn k (put_uvarint f x)) acc = Some (0, O).
Proof.
  induction f as [|f IH]; intros x i acc k Hi Hx Hk; cbn [put_uvarint length] in *; [lia|].
  destruct (Z.ltb_spec x 128) as [H|H]; cbn [length] in *.
  - assert (k = O) by lia. subst. reflexivity.
  - destruct k as [|k]; [reflexivity|]. cbn [firstn get_uvarint_at].
    destruct (Nat.eqb_spec i 10); [lia|].
    destruct (Z.ltb_spec (x mod 128 + 128) 128); [lia|].
    apply IH; try lia.
Qed.

Definition of_spec (s : srecord) : Record :=
  mkRec (sr_attr s) (sr_ts s) (sr_od s) (nz (sr_key s)) (nz (sr_value s)) (map of_header (sr_headers s)).
Lemma zlen_i64 {A} (b : list A) : zlen b < 2 ^ 31 -> i64 (zlen b).
Proof. intros H. pose proof (zlen_nonneg b). unfold i64.
  assert (2 ^ 31 < 2 ^ 63) by (apply Z.pow_lt_mono_r; lia). lia. Qed.

Lemma rd_vbytes_enc o r : wf_vbytes o -> rd_vbytes (enc_vbytes o ++ r) = Ok (nz o, r).
Proof.
  intros H. unfold rd_vbytes, enc_vbytes. destruct o as [b|]; cbn [wf_vbytes] in H.
  - rewrite <- app_assoc. erewrite bind_ok by (apply rd_varint_app, zlen_i64, H).
    destruct b as [|x b]; [reflexivity|].
    destruct (Z.ltb_spec 0 (zlen (x :: b))) as [_|Hn]; [|rewrite zlen_cons in Hn; pose proof (zlen_nonneg b); lia].
    erewrite bind_ok by apply rd_bytes_app. reflexivity.
  - erewrite bind_ok by (apply rd_varint_app; unfold i64; lia). reflexivity.
Qed.
Lemma rd_header_enc h r : wf_sheader h -> snd h <> None -> rd_header (enc_sheader h ++ r) = Ok (of_header h, r).
Proof.
  intros [Hk Hv] Hn. destruct h as [k [v|]]; cbn [fst snd wf_vbytes] in *; [|congruence].
  unfold rd_header, enc_sheader, enc_vbytes, of_header. cbn [fst snd obytes]. rewrite <- !app_assoc.
  erewrite bind_ok by (apply rd_varint_app, zlen_i64, Hk).
  erewrite bind_ok by apply rd_bytes_app.
  erewrite bind_ok by (apply rd_varint_app, zlen_i64, Hv).
  erewrite bind_ok by apply rd_bytes_app. reflexivity.
Qed.
Lemma rd_header_null k r : zlen k < 2 ^ 31 -> rd_header (enc_sheader (k, None) ++ r) = Panic.
Proof.
  intros Hk. unfold rd_header, enc_sheader, enc_vbytes. cbn [fst snd]. rewrite <- !app_assoc.
  erewrite bind_ok by (apply rd_varint_app, zlen_i64, Hk).
  erewrite bind_ok by apply rd_bytes_app.
  erewrite bind_ok by (apply rd_varint_app; unfold i64; lia). reflexivity.
Qed.

Lemma rd_record_body_enc s r : wf_srecord s -> headers_present s ->
  rd_record_body (enc_sbody s ++ r) = Ok (of_spec s, r).
Proof.
  intros [Ha [Ht [Ho [Hk [Hv [Hn [Hh Hb]]]]]]] Hp. unfold rd_record_body, enc_sbody.
  rewrite <- !app_assoc.
  erewrite bind_ok by (apply rd_i8_be; exact Ha).
  erewrite bind_ok by (apply rd_varint_app; exact Ht).
  erewrite bind_ok by (apply rd_varint_app; unfold i32, i64 in *; assert (2 ^ 31 < 2 ^ 63) by (apply Z.pow_lt_mono_r; lia); lia).
  erewrite bind_ok by (apply rd_vbytes_enc; exact Hk).
  erewrite bind_ok by (apply rd_vbytes_enc; exact Hv).
  erewrite bind_ok by (apply rd_varint_app, zlen_i64, Hn).
  erewrite bind_ok.
  2:{ apply (rd_make_map rd_header enc_sheader of_header). intros x r' Hx.
      unfold headers_present in Hp. rewrite Forall_forall in Hh, Hp. apply rd_header_enc; auto. }
  unfold of_spec, ret. rewrite (sint_id 32); [reflexivity|lia|exact Ho].
Qed.

Lemma enc_sbody_pos s : 0 < zlen (enc_sbody s).
Proof. unfold enc_sbody. rewrite zlen_app, zlen_be. pose proof (zlen_nonneg (varint (sr_ts s) ++ varint (sr_od s) ++ enc_vbytes (sr_key s) ++ enc_vbytes (sr_value s)
  ++ varint (zlen (sr_headers s)) ++ flat_map enc_sheader (sr_headers s))). lia. Qed.

Lemma decodeToRecord_enc s r : wf_srecord s -> headers_present s ->
  decodeToRecord (enc_srecord s ++ r) = Ok (of_spec s, r).
Proof.
  intros Hw Hp. unfold decodeToRecord, enc_srecord. rewrite <- app_assoc.
  assert (Hb : zlen (enc_sbody s) < 2 ^ 31) by (destruct Hw as [_ [_ [_ [_ [_ [_ [_ Hb]]]]]]]; exact Hb).
  unfold varint. rewrite get_uvarint_app by (apply zigzag_range, zlen_i64, Hb).
  rewrite skipn_app_exact by reflexivity. rewrite unzigzag_zigzag.
  pose proof (enc_sbody_pos s). pose proof (zlen_nonneg r).
  destruct (Z.eqb_spec (zlen (enc_sbody s)) 0); [lia|].
  rewrite zlen_app. destruct (Z.ltb_spec (zlen (enc_sbody s) + zlen r) (zlen (enc_sbody s))); [lia|].
  cbn [orb]. apply rd_record_body_enc; assumption.
Qed.

(** a record cut anywhere is recognised as incomplete *)
Lemma decodeToRecord_cut s k : wf_srecord s -> (k < length (enc_srecord s))%nat ->
  decodeToRecord (firstn k (enc_srecord s)) = Err EUncomplete.
Proof.
  intros Hw Hk.
  assert (Hb : zlen (enc_sbody s) < 2 ^ 31) by (destruct Hw as [_ [_ [_ [_ [_ [_ [_ Hb]]]]]]]; exact Hb).
  unfold decodeToRecord, enc_srecord in *. rewrite app_length in Hk. rewrite firstn_app.
  set (L := varint (zlen (enc_sbody s))) in *.
  destruct (Nat.ltb_spec k (length L)) as [H|H].
  - replace (k - length L)%nat with O by lia. rewrite firstn_O, app_nil_r.
    assert (0 <= zigzag (zlen (enc_sbody s))).
    { unfold zigzag. pose proof (zlen_nonneg (enc_sbody s)). destruct (Z.ltb_spec (zlen (enc_sbody s)) 0); lia. }
    assert (E : get_uvarint (firstn k L) = Some (0, O)) by (apply get_uvarint_cut; [lia|assumption|exact H]).
    rewrite E. reflexivity.
  - rewrite firstn_all2 by lia. unfold L, varint.
    rewrite get_uvarint_app by (apply zigzag_range, zlen_i64, Hb).
    rewrite skipn_app_exact by reflexivity. rewrite unzigzag_zigzag.
    destruct (Z.eqb_spec (zlen (enc_sbody s)) 0); [reflexivity|]. cbn [orb].
    fold (varint (zlen (enc_sbody s))). fold L.
    destruct (Z.ltb_spec (zlen (firstn (k - length L) (enc_sbody s))) (zlen (enc_sbody s))); [reflexivity|].
    unfold zlen in *. rewrite firstn_length in *. lia.
Qed.

(** The encoder against the format.  [key_ok]: either there is a key or the offset
    delta takes one byte. *)
Definition to_spec (r : Record) : srecord :=
  mkSRec (r_attr r) (r_ts r) (r_od r) (r_key r) (Some (obytes (r_value r)))
    (map (fun h => (fst h, Some (snd h))) (r_headers r)).
Definition key_ok (r : Record) : Prop := r_key r <> None \/ -64 <= r_od r < 64.

Lemma varint_one x : -64 <= x < 64 -> length (varint x) = 1%nat.
Proof.
  intros H. unfold varint, uvarint, zigzag. cbn [put_uvarint].
  destruct (Z.ltb_spec x 0);
  match goal with |- context[?a <? 128] => destruct (Z.ltb_spec a 128); [reflexivity|lia] end.
Qed.
Lemma key_len_ok r : key_ok r -> key_len_bytes (r_od r) (r_key r) ++ obytes (r_key r) = enc_vbytes (r_key r).
Proof.
  intros [H|H]; unfold key_len_bytes, enc_vbytes; destruct (r_key r) as [k|]; try congruence; try reflexivity.
  rewrite varint_one by exact H. reflexivity.
Qed.
Lemma be1_uint8 x : be 1 x = [uint 8 x].
Proof. cbn [be]. unfold uint. change (256 ^ Z.of_nat 0) with 1. rewrite Z.div_1_r. reflexivity. Qed.
Lemma record_body_spec r : key_ok r -> record_body r = enc_sbody (to_spec r).
Proof.
  intros H. unfold record_body, enc_sbody, to_spec. cbn [sr_attr sr_ts sr_od sr_key sr_value sr_headers].
  rewrite be1_uint8. do 3 f_equal. rewrite app_assoc, key_len_ok by exact H. f_equal.
  unfold enc_vbytes at 1. rewrite <- app_assoc.
  assert (olen (r_value r) = zlen (obytes (r_value r))) as -> by (destruct (r_value r); reflexivity).
  do 2 f_equal. assert (zlen (map (fun h : bytes * bytes => (fst h, Some (snd h))) (r_headers r)) = zlen (r_headers r)) as -> by (unfold zlen; rewrite map_length; reflexivity).
  f_equal. induction (r_headers r) as [|h hs IH]; cbn [map flat_map]; [reflexivity|]. rewrite IH. reflexivity.
Qed.
Lemma record_encode_spec r : key_ok r -> record_encode r = enc_srecord (to_spec r).
Proof. intros H. unfold record_encode, enc_srecord. rewrite record_body_spec by exact H. reflexivity. Qed.

Definition wf_record (r : Record) : Prop := wf_srecord (to_spec r).
Lemma to_spec_headers r : headers_present (to_spec r).
Proof. unfold headers_present, to_spec; cbn [sr_headers]. rewrite Forall_forall. intros x Hx.
  apply in_map_iff in Hx. destruct Hx as [h [<- _]]. cbn; congruence. Qed.

(** a record as the consumer reports it: no distinction between absent and empty *)
Definition norm (r : Record) : Record :=
  mkRec (r_attr r) (r_ts r) (r_od r) (nz (r_key r)) (nz (r_value r)) (r_headers r).
Lemma of_to_spec r : of_spec (to_spec r) = norm r.
Proof.
  unfold of_spec, to_spec, norm. cbn. f_equal.
  - destruct (r_value r) as [[|]|]; reflexivity.
  - rewrite map_map. rewrite <- (map_id (r_headers r)) at 2. apply map_ext. intros [a b]. reflexivity.
Qed.
Lemma record_roundtrip r rest : key_ok r -> wf_record r ->
  decodeToRecord (record_encode r ++ rest) = Ok (norm r, rest).
Proof.
  intros Hk Hw. rewrite record_encode_spec by exact Hk.
  rewrite decodeToRecord_enc by (exact Hw || apply to_spec_headers). rewrite of_to_spec. reflexivity.
Qed.

(** *** batches *)
Definition sb_of (b : RecordBatch) : sbatch :=
  mkSBatch (rb_base b) (rb_epoch b) (rb_attr b) (rb_lod b) (rb_bts b) (rb_mts b) (rb_pid b) (rb_pepoch b) (rb_seq b).

Lemma batch_encode_spec zip b payload : rb_magic b = 2 -> zlen (rb_records b) < 2 ^ 31 ->
  batch_payload zip (rb_attr b) (rb_records b) = Ok payload ->
  49 + zlen payload < 2 ^ 32 ->
  batch_encode zip b = Ok (enc_sbatch (sb_of b) (zlen (rb_records b)) payload).
Proof.
  intros Hm Hn Hp Hl. unfold batch_encode. rewrite Hp. cbn [rbind]. cbv zeta.
  assert (Et : batch_tail b payload = enc_sbatch_tail (sb_of b) (zlen (rb_records b)) payload).
  { unfold batch_tail, enc_sbatch_tail, sb_of. cbn. pose proof (zlen_nonneg (rb_records b)).
    rewrite (sint_id 32); [reflexivity|lia|]. change (2 ^ (32 - 1)) with (2 ^ 31). lia. }
  rewrite Et, Hm. unfold enc_sbatch. cbv zeta.
  assert (Hz : zlen (enc_sbatch_tail (sb_of b) (zlen (rb_records b)) payload) = 40 + zlen payload).
  { unfold enc_sbatch_tail. rewrite !zlen_app, !zlen_be. lia. }
  rewrite Hz. pose proof (zlen_nonneg payload). rewrite uint_small by lia. do 3 f_equal. f_equal. lia.
Qed.
