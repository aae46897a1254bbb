From Verif Require Import Base BaseFacts Wire Prims.

Lemma u16_of_lt x : 0 <= x < 65536 -> u16 x.
Proof. unfold u16. change (2^16) with 65536. lia. Qed.

Lemma encodeString_rt s r : zlen s < 2 ^ 16 ->
  nonnullableString (encodeString s ++ r) = Ok (s, r).
Proof.
  intros H. pose proof (zlen_nonneg s).
  unfold nonnullableString, encodeString. rewrite uint_small by lia.
  rewrite <- app_assoc.
  rewrite (bind_ok _ _ _ (zlen s) (s ++ r)) by (apply rd_u16_be; split; [lia|exact H]).
  apply rd_bytes_app.
Qed.

Lemma sint64_small x : 0 <= x < 2 ^ 63 -> sint 64 x = x.
Proof. intros; apply sint_id; [lia|]. change (64 - 1) with 63. lia. Qed.
Lemma sint32_small x : - 2 ^ 31 <= x < 2 ^ 31 -> sint 32 x = x.
Proof. intros; apply sint_id; [lia|]. change (32 - 1) with 31. lia. Qed.

Lemma u64_lt x : 0 <= x < 2 ^ 63 -> u64 (1 + x).
Proof. unfold u64. change (2^64) with (2 * 2^63). assert (1 <= 2^63) by (cbn; lia). lia. Qed.

Lemma compactString_rt s r : zlen s < 2 ^ 63 ->
  compactString (encodeCompactString s ++ r) = Ok (s, r).
Proof.
  intros H. pose proof (zlen_nonneg s).
  unfold compactString, encodeCompactString. rewrite <- app_assoc.
  rewrite (bind_ok _ _ _ (1 + zlen s) (s ++ r)) by (apply rd_uvarint_app, u64_lt; lia).
  replace (1 + zlen s - 1) with (zlen s) by lia.
  rewrite sint64_small by lia. apply rd_bytes_app.
Qed.

Lemma nullableString_rt s r : (match s with None => True | Some b => zlen b < 2 ^ 15 end) ->
  nullableString (encodeNullableString s ++ r) = Ok (s, r).
Proof.
  intros H. unfold nullableString, encodeNullableString. destruct s as [s|].
  - pose proof (zlen_nonneg s). assert (2 ^ 15 < 2 ^ 16) by (cbn; lia).
    rewrite uint_small by lia. rewrite <- app_assoc.
    rewrite (bind_ok _ _ _ (zlen s) (s ++ r)) by (apply rd_i16_be; unfold i16; lia).
    destruct (Z.eqb_spec (zlen s) (-1)); [lia|].
    rewrite (bind_ok _ _ _ s r) by apply rd_bytes_app. reflexivity.
  - change (be 2 65535) with (be 2 (-1)).
    rewrite (bind_ok _ _ _ (-1) r) by (apply rd_i16_be; unfold i16; cbn; lia). reflexivity.
Qed.

Lemma uvarint_len_le3 x : 0 <= x < 2 ^ 21 -> (length (uvarint x) <= 3)%nat.
Proof. intros; unfold uvarint. apply (put_uvarint_small_len 10 x 2); [lia|]. exact H. Qed.

Lemma encodeCompactNullableString_eq s :
  (match s with None => True | Some b => zlen b < 2 ^ 21 - 1 end) ->
  encodeCompactNullableString s = writeCompactNullableString s.
Proof.
  destruct s as [s|]; [|reflexivity]. intros H. pose proof (zlen_nonneg s).
  unfold encodeCompactNullableString, writeCompactNullableString.
  pose proof (uvarint_len_le3 (1 + zlen s) ltac:(lia)).
  f_equal. apply firstn_all2. unfold zlen in *. lia.
Qed.

Lemma writeCompactNullableString_rt s r : (match s with None => True | Some b => zlen b < 2 ^ 63 end) ->
  compactNullableString (writeCompactNullableString s ++ r) = Ok (s, r).
Proof.
  intros H. unfold compactNullableString, writeCompactNullableString. destruct s as [s|].
  - pose proof (zlen_nonneg s). rewrite <- app_assoc.
    rewrite (bind_ok _ _ _ (1 + zlen s) (s ++ r)) by (apply rd_uvarint_app, u64_lt; lia).
    destruct (Z.eqb_spec (1 + zlen s) 0); [lia|].
    replace (1 + zlen s - 1) with (zlen s) by lia.
    rewrite sint64_small by lia.
    rewrite (bind_ok _ _ _ s r) by apply rd_bytes_app. reflexivity.
  - reflexivity.
Qed.

Lemma compactNullableString_rt s r : (match s with None => True | Some b => zlen b < 2 ^ 21 - 1 end) ->
  compactNullableString (encodeCompactNullableString s ++ r) = Ok (s, r).
Proof.
  intros H. rewrite encodeCompactNullableString_eq by exact H.
  apply writeCompactNullableString_rt. destruct s; [|exact I].
  assert (2 ^ 21 < 2 ^ 63) by (apply Z.pow_lt_mono_r; lia). lia.
Qed.

Lemma compactBytes_rt s r : zlen s < 2 ^ 63 ->
  compactBytes (encodeCompactBytes s ++ r) = Ok (s, r).
Proof. exact (compactString_rt s r). Qed.

Lemma compactNullableBytes_some s r : 0 < zlen s < 2 ^ 63 ->
  compactNullableBytes (encodeCompactNullableBytes (Some s) ++ r) = Ok (Some s, r).
Proof.
  intros H. unfold compactNullableBytes, encodeCompactNullableBytes. rewrite <- app_assoc.
  rewrite (bind_ok _ _ _ (1 + zlen s) (s ++ r)) by (apply rd_uvarint_app, u64_lt; lia).
  cbv zeta. replace (1 + zlen s - 1) with (zlen s) by lia.
  assert (2 ^ 63 < 2 ^ 64) by (apply Z.pow_lt_mono_r; lia).
  rewrite uint_small by lia.
  destruct (Z.eqb_spec (zlen s) 0); [lia|]. rewrite sint64_small by lia.
  rewrite (bind_ok _ _ _ s r) by apply rd_bytes_app. reflexivity.
Qed.
(** A correctly prefixed nullable byte string is read back. *)
Lemma nullableBytes_wire s r : wf TNBytes s ->
  nullableBytes (enc TNBytes s ++ r) = Ok (s, r).
Proof.
  cbn [wf enc]. intros H. unfold nullableBytes. destruct s as [s|].
  - pose proof (zlen_nonneg s). rewrite <- app_assoc.
    rewrite (bind_ok _ _ _ (zlen s) (s ++ r)) by (apply rd_i32_be; unfold i32; lia).
    destruct (Z.eqb_spec (zlen s) (-1)); [lia|].
    rewrite (bind_ok _ _ _ s r) by apply rd_bytes_app. reflexivity.
  - rewrite (bind_ok _ _ _ (-1) r) by (apply rd_i32_be; unfold i32; cbn; lia). reflexivity.
Qed.

Lemma compactArrayLength_rt l r : -1 <= l < 2 ^ 31 - 1 ->
  compactArrayLength (encodeCompactArrayLength l ++ r) = Ok (l, r).
Proof.
  intros H. unfold compactArrayLength, encodeCompactArrayLength.
  assert (2 ^ 31 < 2 ^ 64) by (apply Z.pow_lt_mono_r; lia).
  assert (0 < 2 ^ 31) by (cbn; lia).
  rewrite uint_small by lia.
  rewrite (bind_ok _ _ _ (1 + l) r) by (apply rd_uvarint_app; unfold u64; lia).
  unfold ret. rewrite (sint32_small (1 + l)) by lia. rewrite sint32_small by lia.
  do 2 f_equal. lia.
Qed.

(** tagged fields *)
Lemma tf_length_eq r : tf_length r = 10 + fold_right (fun v l => 10 + zlen (snd v) + l) 0 r.
Proof.
  unfold tf_length. assert (G : forall a, fold_left (fun l v => l + (10 + zlen (snd v))) r a
    = a + fold_right (fun (v : Z * bytes) l => 10 + zlen (snd v) + l) 0 r).
  { induction r as [|v r IH]; intros a; cbn [fold_left fold_right]; [lia|]. rewrite IH. lia. }
  apply G.
Qed.
Lemma tf_ops_wire r : Forall wf_tag r -> wcat (tf_ops r) = enc TTags r.
Proof.
  intros H. unfold tf_ops. rewrite wcat_cons, wcat_flat_map. cbn [wbytes enc]. f_equal.
  induction H as [|v r Hv Hr IH]; cbn [flat_map]; [reflexivity|]. rewrite IH. f_equal.
  unfold tf_field_ops, enc_tag. rewrite !wcat_cons. cbn [wbytes wcat flat_map].
  destruct Hv as [Hv _]. assert (2 ^ 31 < 2 ^ 64) by (apply Z.pow_lt_mono_r; lia).
  rewrite uint_small by lia. rewrite app_nil_r. reflexivity.
Qed.
Lemma uvarint_len_le5 x : 0 <= x < 2 ^ 31 -> zlen (uvarint x) <= 5.
Proof.
  intros H. unfold uvarint, zlen. pose proof (put_uvarint_small_len 10 x 4 ltac:(lia)) as G.
  assert (2 ^ 31 < 2 ^ (7 * Z.of_nat 5)) by (apply Z.pow_lt_mono_r; lia). specialize (G ltac:(lia)). lia.
Qed.
Lemma enc_tags_len r : Forall wf_tag r -> zlen (enc TTags r) <= tf_length r.
Proof.
  intros H. rewrite tf_length_eq. cbn [enc]. rewrite zlen_app.
  assert (zlen (flat_map enc_tag r) <= fold_right (fun v l => 10 + zlen (snd v) + l) 0 r).
  { induction H as [|v r [Hv1 Hv2] Hr IH]; cbn [flat_map fold_right]; [cbn; lia|].
    rewrite zlen_app. unfold enc_tag at 1. rewrite !zlen_app.
    pose proof (uvarint_len_le5 (fst v) Hv1).
    pose proof (uvarint_len_le5 (zlen (snd v)) ltac:(pose proof (zlen_nonneg (snd v)); lia)).
    lia. }
  pose proof (uvarint_length (zlen r)). unfold zlen in *. lia.
Qed.
Lemma tf_encode_wire r : Forall wf_tag r -> tf_encode r = Ok (enc TTags r).
Proof.
  intros H. unfold tf_encode. rewrite wcut_ok; rewrite tf_ops_wire by exact H; [reflexivity|].
  apply enc_tags_len; exact H.
Qed.
Lemma decodeTaggedFields_wire r s : wf TTags r -> decodeTaggedFields (enc TTags r ++ s) = Ok (r, s).
Proof.
  cbn [wf enc]. intros [Hl H]. unfold decodeTaggedFields. pose proof (zlen_nonneg r).
  rewrite <- app_assoc.
  assert (2 ^ 31 < 2 ^ 64) by (apply Z.pow_lt_mono_r; lia).
  assert (2 ^ 31 < 2 ^ 63) by (apply Z.pow_lt_mono_r; lia).
  rewrite (bind_ok _ _ _ (zlen r) (flat_map enc_tag r ++ s)) by (apply rd_uvarint_app; unfold u64; lia).
  unfold zlen. rewrite Nat2Z.id. rewrite (rd_n_map _ enc_tag (fun x => x)).
  - rewrite map_id. reflexivity.
  - intros x r' Hx. rewrite Forall_forall in H. destruct (H x Hx) as [Ht1 Ht2]. pose proof (zlen_nonneg (snd x)).
    unfold decodeTaggedField, enc_tag. rewrite <- !app_assoc.
    rewrite (bind_ok _ _ _ (fst x) (uvarint (zlen (snd x)) ++ snd x ++ r')) by (apply rd_uvarint_app; unfold u64; lia).
    rewrite (bind_ok _ _ _ (zlen (snd x)) (snd x ++ r')) by (apply rd_uvarint_app; unfold u64; lia).
    rewrite sint64_small by lia.
    rewrite (bind_ok _ _ _ (snd x) r') by apply rd_bytes_app.
    rewrite sint64_small by lia. destruct x; reflexivity.
Qed.

(** agreement of the primitive writers and readers with the protocol *)
Lemma encodeString_wire s : wf TStr s -> encodeString s = enc TStr s.
Proof. cbn [wf enc]. intros H. unfold encodeString. pose proof (zlen_nonneg s).
  assert (2^15 < 2^16) by (cbn; lia). rewrite uint_small by lia. reflexivity. Qed.
Lemma encodeCompactString_wire s : encodeCompactString s = enc TCStr s.
Proof. unfold encodeCompactString; cbn [enc]. rewrite Z.add_comm; reflexivity. Qed.
Lemma encodeNullableString_wire s : wf TNStr s -> encodeNullableString s = enc TNStr s.
Proof. destruct s as [s|]; cbn [wf enc]; intros H; [|reflexivity].
  unfold encodeNullableString. pose proof (zlen_nonneg s).
  assert (2^15 < 2^16) by (cbn; lia). rewrite uint_small by lia. reflexivity. Qed.
Lemma encodeCompactNullableString_wire s : wf TCNStr s -> encodeCompactNullableString s = enc TCNStr s.
Proof.
  intros H. rewrite encodeCompactNullableString_eq.
  - destruct s as [s|]; cbn [enc writeCompactNullableString]; [rewrite Z.add_comm; reflexivity|reflexivity].
  - destruct s as [s|]; cbn [wf] in H; [|exact I].
    assert (2^15 < 2^20) by (cbn; lia). assert (2^20 < 2^21 - 1) by (cbn; lia). lia.
Qed.
Lemma writeCompactNullableString_wire s : writeCompactNullableString s = enc TCNStr s.
Proof. destruct s as [s|]; cbn [enc writeCompactNullableString]; [rewrite Z.add_comm; reflexivity|reflexivity]. Qed.

Lemma nonnullableString_wire s r : wf TStr s -> nonnullableString (enc TStr s ++ r) = Ok (s, r).
Proof. intros H. rewrite <- encodeString_wire by exact H. apply encodeString_rt.
  cbn [wf] in H. assert (2^15 < 2^16) by (cbn; lia). lia. Qed.
Lemma p15_63 : 2^15 < 2^63. Proof. apply Z.pow_lt_mono_r; lia. Qed.
Lemma p31_63 : 2^31 < 2^63. Proof. apply Z.pow_lt_mono_r; lia. Qed.
Lemma compactString_wire s r : wf TCStr s -> compactString (enc TCStr s ++ r) = Ok (s, r).
Proof. intros H. rewrite <- encodeCompactString_wire. apply compactString_rt.
  cbn [wf] in H. pose proof p15_63. lia. Qed.
Lemma nullableString_wire s r : wf TNStr s -> nullableString (enc TNStr s ++ r) = Ok (s, r).
Proof. intros H. rewrite <- encodeNullableString_wire by exact H. apply nullableString_rt. exact H. Qed.
Lemma compactNullableString_wire s r : wf TCNStr s -> compactNullableString (enc TCNStr s ++ r) = Ok (s, r).
Proof. intros H. rewrite <- writeCompactNullableString_wire. apply writeCompactNullableString_rt.
  destruct s; [|exact I]. cbn [wf] in H. pose proof p15_63. lia. Qed.
Lemma compactBytes_wire s r : wf TCBytes s -> compactBytes (enc TCBytes s ++ r) = Ok (s, r).
Proof. intros H. change (enc TCBytes s) with (enc TCStr s). rewrite <- encodeCompactString_wire.
  apply compactString_rt. cbn [wf] in H. pose proof p31_63. lia. Qed.
Lemma compactArrayLength_wire l r : -1 <= l < 2 ^ 31 - 1 -> compactArrayLength (uvarint (l + 1) ++ r) = Ok (l, r).
Proof. intros H. pose proof (compactArrayLength_rt l r H) as G. unfold encodeCompactArrayLength in G.
  assert (2 ^ 31 < 2 ^ 64) by (apply Z.pow_lt_mono_r; lia).
  rewrite uint_small in G by lia. rewrite Z.add_comm. exact G. Qed.

(** encodeCompactNullableString loses the tail of strings of 2^21-1 bytes or more *)
Lemma zlen_repeat {A} (x : A) n : zlen (repeat x n) = Z.of_nat n.
Proof. unfold zlen; rewrite repeat_length; reflexivity. Qed.
Lemma compactNullableString_long_panics :
  exists s, zlen s = 2 ^ 21 - 1 /\ compactNullableString (encodeCompactNullableString (Some s)) = Panic.
Proof.
  exists (repeat 0 (Z.to_nat (2 ^ 21 - 1))).
  assert (E : zlen (repeat 0 (Z.to_nat (2 ^ 21 - 1))) = 2 ^ 21 - 1) by (rewrite zlen_repeat; apply Z2Nat.id; cbn; lia).
  split; [exact E|].
  generalize dependent (repeat 0 (Z.to_nat (2 ^ 21 - 1))). intros s E.
  unfold compactNullableString, encodeCompactNullableString. rewrite E.
  replace (1 + (2 ^ 21 - 1)) with (2 ^ 21) by reflexivity.
  set (t := firstn _ s).
  rewrite (bind_ok _ _ _ (2 ^ 21) t) by (apply rd_uvarint_app; unfold u64; split; [lia|apply Z.pow_lt_mono_r; lia]).
  destruct (Z.eqb_spec (2 ^ 21) 0); [discriminate|].
  rewrite sint64_small by (split; [cbn; lia|]; assert (2^21 < 2^63) by (apply Z.pow_lt_mono_r; lia); lia).
  apply bind_panic. unfold rd_bytes.
  assert (Hl : zlen t < 2 ^ 21 - 1).
  { unfold t, zlen. rewrite firstn_length.
    assert (length (uvarint (2 ^ 21)) = 4%nat) as -> by (vm_compute; reflexivity).
    unfold zlen in E. assert (0 < 2^21) by (cbn; lia). lia. }
  destruct (Z.ltb_spec (zlen t) (2 ^ 21 - 1)); [|lia]. rewrite orb_true_r. reflexivity.
Qed.
