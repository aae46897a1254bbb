(** Checksums and damaged batches on the consumer's side: nothing looks at the checksum
    (fetch_response.go:224 is commented out; message.go:130 reads it and no more). *)
From Verif Require Import Base BaseFacts RecordSpec Records RecordFacts Fetch FetchSpec FetchFacts FetchOld FetchKeep FetchRefute.

(** *** Vocabulary *)
(** the bytes of a batch with [c] in the place of its checksum (bytes 17-20) *)
Definition stamped (c : Z) (w : wbatch) : bytes :=
  firstn 17 (enc_wb w) ++ be 4 c ++ skipn 21 (enc_wb w).
(** the checksum a batch carries is that of what follows it *)
Definition intact (b : bytes) : Prop := firstn 4 (skipn 17 b) = be 4 (crc32c (skipn 21 b)).
(** ... of an old message: bytes 12-15 *)
Definition intact_old (b : bytes) : Prop := firstn 4 (skipn 12 b) = be 4 (crc32 (skipn 16 b)).
(** several, each with its checksum *)
Definition stampeds (ms : list (Z * wbatch)) : bytes := flat_map (fun m => stamped (fst m) (snd m)) ms.

(** *** batches *)
Definition head44c (c : Z) (w : wbatch) : bytes :=
  let b := wb_h w in
  be 4 c ++ be 2 (sb_attr b) ++ be 4 (sb_lod b) ++ be 8 (sb_bts b) ++ be 8 (sb_mts b) ++ be 8 (sb_pid b)
  ++ be 2 (sb_pepoch b) ++ be 4 (sb_seq b) ++ be 4 (zlen (wb_recs w)).
Lemma stamped_split c w : stamped c w = head17 w ++ head44c c w ++ wb_payload w.
Proof. unfold stamped. rewrite enc_wb_split. reflexivity. Qed.
Lemma stamped_self w : stamped (crc32c (enc_sbatch_tail (wb_h w) (zlen (wb_recs w)) (wb_payload w))) w = enc_wb w.
Proof. rewrite stamped_split, enc_wb_split. reflexivity. Qed.
Lemma head44c_len c w : zlen (head44c c w) = 44.
Proof. unfold head44c. cbv zeta. rewrite !zlen_app, !zlen_be. reflexivity. Qed.
Lemma stamped_len c w : zlen (stamped c w) = 61 + zlen (wb_payload w).
Proof. rewrite stamped_split, !zlen_app, head17_len, head44c_len. lia. Qed.

Section Codec.
  Variable unzip zip : Z -> bytes -> res bytes.

  Lemma fieldsc c w : wf_wb_common w ->
    let buf := head17 w ++ head44c c w in
    sint 64 (unbe (firstn 8 buf)) = sb_base (wb_h w) /\
    unbe (firstn 4 (skipn 8 buf)) = 49 + zlen (wb_payload w) /\
    Z.land (unbe (firstn 2 (skipn 21 buf))) 3 = wb_codec w /\
    unbe (firstn 8 (skipn 27 buf)) = sb_bts (wb_h w) mod 2 ^ 64 /\
    unbe (firstn 4 (skipn 57 buf)) = zlen (wb_recs w).
  Proof using unzip zip. intros H. exact (magic2_fields unzip zip w H). Qed.

  Lemma magic2c topic pid c w data rest st o s :
    wf_wb unzip w -> wb_recs w <> [] ->
    at2 (head44c c w ++ wb_payload w ++ data) rest st o s ->
    exists s', decodeRecordsMagic2 unzip topic pid (head17 w) s = DOk (44 + zlen (wb_payload w)) s' /\
      at2 data rest st (o ++ exp_events topic pid st (wb_h w) (wb_recs w)) s'.
  Proof using unzip zip.
    intros [Hc Hz] Hne Hat. unfold decodeRecordsMagic2.
    destruct (try_read_at _ _ _ _ _ _ _ 44 Hat (head44c_len c w)) as [s1 [E1 [A1 _]]].
    erewrite dbind_ok by exact E1. cbn [fst snd].
    destruct (fieldsc c w Hc) as [F1 [F2 [F3 [F4 F5]]]]. cbv zeta in *.
    rewrite F1, F2, F3, F4, F5.
    assert (Hpos : 0 < zlen (wb_recs w)) by (destruct (wb_recs w); [congruence|]; rewrite zlen_cons; pose proof (zlen_nonneg l); lia).
    destruct (Z.leb_spec (zlen (wb_recs w)) 0); [lia|].
    replace (49 + zlen (wb_payload w) - 49) with (zlen (wb_payload w)) by lia.
    destruct (read_limit_at _ _ _ _ _ _ _ (zlen (wb_payload w)) A1 ltac:(left; reflexivity)) as [s2 [E2 A2]].
    erewrite dbind_ok by exact E2. cbn [fst snd].
    destruct Hc as [_ [Hw [Hp [Ho [Hn Hpl]]]]].
    set (raw := flat_map enc_srecord (wb_recs w)) in *.
    assert (Hu : (if wb_codec w =? 0 then Ok (wb_payload w) else unzip (wb_codec w) (wb_payload w)) = Ok raw).
    { destruct (Z.eqb_spec (wb_codec w) 0) as [Hc0|Hc0]; [rewrite Hz; reflexivity|].
      destruct (wb_recs w) as [|r0 rs0] eqn:Er; [congruence|]. cbn [nonempty] in Hz. exact Hz. }
    rewrite Hu.
    destruct (put_records_at topic pid (wb_h w) (wb_recs w)
      (Z.to_nat (Z.min (zlen (wb_recs w)) (zlen raw + 1)))
      (length raw) data rest st o s2 Hw Hp Ho) as [s3 [E3 A3]].
    { fold raw. rewrite firstn_all. unfold zlen. lia. }
    { exact A2. }
    fold raw in E3. rewrite firstn_all in E3.
    erewrite dbind_ok by exact E3. exists s3. split; [reflexivity|].
    rewrite whole_all in A3 by (fold raw; lia). exact A3.
  Qed.

  Lemma magic2c_empty topic pid c w data rest st o s :
    wf_wb unzip w -> wb_recs w = [] ->
    at2 (head44c c w ++ data) rest st o s ->
    exists s', decodeRecordsMagic2 unzip topic pid (head17 w) s = DOk 44 s' /\ at2 data rest st o s'.
  Proof using unzip zip.
    intros [Hc Hz] Hne Hat. unfold decodeRecordsMagic2.
    destruct (try_read_at _ _ _ _ _ _ _ 44 Hat (head44c_len c w)) as [s1 [E1 [A1 _]]].
    erewrite dbind_ok by exact E1. cbn [fst snd].
    destruct (fieldsc c w Hc) as [F1 [F2 [F3 [F4 F5]]]]. cbv zeta in *.
    rewrite F5, Hne. exists s1. split; [reflexivity|exact A1].
  Qed.

  Lemma setsc_one f topic pid size offset c w data rest st o s :
    wf_wb unzip w -> offset < size ->
    at2 (stamped c w ++ data) rest st o s ->
    exists s', decodeSets unzip zip (S f) topic pid size offset s
               = decodeSets unzip zip f topic pid size (offset + zlen (stamped c w)) s' /\
      at2 data rest st (o ++ exp_events topic pid st (wb_h w) (wb_recs w)) s'.
  Proof using unzip zip.
    intros Hw Hs Hat. cbn [decodeSets]. destruct (Z.leb_spec size offset); [lia|].
    rewrite stamped_len. rewrite stamped_split, <- !app_assoc in Hat.
    destruct (try_read_at _ _ _ _ _ _ _ 17 Hat (head17_len w)) as [s1 [E1 [A1 _]]].
    erewrite dbind_ok by exact E1. cbn [fst snd]. rewrite (head17_magic unzip zip). change (2 <? 2) with false. cbv iota.
    destruct (wb_recs w) as [|r0 rs0] eqn:Er.
    - pose proof (wf_empty_payload unzip zip w Hw Er) as Ep. rewrite Ep in *. cbn [app] in A1.
      destruct (magic2c_empty topic pid c w data rest st o s1 Hw Er A1) as [s2 [E2 A2]].
      erewrite dbind_ok by exact E2. exists s2. split.
      + rewrite zlen_nil. f_equal. lia.
      + unfold exp_events; cbn. rewrite app_nil_r. exact A2.
    - rewrite <- Er in *. assert (Hne : wb_recs w <> []) by congruence.
      destruct (magic2c topic pid c w data rest st o s1 Hw Hne A1) as [s2 [E2 A2]].
      erewrite dbind_ok by exact E2. exists s2. split; [f_equal; lia|exact A2].
  Qed.

  Lemma setsc_all : forall ms f topic pid size offset data rest st o s,
    Forall (wf_wb unzip) (map snd ms) ->
    offset + zlen (stampeds ms) <= size ->
    at2 (stampeds ms ++ data) rest st o s ->
    exists s', decodeSets unzip zip (length ms + f) topic pid size offset s
               = decodeSets unzip zip f topic pid size (offset + zlen (stampeds ms)) s' /\
      at2 data rest st (o ++ exp_all topic pid st (map snd ms)) s'.
  Proof using unzip zip.
    induction ms as [|[c w] ms IH]; intros f topic pid size offset data rest st o s Hw Hs Hat.
    - exists s. cbn. rewrite Z.add_0_r, app_nil_r. split; [reflexivity|exact Hat].
    - cbn [map snd] in Hw. inversion Hw as [|? ? Hw1 Hw2]; subst. unfold stampeds in *. cbn [flat_map length Nat.add fst snd] in *.
      fold (stampeds ms) in *.
      rewrite zlen_app in Hs. pose proof (zlen_nonneg (stampeds ms)).
      pose proof (stamped_len c w). pose proof (zlen_nonneg (wb_payload w)).
      rewrite <- app_assoc in Hat.
      destruct (setsc_one (length ms + f) topic pid size offset c w _ rest st o s Hw1 ltac:(lia) Hat) as [s1 [E1 A1]].
      destruct (IH f topic pid size (offset + zlen (stamped c w)) data rest st _ s1 Hw2 ltac:(lia) A1) as [s2 [E2 A2]].
      exists s2. rewrite E1, E2, zlen_app. split; [f_equal; lia|].
      unfold exp_all in *. cbn [map flat_map snd]. rewrite app_assoc. exact A2.
  Qed.

  (** a batch the decompressor rejects: nothing of it is delivered *)
  Lemma rejected topic pid c w data rest st o s e :
    wf_wb_common w -> wb_recs w <> [] -> wb_codec w <> 0 -> unzip (wb_codec w) (wb_payload w) = Err e ->
    at2 (head44c c w ++ wb_payload w ++ data) rest st o s ->
    exists s', decodeRecordsMagic2 unzip topic pid (head17 w) s =
        (if (zlen data <=? 0) && nonempty o then DOk (44 + zlen (wb_payload w)) s' else DErr (EWrap e) s') /\
      at2 data rest st o s'.
  Proof using unzip zip.
    intros Hc Hne Hcd Hu Hat. unfold decodeRecordsMagic2.
    destruct (try_read_at _ _ _ _ _ _ _ 44 Hat (head44c_len c w)) as [s1 [E1 [A1 _]]].
    erewrite dbind_ok by exact E1. cbn [fst snd].
    destruct (fieldsc c w Hc) as [F1 [F2 [F3 [F4 F5]]]]. cbv zeta in *.
    rewrite F2, F3, F5.
    assert (Hpos : 0 < zlen (wb_recs w)) by (destruct (wb_recs w); [congruence|]; rewrite zlen_cons; pose proof (zlen_nonneg l); lia).
    destruct (Z.leb_spec (zlen (wb_recs w)) 0); [lia|].
    replace (49 + zlen (wb_payload w) - 49) with (zlen (wb_payload w)) by lia.
    destruct (read_limit_at _ _ _ _ _ _ _ (zlen (wb_payload w)) A1 ltac:(left; reflexivity)) as [s2 [E2 A2]].
    erewrite dbind_ok by exact E2. cbn [fst snd].
    destruct (Z.eqb_spec (wb_codec w) 0); [congruence|]. rewrite Hu.
    exists s2. split; [|exact A2]. destruct A2 as [_ [_ [Ht [_ [Hh _]]]]]. rewrite Hh.
    destruct (Z.leb_spec (d_total s2) (d_off s2)), (Z.leb_spec (zlen data) 0); try lia; reflexivity.
  Qed.
End Codec.

Section Response.
  Variable unzip zip : Z -> bytes -> res bytes.

  Lemma drain_at rest st o s : at2 [] rest st o s -> concat (st_chunks (d_in (drain s))) = rest /\ d_out s = o.
  Proof using unzip zip.
    intros [Hfl [Hlim [_ [_ [_ Ho]]]]]. split; [|exact Ho]. unfold drain. rewrite Hlim. change (zlen (@nil Z)) with 0.
    replace (Z.to_nat (Z.min (Z.max 0 0) (avail s))) with O by (unfold avail; pose proof (zlen_nonneg (concat (st_chunks (d_in s)))); lia).
    destruct (take_full_spec (st_chunks (d_in s)) 0 ltac:(lia)) as [_ T2].
    destruct (take_full 0 (st_chunks (d_in s))) as [b cs]. cbn [snd] in *. cbn. rewrite T2. cbn. exact Hfl.
  Qed.
  Lemma stampeds_len ms : 61 * zlen ms <= zlen (stampeds ms).
  Proof using unzip zip.
    induction ms as [|[c w] ms IH]; [cbn; lia|]. unfold stampeds. cbn [flat_map fst snd]. fold (stampeds ms).
    rewrite zlen_app, zlen_cons, stamped_len. pose proof (zlen_nonneg (wb_payload w)). lia.
  Qed.

  (** what the records come to once they are read: [oe] is how reading them ends *)
  Lemma set_end v st p rest chunks fin evs oe :
    (v = 0 \/ v = 7 \/ v = 10) -> wf_presp p ->
    concat chunks = enc_presp v p ++ rest -> 0 < zlen (pr_records p) ->
    fields_ok chunks (length (enc_presp_head v p)) (part_fields v p) ->
    (forall s, at2 (pr_records p) rest st [] s -> exists s',
       at2 [] rest st evs s' /\
       decodeSets unzip zip (S (Z.to_nat (avail s))) (pr_topic p) (pr_pid p) (zlen (pr_records p)) 0 s =
         match oe with None => DOk tt s' | Some e => DErr e s' end) ->
    (oe <> None -> evs = []) ->
    exists s', streamDecode unzip zip v st (zlen (enc_presp v p)) (mkStream chunks fin) =
        Ok (if nonempty evs then evs
            else [EvErr (match oe with Some e => if is_eof e then EMaxBytesTooSmall else e | None => EMaxBytesTooSmall end)], s') /\
      concat (st_chunks (d_in s')) = rest.
  Proof using unzip zip.
    intros Hv Hwf Hch Hpos Hf Hsets Hoe. unfold enc_presp in *. rewrite <- app_assoc in Hch.
    destruct (stream_header_at unzip zip v st p 0 (part_fields v p) rest chunks fin Hv Hwf Hch Hf) as [s4 [A4 [F E4]]].
    rewrite <- (app_nil_r (part_fields v p)) in F.
    destruct (partition_header_at unzip zip v p [] rest st [] s4 Hv Hwf A4 F) as [s5 [E5 [A5 _]]].
    destruct (Z.leb_spec (zlen (pr_records p)) 0); [lia|].
    destruct (Hsets s5 A5) as [s6 [A6 E6]]. destruct (drain_at _ _ _ _ A6) as [Hd Ho].
    rewrite E4. unfold decodePartitionResponse. rewrite E5. unfold decodeMessageSet. rewrite E6.
    destruct A6 as [_ [_ [_ [_ [Hh _]]]]].
    exists (drain s6). split; [|exact Hd]. destruct oe as [e|].
    - rewrite (Hoe ltac:(discriminate)) in *. cbn [nonempty] in *. rewrite Hh, andb_false_r, Ho. reflexivity.
    - rewrite Hh. destruct evs as [|ev evs]; cbn [nonempty]; rewrite Ho; reflexivity.
  Qed.

  (** whatever checksums the batches carry, their records are delivered *)
  Theorem any_checksum v st p ms rest chunks fin :
    (v = 0 \/ v = 7 \/ v = 10) -> wf_presp p -> ms <> [] -> Forall (wf_wb unzip) (map snd ms) -> pr_records p = stampeds ms ->
    concat chunks = enc_presp v p ++ rest ->
    fields_ok chunks (length (enc_presp_head v p)) (part_fields v p) ->
    exists s', streamDecode unzip zip v st (zlen (enc_presp v p)) (mkStream chunks fin) =
        Ok (let evs := exp_all (pr_topic p) (pr_pid p) st (map snd ms) in
            if nonempty evs then evs else [EvErr EMaxBytesTooSmall], s') /\
      concat (st_chunks (d_in s')) = rest.
  Proof using unzip zip.
    intros Hv Hwf Hne Hw Hr Hch Hf. pose proof (stampeds_len ms) as Hl.
    assert (1 <= zlen ms) by (destruct ms; [congruence|]; rewrite zlen_cons; pose proof (zlen_nonneg ms); lia).
    apply (set_end v st p rest chunks fin _ None Hv Hwf Hch ltac:(rewrite Hr; lia) Hf); [|congruence].
    intros s Hat. rewrite Hr in *.
    assert (Hav : zlen (stampeds ms) <= avail s).
    { destruct Hat as [Hfl _]. unfold avail. fold (flat s). rewrite Hfl, zlen_app. pose proof (zlen_nonneg rest). lia. }
    assert (Hfuel : S (Z.to_nat (avail s)) = (length ms + S (Z.to_nat (avail s) - length ms))%nat) by (unfold zlen in *; lia).
    rewrite Hfuel. rewrite <- (app_nil_r (stampeds ms)) in Hat.
    destruct (setsc_all unzip zip ms (S (Z.to_nat (avail s) - length ms)) (pr_topic p) (pr_pid p) (zlen (stampeds ms)) 0 [] rest st [] s Hw ltac:(lia) Hat) as [s1 [E1 A1]].
    exists s1. split; [exact A1|]. rewrite E1. cbn [decodeSets]. rewrite Z.add_0_l, Z.leb_refl. reflexivity.
  Qed.

  (** a last batch that the decompressor rejects is not delivered *)
  Theorem rejected_last v st p ms c w rest chunks fin e :
    (v = 0 \/ v = 7 \/ v = 10) -> wf_presp p -> Forall (wf_wb unzip) (map snd ms) ->
    wf_wb_common w -> wb_recs w <> [] -> wb_codec w <> 0 -> unzip (wb_codec w) (wb_payload w) = Err e ->
    pr_records p = stampeds ms ++ stamped c w ->
    concat chunks = enc_presp v p ++ rest ->
    fields_ok chunks (length (enc_presp_head v p)) (part_fields v p) ->
    exists s', streamDecode unzip zip v st (zlen (enc_presp v p)) (mkStream chunks fin) =
        Ok (let evs := exp_all (pr_topic p) (pr_pid p) st (map snd ms) in
            if nonempty evs then evs else [EvErr (if is_eof e then EMaxBytesTooSmall else EWrap e)], s') /\
      concat (st_chunks (d_in s')) = rest.
  Proof using unzip zip.
    intros Hv Hwf Hw Hwc Hne Hcd Hu Hr Hch Hf. pose proof (stampeds_len ms) as Hl. pose proof (zlen_nonneg ms).
    pose proof (stamped_len c w) as Hl2. pose proof (zlen_nonneg (wb_payload w)).
    set (evs := exp_all _ _ _ _).
    assert (G : exists s', streamDecode unzip zip v st (zlen (enc_presp v p)) (mkStream chunks fin) =
        Ok (if nonempty evs then evs
            else [EvErr (match (if nonempty evs then None else Some (EWrap e)) with Some e => if is_eof e then EMaxBytesTooSmall else e | None => EMaxBytesTooSmall end)], s') /\
      concat (st_chunks (d_in s')) = rest).
    { apply set_end; try assumption; [rewrite Hr, zlen_app; lia| |destruct evs; [reflexivity|cbn; congruence]].
      intros s Hat. rewrite Hr in *.
      assert (Hav : zlen (stampeds ms ++ stamped c w) <= avail s).
      { destruct Hat as [Hfl _]. unfold avail. fold (flat s). rewrite Hfl, (zlen_app _ rest). pose proof (zlen_nonneg rest). lia. }
      rewrite zlen_app in *.
      assert (Hfuel : S (Z.to_nat (avail s)) = (length ms + S (S (Z.to_nat (avail s) - length ms - 1)))%nat) by (unfold zlen in *; lia).
      rewrite Hfuel.
      destruct (setsc_all unzip zip ms (S (S (Z.to_nat (avail s) - length ms - 1))) (pr_topic p) (pr_pid p) (zlen (stampeds ms) + zlen (stamped c w)) 0 (stamped c w) rest st [] s Hw ltac:(lia) Hat) as [s1 [E1 A1]].
      cbn [app] in A1. fold evs in A1.
      rewrite E1. cbn [decodeSets]. destruct (Z.leb_spec (zlen (stampeds ms) + zlen (stamped c w)) (0 + zlen (stampeds ms))); [lia|].
      rewrite stamped_split in A1.
      destruct (try_read_at _ _ _ _ _ _ _ 17 A1 (head17_len w)) as [s2 [E2 [A2 _]]].
      erewrite dbind_ok by exact E2. cbn [fst snd]. rewrite (head17_magic unzip zip). change (2 <? 2) with false. cbv iota.
      rewrite <- (app_nil_r (wb_payload w)) in A2.
      destruct (rejected unzip zip (pr_topic p) (pr_pid p) c w [] rest st _ s2 e Hwc Hne Hcd Hu A2) as [s3 [E3 A3]].
      exists s3. split; [exact A3|]. change (zlen (@nil Z) <=? 0) with true in E3. cbn [andb] in E3.
      destruct (nonempty evs).
      - erewrite dbind_ok by exact E3. rewrite Hl2. destruct (Z.leb_spec (zlen (stampeds ms) + (61 + zlen (wb_payload w))) (0 + zlen (stampeds ms) + 17 + (44 + zlen (wb_payload w)))); [reflexivity|lia].
      - erewrite dbind_err by exact E3. reflexivity. }
    destruct G as [s' [G1 G2]]. exists s'. split; [|exact G2]. rewrite G1. cbv zeta. destruct evs; reflexivity.
  Qed.
End Response.

(** *** old messages: the checksum, bytes 12-15, has no part in the result *)
Lemma old_any_checksum zip : forall f (a c c' t : bytes), zlen a = 12 -> zlen c = 4 -> zlen c' = 4 ->
  decodeToMessageSet zip f (a ++ c ++ t) = decodeToMessageSet zip f (a ++ c' ++ t).
Proof.
  intros f a c c' t Ha Hc Hc'.
  assert (La : length a = 12%nat) by (unfold zlen in Ha; lia).
  assert (Lc : length c = 4%nat) by (unfold zlen in Hc; lia).
  assert (Lc' : length c' = 4%nat) by (unfold zlen in Hc'; lia).
  do 12 (destruct a as [|? a]; [discriminate La|]). destruct a; [|discriminate La].
  do 4 (destruct c as [|? c]; [discriminate Lc|]). destruct c; [|discriminate Lc].
  do 4 (destruct c' as [|? c']; [discriminate Lc'|]). destruct c'; [|discriminate Lc'].
  destruct f; reflexivity.
Qed.
