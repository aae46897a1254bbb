From Verif Require Import Base BaseFacts Wire RecordSpec Records RecordFacts Fetch FetchSpec.

Definition flat (s : dst) : bytes := concat (st_chunks (d_in s)).

(** *** chunks *)
Lemma take_full_spec : forall cs n, (n <= length (concat cs))%nat ->
  fst (take_full n cs) = firstn n (concat cs) /\ concat (snd (take_full n cs)) = skipn n (concat cs).
Proof.
  induction cs as [|c cs IH]; intros n Hn; cbn [take_full concat] in *.
  - rewrite firstn_nil, skipn_nil. split; reflexivity.
  - rewrite app_length in Hn. destruct (Nat.leb_spec n (length c)) as [H|H]; cbn [fst snd concat].
    + rewrite firstn_app, skipn_app. replace (n - length c)%nat with O by lia.
      rewrite firstn_O, skipn_O, app_nil_r. split; reflexivity.
    + specialize (IH (n - length c)%nat ltac:(lia)). destruct (take_full (n - length c) cs) as [b r].
      cbn [fst snd] in *. destruct IH as [-> E].
      assert (E1 : firstn n c = c) by (apply firstn_all2; lia). assert (E2 : skipn n c = []) by (apply skipn_all2; lia).
      rewrite firstn_app, skipn_app, E1, E2. split; [reflexivity|]. exact E.
Qed.

Lemma take_full_unsplit : forall cs n p l, (n <= length (concat cs))%nat ->
  unsplit cs (n + p) l -> unsplit (snd (take_full n cs)) p l.
Proof.
  induction cs as [|c cs IH]; intros n p l Hn H; cbn [take_full concat unsplit] in *; [exact I|].
  rewrite app_length in Hn. destruct (Nat.leb_spec n (length c)) as [Hc|Hc]; cbn [snd unsplit].
  - rewrite skipn_length. destruct (Nat.ltb_spec (n + p) (length c)), (Nat.ltb_spec p (length c - n)); try lia.
    replace (p - (length c - n))%nat with (n + p - length c)%nat by lia. exact H.
  - destruct (Nat.ltb_spec (n + p) (length c)); [lia|].
    pose proof (IH (n - length c)%nat p l ltac:(lia)) as G.
    replace (n - length c + p)%nat with (n + p - length c)%nat in G by lia.
    destruct (take_full (n - length c) cs); cbn [snd] in *. exact (G H).
Qed.
Lemma take_full_fields : forall ls cs n p, (n <= length (concat cs))%nat ->
  fields_ok cs (n + p) ls -> fields_ok (snd (take_full n cs)) p ls.
Proof.
  induction ls as [|l ls IH]; intros cs n p Hn H; cbn [fields_ok] in *; [exact I|].
  destruct H as [H1 H2]. split; [apply take_full_unsplit; assumption|].
  apply IH; [exact Hn|]. rewrite Nat.add_assoc. exact H2.
Qed.
Lemma read1_spec : forall cs n, (0 < n)%nat -> (n <= length (concat cs))%nat -> unsplit cs 0 n ->
  exists r, read1 n cs = Some (firstn n (concat cs), r) /\ concat r = skipn n (concat cs) /\
    forall p l, unsplit cs (n + p) l -> unsplit r p l.
Proof.
  induction cs as [|c cs IH]; intros n H0 Hn Hu; cbn [read1 concat unsplit] in *; [cbn in Hn; lia|].
  destruct c as [|x c].
  - cbn [length app] in *. cbn [Nat.ltb Nat.leb] in Hu. rewrite Nat.sub_0_r in Hu.
    destruct (IH n H0 Hn Hu) as [r [E1 [E2 E3]]]. exists r. split; [exact E1|]. split; [exact E2|].
    intros p l H. apply E3. destruct (Nat.ltb_spec (n + p) 0); [lia|]. rewrite Nat.sub_0_r in H. exact H.
  - set (C := x :: c) in *. destruct (Nat.ltb_spec 0 (length C)); [|cbn in *; lia].
    exists (skipn n C :: cs). split; [|split].
    + rewrite firstn_app. replace (n - length C)%nat with O by lia. rewrite firstn_O, app_nil_r. reflexivity.
    + cbn [concat]. rewrite skipn_app. replace (n - length C)%nat with O by lia. reflexivity.
    + intros p l Hp. cbn [unsplit]. rewrite skipn_length.
      destruct (Nat.ltb_spec (n + p) (length C)), (Nat.ltb_spec p (length C - n)); try lia.
      replace (p - (length C - n))%nat with (n + p - length C)%nat by lia. exact Hp.
Qed.
Lemma read1_fields cs r n : (forall p l, unsplit cs (n + p) l -> unsplit r p l) ->
  forall ls p, fields_ok cs (n + p) ls -> fields_ok r p ls.
Proof.
  intros H. induction ls as [|l ls IH]; intros p Hf; cbn [fields_ok] in *; [exact I|].
  destruct Hf as [H1 H2]. split; [apply H; exact H1|]. apply IH. rewrite Nat.add_assoc. exact H2.
Qed.

(** *** decoder states: [data] is what is left of the response, [rest] what follows on
    the connection *)
Definition at_ (data rest : bytes) (start : Z) (has : bool) (out : list event) (s : dst) : Prop :=
  flat s = data ++ rest /\ d_lim s = zlen data /\ d_off s + zlen data = d_total s /\
  d_start s = start /\ d_has s = has /\ d_out s = out.

Lemma dbind_ok {A B} (p : dec A) (k : A -> dec B) s a s' : p s = DOk a s' -> dbind p k s = k a s'.
Proof. intros H; unfold dbind; rewrite H; reflexivity. Qed.
Lemma dbind_err {A B} (p : dec A) (k : A -> dec B) s e s' : p s = DErr e s' -> dbind p k s = DErr e s'.
Proof. intros H; unfold dbind; rewrite H; reflexivity. Qed.

Lemma zlen_len {A} (l : list A) n : zlen l = n -> length l = Z.to_nat n.
Proof. unfold zlen; lia. Qed.

Lemma try_read_at a data rest st h o s n : at_ (a ++ data) rest st h o s -> zlen a = n ->
  exists s', try_read n s = DOk (a, None) s' /\ at_ data rest st h o s' /\
    (forall ls p, fields_ok (st_chunks (d_in s)) (Z.to_nat n + p) ls -> fields_ok (st_chunks (d_in s')) p ls).
Proof.
  intros [Hf [Hl [Ho Hr]]] Hn. unfold try_read. pose proof (zlen_nonneg a). pose proof (zlen_nonneg data).
  destruct (Z.leb_spec n 0) as [Hn0|Hn0].
  { assert (a = []) as -> by (destruct a; [reflexivity|rewrite zlen_cons in Hn; pose proof (zlen_nonneg a); lia]).
    exists s. split; [reflexivity|]. split; [repeat split; assumption || apply Hr|].
    replace (Z.to_nat n) with O by lia. intros ls p HH; exact HH. }
  rewrite zlen_app in Hl, Ho.
  assert (Hav : avail s = zlen a + zlen data + zlen rest) by (unfold avail; fold (flat s); rewrite Hf, !zlen_app; lia).
  pose proof (zlen_nonneg rest).
  replace (Z.min (Z.min n (Z.max 0 (d_lim s))) (avail s)) with n by lia.
  assert (Hle : (Z.to_nat n <= length (concat (st_chunks (d_in s))))%nat).
  { fold (flat s). rewrite Hf, !app_length. unfold zlen in *. lia. }
  destruct (take_full_spec (st_chunks (d_in s)) (Z.to_nat n) Hle) as [E1 E2].
  pose proof (take_full_fields) as TF. specialize (fun ls p => TF ls (st_chunks (d_in s)) (Z.to_nat n) p Hle).
  destruct (take_full (Z.to_nat n) (st_chunks (d_in s))) as [b cs]. cbn [fst snd] in *.
  fold (flat s) in E1, E2. rewrite Hf in E1, E2. rewrite <- app_assoc in E1, E2.
  rewrite firstn_app_exact in E1 by (unfold zlen in Hn; lia). rewrite skipn_app_exact in E2 by (unfold zlen in Hn; lia).
  subst b. rewrite (proj2 (Z.eqb_eq _ _) Hn).
  eexists. split; [reflexivity|]. split; [|exact TF].
  unfold at_, flat, with_in; cbn. repeat split; try apply Hr; try exact E2; lia.
Qed.
Lemma read_at a data rest st h o s n : at_ (a ++ data) rest st h o s -> zlen a = n ->
  exists s', read n s = DOk a s' /\ at_ data rest st h o s' /\
    (forall ls p, fields_ok (st_chunks (d_in s)) (Z.to_nat n + p) ls -> fields_ok (st_chunks (d_in s')) p ls).
Proof.
  intros H Hn. destruct (try_read_at a data rest st h o s n H Hn) as [s' [E [E2 E3]]].
  exists s'. split; [|split; assumption]. unfold read. erewrite dbind_ok by exact E. reflexivity.
Qed.
Lemma try_read_short data rest st h o s n : at_ data rest st h o s -> zlen data < n ->
  exists s', try_read n s = DOk (data, Some (if zlen data =? 0 then EEOF else EUnexpectedEOF)) s' /\
    at_ [] rest st h o s'.
Proof.
  intros [Hf [Hl [Ho Hr]]] Hn. unfold try_read. pose proof (zlen_nonneg data). pose proof (zlen_nonneg rest).
  destruct (Z.leb_spec n 0); [lia|].
  assert (Hav : avail s = zlen data + zlen rest) by (unfold avail; fold (flat s); rewrite Hf, !zlen_app; lia).
  replace (Z.min (Z.min n (Z.max 0 (d_lim s))) (avail s)) with (zlen data) by lia.
  assert (Hle : (Z.to_nat (zlen data) <= length (concat (st_chunks (d_in s))))%nat).
  { fold (flat s). rewrite Hf, !app_length. unfold zlen in *. lia. }
  destruct (take_full_spec (st_chunks (d_in s)) (Z.to_nat (zlen data)) Hle) as [E1 E2].
  destruct (take_full (Z.to_nat (zlen data)) (st_chunks (d_in s))) as [b cs]. cbn [fst snd] in *.
  fold (flat s) in E1, E2. rewrite Hf in E1, E2.
  rewrite firstn_app_exact in E1 by (unfold zlen; lia). rewrite skipn_app_exact in E2 by (unfold zlen; lia).
  subst b. destruct (Z.eqb_spec (zlen data) n); [lia|].
  replace (Z.min n (Z.max 0 (d_lim s))) with (zlen data) by lia. rewrite Z.eqb_refl. cbn [orb].
  eexists. split; [reflexivity|]. unfold at_, flat, with_in; cbn. repeat split; try apply Hr; try exact E2; rewrite ?zlen_nil; lia.
Qed.
Lemma read_limit_at a data rest st h o s k : at_ (a ++ data) rest st h o s ->
  zlen a = k \/ (data = [] /\ zlen a <= k) ->
  exists s', read_limit k s = DOk (a, None) s' /\ at_ data rest st h o s'.
Proof.
  intros [Hf [Hl [Ho Hr]]] Hk. unfold read_limit. pose proof (zlen_nonneg a). pose proof (zlen_nonneg data). pose proof (zlen_nonneg rest).
  rewrite zlen_app in Hl, Ho.
  assert (Hav : avail s = zlen a + zlen data + zlen rest) by (unfold avail; fold (flat s); rewrite Hf, !zlen_app; lia).
  assert (Hm : Z.min (Z.max 0 k) (Z.max 0 (d_lim s)) = zlen a).
  { destruct Hk as [Hk|[-> Hk]]; rewrite ?zlen_nil in *; lia. }
  rewrite Hm. replace (Z.min (zlen a) (avail s)) with (zlen a) by lia.
  assert (Hle : (Z.to_nat (zlen a) <= length (concat (st_chunks (d_in s))))%nat).
  { fold (flat s). rewrite Hf, !app_length. unfold zlen in *. lia. }
  destruct (take_full_spec (st_chunks (d_in s)) (Z.to_nat (zlen a)) Hle) as [E1 E2].
  destruct (take_full (Z.to_nat (zlen a)) (st_chunks (d_in s))) as [b cs]. cbn [fst snd] in *.
  fold (flat s) in E1, E2. rewrite Hf, <- app_assoc in E1, E2.
  rewrite firstn_app_exact in E1 by (unfold zlen; lia). rewrite skipn_app_exact in E2 by (unfold zlen; lia).
  subst b. rewrite Z.eqb_refl. eexists. split; [reflexivity|].
  unfold at_, flat, with_in; cbn. repeat split; try apply Hr; try exact E2; lia.
Qed.
Lemma read_some_at a data rest st h o s n : at_ (a ++ data) rest st h o s -> zlen a = n -> 0 < n ->
  unsplit (st_chunks (d_in s)) 0 (Z.to_nat n) ->
  exists s', read_some n s = DOk a s' /\ at_ data rest st h o s' /\
    (forall ls p, fields_ok (st_chunks (d_in s)) (Z.to_nat n + p) ls -> fields_ok (st_chunks (d_in s')) p ls).
Proof.
  intros [Hf [Hl [Ho Hr]]] Hn H0 Hu. unfold read_some. pose proof (zlen_nonneg a). pose proof (zlen_nonneg data).
  rewrite zlen_app in Hl, Ho. destruct (Z.leb_spec (d_lim s) 0); [lia|].
  replace (Z.min n (d_lim s)) with n by lia.
  assert (Hle : (Z.to_nat n <= length (concat (st_chunks (d_in s))))%nat).
  { fold (flat s). rewrite Hf, !app_length. unfold zlen in *. lia. }
  destruct (read1_spec (st_chunks (d_in s)) (Z.to_nat n) ltac:(lia) Hle Hu) as [r [E1 [E2 E3]]].
  rewrite E1. fold (flat s) in *. rewrite Hf, <- app_assoc in *.
  rewrite firstn_app_exact in * by (unfold zlen in Hn; lia). rewrite skipn_app_exact in * by (unfold zlen in Hn; lia).
  eexists. split; [reflexivity|]. split; [|exact (read1_fields _ _ _ E3)].
  unfold at_, flat, with_in; cbn. repeat split; try apply Hr; try exact E2; lia.
Qed.

(** *** what the consumer should be handed *)
Lemma nonempty_app {A} (a b : list A) : nonempty (a ++ b) = nonempty a || nonempty b.
Proof. destruct a; reflexivity. Qed.

Definition at2 (data rest : bytes) (start : Z) (out : list event) (s : dst) : Prop :=
  at_ data rest start (nonempty out) out s.

Lemma put_at topic pid m data rest st o s : at2 data rest st o s ->
  exists s', put topic pid m s = DOk tt s' /\
    at2 data rest st (o ++ if wanted st m then [EvMsg topic pid m] else []) s'.
Proof.
  intros [Hf [Hl [Ho [Hs [Hh Hou]]]]]. unfold put, wanted. rewrite Hs.
  destruct (st <=? m_offset m); eexists; (split; [reflexivity|]).
  - unfold at2, at_, flat in *; cbn. rewrite nonempty_app, orb_true_r. repeat split; try assumption. rewrite Hou; reflexivity.
  - rewrite app_nil_r. unfold at2, at_. repeat split; assumption.
Qed.

Lemma enc_srecord_pos r : (1 <= length (enc_srecord r))%nat.
Proof. unfold enc_srecord. rewrite app_length. unfold varint. pose proof (uvarint_nonempty (zigzag (zlen (enc_sbody r)))). lia. Qed.

Lemma put_records_at topic pid b : forall rs n k data rest st o s,
  Forall wf_srecord rs -> Forall headers_present rs ->
  Forall (fun r => i64 (sb_base b + sr_od r)) rs ->
  (length rs <= n \/ length (firstn k (flat_map enc_srecord rs)) < n)%nat ->
  at2 data rest st o s ->
  exists s', put_records n topic pid (sb_base b) (sb_bts b mod 2 ^ 64) (firstn k (flat_map enc_srecord rs)) s = DOk tt s' /\
    at2 data rest st (o ++ exp_events topic pid st b (whole k rs)) s'.
Proof.
  induction rs as [|r rs IH]; intros n k data rest st o s Hw Hp Ho Hn Hat.
  - cbn [flat_map whole]. rewrite firstn_nil. exists s. split.
    + destruct n; reflexivity.
    + unfold exp_events; cbn. rewrite app_nil_r. exact Hat.
  - inversion Hw as [|? ? Hw1 Hw2]; subst. inversion Hp as [|? ? Hp1 Hp2]; subst. inversion Ho as [|? ? Ho1 Ho2]; subst.
    pose proof (enc_srecord_pos r) as Hpos. cbn [flat_map whole length] in *. rewrite firstn_app in *.
    destruct n as [|n]; [lia|]. cbn [put_records].
    destruct (Nat.leb_spec (length (enc_srecord r)) k) as [Hk|Hk].
    + assert (E : firstn k (enc_srecord r) = enc_srecord r) by (apply firstn_all2; lia). rewrite E in *.
      rewrite decodeToRecord_enc by assumption. rewrite app_length in Hn.
      cbn [of_spec r_od r_attr r_ts r_key r_value r_headers].
      assert (Em : mkMsg (sint 64 (sr_od r + sb_base b)) 2 (sr_attr r) (uint 64 (sr_ts r + sb_bts b mod 2 ^ 64))
          (nz (sr_key r)) (nz (sr_value r)) (map of_header (sr_headers r)) = exp_msg b r).
      { unfold exp_msg. f_equal.
        - rewrite Z.add_comm. apply sint_id; [lia|exact Ho1].
        - unfold uint. rewrite Zplus_mod_idemp_r. reflexivity. }
      rewrite Em. destruct (put_at topic pid (exp_msg b r) data rest st o s Hat) as [s1 [E1 A1]].
      erewrite dbind_ok by exact E1.
      destruct (IH n (k - length (enc_srecord r))%nat data rest st _ s1 Hw2 Hp2 Ho2 ltac:(lia) A1) as [s2 [E2 A2]].
      exists s2. split; [exact E2|]. unfold exp_events in *. cbn [map filter].
      rewrite <- app_assoc in A2. destruct (wanted st (exp_msg b r)); exact A2.
    + replace (k - length (enc_srecord r))%nat with O by lia. rewrite firstn_O, app_nil_r.
      rewrite decodeToRecord_cut by (exact Hw1 || lia). exists s. split; [reflexivity|].
      unfold exp_events; cbn. rewrite app_nil_r. exact Hat.
Qed.
Lemma flat_map_enc_len rs : (length rs <= length (flat_map enc_srecord rs))%nat.
Proof. induction rs as [|r rs IH]; cbn [flat_map length]; [lia|]. rewrite app_length. pose proof (enc_srecord_pos r). lia. Qed.
Lemma whole_all rs k : (length (flat_map enc_srecord rs) <= k)%nat -> whole k rs = rs.
Proof.
  revert k; induction rs as [|r rs IH]; intros k Hk; cbn [flat_map whole] in *; [reflexivity|].
  rewrite app_length in Hk. destruct (Nat.leb_spec (length (enc_srecord r)) k); [|lia].
  f_equal. apply IH. lia.
Qed.

(** *** one batch *)
Definition head17 (w : wbatch) : bytes :=
  be 8 (sb_base (wb_h w)) ++ be 4 (49 + zlen (wb_payload w)) ++ be 4 (sb_epoch (wb_h w)) ++ be 1 2.
Definition head44 (w : wbatch) : bytes :=
  let b := wb_h w in
  be 4 (crc32c (enc_sbatch_tail b (zlen (wb_recs w)) (wb_payload w)))
  ++ be 2 (sb_attr b) ++ be 4 (sb_lod b) ++ be 8 (sb_bts b) ++ be 8 (sb_mts b) ++ be 8 (sb_pid b)
  ++ be 2 (sb_pepoch b) ++ be 4 (sb_seq b) ++ be 4 (zlen (wb_recs w)).
Lemma enc_wb_split w : enc_wb w = head17 w ++ head44 w ++ wb_payload w.
Proof.
  unfold enc_wb, enc_sbatch, head17, head44. cbv zeta. rewrite <- !app_assoc. do 2 f_equal.
  - f_equal. unfold enc_sbatch_tail. rewrite !zlen_app, !zlen_be. lia.
Qed.
Lemma head17_len w : zlen (head17 w) = 17.
Proof. unfold head17. rewrite !zlen_app, !zlen_be. reflexivity. Qed.
Lemma head44_len w : zlen (head44 w) = 44.
Proof. unfold head44. cbv zeta. rewrite !zlen_app, !zlen_be. reflexivity. Qed.
Lemma enc_wb_len w : zlen (enc_wb w) = 61 + zlen (wb_payload w).
Proof. rewrite enc_wb_split, !zlen_app, head17_len, head44_len. lia. Qed.

Lemma land3_mod x : Z.land (x mod 65536) 3 = Z.land x 3.
Proof. change 3 with (Z.ones 2). rewrite !Z.land_ones by lia. change (2 ^ 2) with 4. lia. Qed.

Lemma land73 a : Z.land a 7 <= 3 -> Z.land a 3 = Z.land a 7.
Proof. change 3 with (Z.ones 2) at 2. change 7 with (Z.ones 3). rewrite !Z.land_ones by lia. change (2 ^ 2) with 4. change (2 ^ 3) with 8. lia. Qed.
Lemma land7_id c : 0 <= c <= 3 -> Z.land c 7 = c.
Proof. intros H. change 7 with (Z.ones 3). rewrite Z.land_ones by lia. apply Z.mod_small. change (2 ^ 3) with 8. lia. Qed.

Section Codec.
  Variable unzip zip : Z -> bytes -> res bytes.

  (** the fields decodeRecordsMagic2 looks at *)
  Lemma magic2_fields w : wf_wb_common w ->
    let buf := head17 w ++ head44 w in
    sint 64 (unbe (firstn 8 buf)) = sb_base (wb_h w) /\
    unbe (firstn 4 (skipn 8 buf)) = 49 + zlen (wb_payload w) /\
    Z.land (unbe (firstn 2 (skipn 21 buf))) 3 = wb_codec w /\
    unbe (firstn 8 (skipn 27 buf)) = sb_bts (wb_h w) mod 2 ^ 64 /\
    unbe (firstn 4 (skipn 57 buf)) = zlen (wb_recs w).
  Proof using unzip zip.
    intros [[Hb _] [_ [_ [_ [Hn [Hp Hcd]]]]]] buf.
    assert (E1 : firstn 8 buf = be 8 (sb_base (wb_h w))) by reflexivity.
    assert (E2 : firstn 4 (skipn 8 buf) = be 4 (49 + zlen (wb_payload w))) by reflexivity.
    assert (E3 : firstn 2 (skipn 21 buf) = be 2 (sb_attr (wb_h w))) by reflexivity.
    assert (E4 : firstn 8 (skipn 27 buf) = be 8 (sb_bts (wb_h w))) by reflexivity.
    assert (E5 : firstn 4 (skipn 57 buf) = be 4 (zlen (wb_recs w))) by reflexivity.
    rewrite E1, E2, E3, E4, E5, !unbe_be.
    pose proof (zlen_nonneg (wb_payload w)). pose proof (zlen_nonneg (wb_recs w)).
    change (256 ^ Z.of_nat 8) with (2 ^ 64). change (256 ^ Z.of_nat 4) with (2 ^ 32). change (256 ^ Z.of_nat 2) with 65536.
    assert (2 ^ 32 = 2 * 2 ^ 31) by reflexivity. assert (49 < 2 ^ 31) by reflexivity.
    repeat split.
    - rewrite sint_mod by lia. apply sint_id; [lia|exact Hb].
    - apply Z.mod_small; lia.
    - rewrite land3_mod. apply land73, Hcd.
    - apply Z.mod_small; lia.
  Qed.

  (** [pl] is the payload, or, for an uncompressed batch at the very end of the data, a
      prefix of it *)
  Lemma magic2_at topic pid w k data rest st o s :
    wf_wb unzip w -> wb_recs w <> [] ->
    ((length (wb_payload w) <= k)%nat \/ (data = [] /\ wb_codec w = 0)) ->
    at2 (head44 w ++ firstn k (wb_payload w) ++ data) rest st o s ->
    exists s', decodeRecordsMagic2 unzip topic pid (head17 w) s = DOk (44 + zlen (wb_payload w)) s' /\
      at2 data rest st (o ++ exp_events topic pid st (wb_h w)
                               (if wb_codec w =? 0 then whole k (wb_recs w) else wb_recs w)) s'.
  Proof using unzip zip.
    intros [Hc Hz] Hne Hk Hat. unfold decodeRecordsMagic2.
    destruct (try_read_at _ _ _ _ _ _ _ 44 Hat (head44_len w)) as [s1 [E1 [A1 _]]].
    erewrite dbind_ok by exact E1. cbn [fst snd].
    destruct (magic2_fields w Hc) as [F1 [F2 [F3 [F4 F5]]]]. cbv zeta in *.
    rewrite F1, F2, F3, F4, F5.
    assert (Hpos : 0 < zlen (wb_recs w)) by (destruct (wb_recs w); [congruence|]; rewrite zlen_cons; pose proof (zlen_nonneg l); lia).
    destruct (Z.leb_spec (zlen (wb_recs w)) 0); [lia|].
    replace (49 + zlen (wb_payload w) - 49) with (zlen (wb_payload w)) by lia.
    assert (Hl : zlen (firstn k (wb_payload w)) = zlen (wb_payload w) \/
                 data = [] /\ zlen (firstn k (wb_payload w)) <= zlen (wb_payload w)).
    { unfold zlen. rewrite firstn_length. destruct Hk as [Hk|[Hk _]]; [left; lia|right; split; [exact Hk|lia]]. }
    destruct (read_limit_at _ _ _ _ _ _ _ (zlen (wb_payload w)) A1 Hl) as [s2 [E2 A2]].
    erewrite dbind_ok by exact E2. cbn [fst snd].
    destruct Hc as [_ [Hw [Hp [Ho [Hn Hpl]]]]].
    destruct (Z.eqb_spec (wb_codec w) 0) as [Hc0|Hc0].
    - rewrite Hz. destruct (put_records_at topic pid (wb_h w) (wb_recs w)
        (Z.to_nat (Z.min (zlen (wb_recs w)) (zlen (firstn k (flat_map enc_srecord (wb_recs w))) + 1)))
        k data rest st o s2 Hw Hp Ho ltac:(unfold zlen; lia) A2) as [s3 [E3 A3]].
      erewrite dbind_ok by exact E3. exists s3. split; [reflexivity|exact A3].
    - assert (Hk' : (length (wb_payload w) <= k)%nat) by (destruct Hk as [Hk|[_ Hk]]; [exact Hk|congruence]).
      assert (Ef : firstn k (wb_payload w) = wb_payload w) by (apply firstn_all2; exact Hk').
      rewrite Ef. destruct (wb_recs w) as [|r0 rs0] eqn:Er; [congruence|]. rewrite <- Er in *.
      assert (nonempty (wb_recs w) = true) as Hne' by (rewrite Er; reflexivity).
      rewrite Hne' in Hz. rewrite Hz.
      set (raw := flat_map enc_srecord (wb_recs w)) in *.
      destruct (put_records_at topic pid (wb_h w) (wb_recs w)
        (Z.to_nat (Z.min (zlen (wb_recs w)) (zlen raw + 1)))
        (length raw) data rest st o s2 Hw Hp Ho) as [s3 [E3 A3]].
      { fold raw. rewrite firstn_all. unfold zlen. lia. }
      { exact A2. }
      fold raw in E3. rewrite firstn_all in E3.
      erewrite dbind_ok by exact E3. exists s3. split; [reflexivity|].
      rewrite whole_all in A3 by (fold raw; lia). exact A3.
  Qed.

  Lemma magic2_empty topic pid w data rest st o s :
    wf_wb unzip w -> wb_recs w = [] ->
    at2 (head44 w ++ data) rest st o s ->
    exists s', decodeRecordsMagic2 unzip topic pid (head17 w) s = DOk 44 s' /\ at2 data rest st o s'.
  Proof using unzip zip.
    intros [Hc Hz] Hne Hat. unfold decodeRecordsMagic2.
    destruct (try_read_at _ _ _ _ _ _ _ 44 Hat (head44_len w)) as [s1 [E1 [A1 _]]].
    erewrite dbind_ok by exact E1. cbn [fst snd].
    destruct (magic2_fields w Hc) as [F1 [F2 [F3 [F4 F5]]]]. cbv zeta in *.
    rewrite F5, Hne. exists s1. split; [reflexivity|exact A1].
  Qed.
  Lemma wf_empty_payload w : wf_wb unzip w -> wb_recs w = [] -> wb_payload w = [].
  Proof using unzip zip. intros [_ Hz] He. rewrite He in Hz. cbn in Hz. destruct (wb_codec w =? 0); exact Hz. Qed.

  (** *** a sequence of batches *)
  Lemma head17_magic w : nth 16 (head17 w) 0 = 2.
  Proof using unzip zip. reflexivity. Qed.

  Lemma sets_one f topic pid size offset w data rest st o s :
    wf_wb unzip w -> offset < size ->
    at2 (enc_wb w ++ data) rest st o s ->
    exists s', decodeSets unzip zip (S f) topic pid size offset s
               = decodeSets unzip zip f topic pid size (offset + zlen (enc_wb w)) s' /\
      at2 data rest st (o ++ exp_events topic pid st (wb_h w) (wb_recs w)) s'.
  Proof using unzip zip.
    intros Hw Hs Hat. cbn [decodeSets]. destruct (Z.leb_spec size offset); [lia|].
    rewrite enc_wb_split, <- !app_assoc in Hat.
    destruct (try_read_at _ _ _ _ _ _ _ 17 Hat (head17_len w)) as [s1 [E1 [A1 _]]].
    erewrite dbind_ok by exact E1. cbn [fst snd]. rewrite head17_magic. cbn [Z.ltb Z.compare].
    rewrite enc_wb_len.
    destruct (wb_recs w) as [|r0 rs0] eqn:Er.
    - pose proof (wf_empty_payload w Hw Er) as Ep. rewrite Ep in *. cbn [app] in A1.
      destruct (magic2_empty topic pid w data rest st o s1 Hw Er A1) as [s2 [E2 A2]].
      change (2 <? 2) with false. cbv iota. erewrite dbind_ok by exact E2. exists s2. split.
      + rewrite zlen_nil. f_equal. lia.
      + unfold exp_events; cbn. rewrite app_nil_r. exact A2.
    - rewrite <- Er in *. assert (Hne : wb_recs w <> []) by congruence.
      rewrite <- (firstn_all (wb_payload w)) in A1.
      destruct (magic2_at topic pid w (length (wb_payload w)) data rest st o s1 Hw Hne ltac:(left; lia) A1) as [s2 [E2 A2]].
      change (2 <? 2) with false. cbv iota. erewrite dbind_ok by exact E2. exists s2. split.
      + f_equal. lia.
      + destruct (Z.eqb_spec (wb_codec w) 0) as [Hc|Hc]; [|exact A2].
        destruct Hw as [_ Hz]. destruct (Z.eqb_spec (wb_codec w) 0); [|congruence].
        rewrite whole_all in A2 by (rewrite <- Hz; lia). exact A2.
  Qed.

  Lemma sets_all : forall ws f topic pid size offset data rest st o s,
    Forall (wf_wb unzip) ws ->
    offset + zlen (flat_map enc_wb ws) <= size ->
    at2 (flat_map enc_wb ws ++ data) rest st o s ->
    exists s', decodeSets unzip zip (length ws + f) topic pid size offset s
               = decodeSets unzip zip f topic pid size (offset + zlen (flat_map enc_wb ws)) s' /\
      at2 data rest st (o ++ exp_all topic pid st ws) s'.
  Proof using unzip zip.
    induction ws as [|w ws IH]; intros f topic pid size offset data rest st o s Hw Hs Hat.
    - exists s. cbn. rewrite Z.add_0_r, app_nil_r. split; [reflexivity|exact Hat].
    - inversion Hw as [|? ? Hw1 Hw2]; subst. cbn [flat_map length Nat.add] in *.
      rewrite zlen_app in Hs. pose proof (zlen_nonneg (flat_map enc_wb ws)).
      pose proof (enc_wb_len w). pose proof (zlen_nonneg (wb_payload w)).
      rewrite <- app_assoc in Hat.
      destruct (sets_one (length ws + f) topic pid size offset w _ rest st o s Hw1 ltac:(lia) Hat) as [s1 [E1 A1]].
      destruct (IH f topic pid size (offset + zlen (enc_wb w)) data rest st _ s1 Hw2 ltac:(lia) A1) as [s2 [E2 A2]].
      exists s2. rewrite E1, E2, zlen_app. split; [f_equal; lia|].
      unfold exp_all in *. cbn [flat_map]. rewrite app_assoc. exact A2.
  Qed.

  (** the end: nothing, or a cut-off uncompressed batch *)
  Lemma sets_cut f topic pid size offset w k rest st o s :
    wf_wb unzip w -> wb_recs w <> [] -> wb_codec w = 0 -> (k < length (enc_wb w))%nat ->
    offset + Z.of_nat k = size ->
    at2 (firstn k (enc_wb w)) rest st o s ->
    exists s', (decodeSets unzip zip (S (S f)) topic pid size offset s = DOk tt s' \/
                decodeSets unzip zip (S (S f)) topic pid size offset s = DErr EEOF s') /\
      at2 [] rest st (o ++ exp_cut topic pid st w k) s'.
  Proof using unzip zip.
    intros Hw Hne Hc Hk Hs Hat.
    assert (Hlen : zlen (firstn k (enc_wb w)) = Z.of_nat k) by (unfold zlen; rewrite firstn_length; lia).
    destruct (Nat.eqb_spec k 0) as [->|Hk0].
    { cbn [decodeSets]. destruct (Z.leb_spec size offset); [|lia]. exists s. split; [left; reflexivity|].
      unfold exp_cut, exp_events. replace (whole (0 - 61) (wb_recs w)) with (@nil srecord).
      - cbn. rewrite app_nil_r. exact Hat.
      - destruct (wb_recs w) as [|r rs]; [reflexivity|]. cbn [whole Nat.sub]. pose proof (enc_srecord_pos r).
        destruct (Nat.leb_spec (length (enc_srecord r)) 0); [lia|reflexivity]. }
    assert (Hnil : (k <= 61)%nat -> exp_cut topic pid st w k = []).
    { intros Hk61. unfold exp_cut, exp_events. replace (k - 61)%nat with O by lia.
      destruct (wb_recs w) as [|r rs]; [reflexivity|]. cbn [whole]. pose proof (enc_srecord_pos r).
      destruct (Nat.leb_spec (length (enc_srecord r)) 0); [lia|reflexivity]. }
    cbn [decodeSets]. destruct (Z.leb_spec size offset); [lia|].
    destruct (Nat.ltb_spec k 17) as [H17|H17].
    { destruct (try_read_short _ _ _ _ _ _ 17 Hat ltac:(lia)) as [s1 [E1 A1]].
      erewrite dbind_ok by exact E1. cbn [fst snd]. rewrite Hlen. destruct (Z.eqb_spec (Z.of_nat k) 0); [lia|].
      exists s1. split; [left; reflexivity|]. rewrite Hnil, app_nil_r by lia. exact A1. }
    rewrite enc_wb_split in Hat.
    assert (Hh17 : length (head17 w) = 17%nat) by (pose proof (head17_len w); unfold zlen in *; lia).
    assert (Hh44 : length (head44 w) = 44%nat) by (pose proof (head44_len w); unfold zlen in *; lia).
    rewrite firstn_app in Hat. assert (E17 : firstn k (head17 w) = head17 w) by (apply firstn_all2; lia).
    rewrite E17, Hh17 in Hat.
    destruct (try_read_at _ _ _ _ _ _ _ 17 Hat (head17_len w)) as [s1 [E1 [A1 _]]].
    erewrite dbind_ok by exact E1. cbn [fst snd]. rewrite head17_magic. change (2 <? 2) with false. cbv iota.
    destruct (Nat.ltb_spec k 61) as [H61|H61].
    { rewrite firstn_app, Hh44 in A1. replace (k - 17 - 44)%nat with O in A1 by lia. rewrite firstn_O, app_nil_r in A1.
      assert (Hl2 : zlen (firstn (k - 17) (head44 w)) = Z.of_nat k - 17) by (unfold zlen; rewrite firstn_length; lia).
      destruct (try_read_short _ _ _ _ _ _ 44 A1 ltac:(lia)) as [s2 [E2 A2]]. rewrite Hl2 in E2.
      unfold decodeRecordsMagic2. destruct (Z.eqb_spec (Z.of_nat k - 17) 0) as [H0|H0].
      - erewrite dbind_err; [|erewrite dbind_ok by exact E2; reflexivity].
        exists s2. split; [right; reflexivity|]. rewrite Hnil, app_nil_r by lia. exact A2.
      - erewrite dbind_ok; [|erewrite dbind_ok by exact E2; reflexivity].
        cbn [fst]; rewrite Hl2. destruct (Z.leb_spec size (offset + 17 + (Z.of_nat k - 17))); [|lia].
        exists s2. split; [left; reflexivity|]. rewrite Hnil, app_nil_r by lia. exact A2. }
    rewrite firstn_app, Hh44 in A1. assert (E44 : firstn (k - 17) (head44 w) = head44 w) by (apply firstn_all2; lia).
    rewrite E44 in A1. rewrite <- (app_nil_r (firstn (k - 17 - 44) (wb_payload w))) in A1.
    destruct (magic2_at topic pid w (k - 17 - 44) [] rest st o s1 Hw Hne ltac:(right; split; [reflexivity|exact Hc]) A1) as [s2 [E2 A2]].
    erewrite dbind_ok by exact E2. pose proof (enc_wb_len w) as Hle. unfold zlen in Hle at 1.
    destruct (Z.leb_spec size (offset + 17 + (44 + zlen (wb_payload w)))); [|lia].
    exists s2. split; [left; reflexivity|]. rewrite Hc in A2. cbn [Z.eqb] in A2.
    unfold exp_cut. replace (k - 61)%nat with (k - 17 - 44)%nat by lia. exact A2.
  Qed.
End Codec.

Section Response.
  Variable unzip zip : Z -> bytes -> res bytes.

  Lemma flat_enc_len ws : 61 * zlen ws <= zlen (flat_map enc_wb ws).
  Proof using unzip zip.
    induction ws as [|w ws IH]; [cbn; lia|]. cbn [flat_map]. rewrite zlen_app, zlen_cons, enc_wb_len.
    pose proof (zlen_nonneg (wb_payload w)). lia.
  Qed.

  Lemma message_set_at topic pid r rest st o s :
    wf_rset unzip r -> enc_rset r <> [] ->
    at2 (enc_rset r) rest st o s ->
    exists s', at2 [] rest st (o ++ exp_rset topic pid st r) s' /\
      (if nonempty (o ++ exp_rset topic pid st r)
       then decodeMessageSet unzip zip topic pid (zlen (enc_rset r)) s = DOk tt s'
       else decodeMessageSet unzip zip topic pid (zlen (enc_rset r)) s = DErr EEOF s' \/
            decodeMessageSet unzip zip topic pid (zlen (enc_rset r)) s = DErr EMaxBytesTooSmall s').
  Proof using unzip zip.
    intros [Hw Hc] Hne Hat.
    assert (Hsz : 1 <= zlen (enc_rset r)) by (destruct (enc_rset r); [congruence|rewrite zlen_cons; pose proof (zlen_nonneg l); lia]).
    assert (Hav : zlen (enc_rset r) <= avail s).
    { destruct Hat as [Hf _]. unfold avail. fold (flat s). rewrite Hf, zlen_app. pose proof (zlen_nonneg rest). lia. }
    pose proof (flat_enc_len (rs_whole r)) as Hfl.
    assert (Hsplit : zlen (enc_rset r) = zlen (flat_map enc_wb (rs_whole r)) +
              zlen (match rs_cut r with None => [] | Some (w, k) => firstn k (enc_wb w) end)) by (unfold enc_rset; rewrite zlen_app; lia).
    set (size := zlen (enc_rset r)) in *.
    assert (Hfuel : exists f, S (Z.to_nat (avail s)) = (length (rs_whole r) + S (S f))%nat).
    { exists (Z.to_nat (avail s) - length (rs_whole r) - 1)%nat. unfold zlen in *. lia. }
    unfold enc_rset in Hat.
    match type of Hat with at2 (_ ++ ?t) _ _ _ _ => set (tail := t) in * end.
    assert (Hcore : exists s', at2 [] rest st (o ++ exp_rset topic pid st r) s' /\
       (decodeSets unzip zip (S (Z.to_nat (avail s))) topic pid size 0 s = DOk tt s' \/
        decodeSets unzip zip (S (Z.to_nat (avail s))) topic pid size 0 s = DErr EEOF s')).
    { destruct Hfuel as [f Ef].
      - rewrite Ef. destruct (sets_all unzip zip (rs_whole r) (S (S f)) topic pid size 0 tail rest st o s Hw ltac:(pose proof (zlen_nonneg tail); lia) Hat) as [s1 [E1 A1]].
        rewrite E1. unfold exp_rset. rewrite app_assoc. unfold tail in *. destruct (rs_cut r) as [[w k]|].
        + destruct Hc as [Hc1 [Hc2 [Hc3 Hc4]]].
          assert (Hoff : 0 + zlen (flat_map enc_wb (rs_whole r)) + Z.of_nat k = size).
          { rewrite Hsplit. unfold zlen at 3. rewrite firstn_length. lia. }
          destruct (sets_cut unzip zip f topic pid size (0 + zlen (flat_map enc_wb (rs_whole r))) w k rest st _ s1 Hc1 Hc2 Hc3 Hc4 Hoff A1) as [s2 [E2 A2]].
          exists s2. split; [exact A2|exact E2].
        + exists s1. rewrite app_nil_r. split; [exact A1|]. left. rewrite zlen_nil in Hsplit.
          cbn [decodeSets]. destruct (Z.leb_spec size (0 + zlen (flat_map enc_wb (rs_whole r)))); [reflexivity|lia]. }
    destruct Hcore as [s' [A E]]. exists s'. split; [exact A|].
    destruct A as [_ [_ [_ [_ [Hhas _]]]]]. unfold decodeMessageSet.
    destruct E as [E|E]; rewrite E; cbn [is_eofs err_root andb]; rewrite Hhas;
      destruct (nonempty (o ++ exp_rset topic pid st r)); auto.
  Qed.

  Lemma read_buf_at a data rest st h o s n buf : at_ (a ++ data) rest st h o s -> zlen a = n -> 0 < n ->
    unsplit (st_chunks (d_in s)) 0 (Z.to_nat n) ->
    exists s', read_buf n buf s = DOk (a ++ skipn (length a) buf) s' /\ at_ data rest st h o s' /\
      (forall ls p, fields_ok (st_chunks (d_in s)) (Z.to_nat n + p) ls -> fields_ok (st_chunks (d_in s')) p ls).
  Proof using unzip zip.
    intros H1 H2 H3 H4. destruct (read_some_at _ _ _ _ _ _ _ _ H1 H2 H3 H4) as [s' [E R]].
    exists s'. split; [|exact R]. unfold read_buf. erewrite dbind_ok by exact E. reflexivity.
  Qed.

  (** one field of the partition header *)
  Lemma field_at a l ls data rest st h o s n buf : at_ (a ++ data) rest st h o s -> zlen a = n -> 0 < n ->
    l = Z.to_nat n -> fields_ok (st_chunks (d_in s)) 0 (l :: ls) ->
    exists s', read_buf n buf s = DOk (a ++ skipn (length a) buf) s' /\ at_ data rest st h o s' /\
      fields_ok (st_chunks (d_in s')) 0 ls.
  Proof using unzip zip.
    intros H1 H2 H3 -> [H4 H5]. destruct (read_buf_at _ _ _ _ _ _ _ n buf H1 H2 H3 H4) as [s' [E [A F]]].
    exists s'. split; [exact E|]. split; [exact A|]. apply F. rewrite Nat.add_0_r. exact H5.
  Qed.

  Lemma skip_aborted_at : forall (l : list (Z * Z)) ls data rest st h o s buf,
    at_ (flat_map (fun x => be 8 (fst x) ++ be 8 (snd x)) l ++ data) rest st h o s ->
    fields_ok (st_chunks (d_in s)) 0 (flat_map (fun _ => [8; 8]%nat) l ++ ls) ->
    exists b s', skip_aborted (length l) buf s = DOk b s' /\ at_ data rest st h o s' /\
      fields_ok (st_chunks (d_in s')) 0 ls.
  Proof using unzip zip.
    induction l as [|[x y] l IH]; intros ls data rest st h o s buf Hat Hf.
    - exists buf, s. split; [reflexivity|]. split; assumption.
    - cbn [flat_map fst snd] in Hat. rewrite <- !app_assoc in Hat. cbn [flat_map app] in Hf. cbn [length skip_aborted].
      destruct (field_at (be 8 x) 8 _ _ _ _ _ _ _ 8 buf Hat (zlen_be _ _) ltac:(lia) eq_refl Hf) as [s1 [E1 [A1 F1]]].
      erewrite dbind_ok by exact E1.
      destruct (field_at (be 8 y) 8 _ _ _ _ _ _ _ 8 (be 8 x ++ skipn (length (be 8 x)) buf) A1 (zlen_be _ _) ltac:(lia) eq_refl F1) as [s2 [E2 [A2 F2]]].
      erewrite dbind_ok by exact E2. apply IH; assumption.
  Qed.

  Lemma firstn_be_app n v (b : bytes) : firstn n (be n v ++ b) = be n v.
  Proof using unzip zip. apply firstn_app_exact. apply be_length. Qed.

  Lemma partition_header_gen v p ls tail rest st o s :
    (v = 0 \/ v = 7 \/ v = 10) -> wf_presp p ->
    at2 (enc_presp_part v 0 p ++ tail) rest st o s ->
    fields_ok (st_chunks (d_in s)) 0 (part_fields v p ++ ls) ->
    exists s', decodePartition unzip zip (pr_topic p) v s =
        (if zlen (pr_records p) <=? 0 then dret tt
         else decodeMessageSet unzip zip (pr_topic p) (pr_pid p) (zlen (pr_records p))) s' /\
      at2 tail rest st o s' /\ fields_ok (st_chunks (d_in s')) 0 ls.
  Proof using unzip zip.
    intros Hv [_ [Hpid [Hab Hsize]]] Hat Hf. unfold enc_presp_part, part_fields in *.
    rewrite <- !app_assoc in Hat. cbn [app] in Hf. rewrite <- !app_assoc in Hf. cbn [app] in Hf. unfold decodePartition.
    destruct (field_at (be 4 (pr_pid p)) 4 _ _ _ _ _ _ _ 4 (repeat 0 8) Hat (zlen_be _ _) ltac:(lia) eq_refl Hf) as [s1 [E1 [A1 F1]]].
    erewrite dbind_ok by exact E1. cbv zeta.
    destruct (field_at (be 2 0) 2 _ _ _ _ _ _ _ 2 (be 4 (pr_pid p) ++ skipn (length (be 4 (pr_pid p))) (repeat 0 8)) A1 (zlen_be _ _) ltac:(lia) eq_refl F1) as [s2 [E2 [A2 F2]]].
    erewrite dbind_ok by exact E2. rewrite !firstn_be_app, !unbe_be.
    change (sint 16 (0 mod 256 ^ Z.of_nat 2)) with 0. cbn [Z.eqb negb].
    set (b2 := be 2 0 ++ _). clearbody b2.
    destruct (field_at (be 8 (pr_hw p)) 8 _ _ _ _ _ _ _ 8 b2 A2 (zlen_be _ _) ltac:(lia) eq_refl F2) as [s3 [E3 [A3 F3]]].
    erewrite dbind_ok by exact E3. set (b3 := be 8 (pr_hw p) ++ _). clearbody b3.
    set (tailb := be 4 (zlen (pr_records p)) ++ tail) in *.
    assert (Hmid : exists b4 s4,
      (if (v =? 7) || (v =? 10) then
              b <~ read_buf 8 b3 ;; b <~ read_buf 8 b ;; b <~ read_buf 4 b ;;
              let n := sint 32 (unbe (firstn 4 b)) in
              skip_aborted (Z.to_nat n) b
            else dret b3) s3 = DOk b4 s4 /\ at_ tailb rest st (nonempty o) o s4 /\ fields_ok (st_chunks (d_in s4)) 0 (4%nat :: ls)).
    { destruct (Z.eqb_spec v 0) as [->|Hv0].
      - exists b3, s3. split; [reflexivity|]. split; [exact A3|exact F3].
      - assert (Hvb : (v =? 7) || (v =? 10) = true) by (destruct Hv as [Hv|[->| ->]]; [congruence|reflexivity|reflexivity]).
        rewrite Hvb. rewrite <- !app_assoc in A3. rewrite <- ?app_assoc in F3. cbn [app] in F3.
        destruct (field_at (be 8 (pr_lso p)) 8 _ _ _ _ _ _ _ 8 b3 A3 (zlen_be _ _) ltac:(lia) eq_refl F3) as [s4 [E4 [A4 F4]]].
        erewrite dbind_ok by exact E4. set (b4 := be 8 (pr_lso p) ++ _). clearbody b4.
        destruct (field_at (be 8 (pr_logstart p)) 8 _ _ _ _ _ _ _ 8 b4 A4 (zlen_be _ _) ltac:(lia) eq_refl F4) as [s5 [E5 [A5 F5]]].
        erewrite dbind_ok by exact E5. set (b5 := be 8 (pr_logstart p) ++ _). clearbody b5.
        unfold enc_aborted in A5. destruct (pr_aborted p) as [l|].
        + rewrite <- !app_assoc in A5. cbn [app] in F5.
          destruct (field_at (be 4 (zlen l)) 4 _ _ _ _ _ _ _ 4 b5 A5 (zlen_be _ _) ltac:(lia) eq_refl F5) as [s6 [E6 [A6 F6]]].
          erewrite dbind_ok by exact E6. cbv zeta. rewrite firstn_be_app, unbe_be.
          change (256 ^ Z.of_nat 4) with (2 ^ 32). rewrite sint_mod by lia.
          pose proof (zlen_nonneg l).
          rewrite sint_id by (try lia; change (2 ^ (32 - 1)) with (2 ^ 31); lia).
          unfold zlen at 1. rewrite Nat2Z.id. apply skip_aborted_at; assumption.
        + cbn [app] in F5.
          destruct (field_at (be 4 (-1)) 4 _ _ _ _ _ _ _ 4 b5 A5 (zlen_be _ _) ltac:(lia) eq_refl F5) as [s6 [E6 [A6 F6]]].
          erewrite dbind_ok by exact E6. cbv zeta. rewrite firstn_be_app, unbe_be.
          change (Z.to_nat (sint 32 (-1 mod 256 ^ Z.of_nat 4))) with O. cbn [skip_aborted]. eexists _, s6.
          split; [reflexivity|]. split; [exact A6|exact F6]. }
    destruct Hmid as [b4 [s4 [E4 [A4 F4]]]]. erewrite dbind_ok by exact E4. unfold tailb in A4.
    destruct (field_at (be 4 (zlen (pr_records p))) 4 _ _ _ _ _ _ _ 4 b4 A4 (zlen_be _ _) ltac:(lia) eq_refl F4) as [s5 [E5 [A5 F5]]].
    erewrite dbind_ok by exact E5. rewrite firstn_be_app, unbe_be.
    change (256 ^ Z.of_nat 4) with (2 ^ 32). rewrite !sint_mod by lia.
    pose proof (zlen_nonneg (pr_records p)).
    rewrite (sint_id 32 (zlen _)) by (try lia; change (2 ^ (32 - 1)) with (2 ^ 31); lia).
    rewrite (sint_id 32 (pr_pid p)) by (try lia; exact Hpid).
    exists s5. split; [reflexivity|]. split; [exact A5|exact F5].
  Qed.

  Lemma partition_header_at v p ls rest st o s :
    (v = 0 \/ v = 7 \/ v = 10) -> wf_presp p ->
    at2 (enc_presp_part v 0 p ++ pr_records p) rest st o s ->
    fields_ok (st_chunks (d_in s)) 0 (part_fields v p ++ ls) ->
    exists s', decodePartition unzip zip (pr_topic p) v s =
        (if zlen (pr_records p) <=? 0 then dret tt
         else decodeMessageSet unzip zip (pr_topic p) (pr_pid p) (zlen (pr_records p))) s' /\
      at2 (pr_records p) rest st o s' /\ fields_ok (st_chunks (d_in s')) 0 ls.
  Proof using unzip zip. intros; eapply partition_header_gen; eassumption. Qed.

  Lemma partition_at v p rs rest st o s :
    (v = 0 \/ v = 7 \/ v = 10) -> wf_presp p -> wf_rset unzip rs -> pr_records p = enc_rset rs ->
    at2 (enc_presp_part v 0 p ++ pr_records p) rest st o s ->
    fields_ok (st_chunks (d_in s)) 0 (part_fields v p) ->
    let evs := exp_rset (pr_topic p) (pr_pid p) st rs in
    exists s', at2 [] rest st (o ++ evs) s' /\
      (if nonempty (o ++ evs) || negb (nonempty (enc_rset rs))
       then decodePartitionResponse unzip zip (pr_topic p) v s = DOk tt s'
       else decodePartitionResponse unzip zip (pr_topic p) v s = DErr EMaxBytesTooSmall s').
  Proof using unzip zip.
    intros Hv Hwf Hset Hrs Hat Hf evs. unfold decodePartitionResponse.
    rewrite <- (app_nil_r (part_fields v p)) in Hf.
    destruct (partition_header_at v p [] rest st o s Hv Hwf Hat Hf) as [s5 [E5 [A5 _]]]. rewrite E5. clear E5.
    rewrite Hrs in *.
    assert (Hcase : enc_rset rs = [] \/ (enc_rset rs <> [] /\ nonempty (enc_rset rs) = true))
      by (destruct (enc_rset rs); [left; reflexivity|right; split; [congruence|reflexivity]]).
    destruct Hcase as [Eset|[Eset Ene]].
    - rewrite Eset in *. exists s5. assert (Eevs : evs = []).
      { unfold evs, exp_rset. pose proof (flat_enc_len (rs_whole rs)) as Hl. unfold enc_rset in Eset.
        apply app_eq_nil in Eset. destruct Eset as [Es1 Es2]. rewrite Es1, zlen_nil in Hl.
        destruct (rs_whole rs) as [|w0 ws0]; [|rewrite zlen_cons in Hl; pose proof (zlen_nonneg ws0); lia]. cbn [exp_all flat_map app].
        destruct (rs_cut rs) as [[w k]|] eqn:Ec; [|reflexivity].
        assert (Hk0 : k = O).
        { pose proof (enc_wb_len w) as He. pose proof (zlen_nonneg (wb_payload w)).
          destruct (enc_wb w); [rewrite zlen_nil in He; lia|]. destruct k; [reflexivity|discriminate]. }
        subst k. unfold exp_cut, exp_events. cbn [Nat.sub]. destruct (wb_recs w) as [|r rr]; [reflexivity|].
        cbn [whole]. pose proof (enc_srecord_pos r). destruct (Nat.leb_spec (length (enc_srecord r)) 0); [lia|reflexivity]. }
      rewrite Eevs, app_nil_r. split; [exact A5|]. cbn [nonempty negb]. rewrite orb_true_r. reflexivity.
    - destruct (Z.leb_spec (zlen (enc_rset rs)) 0) as [Hz|Hz].
      { exfalso. destruct (enc_rset rs) as [|x xs]; [congruence|]. rewrite zlen_cons in Hz. pose proof (zlen_nonneg xs). lia. }
      destruct (message_set_at (pr_topic p) (pr_pid p) rs rest st o s5 Hset Eset A5) as [s6 [A6 E6]].
      fold evs in A6, E6. exists s6. split; [exact A6|]. rewrite Ene. cbn [negb]. rewrite orb_false_r.
      destruct (nonempty (o ++ evs)); [rewrite E6; reflexivity|]. destruct E6 as [E6|E6]; rewrite E6; reflexivity.
  Qed.

  Lemma stream_header_at v st p code ls rest chunks fin :
    (v = 0 \/ v = 7 \/ v = 10) -> wf_presp p ->
    concat chunks = enc_presp_head v p ++ (enc_presp_part v code p ++ pr_records p) ++ rest ->
    fields_ok chunks (length (enc_presp_head v p)) ls ->
    exists s', at2 (enc_presp_part v code p ++ pr_records p) rest st [] s' /\ fields_ok (st_chunks (d_in s')) 0 ls /\
      streamDecode unzip zip v st (zlen (enc_presp_head v p ++ enc_presp_part v code p ++ pr_records p)) (mkStream chunks fin) =
      match decodePartitionResponse unzip zip (pr_topic p) v s' with
      | DOk _ s'' => Ok (d_out s'', drain s'')
      | DErr e s'' => Ok (d_out s'' ++ [EvErr e], drain s'')
      | DPanic => Panic
      | DUnspec => Unspec
      end.
  Proof using unzip zip.
    intros Hv Hwf Hch Hf. unfold streamDecode.
    set (s0 := mkD _ _ _ _ _ _ _).
    assert (A0 : at2 (enc_presp_head v p ++ enc_presp_part v code p ++ pr_records p) rest st [] s0).
    { unfold at2, at_, flat, s0; cbn. repeat split; first [rewrite <- app_assoc; exact Hch|lia]. }
    assert (F0 : fields_ok (st_chunks (d_in s0)) (length (enc_presp_head v p)) ls) by exact Hf.
    clearbody s0.     set (body := enc_presp_part v code p ++ pr_records p) in *.
    set (hd := be 4 (pr_corr p) ++
      (if v =? 0 then [] else be 4 (pr_throttle p) ++ be 2 0 ++ be 4 (pr_session p)) ++ be 4 1).
    assert (Hh : enc_presp_head v p = hd ++ be 2 (zlen (pr_topic p)) ++ pr_topic p ++ be 4 1)
      by (unfold enc_presp_head, hd; rewrite <- !app_assoc; reflexivity).
    rewrite Hh in *. rewrite <- !app_assoc in A0.
    assert (Hhd : exists s1, decodeHeader v s0 = DOk 1 s1 /\
      at_ (be 2 (zlen (pr_topic p)) ++ pr_topic p ++ be 4 1 ++ body) rest st (nonempty (@nil event)) [] s1 /\
      fields_ok (st_chunks (d_in s1)) (2 + (length (pr_topic p) + 4)) ls).
    { unfold decodeHeader. rewrite !app_length, !be_length in F0. destruct (Z.eqb_spec v 0) as [->|Hv0].
      - destruct (read_at hd _ _ _ _ _ _ 8 A0) as [s1 [E1 [A1 F1]]]; [reflexivity|].
        erewrite dbind_ok by exact E1. exists s1. split; [reflexivity|]. split; [exact A1|]. apply F1. exact F0.
      - assert (Hl : length hd = 18%nat) by reflexivity.
        destruct (read_at hd _ _ _ _ _ _ 18 A0) as [s1 [E1 [A1 F1]]].
        { unfold zlen; rewrite Hl; reflexivity. }
        erewrite dbind_ok by exact E1. exists s1. split; [reflexivity|]. split; [exact A1|]. apply F1. rewrite Hl in F0. exact F0. }
    destruct Hhd as [s1 [E1 [A1 F1]]]. rewrite E1. change (Z.to_nat 1) with 1%nat. cbn [dec_n].
    destruct (read_at _ _ _ _ _ _ _ 2 A1 (zlen_be _ _)) as [s2 [E2 [A2 F2]]].
    pose proof Hwf as [Htl _]. pose proof (zlen_nonneg (pr_topic p)) as Ht0.
    destruct (read_at _ _ _ _ _ _ _ _ A2 eq_refl) as [s3 [E3 [A3 F3]]].
    destruct (read_at _ _ _ _ _ _ _ 4 A3 (zlen_be _ _)) as [s4 [E4 [A4 F4]]].
    assert (F : fields_ok (st_chunks (d_in s4)) 0 ls).
    { apply F4. apply F3. apply F2. unfold zlen. rewrite Nat2Z.id.
      match goal with |- fields_ok _ ?a _ => match type of F1 with fields_ok _ ?b _ => replace a with b by (cbn; lia) end end. exact F1. }
    exists s4. split; [exact A4|]. split; [exact F|].
    assert (Hr : decodeResponses unzip zip v s1 = decodePartitionResponse unzip zip (pr_topic p) v s4).
    { unfold decodeResponses. erewrite dbind_ok by exact E2. rewrite unbe_be. change (256 ^ Z.of_nat 2) with (2 ^ 16).
      rewrite Z.mod_small by (change (2 ^ 16) with (2 * 2 ^ 15); lia).
      erewrite dbind_ok by exact E3. erewrite dbind_ok by exact E4.
      change (unbe (be 4 1)) with 1. cbn [Z.eqb]. change (Z.to_nat 1) with 1%nat. cbn [dec_n].
      unfold dbind. destruct (decodePartitionResponse unzip zip (pr_topic p) v s4) as [[] ?|? ?| |]; reflexivity. }
    unfold dbind. rewrite Hr. destruct (decodePartitionResponse unzip zip (pr_topic p) v s4) as [[] ?|? ?| |]; reflexivity.
  Qed.

  Theorem stream_decode_at v st p rs rest chunks fin :
    (v = 0 \/ v = 7 \/ v = 10) -> wf_presp p -> wf_rset unzip rs -> pr_records p = enc_rset rs ->
    concat chunks = enc_presp v p ++ rest ->
    fields_ok chunks (length (enc_presp_head v p)) (part_fields v p) ->
    exists s', streamDecode unzip zip v st (zlen (enc_presp v p)) (mkStream chunks fin) = Ok (exp_presp st p rs, s') /\
      concat (st_chunks (d_in s')) = rest.
  Proof using unzip zip.
    intros Hv Hwf Hset Hrs Hch Hf. unfold enc_presp in *. rewrite <- app_assoc in Hch.
    destruct (stream_header_at v st p 0 (part_fields v p) rest chunks fin Hv Hwf Hch Hf) as [s4 [A4 [F E4]]].
    destruct (partition_at v p rs rest st [] s4 Hv Hwf Hset Hrs A4 F) as [s5 [A5 E5]]. cbv zeta in *. cbn [app] in *.
    set (evs := exp_rset (pr_topic p) (pr_pid p) st rs) in *.
    assert (Hdr : concat (st_chunks (d_in (drain s5))) = rest).
    { destruct A5 as [Hfl [Hlim _]]. unfold drain. rewrite Hlim. change (zlen (@nil Z)) with 0.
      replace (Z.to_nat (Z.min (Z.max 0 0) (avail s5))) with O by (unfold avail; pose proof (zlen_nonneg (concat (st_chunks (d_in s5)))); lia).
      destruct (take_full_spec (st_chunks (d_in s5)) 0 ltac:(lia)) as [_ T2].
      destruct (take_full 0 (st_chunks (d_in s5))) as [b cs]. cbn [snd] in *. cbn. rewrite T2. cbn. exact Hfl. }
    assert (Hout : d_out s5 = evs) by (destruct A5 as [_ [_ [_ [_ [_ Ho]]]]]; exact Ho).
    exists (drain s5). split; [|exact Hdr]. unfold exp_presp. fold evs.
    destruct (nonempty evs || negb (nonempty (enc_rset rs))) eqn:Eb.
    - rewrite E4, E5, Hout. do 2 f_equal.
      destruct evs; [|reflexivity]. cbn [nonempty orb] in *. apply negb_true_iff in Eb. rewrite Eb. reflexivity.
    - apply orb_false_iff in Eb. destruct Eb as [Eb1 Eb2]. apply negb_false_iff in Eb2.
      rewrite E4, E5, Hout, Eb1, Eb2. destruct evs; [reflexivity|discriminate].
  Qed.
End Response.
