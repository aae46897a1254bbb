(** Decoding of fetch responses that end early: cut off by the broker at the requested
    size, or by a connection that fails in the middle.  Whatever arrives, what is
    emitted is a beginning of what a complete response would have emitted. *)
From Verif Require Import Base BaseFacts Wire RecordSpec Records RecordFacts Fetch FetchSpec FetchFacts.

Lemma prefix_nil {A} (l : list A) : prefix [] l. Proof. exists l; reflexivity. Qed.
Lemma prefix_refl {A} (l : list A) : prefix l l. Proof. exists []; rewrite app_nil_r; reflexivity. Qed.
Lemma prefix_app {A} (a b c : list A) : prefix b c -> prefix (a ++ b) (a ++ c).
Proof. intros [d ->]. exists d. rewrite app_assoc. reflexivity. Qed.
Lemma prefix_app_r {A} (a b c : list A) : prefix a b -> prefix a (b ++ c).
Proof. intros [d ->]. exists (d ++ c). rewrite app_assoc. reflexivity. Qed.
Lemma prefix_trans {A} (a b c : list A) : prefix a b -> prefix b c -> prefix a c.
Proof. intros [x ->] [y ->]. exists (x ++ y). rewrite app_assoc. reflexivity. Qed.
Lemma prefix_firstn {A} n (l : list A) : prefix (firstn n l) l.
Proof. exists (skipn n l). rewrite firstn_skipn. reflexivity. Qed.
Lemma prefix_map {A B} (f : A -> B) a b : prefix a b -> prefix (map f a) (map f b).
Proof. intros [c ->]. exists (map f c). apply map_app. Qed.
Lemma prefix_filter {A} (f : A -> bool) a b : prefix a b -> prefix (filter f a) (filter f b).
Proof. intros [c ->]. exists (filter f c). apply filter_app. Qed.
Lemma prefix_whole k rs : prefix (whole k rs) rs.
Proof.
  revert k; induction rs as [|r rs IH]; intros k; cbn [whole]; [apply prefix_refl|].
  destruct (Nat.leb _ _); [|apply prefix_nil]. apply (prefix_app [r]), IH.
Qed.
Lemma prefix_events topic pid st b rs rs' : prefix rs rs' -> prefix (exp_events topic pid st b rs) (exp_events topic pid st b rs').
Proof. intros H. apply prefix_map, prefix_filter, prefix_map, H. Qed.

(** [data] is what is still to come of the response, [rest] what follows on the
    connection; the response length announced [x] bytes more than will come. *)
Definition ats (data rest : bytes) (x start : Z) (has : bool) (out : list event) (s : dst) : Prop :=
  flat s = data ++ rest /\ d_lim s = zlen data + x /\ 0 <= x /\ (x = 0 \/ rest = []) /\
  d_start s = start /\ d_has s = has /\ d_out s = out.

Lemma at_ats data rest st h o s : at_ data rest st h o s -> ats data rest 0 st h o s.
Proof. intros [A [B [C D]]]. unfold ats. repeat split; try apply D; try assumption; try lia. Qed.

Lemma trs a data rest x st h o s n : ats (a ++ data) rest x st h o s -> zlen a = n ->
  exists s', try_read n s = DOk (a, None) s' /\ ats data rest x st h o s'.
Proof.
  intros [Hf [Hl [Hx [Hxr Hr]]]] Hn. unfold try_read. pose proof (zlen_nonneg a). pose proof (zlen_nonneg data). pose proof (zlen_nonneg rest).
  destruct (Z.leb_spec n 0) as [Hn0|Hn0].
  { assert (a = []) as -> by (destruct a; [reflexivity|rewrite zlen_cons in Hn; pose proof (zlen_nonneg a); lia]).
    exists s. split; [reflexivity|]. unfold ats. repeat split; try apply Hr; assumption. }
  rewrite zlen_app in Hl.
  assert (Hav : avail s = zlen a + zlen data + zlen rest) by (unfold avail; fold (flat s); rewrite Hf, !zlen_app; lia).
  replace (Z.min (Z.min n (Z.max 0 (d_lim s))) (avail s)) with n by lia.
  assert (Hle : (Z.to_nat n <= length (concat (st_chunks (d_in s))))%nat).
  { fold (flat s). rewrite Hf, !app_length. unfold zlen in *. lia. }
  destruct (take_full_spec (st_chunks (d_in s)) (Z.to_nat n) Hle) as [E1 E2].
  destruct (take_full (Z.to_nat n) (st_chunks (d_in s))) as [b cs]. cbn [fst snd] in *.
  fold (flat s) in E1, E2. rewrite Hf in E1, E2. rewrite <- app_assoc in E1, E2.
  rewrite firstn_app_exact in E1 by (unfold zlen in Hn; lia). rewrite skipn_app_exact in E2 by (unfold zlen in Hn; lia).
  subst b. rewrite (proj2 (Z.eqb_eq _ _) Hn).
  eexists. split; [reflexivity|].
  unfold ats, flat, with_in; cbn. repeat split; try apply Hr; try exact E2; try assumption; lia.
Qed.
Lemma trs_short data rest x st h o s n : ats data rest x st h o s -> zlen data < n ->
  exists e s', try_read n s = DOk (data, Some e) s' /\ ats [] rest x st h o s'.
Proof.
  intros [Hf [Hl [Hx [Hxr Hr]]]] Hn. unfold try_read. pose proof (zlen_nonneg data). pose proof (zlen_nonneg rest).
  destruct (Z.leb_spec n 0); [lia|].
  assert (Hav : avail s = zlen data + zlen rest) by (unfold avail; fold (flat s); rewrite Hf, !zlen_app; lia).
  assert (Hr0 : x = 0 \/ zlen rest = 0) by (destruct Hxr as [->| ->]; [left|right]; reflexivity).
  replace (Z.min (Z.min n (Z.max 0 (d_lim s))) (avail s)) with (zlen data) by lia.
  assert (Hle : (Z.to_nat (zlen data) <= length (concat (st_chunks (d_in s))))%nat).
  { fold (flat s). rewrite Hf, !app_length. unfold zlen in *. lia. }
  destruct (take_full_spec (st_chunks (d_in s)) (Z.to_nat (zlen data)) Hle) as [E1 E2].
  destruct (take_full (Z.to_nat (zlen data)) (st_chunks (d_in s))) as [b cs]. cbn [fst snd] in *.
  fold (flat s) in E1, E2. rewrite Hf in E1, E2.
  rewrite firstn_app_exact in E1 by (unfold zlen; lia). rewrite skipn_app_exact in E2 by (unfold zlen; lia).
  subst b. destruct (Z.eqb_spec (zlen data) n); [lia|].
  assert (A : ats [] rest x st h o (with_in s cs (zlen data))).
  { unfold ats, flat, with_in; cbn. repeat split; try apply Hr; try exact E2; try assumption. lia. }
  match goal with |- context [if ?c then _ else _] => destruct c end; eexists _, _; (split; [reflexivity|exact A]).
Qed.
Lemma read_limit_s a data rest x st h o s k : ats (a ++ data) rest x st h o s ->
  zlen a = k \/ (data = [] /\ zlen a <= k) ->
  exists oe s', read_limit k s = DOk (a, oe) s' /\ ats data rest x st h o s' /\ (zlen a = k -> oe = None).
Proof.
  intros [Hf [Hl [Hx [Hxr Hr]]]] Hk. unfold read_limit. pose proof (zlen_nonneg a). pose proof (zlen_nonneg data). pose proof (zlen_nonneg rest).
  rewrite zlen_app in Hl.
  assert (Hav : avail s = zlen a + zlen data + zlen rest) by (unfold avail; fold (flat s); rewrite Hf, !zlen_app; lia).
  assert (Hr0 : x = 0 \/ zlen rest = 0) by (destruct Hxr as [->| ->]; [left|right]; reflexivity).
  assert (Hm : Z.min (Z.min (Z.max 0 k) (Z.max 0 (d_lim s))) (avail s) = zlen a).
  { destruct Hk as [Hk|[-> Hk]]; rewrite ?zlen_nil in *; lia. }
  rewrite Hm.
  assert (Hle : (Z.to_nat (zlen a) <= length (concat (st_chunks (d_in s))))%nat).
  { fold (flat s). rewrite Hf, !app_length. unfold zlen in *. lia. }
  destruct (take_full_spec (st_chunks (d_in s)) (Z.to_nat (zlen a)) Hle) as [E1 E2].
  destruct (take_full (Z.to_nat (zlen a)) (st_chunks (d_in s))) as [b cs]. cbn [fst snd] in *.
  fold (flat s) in E1, E2. rewrite Hf, <- app_assoc in E1, E2.
  rewrite firstn_app_exact in E1 by (unfold zlen; lia). rewrite skipn_app_exact in E2 by (unfold zlen; lia).
  subst b.
  assert (A : ats data rest x st h o (with_in s cs (zlen a))).
  { unfold ats, flat, with_in; cbn. repeat split; try apply Hr; try exact E2; try assumption. lia. }
  destruct (Z.eqb_spec (zlen a) (Z.min (Z.max 0 k) (Z.max 0 (d_lim s)))) as [He|He].
  - eexists _, _. split; [reflexivity|]. split; [exact A|reflexivity].
  - assert (Hne : zlen a <> k) by lia.
    destruct (st_fin (d_in s)); eexists _, _; (split; [reflexivity|]); (split; [exact A|]); intros; congruence.
Qed.

(** the outcome of a decoder that neither crashes nor diverges, seen through what it
    emitted *)
Definition emits {A} (P : list event -> Prop) (r : dres A) : Prop :=
  match r with DOk _ s | DErr _ s => P (d_out s) | DPanic | DUnspec => False end.

Definition ats2 (data rest : bytes) (x start : Z) (out : list event) (s : dst) : Prop :=
  ats data rest x start (nonempty out) out s.

Lemma put_s topic pid m data rest x st o s : ats2 data rest x st o s ->
  exists s', put topic pid m s = DOk tt s' /\
    ats2 data rest x st (o ++ if wanted st m then [EvMsg topic pid m] else []) s'.
Proof.
  intros [Hf [Hl [Hx [Hxr [Hs [Hh Hou]]]]]]. unfold put, wanted. rewrite Hs.
  destruct (st <=? m_offset m); eexists; (split; [reflexivity|]).
  - unfold ats2, ats, flat in *; cbn. rewrite nonempty_app, orb_true_r. repeat split; try assumption. rewrite Hou; reflexivity.
  - rewrite app_nil_r. unfold ats2, ats. repeat split; assumption.
Qed.

Lemma put_records_s topic pid b : forall rs n k data rest x st o s,
  Forall wf_srecord rs -> Forall headers_present rs ->
  Forall (fun r => i64 (sb_base b + sr_od r)) rs ->
  (length rs <= n \/ length (firstn k (flat_map enc_srecord rs)) < n)%nat ->
  ats2 data rest x st o s ->
  exists s', put_records n topic pid (sb_base b) (sb_bts b mod 2 ^ 64) (firstn k (flat_map enc_srecord rs)) s = DOk tt s' /\
    ats2 data rest x st (o ++ exp_events topic pid st b (whole k rs)) s'.
Proof.
  induction rs as [|r rs IH]; intros n k data rest x st o s Hw Hp Ho Hn Hat.
  - cbn [flat_map whole]. rewrite firstn_nil. exists s. split.
    + destruct n; reflexivity.
    + unfold exp_events; cbn. rewrite app_nil_r. exact Hat.
  - inversion Hw as [|? ? Hw1 Hw2]; subst. inversion Hp as [|? ? Hp1 Hp2]; subst. inversion Ho as [|? ? Ho1 Ho2]; subst.
    pose proof (enc_srecord_pos r) as Hpos. cbn [flat_map whole length] in *. rewrite firstn_app in *.
    destruct n as [|n]; [lia|]. cbn [put_records].
    destruct (Nat.leb_spec (length (enc_srecord r)) k) as [Hk|Hk].
    + assert (E : firstn k (enc_srecord r) = enc_srecord r) by (apply firstn_all2; lia). rewrite E in *.
      rewrite decodeToRecord_enc by assumption. rewrite app_length in Hn.
      cbn [of_spec r_od r_attr r_ts r_key r_value r_headers].
      assert (Em : mkMsg (sint 64 (sr_od r + sb_base b)) 2 (sr_attr r) (uint 64 (sr_ts r + sb_bts b mod 2 ^ 64))
          (nz (sr_key r)) (nz (sr_value r)) (map of_header (sr_headers r)) = exp_msg b r).
      { unfold exp_msg. f_equal.
        - rewrite Z.add_comm. apply sint_id; [lia|exact Ho1].
        - unfold uint. rewrite Zplus_mod_idemp_r. reflexivity. }
      rewrite Em. destruct (put_s topic pid (exp_msg b r) data rest x st o s Hat) as [s1 [E1 A1]].
      erewrite dbind_ok by exact E1.
      destruct (IH n (k - length (enc_srecord r))%nat data rest x st _ s1 Hw2 Hp2 Ho2 ltac:(lia) A1) as [s2 [E2 A2]].
      exists s2. split; [exact E2|]. unfold exp_events in *. cbn [map filter].
      rewrite <- app_assoc in A2. destruct (wanted st (exp_msg b r)); exact A2.
    + replace (k - length (enc_srecord r))%nat with O by lia. rewrite firstn_O, app_nil_r.
      rewrite decodeToRecord_cut by (exact Hw1 || lia). exists s. split; [reflexivity|].
      unfold exp_events; cbn. rewrite app_nil_r. exact Hat.
Qed.

Section Codec.
  Variable unzip zip : Z -> bytes -> res bytes.

  (** a batch of which all, or at the end of the data only a part, is there: the state
      afterwards, or an error with nothing emitted *)
  Lemma magic2_s topic pid w k data rest x st o s :
    wf_wb unzip w -> rejects_cuts unzip w ->
    ((length (wb_payload w) <= k)%nat \/ data = []) ->
    ats2 (head44 w ++ firstn k (wb_payload w) ++ data) rest x st o s ->
    exists evs s', ats2 data rest x st (o ++ evs) s' /\
      prefix evs (exp_events topic pid st (wb_h w) (wb_recs w)) /\
      ((length (wb_payload w) <= k)%nat -> evs = exp_events topic pid st (wb_h w) (wb_recs w)) /\
      ((exists e, decodeRecordsMagic2 unzip topic pid (head17 w) s = DErr e s' /\ data = []) \/
       (exists i, decodeRecordsMagic2 unzip topic pid (head17 w) s = DOk i s')).
  Proof using unzip zip.
    intros [Hc Hz] Hrj Hk Hat. remember (decodeRecordsMagic2 unzip topic pid (head17 w) s) as R eqn:ER.
    unfold decodeRecordsMagic2 in ER.
    destruct (trs _ _ _ _ _ _ _ _ 44 Hat (head44_len w)) as [s1 [E1 A1]].
    erewrite dbind_ok in ER by exact E1. cbn [fst snd] in ER.
    destruct (magic2_fields unzip zip w Hc) as [F1 [F2 [F3 [F4 F5]]]]. cbv zeta in *.
    rewrite F1, F2, F3, F4, F5 in ER.
    destruct (Z.leb_spec (zlen (wb_recs w)) 0) as [H0|H0].
    { assert (Er : wb_recs w = []) by (destruct (wb_recs w); [reflexivity|rewrite zlen_cons in H0; pose proof (zlen_nonneg l); lia]).
      assert (Ep : wb_payload w = []) by (apply (wf_empty_payload unzip zip w); [split; assumption|exact Er]).
      rewrite Ep, firstn_nil in A1. cbn [app] in A1. rewrite Er. exists [], s1. rewrite app_nil_r.
      split; [exact A1|]. split; [apply prefix_nil|]. split; [reflexivity|]. right. eexists; exact ER. }
    replace (49 + zlen (wb_payload w) - 49) with (zlen (wb_payload w)) in ER by lia.
    assert (Hl : zlen (firstn k (wb_payload w)) = zlen (wb_payload w) \/
                 data = [] /\ zlen (firstn k (wb_payload w)) <= zlen (wb_payload w)).
    { unfold zlen. rewrite firstn_length. destruct Hk as [Hk|Hk]; [left; lia|right; split; [exact Hk|lia]]. }
    destruct (read_limit_s _ _ _ _ _ _ _ _ (zlen (wb_payload w)) A1 Hl) as [oe [s2 [E2 [A2 Hoe]]]].
    erewrite dbind_ok in ER by exact E2. cbn [fst snd] in ER.
    destruct Hc as [_ [Hw [Hp [Ho [Hn Hpl]]]]].
    assert (Hfull : (length (wb_payload w) <= k)%nat -> firstn k (wb_payload w) = wb_payload w /\ oe = None).
    { intros Hk'. assert (E : firstn k (wb_payload w) = wb_payload w) by (apply firstn_all2; exact Hk').
      split; [exact E|]. apply Hoe. rewrite E. reflexivity. }
    assert (Hbad : forall e, R = (if (d_total s2 <=? d_off s2) && d_has s2 then DOk (44 + zlen (wb_payload w)) s2 else DErr (EWrap e) s2) ->
      ~ (length (wb_payload w) <= k)%nat ->
      exists evs s', ats2 data rest x st (o ++ evs) s' /\
      prefix evs (exp_events topic pid st (wb_h w) (wb_recs w)) /\
      ((length (wb_payload w) <= k)%nat -> evs = exp_events topic pid st (wb_h w) (wb_recs w)) /\
      ((exists e0, R = DErr e0 s' /\ data = []) \/ (exists i, R = DOk i s'))).
    { intros e ER' Hnk. exists [], s2. rewrite app_nil_r. split; [exact A2|]. split; [apply prefix_nil|]. split; [lia|].
      destruct ((d_total s2 <=? d_off s2) && d_has s2); [right; eexists; exact ER'|left; eexists; split; [exact ER'|]].
      destruct Hk; [lia|assumption]. }
    destruct oe as [e|].
    { apply (Hbad e ER). intros Hk'. destruct (Hfull Hk') as [_ H]; discriminate. }
    destruct (Z.eqb_spec (wb_codec w) 0) as [Hc0|Hc0].
    - rewrite Hz in *. destruct (put_records_s topic pid (wb_h w) (wb_recs w)
        (Z.to_nat (Z.min (zlen (wb_recs w)) (zlen (firstn k (flat_map enc_srecord (wb_recs w))) + 1)))
        k data rest x st o s2 Hw Hp Ho ltac:(unfold zlen; lia) A2) as [s3 [E3 A3]].
      erewrite dbind_ok in ER by exact E3. eexists _, s3. split; [exact A3|]. split; [apply prefix_events, prefix_whole|].
      split; [|right; eexists; exact ER]. intros Hk'. rewrite whole_all by exact Hk'. reflexivity.
    - destruct Hrj as [Hrj|Hrj]; [congruence|].
      destruct (Nat.leb_spec (length (wb_payload w)) k) as [Hk'|Hk'].
      + destruct (Hfull Hk') as [Ef _]. rewrite Ef in ER. destruct (wb_recs w) as [|r0 rs0] eqn:Er; [cbn in H0; lia|]. rewrite <- Er in *.
        assert (nonempty (wb_recs w) = true) as Hne' by (rewrite Er; reflexivity).
        rewrite Hne' in Hz. rewrite Hz in ER.
        set (raw := flat_map enc_srecord (wb_recs w)) in *.
        destruct (put_records_s topic pid (wb_h w) (wb_recs w)
          (Z.to_nat (Z.min (zlen (wb_recs w)) (zlen raw + 1)))
          (length raw) data rest x st o s2 Hw Hp Ho) as [s3 [E3 A3]].
        { fold raw. rewrite firstn_all. unfold zlen. lia. }
        { exact A2. }
        fold raw in E3. rewrite firstn_all in E3. rewrite whole_all in A3 by (fold raw; lia).
        erewrite dbind_ok in ER by exact E3. eexists _, s3. split; [exact A3|]. split; [apply prefix_refl|].
        split; [reflexivity|right; eexists; exact ER].
      + destruct (Hrj k Hk') as [e He]. rewrite He in ER. apply (Hbad _ ER). lia.
  Qed.

  Lemma sets_prefix topic pid size rest x st : forall ws f k offset o s,
    Forall (wf_wb unzip) ws -> Forall (rejects_cuts unzip) ws ->
    (length (firstn k (flat_map enc_wb ws)) < f)%nat ->
    ats2 (firstn k (flat_map enc_wb ws)) rest x st o s ->
    emits (fun out => exists evs, prefix evs (exp_all topic pid st ws) /\ out = o ++ evs)
      (decodeSets unzip zip f topic pid size offset s).
  Proof using unzip zip.
    induction ws as [|w ws IH]; intros f k offset o s Hw Hrj Hfuel Hat; destruct f as [|f]; try lia; cbn [decodeSets].
    - assert (Hout : d_out s = o) by (destruct Hat as [_ [_ [_ [_ [_ [_ H]]]]]]; exact H).
      assert (Hend : exists evs : list event, prefix evs (exp_all topic pid st []) /\ o = o ++ evs).
      { exists []. split; [apply prefix_nil|rewrite app_nil_r; reflexivity]. }
      destruct (size <=? offset); [cbn; rewrite Hout; exact Hend|].
      cbn [flat_map] in Hat. rewrite firstn_nil in Hat.
      destruct (trs_short _ _ _ _ _ _ _ 17 Hat ltac:(rewrite zlen_nil; lia)) as [e [s1 [E1 A1]]].
      erewrite dbind_ok by exact E1. cbn [snd].
      assert (Hout1 : d_out s1 = o) by (destruct A1 as [_ [_ [_ [_ [_ [_ H]]]]]]; exact H).
      destruct e; cbn; rewrite Hout1; exact Hend.
    - inversion Hw as [|? ? Hw1 Hw2]; subst. inversion Hrj as [|? ? Hr1 Hr2]; subst.
      assert (Hnil : forall s', ats2 [] rest x st o s' -> exists evs, prefix evs (exp_all topic pid st (w :: ws)) /\ d_out s' = o ++ evs).
      { intros s' [_ [_ [_ [_ [_ [_ H]]]]]]. exists []. split; [apply prefix_nil|rewrite app_nil_r; exact H]. }
      assert (Hh17 : length (head17 w) = 17%nat) by (pose proof (head17_len w); unfold zlen in *; lia).
      assert (Hh44 : length (head44 w) = 44%nat) by (pose proof (head44_len w); unfold zlen in *; lia).
      destruct (size <=? offset).
      { destruct Hat as [_ [_ [_ [_ [_ [_ H]]]]]]. exists []. split; [apply prefix_nil|rewrite app_nil_r; exact H]. }
      cbn [flat_map] in *. rewrite enc_wb_split in *. rewrite <- !app_assoc in *. rewrite firstn_app, Hh17 in *.
      destruct (Nat.ltb_spec k 17) as [H17|H17].
      { replace (k - 17)%nat with O in Hat by lia. rewrite firstn_O, app_nil_r in Hat.
        destruct (trs_short _ _ _ _ _ _ _ 17 Hat) as [e [s1 [E1 A1]]].
        { unfold zlen. rewrite firstn_length. lia. }
        erewrite dbind_ok by exact E1. cbn [snd]. destruct e; exact (Hnil s1 A1). }
      assert (E17 : firstn k (head17 w) = head17 w) by (apply firstn_all2; lia). rewrite E17 in *.
      destruct (trs _ _ _ _ _ _ _ _ 17 Hat (head17_len w)) as [s1 [E1 A1]].
      erewrite dbind_ok by exact E1. cbn [fst snd]. rewrite head17_magic by assumption. change (2 <? 2) with false. cbv iota.
      rewrite firstn_app, Hh44 in *.
      destruct (Nat.ltb_spec k 61) as [H61|H61].
      { replace (k - 17 - 44)%nat with O in A1 by lia. rewrite firstn_O, app_nil_r in A1.
        destruct (trs_short _ _ _ _ _ _ _ 44 A1) as [e [s2 [E2 A2]]].
        { unfold zlen. rewrite firstn_length. lia. }
        rewrite app_length in Hfuel. rewrite Hh17 in Hfuel. destruct f as [|f]; [lia|].
        assert (Hgo : forall i, emits (fun out => exists evs, prefix evs (exp_all topic pid st (w :: ws)) /\ out = o ++ evs)
          (decodeSets unzip zip (S f) topic pid size i s2)).
        { intros i. cbn [decodeSets]. destruct (size <=? i); [exact (Hnil s2 A2)|].
          destruct (trs_short _ _ _ _ _ _ _ 17 A2 ltac:(rewrite zlen_nil; lia)) as [e' [s3 [E3 A3]]].
          erewrite dbind_ok by exact E3. cbn [snd]. destruct e'; exact (Hnil s3 A3). }
        unfold decodeRecordsMagic2. unfold dbind at 1 2. rewrite E2. cbn [snd fst].
        destruct e; first [exact (Hnil s2 A2)|exact (Hgo _)]. }
      assert (E44 : firstn (k - 17) (head44 w) = head44 w) by (apply firstn_all2; lia). rewrite E44 in *.
      rewrite firstn_app in *.
      destruct (magic2_s topic pid w (k - 17 - 44) (firstn (k - 17 - 44 - length (wb_payload w)) (flat_map enc_wb ws)) rest x st o s1 Hw1 Hr1) as [evs [s2 [A2 [Hp [Hall Hres]]]]].
      { destruct (Nat.leb_spec (length (wb_payload w)) (k - 17 - 44)); [left; assumption|right].
        replace (k - 17 - 44 - length (wb_payload w))%nat with O by lia. apply firstn_O. }
      { exact A1. }
      assert (Hcut : exists evs0, prefix evs0 (exp_all topic pid st (w :: ws)) /\ d_out s2 = o ++ evs0).
      { exists evs. split; [cbn [exp_all flat_map]; apply prefix_app_r; exact Hp|].
        destruct A2 as [_ [_ [_ [_ [_ [_ H]]]]]]; exact H. }
      destruct Hres as [[e [Hres _]]|[i Hres]].
      { erewrite dbind_err by exact Hres. exact Hcut. }
      erewrite dbind_ok by exact Hres.
      rewrite !app_length in Hfuel.
      destruct (Nat.leb_spec (length (wb_payload w)) (k - 17 - 44)) as [Hk|Hk].
      + specialize (Hall Hk). subst evs.
        pose proof (IH f (k - 17 - 44 - length (wb_payload w))%nat (offset + 17 + i) _ s2 Hw2 Hr2 ltac:(lia) A2) as G.
        unfold emits in *. destruct (decodeSets unzip zip f topic pid size (offset + 17 + i) s2); try contradiction;
          destruct G as [evs [Hpe Ho]]; (eexists; split; [|rewrite Ho, <- app_assoc; reflexivity]);
          unfold exp_all; cbn [flat_map]; apply prefix_app; exact Hpe.
      + replace (k - 17 - 44 - length (wb_payload w))%nat with O in A2 by lia. rewrite firstn_O in A2.
        destruct f as [|f]; [lia|]. cbn [decodeSets]. destruct (size <=? offset + 17 + i); [exact Hcut|].
        destruct (trs_short _ _ _ _ _ _ _ 17 A2 ltac:(rewrite zlen_nil; lia)) as [e' [s3 [E3 A3]]].
        erewrite dbind_ok by exact E3. cbn [snd].
        assert (Hcut' : exists evs0, prefix evs0 (exp_all topic pid st (w :: ws)) /\ d_out s3 = o ++ evs0).
        { exists evs. split; [cbn [exp_all flat_map]; apply prefix_app_r; exact Hp|].
          destruct A3 as [_ [_ [_ [_ [_ [_ H]]]]]]; exact H. }
        destruct e'; exact Hcut'.
  Qed.
End Codec.

(** *** A connection that fails after [k] bytes *)
Lemma trunc_concat : forall cs k, concat (trunc k cs) = firstn k (concat cs).
Proof. induction cs as [|c cs IH]; intros k; cbn [trunc concat]; [rewrite firstn_nil; reflexivity|]. rewrite IH, firstn_app. reflexivity. Qed.

(** as [unsplit], but the last field may be cut off by the end of the stream *)
Fixpoint unsplit_end (cs : list bytes) (pos len : nat) : Prop :=
  match cs with
  | [] => True
  | c :: cs' => if Nat.ltb pos (length c) then (pos + len <= length c)%nat \/ concat cs' = []
                else unsplit_end cs' (pos - length c) len
  end.
Fixpoint fields_end (cs : list bytes) (pos : nat) (ls : list nat) : Prop :=
  match ls with [] => True | l :: ls' => unsplit_end cs pos l /\ fields_end cs (pos + l) ls' end.

Lemma unsplit_end_nil : forall cs p l, concat cs = [] -> unsplit_end cs p l.
Proof.
  induction cs as [|c cs IH]; intros p l H; cbn [unsplit_end]; [exact I|]. cbn [concat] in H. apply app_eq_nil in H. destruct H as [-> H].
  cbn [length]. destruct (Nat.ltb_spec p 0); [lia|]. apply IH, H.
Qed.
Lemma trunc_unsplit : forall cs k p l, unsplit cs p l -> unsplit_end (trunc k cs) p l.
Proof.
  induction cs as [|c cs IH]; intros k p l H; cbn [trunc unsplit unsplit_end] in *; [exact I|].
  rewrite firstn_length. destruct (Nat.leb_spec (length c) k) as [Hk|Hk].
  - replace (Nat.min k (length c)) with (length c) by lia. destruct (Nat.ltb_spec p (length c)); [left; exact H|]. apply IH, H.
  - assert (E : concat (trunc (k - length c) cs) = []) by (rewrite trunc_concat; replace (k - length c)%nat with O by lia; reflexivity).
    destruct (Nat.ltb_spec p (Nat.min k (length c))); [right; exact E|]. apply unsplit_end_nil, E.
Qed.
Lemma trunc_fields : forall ls cs k p, fields_ok cs p ls -> fields_end (trunc k cs) p ls.
Proof. induction ls as [|l ls IH]; intros cs k p H; cbn in *; [exact I|]. destruct H as [H1 H2]. split; [apply trunc_unsplit, H1|apply IH, H2]. Qed.

Lemma take_full_unsplit_end : forall cs n p l, (n <= length (concat cs))%nat ->
  unsplit_end cs (n + p) l -> unsplit_end (snd (take_full n cs)) p l.
Proof.
  induction cs as [|c cs IH]; intros n p l Hn H; cbn [take_full concat unsplit_end] in *; [exact I|].
  rewrite app_length in Hn. destruct (Nat.leb_spec n (length c)) as [Hc|Hc]; cbn [snd unsplit_end].
  - rewrite skipn_length. destruct (Nat.ltb_spec (n + p) (length c)), (Nat.ltb_spec p (length c - n)); try lia.
    + destruct H as [H|H]; [left; lia|right; exact H].
    + replace (p - (length c - n))%nat with (n + p - length c)%nat by lia. exact H.
  - destruct (Nat.ltb_spec (n + p) (length c)); [lia|].
    pose proof (IH (n - length c)%nat p l ltac:(lia)) as G.
    replace (n - length c + p)%nat with (n + p - length c)%nat in G by lia.
    destruct (take_full (n - length c) cs); cbn [snd] in *. exact (G H).
Qed.
Lemma take_full_fields_end : forall ls cs n p, (n <= length (concat cs))%nat ->
  fields_end cs (n + p) ls -> fields_end (snd (take_full n cs)) p ls.
Proof.
  induction ls as [|l ls IH]; intros cs n p Hn H; cbn [fields_end] in *; [exact I|].
  destruct H as [H1 H2]. split; [apply take_full_unsplit_end; assumption|].
  apply IH; [exact Hn|]. rewrite Nat.add_assoc. exact H2.
Qed.
Lemma read1_end : forall cs n, (0 < n)%nat -> unsplit_end cs 0 n ->
  (n <= length (concat cs) ->
   exists r, read1 n cs = Some (firstn n (concat cs), r) /\ concat r = skipn n (concat cs) /\
    forall p l, unsplit_end cs (n + p) l -> unsplit_end r p l)%nat /\
  (length (concat cs) < n ->
   read1 n cs = None \/ exists r, read1 n cs = Some (concat cs, r) /\ concat r = [])%nat.
Proof.
  induction cs as [|c cs IH]; intros n H0 Hu; cbn [read1 concat unsplit_end] in *.
  { split; [cbn; lia|left; reflexivity]. }
  destruct c as [|x c].
  - cbn [length app] in *. cbn [Nat.ltb Nat.leb] in Hu. rewrite Nat.sub_0_r in Hu.
    destruct (IH n H0 Hu) as [G1 G2]. split; [|exact G2].
    intros Hn. destruct (G1 Hn) as [r [E1 [E2 E3]]]. exists r. split; [exact E1|]. split; [exact E2|].
    intros p l H. apply E3. destruct (Nat.ltb_spec (n + p) 0); [lia|]. rewrite Nat.sub_0_r in H. exact H.
  - set (C := x :: c) in *. destruct (Nat.ltb_spec 0 (length C)); [|cbn in *; lia]. rewrite app_length. split.
    + intros Hn. assert (Hc : (n <= length C)%nat) by (destruct Hu as [Hu|Hu]; [lia|rewrite Hu in Hn; cbn [length] in Hn; lia]).
      exists (skipn n C :: cs). split; [|split].
      * rewrite firstn_app. replace (n - length C)%nat with O by lia. rewrite firstn_O, app_nil_r. reflexivity.
      * cbn [concat]. rewrite skipn_app. replace (n - length C)%nat with O by lia. reflexivity.
      * intros p l Hp. cbn [unsplit_end]. rewrite skipn_length.
        destruct (Nat.ltb_spec (n + p) (length C)), (Nat.ltb_spec p (length C - n)); try lia.
        -- destruct Hp as [Hp|Hp]; [left; lia|right; exact Hp].
        -- replace (p - (length C - n))%nat with (n + p - length C)%nat by lia. exact Hp.
    + intros Hn. right. assert (Hc : concat cs = []) by (destruct Hu as [Hu|Hu]; [lia|exact Hu]).
      exists (skipn n C :: cs). rewrite Hc, app_nil_r. rewrite firstn_all2, skipn_all2 by lia. split; [reflexivity|exact Hc].
Qed.
Lemma read1_fields_end cs r n : (forall p l, unsplit_end cs (n + p) l -> unsplit_end r p l) ->
  forall ls p, fields_end cs (n + p) ls -> fields_end r p ls.
Proof.
  intros H. induction ls as [|l ls IH]; intros p Hf; cbn [fields_end] in *; [exact I|].
  destruct Hf as [H1 H2]. split; [apply H; exact H1|]. apply IH. rewrite Nat.add_assoc. exact H2.
Qed.

(** [data] is all that will still arrive; the response was announced to be longer *)
Definition hs (data : bytes) (start : Z) (o : list event) (s : dst) : Prop :=
  flat s = data /\ zlen data <= d_lim s /\ d_start s = start /\ d_has s = nonempty o /\ d_out s = o.
Lemma hs_ats data st o s : hs data st o s -> exists x, ats2 data [] x st o s.
Proof.
  intros [H1 [H2 H3]]. exists (d_lim s - zlen data). unfold ats2, ats. rewrite app_nil_r. repeat split; try apply H3; try lia; try exact H1.
  right; reflexivity.
Qed.
Lemma hs_out data st o s : hs data st o s -> d_out s = o. Proof. intros [_ [_ [_ [_ H]]]]; exact H. Qed.

Lemma emits_eq {A} (P : list event -> Prop) o (r : dres A) : P o -> emits (eq o) r -> emits P r.
Proof. intros HP H; destruct r; cbn in *; try contradiction; subst; exact HP. Qed.
Lemma emits_bind {A B} (P : list event -> Prop) (p : dec A) (k : A -> dec B) s :
  match p s with DOk a s' => emits P (k a s') | DErr _ s' => P (d_out s') | DPanic | DUnspec => False end -> emits P (dbind p k s).
Proof. unfold dbind. destruct (p s); intros H; exact H. Qed.

Lemma rd_cut a data j st o s n : hs (firstn j (a ++ data)) st o s -> zlen a = n ->
  (length a <= j /\ exists s', read n s = DOk a s' /\ hs (firstn (j - length a) data) st o s' /\
    forall ls p, fields_end (st_chunks (d_in s)) (length a + p) ls -> fields_end (st_chunks (d_in s')) p ls)%nat \/
  (exists e s', read n s = DErr e s' /\ d_out s' = o).
Proof.
  intros H Hn. destruct (Nat.leb_spec (length a) j) as [Hj|Hj].
  - left. split; [exact Hj|]. rewrite firstn_app in H. assert (Ea : firstn j a = a) by (apply firstn_all2; exact Hj). rewrite Ea in H.
    pose proof H as [Hf [Hl Hr]]. rewrite zlen_app in Hl. unfold read, try_read, dbind. pose proof (zlen_nonneg a).
    set (d := firstn (j - length a) data) in *. pose proof (zlen_nonneg d).
    destruct (Z.leb_spec n 0) as [Hn0|Hn0].
    { assert (a = []) as -> by (destruct a; [reflexivity|rewrite zlen_cons in Hn; pose proof (zlen_nonneg a); lia]).
      exists s. split; [reflexivity|]. split; [exact H|]. intros ls p HH; exact HH. }
    assert (Hav : avail s = zlen a + zlen d) by (unfold avail; fold (flat s); rewrite Hf, zlen_app; lia).
    replace (Z.min (Z.min n (Z.max 0 (d_lim s))) (avail s)) with n by lia.
    assert (Hle : (Z.to_nat n <= length (concat (st_chunks (d_in s))))%nat).
    { fold (flat s). rewrite Hf, app_length. unfold zlen in *. lia. }
    destruct (take_full_spec (st_chunks (d_in s)) (Z.to_nat n) Hle) as [E1 E2].
    pose proof (fun ls p => take_full_fields_end ls (st_chunks (d_in s)) (Z.to_nat n) p Hle) as TF.
    destruct (take_full (Z.to_nat n) (st_chunks (d_in s))) as [b cs]. cbn [fst snd] in *.
    fold (flat s) in E1, E2. rewrite Hf in E1, E2.
    rewrite firstn_app_exact in E1 by (unfold zlen in Hn; lia). rewrite skipn_app_exact in E2 by (unfold zlen in Hn; lia).
    subst b. rewrite (proj2 (Z.eqb_eq _ _) Hn). cbn [snd fst].
    eexists. split; [reflexivity|]. split.
    + unfold hs, flat, with_in; cbn. repeat split; try apply Hr; try exact E2; lia.
    + replace (length a) with (Z.to_nat n) by (unfold zlen in Hn; lia). exact TF.
  - right. assert (Hlt : zlen (firstn j (a ++ data)) < n) by (unfold zlen in *; rewrite firstn_length, app_length; lia).
    destruct (hs_ats _ _ _ _ H) as [x Hx]. destruct (trs_short _ _ _ _ _ _ _ n Hx Hlt) as [e [s1 [E1 A1]]].
    exists e, s1. split; [unfold read; erewrite dbind_ok by exact E1; reflexivity|].
    destruct A1 as [_ [_ [_ [_ [_ [_ A1]]]]]]; exact A1.
Qed.

Lemma fld_cut {B} (P : list event -> Prop) a data l ls j st o s n buf (k : bytes -> dec B) :
  hs (firstn j (a ++ data)) st o s -> zlen a = n -> 0 < n -> l = Z.to_nat n ->
  fields_end (st_chunks (d_in s)) 0 (l :: ls) -> P o ->
  (forall b s', hs [] st o s' -> emits (eq o) (k b s')) ->
  (forall s', hs (firstn (j - length a) data) st o s' -> fields_end (st_chunks (d_in s')) 0 ls ->
     emits P (k (a ++ skipn (length a) buf) s')) ->
  emits P (dbind (read_buf n buf) k s).
Proof.
  intros H Hn Hpos -> [Hu Hfs] HP Hdead Hgo. pose proof H as [Hf [Hl Hr]]. apply emits_bind.
  assert (Hout : d_out s = o) by (apply (hs_out _ _ _ _ H)).
  destruct (read1_end (st_chunks (d_in s)) (Z.to_nat n) ltac:(lia) Hu) as [G1 G2]. fold (flat s) in G1, G2.
  destruct (Nat.leb_spec (length a) j) as [Hj|Hj].
  - rewrite firstn_app in H, Hf, Hl. assert (Ea : firstn j a = a) by (apply firstn_all2; exact Hj). rewrite Ea in *.
    set (d := firstn (j - length a) data) in *. pose proof (zlen_nonneg d). rewrite zlen_app in Hl.
    destruct G1 as [r [E1 [E2 E3]]]. { rewrite Hf, app_length. unfold zlen in *. lia. }
    rewrite Hf in E1, E2. rewrite firstn_app_exact in E1 by (unfold zlen in Hn; lia). rewrite skipn_app_exact in E2 by (unfold zlen in Hn; lia).
    unfold read_buf, dbind, read_some. destruct (Z.leb_spec (d_lim s) 0); [lia|].
    replace (Z.min n (d_lim s)) with n by lia. rewrite E1. cbn.
    apply Hgo.
    + unfold hs, flat, with_in; cbn. repeat split; try apply Hr; try exact E2; lia.
    + cbn. apply (read1_fields_end _ _ _ E3). rewrite Nat.add_0_r. exact Hfs.
  - assert (Hshort : (length (flat s) < Z.to_nat n)%nat) by (rewrite Hf, firstn_length, app_length; unfold zlen in Hn; lia).
    unfold read_buf, dbind, read_some. destruct (Z.leb_spec (d_lim s) 0) as [H0|H0]; [cbv beta iota; rewrite Hout; exact HP|].
    destruct (Z.leb_spec n (d_lim s)) as [Hnl|Hnl].
    + replace (Z.min n (d_lim s)) with n by lia. destruct (G2 Hshort) as [E|[r [E Er]]]; rewrite E; [cbv beta iota; rewrite Hout; exact HP|].
      cbn. apply (emits_eq P o); [exact HP|]. apply Hdead.
      unfold hs, flat, with_in; cbn. rewrite Er. fold (flat s). rewrite Hf. repeat split; try apply Hr. change (zlen (@nil Z)) with 0. lia.
    + (* the limit is below the field: it still covers everything that arrives *)
      replace (Z.min n (d_lim s)) with (d_lim s) by lia.
      assert (Hu' : unsplit_end (st_chunks (d_in s)) 0 (Z.to_nat (d_lim s))).
      { clear - Hu Hnl H0. revert Hu. generalize (st_chunks (d_in s)). intros cs.
        assert (Hle : (Z.to_nat (d_lim s) <= Z.to_nat n)%nat) by lia. revert Hle. generalize (Z.to_nat (d_lim s)), (Z.to_nat n), O.
        intros u v pos Hle. revert pos. induction cs as [|c cs IH]; intros pos Hu; cbn [unsplit_end] in *; [exact I|].
        destruct (Nat.ltb pos (length c)); [destruct Hu; [left; lia|right; assumption]|]. apply IH, Hu. }
      destruct (read1_end (st_chunks (d_in s)) (Z.to_nat (d_lim s)) ltac:(lia) Hu') as [G1' G2']. fold (flat s) in G1', G2'.
      assert (Hzf : zlen (flat s) <= d_lim s) by (rewrite Hf; exact Hl).
      assert (Hx : read1 (Z.to_nat (d_lim s)) (st_chunks (d_in s)) = None \/
                   exists r, read1 (Z.to_nat (d_lim s)) (st_chunks (d_in s)) = Some (flat s, r) /\ concat r = []).
      { destruct (Nat.ltb_spec (length (flat s)) (Z.to_nat (d_lim s))) as [Hlt|Hge]; [apply G2'; exact Hlt|].
        right. destruct (G1' Hge) as [r [E1 [E2 _]]]. exists r. unfold zlen in Hzf.
        rewrite firstn_all2 in E1 by lia. rewrite skipn_all2 in E2 by lia. split; assumption. }
      destruct Hx as [E|[r [E Er]]]; rewrite E; [cbv beta iota; rewrite Hout; exact HP|].
      cbn. apply (emits_eq P o); [exact HP|]. apply Hdead.
      unfold flat in Hzf. unfold hs, flat, with_in; cbn. rewrite Er. repeat split; try apply Hr. change (zlen (@nil Z)) with 0. lia.
Qed.

(** nothing left to read *)
Lemma dead_read n buf st o s : 0 < n -> hs [] st o s -> exists e, read_buf n buf s = DErr e s.
Proof.
  intros Hn [Hf _]. unfold read_buf, dbind, read_some. destruct (d_lim s <=? 0); [eexists; reflexivity|].
  assert (E : forall cs m, concat cs = [] -> read1 m cs = None).
  { induction cs as [|c cs IH]; intros m H; [reflexivity|]. cbn in H. apply app_eq_nil in H. destruct H as [-> H]. cbn. apply IH, H. }
  rewrite E by exact Hf. eexists; reflexivity.
Qed.
Lemma dead_bind_read {B} n buf st o s (k : bytes -> dec B) : 0 < n -> hs [] st o s -> emits (eq o) (dbind (read_buf n buf) k s).
Proof.
  intros Hn H. destruct (dead_read n buf st o s Hn H) as [e E]. apply emits_bind. rewrite E. symmetry; apply (hs_out _ _ _ _ H).
Qed.

Section Response.
  Variable unzip zip : Z -> bytes -> res bytes.

  Lemma emits_message_set (P : list event -> Prop) topic pid size s :
    emits P (decodeSets unzip zip (S (Z.to_nat (avail s))) topic pid size 0 s) -> emits P (decodeMessageSet unzip zip topic pid size s).
  Proof using unzip zip.
    unfold decodeMessageSet. destruct (decodeSets _ _ _ _ _ _ _ s) as [u s'|e s'| |]; cbn [emits]; try contradiction; intros H.
    - destruct (d_has s'); exact H.
    - destruct (is_eofs e && d_has s'); [destruct (d_has s'); exact H|exact H].
  Qed.
  Lemma message_set_prefix topic pid size ws k rest x st o s :
    Forall (wf_wb unzip) ws -> Forall (rejects_cuts unzip) ws ->
    ats2 (firstn k (flat_map enc_wb ws)) rest x st o s ->
    emits (fun out => exists evs, prefix evs (exp_all topic pid st ws) /\ out = o ++ evs) (decodeMessageSet unzip zip topic pid size s).
  Proof using unzip zip.
    intros Hw Hr Hat. apply emits_message_set. apply (sets_prefix unzip zip topic pid size rest x st ws _ k); try assumption.
    destruct Hat as [Hf _]. unfold avail. fold (flat s). rewrite Hf, zlen_app. unfold zlen. lia.
  Qed.

  Lemma dead_aborted : forall n buf st o s, hs [] st o s ->
    (exists b, skip_aborted n buf s = DOk b s) \/ (exists e, skip_aborted n buf s = DErr e s).
  Proof using unzip zip.
    intros n buf st o s H. destruct n as [|n]; cbn [skip_aborted]; [left; eexists; reflexivity|right].
    destruct (dead_read 8 buf st o s ltac:(lia) H) as [e E]. exists e. erewrite dbind_err by exact E. reflexivity.
  Qed.
  Lemma dead_bind_aborted {B} n buf st o s (k : bytes -> dec B) : hs [] st o s ->
    (forall b, emits (eq o) (k b s)) -> emits (eq o) (dbind (skip_aborted n buf) k s).
  Proof using unzip zip.
    intros H Hk. apply emits_bind. destruct (dead_aborted n buf st o s H) as [[b E]|[e E]]; rewrite E; [apply Hk|].
    symmetry; apply (hs_out _ _ _ _ H).
  Qed.
  Lemma dead_set topic pid size st o s : hs [] st o s -> emits (eq o) (decodeMessageSet unzip zip topic pid size s).
  Proof using unzip zip.
    intros H. destruct (hs_ats _ _ _ _ H) as [x Hx].
    pose proof (message_set_prefix topic pid size [] 0 [] x st o s (Forall_nil _) (Forall_nil _) Hx) as G.
    unfold emits in *. destruct (decodeMessageSet _ _ _ _ _ s); try contradiction;
      destruct G as [evs [[c Hc] Ho]]; cbn in Hc; symmetry in Hc; apply app_eq_nil in Hc; destruct Hc as [-> _];
      rewrite app_nil_r in Ho; symmetry; exact Ho.
  Qed.

  Lemma aborted_cut {B} (P : list event -> Prop) st o (k : bytes -> dec B) data ls : P o ->
    (forall b s', hs [] st o s' -> emits (eq o) (k b s')) ->
    forall (l : list (Z * Z)) j s buf,
    (forall b j' s', hs (firstn j' data) st o s' -> fields_end (st_chunks (d_in s')) 0 ls -> emits P (k b s')) ->
    hs (firstn j (flat_map (fun x => be 8 (fst x) ++ be 8 (snd x)) l ++ data)) st o s ->
    fields_end (st_chunks (d_in s)) 0 (flat_map (fun _ => [8; 8]%nat) l ++ ls) ->
    emits P (dbind (skip_aborted (length l) buf) k s).
  Proof using unzip zip.
    intros HP Hdead. induction l as [|[a b] l IH]; intros j s buf Hgo H Hf.
    - cbn [length skip_aborted]. unfold dbind, dret. apply (Hgo _ j); assumption.
    - cbn [flat_map fst snd] in H. rewrite <- !app_assoc in H. cbn [flat_map app] in Hf. cbn [length skip_aborted].
      assert (E' : dbind (b0 <~ read_buf 8 buf;; b' <~ read_buf 8 b0;; skip_aborted (length l) b') k s =
                dbind (read_buf 8 buf) (fun b0 => dbind (read_buf 8 b0) (fun b' => dbind (skip_aborted (length l) b') k)) s).
      { unfold dbind. destruct (read_buf 8 buf s) as [b1 s2|? s2| |]; try reflexivity. destruct (read_buf 8 b1 s2); reflexivity. }
      rewrite E'. clear E'.
      eapply fld_cut; [exact H|apply zlen_be|lia|reflexivity|exact Hf|exact HP| |].
      + intros b1 s1 H1. apply (dead_bind_read 8 _ st); [lia|exact H1].
      + intros s1 H1 F1. eapply fld_cut; [exact H1|apply zlen_be|lia|reflexivity|exact F1|exact HP| |].
        * intros b1 s2 H2. apply (dead_bind_aborted _ _ st); [exact H2|]. intros b2. apply Hdead, H2.
        * intros s2 H2 F2. eapply IH; [exact Hgo|exact H2|exact F2].
  Qed.

  (** the partition part of a response that breaks off *)
  Lemma partition_cut v p ws c j st o s :
    (v = 0 \/ v = 7 \/ v = 10) -> wf_presp p -> pr_records p = firstn c (flat_map enc_wb ws) ->
    Forall (wf_wb unzip) ws -> Forall (rejects_cuts unzip) ws ->
    hs (firstn j (enc_presp_part v 0 p ++ pr_records p)) st o s ->
    fields_end (st_chunks (d_in s)) 0 (part_fields v p) ->
    emits (fun out => exists evs, prefix evs (exp_all (pr_topic p) (pr_pid p) st ws) /\ out = o ++ evs)
      (decodePartition unzip zip (pr_topic p) v s).
  Proof using unzip zip.
    intros Hv [_ [Hpid [Hab Hsize]]] Hrs Hw Hr Hat Hf.
    set (P := fun out => exists evs, prefix evs (exp_all (pr_topic p) (pr_pid p) st ws) /\ out = o ++ evs).
    assert (HP : P o) by (exists []; split; [apply prefix_nil|rewrite app_nil_r; reflexivity]).
    unfold enc_presp_part, part_fields in *.
    rewrite <- !app_assoc in Hat. cbn [app] in Hf. unfold decodePartition.
    assert (Dset : forall (b : bytes) s', hs [] st o s' -> forall pid size,
      emits (eq o) ((if size <=? 0 then dret tt else decodeMessageSet unzip zip (pr_topic p) pid size) s')).
    { intros b s' H' pid size. destruct (size <=? 0); [symmetry; apply (hs_out _ _ _ _ H')|apply (dead_set _ _ _ st), H']. }
    eapply fld_cut; [exact Hat|apply zlen_be|lia|reflexivity|exact Hf|exact HP| |].
    { intros b s' H'. apply (dead_bind_read 2 _ st); [lia|exact H']. }
    clear s Hat Hf. intros s Hat Hf. cbv zeta.
    rewrite (firstn_be_app unzip zip), unbe_be.
    eapply fld_cut; [exact Hat|apply zlen_be|lia|reflexivity|exact Hf|exact HP| |].
    { intros b s' H'. cbv zeta. destruct (negb _); [symmetry; apply (hs_out _ _ _ _ H')|]. apply (dead_bind_read 8 _ st); [lia|exact H']. }
    clear s Hat Hf. intros s Hat Hf. cbv zeta. rewrite !(firstn_be_app unzip zip), !unbe_be.
    change (sint 16 (0 mod 256 ^ Z.of_nat 2)) with 0. cbn [Z.eqb negb].
    match goal with |- context [read_buf 8 ?b] => generalize b end. intros b2.
    assert (D4 : forall b3 s', hs [] st o s' ->
      emits (eq o) (dbind (read_buf 4 b3) (fun buf => if sint 32 (unbe (firstn 4 buf)) <=? 0 then dret tt
        else decodeMessageSet unzip zip (pr_topic p) (sint 32 (pr_pid p mod 256 ^ Z.of_nat 4)) (sint 32 (unbe (firstn 4 buf)))) s')).
    { intros b3 s' H'. apply (dead_bind_read 4 _ st); [lia|exact H']. }
    assert (L4 : forall b3 j' s', hs (firstn j' (be 4 (zlen (pr_records p)) ++ pr_records p)) st o s' ->
      fields_end (st_chunks (d_in s')) 0 [4%nat] ->
      emits P (dbind (read_buf 4 b3) (fun buf => if sint 32 (unbe (firstn 4 buf)) <=? 0 then dret tt
        else decodeMessageSet unzip zip (pr_topic p) (sint 32 (pr_pid p mod 256 ^ Z.of_nat 4)) (sint 32 (unbe (firstn 4 buf)))) s')).
    { intros b3 j' s' H' F'. eapply fld_cut; [exact H'|apply zlen_be|lia|reflexivity|exact F'|exact HP| |].
      - intros b s1 H1. apply (Dset b s1 H1).
      - intros s1 H1 F1. rewrite (firstn_be_app unzip zip), unbe_be.
        change (256 ^ Z.of_nat 4) with (2 ^ 32). rewrite !sint_mod by lia.
        pose proof (zlen_nonneg (pr_records p)).
        rewrite (sint_id 32 (zlen _)) by (try lia; change (2 ^ (32 - 1)) with (2 ^ 31); lia).
        rewrite (sint_id 32 (pr_pid p)) by (try lia; exact Hpid).
        destruct (zlen (pr_records p) <=? 0); [cbn; rewrite (hs_out _ _ _ _ H1); exact HP|].
        destruct (hs_ats _ _ _ _ H1) as [x Hx]. rewrite Hrs, firstn_firstn in Hx.
        eapply message_set_prefix; eassumption. }
    eapply fld_cut; [exact Hat|apply zlen_be|lia|reflexivity|exact Hf|exact HP| |].
    { intros b s' H'. apply emits_bind. destruct ((v =? 7) || (v =? 10)).
      - destruct (dead_read 8 b st o s' ltac:(lia) H') as [e E]. erewrite dbind_err by exact E. symmetry; apply (hs_out _ _ _ _ H').
      - apply (D4 b s' H'). }
    clear s Hat Hf. intros s Hat Hf.
    match goal with |- context [read_buf 8 ?b] => generalize b end. intros b3.
    destruct (Z.eqb_spec v 0) as [->|Hv0].
    { change ((0 =? 7) || (0 =? 10)) with false. cbv iota. unfold dbind at 1, dret at 1. eapply L4; [exact Hat|exact Hf]. }
    assert (Hvb : (v =? 7) || (v =? 10) = true) by (destruct Hv as [Hv|[->| ->]]; [congruence|reflexivity|reflexivity]).
    rewrite Hvb. rewrite <- !app_assoc in Hat. rewrite <- ?app_assoc in Hf. cbn [app] in Hf.
    assert (Eb : forall (q1 q2 q3 q4 : bytes -> dec bytes) (k : bytes -> dec unit) b s',
      dbind (b <~ q1 b ;; b <~ q2 b ;; b <~ q3 b ;; q4 b) k s' = (b <~ q1 b ;; b <~ q2 b ;; b <~ q3 b ;; dbind (q4 b) k) s').
    { intros q1 q2 q3 q4 k b s'. unfold dbind. destruct (q1 b s') as [? s1|? s1| |]; try reflexivity.
      destruct (q2 a s1) as [? s2|? s2| |]; try reflexivity. destruct (q3 a0 s2); reflexivity. }
    rewrite (Eb (read_buf 8) (read_buf 8) (read_buf 4) (fun b => let n := sint 32 (unbe (firstn 4 b)) in skip_aborted (Z.to_nat n) b)).
    eapply fld_cut; [exact Hat|apply zlen_be|lia|reflexivity|exact Hf|exact HP| |].
    { intros b s' H'. apply (dead_bind_read 8 _ st); [lia|exact H']. }
    clear s Hat Hf. intros s Hat Hf.
    eapply fld_cut; [exact Hat|apply zlen_be|lia|reflexivity|exact Hf|exact HP| |].
    { intros b s' H'. apply (dead_bind_read 4 _ st); [lia|exact H']. }
    clear s Hat Hf. intros s Hat Hf. unfold enc_aborted in *.
    assert (DA : forall b s', hs [] st o s' -> emits (eq o)
       ((let n := sint 32 (unbe (firstn 4 b)) in
         dbind (skip_aborted (Z.to_nat n) b)
          (fun buf0 => buf1 <~ read_buf 4 buf0;; (let size := sint 32 (unbe (firstn 4 buf1)) in if size <=? 0 then dret tt
             else decodeMessageSet unzip zip (pr_topic p) (sint 32 (pr_pid p mod 256 ^ Z.of_nat 4)) size))) s')).
    { intros b s' H'. cbv zeta. apply (dead_bind_aborted _ _ st); [exact H'|]. intros b'. apply (D4 b' s' H'). }
    destruct (pr_aborted p) as [l|].
    - rewrite <- !app_assoc in Hat. cbn [app] in Hf.
      eapply fld_cut; [exact Hat|apply zlen_be|lia|reflexivity|exact Hf|exact HP|exact DA|].
      clear s Hat Hf. intros s Hat Hf. cbv zeta. rewrite (firstn_be_app unzip zip), unbe_be.
      change (256 ^ Z.of_nat 4) with (2 ^ 32). rewrite sint_mod by lia. pose proof (zlen_nonneg l).
      rewrite sint_id by (try lia; change (2 ^ (32 - 1)) with (2 ^ 31); lia).
      unfold zlen at 1. rewrite Nat2Z.id.
      eapply aborted_cut; [exact HP| | |exact Hat|exact Hf].
      + intros b s' H'. apply (D4 b s' H').
      + intros b j' s' H' F'. apply (L4 b j' s' H' F').
    - cbn [app] in Hf. eapply fld_cut; [exact Hat|apply zlen_be|lia|reflexivity|exact Hf|exact HP|exact DA|].
      clear s Hat Hf. intros s Hat Hf. cbv zeta. rewrite (firstn_be_app unzip zip), unbe_be.
      change (Z.to_nat (sint 32 (-1 mod 256 ^ Z.of_nat 4))) with O. cbn [skip_aborted]. unfold dbind at 1, dret at 1.
      eapply L4; [exact Hat|exact Hf].
  Qed.

  (** what may reach the consumer: messages, then possibly one error *)
  Definition msgs_then_err (ms evs : list event) : Prop := evs = ms \/ exists e, evs = ms ++ [EvErr e].

  Lemma emits_presp P topic v s :
    emits P (decodePartition unzip zip topic v s) -> emits P (decodePartitionResponse unzip zip topic v s).
  Proof using unzip zip. unfold decodePartitionResponse. destruct (decodePartition _ _ _ _ s); intros H; exact H. Qed.

  Theorem stream_cut v st p ws c k chunks fin :
    (v = 0 \/ v = 7 \/ v = 10) -> wf_presp p -> pr_records p = firstn c (flat_map enc_wb ws) ->
    Forall (wf_wb unzip) ws -> Forall (rejects_cuts unzip) ws ->
    concat chunks = enc_presp v p ->
    fields_ok chunks (length (enc_presp_head v p)) (part_fields v p) ->
    exists ms evs s', prefix ms (exp_all (pr_topic p) (pr_pid p) st ws) /\ msgs_then_err ms evs /\
      streamDecode unzip zip v st (zlen (enc_presp v p)) (mkStream (trunc k chunks) fin) = Ok (evs, s').
  Proof using unzip zip.
    intros Hv Hwf Hrs Hw Hr Hch Hf. unfold streamDecode.
    set (P := fun out => exists evs, prefix evs (exp_all (pr_topic p) (pr_pid p) st ws) /\ out = [] ++ evs).
    assert (HP0 : P []) by (exists []; split; [apply prefix_nil|reflexivity]).
    assert (Hdone : forall out, P out -> forall evs, evs = out \/ (exists e, evs = out ++ [EvErr e]) -> forall s1 : dst,
      exists ms evs0 s', prefix ms (exp_all (pr_topic p) (pr_pid p) st ws) /\ msgs_then_err ms evs0 /\ Ok (evs, s1) = Ok (evs0, s')).
    { intros out [evs1 [Hp ->]] evs He s1. exists evs1, evs, s1. split; [exact Hp|]. split; [exact He|reflexivity]. }
    set (s0 := mkD _ _ _ _ _ _ _).
    unfold enc_presp in Hch.
    assert (H0 : hs (firstn k (enc_presp_head v p ++ enc_presp_part v 0 p ++ pr_records p)) st [] s0).
    { unfold hs, flat, s0; cbn [d_in st_chunks d_lim d_start d_has d_out]. rewrite trunc_concat, Hch.
      split; [reflexivity|]. split; [|repeat split]. unfold enc_presp, zlen. rewrite firstn_length. lia. }
    assert (F0 : fields_end (st_chunks (d_in s0)) (length (enc_presp_head v p)) (part_fields v p)) by (apply trunc_fields; exact Hf).
    clearbody s0. set (body := enc_presp_part v 0 p ++ pr_records p) in *.
    set (hd := be 4 (pr_corr p) ++
      (if v =? 0 then [] else be 4 (pr_throttle p) ++ be 2 0 ++ be 4 (pr_session p)) ++ be 4 1).
    assert (Hh : enc_presp_head v p = hd ++ be 2 (zlen (pr_topic p)) ++ pr_topic p ++ be 4 1)
      by (unfold enc_presp_head, hd; rewrite <- !app_assoc; reflexivity).
    rewrite Hh in *. rewrite <- !app_assoc in H0.
    assert (Hhd : (exists j s1, decodeHeader v s0 = DOk 1 s1 /\
        hs (firstn j (be 2 (zlen (pr_topic p)) ++ pr_topic p ++ be 4 1 ++ body)) st [] s1 /\
        fields_end (st_chunks (d_in s1)) (2 + (length (pr_topic p) + 4)) (part_fields v p)) \/
      (exists e s1, decodeHeader v s0 = DErr e s1 /\ d_out s1 = [])).
    { unfold decodeHeader. rewrite !app_length, !be_length in F0. destruct (Z.eqb_spec v 0) as [->|Hv0].
      - destruct (rd_cut hd _ k st [] s0 8 H0 eq_refl) as [[Hj [s1 [E1 [A1 F1]]]]|[e [s1 [E1 A1]]]].
        + left. exists (k - length hd)%nat, s1. erewrite dbind_ok by exact E1. split; [reflexivity|]. split; [exact A1|]. apply F1. exact F0.
        + right. exists e, s1. erewrite dbind_err by exact E1. split; [reflexivity|exact A1].
      - assert (Hl : length hd = 18%nat) by reflexivity.
        destruct (rd_cut hd _ k st [] s0 18 H0 ltac:(unfold zlen; rewrite Hl; reflexivity)) as [[Hj [s1 [E1 [A1 F1]]]]|[e [s1 [E1 A1]]]].
        + left. exists (k - length hd)%nat, s1. erewrite dbind_ok by exact E1. split; [reflexivity|]. split; [exact A1|]. apply F1. exact F0.
        + right. exists e, s1. erewrite dbind_err by exact E1. split; [reflexivity|exact A1]. }
    destruct Hhd as [[j [s1 [E1 [A1 F1]]]]|[e [s1 [E1 A1]]]]; rewrite E1.
    2:{ rewrite A1. exact (Hdone [] HP0 [] (or_introl eq_refl) s1). }
    change (Z.to_nat 1) with 1%nat.
    assert (HR : emits P (decodeResponses unzip zip v s1)).
    { unfold decodeResponses. apply emits_bind.
      destruct (rd_cut _ _ _ _ _ _ 2 A1 (zlen_be _ _)) as [[_ [s2 [E2 [A2 F2]]]]|[e [s2 [E2 A2]]]]; rewrite E2; [|rewrite A2; exact HP0].
      pose proof Hwf as [Htl _]. pose proof (zlen_nonneg (pr_topic p)) as Ht0.
      rewrite unbe_be. change (256 ^ Z.of_nat 2) with (2 ^ 16).
      rewrite Z.mod_small by (change (2 ^ 16) with (2 * 2 ^ 15); lia).
      apply emits_bind. destruct (rd_cut _ _ _ _ _ _ _ A2 eq_refl) as [[_ [s3 [E3 [A3 F3]]]]|[e [s3 [E3 A3]]]]; rewrite E3; [|rewrite A3; exact HP0].
      apply emits_bind. destruct (rd_cut _ _ _ _ _ _ 4 A3 (zlen_be _ _)) as [[_ [s4 [E4 [A4 F4]]]]|[e [s4 [E4 A4]]]]; rewrite E4; [|rewrite A4; exact HP0].
      change (unbe (be 4 1)) with 1. cbn [Z.eqb]. change (Z.to_nat 1) with 1%nat. cbn [dec_n].
      assert (F : fields_end (st_chunks (d_in s4)) 0 (part_fields v p)).
      { apply F4. apply F3. apply F2. rewrite !be_length, Nat.add_0_r. exact F1. }
      pose proof (emits_presp P _ _ _ (partition_cut v p ws c _ st [] s4 Hv Hwf Hrs Hw Hr A4 F)) as G.
      apply emits_bind. destruct (decodePartitionResponse unzip zip (pr_topic p) v s4); cbn in *; exact G. }
    cbn [dec_n]. unfold dbind. destruct (decodeResponses unzip zip v s1) as [u s2|e s2| |]; cbn [emits] in HR; try contradiction; cbn [dret].
    - exact (Hdone _ HR _ (or_introl eq_refl) _).
    - exact (Hdone _ HR _ (or_intror (ex_intro _ e eq_refl)) _).
  Qed.

  (** the same for a response that arrives completely *)
  Theorem stream_whole v st p ws c rest chunks fin :
    (v = 0 \/ v = 7 \/ v = 10) -> wf_presp p -> pr_records p = firstn c (flat_map enc_wb ws) ->
    Forall (wf_wb unzip) ws -> Forall (rejects_cuts unzip) ws ->
    concat chunks = enc_presp v p ++ rest ->
    fields_ok chunks (length (enc_presp_head v p)) (part_fields v p) ->
    exists ms evs s', prefix ms (exp_all (pr_topic p) (pr_pid p) st ws) /\ msgs_then_err ms evs /\
      streamDecode unzip zip v st (zlen (enc_presp v p)) (mkStream chunks fin) = Ok (evs, s').
  Proof using unzip zip.
    intros Hv Hwf Hrs Hw Hr Hch Hf. unfold enc_presp in *. rewrite <- app_assoc in Hch.
    destruct (stream_header_at unzip zip v st p 0 (part_fields v p) rest chunks fin Hv Hwf Hch Hf) as [s4 [A4 [F E4]]].
    rewrite <- (app_nil_r (part_fields v p)) in F.
    destruct (partition_header_at unzip zip v p [] rest st [] s4 Hv Hwf A4 F) as [s5 [E5 [A5 _]]].
    assert (G : emits (fun out => exists evs, prefix evs (exp_all (pr_topic p) (pr_pid p) st ws) /\ out = [] ++ evs)
      (decodePartition unzip zip (pr_topic p) v s4)).
    { rewrite E5. destruct (zlen (pr_records p) <=? 0).
      - exists []. split; [apply prefix_nil|]. destruct A5 as [_ [_ [_ [_ [_ H]]]]]; exact H.
      - rewrite Hrs in A5. apply at_ats in A5. eapply message_set_prefix; [exact Hw|exact Hr|exact A5]. }
    apply emits_presp in G. rewrite E4.
    destruct (decodePartitionResponse unzip zip (pr_topic p) v s4) as [u s6|e s6| |]; try contradiction;
      destruct G as [evs [Hp Ho]]; rewrite Ho; cbn [app].
    - exists evs, evs, (drain s6). split; [exact Hp|]. split; [left; reflexivity|reflexivity].
    - exists evs, (evs ++ [EvErr e]), (drain s6). split; [exact Hp|]. split; [right; exists e; reflexivity|reflexivity].
  Qed.
End Response.
