(** FetchResponse.Encode with any number of topics and partitions against the stream decoder. *)
From Verif Require Import Base BaseFacts RecordSpec Records RecordFacts Fetch FetchSpec FetchFacts DeliverFacts FetchKeep FetchOld FetchGrow FetchRefute RespEncode FetchEncode ManySpec ManyFacts.

Lemma forall2_length {A B} (R : A -> B -> Prop) l l' : Forall2 R l l' -> length l = length l'.
Proof. intros H; induction H; cbn [length]; congruence. Qed.

(** *** everything in one read *)
Lemma fields_one c : forall ls pos, (pos + list_sum ls <= length c)%nat -> fields_ok [c] pos ls.
Proof.
  induction ls as [|l ls IH]; intros pos H; cbn [fields_ok list_sum fold_right] in *; [exact I|].
  split; [|apply IH; unfold list_sum; lia]. cbn [unsplit]. destruct (Nat.ltb_spec pos (length c)); [lia|exact I].
Qed.
Lemma head_sum v p : list_sum (ppart_fields v p) = length (enc_ppart_head v p).
Proof.
  unfold ppart_fields, enc_ppart_head. rewrite !list_sum_app, !app_length, !be_length. destruct (v =? 0); [reflexivity|].
  rewrite !list_sum_app, !app_length, !be_length. unfold enc_aborted. destruct (pp_aborted p) as [l|]; [|reflexivity]. rewrite app_length, be_length.
  assert (E : list_sum (flat_map (fun _ : Z * Z => [8; 8]%nat) l) = length (flat_map (fun x => be 8 (fst x) ++ be 8 (snd x)) l)).
  { induction l as [|x l IH]; [reflexivity|]. cbn [flat_map]. rewrite list_sum_app, app_length, IH, app_length, !be_length. reflexivity. }
  rewrite E. reflexivity.
Qed.
Lemma parts_one v c : forall ps pos, (pos + length (flat_map (enc_ppart v) ps) <= length c)%nat -> parts_unsplit v [c] pos ps.
Proof.
  induction ps as [|p ps IH]; intros pos H; cbn [parts_unsplit flat_map] in *; [exact I|]. rewrite app_length in H. split; [|apply IH; lia].
  apply fields_one. rewrite head_sum. unfold enc_ppart in H. rewrite app_length in H. lia.
Qed.
Lemma topics_one v c : forall ts pos, (pos + length (flat_map (enc_tparts v) ts) <= length c)%nat -> topics_unsplit v [c] pos ts.
Proof.
  induction ts as [|t ts IH]; intros pos H; cbn [topics_unsplit flat_map] in *; [exact I|]. rewrite app_length in H. split; [|apply IH; lia].
  apply parts_one. unfold enc_tparts in H. rewrite !app_length, !be_length in H. lia.
Qed.
Lemma mresp_one v m : mresp_unsplit v [enc_mresp v m] m.
Proof.
  apply topics_one. unfold enc_mresp. rewrite !app_length, !be_length. destruct (v =? 0); rewrite ?app_length, ?be_length; cbn [length]; lia.
Qed.

Section Facts.
  Variable unzip zip : Z -> bytes -> res bytes.
  Definition good_part (start : Z) (p : PartResp) : Prop :=
    fp_ec p = 0 /\ i32 (fp_pid p) /\ zlen (fp_aborted p) < 2 ^ 31 /\ Forall (good_batch unzip zip start) (fp_batches p).
  Definition good_topic (start : Z) (t : bytes * list PartResp) : Prop :=
    zlen (fst t) < 2 ^ 15 /\ snd t <> [] /\ zlen (snd t) < 2 ^ 31 /\ Forall (good_part start) (snd t).
  Definition part_events (topic : bytes) (p : PartResp) : list event := flat_map (batch_events topic (fp_pid p)) (fp_batches p).
  Definition topic_events (t : bytes * list PartResp) : list event := flat_map (part_events (fst t)) (snd t).
  (** the partition as it is on the wire *)
  Definition on_wire (start : Z) (p : PartResp) (q : ppart) : Prop :=
    wf_ppart unzip q /\ rs_cut (pp_set q) = None /\ (enc_rset (pp_set q) <> [] -> forall t, exp_part start t q <> []) /\
    forall t, exp_part start t q = part_events t p.

  Lemma rcat_cons_inv (a : res bytes) (l : list (res bytes)) out : rcat (a :: l) = Ok out -> exists x y, a = Ok x /\ rcat l = Ok y /\ out = x ++ y.
  Proof.
    intros E. cbn [rcat] in E. destruct a as [x| | |]; cbn [rbind] in E; try discriminate. destruct (rcat l) as [y| | |]; cbn [rbind] in E; try discriminate.
    apply Ok_inj in E. exists x, y. auto.
  Qed.
  Lemma part_wire v start p out : v = 7 \/ v = 10 -> good_part start p -> enc_fpart zip p = Ok out -> zlen out < 2 ^ 31 ->
    exists q, out = enc_ppart v q /\ on_wire start p q.
  Proof.
    intros Hv (Hec & Hp & Ha & Hb) E Hl. unfold enc_fpart in E.
    destruct (rcat (map (batch_encode zip) (fp_batches p))) as [recs| | |] eqn:Er; cbn [rbind] in E; try discriminate. apply Ok_inj in E.
    pose proof (zlen_nonneg (fp_aborted p)).
    assert (Hrl : zlen recs < 2 ^ 31).
    { rewrite <- E in Hl. rewrite !zlen_app, !zlen_be in Hl. match type of Hl with context [zlen (flat_map ?f ?l)] => pose proof (zlen_nonneg (flat_map f l)) end. lia. }
    destruct (batches_wire unzip zip start (fp_batches p) recs Hb Er Hrl) as (ws & Ew & Hws & Hev).
    exists (mkPP (fp_pid p) (fp_hw p) (fp_lso p) (fp_start p) (Some (fp_aborted p)) (mkRS ws None)).
    assert (Es : enc_rset (mkRS ws None) = recs) by (unfold enc_rset; cbn [rs_whole rs_cut]; rewrite app_nil_r; congruence).
    split.
    - rewrite <- E. unfold enc_ppart, enc_ppart_head, enc_aborted. cbn [pp_pid pp_hw pp_lso pp_logstart pp_aborted pp_set].
      assert ((v =? 0) = false) as -> by (destruct Hv as [-> | ->]; reflexivity).
      rewrite Es, Hec, be4_uint, sint_id by lia. rewrite <- !app_assoc. reflexivity.
    - assert (Hx : forall t, exp_part start t (mkPP (fp_pid p) (fp_hw p) (fp_lso p) (fp_start p) (Some (fp_aborted p)) (mkRS ws None)) = part_events t p).
      { intros t. unfold exp_part, exp_rset. cbn [pp_set pp_pid rs_whole rs_cut]. rewrite app_nil_r. apply Hev. }
      split; [|split; [reflexivity|split; [|exact Hx]]].
      + unfold wf_ppart. cbn [pp_pid pp_aborted pp_set]. rewrite Es. split; [exact Hp|]. split; [exact Ha|]. split; [exact Hrl|]. split; [exact Hws|exact I].
      + cbn [pp_set]. rewrite Es. intros Hne t. rewrite Hx. unfold part_events. destruct (fp_batches p) as [|b bs].
        * cbn [map rcat] in Er. injection Er as <-. congruence.
        * destruct (Forall_inv Hb) as (_ & _ & _ & Hn & _). cbn [flat_map]. unfold batch_events at 1. destruct (rb_records b); [congruence|discriminate].
  Qed.
  Lemma parts_wire v start ps : forall out, v = 7 \/ v = 10 -> Forall (good_part start) ps -> rcat (map (enc_fpart zip) ps) = Ok out -> zlen out < 2 ^ 31 ->
    exists qs, out = flat_map (enc_ppart v) qs /\ Forall2 (on_wire start) ps qs.
  Proof.
    induction ps as [|p ps IH]; intros out Hv Hp E Hl; cbn [map] in E.
    - injection E as <-. exists []. split; [reflexivity|constructor].
    - apply rcat_cons_inv in E. destruct E as (x & y & E1 & E2 & ->). rewrite zlen_app in Hl. pose proof (zlen_nonneg x). pose proof (zlen_nonneg y).
      destruct (part_wire v start p x Hv (Forall_inv Hp) E1 ltac:(lia)) as (q & -> & Hq).
      destruct (IH y Hv (Forall_inv_tail Hp) E2 ltac:(lia)) as (qs & -> & Hqs). exists (q :: qs). split; [reflexivity|constructor; assumption].
  Qed.
  Definition topic_on_wire (start : Z) (t : bytes * list PartResp) (q : topic_parts) : Prop :=
    fst q = fst t /\ Forall2 (on_wire start) (snd t) (snd q).
  Lemma topics_wire v start ts : forall out, v = 7 \/ v = 10 -> Forall (good_topic start) ts -> rcat (map (enc_ftopic zip) ts) = Ok out -> zlen out < 2 ^ 31 ->
    exists qs, out = flat_map (enc_tparts v) qs /\ Forall2 (topic_on_wire start) ts qs.
  Proof.
    induction ts as [|t ts IH]; intros out Hv Ht E Hl; cbn [map] in E.
    - injection E as <-. exists []. split; [reflexivity|constructor].
    - apply rcat_cons_inv in E. destruct E as (x & y & E1 & E2 & ->). rewrite zlen_app in Hl. pose proof (zlen_nonneg x). pose proof (zlen_nonneg y).
      destruct (IH y Hv (Forall_inv_tail Ht) E2 ltac:(lia)) as (qs & -> & Hqs). destruct (Forall_inv Ht) as (H1 & H2 & H3 & H4).
      unfold enc_ftopic in E1. cbn [app] in E1. apply rcat_cons_inv in E1. destruct E1 as (a1 & b1 & X1 & E1 & ->). apply rcat_cons_inv in E1. destruct E1 as (a2 & b2 & X2 & E1 & ->).
      apply rcat_cons_inv in E1. destruct E1 as (a3 & b3 & X3 & E1 & ->). apply Ok_inj in X1. apply Ok_inj in X2. apply Ok_inj in X3.
      rewrite !zlen_app in Hl. pose proof (zlen_nonneg a1). pose proof (zlen_nonneg a2). pose proof (zlen_nonneg a3). pose proof (zlen_nonneg b3).
      destruct (parts_wire v start (snd t) b3 Hv H4 E1 ltac:(lia)) as (ps & -> & Hps). pose proof (zlen_nonneg (fst t)). pose proof (zlen_nonneg (snd t)).
      assert (El : zlen ps = zlen (snd t)) by (unfold zlen; rewrite (forall2_length _ _ _ Hps); reflexivity).
      exists ((fst t, ps) :: qs). split.
      + cbn [flat_map]. unfold enc_tparts at 2. cbn [fst snd]. rewrite <- X1, <- X2, <- X3, El, !sint_id by lia. rewrite <- !app_assoc. reflexivity.
      + constructor; [|exact Hqs]. split; [reflexivity|exact Hps].
  Qed.

  Lemma on_wire_in start ps qs q : Forall2 (on_wire start) ps qs -> In q qs -> wf_ppart unzip q /\ rs_cut (pp_set q) = None /\ (enc_rset (pp_set q) <> [] -> forall t, exp_part start t q <> []).
  Proof. intros H. induction H as [|p q' ps qs (A & B & C & D) _ IH]; [intros []|]. intros [E|E]; [subst; auto|auto]. Qed.
  Lemma topic_in start ts qs t a q b A B : Forall2 (topic_on_wire start) ts qs -> qs = A ++ (t, a ++ q :: b) :: B ->
    wf_ppart unzip q /\ rs_cut (pp_set q) = None /\ (enc_rset (pp_set q) <> [] -> forall t, exp_part start t q <> []).
  Proof.
    intros H E. assert (I : In (t, a ++ q :: b) qs) by (rewrite E; apply in_or_app; right; left; reflexivity). clear E.
    induction H as [|x y ts qs [_ Hx] _ IH]; [destruct I|]. destruct I as [->|I]; [|exact (IH I)]. cbn [snd] in Hx.
    eapply on_wire_in; [exact Hx|]. apply in_or_app; right; left; reflexivity.
  Qed.

  Theorem fetchresp_read_many v start corr throttle session topics out fin :
    v = 7 \/ v = 10 -> zlen topics < 2 ^ 31 -> Forall (good_topic start) topics ->
    enc_fetchresp zip (mkFR corr throttle 0 session topics) = Ok out -> zlen out < 2 ^ 31 ->
    exists s', streamDecode unzip zip v start (zlen out) (mkStream [out] fin) = Ok (flat_map topic_events topics, s') /\
      concat (st_chunks (d_in s')) = [].
  Proof.
    intros Hv Hn Ht E Hl. unfold enc_fetchresp in E. cbn [fr_corr fr_throttle fr_ec fr_session fr_topics app] in E.
    apply rcat_cons_inv in E. destruct E as (a1 & b1 & X1 & E & ->). apply Ok_inj in X1.
    apply rcat_cons_inv in E. destruct E as (a2 & b2 & X2 & E & ->). apply Ok_inj in X2.
    apply rcat_cons_inv in E. destruct E as (a3 & b3 & X3 & E & ->). apply Ok_inj in X3.
    apply rcat_cons_inv in E. destruct E as (a4 & b4 & X4 & E & ->). apply Ok_inj in X4.
    apply rcat_cons_inv in E. destruct E as (a5 & b5 & X5 & E & ->). apply Ok_inj in X5.
    rewrite !zlen_app in Hl. pose proof (zlen_nonneg a1). pose proof (zlen_nonneg a2). pose proof (zlen_nonneg a3). pose proof (zlen_nonneg a4). pose proof (zlen_nonneg a5).
    destruct (topics_wire v start topics b5 Hv Ht E ltac:(lia)) as (qs & -> & Hqs).
    assert (El : zlen qs = zlen topics) by (unfold zlen; rewrite (forall2_length _ _ _ Hqs); reflexivity). pose proof (zlen_nonneg topics).
    set (m := mkMR corr throttle session qs).
    assert (Eo : a1 ++ a2 ++ a3 ++ a4 ++ a5 ++ flat_map (enc_tparts v) qs = enc_mresp v m).
    { unfold enc_mresp, m. cbn [mr_corr mr_throttle mr_session mr_topics]. assert ((v =? 0) = false) as -> by (destruct Hv as [-> | ->]; reflexivity).
      rewrite <- X1, <- X2, <- X3, <- X4, <- X5, El, sint_id by lia. rewrite <- !app_assoc. reflexivity. }
    rewrite Eo in *.
    assert (Hw : wf_mresp unzip m).
    { split; [cbn [m mr_topics]; lia|]. cbn [m mr_topics]. clear - Hqs Ht. induction Hqs as [|t q ts qs [Hf Hp] _ IH]; [constructor|].
      constructor; [|apply IH; exact (Forall_inv_tail Ht)]. destruct (Forall_inv Ht) as (H1 & H2 & H3 & H4). split; [rewrite Hf; exact H1|].
      split; [intros E0; rewrite E0 in Hp; inversion Hp; congruence|]. split; [unfold zlen in *; rewrite <- (forall2_length _ _ _ Hp); exact H3|].
      rewrite Forall_forall. intros x Hx. exact (proj1 (on_wire_in start _ _ x Hp Hx)). }
    destruct (many_decode unzip zip v start m [] [enc_mresp v m] fin) as (evs & s' & D & C & G1 & _); try assumption.
    - destruct Hv as [-> | ->]; auto.
    - intros A t x q b B Eq Hc. destruct (topic_in start topics qs t x q b A B Hqs Eq) as (_ & K & _). contradiction.
    - cbn [concat]. reflexivity.
    - apply mresp_one.
    - exists s'. split; [|exact C]. rewrite D. rewrite G1; [|intros A t x q b B Eq _ _ Hne; destruct (topic_in start topics qs t x q b A B Hqs Eq) as (_ & _ & K); exact (K Hne t)].
      do 2 f_equal. unfold exp_many. cbn [m mr_topics]. clear - Hqs. induction Hqs as [|t q ts qs [Hf Hp] _ IH]; [reflexivity|]. cbn [flat_map]. rewrite IH. f_equal.
      unfold exp_parts, topic_events. rewrite Hf. clear - Hp. induction Hp as [|p q' ps qs' (_ & _ & _ & D) _ IH]; [reflexivity|]. cbn [flat_map]. rewrite IH, D. reflexivity.
  Qed.
End Facts.
