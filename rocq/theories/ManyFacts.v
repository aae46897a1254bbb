From Verif Require Import Base BaseFacts Wire RecordSpec Records RecordFacts Fetch FetchSpec FetchFacts ManySpec.

(** *** how reading moves the chunks *)
Definition adv (s s' : dst) : Prop := exists n,
  length (flat s) = (n + length (flat s'))%nat /\
  forall p l, unsplit (st_chunks (d_in s)) (n + p) l -> unsplit (st_chunks (d_in s')) p l.
Lemma adv_refl s : adv s s.
Proof. exists O. split; [reflexivity|]. intros p l H. exact H. Qed.
Lemma adv_trans a b c : adv a b -> adv b c -> adv a c.
Proof.
  intros [n [L1 H1]] [m [L2 H2]]. exists (n + m)%nat. split; [lia|]. intros p l H. apply H2, H1. rewrite Nat.add_assoc. exact H.
Qed.
Lemma adv_same s s' : d_in s' = d_in s -> adv s s'.
Proof. intros E. exists O. unfold flat. rewrite E. split; [reflexivity|]. intros p l H. exact H. Qed.
Lemma adv_fields s s' n : adv s s' -> length (flat s) = (n + length (flat s'))%nat ->
  forall ls p, fields_ok (st_chunks (d_in s)) (n + p) ls -> fields_ok (st_chunks (d_in s')) p ls.
Proof.
  intros [m [L H]] Hn. assert (m = n) as -> by lia. exact (read1_fields _ _ _ H).
Qed.

Definition moves {A} (p : dec A) : Prop := forall s, match p s with DOk _ s' => adv s s' | DErr _ s' => adv s s' | _ => True end.
Lemma moves_ret {A} (a : A) : moves (dret a).
Proof. intros s. apply adv_refl. Qed.
Lemma moves_fail {A} e : moves (@dfail A e).
Proof. intros s. apply adv_refl. Qed.
Lemma moves_panic {A} : moves (fun _ => @DPanic A).
Proof. intros s. exact I. Qed.
Lemma moves_unspec {A} : moves (fun _ => @DUnspec A).
Proof. intros s. exact I. Qed.
Lemma moves_bind {A B} (p : dec A) (k : A -> dec B) : moves p -> (forall a, moves (k a)) -> moves (dbind p k).
Proof.
  intros Hp Hk s. unfold dbind. pose proof (Hp s) as G. destruct (p s) as [a s1|e s1| |]; try exact G.
  pose proof (Hk a s1) as K. destruct (k a s1); try exact I; eapply adv_trans; eassumption.
Qed.
Lemma adv_take s n k m : (n <= length (flat s))%nat -> k = take_full n (st_chunks (d_in s)) -> adv s (with_in s (snd k) m).
Proof.
  intros Hn ->. exists n. destruct (take_full_spec (st_chunks (d_in s)) n Hn) as [_ E2]. unfold flat, with_in; cbn. rewrite E2, skipn_length.
  unfold flat in Hn. split; [lia|]. intros p l H. apply take_full_unsplit; assumption.
Qed.
Lemma avail_nat s x : (Z.to_nat (Z.min x (avail s)) <= length (flat s))%nat.
Proof. unfold avail. fold (flat s). unfold zlen. lia. Qed.
Lemma moves_try_read n : moves (try_read n).
Proof.
  intros s. unfold try_read. destruct (n <=? 0); [apply adv_refl|].
  match goal with |- context [take_full ?n ?c] => pose proof (adv_take s n (take_full n c) (zlen (fst (take_full n c))) (avail_nat s _) eq_refl) as G end.
  destruct (take_full _ _) as [b cs]. cbn [fst snd] in G. destruct (zlen b =? n); [exact G|]. destruct (_ || _); exact G.
Qed.
Lemma moves_read n : moves (read n).
Proof. apply moves_bind; [apply moves_try_read|]. intros [b [e|]]; [apply moves_fail|apply moves_ret]. Qed.
Lemma moves_read_limit k : moves (read_limit k).
Proof.
  intros s. unfold read_limit.
  match goal with |- context [take_full ?n ?c] => pose proof (adv_take s n (take_full n c) (zlen (fst (take_full n c))) (avail_nat s _) eq_refl) as G end.
  destruct (take_full _ _) as [b cs]. cbn [fst snd] in G. destruct (zlen b =? _); [exact G|]. destruct (st_fin (d_in s)); exact G.
Qed.
Lemma read1_moves : forall cs n b r, read1 n cs = Some (b, r) ->
  length (concat cs) = (length b + length (concat r))%nat /\ forall p l, unsplit cs (length b + p) l -> unsplit r p l.
Proof.
  induction cs as [|c cs IH]; intros n b r E; cbn [read1] in E; [discriminate|].
  destruct c as [|x c].
  - destruct (IH _ _ _ E) as [L H]. split; [exact L|]. intros p l U. apply H. cbn [unsplit length] in U.
    destruct (Nat.ltb_spec (length b + p) 0); [lia|]. rewrite Nat.sub_0_r in U. exact U.
  - set (C := x :: c) in *. injection E as <- <-. rewrite firstn_length. cbn [concat]. rewrite !app_length, skipn_length. split; [lia|].
    intros p l U. cbn [unsplit] in U |- *. rewrite skipn_length.
    destruct (Nat.ltb_spec (Nat.min n (length C) + p) (length C)), (Nat.ltb_spec p (length C - n)); try lia.
    replace (p - (length C - n))%nat with (Nat.min n (length C) + p - length C)%nat by lia. exact U.
Qed.
Lemma moves_read_some n : moves (read_some n).
Proof.
  intros s. unfold read_some. destruct (d_lim s <=? 0); [apply adv_refl|].
  destruct (read1 _ _) as [[b r]|] eqn:E; [|apply adv_refl]. destruct (read1_moves _ _ _ _ E) as [L H].
  exists (length b). unfold flat, with_in; cbn. split; [exact L|exact H].
Qed.
Lemma moves_put topic pid m : moves (put topic pid m).
Proof. intros s. unfold put. destruct (_ <=? _); apply adv_same; reflexivity. Qed.

Section Codec.
  Variable unzip zip : Z -> bytes -> res bytes.
  Lemma moves_put_records topic pid base bts : forall n raw, moves (put_records n topic pid base bts raw).
  Proof using unzip zip.
    induction n as [|n IH]; intros raw; cbn [put_records]; [apply moves_ret|].
    destruct (decodeToRecord raw) as [[r rest]|e| |]; [|apply moves_ret|apply moves_panic|apply moves_unspec].
    apply moves_bind; [apply moves_put|]. intros _. apply IH.
  Qed.
  Lemma moves_magic2 topic pid h : moves (decodeRecordsMagic2 unzip topic pid h).
  Proof using unzip zip.
    apply moves_bind; [apply moves_try_read|]. intros [b e]. cbn [fst snd].
    assert (M : moves (dfail (A := Z) (match e with Some x => x | None => EEOF end))) by apply moves_fail.
    destruct e as [e|]; [destruct e; first [apply moves_ret|exact M]|]. cbv zeta.
    destruct (_ <=? 0); [apply moves_ret|]. apply moves_bind; [apply moves_read_limit|]. intros [y e].
    destruct (match snd (y, e) with Some e => _ | None => _ end) as [raw|e'| |].
    - apply moves_bind; [apply moves_put_records|]. intros _. apply moves_ret.
    - intros s. destruct (_ && _); apply adv_refl.
    - apply moves_panic.
    - apply moves_unspec.
  Qed.
  Lemma moves_put_all topic pid ms : moves (put_all topic pid ms).
  Proof using unzip zip.
    induction ms as [|m ms IH]; cbn [put_all]; [apply moves_ret|]. apply moves_bind; [apply moves_put|]. intros _. exact IH.
  Qed.
  Lemma moves_put_message topic pid v : moves (put_message zip topic pid v).
  Proof using unzip zip.
    unfold put_message. destruct (decodeToMessageSet _ _ _) as [[|m ms]|e| |]; [apply moves_ret| |apply moves_fail|apply moves_panic|apply moves_unspec].
    apply moves_bind; [apply moves_put_all|]. intros _. apply moves_ret.
  Qed.
  Lemma moves_rest topic pid : forall f acc, moves (decodeMagic01_rest zip f topic pid acc).
  Proof using unzip zip.
    induction f as [|f IH]; intros acc; cbn [decodeMagic01_rest]; [apply moves_unspec|].
    apply moves_bind; [apply moves_read|]. intros buf. cbv zeta. apply moves_bind.
    - destruct (_ =? 0); [|apply moves_read_some]. intros s. destruct (_ <=? 0); apply adv_refl.
    - intros body. destruct (_ <? _); [apply moves_ret|]. apply moves_bind; [apply moves_put_message|]. intros [|]; [apply IH|apply moves_ret].
  Qed.
  Lemma moves_magic01 f topic pid h : moves (decodeMagic01 zip f topic pid h).
  Proof using unzip zip.
    unfold decodeMagic01. cbv zeta. destruct (_ <? 6); [apply moves_ret|]. apply moves_bind; [apply moves_read_some|]. intros body.
    destruct (_ <? _); [apply moves_ret|]. apply moves_bind; [apply moves_put_message|]. intros [|]; [apply moves_rest|apply moves_ret].
  Qed.
  Lemma moves_sets topic pid size : forall f offset, moves (decodeSets unzip zip f topic pid size offset).
  Proof using unzip zip.
    induction f as [|f IH]; intros offset; cbn [decodeSets]; [apply moves_unspec|].
    destruct (_ <=? _); [apply moves_ret|]. apply moves_bind; [apply moves_try_read|]. intros [b e]. cbn [fst snd].
    assert (M : moves (dfail (A := unit) (match e with Some x => x | None => EEOF end))) by apply moves_fail.
    destruct e as [e|]; [destruct e; first [apply moves_ret|exact M]|]. cbv zeta.
    apply moves_bind; [|intros o; apply IH]. destruct (_ <? 2); [apply moves_magic01|apply moves_magic2].
  Qed.
  Lemma moves_message_set topic pid size : moves (decodeMessageSet unzip zip topic pid size).
  Proof using unzip zip.
    intros s. unfold decodeMessageSet. cbv zeta. pose proof (moves_sets topic pid size (S (Z.to_nat (avail s))) 0 s) as G.
    destruct (decodeSets _ _ _ _ _ _ _ s) as [u s1|e s1| |]; try exact I.
    - destruct (d_has s1); exact G.
    - destruct (is_eofs e && d_has s1); [destruct (d_has s1); exact G|exact G].
  Qed.

  (** *** one partition with more data behind *)
  Definition as_presp (topic : bytes) (p : ppart) : presp :=
    mkPR 0 0 0 topic (pp_pid p) (pp_hw p) (pp_lso p) (pp_logstart p) (pp_aborted p) (enc_rset (pp_set p)).
  Lemma message_set_more topic pid ws data rest st o s :
    Forall (wf_wb unzip) ws -> ws <> [] ->
    at2 (flat_map enc_wb ws ++ data) rest st o s ->
    exists s', at2 data rest st (o ++ exp_all topic pid st ws) s' /\
      decodeMessageSet unzip zip topic pid (zlen (flat_map enc_wb ws)) s =
        (if nonempty (o ++ exp_all topic pid st ws) then DOk tt s' else DErr EMaxBytesTooSmall s').
  Proof using unzip zip.
    intros Hw Hne Hat. pose proof (flat_enc_len unzip zip ws) as Hfl.
    assert (Hav : zlen (flat_map enc_wb ws) <= avail s).
    { destruct Hat as [Hf _]. unfold avail. fold (flat s). rewrite Hf, !zlen_app. pose proof (zlen_nonneg rest). pose proof (zlen_nonneg data). lia. }
    assert (Hfuel : exists f, S (Z.to_nat (avail s)) = (length ws + S f)%nat).
    { exists (Z.to_nat (avail s) - length ws)%nat. unfold zlen in *. lia. }
    destruct Hfuel as [f Ef]. set (size := zlen (flat_map enc_wb ws)) in *.
    destruct (sets_all unzip zip ws (S f) topic pid size 0 data rest st o s Hw ltac:(lia) Hat) as [s1 [E1 A1]].
    exists s1. split; [exact A1|]. unfold decodeMessageSet. rewrite Ef, E1. cbn [decodeSets].
    destruct (Z.leb_spec size (0 + zlen (flat_map enc_wb ws))); [|lia]. unfold dret. cbv zeta.
    destruct A1 as (_ & _ & _ & _ & Hh & _). rewrite Hh. reflexivity.
  Qed.
  Lemma rset_empty rs topic pid st : enc_rset rs = [] -> exp_rset topic pid st rs = [].
  Proof using unzip zip.
    intros Eset. unfold exp_rset. pose proof (flat_enc_len unzip zip (rs_whole rs)) as Hl. unfold enc_rset in Eset.
    apply app_eq_nil in Eset. destruct Eset as [Es1 Es2]. rewrite Es1, zlen_nil in Hl.
    destruct (rs_whole rs) as [|w0 ws0]; [|rewrite zlen_cons in Hl; pose proof (zlen_nonneg ws0); lia]. cbn [exp_all flat_map app].
    destruct (rs_cut rs) as [[w k]|] eqn:Ec; [|reflexivity].
    assert (Hk0 : k = O).
    { pose proof (enc_wb_len w) as He. pose proof (zlen_nonneg (wb_payload w)).
      destruct (enc_wb w); [rewrite zlen_nil in He; lia|]. destruct k; [reflexivity|discriminate]. }
    subst k. unfold exp_cut, exp_events. cbn [Nat.sub]. destruct (wb_recs w) as [|r rr]; [reflexivity|].
    cbn [whole]. pose proof (enc_srecord_pos r). destruct (Nat.leb_spec (length (enc_srecord r)) 0); [lia|reflexivity].
  Qed.
  Lemma ppart_head topic v p : enc_ppart v p = enc_presp_part v 0 (as_presp topic p) ++ enc_rset (pp_set p).
  Proof using unzip zip. reflexivity. Qed.
  Lemma at2_len data rest st o s : at2 data rest st o s -> length (flat s) = (length data + length rest)%nat.
  Proof using unzip zip. intros [H _]. rewrite H, app_length. reflexivity. Qed.

  Lemma partition_more v topic p data rest st o s :
    (v = 0 \/ v = 7 \/ v = 10) -> zlen topic < 2 ^ 15 -> wf_ppart unzip p -> (rs_cut (pp_set p) <> None -> data = []) ->
    at2 (enc_ppart v p ++ data) rest st o s ->
    fields_ok (st_chunks (d_in s)) 0 (ppart_fields v p) ->
    exists s', at2 data rest st (o ++ exp_part st topic p) s' /\ adv s s' /\
      decodePartitionResponse unzip zip topic v s =
        (if nonempty (o ++ exp_part st topic p) || negb (nonempty (enc_rset (pp_set p))) then DOk tt s' else DErr EMaxBytesTooSmall s').
  Proof using unzip zip.
    intros Hv Ht (Hp & Hab & Hsz & Hset) Hcut Hat Hf. rewrite (ppart_head topic), <- app_assoc in Hat.
    change (ppart_fields v p) with (part_fields v (as_presp topic p)) in Hf. rewrite <- (app_nil_r (part_fields _ _)) in Hf.
    assert (Hwf : wf_presp (as_presp topic p)) by (repeat split; first [assumption|exact (proj1 Hp)|exact (proj2 Hp)]).
    destruct (partition_header_gen unzip zip v (as_presp topic p) [] _ rest st o s Hv Hwf Hat Hf) as [s5 [E5 [A5 _]]].
    cbn [pr_topic pr_pid pr_records as_presp] in E5. unfold decodePartitionResponse. rewrite E5.
    assert (M : match decodePartition unzip zip topic v s with DOk _ s' | DErr _ s' => adv s s' | _ => True end).
    { assert (MB : forall n b, moves (read_buf n b)) by (intros; apply moves_bind; [apply moves_read_some|intros; apply moves_ret]).
      assert (MS : forall n b, moves (skip_aborted n b)).
      { induction n as [|n IH]; intros b; cbn [skip_aborted]; [apply moves_ret|]. do 2 (apply moves_bind; [apply MB|intros ?]). apply IH. }
      assert (MP : moves (decodePartition unzip zip topic v)).
      { unfold decodePartition. apply moves_bind; [apply MB|intros b1]. cbv zeta. apply moves_bind; [apply MB|intros b2].
        destruct (negb _); [apply moves_fail|]. apply moves_bind; [apply MB|intros b3]. apply moves_bind.
        - destruct (_ || _); [|apply moves_ret]. do 3 (apply moves_bind; [apply MB|intros ?]). apply MS.
        - intros b4. apply moves_bind; [apply MB|intros b5]. destruct (sint 32 (unbe (firstn 4 b5)) <=? 0); [apply moves_ret|apply moves_message_set]. }
      apply MP. }
    rewrite E5 in M. clear E5.
    assert (Hcase : enc_rset (pp_set p) = [] \/ (enc_rset (pp_set p) <> [] /\ nonempty (enc_rset (pp_set p)) = true))
      by (destruct (enc_rset (pp_set p)); [left; reflexivity|right; split; [congruence|reflexivity]]).
    destruct Hcase as [Eset|[Eset Ene]].
    - unfold exp_part. rewrite (rset_empty _ topic (pp_pid p) st Eset). rewrite Eset in *. cbn [app] in A5. rewrite zlen_nil in *. cbn [Z.leb Z.compare] in *.
      exists s5. rewrite app_nil_r. cbn [nonempty negb]. rewrite orb_true_r. split; [exact A5|]. split; [exact M|reflexivity].
    - assert (Hz : 0 < zlen (enc_rset (pp_set p))) by (destruct (enc_rset (pp_set p)) as [|x xs]; [congruence|rewrite zlen_cons; pose proof (zlen_nonneg xs); lia]).
      destruct (Z.leb_spec (zlen (enc_rset (pp_set p))) 0); [lia|]. rewrite Ene. cbn [negb]. rewrite orb_false_r.
      destruct (rs_cut (pp_set p)) as [c|] eqn:Ec.
      + rewrite (Hcut ltac:(discriminate)) in *. rewrite app_nil_r in A5.
        destruct (message_set_at unzip zip topic (pp_pid p) (pp_set p) rest st o s5 Hset Eset A5) as [s6 [A6 E6]].
        exists s6. fold (exp_part st topic p) in A6, E6. split; [exact A6|]. destruct (nonempty (o ++ exp_part st topic p)).
        * rewrite E6 in M |- *. split; [exact M|reflexivity].
        * destruct E6 as [E6|E6]; rewrite E6 in M |- *; (split; [exact M|reflexivity]).
      + assert (Ee : enc_rset (pp_set p) = flat_map enc_wb (rs_whole (pp_set p))) by (unfold enc_rset; rewrite Ec; apply app_nil_r).
        assert (Ex : exp_part st topic p = exp_all topic (pp_pid p) st (rs_whole (pp_set p))) by (unfold exp_part, exp_rset; rewrite Ec; apply app_nil_r).
        rewrite Ex. rewrite Ee in *. destruct Hset as [Hws _].
        destruct (message_set_more topic (pp_pid p) (rs_whole (pp_set p)) data rest st o s5 Hws) as [s6 [A6 E6]]; [intros E0; rewrite E0 in Eset; apply Eset; reflexivity|exact A5|].
        exists s6. split; [exact A6|]. rewrite E6 in M |- *. destruct (nonempty _); (split; [exact M|reflexivity]).
  Qed.

  (** *** the partitions of a topic, the topics *)
  Lemma unsplit_parts_shift v cs cs' n : (forall ls p, fields_ok cs (n + p) ls -> fields_ok cs' p ls) ->
    forall ps pos, parts_unsplit v cs (n + pos) ps -> parts_unsplit v cs' pos ps.
  Proof using unzip zip.
    intros H. induction ps as [|p ps IH]; intros pos Hp; cbn [parts_unsplit] in *; [exact I|]. destruct Hp as [H1 H2].
    split; [apply H; exact H1|]. apply IH. rewrite Nat.add_assoc. exact H2.
  Qed.
  Lemma unsplit_topics_shift v cs cs' n : (forall ls p, fields_ok cs (n + p) ls -> fields_ok cs' p ls) ->
    forall ts pos, topics_unsplit v cs (n + pos) ts -> topics_unsplit v cs' pos ts.
  Proof using unzip zip.
    intros H. induction ts as [|t ts IH]; intros pos Hp; cbn [topics_unsplit] in *; [exact I|]. destruct Hp as [H1 H2].
    split.
    - eapply unsplit_parts_shift; [exact H|]. rewrite Nat.add_assoc. exact H1.
    - apply IH. rewrite Nat.add_assoc. exact H2.
  Qed.
  Definition starved (o : list event) (e : list event) (b : bytes) : bool := negb (nonempty (o ++ e) || negb (nonempty b)).

  (** either all are read, or nothing was wanted up to a partition with records *)
  Lemma parts_more v topic ps : forall data rest st o s,
    (v = 0 \/ v = 7 \/ v = 10) -> zlen topic < 2 ^ 15 -> Forall (wf_ppart unzip) ps ->
    (forall a p b, ps = a ++ p :: b -> rs_cut (pp_set p) <> None -> b = [] /\ data = []) ->
    at2 (flat_map (enc_ppart v) ps ++ data) rest st o s ->
    parts_unsplit v (st_chunks (d_in s)) 0 ps ->
    exists s', adv s s' /\
     ((at2 data rest st (o ++ flat_map (exp_part st topic) ps) s' /\ dec_n (length ps) (decodePartitionResponse unzip zip topic v) s = DOk tt s' /\
       forall a p b, o = [] -> ps = a ++ p :: b -> flat_map (fun p => enc_rset (pp_set p)) a = [] -> enc_rset (pp_set p) <> [] -> exp_part st topic p <> []) \/
      (exists a p b data', o = [] /\ ps = a ++ p :: b /\ flat_map (fun p => enc_rset (pp_set p)) a = [] /\ enc_rset (pp_set p) <> [] /\ exp_part st topic p = [] /\
       at2 data' rest st [] s' /\ dec_n (length ps) (decodePartitionResponse unzip zip topic v) s = DErr EMaxBytesTooSmall s')).
  Proof using unzip zip.
    induction ps as [|p ps IH]; intros data rest st o s Hv Ht Hps Hcut Hat Hu.
    - exists s. split; [apply adv_refl|]. left. cbn in *. rewrite app_nil_r. split; [exact Hat|]. split; [reflexivity|]. intros [|x a] q b _ E; discriminate.
    - pose proof (Forall_inv Hps) as Hp. pose proof (Forall_inv_tail Hps) as Hps'. cbn [flat_map parts_unsplit length dec_n] in *. rewrite <- app_assoc in Hat. destruct Hu as [Hu1 Hu2].
      assert (Hc1 : rs_cut (pp_set p) <> None -> flat_map (enc_ppart v) ps ++ data = []).
      { intros Hc. destruct (Hcut [] p ps eq_refl Hc) as [-> ->]. reflexivity. }
      destruct (partition_more v topic p _ rest st o s Hv Ht Hp Hc1 Hat Hu1) as [s1 [A1 [V1 E1]]].
      destruct (nonempty (o ++ exp_part st topic p) || negb (nonempty (enc_rset (pp_set p)))) eqn:Eb.
      + assert (Hu3 : parts_unsplit v (st_chunks (d_in s1)) 0 ps).
        { eapply unsplit_parts_shift; [|rewrite Nat.add_0_r; exact Hu2]. apply (adv_fields _ _ _ V1).
          rewrite (at2_len _ _ _ _ _ A1), (at2_len _ _ _ _ _ Hat), !app_length. lia. }
        destruct (IH data rest st (o ++ exp_part st topic p) s1 Hv Ht Hps') as [s2 [V2 R]]; [|exact A1|exact Hu3|].
        { intros a q b E Hc. apply (Hcut (p :: a) q b); [rewrite E; reflexivity|exact Hc]. }
        exists s2. split; [eapply adv_trans; eassumption|]. unfold dbind. rewrite E1.
        destruct R as [(A2 & E2 & W)|(a & q & b & data' & Ho & Eps & Ea & Eq & Ex & A2 & E2)].
        * left. rewrite <- app_assoc in A2. split; [exact A2|]. split; [exact E2|].
          intros a q b Ho Eps Ea Eq. destruct a as [|x a]; cbn [app] in Eps; injection Eps as <- Eps.
          -- subst o. cbn [app] in Eb. destruct (exp_part st topic p); [|discriminate]. cbn [nonempty orb] in Eb. destruct (enc_rset (pp_set p)); [congruence|discriminate].
          -- cbn [flat_map] in Ea. apply app_eq_nil in Ea. destruct Ea as [Ea1 Ea2]. eapply W; [|exact Eps|exact Ea2|exact Eq].
             subst o. unfold exp_part. rewrite (rset_empty _ topic (pp_pid p) st Ea1). reflexivity.
        * right. apply app_eq_nil in Ho. destruct Ho as [Ho1 Ho2]. subst o. rewrite Ho2 in Eb. cbn [app nonempty orb] in Eb.
          assert (Ee : enc_rset (pp_set p) = []) by (destruct (enc_rset (pp_set p)); [reflexivity|discriminate]).
          exists (p :: a), q, b, data'. split; [reflexivity|]. split; [rewrite Eps; reflexivity|]. split; [cbn [flat_map]; rewrite Ee, Ea; reflexivity|].
          split; [exact Eq|]. split; [exact Ex|]. split; [exact A2|]. exact E2.
      + apply orb_false_iff in Eb. destruct Eb as [Eb1 Eb2]. apply negb_false_iff in Eb2.
        assert (Hoe : o = [] /\ exp_part st topic p = []) by (apply app_eq_nil; destruct (o ++ exp_part st topic p); [reflexivity|discriminate]). destruct Hoe as [-> Hex].
        exists s1. split; [exact V1|]. right. exists [], p, ps. eexists. split; [reflexivity|]. split; [reflexivity|]. split; [reflexivity|].
        split; [intros E0; rewrite E0 in Eb2; discriminate|]. split; [exact Hex|]. rewrite Hex in A1. split; [exact A1|]. unfold dbind. rewrite E1. reflexivity.
  Qed.

  Lemma topics_more v ts : forall rest st o s,
    (v = 0 \/ v = 7 \/ v = 10) -> Forall (wf_tparts unzip) ts -> cut_last ts ->
    at2 (flat_map (enc_tparts v) ts) rest st o s ->
    topics_unsplit v (st_chunks (d_in s)) 0 ts ->
    exists s',
     (at2 [] rest st (o ++ flat_map (exp_parts st) ts) s' /\ dec_n (length ts) (decodeResponses unzip zip v) s = DOk tt s' /\
      (o = [] -> first_wanted st ts)) \/
     (exists data', o = [] /\ ~ first_wanted st ts /\ at2 data' rest st [] s' /\ dec_n (length ts) (decodeResponses unzip zip v) s = DErr EMaxBytesTooSmall s').
  Proof using unzip zip.
    induction ts as [|t ts IH]; intros rest st o s Hv Hts Hcut Hat Hu.
    - exists s. left. cbn in *. rewrite app_nil_r. split; [exact Hat|]. split; [reflexivity|]. intros _ [|x A] t a p b B E; discriminate.
    - pose proof (Forall_inv Hts) as (Ht & Hne & Hn & Hps). pose proof (Forall_inv_tail Hts) as Hts'.
      cbn [flat_map topics_unsplit length dec_n] in *. destruct Hu as [Hu1 Hu2]. unfold enc_tparts at 1 in Hat. rewrite <- !app_assoc in Hat.
      pose proof (zlen_nonneg (fst t)) as Ht0. pose proof (zlen_nonneg (snd t)) as Hn0.
      destruct (read_at _ _ _ _ _ _ _ 2 Hat (zlen_be _ _)) as [s1 [E1 [A1 F1]]].
      destruct (read_at _ _ _ _ _ _ _ _ A1 eq_refl) as [s2 [E2 [A2 F2]]].
      destruct (read_at _ _ _ _ _ _ _ 4 A2 (zlen_be _ _)) as [s3 [E3 [A3 F3]]].
      assert (Hr : decodeResponses unzip zip v s = dec_n (length (snd t)) (decodePartitionResponse unzip zip (fst t) v) s3).
      { unfold decodeResponses. erewrite dbind_ok by exact E1. rewrite unbe_be. change (256 ^ Z.of_nat 2) with (2 ^ 16).
        rewrite Z.mod_small by (change (2 ^ 16) with (2 * 2 ^ 15); lia).
        erewrite dbind_ok by exact E2. erewrite dbind_ok by exact E3. rewrite unbe_be. change (256 ^ Z.of_nat 4) with (2 ^ 32).
        rewrite Z.mod_small by (change (2 ^ 32) with (2 * 2 ^ 31); lia).
        destruct (Z.eqb_spec (zlen (snd t)) 0) as [E0|_]; [destruct (snd t); [congruence|rewrite zlen_cons in E0; pose proof (zlen_nonneg l); lia]|].
        unfold zlen at 1. rewrite Nat2Z.id. reflexivity. }
      assert (FF : forall ls p, fields_ok (st_chunks (d_in s)) (2 + (length (fst t) + 4) + p) ls -> fields_ok (st_chunks (d_in s3)) p ls).
      { intros ls p H. apply F3, F2, F1. unfold zlen. rewrite Nat2Z.id.
        match goal with |- fields_ok _ ?a _ => match type of H with fields_ok _ ?b _ => replace a with b by (cbn; lia) end end. exact H. }
      assert (V3 : adv s s3).
      { pose proof (moves_read 2 s) as M1. rewrite E1 in M1. pose proof (moves_read (zlen (fst t)) s1) as M2. rewrite E2 in M2.
        pose proof (moves_read 4 s2) as M3. rewrite E3 in M3. eapply adv_trans; [exact M1|]. eapply adv_trans; eassumption. }
      assert (Hu3 : parts_unsplit v (st_chunks (d_in s3)) 0 (snd t)).
      { eapply unsplit_parts_shift; [exact FF|]. rewrite Nat.add_0_r. exact Hu1. }
      destruct (parts_more v (fst t) (snd t) (flat_map (enc_tparts v) ts) rest st o s3 Hv Ht Hps) as [s4 [V4 R]]; [|exact A3|exact Hu3|].
      { intros a p b E Hc. destruct (Hcut [] (fst t) a p b ts) as [-> ->]; [rewrite <- E; destruct t; reflexivity|exact Hc|]. split; reflexivity. }
      unfold dbind. rewrite Hr.
      destruct R as [(A4 & E4 & W)|(a & p & b & data' & Ho & Eps & Ea & Ep & Ex & A4 & E4)].
      + assert (Hu4 : topics_unsplit v (st_chunks (d_in s4)) 0 ts).
        { eapply unsplit_topics_shift; [|rewrite Nat.add_0_r; exact Hu2]. apply (adv_fields s s4); [eapply adv_trans; eassumption|].
          rewrite (at2_len _ _ _ _ _ A4), (at2_len _ _ _ _ _ Hat). unfold enc_tparts. rewrite !app_length. lia. }
        destruct (IH rest st (o ++ flat_map (exp_part st (fst t)) (snd t)) s4 Hv Hts') as [s5 R]; [|exact A4|exact Hu4|].
        { intros A q a p b B E Hc. apply (Hcut (t :: A) q a p b B); [rewrite E; reflexivity|exact Hc]. }
        exists s5. rewrite E4. destruct R as [(A5 & E5 & W5)|(data' & Ho & Hnw & A5 & E5)].
        * left. rewrite <- app_assoc in A5. split; [exact A5|]. split; [exact E5|]. intros Ho A q a p b B E EA Ea Ep.
          destruct A as [|x A]; cbn [app] in E; injection E as E E'.
          -- subst t. exact (W a p b Ho eq_refl Ea Ep).
          -- subst x. cbn [flat_map] in EA. apply app_eq_nil in EA. destruct EA as [EA1 EA2].
             assert (Hnil : flat_map (exp_part st (fst t)) (snd t) = []).
             { clear - EA1 unzip zip. induction (snd t) as [|p ps IHp]; [reflexivity|]. cbn [flat_map] in *. apply app_eq_nil in EA1. destruct EA1 as [H1 H2].
               unfold exp_part at 1. rewrite (rset_empty _ (fst t) (pp_pid p) st H1). exact (IHp H2). }
             apply (W5 ltac:(rewrite Ho, Hnil; reflexivity) A q a p b B E' EA2 Ea Ep).
        * right. exists data'. apply app_eq_nil in Ho. destruct Ho as [Ho1 Ho2]. split; [exact Ho1|]. split; [|split; [exact A5|exact E5]].
          intros Fw. apply Hnw. intros A q a p b B E EA Ea Ep. apply (Fw (t :: A) q a p b B); [rewrite E; reflexivity| |exact Ea|exact Ep].
          cbn [flat_map]. rewrite EA, app_nil_r.
          (* no partition of t has records: else it would have a wanted one *)
          clear - Ho1 Ho2 W unzip zip. assert (G : forall l1 l2, snd t = l1 ++ l2 -> flat_map (fun p => enc_rset (pp_set p)) l1 = [] -> flat_map (fun p => enc_rset (pp_set p)) l2 = []).
          { intros l1 l2; revert l1. induction l2 as [|p l2 IH2]; intros l1 E Hl; [reflexivity|]. cbn [flat_map].
            destruct (enc_rset (pp_set p)) as [|x xs] eqn:Er.
            - cbn [app]. apply (IH2 (l1 ++ [p])); [rewrite <- app_assoc; exact E|]. rewrite flat_map_app, Hl. cbn [flat_map app]. rewrite Er. reflexivity.
            - exfalso. apply (W l1 p l2 Ho1 E Hl ltac:(rewrite Er; discriminate)). rewrite E, flat_map_app in Ho2. apply app_eq_nil in Ho2. destruct Ho2 as [_ Ho2].
              cbn [flat_map] in Ho2. apply app_eq_nil in Ho2. exact (proj1 Ho2). }
          apply (G [] (snd t) eq_refl eq_refl).
      + exists s4. right. exists data'. split; [exact Ho|]. rewrite E4. split; [|split; [exact A4|reflexivity]].
        intros Fw. apply (Fw [] (fst t) a p b ts); [rewrite <- Eps; destruct t; reflexivity|reflexivity|exact Ea|exact Ep|exact Ex].
  Qed.

  Lemma drained data rest st o s : at2 data rest st o s -> concat (st_chunks (d_in (drain s))) = rest.
  Proof using unzip zip.
    intros [Hfl [Hlim _]]. unfold drain. rewrite Hlim. pose proof (zlen_nonneg data).
    assert (Hav : avail s = zlen data + zlen rest) by (unfold avail; fold (flat s); rewrite Hfl, zlen_app; reflexivity). pose proof (zlen_nonneg rest).
    replace (Z.min (Z.max 0 (zlen data)) (avail s)) with (zlen data) by lia.
    destruct (take_full_spec (st_chunks (d_in s)) (Z.to_nat (zlen data))) as [_ T2]; [fold (flat s); rewrite Hfl, app_length; unfold zlen; lia|].
    fold (flat s) in T2. rewrite Hfl in T2. rewrite skipn_app_exact in T2 by (unfold zlen; lia).
    destruct (take_full _ _) as [b cs]. cbn [snd] in T2. cbn. exact T2.
  Qed.

  Theorem many_decode v st m rest chunks fin :
    (v = 0 \/ v = 7 \/ v = 10) -> wf_mresp unzip m -> cut_last (mr_topics m) ->
    concat chunks = enc_mresp v m ++ rest -> mresp_unsplit v chunks m ->
    exists evs s', streamDecode unzip zip v st (zlen (enc_mresp v m)) (mkStream chunks fin) = Ok (evs, s') /\
      concat (st_chunks (d_in s')) = rest /\
      (first_wanted st (mr_topics m) -> evs = exp_many st m) /\
      (~ first_wanted st (mr_topics m) -> evs = [EvErr EMaxBytesTooSmall]).
  Proof using unzip zip.
    intros Hv [Hn Hts] Hcut Hch Hu. unfold streamDecode. set (s0 := mkD _ _ _ _ _ _ _).
    assert (A0 : at2 (enc_mresp v m) rest st [] s0) by (unfold at2, at_, flat, s0; cbn; repeat split; first [exact Hch|lia]).
    assert (F0 : mresp_unsplit v (st_chunks (d_in s0)) m) by exact Hu. clearbody s0.
    set (hd := be 4 (mr_corr m) ++ (if v =? 0 then [] else be 4 (mr_throttle m) ++ be 2 0 ++ be 4 (mr_session m)) ++ be 4 (zlen (mr_topics m))).
    assert (Hh : enc_mresp v m = hd ++ flat_map (enc_tparts v) (mr_topics m)) by (unfold enc_mresp, hd; rewrite <- !app_assoc; reflexivity).
    rewrite Hh in A0. pose proof (zlen_nonneg (mr_topics m)) as Hn0.
    assert (Hl : length hd = if v =? 0 then 8%nat else 18%nat) by (unfold hd; destruct (v =? 0); reflexivity).
    assert (Hhd : exists s1, decodeHeader v s0 = DOk (zlen (mr_topics m)) s1 /\ at2 (flat_map (enc_tparts v) (mr_topics m)) rest st [] s1 /\
      topics_unsplit v (st_chunks (d_in s1)) 0 (mr_topics m)).
    { unfold decodeHeader, mresp_unsplit in *.
      assert (Hcnt : firstn 4 (skipn (if v =? 0 then 4 else 14) hd) = be 4 (zlen (mr_topics m))) by (unfold hd; destruct (v =? 0); reflexivity).
      assert (Hun : unbe (be 4 (zlen (mr_topics m))) = zlen (mr_topics m)).
      { rewrite unbe_be. change (256 ^ Z.of_nat 4) with (2 * 2 ^ 31). apply Z.mod_small. lia. }
      destruct (v =? 0);
        (destruct (read_at hd _ _ _ _ _ _ _ A0 eq_refl) as [s1 [E1 [A1 F1]]]; exists s1; unfold zlen in E1, F1; rewrite Hl in E1, F1;
         split; [match type of E1 with read ?a _ = _ => match goal with |- dbind (read ?b) _ _ = _ => change b with a end end;
                 erewrite dbind_ok by exact E1; unfold dret; rewrite Hcnt, Hun; reflexivity|];
         split; [exact A1|]; rewrite Nat2Z.id in F1; exact (unsplit_topics_shift v _ _ _ F1 _ 0%nat F0)). }
    destruct Hhd as [s1 [E1 [A1 U1]]]. rewrite E1. unfold zlen. rewrite Nat2Z.id.
    destruct (topics_more v (mr_topics m) rest st [] s1 Hv Hts Hcut A1 U1) as [s2 [(A2 & E2 & W)|(data' & _ & Hnw & A2 & E2)]]; rewrite E2.
    - exists (exp_many st m), (drain s2). assert (Ho : d_out s2 = exp_many st m) by (destruct A2 as (_ & _ & _ & _ & _ & Ho); exact Ho). rewrite Ho.
      split; [reflexivity|]. split; [eapply drained; exact A2|]. split; [reflexivity|]. intros H. exfalso. apply H, W. reflexivity.
    - exists [EvErr EMaxBytesTooSmall], (drain s2). assert (Ho : d_out s2 = []) by (destruct A2 as (_ & _ & _ & _ & _ & Ho); exact Ho). rewrite Ho.
      split; [reflexivity|]. split; [eapply drained; exact A2|]. split; [intros H; contradiction|reflexivity].
  Qed.
End Codec.
