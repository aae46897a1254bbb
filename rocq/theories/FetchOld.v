(** Message sets of magic 0 and 1 (uncompressed) through the fetch decoder. *)
From Verif Require Import Base BaseFacts RecordSpec Records RecordFacts Fetch FetchSpec FetchFacts.

(** *** Specification of the old message format
    (https://kafka.apache.org/documentation/#messageset) *)
Record smsg := mkSM {
  sm_offset : Z; sm_magic : Z; sm_attr : Z; sm_ts : Z; sm_key : option bytes; sm_value : option bytes }.
Definition enc_nbytes (o : option bytes) : bytes :=
  match o with None => be 4 (-1) | Some b => be 4 (zlen b) ++ b end.
Definition sm_body (m : smsg) : bytes :=
  be 1 (sm_magic m) ++ be 1 (sm_attr m) ++ (if sm_magic m =? 1 then be 8 (sm_ts m) else [])
  ++ enc_nbytes (sm_key m) ++ enc_nbytes (sm_value m).
Definition sm_size (m : smsg) : Z := 4 + zlen (sm_body m).
Definition enc_smsg (m : smsg) : bytes :=
  be 8 (sm_offset m) ++ be 4 (sm_size m) ++ be 4 (crc32 (sm_body m)) ++ sm_body m.
Definition wf_smsg (m : smsg) : Prop :=
  i64 (sm_offset m) /\ (sm_magic m = 0 \/ sm_magic m = 1) /\ i8 (sm_attr m) /\ Z.land (sm_attr m) 7 = 0 /\
  0 <= sm_ts m < 2 ^ 64 /\ (match sm_key m with None => True | Some b => zlen b < 2 ^ 31 end) /\
  (match sm_value m with None => True | Some b => zlen b < 2 ^ 31 end) /\ sm_size m < 2 ^ 31.
Definition exp_smsg (m : smsg) : Message :=
  mkMsg (sm_offset m) (sm_magic m) (sm_attr m) (if sm_magic m =? 1 then sm_ts m else 0) (sm_key m) (sm_value m) [].
Definition exp_old (topic : bytes) (pid st : Z) (ms : list smsg) : list event :=
  map (EvMsg topic pid) (filter (wanted st) (map exp_smsg ms)).

Lemma enc_nbytes_len o : 4 <= zlen (enc_nbytes o).
Proof. destruct o as [b|]; cbn [enc_nbytes]; rewrite ?zlen_app, zlen_be; [pose proof (zlen_nonneg b)|]; lia. Qed.
Lemma sm_body_len m : 10 <= zlen (sm_body m).
Proof.
  unfold sm_body. rewrite !zlen_app, !zlen_be. pose proof (enc_nbytes_len (sm_key m)). pose proof (enc_nbytes_len (sm_value m)).
  pose proof (zlen_nonneg (if sm_magic m =? 1 then be 8 (sm_ts m) else [])). lia.
Qed.
Lemma enc_smsg_len m : zlen (enc_smsg m) = 12 + sm_size m.
Proof. unfold enc_smsg, sm_size. rewrite !zlen_app, !zlen_be. lia. Qed.
Definition sm_h17 (m : smsg) : bytes :=
  be 8 (sm_offset m) ++ be 4 (sm_size m) ++ be 4 (crc32 (sm_body m)) ++ be 1 (sm_magic m).
Definition sm_h12 (m : smsg) : bytes := be 8 (sm_offset m) ++ be 4 (sm_size m).
Definition sm_t17 (m : smsg) : bytes :=
  be 1 (sm_attr m) ++ (if sm_magic m =? 1 then be 8 (sm_ts m) else []) ++ enc_nbytes (sm_key m) ++ enc_nbytes (sm_value m).
Definition sm_t12 (m : smsg) : bytes := be 4 (crc32 (sm_body m)) ++ sm_body m.
Lemma split17 m : enc_smsg m = sm_h17 m ++ sm_t17 m.
Proof. unfold enc_smsg, sm_h17, sm_t17, sm_body. rewrite <- !app_assoc. reflexivity. Qed.
Lemma split12 m : enc_smsg m = sm_h12 m ++ sm_t12 m.
Proof. unfold enc_smsg, sm_h12, sm_t12. rewrite <- !app_assoc. reflexivity. Qed.
Lemma h17_len m : zlen (sm_h17 m) = 17.
Proof. unfold sm_h17. rewrite !zlen_app, !zlen_be. reflexivity. Qed.
Lemma h12_len m : zlen (sm_h12 m) = 12.
Proof. unfold sm_h12. rewrite !zlen_app, !zlen_be. reflexivity. Qed.
Lemma t17_len m : zlen (sm_t17 m) = sm_size m - 5.
Proof. pose proof (enc_smsg_len m) as H. rewrite split17, zlen_app, h17_len in H. lia. Qed.
Lemma t12_len m : zlen (sm_t12 m) = sm_size m.
Proof. pose proof (enc_smsg_len m) as H. rewrite split12, zlen_app, h12_len in H. lia. Qed.

Lemma rd_nbytes_enc o r : (match o with None => True | Some b => zlen b < 2 ^ 31 end) ->
  (kl <- rd_i32 ;; (if kl =? -1 then ret None else (b <- rd_bytes kl ;; ret (Some b)))) (enc_nbytes o ++ r) = Ok (o, r).
Proof.
  destruct o as [b|]; intros H; cbn [enc_nbytes].
  - rewrite <- app_assoc. pose proof (zlen_nonneg b). erewrite bind_ok by (apply rd_i32_be; unfold i32; lia).
    destruct (Z.eqb_spec (zlen b) (-1)); [lia|]. erewrite bind_ok by apply rd_bytes_app. reflexivity.
  - erewrite bind_ok by (apply rd_i32_be; unfold i32; lia). reflexivity.
Qed.
Lemma bind_ret_r {A} (p : parser A) b : bind p (fun x => ret x) b = p b.
Proof. unfold bind, ret. destruct (p b) as [[a r]| | |]; reflexivity. Qed.

Section Old.
  Variable unzip zip : Z -> bytes -> res bytes.

  Lemma decode_old_one f m : wf_smsg m -> decodeToMessageSet zip (S f) (enc_smsg m) = Ok [exp_smsg m].
  Proof.
    intros [Ho [Hm [Ha [Hc [Ht [Hk [Hv Hs]]]]]]].
    assert (Hne : exists x xs, enc_smsg m = x :: xs).
    { pose proof (enc_smsg_len m) as HL. unfold sm_size in HL. pose proof (sm_body_len m).
      destruct (enc_smsg m) as [|x xs]; [rewrite zlen_nil in HL; lia|]. eexists _, _; reflexivity. }
    assert (P : (off <- rd_i64 ;; size <- rd_i32 ;; crc <- rd_u32 ;; magic <- rd_i8 ;; attr <- rd_i8 ;;
               ts <- (if magic =? 1 then rd_u64 else ret 0) ;;
               kl <- rd_i32 ;;
               k <- (if kl =? -1 then ret None else (b <- rd_bytes kl ;; ret (Some b))) ;;
               vl <- rd_i32 ;;
               v <- (if vl =? -1 then ret None else (b <- rd_bytes vl ;; ret (Some b))) ;;
               ret (mkMsg off magic attr ts k v [])) (enc_smsg m) = Ok (exp_smsg m, [])).
    { rewrite <- (app_nil_r (enc_smsg m)). unfold enc_smsg, sm_body. rewrite <- !app_assoc.
      erewrite bind_ok by (apply rd_i64_be; exact Ho).
      pose proof (sm_body_len m). unfold sm_size in Hs.
      erewrite bind_ok by (apply rd_i32_be; unfold i32, sm_size; lia).
      assert (Hcrc : exists c, rd_u32 (be 4 (crc32 (sm_body m)) ++ be 1 (sm_magic m) ++ be 1 (sm_attr m) ++
         (if sm_magic m =? 1 then be 8 (sm_ts m) else []) ++ enc_nbytes (sm_key m) ++ enc_nbytes (sm_value m) ++ []) =
         Ok (c, be 1 (sm_magic m) ++ be 1 (sm_attr m) ++
         (if sm_magic m =? 1 then be 8 (sm_ts m) else []) ++ enc_nbytes (sm_key m) ++ enc_nbytes (sm_value m) ++ [])).
      { exists (unbe (be 4 (crc32 (sm_body m)))). reflexivity. }
      destruct Hcrc as [c Hcrc]. unfold sm_body in Hcrc. erewrite bind_ok by exact Hcrc.
      erewrite bind_ok by (apply rd_i8_be; unfold i8; destruct Hm as [-> | ->]; lia).
      erewrite bind_ok by (apply rd_i8_be; exact Ha).
      assert (Hts : (if sm_magic m =? 1 then rd_u64 else ret 0) ((if sm_magic m =? 1 then be 8 (sm_ts m) else []) ++ enc_nbytes (sm_key m) ++ enc_nbytes (sm_value m) ++ [])
         = Ok (if sm_magic m =? 1 then sm_ts m else 0, enc_nbytes (sm_key m) ++ enc_nbytes (sm_value m) ++ [])).
      { destruct (sm_magic m =? 1); [apply rd_u64_be; exact Ht|reflexivity]. }
      erewrite bind_ok by exact Hts.
      pose proof (rd_nbytes_enc (sm_key m) (enc_nbytes (sm_value m) ++ []) Hk) as R1.
      pose proof (rd_nbytes_enc (sm_value m) [] Hv) as R2.
      unfold bind at 1 in R1. unfold bind at 1.
      destruct (rd_i32 (enc_nbytes (sm_key m) ++ enc_nbytes (sm_value m) ++ [])) as [[kl b1]| | |]; try discriminate.
      erewrite bind_ok by exact R1.
      unfold bind at 1 in R2. unfold bind at 1.
      destruct (rd_i32 (enc_nbytes (sm_value m) ++ [])) as [[vl b2]| | |]; try discriminate.
      erewrite bind_ok by exact R2. reflexivity. }
    destruct Hne as [x [xs Hx]]. rewrite Hx in *. cbn [decodeToMessageSet].
    rewrite P. cbn [exp_smsg m_attr]. rewrite Hc. cbn [Z.eqb]. destruct f; reflexivity.
  Qed.

  Lemma put_message_at topic pid m data rest st o s : wf_smsg m -> at2 data rest st o s ->
    exists s', put_message zip topic pid (enc_smsg m) s = DOk true s' /\ st_chunks (d_in s') = st_chunks (d_in s) /\
      at2 data rest st (o ++ exp_old topic pid st [m]) s'.
  Proof.
    intros Hw Hat. unfold put_message. rewrite decode_old_one by exact Hw. cbn [put_all].
    destruct (put_at topic pid (exp_smsg m) data rest st o s Hat) as [s1 [E1 A1]].
    assert (Hc : st_chunks (d_in s1) = st_chunks (d_in s)).
    { unfold put in E1. destruct (_ <=? _); injection E1 as <-; reflexivity. }
    exists s1. split; [|split; [exact Hc|]].
    - unfold dbind. rewrite E1. reflexivity.
    - unfold exp_old. cbn [map filter]. destruct (wanted st (exp_smsg m)); exact A1.
  Qed.

  (** reading what is left of the response with one Read *)
  Lemma read_some_short data rest st h o s n : at_ data rest st h o s -> data <> [] -> zlen data < n ->
    unsplit (st_chunks (d_in s)) 0 (length data) ->
    exists s', read_some n s = DOk data s' /\ at_ [] rest st h o s'.
  Proof.
    intros Hat Hne Hn Hu.
    assert (Hpos : 0 < zlen data) by (destruct data; [congruence|rewrite zlen_cons; pose proof (zlen_nonneg data); lia]).
    assert (Heq : read_some n s = read_some (zlen data) s).
    { unfold read_some. destruct Hat as [_ [Hl _]]. rewrite Hl. destruct (Z.leb_spec (zlen data) 0); [lia|].
      replace (Z.min n (zlen data)) with (zlen data) by lia. replace (Z.min (zlen data) (zlen data)) with (zlen data) by lia. reflexivity. }
    rewrite <- (app_nil_r data) in Hat.
    destruct (read_some_at data [] rest st h o s (zlen data) Hat eq_refl Hpos) as [s' [E [A _]]].
    { unfold zlen. rewrite Nat2Z.id. exact Hu. }
    exists s'. rewrite Heq. split; assumption.
  Qed.
  Lemma read_some_end rest st h o s n : at_ [] rest st h o s -> read_some n s = DErr EEOF s.
  Proof. intros [_ [Hl _]]. unfold read_some. rewrite Hl. reflexivity. Qed.

  (** fields of the messages: 12 or 17 bytes read in full, the body by one Read *)
  Definition fields12 (m : smsg) : list nat := [12%nat; Z.to_nat (sm_size m)].
  Definition cut12 (k : nat) : list nat := if Nat.ltb k 12 then [k] else [12%nat; (k - 12)%nat].

  Lemma exp_old_app topic pid st a b : exp_old topic pid st (a ++ b) = exp_old topic pid st a ++ exp_old topic pid st b.
  Proof. unfold exp_old. rewrite map_app, filter_app, map_app. reflexivity. Qed.

  Lemma fld s s' n ls : (forall ls p, fields_ok (st_chunks (d_in s)) (Z.to_nat n + p) ls -> fields_ok (st_chunks (d_in s')) p ls) ->
    fields_ok (st_chunks (d_in s)) 0 (Z.to_nat n :: ls) -> fields_ok (st_chunks (d_in s')) 0 ls.
  Proof. intros F [_ H]. apply F. rewrite Nat.add_0_r. exact H. Qed.

  (** later rounds: all whole messages, then a cut that does not reach into the last
      five bytes *)
  Lemma rest_at : forall ms f topic pid acc cut rest st o s,
    Forall wf_smsg ms ->
    (match cut with None => True | Some (m, k) => wf_smsg m /\ (k + 5 < length (enc_smsg m))%nat end) ->
    (length ms < f)%nat ->
    at2 (flat_map enc_smsg ms ++ match cut with None => [] | Some (m, k) => firstn k (enc_smsg m) end) rest st o s ->
    fields_ok (st_chunks (d_in s)) 0 (flat_map fields12 ms ++ match cut with None => [] | Some (m, k) => cut12 k end) ->
    exists s', at2 [] rest st (o ++ exp_old topic pid st ms) s' /\
      (decodeMagic01_rest zip f topic pid acc s
         = DOk (acc + zlen (flat_map enc_smsg ms ++ match cut with None => [] | Some (m, k) => firstn k (enc_smsg m) end)) s' \/
       decodeMagic01_rest zip f topic pid acc s = DErr EEOF s' \/
       decodeMagic01_rest zip f topic pid acc s = DErr EUnexpectedEOF s').
  Proof.
    induction ms as [|m ms IH]; intros f topic pid acc cut rest st o s Hw Hc Hf Hat Hfl; (destruct f as [|f]; [cbn in Hf; lia|]); cbn [decodeMagic01_rest].
    - cbn [flat_map app] in *. unfold exp_old; cbn [map filter]. rewrite app_nil_r.
      assert (Hempty : forall data, data = [] -> at2 data rest st o s -> exists s', at2 [] rest st o s' /\ read 12 s = DErr EEOF s').
      { intros data -> Ha. destruct (try_read_short [] rest st _ o s 12 Ha ltac:(rewrite zlen_nil; lia)) as [s1 [E1 A1]].
        exists s1. split; [exact A1|]. unfold read. erewrite dbind_ok by exact E1. reflexivity. }
      destruct cut as [[m k]|].
      + destruct Hc as [Hwm Hk]. destruct (Nat.eqb_spec k 0) as [->|Hk0].
        { destruct (Hempty _ eq_refl Hat) as [s1 [A1 E1]]. exists s1. split; [exact A1|]. right; left. erewrite dbind_err by exact E1. reflexivity. }
        assert (Hlen : zlen (firstn k (enc_smsg m)) = Z.of_nat k) by (unfold zlen; rewrite firstn_length; lia).
        destruct (Nat.ltb_spec k 12) as [H12|H12].
        * destruct (try_read_short _ rest st _ o s 12 Hat ltac:(lia)) as [s1 [E1 A1]].
          exists s1. split; [exact A1|]. right; right. unfold read. erewrite dbind_err; [reflexivity|].
          erewrite dbind_ok by exact E1. cbn [snd]. rewrite Hlen. destruct (Z.eqb_spec (Z.of_nat k) 0); [lia|reflexivity].
        * unfold cut12 in Hfl. destruct (Nat.ltb_spec k 12); [lia|].
          rewrite split12, firstn_app in Hat.
          assert (Hh : length (sm_h12 m) = 12%nat) by (pose proof (h12_len m); unfold zlen in *; lia).
          assert (E12 : firstn k (sm_h12 m) = sm_h12 m) by (apply firstn_all2; lia). rewrite E12, Hh in Hat.
          destruct (read_at _ _ _ _ _ _ _ 12 Hat (h12_len m)) as [s1 [E1 [A1 F1]]].
          erewrite dbind_ok by exact E1. pose proof (fld _ _ 12 _ F1 Hfl) as F2.
          assert (Hsz : unbe (firstn 4 (skipn 8 (sm_h12 m))) = sm_size m).
          { replace (firstn 4 (skipn 8 (sm_h12 m))) with (be 4 (sm_size m)) by reflexivity. rewrite unbe_be.
            destruct Hwm as [_ [_ [_ [_ [_ [_ [_ Hs]]]]]]]. pose proof (sm_body_len m). unfold sm_size in *.
            apply Z.mod_small. change (256 ^ Z.of_nat 4) with (2 * 2 ^ 31). lia. }
          rewrite Hsz. pose proof (sm_body_len m) as Hb. pose proof (enc_smsg_len m) as HL.
          destruct (Z.eqb_spec (sm_size m) 0); [unfold sm_size in *; lia|].
          assert (Ht : zlen (firstn (k - 12) (sm_t12 m)) = Z.of_nat k - 12).
          { pose proof (t12_len m) as T. unfold zlen in *. rewrite firstn_length. lia. }
          destruct (Nat.eqb_spec k 12) as [Hk12|Hk12].
          { subst k. change (12 - 12)%nat with O in A1. rewrite firstn_O in A1.
            exists s1. split; [exact A1|]. right; left. erewrite dbind_err; [reflexivity|]. eapply read_some_end. exact A1. }
          destruct (read_some_short _ rest st _ o s1 (sm_size m) A1) as [s2 [E2 A2]].
          { intros Hn. rewrite Hn, zlen_nil in Ht. lia. }
          { unfold zlen in HL. lia. }
          { assert (Hlt : length (firstn (k - 12) (sm_t12 m)) = (k - 12)%nat) by (unfold zlen in Ht; lia). rewrite Hlt. exact (proj1 F2). }
          erewrite dbind_ok by exact E2. cbv zeta. rewrite Ht.
          destruct (Z.ltb_spec (Z.of_nat k - 12) (12 + sm_size m - 17)); [|unfold zlen in HL; lia].
          exists s2. split; [exact A2|]. left. rewrite Hlen. unfold dret. f_equal. lia.
      + destruct (Hempty _ eq_refl Hat) as [s1 [A1 E1]]. exists s1. split; [exact A1|]. right; left. erewrite dbind_err by exact E1. reflexivity.
    - inversion Hw as [|? ? Hw1 Hw2]; subst. cbn [flat_map length] in *. rewrite <- app_assoc in Hat, Hfl.
      rewrite split12, <- app_assoc in Hat. unfold fields12 at 1 in Hfl. cbn [app] in Hfl.
      destruct (read_at _ _ _ _ _ _ _ 12 Hat (h12_len m)) as [s1 [E1 [A1 F1]]].
      erewrite dbind_ok by exact E1. pose proof (fld _ _ 12 _ F1 Hfl) as F2.
      assert (Hsz : unbe (firstn 4 (skipn 8 (sm_h12 m))) = sm_size m).
      { replace (firstn 4 (skipn 8 (sm_h12 m))) with (be 4 (sm_size m)) by reflexivity. rewrite unbe_be.
        pose proof Hw1 as [_ [_ [_ [_ [_ [_ [_ Hs]]]]]]]. pose proof (sm_body_len m). unfold sm_size in *.
        apply Z.mod_small. change (256 ^ Z.of_nat 4) with (2 * 2 ^ 31). lia. }
      rewrite Hsz. pose proof (sm_body_len m) as Hb. pose proof (enc_smsg_len m) as HL.
      destruct (Z.eqb_spec (sm_size m) 0); [unfold sm_size in *; lia|].
      destruct (read_some_at _ _ _ _ _ _ _ (sm_size m) A1 (t12_len m) ltac:(unfold sm_size; lia) (proj1 F2)) as [s2 [E2 [A2 F3]]].
      erewrite dbind_ok by exact E2. cbv zeta. rewrite t12_len.
      destruct (Z.ltb_spec (sm_size m) (12 + sm_size m - 17)); [lia|].
      rewrite Z.sub_diag. change (Z.to_nat 0) with O. cbn [repeat]. rewrite app_nil_r, <- split12.
      destruct (put_message_at topic pid m _ _ _ _ _ Hw1 A2) as [s3 [E3 [C3 A3]]].
      erewrite dbind_ok by exact E3. pose proof (fld _ _ (sm_size m) _ F3 F2) as F4. rewrite <- C3 in F4.
      destruct (IH f topic pid (acc + 12 + sm_size m) cut rest st _ s3 Hw2 Hc ltac:(lia) A3 F4) as [s4 [A4 E4]].
      exists s4. split.
      + rewrite <- app_assoc, <- exp_old_app in A4. exact A4.
      + destruct E4 as [E4|E4]; [left|right; exact E4]. rewrite E4. f_equal. rewrite !zlen_app, HL. lia.
  Qed.

  (** *** the whole record set: messages, then possibly the beginning of one more *)
  Definition enc_old (ms : list smsg) (cut : option (smsg * nat)) : bytes :=
    flat_map enc_smsg ms ++ match cut with None => [] | Some (m, k) => firstn k (enc_smsg m) end.
  Definition wf_old (ms : list smsg) (cut : option (smsg * nat)) : Prop :=
    Forall wf_smsg ms /\
    match cut with
    | None => True
    | Some (m, k) => wf_smsg m /\ (match ms with [] => k < length (enc_smsg m) | _ => k + 5 < length (enc_smsg m) end)%nat
    end.
  Definition old_fields (ms : list smsg) (cut : option (smsg * nat)) : list nat :=
    match ms with
    | [] => match cut with None => [] | Some (m, k) => if Nat.ltb k 17 then [k] else [17%nat; (k - 17)%nat] end
    | m :: ms' => [17%nat; Z.to_nat (sm_size m - 5)] ++ flat_map fields12 ms' ++
                  match cut with None => [] | Some (_, k) => cut12 k end
    end.

  Lemma old_magic m : sm_magic m = 0 \/ sm_magic m = 1 -> (nth 16 (sm_h17 m) 0 <? 2) = true.
  Proof. intros [H|H]; change (nth 16 (sm_h17 m) 0) with ((sm_magic m) / 256 ^ 0 mod 256) || idtac; unfold sm_h17; rewrite H; reflexivity. Qed.
  Lemma h17_size m : wf_smsg m -> unbe (firstn 4 (skipn 8 (sm_h17 m))) = sm_size m.
  Proof.
    intros [_ [_ [_ [_ [_ [_ [_ Hs]]]]]]].
    replace (firstn 4 (skipn 8 (sm_h17 m))) with (be 4 (sm_size m)) by reflexivity. rewrite unbe_be.
    pose proof (sm_body_len m). unfold sm_size in *.
    apply Z.mod_small. change (256 ^ Z.of_nat 4) with (2 * 2 ^ 31). lia.
  Qed.

  Lemma flat_old_len ms : (length ms <= length (flat_map enc_smsg ms))%nat.
  Proof.
    induction ms as [|m ms IH]; cbn [flat_map length]; [lia|]. rewrite app_length.
    pose proof (enc_smsg_len m). pose proof (sm_body_len m). unfold sm_size, zlen in *. lia.
  Qed.

  Lemma sets_old ms cut topic pid f rest st o s :
    wf_old ms cut -> enc_old ms cut <> [] -> (length (enc_old ms cut) < f)%nat ->
    at2 (enc_old ms cut) rest st o s -> fields_ok (st_chunks (d_in s)) 0 (old_fields ms cut) ->
    exists s', at2 [] rest st (o ++ exp_old topic pid st ms) s' /\
      (decodeSets unzip zip f topic pid (zlen (enc_old ms cut)) 0 s = DOk tt s' \/
       decodeSets unzip zip f topic pid (zlen (enc_old ms cut)) 0 s = DErr EEOF s' \/
       (decodeSets unzip zip f topic pid (zlen (enc_old ms cut)) 0 s = DErr EUnexpectedEOF s' /\ ms <> [])).
  Proof.
    intros [Hw Hc] Hne Hf Hat Hfl.
    set (size := zlen (enc_old ms cut)) in *.
    assert (Hsz : 0 < size) by (unfold size; destruct (enc_old ms cut); [congruence|rewrite zlen_cons; pose proof (zlen_nonneg l); lia]).
    assert (Hsz' : Z.of_nat (length (enc_old ms cut)) = size) by reflexivity.
    destruct f as [|f]; [lia|]. cbn [decodeSets]. destruct (Z.leb_spec size 0); [lia|].
    destruct ms as [|m ms].
    - destruct cut as [[m k]|]; [|cbn in Hne; congruence]. destruct Hc as [Hwm Hk].
      unfold enc_old in *. cbn [flat_map app] in *. unfold exp_old; cbn [map filter]. rewrite app_nil_r.
      assert (Hlen : zlen (firstn k (enc_smsg m)) = Z.of_nat k) by (unfold zlen; rewrite firstn_length; lia).
      unfold old_fields in Hfl. destruct (Nat.ltb_spec k 17) as [H17|H17].
      + destruct (try_read_short _ rest st _ o s 17 Hat ltac:(lia)) as [s1 [E1 A1]]. exists s1. split; [exact A1|].
        erewrite dbind_ok by exact E1. cbn [snd]. rewrite Hlen.
        destruct (Z.eqb_spec (Z.of_nat k) 0); [lia|left; reflexivity].
      + rewrite split17, firstn_app in Hat.
        assert (Hh : length (sm_h17 m) = 17%nat) by (pose proof (h17_len m); unfold zlen in *; lia).
        assert (E17 : firstn k (sm_h17 m) = sm_h17 m) by (apply firstn_all2; lia). rewrite E17, Hh in Hat.
        destruct (try_read_at _ _ _ _ _ _ _ 17 Hat (h17_len m)) as [s1 [E1 [A1 F1]]].
        erewrite dbind_ok by exact E1. cbn [fst snd]. pose proof (fld _ _ 17 _ F1 Hfl) as F2.
        rewrite old_magic by apply Hwm. unfold decodeMagic01. rewrite h17_size by exact Hwm.
        pose proof (sm_body_len m) as Hb. pose proof (enc_smsg_len m) as HL.
        destruct (Z.ltb_spec (sm_size m) 6); [unfold sm_size in *; lia|].
        assert (Ht : zlen (firstn (k - 17) (sm_t17 m)) = Z.of_nat k - 17).
        { pose proof (t17_len m) as T. unfold zlen in *. rewrite firstn_length. lia. }
        destruct (Nat.eqb_spec k 17) as [Hk17|Hk17].
        { subst k. change (17 - 17)%nat with O in A1. rewrite firstn_O in A1.
          exists s1. split; [exact A1|]. right; left. erewrite dbind_err; [reflexivity|]. erewrite dbind_err; [reflexivity|].
          eapply read_some_end. exact A1. }
        destruct (read_some_short _ rest st _ o s1 (sm_size m - 5) A1) as [s2 [E2 A2]].
        { intros Hn. rewrite Hn, zlen_nil in Ht. lia. }
        { unfold zlen in HL. lia. }
        { assert (Hlt : length (firstn (k - 17) (sm_t17 m)) = (k - 17)%nat) by (unfold zlen in Ht; lia). rewrite Hlt. exact (proj1 F2). }
        exists s2. split; [exact A2|]. left. erewrite dbind_ok; [|erewrite dbind_ok by exact E2; rewrite Ht;
          destruct (Z.ltb_spec (Z.of_nat k - 17) (sm_size m - 5)); [reflexivity|unfold zlen in HL; lia]].
        destruct f as [|f]; [lia|]. cbn [decodeSets].
        destruct (Z.leb_spec size (0 + 17 + (Z.of_nat k - 17))); [reflexivity|unfold size in *; lia].
    - inversion Hw as [|? ? Hw1 Hw2]; subst. unfold enc_old in Hat. cbn [flat_map old_fields app] in *.
      rewrite split17, <- !app_assoc in Hat.
      destruct (try_read_at _ _ _ _ _ _ _ 17 Hat (h17_len m)) as [s1 [E1 [A1 F1]]].
      pose proof (fld _ _ 17 _ F1 Hfl) as F2.
      pose proof (sm_body_len m) as Hb. pose proof (enc_smsg_len m) as HL.
      destruct (read_some_at _ _ _ _ _ _ _ (sm_size m - 5) A1 (t17_len m) ltac:(unfold sm_size; lia) (proj1 F2)) as [s2 [E2 [A2 F3]]].
      destruct (put_message_at topic pid m _ _ _ _ _ Hw1 A2) as [s3 [E3 [C3 A3]]].
      pose proof (fld _ _ (sm_size m - 5) _ F3 F2) as F4. rewrite <- C3 in F4.
      assert (Hsize : size = 12 + sm_size m + zlen (flat_map enc_smsg ms ++ match cut with None => [] | Some (m, k) => firstn k (enc_smsg m) end)).
      { unfold size, enc_old. cbn [flat_map]. rewrite <- app_assoc, zlen_app, HL. lia. }
      pose proof (flat_old_len ms) as Hfm.
      assert (Hlf : (length ms < f)%nat).
      { unfold zlen in Hsize, HL. rewrite app_length in Hsize. unfold sm_size, zlen in *. lia. }
      destruct (rest_at ms f topic pid (sm_size m - 5) cut rest st _ s3 Hw2 Hc Hlf A3 F4) as [s4 [A4 E4]].
      exists s4. split; [rewrite <- app_assoc, <- exp_old_app in A4; exact A4|].
      erewrite dbind_ok by exact E1. cbn [fst snd]. rewrite old_magic by apply Hw1.
      assert (Hd : decodeMagic01 zip f topic pid (sm_h17 m) s1 = decodeMagic01_rest zip f topic pid (sm_size m - 5) s3).
      { unfold decodeMagic01. rewrite h17_size by exact Hw1. destruct (Z.ltb_spec (sm_size m) 6); [unfold sm_size in *; lia|].
        erewrite dbind_ok by exact E2. rewrite t17_len. destruct (Z.ltb_spec (sm_size m - 5) (sm_size m - 5)); [lia|].
        rewrite <- split17. erewrite dbind_ok by exact E3. reflexivity. }
      destruct E4 as [E4|[E4|E4]].
      + left. erewrite dbind_ok by (rewrite Hd; exact E4). destruct f as [|f]; [lia|]. cbn [decodeSets].
        match goal with |- context[size <=? ?x] => destruct (Z.leb_spec size x); [reflexivity|lia] end.
      + right; left. erewrite dbind_err by (rewrite Hd; exact E4). reflexivity.
      + right; right. split; [|congruence]. erewrite dbind_err by (rewrite Hd; exact E4). reflexivity.
  Qed.

  Theorem stream_old v st p ms cut rest chunks fin :
    (v = 0 \/ v = 7 \/ v = 10) -> wf_presp p -> wf_old ms cut -> pr_records p = enc_old ms cut -> enc_old ms cut <> [] ->
    concat chunks = enc_presp v p ++ rest ->
    fields_ok chunks (length (enc_presp_head v p)) (part_fields v p ++ old_fields ms cut) ->
    exists e s', streamDecode unzip zip v st (zlen (enc_presp v p)) (mkStream chunks fin) =
        Ok (if nonempty (exp_old (pr_topic p) (pr_pid p) st ms) then exp_old (pr_topic p) (pr_pid p) st ms
            else [EvErr e], s') /\
      (e = EMaxBytesTooSmall \/ (e = EUnexpectedEOF /\ ms <> [])) /\
      concat (st_chunks (d_in s')) = rest.
  Proof.
    intros Hv Hwf Hset Hrs Hne Hch Hf. unfold enc_presp in *. rewrite <- app_assoc in Hch.
    destruct (stream_header_at unzip zip v st p 0 _ rest chunks fin Hv Hwf Hch Hf) as [s4 [A4 [F4 E4]]].
    destruct (partition_header_at unzip zip v p _ rest st [] s4 Hv Hwf A4 F4) as [s5 [E5 [A5 F5]]].
    rewrite Hrs in A5, E5.
    assert (Hsz : 0 < zlen (enc_old ms cut)) by (destruct (enc_old ms cut); [congruence|rewrite zlen_cons; pose proof (zlen_nonneg l); lia]).
    assert (Hav : zlen (enc_old ms cut) <= avail s5).
    { destruct A5 as [Hfl _]. unfold avail. fold (flat s5). rewrite Hfl, zlen_app. pose proof (zlen_nonneg rest). lia. }
    destruct (sets_old ms cut (pr_topic p) (pr_pid p) (S (Z.to_nat (avail s5))) rest st [] s5 Hset Hne ltac:(unfold zlen in *; lia) A5 F5) as [s6 [A6 E6]].
    cbn [app] in *. destruct (Z.leb_spec (zlen (enc_old ms cut)) 0); [lia|].
    set (evs := exp_old (pr_topic p) (pr_pid p) st ms) in *.
    assert (Hdr : concat (st_chunks (d_in (drain s6))) = rest).
    { destruct A6 as [Hfl [Hlim _]]. unfold drain. rewrite Hlim. change (zlen (@nil Z)) with 0.
      replace (Z.to_nat (Z.min (Z.max 0 0) (avail s6))) with O by (unfold avail; pose proof (zlen_nonneg (concat (st_chunks (d_in s6)))); lia).
      destruct (take_full_spec (st_chunks (d_in s6)) 0 ltac:(lia)) as [_ T2].
      destruct (take_full 0 (st_chunks (d_in s6))) as [b cs]. cbn [snd] in *. cbn. rewrite T2. cbn. exact Hfl. }
    assert (Hms : if nonempty evs then decodeMessageSet unzip zip (pr_topic p) (pr_pid p) (zlen (enc_old ms cut)) s5 = DOk tt s6
                  else exists e, decodeMessageSet unzip zip (pr_topic p) (pr_pid p) (zlen (enc_old ms cut)) s5 = DErr e s6 /\ (e = EEOF \/ e = EMaxBytesTooSmall \/ (e = EUnexpectedEOF /\ ms <> []))).
    { unfold decodeMessageSet. destruct A6 as [_ [_ [_ [_ [Hh _]]]]].
      destruct E6 as [E6|[E6|[E6 Hn]]]; rewrite E6; cbn [is_eofs err_root andb]; rewrite Hh; destruct (nonempty evs); eauto 6. }
    assert (Hout : d_out s6 = evs) by apply A6.
    destruct (nonempty evs) eqn:Eev.
    - exists EMaxBytesTooSmall, (drain s6). split; [|split; [left; reflexivity|exact Hdr]].
      rewrite E4. unfold decodePartitionResponse. rewrite E5, Hms, Hout. reflexivity.
    - destruct Hms as [e [Hms He]]. exists (if is_eof e then EMaxBytesTooSmall else e), (drain s6).
      split; [|split; [|exact Hdr]].
      + rewrite E4. unfold decodePartitionResponse. rewrite E5, Hms, Hout. destruct evs; [reflexivity|discriminate].
      + destruct He as [->|[->|[-> He]]]; cbn; auto.
  Qed.
End Old.
