(** The layouts of Wire.v can be read back: serialisations are unambiguous. *)
From Verif Require Import Base BaseFacts Wire.

Lemma dec_be_be n v r : dec_be n (be n v ++ r) = Some (v mod 256 ^ Z.of_nat n, r).
Proof.
  unfold dec_be. destruct (Nat.leb_spec n (length (be n v ++ r))) as [H|H].
  - rewrite firstn_app_exact, skipn_app_exact by apply be_length. rewrite unbe_be. reflexivity.
  - rewrite app_length, be_length in H. lia.
Qed.
Lemma dec_int_be n v r : (0 < n)%nat -> - 2 ^ (8 * Z.of_nat n - 1) <= v < 2 ^ (8 * Z.of_nat n - 1) ->
  dec_int n (be n v ++ r) = Some (v, r).
Proof.
  intros Hn Hv. unfold dec_int. rewrite dec_be_be.
  assert (E : 256 ^ Z.of_nat n = 2 * 2 ^ (8 * Z.of_nat n - 1)).
  { change 256 with (2 ^ 8). rewrite <- Z.pow_mul_r by lia. replace 2 with (2 ^ 1) at 2 by reflexivity.
    rewrite <- Z.pow_add_r by lia. f_equal. lia. }
  assert (E2 : 2 ^ (8 * Z.of_nat n) = 2 * 2 ^ (8 * Z.of_nat n - 1)).
  { replace 2 with (2 ^ 1) at 2 by reflexivity. rewrite <- Z.pow_add_r by lia. f_equal. lia. }
  rewrite E, E2. set (h := 2 ^ (8 * Z.of_nat n - 1)) in *.
  destruct (Z_lt_le_dec v 0) as [H|H].
  - replace (v mod (2 * h)) with (v + 2 * h).
    + destruct (Z.ltb_spec (v + 2 * h) h); [lia|]. do 2 f_equal. lia.
    + rewrite <- (Z.mod_small (v + 2 * h) (2 * h)) by lia. rewrite Z.add_mod, Z.mod_same, Z.add_0_r, Z.mod_mod by lia. reflexivity.
  - rewrite Z.mod_small by lia. destruct (Z.ltb_spec v h); [reflexivity|lia].
Qed.
Lemma dec_uv_put : forall f x r, (0 < f)%nat -> 0 <= x < 2 ^ (7 * Z.of_nat f) -> dec_uv (put_uvarint f x ++ r) = Some (x, r).
Proof.
  induction f as [|f IH]; intros x r Hf H; [lia|].
  cbn [put_uvarint]. destruct (Z.ltb_spec x 128) as [Hx|Hx].
  - cbn [app dec_uv]. destruct (Z.ltb_spec x 128); [reflexivity|lia].
  - cbn [app dec_uv]. pose proof (Z.mod_pos_bound x 128 ltac:(lia)). destruct (Z.ltb_spec (x mod 128 + 128) 128); [lia|].
    replace (7 * Z.of_nat (S f)) with (7 + 7 * Z.of_nat f) in H by lia. rewrite Z.pow_add_r in H by lia. change (2 ^ 7) with 128 in H.
    rewrite IH.
    + do 2 f_equal. pose proof (Z.div_mod x 128 ltac:(lia)). lia.
    + destruct f; [|lia]. change (2 ^ (7 * Z.of_nat 0)) with 1 in H. lia.
    + split; [apply Z.div_pos; lia|]. apply Z.div_lt_upper_bound; lia.
Qed.
Lemma dec_uv_uvarint x r : 0 <= x < 2 ^ 64 -> dec_uv (uvarint x ++ r) = Some (x, r).
Proof. intros H. apply dec_uv_put; [lia|]. change (7 * Z.of_nat 10) with 70. assert (2 ^ 64 < 2 ^ 70) by reflexivity. lia. Qed.
Lemma dec_raw_app b r : dec_raw (zlen b) (b ++ r) = Some (b, r).
Proof.
  unfold dec_raw. pose proof (zlen_nonneg b). pose proof (zlen_nonneg r). rewrite zlen_app.
  destruct (Z.ltb_spec (zlen b) 0); [lia|]. destruct (Z.ltb_spec (zlen b + zlen r) (zlen b)); [lia|]. cbn [orb].
  unfold zlen. rewrite Nat2Z.id, firstn_app_exact, skipn_app_exact by reflexivity. reflexivity.
Qed.
Lemma dec_list_enc {A} (d : bytes -> option (A * bytes)) (e : A -> bytes) (P : A -> Prop) :
  (forall x r, P x -> d (e x ++ r) = Some (x, r)) ->
  forall l r, Forall P l -> dec_list (length l) d (flat_map e l ++ r) = Some (l, r).
Proof.
  intros Hd. induction l as [|x l IH]; intros r Hl; [reflexivity|]. inversion Hl; subst. cbn [length dec_list flat_map].
  rewrite <- app_assoc, Hd by assumption. rewrite IH by assumption. reflexivity.
Qed.
Lemma dec_tag_enc t r : wf_tag t -> dec_tag (enc_tag t ++ r) = Some (t, r).
Proof.
  destruct t as [i b]. intros [Hi Hb]. cbn [fst snd] in *. unfold dec_tag, enc_tag. cbn [fst snd]. rewrite <- !app_assoc.
  pose proof (zlen_nonneg b). rewrite dec_uv_uvarint by lia. cbn [dec_seq]. rewrite dec_uv_uvarint by lia. cbn [dec_seq].
  rewrite dec_raw_app. reflexivity.
Qed.

Lemma zlen_nat {A} (l : list A) : Z.to_nat (zlen l) = length l.
Proof. unfold zlen. apply Nat2Z.id. Qed.

Theorem dec_enc : forall t v r, wf t v -> dec t (enc t v ++ r) = Some (v, r).
Proof.
  assert (I1 : 2 ^ (8 * Z.of_nat 1 - 1) = 128) by reflexivity.
  assert (I2 : 2 ^ (8 * Z.of_nat 2 - 1) = 2 ^ 15) by reflexivity.
  assert (I4 : 2 ^ (8 * Z.of_nat 4 - 1) = 2 ^ 31) by reflexivity.
  assert (I8 : 2 ^ (8 * Z.of_nat 8 - 1) = 2 ^ 63) by reflexivity.
  assert (LN : forall (b : bytes), Z.to_nat (zlen b) = length b) by (intros; unfold zlen; lia).
  assert (Hpos : forall (b : bytes), 0 <= zlen b) by (intros; apply zlen_nonneg).
  induction t; intros v r Hv; cbn [dec enc wf den] in *.
  - apply dec_int_be; [lia|rewrite I1; unfold i8 in Hv; lia].
  - apply dec_int_be; [lia|rewrite I2; unfold i16 in Hv; lia].
  - apply dec_int_be; [lia|rewrite I4; unfold i32 in Hv; lia].
  - apply dec_int_be; [lia|rewrite I8; unfold i64 in Hv; lia].
  - destruct v; reflexivity.
  - rewrite <- app_assoc, dec_int_be by (rewrite ?I2; specialize (Hpos v); lia). cbn [dec_seq]. apply dec_raw_app.
  - destruct v as [v|].
    + rewrite <- app_assoc, dec_int_be by (rewrite ?I2; specialize (Hpos v); lia). cbn [dec_seq]. specialize (Hpos v).
      destruct (Z.eqb_spec (zlen v) (-1)); [lia|]. rewrite dec_raw_app. reflexivity.
    + rewrite dec_int_be by (rewrite ?I2; lia). reflexivity.
  - specialize (Hpos v). rewrite <- app_assoc, dec_uv_uvarint by lia. cbn [dec_seq]. replace (zlen v + 1 - 1) with (zlen v) by lia. apply dec_raw_app.
  - destruct v as [v|].
    + specialize (Hpos v). rewrite <- app_assoc, dec_uv_uvarint by lia. cbn [dec_seq]. destruct (Z.eqb_spec (zlen v + 1) 0); [lia|].
      replace (zlen v + 1 - 1) with (zlen v) by lia. rewrite dec_raw_app. reflexivity.
    + rewrite dec_uv_uvarint by lia. reflexivity.
  - rewrite <- app_assoc, dec_int_be by (rewrite ?I4; specialize (Hpos v); lia). cbn [dec_seq]. apply dec_raw_app.
  - destruct v as [v|].
    + rewrite <- app_assoc, dec_int_be by (rewrite ?I4; specialize (Hpos v); lia). cbn [dec_seq]. specialize (Hpos v).
      destruct (Z.eqb_spec (zlen v) (-1)); [lia|]. rewrite dec_raw_app. reflexivity.
    + rewrite dec_int_be by (rewrite ?I4; lia). reflexivity.
  - specialize (Hpos v). rewrite <- app_assoc, dec_uv_uvarint by lia. cbn [dec_seq]. replace (zlen v + 1 - 1) with (zlen v) by lia. apply dec_raw_app.
  - destruct v as [v|].
    + specialize (Hpos v). rewrite <- app_assoc, dec_uv_uvarint by lia. cbn [dec_seq]. destruct (Z.eqb_spec (zlen v + 1) 0); [lia|].
      replace (zlen v + 1 - 1) with (zlen v) by lia. rewrite dec_raw_app. reflexivity.
    + rewrite dec_uv_uvarint by lia. reflexivity.
  - destruct Hv as [Hl Hf]. pose proof (zlen_nonneg v). rewrite <- app_assoc, dec_int_be by (rewrite ?I4; lia). cbn [dec_seq].
    rewrite zlen_nat. apply (dec_list_enc _ _ (wf t)); [intros; apply IHt; assumption|exact Hf].
  - destruct v as [v|].
    + destruct Hv as [Hl Hf]. pose proof (zlen_nonneg v). rewrite <- app_assoc, dec_int_be by (rewrite ?I4; lia). cbn [dec_seq].
      destruct (Z.eqb_spec (zlen v) (-1)); [lia|]. rewrite zlen_nat.
      rewrite (dec_list_enc _ _ (wf t)); [reflexivity|intros; apply IHt; assumption|exact Hf].
    + rewrite dec_int_be by (rewrite ?I4; lia). reflexivity.
  - destruct Hv as [Hl Hf]. pose proof (zlen_nonneg v). rewrite <- app_assoc, dec_uv_uvarint by lia. cbn [dec_seq].
    rewrite Z.add_simpl_r, zlen_nat. apply (dec_list_enc _ _ (wf t)); [intros; apply IHt; assumption|exact Hf].
  - destruct v as [v|].
    + destruct Hv as [Hl Hf]. pose proof (zlen_nonneg v). rewrite <- app_assoc, dec_uv_uvarint by lia. cbn [dec_seq].
      destruct (Z.eqb_spec (zlen v + 1) 0); [lia|]. rewrite Z.add_simpl_r, zlen_nat.
      rewrite (dec_list_enc _ _ (wf t)); [reflexivity|intros; apply IHt; assumption|exact Hf].
    + rewrite dec_uv_uvarint by lia. reflexivity.
  - destruct Hv as [Hl Hf]. pose proof (zlen_nonneg v). rewrite <- app_assoc, dec_uv_uvarint by lia. cbn [dec_seq].
    rewrite zlen_nat. apply (dec_list_enc _ _ wf_tag); [intros; apply dec_tag_enc; assumption|exact Hf].
  - destruct v. reflexivity.
  - destruct Hv as [H1 H2]. rewrite <- app_assoc, IHt1 by assumption. cbn [dec_seq]. rewrite IHt2 by assumption. destruct v. reflexivity.
Qed.

(** Deciding [wf], for the examples *)
Fixpoint wfb (t : ty) : den t -> bool :=
  match t with
  | TI8 => fun v => (-2 ^ 7 <=? v) && (v <? 2 ^ 7)
  | TI16 => fun v => (-2 ^ 15 <=? v) && (v <? 2 ^ 15)
  | TI32 => fun v => (-2 ^ 31 <=? v) && (v <? 2 ^ 31)
  | TI64 => fun v => (-2 ^ 63 <=? v) && (v <? 2 ^ 63)
  | TBool | TUnit => fun _ => true
  | TStr | TCStr => fun s => zlen s <? 2 ^ 15
  | TNStr | TCNStr => fun o => match o with None => true | Some s => zlen s <? 2 ^ 15 end
  | TBytes | TCBytes => fun s => zlen s <? 2 ^ 31 - 1
  | TNBytes | TCNBytes => fun o => match o with None => true | Some s => zlen s <? 2 ^ 31 - 1 end
  | TArr t | TCArr t => fun l : list (den t) => (@zlen (den t) l <? 2 ^ 31 - 1) && forallb (wfb t) l
  | TNArr t | TCNArr t => fun o => match o with None => true | Some l => (@zlen (den t) l <? 2 ^ 31 - 1) && forallb (wfb t) l end
  | TTags => fun l => (zlen l <? 2 ^ 31) && forallb (fun t => (0 <=? fst t) && (fst t <? 2 ^ 31) && (zlen (snd t) <? 2 ^ 31)) l
  | TPair a b => fun p => wfb a (fst p) && wfb b (snd p)
  end.
Lemma wfb_ok t : forall v, wfb t v = true -> wf t v.
Proof.
  assert (F : forall (t : ty) (l : list (den t)), (forall v, wfb t v = true -> wf t v) -> forallb (wfb t) l = true -> Forall (wf t) l).
  { intros u l H G. rewrite forallb_forall in G. apply Forall_forall. intros x Hx. apply H, G, Hx. }
  induction t; intros v H; cbn [wfb wf] in *; unfold i8, i16, i32, i64 in *;
    repeat match goal with
    | H : _ && _ = true |- _ => apply andb_prop in H as [? ?]
    | H : match ?o with Some _ => _ | None => _ end = true |- _ => destruct o
    | H : (_ <? _) = true |- _ => apply Z.ltb_lt in H
    | H : (_ <=? _) = true |- _ => apply Z.leb_le in H
    | |- _ /\ _ => split
    end; auto.
  apply Forall_forall. intros x Hx. rewrite forallb_forall in H0. specialize (H0 x Hx). unfold wf_tag.
  apply andb_prop in H0 as [H0 H2]. apply andb_prop in H0 as [H0 H1]. apply Z.ltb_lt in H1, H2. apply Z.leb_le in H0. auto.
Qed.
