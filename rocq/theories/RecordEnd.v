(** Where a record ends, and how much it can be decoded to. *)
From Verif Require Import Base BaseFacts RecordSpec Records RecordFacts Fetch FetchSpec FetchGrow FetchRefute.

(** the bytes of keys, values and headers *)
Definition content (r : Record) : Z :=
  zlen (obytes (r_key r)) + zlen (obytes (r_value r)) +
  fold_right (fun h n => zlen (fst h) + zlen (snd h) + n) 0 (r_headers r).
(** the length a record begins with, and what it is the length of *)
Definition says_length (raw : bytes) (l : Z) (body : bytes) : Prop := raw = varint l ++ body /\ i64 l.

(** [p] takes bytes off the front, at least [f] of them *)
Definition eats {A} (p : parser A) (f : A -> Z) : Prop :=
  forall s a r, p s = Ok (a, r) -> exists u, s = u ++ r /\ f a <= zlen u.
Lemma eats_le {A} (p : parser A) f g : eats p f -> (forall a, g a <= f a) -> eats p g.
Proof. intros H L s a r E. destruct (H s a r E) as [u [E1 E2]]. exists u. split; [exact E1|]. specialize (L a). lia. Qed.
Lemma eats_ret {A} (a : A) h : h a <= 0 -> eats (ret a) h.
Proof. intros H s b r E. injection E as <- <-. exists []. split; [reflexivity|]. rewrite zlen_nil. exact H. Qed.
Lemma eats_bind {A B} (p : parser A) (k : A -> parser B) f h :
  eats p f -> (forall a, eats (k a) (fun b => h b - f a)) -> eats (bind p k) h.
Proof.
  intros Hp Hk s b r E. unfold bind in E. destruct (p s) as [[a s1]| | |] eqn:E1; try discriminate.
  destruct (Hp _ _ _ E1) as [u [-> Hu]]. destruct (Hk a _ _ _ E) as [u' [-> Hu']]. exists (u ++ u').
  split; [apply app_assoc|]. rewrite zlen_app. lia.
Qed.
Lemma eats_firstn {A} (s : list A) n : s = firstn n s ++ skipn n s.
Proof. symmetry. apply firstn_skipn. Qed.
Lemma eats_varint : eats rd_varint (fun _ => 0).
Proof.
  intros s a r E. unfold rd_varint in E. destruct (get_uvarint s) as [[v n]|]; [|discriminate]. injection E as <- <-.
  exists (firstn n s). split; [apply eats_firstn|apply zlen_nonneg].
Qed.
Lemma eats_bytes n : eats (rd_bytes n) (fun b => zlen b).
Proof.
  intros s a r E. unfold rd_bytes in E. destruct ((n <? 0) || (zlen s <? n)); [discriminate|]. injection E as <- <-.
  exists (firstn (Z.to_nat n) s). split; [apply eats_firstn|lia].
Qed.
Lemma eats_i8 : eats rd_i8 (fun _ => 1).
Proof.
  intros s a r E. destruct s as [|b s]; [discriminate E|]. exists [b]. split; [|reflexivity].
  unfold rd_i8, rd_i in E. cbn in E. injection E as _ <-. reflexivity.
Qed.
Lemma eats_n {A} (p : parser A) f : eats p f -> forall n, eats (rd_n n p) (fold_right (fun a n => f a + n) 0).
Proof.
  intros Hp. induction n as [|n IH]; [apply eats_ret; cbn; lia|]. cbn [rd_n].
  eapply eats_bind; [exact Hp|]. intros a. cbv beta. eapply eats_bind; [exact IH|]. intros l. apply eats_ret. cbn [fold_right]. lia.
Qed.
Lemma eats_header : eats rd_header (fun h => zlen (fst h) + zlen (snd h)).
Proof.
  unfold rd_header. eapply eats_bind; [apply eats_varint|]. intros kl. eapply eats_bind; [apply eats_bytes|]. intros k.
  eapply eats_bind; [apply eats_varint|]. intros vl. eapply eats_bind; [apply eats_bytes|]. intros v. apply eats_ret. cbn [fst snd]. lia.
Qed.
Lemma eats_vbytes : eats rd_vbytes (fun o => zlen (obytes o)).
Proof.
  unfold rd_vbytes. eapply eats_bind; [apply eats_varint|]. intros n. cbv beta. destruct (0 <? n).
  - eapply eats_bind; [apply eats_bytes|]. intros b. apply eats_ret. cbn [obytes]. lia.
  - apply eats_ret. cbn [obytes]. unfold zlen. cbn [length]. lia.
Qed.
Lemma eats_body : eats rd_record_body (fun r => 1 + content r).
Proof.
  unfold rd_record_body. eapply eats_bind; [apply eats_i8|]. intros a. eapply eats_bind; [apply eats_varint|]. intros ts.
  eapply eats_bind; [apply eats_varint|]. intros od. eapply eats_bind; [apply eats_vbytes|]. intros k.
  eapply eats_bind; [apply eats_vbytes|]. intros v. eapply eats_bind; [apply eats_varint|]. intros n.
  unfold rd_make. destruct (n <? 0); [intros s x r E; discriminate E|].
  eapply eats_bind; [apply (eats_n _ _ eats_header)|]. intros hs. apply eats_ret. unfold content. cbn [r_key r_value r_headers].

  lia.
Qed.

Lemma get_uvarint_pos raw u n : get_uvarint raw = Some (u, n) -> u <> 0 -> (1 <= n)%nat.
Proof.
  unfold get_uvarint. generalize 0 at 1. generalize O at 1. assert (G : forall raw i acc, get_uvarint_at i raw acc = Some (u, n) -> u <> 0 -> (1 <= n)%nat).
  { induction raw0 as [|b t IH]; intros i acc E Hu; cbn in E; [injection E as <- <-; congruence|].
    destruct (Nat.eqb i 10); [discriminate|]. destruct (b <? 128).
    - destruct (Nat.eqb i 9 && (1 <? b)); [discriminate|]. injection E as <- <-. lia.
    - exact (IH _ _ E Hu). }
  intros i acc. apply G.
Qed.
Theorem record_taken raw r rest : decodeToRecord raw = Ok (r, rest) ->
  exists used, raw = used ++ rest /\ 2 + content r <= zlen used.
Proof.
  unfold decodeToRecord. destruct (get_uvarint raw) as [[u n]|] eqn:Eu; [|discriminate].
  destruct ((unzigzag u =? 0) || (zlen (skipn n raw) <? unzigzag u)) eqn:Eb; [discriminate|]. intros E.
  destruct (eats_body _ _ _ E) as [used [Es Hl]]. exists (firstn n raw ++ used).
  apply orb_false_iff in Eb. destruct Eb as [Eb _].
  assert (Hu : u <> 0) by (intros ->; discriminate Eb).
  pose proof (get_uvarint_pos _ _ _ Eu Hu) as Hn. split.
  - rewrite <- app_assoc, <- Es. apply eats_firstn.
  - rewrite zlen_app. assert (1 <= zlen (firstn n raw)); [|lia].
    destruct raw as [|b t]; [cbv in Eu; injection Eu as <- <-; congruence|]. destruct n; [lia|]. cbn [firstn]. rewrite zlen_cons.
    pose proof (zlen_nonneg (firstn n t)). lia.
Qed.

(** *** headers out of nothing *)
Lemma header_nothing : rd_header [] = Ok (([], []), []).
Proof. reflexivity. Qed.
Lemma headers_nothing : forall n, rd_n n rd_header [] = Ok (repeat ([], []) n, []).
Proof.
  induction n as [|n IH]; [reflexivity|]. cbn [rd_n]. erewrite bind_ok by exact header_nothing.
  erewrite bind_ok by exact IH. reflexivity.
Qed.
Lemma empty_headers n : 0 <= n < 2 ^ 63 -> exists raw, zlen raw <= 16 /\
  decodeToRecord raw = Ok (mkRec 0 0 0 None None (repeat ([], []) (Z.to_nat n)), []).
Proof.
  intros Hn. exists (varint 6 ++ [0] ++ varint 0 ++ varint 0 ++ varint 0 ++ varint 0 ++ varint n).
  pose proof (uvarint_length (zigzag n)) as H1. pose proof (uvarint_nonempty (zigzag n)) as H2.
  assert (H3 : 1 <= zlen (varint n) <= 10) by (unfold zlen, varint; lia).
  set (vn := varint n) in *.
  assert (Hn' : rd_varint vn = Ok (n, [])).
  { unfold vn. rewrite <- (app_nil_r (varint n)). apply rd_varint_app. unfold i64. lia. }
  split; [cbn [varint]; change (varint 6) with [12]; change (varint 0) with [0]; rewrite !zlen_app; unfold zlen in *; cbn [length] in *; lia|].
  change (varint 6) with [12]; change (varint 0) with [0]. clearbody vn. unfold decodeToRecord.
  change (get_uvarint ([12] ++ [0] ++ [0] ++ [0] ++ [0] ++ [0] ++ vn)) with (Some (12, 1%nat)). cbv iota beta zeta.
  change (unzigzag 12) with 6. cbn [skipn app Z.eqb orb].
  destruct (Z.ltb_spec (zlen (0 :: 0 :: 0 :: 0 :: 0 :: vn)) 6) as [Hlt|_]; [rewrite !zlen_cons in Hlt; lia|].
  unfold rd_record_body. erewrite bind_ok by reflexivity. erewrite bind_ok by reflexivity. erewrite bind_ok by reflexivity.
  erewrite bind_ok by reflexivity. erewrite bind_ok by reflexivity. cbn [skipn]. erewrite bind_ok by exact Hn'.
  unfold rd_make. destruct (Z.ltb_spec n 0); [lia|]. erewrite bind_ok by apply headers_nothing. reflexivity.
Qed.
