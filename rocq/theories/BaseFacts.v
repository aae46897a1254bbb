From Verif Require Import Base.
From Coq Require Export ZifyBool ZifyNat.
Ltac Zify.zify_post_hook ::= Z.div_mod_to_equations.

Lemma zlen_app {A} (a b : list A) : zlen (a ++ b) = zlen a + zlen b.
Proof. unfold zlen; rewrite app_length; lia. Qed.
Lemma zlen_nil {A} : zlen (@nil A) = 0.
Proof. reflexivity. Qed.
Lemma zlen_cons {A} (x : A) l : zlen (x :: l) = 1 + zlen l.
Proof. unfold zlen; cbn [length]; lia. Qed.
Lemma zlen_nonneg {A} (l : list A) : 0 <= zlen l.
Proof. unfold zlen; lia. Qed.

Lemma beqb_true a b : beqb a b = true <-> a = b.
Proof. unfold beqb; destruct (bytes_eq_dec a b); split; congruence. Qed.
Lemma beqb_refl a : beqb a a = true.
Proof. apply beqb_true; reflexivity. Qed.
Lemma beqb_false a b : beqb a b = false <-> a <> b.
Proof. unfold beqb; destruct (bytes_eq_dec a b); split; congruence. Qed.

(** *** integers *)
Lemma uint_small bits x : 0 <= x < 2 ^ bits -> uint bits x = x.
Proof. intros H; unfold uint; apply Z.mod_small; exact H. Qed.

Lemma sint_mod bits x : 0 < bits -> sint bits (x mod 2 ^ bits) = sint bits x.
Proof.
  intros Hb; unfold sint.
  rewrite Z.mod_mod by (apply Z.pow_nonzero; lia). reflexivity.
Qed.
Lemma sint_id bits x : 0 < bits -> - 2 ^ (bits - 1) <= x < 2 ^ (bits - 1) -> sint bits x = x.
Proof.
  intros Hb Hx; unfold sint.
  assert (E : 2 ^ bits = 2 * 2 ^ (bits - 1)).
  { replace bits with (Z.succ (bits - 1)) at 1 by lia. rewrite Z.pow_succ_r; lia. }
  set (h := 2 ^ (bits - 1)) in *. rewrite E.
  assert (0 <= x \/ x < 0) as [H|H] by lia.
  - rewrite Z.mod_small by lia. destruct (Z.ltb_spec x h); lia.
  - assert (x mod (2 * h) = x + 2 * h) as ->.
    { symmetry. apply Z.mod_unique with (-1); lia. }
    destruct (Z.ltb_spec (x + 2 * h) h); lia.
Qed.

(** *** big endian *)
Lemma be_length n v : length (be n v) = n.
Proof. induction n as [|n IH]; cbn [be length]; congruence. Qed.
Lemma zlen_be n v : zlen (be n v) = Z.of_nat n.
Proof. unfold zlen; rewrite be_length; reflexivity. Qed.

Lemma unbe_fold l a : fold_left (fun a b => a * 256 + b) l a = a * 256 ^ zlen l + unbe l.
Proof.
  revert a; induction l as [|b l IH]; intros a; unfold unbe; cbn [fold_left].
  - rewrite zlen_nil. lia.
  - rewrite (IH (a * 256 + b)). rewrite (IH (0 * 256 + b)).
    rewrite zlen_cons, Z.pow_add_r by (pose proof (zlen_nonneg l); lia). lia.
Qed.
Lemma unbe_cons b l : unbe (b :: l) = b * 256 ^ zlen l + unbe l.
Proof. unfold unbe at 1; cbn [fold_left]. rewrite unbe_fold. lia. Qed.

Lemma unbe_be n v : unbe (be n v) = v mod 256 ^ Z.of_nat n.
Proof.
  induction n as [|n IH].
  - cbn [be]. change (256 ^ Z.of_nat 0) with 1. rewrite Z.mod_1_r. reflexivity.
  - cbn [be]. rewrite unbe_cons, zlen_be, IH.
    replace (Z.of_nat (S n)) with (Z.of_nat n + 1) by lia.
    rewrite Z.pow_add_r by lia. change (256 ^ 1) with 256.
    assert (Hp : 0 < 256 ^ Z.of_nat n) by (apply Z.pow_pos_nonneg; lia).
    rewrite Z.rem_mul_r by lia. lia.
Qed.

Lemma be_bytes_ok n v : bytes_ok (be n v).
Proof.
  induction n as [|n IH]; cbn [be]; constructor; auto.
  unfold byte_ok. apply Z.mod_pos_bound. lia.
Qed.

Lemma be_mod n v : be n (v mod 256 ^ Z.of_nat n) = be n v.
Proof.
  assert (G : forall k m, (k <= m)%nat -> be k (v mod 256 ^ Z.of_nat m) = be k v).
  { induction k as [|k IH]; intros m Hk; cbn [be]; [reflexivity|].
    f_equal; [|apply IH; lia].
    replace (Z.of_nat m) with (Z.of_nat k + (Z.of_nat (m - k - 1) + 1)) by lia.
    rewrite !Z.pow_add_r by lia. change (256 ^ 1) with 256.
    set (a := 256 ^ Z.of_nat k). set (b := 256 ^ Z.of_nat (m - k - 1)).
    assert (0 < a) by (apply Z.pow_pos_nonneg; lia).
    assert (0 < b) by (apply Z.pow_pos_nonneg; lia).
    rewrite Z.rem_mul_r by nia.
    rewrite (Z.mul_comm a (_ mod _)), Z.div_add by lia.
    rewrite (Z.div_small (v mod a) a) by (apply Z.mod_pos_bound; lia).
    rewrite Z.add_0_l. rewrite (Z.mul_comm b 256).
    rewrite Z.rem_mul_r by lia. rewrite (Z.mul_comm 256 (_ mod _)), Z.mod_add by lia.
    apply Z.mod_mod; lia. }
  apply G; lia.
Qed.

(** *** cursor lemmas *)
Lemma bind_ok {A B} (p : parser A) (k : A -> parser B) s a s' :
  p s = Ok (a, s') -> bind p k s = k a s'.
Proof. intros H; unfold bind; rewrite H; reflexivity. Qed.
Lemma bind_panic {A B} (p : parser A) (k : A -> parser B) s :
  p s = Panic -> bind p k s = Panic.
Proof. intros H; unfold bind; rewrite H; reflexivity. Qed.
Lemma bind_err {A B} (p : parser A) (k : A -> parser B) s e :
  p s = Err e -> bind p k s = Err e.
Proof. intros H; unfold bind; rewrite H; reflexivity. Qed.

Lemma firstn_app_exact {A} n (a b : list A) : length a = n -> firstn n (a ++ b) = a.
Proof. intros <-; rewrite firstn_app, Nat.sub_diag, firstn_all, firstn_O, app_nil_r; reflexivity. Qed.
Lemma skipn_app_exact {A} n (a b : list A) : length a = n -> skipn n (a ++ b) = b.
Proof. intros <-; rewrite skipn_app, Nat.sub_diag, skipn_all; reflexivity. Qed.

Lemma rd_u_be n v r : rd_u n (be n v ++ r) = Ok (v mod 256 ^ Z.of_nat n, r).
Proof.
  unfold rd_u. rewrite app_length, be_length.
  destruct (Nat.leb_spec n (n + length r)); [|lia].
  rewrite firstn_app_exact, skipn_app_exact by apply be_length.
  rewrite unbe_be; reflexivity.
Qed.
Lemma rd_i_be n v r : (0 < n)%nat -> rd_i n (be n v ++ r) = Ok (sint (8 * Z.of_nat n) v, r).
Proof.
  intros Hn. unfold rd_i. rewrite rd_u_be.
  replace 256 with (2 ^ 8) by reflexivity. rewrite <- Z.pow_mul_r by lia.
  rewrite sint_mod by lia. reflexivity.
Qed.

Lemma rd_u8_be v r : 0 <= v < 256 -> rd_u8 (be 1 v ++ r) = Ok (v, r).
Proof. intros H; unfold rd_u8; rewrite rd_u_be, Z.mod_small; [reflexivity|exact H]. Qed.
Lemma rd_u16_be v r : u16 v -> rd_u16 (be 2 v ++ r) = Ok (v, r).
Proof. intros H; unfold rd_u16; rewrite rd_u_be, Z.mod_small; [reflexivity|exact H]. Qed.
Lemma rd_u32_be v r : u32 v -> rd_u32 (be 4 v ++ r) = Ok (v, r).
Proof. intros H; unfold rd_u32; rewrite rd_u_be, Z.mod_small; [reflexivity|exact H]. Qed.
Lemma rd_u64_be v r : u64 v -> rd_u64 (be 8 v ++ r) = Ok (v, r).
Proof. intros H; unfold rd_u64; rewrite rd_u_be, Z.mod_small; [reflexivity|exact H]. Qed.
Lemma rd_i8_be v r : i8 v -> rd_i8 (be 1 v ++ r) = Ok (v, r).
Proof. intros H; unfold rd_i8; rewrite rd_i_be by lia. change (8 * Z.of_nat 1) with 8.
  rewrite sint_id; [reflexivity|lia|exact H]. Qed.
Lemma rd_i16_be v r : i16 v -> rd_i16 (be 2 v ++ r) = Ok (v, r).
Proof. intros H; unfold rd_i16; rewrite rd_i_be by lia. change (8 * Z.of_nat 2) with 16.
  rewrite sint_id; [reflexivity|lia|exact H]. Qed.
Lemma rd_i32_be v r : i32 v -> rd_i32 (be 4 v ++ r) = Ok (v, r).
Proof. intros H; unfold rd_i32; rewrite rd_i_be by lia. change (8 * Z.of_nat 4) with 32.
  rewrite sint_id; [reflexivity|lia|exact H]. Qed.
Lemma rd_i64_be v r : i64 v -> rd_i64 (be 8 v ++ r) = Ok (v, r).
Proof. intros H; unfold rd_i64; rewrite rd_i_be by lia. change (8 * Z.of_nat 8) with 64.
  rewrite sint_id; [reflexivity|lia|exact H]. Qed.

Lemma rd_bytes_app b r : rd_bytes (zlen b) (b ++ r) = Ok (b, r).
Proof.
  unfold rd_bytes. rewrite zlen_app.
  pose proof (zlen_nonneg b). pose proof (zlen_nonneg r).
  destruct (Z.ltb_spec (zlen b) 0); [lia|].
  destruct (Z.ltb_spec (zlen b + zlen r) (zlen b)); [lia|].
  cbn [orb]. unfold zlen; rewrite Nat2Z.id.
  rewrite firstn_app_exact, skipn_app_exact; reflexivity.
Qed.

Lemma rd_n_map {A B} (p : parser B) (f : A -> bytes) (g : A -> B) (l : list A) r :
  (forall x r, In x l -> p (f x ++ r) = Ok (g x, r)) ->
  rd_n (length l) p (flat_map f l ++ r) = Ok (map g l, r).
Proof.
  revert r; induction l as [|x l IH]; intros r H; cbn [length rd_n flat_map map]; [reflexivity|].
  rewrite <- app_assoc. rewrite (bind_ok p _ _ (g x) (flat_map f l ++ r)) by (apply H; left; reflexivity).
  rewrite (bind_ok _ _ _ (map g l) r) by (apply IH; intros; apply H; right; assumption).
  reflexivity.
Qed.
Lemma rd_make_map {A B} (p : parser B) (f : A -> bytes) (g : A -> B) (l : list A) r :
  (forall x r, In x l -> p (f x ++ r) = Ok (g x, r)) ->
  rd_make (zlen l) p (flat_map f l ++ r) = Ok (map g l, r).
Proof.
  intros H. unfold rd_make. pose proof (zlen_nonneg l).
  destruct (Z.ltb_spec (zlen l) 0); [lia|].
  unfold zlen; rewrite Nat2Z.id. apply rd_n_map; exact H.
Qed.

(** *** writer lemmas *)
Lemma wrun_ok room ops :
  (length (wcat ops) <= room)%nat ->
  wrun room ops = Ok (wcat ops, (room - length (wcat ops))%nat).
Proof.
  revert room; induction ops as [|o ops IH]; intros room H; cbn [wrun wcat flat_map] in *.
  - rewrite Nat.sub_0_r; reflexivity.
  - change (flat_map wbytes ops) with (wcat ops) in *. rewrite app_length in H.
    destruct (Nat.leb_spec (length (wbytes o)) room); [|lia].
    rewrite IH by lia. rewrite app_length. f_equal. f_equal. lia.
Qed.
Lemma wcut_ok size ops : zlen (wcat ops) <= size -> wcut size ops = Ok (wcat ops).
Proof. intros H; unfold wcut, zlen in *. rewrite wrun_ok by lia. reflexivity. Qed.
Lemma wfull_exact size ops : zlen (wcat ops) = size -> wfull size ops = Ok (wcat ops).
Proof.
  intros H; unfold wfull, zlen in *. rewrite wrun_ok by lia.
  replace (Z.to_nat size - length (wcat ops))%nat with O by lia. cbn [repeat].
  rewrite app_nil_r; reflexivity.
Qed.
Lemma wfull_ok size ops : zlen (wcat ops) <= size ->
  wfull size ops = Ok (wcat ops ++ repeat 0 (Z.to_nat (size - zlen (wcat ops)))).
Proof.
  intros H; unfold wfull, zlen in *. rewrite wrun_ok by lia.
  do 3 f_equal. lia.
Qed.
Lemma be_uint n v : be n (uint (8 * Z.of_nat n) v) = be n v.
Proof. unfold uint. rewrite Z.pow_mul_r by lia. change (2 ^ 8) with 256. apply be_mod. Qed.
Lemma be2_uint v : be 2 (uint 16 v) = be 2 v. Proof. exact (be_uint 2 v). Qed.
Lemma be4_uint v : be 4 (uint 32 v) = be 4 v. Proof. exact (be_uint 4 v). Qed.
Lemma be8_uint v : be 8 (uint 64 v) = be 8 v. Proof. exact (be_uint 8 v). Qed.
Lemma be1_uint v : be 1 (uint 8 v) = be 1 v. Proof. exact (be_uint 1 v). Qed.
Lemma wpatch_ok size ops : 4 + zlen (wcat ops) <= size ->
  wpatch size ops = Ok (be 4 (zlen (wcat ops)) ++ wcat ops).
Proof.
  intros H; unfold wpatch, zlen in *. destruct (Z.ltb_spec size 4); [lia|]. rewrite wrun_ok by lia. rewrite be4_uint. reflexivity.
Qed.
Lemma wframe_ok size ops : zlen (wcat ops) = size ->
  wframe size ops = Ok (be 4 (zlen (wcat ops)) ++ wcat ops).
Proof.
  intros H. unfold wframe. rewrite wfull_exact.
  - cbn [wcat flat_map wbytes]. rewrite be4_uint, H. reflexivity.
  - cbn [wcat flat_map wbytes]. change (flat_map wbytes ops) with (wcat ops). rewrite zlen_app, zlen_be. lia.
Qed.
Lemma wcat_app a b : wcat (a ++ b) = wcat a ++ wcat b.
Proof. unfold wcat; apply flat_map_app. Qed.
Lemma wcat_cons o a : wcat (o :: a) = wbytes o ++ wcat a.
Proof. reflexivity. Qed.
Lemma wcat_flat_map {A} (f : A -> list wop) l : wcat (flat_map f l) = flat_map (fun x => wcat (f x)) l.
Proof. induction l as [|x l IH]; cbn [flat_map]; [reflexivity|]. rewrite wcat_app, IH; reflexivity. Qed.

(** *** varints *)
Lemma put_uvarint_length f x : (length (put_uvarint f x) <= f)%nat.
Proof. revert x; induction f as [|f IH]; intros x; cbn [put_uvarint]; [cbn; lia|].
  destruct (x <? 128); cbn [length]; [lia|]. specialize (IH (x/128)). lia. Qed.
Lemma uvarint_length x : (length (uvarint x) <= 10)%nat.
Proof. apply put_uvarint_length. Qed.

Lemma put_uvarint_get : forall f x i acc r,
  (0 < f)%nat -> 0 <= x < 2 ^ (7 * Z.of_nat f) -> x < 2 ^ (64 - 7 * Z.of_nat i) -> (i + f = 10)%nat ->
  get_uvarint_at i (put_uvarint f x ++ r) acc =
    Some (acc + x * 2 ^ (7 * Z.of_nat i), (i + length (put_uvarint f x))%nat).
Proof.
  induction f as [|f IH]; intros x i acc r Hf Hx Hx2 Hif; [lia|].
  cbn [put_uvarint]. destruct (Z.ltb_spec x 128) as [Hs|Hs].
  - cbn [app get_uvarint_at length].
    destruct (Nat.eqb_spec i 10); [lia|].
    destruct (Z.ltb_spec x 128); [|lia].
    destruct (Nat.eqb_spec i 9) as [->|]; cbn [andb].
    + change (64 - 7 * Z.of_nat 9) with 1 in Hx2.
      destruct (Z.ltb_spec 1 x); [change (2^1) with 2 in Hx2; lia|].
      do 2 f_equal; try lia.
    + f_equal. f_equal. lia.
  - cbn [app get_uvarint_at length].
    destruct (Nat.eqb_spec i 10); [lia|].
    assert (0 <= x mod 128 < 128) by (apply Z.mod_pos_bound; lia).
    destruct (Z.ltb_spec (x mod 128 + 128) 128); [lia|].
    assert (Hmm : (x mod 128 + 128) mod 128 = x mod 128).
    { rewrite <- (Z.mul_1_l 128) at 2. rewrite Z.mod_add by lia. apply Z.mod_mod; lia. }
    rewrite Hmm.
    assert (Hd : x = 128 * (x / 128) + x mod 128) by (apply Z.div_mod; lia).
    assert (Hd0 : 0 <= x / 128) by (apply Z.div_pos; lia).
    assert (Hi9 : (i < 9)%nat).
    { destruct (Nat.ltb_spec i 9) as [|Hge]; [assumption|]. assert (i = 9%nat) by lia. subst i.
      change (2 ^ (64 - 7 * Z.of_nat 9)) with 2 in Hx2. lia. }
    rewrite IH; try lia.
    + f_equal. f_equal; [|lia].
      replace (7 * Z.of_nat (S i)) with (7 * Z.of_nat i + 7) by lia.
      rewrite Z.pow_add_r by lia. change (2 ^ 7) with 128. nia.
    + split; [lia|]. apply Z.div_lt_upper_bound; [lia|].
      replace (7 * Z.of_nat (S f)) with (7 + 7 * Z.of_nat f) in Hx by lia.
      rewrite Z.pow_add_r in Hx by lia. change (2 ^ 7) with 128 in Hx. lia.
    + apply Z.div_lt_upper_bound; [lia|].
      replace (64 - 7 * Z.of_nat i) with (7 + (64 - 7 * Z.of_nat (S i))) in Hx2 by lia.
      rewrite Z.pow_add_r in Hx2 by lia. change (2 ^ 7) with 128 in Hx2. lia.
Qed.

Lemma get_uvarint_app x r : u64 x ->
  get_uvarint (uvarint x ++ r) = Some (x, length (uvarint x)).
Proof.
  intros H. unfold get_uvarint, uvarint, u64 in *. rewrite put_uvarint_get.
  - f_equal. f_equal. change (2 ^ (7 * Z.of_nat 0)) with 1. lia.
  - lia.
  - change (2 ^ (7 * Z.of_nat 10)) with (2 ^ 70). split; [lia|].
    assert (2 ^ 64 < 2 ^ 70) by (apply Z.pow_lt_mono_r; lia). lia.
  - change (64 - 7 * Z.of_nat 0) with 64. lia.
  - reflexivity.
Qed.
Lemma rd_uvarint_app x r : u64 x -> rd_uvarint (uvarint x ++ r) = Ok (x, r).
Proof.
  intros H. unfold rd_uvarint. rewrite get_uvarint_app by exact H.
  rewrite skipn_app_exact by reflexivity. reflexivity.
Qed.
Lemma unzigzag_zigzag x : unzigzag (zigzag x) = x.
Proof.
  unfold unzigzag, zigzag. destruct (Z.ltb_spec x 0).
  - replace (-2 * x - 1) with (1 + 2 * (- x - 1)) by lia.
    rewrite Z.even_add_mul_2. cbn [Z.even]. lia.
  - rewrite Z.even_mul. cbn [Z.even orb]. lia.
Qed.
Lemma zigzag_range x : i64 x -> u64 (zigzag x).
Proof. unfold i64, u64, zigzag. intros H. change (2^63) with 9223372036854775808 in H.
  change (2^64) with 18446744073709551616. destruct (Z.ltb_spec x 0); lia. Qed.
Lemma rd_varint_app x r : i64 x -> rd_varint (varint x ++ r) = Ok (x, r).
Proof.
  intros H. unfold rd_varint, varint. rewrite get_uvarint_app by (apply zigzag_range; exact H).
  rewrite skipn_app_exact by reflexivity. rewrite unzigzag_zigzag; reflexivity.
Qed.

Lemma uvarint_nonempty x : (1 <= length (uvarint x))%nat.
Proof. unfold uvarint. cbn [put_uvarint]. destruct (x <? 128); cbn [length]; lia. Qed.

Lemma put_uvarint_small_len : forall f x k, (k < f)%nat -> 0 <= x < 2 ^ (7 * Z.of_nat (S k)) ->
  (length (put_uvarint f x) <= S k)%nat.
Proof.
  induction f as [|f IH]; intros x k Hk Hx; [lia|].
  cbn [put_uvarint]. destruct (Z.ltb_spec x 128); cbn [length]; [lia|].
  destruct k as [|k].
  - change (2 ^ (7 * Z.of_nat 1)) with 128 in Hx. lia.
  - apply le_n_S. apply IH; [lia|]. split; [apply Z.div_pos; lia|].
    apply Z.div_lt_upper_bound; [lia|].
    replace (7 * Z.of_nat (S (S k))) with (7 + 7 * Z.of_nat (S k)) in Hx by lia.
    rewrite Z.pow_add_r in Hx by lia. change (2 ^ 7) with 128 in Hx. lia.
Qed.
