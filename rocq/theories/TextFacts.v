From Verif Require Import Base BaseFacts Text.

Lemma split_ne : forall sep s, split sep s <> [].
Proof. induction s as [|c s IH]; cbn; [discriminate|]. destruct (c =? sep); [discriminate|]. destruct (split sep s); discriminate. Qed.

Lemma split_word : forall sep w s, ~ In sep w ->
  split sep (w ++ sep :: s) = w :: split sep s.
Proof.
  induction w as [|c w IH]; intros s H; cbn.
  - now rewrite Z.eqb_refl.
  - cbn in H. replace (c =? sep) with false by (symmetry; apply Z.eqb_neq; intros ->; apply H; auto).
    rewrite IH by (intros C; apply H; auto). reflexivity.
Qed.
Lemma split_last : forall sep w, ~ In sep w -> split sep w = [w].
Proof.
  induction w as [|c w IH]; intros H; cbn; [reflexivity|].
  cbn in H. replace (c =? sep) with false by (symmetry; apply Z.eqb_neq; intros ->; apply H; auto).
  rewrite IH by (intros C; apply H; auto). reflexivity.
Qed.
Lemma split_join : forall sep l, l <> [] -> Forall (fun w => ~ In sep w) l -> split sep (join sep l) = l.
Proof.
  induction l as [|w l IH]; intros NE F; [congruence|]. inversion F; subst.
  destruct l as [|w' l]; [apply split_last; assumption|].
  change (join sep (w :: w' :: l)) with (w ++ sep :: join sep (w' :: l)).
  rewrite split_word by assumption. rewrite IH; [reflexivity|discriminate|assumption].
Qed.
Lemma join_split : forall sep s, join sep (split sep s) = s.
Proof.
  induction s as [|c s IH]; cbn; [reflexivity|].
  pose proof (split_ne sep s). destruct (c =? sep) eqn:E.
  - apply Z.eqb_eq in E as ->. destruct (split sep s) eqn:F; [congruence|]. now rewrite <- IH at 1.
  - destruct (split sep s) as [|w ws]; [congruence|]. rewrite <- IH. destruct ws; reflexivity.
Qed.

Lemma cut_spec : forall sep s a b, cut sep s = Some (a, b) <-> s = a ++ sep :: b /\ ~ In sep a.
Proof.
  induction s as [|c s IH]; intros a b; cbn.
  - split; [discriminate|]. intros (H & _). destruct a; discriminate.
  - destruct (c =? sep) eqn:E.
    + apply Z.eqb_eq in E as ->. split.
      * intros [= <- <-]. auto.
      * intros (H & N). destruct a as [|x a]; cbn in H; [now injection H as <-|].
        injection H as <- _. exfalso; apply N; left; reflexivity.
    + apply Z.eqb_neq in E. destruct (cut sep s) as [[a' b']|].
      * split.
        -- intros [= <- <-]. destruct (IH a' b') as [I _]. destruct (I eq_refl) as (-> & N).
           split; [reflexivity|]. intros [C|C]; [congruence|contradiction].
        -- intros (H & N). destruct a as [|x a]; cbn in H; injection H as <- H; [congruence|].
           destruct (IH a b) as [_ I]. assert (X : Some (a', b') = Some (a, b)) by (apply I; split; [exact H|intros C; apply N; right; exact C]).
           now injection X as <- <-.
      * split; [discriminate|]. intros (H & N). destruct a as [|x a]; cbn in H; injection H as <- H; [congruence|].
        destruct (IH a b) as [_ I]. assert (X : None = Some (a, b)) by (apply I; split; [exact H|intros C; apply N; right; exact C]).
        discriminate.
Qed.

(** ** decimal and atoi *)
Lemma digits_app : forall a b acc, digits (a ++ b) acc = match digits a acc with Some x => digits b x | None => None end.
Proof. induction a as [|c a IH]; intros b acc; cbn; [reflexivity|]. destruct (is_digit c); [apply IH|reflexivity]. Qed.

Lemma udec_acc : forall f x acc, udec f x acc = udec f x [] ++ acc.
Proof.
  induction f as [|f IH]; intros x acc; cbn; [reflexivity|].
  destruct (x <? 10); [reflexivity|]. rewrite IH, (IH _ [_]), <- app_assoc. reflexivity.
Qed.

Lemma udec_digits : forall f x, 0 <= x < 10 ^ Z.of_nat f -> (0 < f)%nat ->
  digits (udec f x []) 0 = Some x /\ Forall (fun c => is_digit c = true) (udec f x []) /\ udec f x [] <> [].
Proof.
  induction f as [|f IH]; intros x Hx Hf; [lia|]. cbn [udec].
  assert (HM : 0 <= x mod 10 < 10) by (apply Z.mod_pos_bound; lia).
  assert (DG : is_digit (48 + x mod 10) = true) by (unfold is_digit; lia).
  destruct (x <? 10) eqn:E.
  - rewrite Z.mod_small by lia. cbn [digits]. replace (is_digit (48 + x)) with true by (unfold is_digit; lia).
    repeat split; [f_equal; lia| |discriminate]. constructor; [unfold is_digit; lia|constructor].
  - assert (f <> O) by (intros ->; cbn in Hx; lia).
    destruct (IH (x / 10)) as (D & F & N); [|lia|].
    + rewrite Nat2Z.inj_succ, Z.pow_succ_r in Hx by lia. split; [apply Z.div_pos; lia|].
      apply Z.div_lt_upper_bound; lia.
    + rewrite udec_acc. rewrite digits_app, D. cbn [digits]. rewrite DG.
      repeat split.
      * f_equal. pose proof (Z.div_mod x 10). lia.
      * apply Forall_app; split; [exact F|]. constructor; [exact DG|constructor].
      * destruct (udec f (x / 10) []); discriminate.
Qed.

Lemma atoi_decimal : forall x, i64 x -> atoi (decimal x) = Some x.
Proof.
  intros x Hx. unfold decimal, i64 in *. destruct (x <? 0) eqn:E.
  - destruct (udec_digits 20 (- x)) as (D & F & N); [change (10 ^ Z.of_nat 20) with 100000000000000000000; lia|lia|].
    unfold atoi. change (45 =? 43) with false. change (45 =? 45) with true. cbv iota. unfold unsigned. destruct (udec 20 (- x) []) as [|c s] eqn:U; [congruence|].
    rewrite D. unfold in_i64. replace (- - x) with x by lia. replace ((- 2 ^ 63 <=? x) && (x <? 2 ^ 63)) with true by lia. reflexivity.
  - destruct (udec_digits 20 x) as (D & F & N); [change (10 ^ Z.of_nat 20) with 100000000000000000000; lia|lia|].
    destruct (udec 20 x []) as [|c s] eqn:U; [congruence|].
    assert (C : is_digit c = true) by (inversion F; assumption).
    unfold atoi, unsigned. rewrite D.
    assert (I : in_i64 x = Some x) by (unfold in_i64; replace ((- 2 ^ 63 <=? x) && (x <? 2 ^ 63)) with true by lia; reflexivity).
    unfold is_digit in C.
    replace (c =? 43) with false by lia. replace (c =? 45) with false by lia. exact I.
Qed.
Lemma decimal_no : forall c x, is_digit c = false -> c <> 45 -> ~ In c (decimal x).
Proof.
  intros c x H H' I.
  assert (G : forall f y acc, Forall (fun c => is_digit c = true) acc -> 0 <= y -> Forall (fun c => is_digit c = true) (udec f y acc)).
  { induction f as [|f IH]; intros y acc A Hy; cbn; [exact A|].
    assert (0 <= y mod 10 < 10) by (apply Z.mod_pos_bound; lia).
    assert (Forall (fun c => is_digit c = true) ((48 + y mod 10) :: acc)) by (constructor; [unfold is_digit; lia|exact A]).
    destruct (y <? 10); [assumption|]. apply IH; [assumption|apply Z.div_pos; lia]. }
  unfold decimal in I. destruct (x <? 0) eqn:E.
  - destruct I as [I|I]; [congruence|]. specialize (G 20%nat (- x) [] (Forall_nil _) ltac:(lia)). rewrite Forall_forall in G. rewrite (G _ I) in H; discriminate.
  - specialize (G 20%nat x [] (Forall_nil _) ltac:(lia)). rewrite Forall_forall in G. rewrite (G _ I) in H; discriminate.
Qed.
Lemma udec_ne : forall f x acc, acc <> [] -> udec f x acc <> [].
Proof. induction f as [|f IH]; intros x acc H; cbn [udec]; [exact H|]. destruct (x <? 10); [discriminate|]. apply IH; discriminate. Qed.
Lemma decimal_ne : forall x, decimal x <> [].
Proof.
  intros x. unfold decimal. destruct (x <? 0); [discriminate|].
  set (f := 19%nat). change 20%nat with (S f). clearbody f. cbn [udec].
  destruct (x <? 10); [discriminate|]. apply udec_ne; discriminate.
Qed.
