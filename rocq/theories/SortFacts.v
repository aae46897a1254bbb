From Verif Require Import Base BaseFacts Assign.

(** *** orders *)
Record strict_total {A} (lt : A -> A -> bool) : Prop := {
  st_irrefl : forall x, lt x x = false;
  st_trans : forall x y z, lt x y = true -> lt y z = true -> lt x z = true;
  st_tricho : forall x y, lt x y = false -> lt y x = false -> x = y }.

Lemma Zltb_st : strict_total Z.ltb.
Proof. constructor; intros; lia. Qed.

Lemma bltb_irrefl x : bltb x x = false.
Proof. induction x as [|a x IH]; cbn [bltb]; [reflexivity|]. rewrite Z.ltb_irrefl. exact IH. Qed.
Lemma bltb_trans : forall x y z, bltb x y = true -> bltb y z = true -> bltb x z = true.
Proof.
  induction x as [|a x IH]; intros [|b y] [|c z]; cbn [bltb]; try congruence.
  intros H1 H2.
  destruct (Z.ltb_spec a b), (Z.ltb_spec b a), (Z.ltb_spec b c), (Z.ltb_spec c b),
    (Z.ltb_spec a c), (Z.ltb_spec c a); try reflexivity; try congruence; try lia.
  eapply IH; eassumption.
Qed.
Lemma bltb_tricho : forall x y, bltb x y = false -> bltb y x = false -> x = y.
Proof.
  induction x as [|a x IH]; intros [|b y]; cbn [bltb]; try congruence.
  destruct (Z.ltb_spec a b), (Z.ltb_spec b a); try congruence; try lia.
  intros H1 H2. f_equal; [lia|]. apply IH; assumption.
Qed.
Lemma bltb_st : strict_total bltb.
Proof. constructor; [exact bltb_irrefl|exact bltb_trans|exact bltb_tricho]. Qed.

Section Sort.
  Context {A : Type} (lt : A -> A -> bool) (HT : strict_total lt).
  Definition leo (x y : A) : Prop := lt y x = false.

  Lemma leo_trans x y z : leo x y -> leo y z -> leo x z.
  Proof using HT.
    unfold leo. intros H1 H2. destruct (lt z x) eqn:E; [|reflexivity].
    destruct (lt z y) eqn:E2; [congruence|].
    destruct (lt y z) eqn:E3.
    - assert (lt y x = true) by (eapply (st_trans lt HT); eassumption). congruence.
    - assert (y = z) by (apply (st_tricho lt HT); assumption). subst. congruence.
  Qed.
  Lemma lt_leo x y : lt x y = true -> leo x y.
  Proof using HT. unfold leo. intros H. destruct (lt y x) eqn:E; [|reflexivity].
    pose proof (st_trans lt HT x y x H E). rewrite (st_irrefl lt HT) in *. congruence. Qed.
  Lemma leo_antisym x y : leo x y -> leo y x -> x = y.
  Proof using HT. unfold leo; intros; apply (st_tricho lt HT); assumption. Qed.

  Lemma insert_perm x l : Permutation (insert lt x l) (x :: l).
  Proof using.
    induction l as [|y l IH]; cbn [insert]; [reflexivity|].
    destruct (lt y x); [|reflexivity]. rewrite IH. apply perm_swap.
  Qed.
  Lemma isort_perm l : Permutation (isort lt l) l.
  Proof using.
    induction l as [|x l IH]; cbn; [reflexivity|]. fold (isort lt l).
    rewrite insert_perm, IH. reflexivity.
  Qed.
  Lemma insert_sorted x l : StronglySorted leo l -> StronglySorted leo (insert lt x l).
  Proof using HT.
    induction 1 as [|y l Hs IH Hy]; cbn [insert]; [repeat constructor|].
    destruct (lt y x) eqn:E.
    - constructor; [exact IH|]. apply (Permutation_Forall (Permutation_sym (insert_perm x l))).
      constructor; [apply lt_leo; exact E|exact Hy].
    - constructor; [constructor; assumption|]. constructor; [exact E|].
      eapply Forall_impl; [|exact Hy]. intros z Hz. eapply leo_trans; [exact E|exact Hz].
  Qed.
  Lemma isort_sorted l : StronglySorted leo (isort lt l).
  Proof using HT. induction l as [|x l IH]; cbn; [constructor|]. apply insert_sorted, IH. Qed.

  Lemma sorted_unique l1 : forall l2, StronglySorted leo l1 -> StronglySorted leo l2 ->
    Permutation l1 l2 -> l1 = l2.
  Proof using HT.
    induction l1 as [|x l1 IH]; intros l2 H1 H2 HP.
    - apply Permutation_nil in HP. subst. reflexivity.
    - destruct l2 as [|y l2]; [symmetry in HP; apply Permutation_nil in HP; discriminate|].
      inversion H1 as [|? ? S1 F1]; subst. inversion H2 as [|? ? S2 F2]; subst.
      assert (x = y).
      { assert (I1 : In x (y :: l2)) by (apply (Permutation_in _ HP); left; reflexivity).
        assert (I2 : In y (x :: l1)) by (apply (Permutation_in _ (Permutation_sym HP)); left; reflexivity).
        rewrite Forall_forall in F1, F2.
        destruct I1 as [->|I1]; [reflexivity|]. destruct I2 as [->|I2]; [reflexivity|].
        apply leo_antisym; [apply F1; exact I2|apply F2; exact I1]. }
      subst y. f_equal. apply IH; auto. apply Permutation_cons_inv in HP. exact HP.
  Qed.
  Lemma isort_perm_eq l1 l2 : Permutation l1 l2 -> isort lt l1 = isort lt l2.
  Proof using HT.
    intros H. apply sorted_unique; try apply isort_sorted.
    rewrite !isort_perm. exact H.
  Qed.
End Sort.
