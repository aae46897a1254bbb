(** Facts about the ACL enums. *)
From Coq Require Import String Ascii.
From Verif Require Import Base BaseFacts Acl.

(** text and back on the values lo..hi, and no two values with one text *)
Definition round_trips (txt : Z -> string) (parse : string -> option Z) (lo hi : Z) : Prop :=
  (forall v, lo <= v <= hi -> parse (txt v) = Some v) /\
  (forall v w, lo <= v <= hi -> lo <= w <= hi -> txt v = txt w -> v = w).
Lemma round_trips_intro : forall txt parse lo hi,
  (forall v, lo <= v <= hi -> parse (txt v) = Some v) -> round_trips txt parse lo hi.
Proof.
  intros txt parse lo hi H. split; [exact H|]. intros v w Hv Hw E.
  pose proof (H v Hv) as A. pose proof (H w Hw) as B. rewrite E in A. congruence.
Qed.

Ltac each v H n :=
  match n with
  | O => exfalso; lia
  | S ?m => let k := eval compute in (Z.of_nat m) in
            destruct (Z.eq_dec v k) as [->|]; [first [vm_compute; reflexivity|exfalso; lia]|each v H m]
  end.
Lemma rtype_round : round_trips rtype_string rtype_parse 0 7.
Proof. apply round_trips_intro. intros v H. each v H 8%nat. Qed.
Lemma ptype_round : round_trips ptype_string ptype_parse 0 4.
Proof. apply round_trips_intro. intros v H. each v H 5%nat. Qed.
Lemma op_round : round_trips op_string op_parse 1 12.
Proof. apply round_trips_intro. intros v H. each v H 13%nat. Qed.
Lemma perm_round : round_trips perm_string perm_parse 1 3.
Proof. apply round_trips_intro. intros v H. each v H 4%nat. Qed.

Lemma op_distinct : forall v w, 0 <= v <= 12 -> 0 <= w <= 12 -> op_string v = op_string w -> v = w.
Proof.
  intros v w Hv Hw E. destruct (Z.eq_dec v 0) as [->|V], (Z.eq_dec w 0) as [->|W]; try reflexivity.
  - exfalso. assert (X : op_parse (op_string w) = Some w) by (apply op_round; lia). rewrite <- E in X. vm_compute in X.
    injection X as <-. vm_compute in E. discriminate.
  - exfalso. assert (X : op_parse (op_string v) = Some v) by (apply op_round; lia). rewrite E in X. vm_compute in X.
    injection X as <-. vm_compute in E. discriminate.
  - eapply op_round; eauto; lia.
Qed.
Lemma perm_distinct : forall v w, 0 <= v <= 3 -> 0 <= w <= 3 -> perm_string v = perm_string w -> v = w.
Proof.
  intros v w Hv Hw E. destruct (Z.eq_dec v 0) as [->|V], (Z.eq_dec w 0) as [->|W]; try reflexivity.
  - exfalso. assert (X : perm_parse (perm_string w) = Some w) by (apply perm_round; lia). rewrite <- E in X. vm_compute in X.
    injection X as <-. vm_compute in E. discriminate.
  - exfalso. assert (X : perm_parse (perm_string v) = Some v) by (apply perm_round; lia). rewrite E in X. vm_compute in X.
    injection X as <-. vm_compute in E. discriminate.
  - eapply perm_round; eauto; lia.
Qed.

(** values outside the enums are not confused with values inside *)
Lemma vswitch_other : forall cases d v, ~ In v (map fst cases) -> vswitch cases d v = d.
Proof.
  induction cases as [|[w s] cs IH]; intros d v H; cbn in *; [reflexivity|].
  destruct (v =? w) eqn:E; [exfalso; apply H; left; lia|]. apply IH. tauto.
Qed.
Lemma other_values : forall v,
  (~ 0 <= v <= 7 -> rtype_parse (rtype_string v) = None) /\
  (~ 0 <= v <= 4 -> ptype_parse (ptype_string v) = None) /\
  (~ 0 <= v <= 12 -> op_parse (op_string v) = None).
Proof.
  intro v. repeat split; intro H.
  - unfold rtype_string. rewrite vswitch_other; [reflexivity|]. cbn. lia.
  - unfold ptype_string. rewrite vswitch_other; [reflexivity|]. cbn. lia.
  - unfold op_string. rewrite vswitch_other; [reflexivity|]. cbn. lia.
Qed.

(** letters are read in either case *)
Lemma up_idem : forall c, up_ascii (up_ascii c) = up_ascii c.
Proof. intros [[] [] [] [] [] [] [] []]; vm_compute; reflexivity. Qed.
Lemma to_upper_idem : forall s, to_upper (to_upper s) = to_upper s.
Proof. induction s as [|c s IH]; cbn; [reflexivity|]. rewrite up_idem, IH. reflexivity. Qed.
Lemma parse_case : forall s s', to_upper s = to_upper s' ->
  rtype_parse s = rtype_parse s' /\ ptype_parse s = ptype_parse s' /\ op_parse s = op_parse s' /\ perm_parse s = perm_parse s'.
Proof. intros s s' E. unfold rtype_parse, ptype_parse, op_parse, perm_parse. rewrite E. auto. Qed.

Lemma op_unknown_refuted : op_parse (op_string 0) = Some 1.
Proof. vm_compute. reflexivity. Qed.
Lemma perm_unknown_refuted : perm_parse (perm_string 0) = Some 1 /\ perm_string 4 = perm_string 0.
Proof. vm_compute. auto. Qed.
