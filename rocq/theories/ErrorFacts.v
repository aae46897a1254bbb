(** Facts about the error codes. *)
From Coq Require Import String.
From Verif Require Import Base BaseFacts ErrorCode ErrorSpec.

Lemma code_zero : forall c, getErrorFromErrorCode c = None <-> c = 0.
Proof.
  intro c. unfold getErrorFromErrorCode. destruct (c =? 0) eqn:E; [split; [lia|auto]|].
  destruct (AllError c); split; intro H; try discriminate; lia.
Qed.

Lemma map_get_none : forall {A} (l : list (Z * A)) k, ~ In k (map fst l) -> map_get l k = None.
Proof.
  induction l as [|[k' v] l IH]; intros k H; cbn in *; [reflexivity|].
  rewrite IH by tauto. destruct (k' =? k) eqn:E; [exfalso; apply H; left; lia|reflexivity].
Qed.
Lemma keys_range : forall k, In k (map fst err_assigns) -> -1 <= k <= 118 /\ k <> 0.
Proof.
  intros k H. assert (X : forallb (fun k => (-1 <=? k) && (k <=? 118) && negb (k =? 0)) (map fst err_assigns) = true) by (vm_compute; reflexivity).
  rewrite forallb_forall in X. specialize (X k H). lia.
Qed.
Lemma outside : forall c, ~ (-1 <= c <= 118 /\ c <> 0) -> AllError c = None.
Proof. intros c H. apply map_get_none. intro X. apply H. apply keys_range. exact X. Qed.

(** every code of the table, by computation *)
Definition zrange (lo : Z) (n : nat) : list Z := map (fun i => lo + Z.of_nat i) (seq 0 n).
Lemma in_zrange : forall lo n c, lo <= c < lo + Z.of_nat n -> In c (zrange lo n).
Proof.
  intros lo n c H. apply in_map_iff. exists (Z.to_nat (c - lo)). split; [lia|]. apply in_seq. lia.
Qed.
Definition opt_str_eqb (a b : option string) : bool :=
  match a, b with Some x, Some y => String.eqb x y | None, None => true | _, _ => false end.
Definition name_of (c : Z) : option string := match AllError c with Some e => Some (e_msg e) | None => None end.
Definition check_code (c : Z) : bool :=
  match AllError c with
  | Some e => (e_code e =? c) && opt_str_eqb (Some (e_msg e)) (protocol_name c)
  | None => c =? 0
  end && Bool.eqb (retriable c) (existsb (Z.eqb c) protocol_retriable).

Lemma check_all : forallb check_code (zrange (-1) 119) = true.
Proof. vm_compute. reflexivity. Qed.

(** codes -1 and 1..117: the table holds the code itself and its protocol name *)
Lemma code_entry : forall c, -1 <= c <= 117 -> c <> 0 ->
  exists e, AllError c = Some e /\ e_code e = c /\ protocol_name c = Some (e_msg e) /\
    getErrorFromErrorCode c = Some (EKafka c) /\ err_text c = TName (e_msg e).
Proof.
  intros c H N. pose proof check_all as X. rewrite forallb_forall in X.
  specialize (X c (in_zrange (-1) 119 c ltac:(lia))). unfold check_code in X.
  apply andb_prop in X. destruct X as [X _].
  unfold getErrorFromErrorCode, err_text. destruct (AllError c) as [e|]; [|lia].
  apply andb_prop in X. destruct X as [X1 X2]. exists e.
  destruct (c =? 0) eqn:E0; [lia|]. split; [reflexivity|]. split; [lia|].
  split; [|auto]. unfold opt_str_eqb in X2. destruct (protocol_name c) as [s|]; [|discriminate].
  apply String.eqb_eq in X2. subst. reflexivity.
Qed.

Lemma retriable_exact : forall c, retriable c = true <-> In c protocol_retriable.
Proof.
  intro c. assert (E : retriable c = existsb (Z.eqb c) protocol_retriable).
  { destruct (Z_le_gt_dec (-1) c) as [A|A]; [destruct (Z_le_gt_dec c 117) as [B|B]|].
    - pose proof check_all as X. rewrite forallb_forall in X.
      specialize (X c (in_zrange (-1) 119 c ltac:(lia))). unfold check_code in X.
      apply andb_prop in X. destruct X as [_ X]. apply eqb_prop. exact X.
    - destruct (Z.eq_dec c 118) as [->|]; [vm_compute; reflexivity|].
      unfold retriable. rewrite outside by lia. symmetry. apply not_true_iff_false. intro X.
      apply existsb_exists in X. destruct X as [x [I Ex]]. assert (c = x) by lia. subst x. cbn in I. lia.
    - unfold retriable. rewrite outside by lia. symmetry. apply not_true_iff_false. intro X.
      apply existsb_exists in X. destruct X as [x [I Ex]]. assert (c = x) by lia. subst x. cbn in I. lia. }
  rewrite E, existsb_exists. split.
  - intros [x [I Ex]]. assert (c = x) by lia. subst. exact I.
  - intro I. exists c. split; [exact I|lia].
Qed.

Lemma unknown_code : forall c, c < -1 \/ 118 < c -> getErrorFromErrorCode c = Some (EUnknownCode c) /\ err_text c = TUnknown c.
Proof.
  intros c H. unfold getErrorFromErrorCode, err_text. rewrite outside by lia.
  destruct (c =? 0) eqn:E; [lia|auto].
Qed.

Lemma code118_refuted : exists e, AllError 118 = Some e /\ e_code e = 119 /\
  err_text 118 = TName "INVALID_REGISTRATION"%string /\ protocol_name 118 = Some "TELEMETRY_TOO_LARGE"%string.
Proof. eexists. vm_compute. auto. Qed.
Lemma code119_refuted : protocol_name 119 = Some "INVALID_REGISTRATION"%string /\
  getErrorFromErrorCode 119 = Some (EUnknownCode 119).
Proof. vm_compute. auto. Qed.

(** distinct codes give distinct errors *)
Lemma code_injective : forall c d, getErrorFromErrorCode c = getErrorFromErrorCode d -> c = d.
Proof.
  intros c d. unfold getErrorFromErrorCode. destruct (c =? 0) eqn:E1, (d =? 0) eqn:E2; try lia;
  destruct (AllError c), (AllError d); intro H; try discriminate; try (injection H as ->; reflexivity).
Qed.
