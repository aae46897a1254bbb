(** Lemmas that tighten the theorems of other files. *)
From Coq Require Import String Ascii.
From Verif Require Import Base BaseFacts Acl MoreSpec Builders Config ConfigSpec ErrorCode.

Lemma up_same c d : same_letter c d -> up_ascii c = up_ascii d.
Proof.
  unfold same_letter, up_ascii. cbv zeta. intros [->|[[H E]|[H E]]]; [reflexivity| |].
  - replace (Nat.leb 97 (nat_of_ascii c) && Nat.leb (nat_of_ascii c) 122)%bool with true by (symmetry; apply andb_true_intro; split; apply Nat.leb_le; lia).
    replace (Nat.leb 97 (nat_of_ascii d)) with false by (symmetry; apply Nat.leb_gt; lia). cbn [andb].
    replace (nat_of_ascii c - 32)%nat with (nat_of_ascii d) by lia. apply ascii_nat_embedding.
  - replace (Nat.leb 97 (nat_of_ascii d) && Nat.leb (nat_of_ascii d) 122)%bool with true by (symmetry; apply andb_true_intro; split; apply Nat.leb_le; lia).
    replace (Nat.leb 97 (nat_of_ascii c)) with false by (symmetry; apply Nat.leb_gt; lia). cbn [andb].
    replace (nat_of_ascii d - 32)%nat with (nat_of_ascii c) by lia. symmetry. apply ascii_nat_embedding.
Qed.
Lemma same_up c : same_letter c (up_ascii c).
Proof.
  unfold same_letter, up_ascii. destruct (Nat.leb 97 (nat_of_ascii c) && Nat.leb (nat_of_ascii c) 122)%bool eqn:E; [|left; reflexivity].
  apply andb_true_iff in E. destruct E as [E1 E2]. apply Nat.leb_le in E1, E2. right. left. cbv zeta. rewrite nat_ascii_embedding by lia. lia.
Qed.
Lemma upper_same a : forall b, same_text a b -> to_upper a = to_upper b.
Proof.
  induction a as [|c a IH]; intros [|d b]; cbn; try contradiction; [reflexivity|]. intros [H1 H2]. rewrite (up_same _ _ H1), (IH _ H2). reflexivity.
Qed.
Lemma same_upper a : same_text a (to_upper a).
Proof. induction a as [|c a IH]; cbn; [exact I|]. split; [apply same_up|exact IH]. Qed.

(** a switch over upper-case texts reads what a table says *)
Lemma switch_says cases s v : switch cases (to_upper s) = Some v -> exists ts t, In (ts, Some v) cases /\ In t ts /\ same_text s t.
Proof.
  induction cases as [|[ts w] cs IH]; cbn [switch]; [discriminate|]. destruct (existsb _ ts) eqn:E.
  - intros ->. apply existsb_exists in E. destruct E as (t & H1 & H2). apply String.eqb_eq in H2. exists ts, t. split; [left; reflexivity|]. split; [exact H1|].
    rewrite <- H2. apply same_upper.
  - intros H. destruct (IH H) as (ts' & t & H1 & H2 & H3). exists ts', t. split; [right; exact H1|]. split; assumption.
Qed.
Ltac says_tac :=
  split;
  [ intros H; apply switch_says in H; destruct H as (ts & t & H1 & H2 & H3); exists t; split; [|exact H3];
    repeat (destruct H1 as [H1|H1]; [try discriminate H1; injection H1 as <- <-; cbn [In] in H2; repeat (destruct H2 as [H2|H2]; [subst t; cbn [In]; repeat (first [left; reflexivity|right])|]); contradiction H2|]); contradiction H1
  | intros (t & H1 & H2); cbn [In] in H1;
    repeat (destruct H1 as [H1|H1]; [injection H1 as <- <-; rewrite (upper_same _ _ H2); vm_compute; reflexivity|]); contradiction H1 ].
Lemma resource_says s v : rtype_parse s = Some v <-> says resource_texts s v.
Proof. unfold rtype_parse, says, resource_texts. says_tac. Qed.
Lemma pattern_says s v : ptype_parse s = Some v <-> says pattern_texts s v.
Proof. unfold ptype_parse, says, pattern_texts. says_tac. Qed.
Ltac says_guard G :=
  split;
  [ intros H; apply switch_says in H; destruct H as (ts & t & H1 & H2 & H3); exists t; split; [|exact H3];
    repeat (destruct H1 as [H1|H1]; [try discriminate H1; injection H1 as <- <-; cbn [In] in H2;
      repeat (destruct H2 as [H2|H2]; [subst t; try (exfalso; apply G; (left; exact H3) || (right; exact H3)); cbn [In]; repeat (first [left; reflexivity|right])|]); contradiction H2|]); contradiction H1
  | intros (t & H1 & H2); cbn [In] in H1;
    repeat (destruct H1 as [H1|H1]; [injection H1 as <- <-; rewrite (upper_same _ _ H2); vm_compute; reflexivity|]); contradiction H1 ].
Lemma operation_says s v : ~ (same_text s "UNKNOWN"%string \/ same_text s "0"%string) -> op_parse s = Some v <-> says operation_texts s v.
Proof. intros G. unfold op_parse, says, operation_texts. says_guard G. Qed.
Lemma permission_says s v : ~ (same_text s "UNKNOWN"%string \/ same_text s "0"%string) -> perm_parse s = Some v <-> says permission_texts s v.
Proof. intros G. unfold perm_parse, says, permission_texts. says_guard G. Qed.

Lemma create_partitions adds : fold_left (fun ts a => cp_add ts (fst a) (fst (snd a)) (snd (snd a))) adds [] = adds.
Proof.
  assert (G : forall l acc, fold_left (fun ts a => cp_add ts (fst a) (fst (snd a)) (snd (snd a))) l acc = acc ++ l).
  { induction l as [|[t [n a]] l IH]; intros acc; cbn [fold_left]; [symmetry; apply app_nil_r|]. rewrite IH. unfold cp_add. cbn [fst snd]. rewrite <- app_assoc. reflexivity. }
  apply G.
Qed.

Lemma timeout_lookup h c api :
  (forall t, nth_error (cell h (cc_api c)) api = Some t -> 0 < t -> request_timeout h c api = t) /\
  ((forall t, nth_error (cell h (cc_api c)) api = Some t -> t <= 0) -> request_timeout h c api = cc_timeout c).
Proof.
  unfold request_timeout. cbv zeta. set (l := cell h (cc_api c)). split.
  - intros t E Ht. assert (L : (api < length l)%nat) by (apply nth_error_Some; congruence).
    apply Nat.ltb_lt in L. rewrite L. rewrite (nth_error_nth _ _ 0 E). replace (t >? 0) with true by lia. reflexivity.
  - intros H. destruct (Nat.ltb api (length l)) eqn:L; [|reflexivity]. apply Nat.ltb_lt in L. destruct (nth_error l api) eqn:E; [|apply nth_error_None in E; lia].
    rewrite (nth_error_nth _ _ 0 E). specialize (H _ eq_refl). replace (z >? 0) with false by lia. reflexivity.
Qed.

Lemma producer_other : snd (createProducerConfig POther) = true.
Proof. reflexivity. Qed.
Lemma producer_default boot : boot <> [] -> let c := mkPC boot (pc_count default_pconf) (pc_flush default_pconf) (pc_comp default_pconf) (pc_magic default_pconf) in
  createProducerConfig (PMap (fun d => Some (mkPC boot (pc_count d) (pc_flush d) (pc_comp d) (pc_magic d)))) = (c, false) /\ forall e, ~ producer_violates c e.
Proof. intros H. destruct boot; [congruence|]. split; [reflexivity|]. intros []; cbn; try lia; tauto. Qed.
Lemma no_text : err_text 0 = TNone /\ forall c, c <> 0 -> err_text c <> TNone.
Proof. split; [reflexivity|]. intros c H. unfold err_text. replace (c =? 0) with false by lia. destruct (AllError c); discriminate. Qed.
