(** What Marshal writes is one line. *)
From Coq Require Import String.
From Verif Require Import Base BaseFacts Text HttpApi Responses Fetch Utf8Spec JsonSpec JsonText Shown ShownSpec ShownFacts ShownEvent JsonFacts ShownText.

Lemma event_plain : forall e j, shown_event e = Some j -> plain j.
Proof.
  intros [t p m|x] j H; cbn [shown_event] in H.
  - apply some_inj in H. subst j. pl. apply message_plain.
  - destruct x; cbn [jerr] in H; try discriminate; apply some_inj in H; subst j; pl.
Qed.
(** what Marshal writes has no control characters *)
Definition printing (c : Z) : Prop := 32 <= c < 256.
Lemma esc1_printing : forall b, byte_ok b -> Forall printing (esc1 b).
Proof.
  intros b B. unfold byte_ok in B. unfold esc1, printing.
  assert (X : forall d, 0 <= d < 16 -> 32 <= hexdigit d < 256) by (intros d D; unfold hexdigit; destruct (d <? 10) eqn:E; lia).
  assert (0 <= b / 16 < 16) by (split; [apply Z.div_pos; lia|apply Z.div_lt_upper_bound; lia]).
  pose proof (Z.mod_pos_bound b 16 ltac:(lia)).
  repeat match goal with |- context [if ?c then _ else _] => destruct c eqn:? end;
    repeat (apply Forall_cons; [first [apply X; lia|lia]|]); constructor.
Qed.
Lemma esc_printing : forall n s, (List.length s <= n)%nat -> Forall byte_ok s -> Forall printing (esc s).
Proof.
  induction n as [|n IH]; intros s L F; [destruct s; [constructor|cbn in L; lia]|].
  destruct s as [|b t]; [constructor|]. inversion F as [|? ? B F']; subst. cbn [List.length] in L.
  assert (P : Forall printing (esc1 b ++ esc t)) by (apply Forall_app; split; [now apply esc1_printing|apply IH; [lia|exact F']]).
  destruct t as [|c [|d u]]; [exact P|exact P|].
  change (esc (b :: c :: d :: u)) with
    (if (b =? 226) && (c =? 128) && ((d =? 168) || (d =? 169)) then [92; 117; 50; 48; 50; hexdigit (d mod 16)] ++ esc u
     else esc1 b ++ esc (c :: d :: u)).
  destruct ((b =? 226) && (c =? 128) && ((d =? 168) || (d =? 169))) eqn:E; [|exact P].
  inversion F' as [|? ? _ F1]; subst. inversion F1 as [|? ? _ F2]; subst. cbn [List.length] in L.
  apply Forall_app. split; [|apply IH; [lia|exact F2]].
  assert (d = 168 \/ d = 169) as [-> | ->] by lia; unfold printing, hexdigit; repeat constructor; cbn; lia.
Qed.
Lemma quote_printing : forall s, Forall byte_ok s -> Forall printing (quote s).
Proof.
  intros s F. unfold quote. constructor; [unfold printing; lia|]. apply Forall_app.
  split; [exact (esc_printing _ s (le_n _) F)|repeat constructor; lia].
Qed.
Lemma udec_printing : forall f x acc, Forall printing acc -> Forall printing (udec f x acc).
Proof.
  induction f as [|f IH]; intros x acc F; [exact F|]. cbn [udec].
  assert (G : Forall printing ((48 + x mod 10) :: acc)) by (constructor; [unfold printing; pose proof (Z.mod_pos_bound x 10 ltac:(lia)); lia|exact F]).
  destruct (x <? 10); [exact G|now apply IH].
Qed.
Lemma write_printing : forall j d, plain j -> Forall printing (write false d j).
Proof.
  intros j. induction j as [|b|z| |s|l IH|l IH] using json_rect2; intros d P.
  - unfold printing; repeat constructor; cbn; lia.
  - destruct b; unfold printing; repeat constructor; cbn; lia.
  - cbn [write]. unfold number. destruct (z <? 0); [constructor; [unfold printing; lia|]|]; apply udec_printing; constructor.
  - destruct P.
  - now apply quote_printing.
  - apply plain_arr in P. destruct l as [|x t]; [unfold printing; repeat constructor; cbn; lia|]. rewrite write_arr.
    constructor; [unfold printing; lia|].
    revert IH P. generalize (x :: t). clear. intros l H. induction H as [|x t Hx H IH]; intros P.
    + unfold printing. repeat constructor; cbn; lia.
    + inversion P; subst. cbn [tail_arr newline app]. fold (tail_arr false d). apply Forall_app. split; [now apply Hx|].
      apply Forall_app. split; [destruct t; unfold printing; repeat constructor; lia|now apply IH].
  - apply plain_obj in P. destruct l as [|x t]; [unfold printing; repeat constructor; cbn; lia|]. rewrite write_obj.
    constructor; [unfold printing; lia|].
    revert IH P. generalize (x :: t). clear. intros l H. induction H as [|[k x] t Hx H IH]; intros P.
    + unfold printing. repeat constructor; cbn; lia.
    + inversion P as [|? ? [Pk Px] Pt]; subst. cbn [fst snd] in *. cbn [tail_obj newline app]. fold (tail_obj false d).
      apply Forall_app. split; [now apply quote_printing|]. constructor; [unfold printing; lia|]. cbn [app].
      apply Forall_app. split; [now apply Hx|].
      apply Forall_app. split; [destruct t; unfold printing; repeat constructor; lia|now apply IH].
Qed.

Lemma event_seen : forall e e', event_readable e -> event_readable e' -> shown_event e = shown_event e' -> e = e'.
Proof.
  intros [t p m|x] [t' p' m'|x'] R R' H; cbn [event_readable shown_event] in *.
  - destruct R as [T M], R' as [T' M']. apply some_inj in H. flds H. back.
    assert (m = m') by (now apply message_seen). now subst.
  - destruct R' as [c ->]. cbn [jerr] in H. apply some_inj in H. flds H. discriminate.
  - destruct R as [c ->]. cbn [jerr] in H. apply some_inj in H. flds H. discriminate.
  - destruct R as [c ->], R' as [c' ->]. cbn [jerr] in H. apply some_inj in H. flds H. back. now subst.
Qed.

Lemma number_inj : forall a b, number a = number b -> a = b.
Proof.
  intros a b H. pose proof (write_read false (JInt a) Logic.I) as A. pose proof (write_read false (JInt b) Logic.I) as B.
  cbn [write] in A, B. rewrite H in A. congruence.
Qed.
Lemma put_key_perm : forall p l, Permutation (put_key p l) (p :: l).
Proof.
  intros p l. induction l as [|q t IH]; [reflexivity|]. cbn [put_key]. destruct (before (fst p) (fst q)); [reflexivity|].
  rewrite IH. apply perm_swap.
Qed.
Lemma sort_perm : forall l, Permutation (fold_right put_key [] l) l.
Proof. induction l as [|p l IH]; [reflexivity|]. cbn [fold_right]. rewrite put_key_perm. now constructor. Qed.
Lemma map_perm_inv : forall {A B} (f : A -> B), (forall x y, f x = f y -> x = y) -> forall l l', Permutation (map f l) (map f l') -> Permutation l l'.
Proof.
  intros A B f I l l' H. apply Permutation_map_inv in H as (m & E & P). 
  assert (l = m) as ->; [|now symmetry]. clear P. revert m E. induction l as [|x l IH]; intros [|y m] E; try discriminate; [reflexivity|].
  cbn [map] in E. injection E as E1 E2. f_equal; [now apply I|now apply IH].
Qed.
Lemma by_node_inj : forall l l', by_node l = by_node l' -> Permutation l l'.
Proof.
  intros l l' H. unfold by_node in H. injection H as H.
  apply (map_perm_inv (fun p : Z * json => (number (fst p), snd p))).
  - intros [a x] [b y] E. cbn [fst snd] in E. injection E as E1 E2. apply number_inj in E1. now subst.
  - rewrite <- (sort_perm (map (fun p => (number (fst p), snd p)) l)). rewrite H. apply sort_perm.
Qed.
Lemma number_bytes : forall z, Forall byte_ok (number z).
Proof.
  assert (P : forall s, Forall printing s -> Forall byte_ok s)
    by (intros s; apply Forall_impl; unfold printing, byte_ok; lia).
  intros z. apply P. change (number z) with (write false 0 (JInt z)). apply write_printing. exact Logic.I.
Qed.
Lemma by_node_plain : forall l, Forall (fun p => plain (snd p)) l -> plain (by_node l).
Proof.
  intros l F. unfold by_node. apply plain_obj. eapply Permutation_Forall; [symmetry; apply sort_perm|].
  apply Forall_forall. intros q I. apply in_map_iff in I as ([a x] & <- & I). cbn [fst snd]. split; [apply number_bytes|].
  rewrite Forall_forall in F. exact (F _ I).
Qed.
