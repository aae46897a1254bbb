(** Lemmas about the JSON of responses. *)
From Coq Require Import String Ascii.
From Verif Require Import Base BaseFacts Prims Group Acl Responses Http HttpSpec HttpFacts HttpApi Fetch Utf8Spec Shown ShownSpec.

(** ** Strings *)
Lemma rune_shape : forall c, scalar c -> forall t, rune_len (rune c ++ t) = List.length (rune c) /\ rune c <> [].
Proof.
  intros c H t. unfold scalar in H. unfold rune.
  assert (C1 : forall x, cont (128 + x mod 64) = true)
    by (intros x; unfold cont; pose proof (Z.mod_pos_bound x 64 ltac:(lia)); lia).
  destruct (c <? 128) eqn:A.
  { cbn [app rune_len]. rewrite A. replace (0 <=? c) with true by lia. split; [reflexivity|discriminate]. }
  destruct (c <? 2048) eqn:B.
  { pose proof (Z.div_le_mono 128 c 64 ltac:(lia) ltac:(lia)) as L. pose proof (Z.div_lt_upper_bound c 64 32 ltac:(lia) ltac:(lia)).
    change (128 / 64) with 2 in L. cbn [app rune_len]. rewrite !C1.
    replace ((0 <=? 192 + c / 64) && (192 + c / 64 <? 128)) with false by lia.
    replace ((194 <=? 192 + c / 64) && (192 + c / 64 <=? 223)) with true by lia. split; [reflexivity|discriminate]. }
  destruct (c <? 65536) eqn:D.
  { assert (L : 0 <= c / 4096 < 16) by (split; [apply Z.div_pos; lia|apply Z.div_lt_upper_bound; lia]).
    assert (S : second (224 + c / 4096) (128 + c / 64 mod 64) = true).
    { unfold second. pose proof (C1 (c / 64)) as K. pose proof (Z.mod_pos_bound (c / 64) 64 ltac:(lia)) as M.
      assert (Q : c / 64 = 64 * (c / 4096) + (c / 64) mod 64).
      { pose proof (Z.div_mod (c / 64) 64 ltac:(lia)) as E. rewrite Z.div_div in E by lia. exact E. }
      pose proof (Z.div_le_mono 2048 c 64 ltac:(lia) ltac:(lia)) as L1. change (2048 / 64) with 32 in L1.
      destruct (224 + c / 4096 =? 224) eqn:E0; [lia|].
      destruct (224 + c / 4096 =? 237) eqn:E1.
      { assert (c < 55296 \/ 57344 <= c) as [J|J] by lia.
        - pose proof (Z.div_lt_upper_bound c 64 864 ltac:(lia) ltac:(lia)). lia.
        - pose proof (Z.div_le_mono 57344 c 64 ltac:(lia) ltac:(lia)) as L2. change (57344 / 64) with 896 in L2. lia. }
      replace (224 + c / 4096 =? 240) with false by lia. replace (224 + c / 4096 =? 244) with false by lia. exact K. }
    cbn [app rune_len]. rewrite S, !C1.
    replace ((0 <=? 224 + c / 4096) && (224 + c / 4096 <? 128)) with false by lia.
    replace ((194 <=? 224 + c / 4096) && (224 + c / 4096 <=? 223)) with false by lia.
    replace ((224 <=? 224 + c / 4096) && (224 + c / 4096 <=? 239)) with true by lia. split; [reflexivity|discriminate]. }
  assert (L : 0 <= c / 262144 < 5) by (split; [apply Z.div_pos; lia|apply Z.div_lt_upper_bound; lia]).
  assert (S : second (240 + c / 262144) (128 + c / 4096 mod 64) = true).
  { unfold second. pose proof (C1 (c / 4096)) as K. pose proof (Z.mod_pos_bound (c / 4096) 64 ltac:(lia)) as M.
    assert (Q : c / 4096 = 64 * (c / 262144) + (c / 4096) mod 64).
    { pose proof (Z.div_mod (c / 4096) 64 ltac:(lia)) as E. rewrite Z.div_div in E by lia. exact E. }
    pose proof (Z.div_le_mono 65536 c 4096 ltac:(lia) ltac:(lia)) as L1. change (65536 / 4096) with 16 in L1.
    pose proof (Z.div_lt_upper_bound c 4096 272 ltac:(lia) ltac:(lia)).
    replace (240 + c / 262144 =? 224) with false by lia. replace (240 + c / 262144 =? 237) with false by lia.
    destruct (240 + c / 262144 =? 240) eqn:E0; [lia|].
    destruct (240 + c / 262144 =? 244) eqn:E1; [lia|]. exact K. }
  cbn [app rune_len]. rewrite S, !C1.
  replace ((0 <=? 240 + c / 262144) && (240 + c / 262144 <? 128)) with false by lia.
  replace ((194 <=? 240 + c / 262144) && (240 + c / 262144 <=? 223)) with false by lia.
  replace ((224 <=? 240 + c / 262144) && (240 + c / 262144 <=? 239)) with false by lia.
  replace ((240 <=? 240 + c / 262144) && (240 + c / 262144 <=? 244)) with true by lia. split; [reflexivity|discriminate].
Qed.
Lemma legible_step : forall n s, s <> [] -> legible_go (S n) s =
  match rune_len s with O => [239; 191; 189] ++ legible_go n (tl s) | l => firstn l s ++ legible_go n (skipn l s) end.
Proof. intros n [|b s] H; [congruence|reflexivity]. Qed.
Lemma legible_step2 : forall n s, rune_len s <> 0%nat -> legible_go (S n) s = firstn (rune_len s) s ++ legible_go n (skipn (rune_len s) s).
Proof.
  intros n s H. rewrite legible_step by (intros ->; now apply H). destruct (rune_len s); [congruence|reflexivity].
Qed.
Lemma legible_text_go : forall cs n, Forall scalar cs -> (List.length (flat_map rune cs) <= n)%nat -> legible_go n (flat_map rune cs) = flat_map rune cs.
Proof.
  induction cs as [|c cs IH]; intros n F L.
  - destruct n; reflexivity.
  - inversion F; subst. cbn [flat_map] in *. destruct (rune_shape c H1 (flat_map rune cs)) as [R N].
    rewrite app_length in L. destruct n as [|n].
    { destruct (rune c); [congruence|cbn in L; lia]. }
    assert (G : List.length (rune c) <> 0%nat) by (destruct (rune c); [congruence|discriminate]).
    rewrite (legible_step2 n (rune c ++ flat_map rune cs)) by (rewrite R; exact G). rewrite R.
    rewrite firstn_app, firstn_all, Nat.sub_diag. cbn [firstn]. rewrite app_nil_r.
    rewrite skipn_app, skipn_all, Nat.sub_diag. cbn [skipn app]. f_equal. apply IH; [assumption|lia].
Qed.
Lemma legible_text : forall s, text s -> legible_go (List.length s) s = s.
Proof. intros s (cs & F & ->). apply legible_text_go; [exact F|lia]. Qed.
Lemma jstr_inj : forall s t, text s -> text t -> jstr s = jstr t -> s = t.
Proof. intros s t A B H. unfold jstr in H. rewrite (legible_text s A), (legible_text t B) in H. congruence. Qed.

(** what is printed is a text *)
Lemma rune_len_le : forall s, (rune_len s <= List.length s)%nat.
Proof.
  intros [|b [|c [|d [|e s]]]]; cbn [rune_len List.length];
    repeat match goal with |- context [if ?b then _ else _] => destruct b end; lia.
Qed.
Lemma rune_found : forall s, rune_len s <> 0%nat -> exists c, scalar c /\ firstn (rune_len s) s = rune c.
Proof.
  intros s N. destruct s as [|b s]; [now destruct N|].
  cbn [rune_len] in *. destruct ((0 <=? b) && (b <? 128)) eqn:A.
  { exists b. unfold scalar, rune. replace (b <? 128) with true by lia. split; [lia|reflexivity]. }
  destruct ((194 <=? b) && (b <=? 223)) eqn:B.
  { destruct s as [|c s]; [congruence|]. destruct (cont c) eqn:C; [|congruence]. unfold cont in C.
    exists ((b - 192) * 64 + (c - 128)).
    assert (D1 : ((b - 192) * 64 + (c - 128)) / 64 = b - 192) by (rewrite Z.div_add_l by lia; rewrite Z.div_small by lia; lia).
    assert (D2 : ((b - 192) * 64 + (c - 128)) mod 64 = c - 128) by (rewrite Z.add_comm, Z.mod_add by lia; apply Z.mod_small; lia).
    unfold scalar, rune. replace ((b - 192) * 64 + (c - 128) <? 128) with false by lia.
    replace ((b - 192) * 64 + (c - 128) <? 2048) with true by lia. rewrite D1, D2. split; [lia|].
    cbn [firstn]. repeat f_equal; lia. }
  destruct ((224 <=? b) && (b <=? 239)) eqn:C.
  { destruct s as [|c [|d s]]; try congruence. destruct (second b c && cont d) eqn:D; [|congruence].
    apply andb_prop in D as [D1 D2]. unfold cont in D2.
    set (x := ((b - 224) * 64 + (c - 128)) * 64 + (d - 128)).
    assert (R : 128 <= c <= 191 /\ (b = 224 -> 160 <= c) /\ (b = 237 -> c <= 159)).
    { unfold second, cont in D1. destruct (b =? 224) eqn:?; [lia|]. destruct (b =? 237) eqn:?; [lia|].
      replace (b =? 240) with false in D1 by lia. replace (b =? 244) with false in D1 by lia. lia. }
    assert (E1 : x / 64 = (b - 224) * 64 + (c - 128)) by (unfold x; rewrite Z.div_add_l by lia; rewrite (Z.div_small (d - 128)) by lia; lia).
    assert (E2 : x mod 64 = d - 128) by (unfold x; rewrite Z.add_comm, Z.mod_add by lia; apply Z.mod_small; lia).
    assert (E3 : x / 4096 = b - 224).
    { change 4096 with (64 * 64). rewrite <- Z.div_div, E1 by lia. rewrite Z.div_add_l by lia. rewrite Z.div_small by lia. lia. }
    exists x. unfold scalar, rune. rewrite E1, E2, E3.
    assert (2048 <= x) by (unfold x; destruct (Z.eq_dec b 224); lia).
    assert (x < 65536) by (unfold x; lia).
    replace (x <? 128) with false by lia. replace (x <? 2048) with false by lia. replace (x <? 65536) with true by lia.
    split; [unfold x; destruct (Z.eq_dec b 237); lia|].
    cbn [firstn]. replace (((b - 224) * 64 + (c - 128)) mod 64) with (c - 128).
    2:{ rewrite Z.add_comm, Z.mod_add by lia. symmetry. apply Z.mod_small. lia. }
    repeat f_equal; lia. }
  destruct ((240 <=? b) && (b <=? 244)) eqn:D; [|congruence].
  destruct s as [|c [|d [|e s]]]; try congruence. destruct (second b c && cont d && cont e) eqn:E; [|congruence].
  apply andb_prop in E as [E D3]. apply andb_prop in E as [D1 D2]. unfold cont in D2, D3.
  set (y := ((b - 240) * 64 + (c - 128)) * 64 + (d - 128)). set (x := y * 64 + (e - 128)).
  assert (R : 128 <= c <= 191 /\ (b = 240 -> 144 <= c) /\ (b = 244 -> c <= 143)).
  { unfold second, cont in D1. replace (b =? 224) with false in D1 by lia. replace (b =? 237) with false in D1 by lia.
    destruct (b =? 240) eqn:?; [lia|]. destruct (b =? 244) eqn:?; lia. }
  assert (E1 : x / 64 = y) by (unfold x; rewrite Z.div_add_l by lia; rewrite (Z.div_small (e - 128)) by lia; lia).
  assert (E2 : x mod 64 = e - 128) by (unfold x; rewrite Z.add_comm, Z.mod_add by lia; apply Z.mod_small; lia).
  assert (F2 : y mod 64 = d - 128) by (unfold y; rewrite Z.add_comm, Z.mod_add by lia; apply Z.mod_small; lia).
  assert (F3 : y / 64 = (b - 240) * 64 + (c - 128)) by (unfold y; rewrite Z.div_add_l by lia; rewrite (Z.div_small (d - 128)) by lia; lia).
  assert (E3 : x / 4096 = (b - 240) * 64 + (c - 128)).
  { change 4096 with (64 * 64). rewrite <- Z.div_div, E1 by lia. exact F3. }
  assert (E4 : x / 262144 = b - 240).
  { change 262144 with (4096 * 64). rewrite <- Z.div_div, E3 by lia. rewrite Z.div_add_l by lia. rewrite Z.div_small by lia. lia. }
  exists x. unfold scalar, rune. rewrite E1, E2, E3, E4, F2.
  assert (65536 <= x) by (unfold x, y; destruct (Z.eq_dec b 240); lia).
  assert (x < 1114112) by (unfold x, y; destruct (Z.eq_dec b 244); lia).
  replace (x <? 128) with false by lia. replace (x <? 2048) with false by lia. replace (x <? 65536) with false by lia.
  split; [lia|]. cbn [firstn]. replace (((b - 240) * 64 + (c - 128)) mod 64) with (c - 128).
  2:{ rewrite Z.add_comm, Z.mod_add by lia. symmetry. apply Z.mod_small. lia. }
  repeat f_equal; lia.
Qed.
Lemma text_cons : forall c s, scalar c -> text s -> text (rune c ++ s).
Proof. intros c s H (cs & F & ->). exists (c :: cs). split; [now constructor|reflexivity]. Qed.
Lemma legible_is_text : forall n s, text (legible_go n s).
Proof.
  induction n as [|n IH]; intros s; [exists []; split; [constructor|reflexivity]|].
  destruct s as [|b s]; [exists []; split; [constructor|reflexivity]|].
  destruct (Nat.eq_dec (rune_len (b :: s)) 0) as [E|E].
  - rewrite legible_step by discriminate. rewrite E. change [239; 191; 189] with (rune 65533).
    apply text_cons; [unfold scalar; lia|]. apply IH.
  - rewrite legible_step2 by exact E. destruct (rune_found (b :: s) E) as (c & C & R). rewrite R. apply text_cons; [exact C|].
    apply IH.
Qed.

(** ** Values *)
Lemma jopt_inj : forall a b, otext a -> otext b -> jopt a = jopt b -> a = b.
Proof.
  intros [a|] [b|] A B H; try reflexivity; try discriminate. f_equal. apply jstr_inj; [now apply A|now apply B|exact H].
Qed.
Lemma jbytes_inj : forall a b, Forall byte_ok a -> Forall byte_ok b -> jbytes a = jbytes b -> a = b.
Proof.
  assert (M : forall l, Forall byte_ok l -> map (fun x => x mod 256) l = l).
  { induction 1 as [|x l X F IH]; [reflexivity|]. cbn [map]. rewrite IH. unfold byte_ok in X. f_equal. apply Z.mod_small. exact X. }
  intros a b A B H. unfold jbytes in H. rewrite (M a A), (M b B) in H. rewrite <- (b64_roundtrip a A), <- (b64_roundtrip b B). congruence.
Qed.
Lemma jobytes_inj : forall a b, (forall x, a = Some x -> Forall byte_ok x) -> (forall x, b = Some x -> Forall byte_ok x) ->
  jobytes a = jobytes b -> a = b.
Proof.
  intros [a|] [b|] A B H; try reflexivity; try discriminate. f_equal. apply jbytes_inj; [now apply A|now apply B|exact H].
Qed.
Lemma jbytes0_inj : forall a b, Forall byte_ok a -> Forall byte_ok b -> jbytes0 a = jbytes0 b -> a = b.
Proof. intros [|x a] [|y b] A B H; try reflexivity; try discriminate. now apply jbytes_inj. Qed.
Lemma jint_inj : forall a b, JInt a = JInt b -> a = b.
Proof. congruence. Qed.
Lemma jbool_inj : forall a b, JBool a = JBool b -> a = b.
Proof. congruence. Qed.
Lemma jarr_view : forall {A B} (P : A -> Prop) (f : A -> json) (v : A -> B),
  (forall x y, P x -> P y -> f x = f y -> v x = v y) ->
  forall l l', Forall P l -> Forall P l' -> jarr f l = jarr f l' -> map v l = map v l'.
Proof.
  intros A B P f v V l l' F F' H. unfold jarr in H. injection H as H. revert l' F' H.
  induction F as [|x l Px F IH]; intros [|y l'] F' H; try discriminate; [reflexivity|].
  inversion F'; subst. cbn [map] in *. injection H as E1 E2. f_equal; [now apply V|now apply IH].
Qed.
Lemma jarr_inj : forall {A} (P : A -> Prop) (f : A -> json), (forall x y, P x -> P y -> f x = f y -> x = y) ->
  forall l l', Forall P l -> Forall P l' -> jarr f l = jarr f l' -> l = l'.
Proof. intros A P f V l l' F F' H. rewrite <- (map_id l), <- (map_id l'). exact (jarr_view P f (fun x => x) V l l' F F' H). Qed.
Lemma jarr_inj0 : forall {A} (f : A -> json), (forall x y, f x = f y -> x = y) -> forall l l', jarr f l = jarr f l' -> l = l'.
Proof.
  intros A f V l l' H. apply (jarr_inj (fun _ => True) f); auto; apply Forall_forall; auto.
Qed.
Lemma joarr_inj : forall {A} (P : A -> Prop) (f : A -> json), (forall x y, P x -> P y -> f x = f y -> x = y) ->
  forall l l', each P l -> each P l' -> joarr f l = joarr f l' -> l = l'.
Proof.
  intros A P f V [l|] [l'|] F F' H; try reflexivity; try discriminate.
  f_equal. apply (jarr_inj P f V); [now apply F|now apply F'|exact H].
Qed.
Lemma jobj_cons : forall n a l b l', jobj ((n, a) :: l) = jobj ((n, b) :: l') -> a = b /\ jobj l = jobj l'.
Proof. intros n a l b l' H. unfold jobj in *. cbn [map fst snd] in H. injection H as H1 H2. split; congruence. Qed.
Ltac flds H :=
  match type of H with
  | jobj (_ :: _) = jobj (_ :: _) => let H1 := fresh "V" in apply jobj_cons in H as [H1 H]; flds H
  | jobj [] = jobj [] => clear H
  end.
Lemma jtag_inj : forall x y : Z * bytes, Forall byte_ok (snd x) -> Forall byte_ok (snd y) -> jtag x = jtag y -> x = y.
Proof.
  intros [a b] [c d] F G H. unfold jtag in H. cbn [fst snd] in *. flds H. f_equal; [now apply jint_inj|now apply jbytes_inj].
Qed.
Lemma jtags_inj : forall x y, tags_ok x -> tags_ok y -> jtags x = jtags y -> x = y.
Proof. intros x y. exact (jarr_inj _ jtag jtag_inj x y). Qed.
Lemma jints_inj : forall x y, jarr JInt x = jarr JInt y -> x = y.
Proof. exact (jarr_inj0 JInt jint_inj). Qed.
Fixpoint upto (n : nat) : list Z := match n with O => [0] | S k => upto k ++ [Z.of_nat (S k)] end.
Lemma upto_in : forall n z, 0 <= z <= Z.of_nat n -> In z (upto n).
Proof.
  induction n; intros z H; cbn [upto]; [left; lia|]. apply in_or_app.
  destruct (Z.eq_dec z (Z.of_nat (S n))) as [->|]; [right; now left|left; apply IHn; lia].
Qed.
Definition distinct (f : Z -> string) (n : nat) : bool :=
  forallb (fun a => forallb (fun b => (a =? b) || negb (beqb (lit (f a)) (lit (f b)))) (upto n)) (upto n).
Lemma jenum_inj : forall f n, distinct f n = true -> forall a b, 0 <= a <= Z.of_nat n -> 0 <= b <= Z.of_nat n ->
  jenum f a = jenum f b -> a = b.
Proof.
  intros f n D a b A B H. unfold distinct in D. rewrite forallb_forall in D. specialize (D a (upto_in n a A)).
  rewrite forallb_forall in D. specialize (D b (upto_in n b B)). unfold jenum in H. injection H as H. rewrite H in D.
  rewrite beqb_refl in D. cbn [negb] in D. lia.
Qed.
Lemma rtype_inj : forall a b, 0 <= a <= 7 -> 0 <= b <= 7 -> jenum rtype_string a = jenum rtype_string b -> a = b.
Proof. exact (jenum_inj rtype_string 7 ltac:(vm_compute; reflexivity)). Qed.
Lemma ptype_inj : forall a b, 0 <= a <= 4 -> 0 <= b <= 4 -> jenum ptype_string a = jenum ptype_string b -> a = b.
Proof. exact (jenum_inj ptype_string 4 ltac:(vm_compute; reflexivity)). Qed.
Lemma op_inj : forall a b, 0 <= a <= 12 -> 0 <= b <= 12 -> jenum op_string a = jenum op_string b -> a = b.
Proof. exact (jenum_inj op_string 12 ltac:(vm_compute; reflexivity)). Qed.
Lemma perm_inj : forall a b, 0 <= a <= 3 -> 0 <= b <= 3 -> jenum perm_string a = jenum perm_string b -> a = b.
Proof. exact (jenum_inj perm_string 3 ltac:(vm_compute; reflexivity)). Qed.

(** ** Responses *)
Ltac split_all := repeat match goal with
  | x : (_ * _)%type |- _ => destruct x
  | H : _ /\ _ |- _ => destruct H
  end; cbn [fst snd] in *.
Ltac open_obj := repeat match goal with H : jobj _ = jobj _ |- _ => progress flds H end.
Ltac back := repeat match goal with
  | H : JInt _ = JInt _ |- _ => apply jint_inj in H
  | H : JBool _ = JBool _ |- _ => apply jbool_inj in H
  | H : jstr _ = jstr _ |- _ => apply jstr_inj in H; [|assumption|assumption]
  | H : jopt _ = jopt _ |- _ => apply jopt_inj in H; [|assumption|assumption]
  | H : jbytes _ = jbytes _ |- _ => apply jbytes_inj in H; [|assumption|assumption]
  | H : jbytes0 _ = jbytes0 _ |- _ => apply jbytes0_inj in H; [|assumption|assumption]
  | H : jtags _ = jtags _ |- _ => apply jtags_inj in H; [|assumption|assumption]
  | H : jarr JInt _ = jarr JInt _ |- _ => apply jints_inj in H
  | H : jenum rtype_string _ = jenum rtype_string _ |- _ => apply rtype_inj in H; [|lia|lia]
  | H : jenum ptype_string _ = jenum ptype_string _ |- _ => apply ptype_inj in H; [|lia|lia]
  | H : jenum op_string _ = jenum op_string _ |- _ => apply op_inj in H; [|lia|lia]
  | H : jenum perm_string _ = jenum perm_string _ |- _ => apply perm_inj in H; [|lia|lia]
  | F : Forall ?P ?l, F' : Forall ?P ?l', H : jarr ?f ?l = jarr ?f ?l' |- _ =>
      apply (jarr_inj P f) in H; [clear F F'|clear H F F'|exact F|exact F']
  | F : each ?P ?l, F' : each ?P ?l', H : joarr ?f ?l = joarr ?f ?l' |- _ =>
      apply (joarr_inj P f) in H; [clear F F'|clear H F F'|exact F|exact F']
  | H : jarr ?f ?l = jarr ?f ?l' |- _ => apply (jarr_inj0 f) in H; [|clear H]
  end.
Lemma jassignment_inj : forall a b, ma_ok a -> ma_ok b -> jassignment a = jassignment b -> a = b.
Proof.
  intros [v p u] [v' p' u'] [A1 A2] [B1 B2] H. cbn [ma_version ma_parts ma_user] in *. unfold jassignment in H.
  cbn [ma_version ma_parts ma_user] in H. open_obj. back; [subst; reflexivity|].
  intros x y X Y K. cbv beta in *. split_all. open_obj. back. now subst.
Qed.
Lemma jmember_view : forall x y, member_ok x -> member_ok y -> jmember x = jmember y -> without_raw x = without_raw y.
Proof.
  intros x y X Y H. unfold member_ok, jmember, without_raw, gmember in *. split_all. open_obj. back.
  match goal with H : match ?a with _ => _ end = match ?b with _ => _ end |- _ => assert (E : a = b) end.
  { match goal with H : match ?a with _ => _ end = match ?b with _ => _ end |- _ => destruct a, b; try reflexivity; try discriminate end.
    f_equal. apply jassignment_inj; auto. }
  now subst.
Qed.
Lemma jgroup_inj : forall x y : bytes * (bytes * (bytes * (bytes * taggedFields))),
  (let '(id, (pt, (st, (ty, tags)))) := x in text id /\ text pt /\ text st /\ text ty /\ tags_ok tags) ->
  (let '(id, (pt, (st, (ty, tags)))) := y in text id /\ text pt /\ text st /\ text ty /\ tags_ok tags) ->
  jgroup x = jgroup y -> x = y.
Proof.
  intros (a & b & c & d & t) (a' & b' & c' & d' & t') X Y H. unfold jgroup in H. split_all.
  cbn [app] in H. repeat (apply jobj_cons in H as [? H]). back.
  assert (t = t').
  { destruct t, t'; try reflexivity; try discriminate. apply jobj_cons in H as [H _]. now apply jtags_inj. }
  now subst.
Qed.
Ltac deep := intros; cbv beta in *; unfold nopart in *; split_all; open_obj; back; try (subst; reflexivity).
Lemma some_inj : forall (a b : json), Some a = Some b -> a = b.
Proof. congruence. Qed.
(** What is printed determines what is seen. *)
Theorem shown_seen : forall r r', alike r r' -> readable r -> readable r' -> shown r = shown r' -> seen r = seen r'.
Proof.
  intros r r' K R R' H. destruct r; destruct r'; try (now destruct K); clear K; cbn [readable] in R, R';
    unfold shown in H; apply some_inj in H; cbn [seen]; try (deep; deep; deep; deep; fail).
  - (* list groups *) f_equal. exact (joarr_inj _ jgroup jgroup_inj _ _ R R' H).
  - (* describe groups *) f_equal. refine (jarr_view _ _ _ _ _ _ R R' H). clear H R R'.
    intros x y X Y H. cbv beta in *. split_all. apply jobj_cons in H as [? H]. apply jobj_cons in H as [? H].
    apply jobj_cons in H as [? H]. apply jobj_cons in H as [? H]. apply jobj_cons in H as [? H]. apply jobj_cons in H as [E H].
    match goal with A : Forall member_ok _, B : Forall member_ok _ |- _ => pose proof (jarr_view _ jmember without_raw jmember_view _ _ A B E) as V end.
    clear E H. back. subst. now rewrite V.
Qed.
Lemma message_seen : forall m m', message_readable m -> message_readable m' -> shown_message m = shown_message m' -> m = m'.
Proof.
  intros [o g a t k v h] [o' g' a' t' k' v' h'] (A1 & A2 & A3 & A4) (B1 & B2 & B3 & B4) H.
  unfold shown_message in H. cbn [m_offset m_magic m_attr m_ts m_key m_value m_headers] in *. flds H.
  back. subst g'. repeat match goal with E : jobytes _ = jobytes _ |- _ => apply jobytes_inj in E; [|assumption|assumption] end.
  assert (h = h').
  { destruct (g <? 2) eqn:G; [rewrite A4, B4 by lia; reflexivity|]. back; [assumption|]. deep. }
  now subst.
Qed.
