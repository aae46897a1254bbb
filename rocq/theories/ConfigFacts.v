(** Facts about configurations. *)
From Verif Require Import Base BaseFacts BuildersFacts Config ConfigSpec.

Lemma set_cell_same : forall h i v, (i < length h)%nat -> nth i (set_cell h i v) [] = v.
Proof. induction h as [|x h IH]; intros [|i] v H; cbn in *; try lia; [reflexivity|]. apply IH. lia. Qed.
Lemma set_cell_other : forall h i j v, i <> j -> nth j (set_cell h i v) [] = nth j h [].
Proof. induction h as [|x h IH]; intros [|i] [|j] v H; cbn; try reflexivity; try congruence. apply IH. congruence. Qed.
Lemma set_cell_length : forall h i v, length (set_cell h i v) = length h.
Proof. induction h as [|x h IH]; intros [|i] v; cbn; auto. Qed.
Lemma set_nth_length : forall i v l, length (set_nth i v l) = length l.
Proof. induction i as [|i IH]; intros v [|x l]; cbn; auto. Qed.
Lemma set_nth_nth : forall i v l j, nth j (set_nth i v l) 0 = if (Nat.eqb i j && Nat.ltb i (length l))%bool then v else nth j l 0.
Proof.
  induction i as [|i IH]; intros v [|x l] j; cbn.
  - rewrite andb_false_r. reflexivity.
  - destruct j; reflexivity.
  - rewrite andb_false_r. reflexivity.
  - destruct j; [reflexivity|]. rewrite IH. reflexivity.
Qed.

(** the handle of a slice is allocated *)
Definition alloc (h : heap) (s : option nat) : Prop := match s with Some i => (i < length h)%nat | None => True end.

(** what reset does *)
Definition filled (c : cconf) (n : nat) : list Z :=
  set_nth 1 (sint 64 (cc_timeout c + cc_fetchwait c))
    (set_nth 8 (Z.quot (cc_session c) 2)
       (set_nth 11 (sint 64 (cc_session c + 5000)) (repeat (cc_timeout c) n))).

Lemma map_const : forall {A} (x : Z) (l : list A), map (fun _ => x) l = repeat x (length l).
Proof. induction l; cbn; congruence. Qed.

Lemma reset_spec : forall h c, alloc h (cc_api c) ->
  match reset h c with
  | Ok (h', c') =>
      exists i, cc_api c' = Some i /\ c' = with_api c (Some i) /\ (i < length h')%nat /\
        (length h <= length h')%nat /\
        (cell h (cc_api c) = [] -> i = length h) /\
        (cell h (cc_api c) <> [] -> cc_api c = Some i) /\
        (exists n, (11 < n)%nat /\ nth i h' [] = filled c n /\ (cell h (cc_api c) <> [] -> n = length (cell h (cc_api c)))) /\
        (forall j, (j < length h)%nat -> j <> i -> nth j h' [] = nth j h [])
  | Panic => cell h (cc_api c) <> [] /\ (length (cell h (cc_api c)) <= 11)%nat
  | _ => False
  end.
Proof.
  intros h c A. unfold reset. destruct (cell h (cc_api c)) as [|x l0] eqn:E.
  - assert (L68 : length (repeat 0 68) = 68%nat) by reflexivity.
    set (new := repeat 0 68) in *.
    assert (EN : nth (length h) (h ++ [new]) [] = new) by (rewrite app_nth2, Nat.sub_diag by lia; reflexivity).
    cbn [fst snd cc_api with_api cell]. rewrite EN, map_length, L68, map_const, L68.
    change (Nat.leb 68 11) with false. cbv iota.
    assert (LH : (length h < length (h ++ [new]))%nat) by (rewrite app_length; cbn; lia).
    exists (length h). split; [reflexivity|]. split; [reflexivity|]. rewrite set_cell_length. split; [exact LH|].
    split; [rewrite app_length; lia|]. split; [auto|]. split; [congruence|]. split.
    + exists 68%nat. split; [lia|]. split; [apply set_cell_same; exact LH|congruence].
    + intros j Hj Nj. rewrite set_cell_other by congruence. apply app_nth1. exact Hj.
  - cbn [fst snd]. rewrite E. rewrite map_length. destruct (Nat.leb (length (x :: l0)) 11) eqn:EL.
    + split; [congruence|]. apply Nat.leb_le in EL. exact EL.
    + apply Nat.leb_gt in EL. destruct (cc_api c) as [i|] eqn:EA; [|discriminate].
      cbn in A. exists i. split; [exact EA|].
      split; [destruct c; cbn in *; rewrite EA; reflexivity|]. rewrite set_cell_length.
      split; [exact A|]. split; [lia|]. split; [congruence|]. split; [auto|]. split.
      * exists (length (x :: l0)). split; [exact EL|]. split; [|auto].
        rewrite set_cell_same by exact A. rewrite map_const. reflexivity.
      * intros j Hj Nj. apply set_cell_other. congruence.
Qed.

Lemma filled_nth : forall c n api, (11 < n)%nat -> sane c -> (api < n)%nat ->
  length (filled c n) = n /\ nth api (filled c n) 0 = wanted_timeout c api.
Proof.
  intros c n api Hn [HT [HS HW]] HA.
  assert (L : length (filled c n) = n) by (unfold filled; rewrite !set_nth_length, repeat_length; reflexivity).
  split; [exact L|]. unfold filled. rewrite !set_nth_nth, !set_nth_length, repeat_length.
  assert (Nat.ltb 1 n = true) by (apply Nat.ltb_lt; lia).
  assert (Nat.ltb 8 n = true) by (apply Nat.ltb_lt; lia).
  assert (Nat.ltb 11 n = true) by (apply Nat.ltb_lt; lia).
  rewrite H, H0, H1, !andb_true_r.
  assert (S64 : forall x, 0 <= x < 2 ^ 63 -> sint 64 x = x).
  { intros x Hx. unfold sint. rewrite Z.mod_small by lia. change (64 - 1) with 63. destruct (x <? 2 ^ 63) eqn:Q; lia. }
  assert (R : nth api (repeat (cc_timeout c) n) 0 = cc_timeout c).
  { apply (repeat_spec n (cc_timeout c)). apply nth_In. rewrite repeat_length. exact HA. }
  destruct (Nat.eq_dec api 1) as [->|N1]; [cbn; apply S64; lia|].
  destruct (Nat.eq_dec api 8) as [->|N8]; [cbn -[Z.quot Z.div]; rewrite Z.quot_div_nonneg by lia; reflexivity|].
  destruct (Nat.eq_dec api 11) as [->|N11]; [cbn; apply S64; lia|].
  rewrite (proj2 (Nat.eqb_neq 1 api)), (proj2 (Nat.eqb_neq 8 api)), (proj2 (Nat.eqb_neq 11 api)) by congruence.
  rewrite R. unfold wanted_timeout.
  do 12 (destruct api as [|api]; [first [reflexivity|congruence]|]). reflexivity.
Qed.

(** ** Histories of creations *)
Definition cst_ok (s : cst) : Prop := alloc (cs_heap s) (cc_api (cs_def s)) /\ cc_api (cs_def s) <> None /\
  (11 < length (cell (cs_heap s) (cc_api (cs_def s))))%nat.
Definition input_ok (s : cst) (i : cinput) : Prop :=
  match i with IConf c => alloc (cs_heap s) (cc_api c) | _ => True end.

Definition the_input (s : cst) (i : cinput) : cconf :=
  match i with
  | INil => cs_def s
  | IMap m => if mp_ok m then snd (decode (cs_heap s) (cs_def s) m) else cs_def s
  | IConf c => c
  | IOther => zero_conf
  end.

Lemma decode_spec : forall h c m, alloc h (cc_api c) -> cc_api c <> None ->
  let h' := fst (decode h c m) in let c' := snd (decode h c m) in
  alloc h' (cc_api c) /\ alloc h' (cc_api c') /\ (length h <= length h')%nat /\
  (forall j, (j < length h)%nat -> Some j <> cc_api c -> nth j h' [] = nth j h []) /\
  length (cell h' (cc_api c)) = length (cell h (cc_api c)) /\
  (cc_api c' = cc_api c \/ (cc_api c' = Some (length h) /\ (length (cell h (cc_api c)) < length (cell h' (cc_api c')))%nat)).
Proof.
  intros h c m A NN. unfold decode. destruct (mp_api m) as [l|].
  - destruct (cc_api c) as [i|] eqn:EA; [|congruence]. cbn [alloc cell] in *.
    destruct (Nat.leb (length l) (length (nth i h []))) eqn:EL; cbn [fst snd cc_api with_api alloc].
    + apply Nat.leb_le in EL. rewrite set_cell_length. repeat split; auto.
      * intros j Hj Nj. apply set_cell_other. congruence.
      * rewrite set_cell_same by exact A. rewrite app_length, skipn_length. lia.
    + apply Nat.leb_gt in EL. rewrite app_length. cbn [length]. repeat split; try lia.
      * intros j Hj Nj. apply app_nth1. exact Hj.
      * rewrite app_nth1 by exact A. reflexivity.
      * right. split; auto. cbn. rewrite app_nth2, Nat.sub_diag by lia. exact EL.
  - cbn [fst snd cc_api with_api]. repeat split; auto.
Qed.

(** the heart: one creation *)
Lemma create_spec : forall s i, cst_ok s -> input_ok s i ->
  match createConsumerConfig s i with
  | Ok (s', (c, ok)) =>
      cst_ok s' /\ cs_def s' = cs_def s /\ (length (cs_heap s) <= length (cs_heap s'))%nat /\
      exists k n, cc_api c = Some k /\ (k < length (cs_heap s'))%nat /\ (11 < n)%nat /\
        nth k (cs_heap s') [] = filled c n /\
        c = with_api (the_input s i) (Some k) /\
        (forall j, (j < length (cs_heap s))%nat -> j <> k -> (forall m, i = IMap m -> Some j <> cc_api (cs_def s)) ->
                   nth j (cs_heap s') [] = nth j (cs_heap s) []) /\
        (cell (cs_heap s) (cc_api (the_input s i)) = [] -> (length (cs_heap s) <= k)%nat) /\
        (cc_api (cs_def s) = Some k \/ (length (cs_heap s) <= k)%nat \/ exists x, i = IConf x /\ cc_api x = Some k)
  | Panic => exists c, i = IConf c /\ cell (cs_heap s) (cc_api c) <> [] /\ (length (cell (cs_heap s) (cc_api c)) <= 11)%nat
  | _ => False
  end.
Proof.
  intros s i [A [NN L11]] IO. destruct i as [|m|c|]; unfold createConsumerConfig; cbn [fst snd the_input input_ok] in *.
  - pose proof (reset_spec (cs_heap s) (cs_def s) A) as X. destruct (reset (cs_heap s) (cs_def s)) as [[h c]|e| |]; try contradiction.
    + destruct X as [k [X1 [X2 [X3 [X4 [X5 [X6 [[n [X7 [X8 X9]]] X10]]]]]]]].
      assert (NE : cell (cs_heap s) (cc_api (cs_def s)) <> []) by (destruct (cell (cs_heap s) (cc_api (cs_def s))); [cbn in L11; lia|congruence]).
      assert (L : length (filled (cs_def s) n) = n) by (unfold filled; rewrite !set_nth_length, repeat_length; reflexivity).
      assert (FC : filled c n = filled (cs_def s) n) by (rewrite X2; reflexivity).
      split; [split; [|split]|].
      * cbn. rewrite (X6 NE). cbn. exact X3.
      * cbn. exact NN.
      * cbn [cs_heap cs_def]. rewrite (X6 NE). cbn [cell]. rewrite X8, L. exact X7.
      * split; [reflexivity|]. split; [exact X4|]. exists k, n. rewrite FC.
        repeat split; auto.
        -- intros E. rewrite (X5 E). lia.
    + exfalso. destruct X as [_ X]. lia.
  - pose proof (decode_spec (cs_heap s) (cs_def s) m A NN) as D. cbn zeta in D.
    destruct (decode (cs_heap s) (cs_def s) m) as [h1 c1]. cbn [fst snd] in *.
    destruct D as [D1 [D2 [D3 [D4 [D5 D6]]]]].
    set (ci := if mp_ok m then c1 else cs_def s).
    assert (EP : (if mp_ok m then (h1, (c1, true)) else (h1, (cs_def s, false))) = (h1, (ci, mp_ok m))) by (subst ci; destruct (mp_ok m); reflexivity).
    rewrite EP. cbn [fst snd]. clear EP.
    assert (AI : alloc h1 (cc_api ci)) by (subst ci; destruct (mp_ok m); auto).
    assert (LI : (11 < length (cell h1 (cc_api ci)))%nat).
    { subst ci; destruct (mp_ok m); [|rewrite D5; exact L11]. destruct D6 as [D6|[D6 D7]]; [rewrite D6, D5; exact L11|lia]. }
    pose proof (reset_spec h1 ci AI) as X. destruct (reset h1 ci) as [[h c]|e| |]; try contradiction; [|exfalso; lia].
    destruct X as [k [X1 [X2 [X3 [X4 [X5 [X6 [[n [X7 [X8 X9]]] X10]]]]]]]].
    assert (NE : cell h1 (cc_api ci) <> []) by (destruct (cell h1 (cc_api ci)); [cbn in LI; lia|congruence]).
    assert (L : length (filled ci n) = n) by (unfold filled; rewrite !set_nth_length, repeat_length; reflexivity).
    assert (FC : filled c n = filled ci n) by (rewrite X2; reflexivity).
    split; [split; [|split]|].
    + cbn. destruct (cc_api (cs_def s)); cbn in *; lia.
    + exact NN.
    + cbn [cs_heap cs_def]. destruct (cc_api (cs_def s)) as [d|] eqn:ED; [|congruence]. cbn [cell alloc] in *.
      destruct (Nat.eq_dec d k) as [->|NK]; [rewrite X8, L; exact X7|]. rewrite X10 by auto. rewrite D5. exact L11.
    + split; [reflexivity|]. split; [cbn; lia|]. exists k, n. rewrite FC. cbn [cs_heap].
      split; [auto|]. split; [auto|]. split; [auto|]. split; [exact X8|]. split; [exact X2|]. split; [|split].
      * intros j Hj Nj Nm. rewrite X10 by (auto; lia). apply D4; auto. apply (Nm m eq_refl).
      * intro E. subst ci. destruct (mp_ok m).
        -- destruct D6 as [D6|[D6 D7]].
           ++ exfalso. rewrite D6 in E. rewrite E in L11. cbn in L11. lia.
           ++ specialize (X6 NE). rewrite D6 in X6. injection X6 as <-. lia.
        -- exfalso. rewrite E in L11. cbn in L11. lia.
      * specialize (X6 NE). subst ci. destruct (mp_ok m); [|auto].
        destruct D6 as [D6|[D6 D7]]; [left; congruence|]. right. left. rewrite D6 in X6. injection X6 as <-. lia.
  - pose proof (reset_spec (cs_heap s) c IO) as X. destruct (reset (cs_heap s) c) as [[h c']|e| |]; try contradiction.
    + destruct X as [k [X1 [X2 [X3 [X4 [X5 [X6 [[n [X7 [X8 X9]]] X10]]]]]]]].
      assert (L : length (filled c n) = n) by (unfold filled; rewrite !set_nth_length, repeat_length; reflexivity).
      assert (FC : filled c' n = filled c n) by (rewrite X2; reflexivity).
      split; [split; [|split]|].
      * cbn. destruct (cc_api (cs_def s)); cbn in *; lia.
      * exact NN.
      * cbn [cs_heap cs_def]. destruct (cc_api (cs_def s)) as [d|] eqn:ED; [|congruence]. cbn [cell alloc] in *.
        destruct (Nat.eq_dec d k) as [->|NK]; [rewrite X8, L; exact X7|]. rewrite X10 by auto. exact L11.
      * split; [reflexivity|]. split; [exact X4|]. exists k, n. rewrite FC. cbn [cs_heap].
        split; [auto|]. split; [auto|]. split; [auto|]. split; [exact X8|]. split; [exact X2|]. split; [|split].
        -- intros j Hj Nj _. auto.
        -- intro E. rewrite (X5 E). lia.
        -- destruct (list_eq_dec Z.eq_dec (cell (cs_heap s) (cc_api c)) []) as [E|E]; [rewrite (X5 E); auto|].
           right. right. exists c. auto.
    + exists c. auto.
  - pose proof (reset_spec (cs_heap s) zero_conf I) as X. destruct (reset (cs_heap s) zero_conf) as [[h c']|e| |]; try contradiction.
    + destruct X as [k [X1 [X2 [X3 [X4 [X5 [X6 [[n [X7 [X8 X9]]] X10]]]]]]]]. specialize (X5 eq_refl).
      assert (FC : filled c' n = filled zero_conf n) by (rewrite X2; reflexivity).
      split; [split; [|split]|].
      * cbn. destruct (cc_api (cs_def s)); cbn in *; lia.
      * exact NN.
      * cbn [cs_heap cs_def]. destruct (cc_api (cs_def s)) as [d|] eqn:ED; [|congruence]. cbn [cell alloc] in *.
        rewrite X10 by lia. exact L11.
      * split; [reflexivity|]. split; [exact X4|]. exists k, n. rewrite FC. cbn [cs_heap].
        split; [auto|]. split; [auto|]. split; [auto|]. split; [exact X8|]. split; [exact X2|]. split; [|split].
        -- intros j Hj Nj _. auto.
        -- intro E. lia.
        -- right. left. lia.
    + exfalso. destruct X as [X _]. apply X. reflexivity.
Qed.

(** a run of creations, as long as none panics *)
Fixpoint creates (s : cst) (l : list cinput) : option cst :=
  match l with
  | [] => Some s
  | i :: l' => match createConsumerConfig s i with Ok (s', _) => creates s' l' | _ => None end
  end.
Fixpoint inputs_ok (s : cst) (l : list cinput) : Prop :=
  match l with
  | [] => True
  | i :: l' => input_ok s i /\ match createConsumerConfig s i with Ok (s', _) => inputs_ok s' l' | _ => True end
  end.
(** nobody passes this slice again *)
Definition not_passed (k : nat) (i : cinput) : Prop :=
  match i with IConf c => cc_api c <> Some k | _ => True end.

Lemma request_timeout_cell : forall h h' c api, cell h' (cc_api c) = cell h (cc_api c) ->
  request_timeout h' c api = request_timeout h c api.
Proof. intros h h' c api E. unfold request_timeout. rewrite E. reflexivity. Qed.

Lemma creates_keep : forall l s k s', cst_ok s -> inputs_ok s l -> creates s l = Some s' ->
  (k < length (cs_heap s))%nat -> cc_api (cs_def s) <> Some k -> Forall (not_passed k) l ->
  nth k (cs_heap s') [] = nth k (cs_heap s) [].
Proof.
  induction l as [|i l IH]; intros s k s' OK IO C Hk Nk F; cbn [creates inputs_ok] in *.
  - injection C as <-. reflexivity.
  - inversion F; subst. destruct IO as [I1 I2]. pose proof (create_spec s i OK I1) as X.
    destruct (createConsumerConfig s i) as [[s1 [c ok]]| | |]; try discriminate.
    destruct X as [X1 [X2 [X3 [k' [n [Y1 [Y2 [Y3 [Y4 [Y5 [Y6 [Y7 Y8]]]]]]]]]]]].
    rewrite (IH s1 k s' X1 I2 C); [|lia|congruence|assumption].
    apply Y6; auto.
    + intros ->. destruct Y8 as [Y8|[Y8|[x [-> Y8]]]]; [congruence|lia|]. apply H1. exact Y8.
Qed.

Lemma init_ok : exists s, init_cst = Ok s /\ cst_ok s.
Proof. eexists. split; [reflexivity|]. vm_compute. split; [|split]; [lia|discriminate|lia]. Qed.

(** timeouts after a creation *)
Lemma create_timeouts : forall s i s' c ok api, cst_ok s -> input_ok s i -> sane (the_input s i) ->
  createConsumerConfig s i = Ok (s', (c, ok)) ->
  request_timeout (cs_heap s') c api = wanted_timeout (the_input s i) api.
Proof.
  intros s i s' c ok api OK IO SN E. pose proof (create_spec s i OK IO) as X. rewrite E in X.
  destruct X as [X1 [X2 [X3 [k [n [Y1 [Y2 [Y3 [Y4 [Y5 _]]]]]]]]]].
  assert (SC : sane c) by (rewrite Y5; exact SN).
  assert (W : wanted_timeout c api = wanted_timeout (the_input s i) api) by (rewrite Y5; reflexivity).
  unfold request_timeout. rewrite Y1. cbn [cell]. rewrite Y4. rewrite <- W.
  assert (L : length (filled c n) = n) by (unfold filled; rewrite !set_nth_length, repeat_length; reflexivity).
  rewrite L. destruct (Nat.ltb api n) eqn:EA.
  - apply Nat.ltb_lt in EA. destruct (filled_nth c n api Y3 SC EA) as [_ ->].
    assert (0 < wanted_timeout c api).
    { destruct SC as [A1 [A2 A3]]. unfold wanted_timeout. do 12 (destruct api as [|api]; [lia|]). lia. }
    destruct (wanted_timeout c api >? 0) eqn:G; lia.
  - apply Nat.ltb_ge in EA. unfold wanted_timeout. do 12 (destruct api as [|api]; [lia|]). reflexivity.
Qed.

Lemma create_after : forall s i s1 c l s2 ok api,
  cst_ok s -> input_ok s i -> cell (cs_heap s) (cc_api (the_input s i)) = [] ->
  createConsumerConfig s i = Ok (s1, (c, ok)) ->
  inputs_ok s1 l -> creates s1 l = Some s2 -> Forall (fun j => forall x, j = IConf x -> cc_api x <> cc_api c) l ->
  request_timeout (cs_heap s2) c api = request_timeout (cs_heap s1) c api.
Proof.
  intros s i s1 c l s2 ok api OK IO EM E IL C F. pose proof (create_spec s i OK IO) as X. rewrite E in X.
  destruct X as [X1 [X2 [X3 [k [n [Y1 [Y2 [Y3 [Y4 [Y5 [Y6 [Y7 Y8]]]]]]]]]]]].
  apply request_timeout_cell. rewrite Y1. cbn [cell]. apply (creates_keep l s1 k s2); auto.
  - rewrite X2. specialize (Y7 EM). destruct OK as [A _]. destruct (cc_api (cs_def s)) as [d|]; [|discriminate].
    cbn in A. intro H. injection H as ->. lia.
  - rewrite Forall_forall in *. intros j Hj. destruct j as [|m|x|]; cbn; auto. rewrite <- Y1. apply (F _ Hj x eq_refl).
Qed.

Definition ex_st : cst := match init_cst with Ok s => s | _ => mkCS [] zero_conf end.
Definition ex_create (s : cst) (i : cinput) : cst * cconf :=
  match createConsumerConfig s i with Ok (s', (c, _)) => (s', c) | _ => (s, zero_conf) end.
Definition ex_map : cinput :=
  IMap (mkMap (fun c => mkCC 1000 (cc_session c) (cc_fetchwait c) (cc_api c) (cc_boot c) (cc_group c) (cc_storage c)) None true).
Lemma share_refuted : exists s i1 s1 c1 i2 s2 c2,
  init_cst = Ok s /\
  createConsumerConfig s i1 = Ok (s1, (c1, true)) /\
  createConsumerConfig s1 i2 = Ok (s2, (c2, true)) /\
  request_timeout (cs_heap s1) c1 0 = 30000 /\
  request_timeout (cs_heap s2) c1 0 = 1000.
Proof.
  exists ex_st, INil, (fst (ex_create ex_st INil)), (snd (ex_create ex_st INil)), ex_map,
    (fst (ex_create (fst (ex_create ex_st INil)) ex_map)), (snd (ex_create (fst (ex_create ex_st INil)) ex_map)).
  split; [vm_compute; reflexivity|]. split; [vm_compute; reflexivity|]. split; [vm_compute; reflexivity|].
  split; vm_compute; reflexivity.
Qed.
(** two ConsumerConfig values of which one is a modified copy of the other *)
Definition ex_st2 : cst := mkCS [repeat 0 68; repeat 77 68] (mkCC 30000 30000 500 (Some 0%nat) [] [] 1).
Definition ex_c : cconf := mkCC 30000 30000 500 (Some 1%nat) [] [] 1.
Definition ex_c' : cconf := mkCC 1000 30000 500 (Some 1%nat) [] [] 1.
Lemma share_copy_refuted : exists s c c' s1 c1 s2 c2,
  cst_ok s /\ cc_api c' = cc_api c /\
  createConsumerConfig s (IConf c) = Ok (s1, (c1, true)) /\
  createConsumerConfig s1 (IConf c') = Ok (s2, (c2, true)) /\
  request_timeout (cs_heap s1) c1 0 = 30000 /\
  request_timeout (cs_heap s2) c1 0 = 1000.
Proof.
  exists ex_st2, ex_c, ex_c', (fst (ex_create ex_st2 (IConf ex_c))), (snd (ex_create ex_st2 (IConf ex_c))),
    (fst (ex_create (fst (ex_create ex_st2 (IConf ex_c))) (IConf ex_c'))), (snd (ex_create (fst (ex_create ex_st2 (IConf ex_c))) (IConf ex_c'))).
  split; [vm_compute; split; [lia|split; [discriminate|lia]]|]. split; [reflexivity|].
  split; [vm_compute; reflexivity|]. split; [vm_compute; reflexivity|]. split; vm_compute; reflexivity.
Qed.

Lemma perapi_refuted : exists s c s1 c1,
  cst_ok s /\ input_ok s (IConf c) /\
  nth 3 (cell (cs_heap s) (cc_api c)) 0 = 77 /\
  createConsumerConfig s (IConf c) = Ok (s1, (c1, true)) /\
  request_timeout (cs_heap s1) c1 3 = 30000.
Proof.
  exists ex_st2, ex_c, (fst (ex_create ex_st2 (IConf ex_c))), (snd (ex_create ex_st2 (IConf ex_c))).
  split; [vm_compute; split; [lia|split; [discriminate|lia]]|]. split; [vm_compute; lia|].
  split; [vm_compute; reflexivity|]. split; vm_compute; reflexivity.
Qed.
Lemma perapi_panic_refuted : exists s c,
  cst_ok s /\ input_ok s (IConf c) /\ cell (cs_heap s) (cc_api c) = [5000; 5000] /\
  createConsumerConfig s (IConf c) = Panic.
Proof.
  exists (mkCS [repeat 0 68; [5000; 5000]] (mkCC 30000 30000 500 (Some 0%nat) [] [] 1)), ex_c.
  split; [vm_compute; split; [lia|split; [discriminate|lia]]|]. split; [vm_compute; lia|].
  split; vm_compute; reflexivity.
Qed.

(** ** Validity *)
Lemma consumer_valid : forall c,
  (consumer_checkValid c = None <-> forall e, ~ consumer_violates c e) /\
  (forall e, consumer_checkValid c = Some e -> consumer_violates c e).
Proof.
  intro c. assert (X : forall e, consumer_checkValid c = Some e -> consumer_violates c e).
  { unfold consumer_checkValid. intro e. destruct (cc_boot c) eqn:EB; [intro H; injection H as <-; exact EB|].
    destruct (cc_group c) eqn:EG; [intro H; injection H as <-; exact EG|].
    destruct (_ && _) eqn:ES; [|discriminate]. intro H. injection H as <-. cbn. lia. }
  split; [|exact X]. split.
  - unfold consumer_checkValid. destruct (cc_boot c) eqn:EB; [discriminate|].
    destruct (cc_group c) eqn:EG; [discriminate|]. destruct (_ && _) eqn:ES; [discriminate|].
    intros _ [| | | | |]; cbn; try congruence; lia || auto.
  - intro H. destruct (consumer_checkValid c) as [e|] eqn:E; [|reflexivity]. exfalso. exact (H e (X e eq_refl)).
Qed.

Lemma producer_valid : forall c,
  (producer_checkValid c = None <-> forall e, ~ producer_violates c e) /\
  (forall e, producer_checkValid c = Some e -> producer_violates c e).
Proof.
  intro c.
  assert (K : known_compression (pc_comp c) <->
      (beqb (pc_comp c) c_none || beqb (pc_comp c) c_gzip || beqb (pc_comp c) c_snappy || beqb (pc_comp c) c_lz4)%bool = true).
  { unfold known_compression. fold c_none c_gzip c_snappy c_lz4. rewrite !orb_true_iff, !beqb_iff. cbn [In]. intuition congruence. }
  assert (X : forall e, producer_checkValid c = Some e -> producer_violates c e).
  { unfold producer_checkValid. intro e. destruct (pc_boot c) eqn:EB; [intro H; injection H as <-; exact EB|].
    destruct (pc_count c <=? 0) eqn:E1; [intro H; injection H as <-; cbn; lia|].
    destruct (pc_flush c <=? 0) eqn:E2; [intro H; injection H as <-; cbn; lia|].
    destruct (beqb (pc_comp c) c_none), (beqb (pc_comp c) c_gzip), (beqb (pc_comp c) c_snappy), (beqb (pc_comp c) c_lz4); try discriminate.
    intro H. injection H as <-. cbn. rewrite K. discriminate. }
  split; [|exact X]. split.
  - unfold producer_checkValid. destruct (pc_boot c) eqn:EB; [discriminate|].
    destruct (pc_count c <=? 0) eqn:E1; [discriminate|]. destruct (pc_flush c <=? 0) eqn:E2; [discriminate|].
    intros H [| | | | |]; cbn; try congruence; try lia; auto. rewrite K.
    destruct (beqb (pc_comp c) c_none), (beqb (pc_comp c) c_gzip), (beqb (pc_comp c) c_snappy), (beqb (pc_comp c) c_lz4); try discriminate; auto.
  - intro H. destruct (producer_checkValid c) as [e|] eqn:E; [|reflexivity]. exfalso. exact (H e (X e eq_refl)).
Qed.

(** a configuration given by value, or decoded from a map *)
Lemma producer_create : forall c,
  let r := createProducerConfig (PConf c) in
  (snd r = false <-> forall e, ~ producer_violates c e) /\
  pc_boot (fst r) = pc_boot c /\ pc_count (fst r) = pc_count c /\ pc_flush (fst r) = pc_flush c /\
  pc_comp (fst r) = pc_comp c /\ (2 <= pc_magic c -> fst r = c) /\ 2 <= pc_magic (fst r) /\
  forall dec, dec default_pconf = Some c -> createProducerConfig (PMap dec) = r.
Proof.
  intros c r. subst r. unfold createProducerConfig. destruct (producer_valid c) as [V _]. rewrite <- V.
  cbn [fst snd]. unfold fix_magic. split; [destruct (producer_checkValid c); split; congruence|].
  split; [destruct (pc_magic c <? 2); reflexivity|]. split; [destruct (pc_magic c <? 2); reflexivity|].
  split; [destruct (pc_magic c <? 2); reflexivity|]. split; [destruct (pc_magic c <? 2); reflexivity|].
  split; [intro H; destruct (pc_magic c <? 2) eqn:E; [lia|reflexivity]|].
  split; [destruct (pc_magic c <? 2) eqn:E; cbn; lia|].
  intros dec ->. reflexivity.
Qed.

Lemma producer_nil_refuted :
  snd (createProducerConfig PNil) = false /\ producer_violates (fst (createProducerConfig PNil)) CFBootstrap.
Proof. split; reflexivity. Qed.
Lemma producer_magic_refuted : exists c,
  snd (createProducerConfig (PConf c)) = false /\ pc_magic (fst (createProducerConfig (PConf c))) = 3.
Proof. exists (mkPC [97] 1 1 c_none 3). split; reflexivity. Qed.
