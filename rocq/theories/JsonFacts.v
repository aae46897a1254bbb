(** Lemmas about writing and reading JSON. *)
From Coq Require Import String.
From Verif Require Import Base Text TextFacts Http HttpSpec HttpApi Acl Responses Fetch Prims Group Utf8Spec JsonSpec JsonText Shown ShownSpec ShownFacts.

(** ** Strings *)
Lemma hexval_digit : forall d, 0 <= d < 16 -> hexval (hexdigit d) = Some d.
Proof.
  intros d H. unfold hexdigit, hexval, numeral. destruct (d <? 10) eqn:E.
  - replace ((48 <=? 48 + d) && (48 + d <=? 57)) with true by lia. f_equal. lia.
  - replace ((48 <=? 87 + d) && (87 + d <=? 57)) with false by lia.
    replace ((97 <=? 87 + d) && (87 + d <=? 102)) with true by lia. f_equal. lia.
Qed.
Lemma esc1_read : forall b x l r, byte_ok b -> read_string x = Some (l, r) -> read_string (esc1 b ++ x) = Some (b :: l, r).
Proof.
  intros b x l r B H. unfold byte_ok in B. unfold esc1.
  destruct ((b =? 34) || (b =? 92)) eqn:E0.
  { cbn [app read_string]. change (92 =? 34) with false. change (92 =? 92) with true. cbv iota.
    replace (b =? 117) with false by lia. unfold escaped. rewrite E0. cbn [orb]. rewrite H. reflexivity. }
  destruct (b =? 8) eqn:E1; [replace b with 8 by lia; cbn [app read_string]; cbn; now rewrite H|].
  destruct (b =? 12) eqn:E2; [replace b with 12 by lia; cbn [app read_string]; cbn; now rewrite H|].
  destruct (b =? 10) eqn:E3; [replace b with 10 by lia; cbn [app read_string]; cbn; now rewrite H|].
  destruct (b =? 13) eqn:E4; [replace b with 13 by lia; cbn [app read_string]; cbn; now rewrite H|].
  destruct (b =? 9) eqn:E5; [replace b with 9 by lia; cbn [app read_string]; cbn; now rewrite H|].
  destruct ((b <? 32) || (b =? 60) || (b =? 62) || (b =? 38)) eqn:E6.
  { cbn [app read_string]. change (92 =? 34) with false. change (92 =? 92) with true. change (117 =? 117) with true. cbv iota.
    assert (X : hex4 48 48 (hexdigit (b / 16)) (hexdigit (b mod 16)) = Some b).
    { unfold hex4. rewrite !hexval_digit.
      - change (hexval 48) with (Some 0). cbv iota beta. apply f_equal. pose proof (Z.div_mod b 16 ltac:(lia)). lia.
      - apply Z.mod_pos_bound. lia.
      - split; [apply Z.div_pos; lia|apply Z.div_lt_upper_bound; lia]. }
    rewrite X, H. replace ((55296 <=? b) && (b <? 57344)) with false by lia. unfold rune. replace (b <? 128) with true by lia. reflexivity. }
  cbn [app read_string]. replace (b =? 34) with false by lia. replace (b =? 92) with false by lia. replace (b <? 32) with false by lia.
  now rewrite H.
Qed.
Lemma esc_read : forall n s r, (List.length s <= n)%nat -> Forall byte_ok s -> read_string (esc s ++ 34 :: r) = Some (s, r).
Proof.
  induction n as [|n IH]; intros s r L F.
  { destruct s; [reflexivity|cbn in L; lia]. }
  destruct s as [|b t]; [reflexivity|]. inversion F as [|? ? B F']; subst. cbn [List.length] in L.
  assert (P : read_string (esc1 b ++ esc t ++ 34 :: r) = Some (b :: t, r)).
  { apply esc1_read; [exact B|]. apply IH; [lia|exact F']. }
  rewrite app_assoc in P. destruct t as [|c [|d u]]; [exact P|exact P|].
  change (esc (b :: c :: d :: u)) with
    (if (b =? 226) && (c =? 128) && ((d =? 168) || (d =? 169)) then [92; 117; 50; 48; 50; hexdigit (d mod 16)] ++ esc u
     else esc1 b ++ esc (c :: d :: u)).
  destruct ((b =? 226) && (c =? 128) && ((d =? 168) || (d =? 169))) eqn:E; [|exact P].
  inversion F' as [|? ? _ F1]; subst. inversion F1 as [|? ? _ F2]; subst.
  assert (R : read_string (esc u ++ 34 :: r) = Some (u, r)) by (apply IH; [cbn [List.length] in L; lia|exact F2]).
  rewrite <- app_assoc. replace b with 226 by lia. replace c with 128 by lia.
  assert (d = 168 \/ d = 169) as [-> | ->] by lia; cbn [app read_string]; cbn [Z.eqb Pos.eqb]; rewrite R; reflexivity.
Qed.
Lemma quote_read : forall s r, Forall byte_ok s -> read_string (esc s ++ 34 :: r) = Some (s, r).
Proof. intros s r. exact (esc_read (List.length s) s r (le_n _)). Qed.

(** ** Numbers *)
Definition stops (r : bytes) : Prop := match r with [] => True | c :: _ => numeral c = false end.
Lemma digits_read : forall l acc v r, digits l acc = Some v -> stops r -> read_digits (l ++ r) acc = (v, r).
Proof.
  induction l as [|c l IH]; intros acc v r H S.
  - injection H as <-. destruct r as [|c r]; [reflexivity|]. cbn [app read_digits]. cbn [stops] in S. now rewrite S.
  - cbn [digits] in H. cbn [app read_digits]. unfold is_digit in H. unfold numeral at 1. destruct ((48 <=? c) && (c <=? 57)); [|discriminate].
    now apply IH.
Qed.
Lemma udec_read : forall z r, 0 <= z -> stops r -> read_natural (udec (S (Z.to_nat (Z.log2 z))) z [] ++ r) = Some (z, r) /\
  exists c t, udec (S (Z.to_nat (Z.log2 z))) z [] = c :: t /\ numeral c = true.
Proof.
  intros z r Z0 S. set (f := Datatypes.S (Z.to_nat (Z.log2 z))).
  assert (B : z < 10 ^ Z.of_nat f).
  { unfold f. rewrite Nat2Z.inj_succ, Z2Nat.id by apply Z.log2_nonneg.
    destruct (Z.eq_dec z 0) as [->|]; [reflexivity|]. pose proof (Z.log2_spec z ltac:(lia)) as [_ U].
    eapply Z.lt_le_trans; [exact U|]. apply Z.pow_le_mono_l. lia. }
  destruct (udec_digits f z ltac:(lia) ltac:(unfold f; lia)) as (D & F & N).
  destruct (udec f z []) as [|c t] eqn:E; [congruence|]. inversion F as [|? ? C F']; subst.
  assert (C' : numeral c = true) by exact C. split; [|exists c, t; split; [reflexivity|exact C']].
  cbn [app read_natural]. rewrite C'. f_equal. exact (digits_read (c :: t) 0 z r D S).
Qed.

(** ** Values *)
Fixpoint plain (j : json) : Prop :=
  match j with
  | JNum => False
  | JStr s => Forall byte_ok s
  | JArr l => (fix go (l : list json) : Prop := match l with [] => True | x :: t => plain x /\ go t end) l
  | JObj l => (fix go (l : list (bytes * json)) : Prop := match l with [] => True | (k, x) :: t => Forall byte_ok k /\ plain x /\ go t end) l
  | _ => True
  end.
Fixpoint need (j : json) : nat :=
  match j with
  | JArr l => S ((fix go (l : list json) : nat := match l with [] => 0 | x :: t => S (need x) + go t end)%nat l)
  | JObj l => S ((fix go (l : list (bytes * json)) : nat := match l with [] => 0 | (_, x) :: t => S (need x) + go t end)%nat l)
  | _ => 1%nat
  end.
Definition needs (l : list json) : nat := fold_right (fun x n => S (need x) + n)%nat 0%nat l.
Definition needm (l : list (bytes * json)) : nat := fold_right (fun p n => S (need (snd p)) + n)%nat 0%nat l.
Lemma need_arr : forall l, need (JArr l) = S (needs l).
Proof. intros l. cbn [need]. f_equal. Qed.
Lemma need_obj : forall l, need (JObj l) = S (needm l).
Proof. intros l. cbn [need]. f_equal. induction l as [|[k x] t IH]; [reflexivity|]. cbn [needm fold_right snd]. now rewrite IH. Qed.
Lemma plain_arr : forall l, plain (JArr l) <-> Forall plain l.
Proof.
  intros l. cbn [plain]. induction l as [|x t IH]; [split; constructor|]. rewrite IH.
  split; [intros [A B]; now constructor|intros H; now inversion H].
Qed.
Lemma plain_obj : forall l, plain (JObj l) <-> Forall (fun p => Forall byte_ok (fst p) /\ plain (snd p)) l.
Proof.
  intros l. cbn [plain]. induction l as [|[k x] t IH]; [split; constructor|]. rewrite IH.
  split; [intros (A & B & C); constructor; [now split|exact C]|intros H; inversion H as [|? ? [A B] C]; now repeat split].
Qed.
Definition tail_arr (ind : bool) (d : nat) : list json -> bytes :=
  fix go (l : list json) : bytes :=
    match l with
    | [] => newline ind d ++ [93]
    | x :: t => newline ind (S d) ++ write ind (S d) x ++ match t with [] => [] | _ => [44] end ++ go t
    end.
Definition tail_obj (ind : bool) (d : nat) : list (bytes * json) -> bytes :=
  fix go (l : list (bytes * json)) : bytes :=
    match l with
    | [] => newline ind d ++ [125]
    | (k, x) :: t => newline ind (S d) ++ quote k ++ 58 :: (if ind then [32] else []) ++ write ind (S d) x ++
                     match t with [] => [] | _ => [44] end ++ go t
    end.
Lemma write_arr : forall ind d x t, write ind d (JArr (x :: t)) = 91 :: tail_arr ind d (x :: t).
Proof. reflexivity. Qed.
Lemma write_obj : forall ind d x t, write ind d (JObj (x :: t)) = 123 :: tail_obj ind d (x :: t).
Proof. reflexivity. Qed.

Fixpoint json_rect2 (P : json -> Prop) (n : P JNull) (b : forall b, P (JBool b)) (i : forall z, P (JInt z)) (m : P JNum)
  (s : forall s, P (JStr s)) (a : forall l, Forall P l -> P (JArr l)) (o : forall l, Forall (fun p => P (snd p)) l -> P (JObj l)) (j : json) : P j :=
  match j with
  | JNull => n | JBool x => b x | JInt z => i z | JNum => m | JStr x => s x
  | JArr l => a l ((fix go l : Forall P l := match l with [] => Forall_nil _ | x :: t => Forall_cons x (json_rect2 P n b i m s a o x) (go t) end) l)
  | JObj l => o l ((fix go l : Forall (fun p => P (snd p)) l := match l with [] => Forall_nil _ | x :: t => Forall_cons x (json_rect2 P n b i m s a o (snd x)) (go t) end) l)
  end.

(** the first character of a value *)
Definition opens (c : Z) : Prop := blank c = false /\ c <> 93 /\ c <> 125 /\ c <> 44.
Lemma numeral_opens : forall c, numeral c = true -> opens c.
Proof. intros c H. unfold numeral in H. unfold opens, blank. repeat split; lia. Qed.
Lemma write_head : forall ind d j, plain j -> exists c t, write ind d j = c :: t /\ opens c.
Proof.
  intros ind d j P. assert (U : forall c, c = 110 \/ c = 116 \/ c = 102 \/ c = 34 \/ c = 91 \/ c = 123 \/ c = 45 -> opens c)
    by (intros c H; unfold opens, blank; repeat split; lia).
  destruct j as [|b|z| |s|l|l].
  - eexists _, _. split; [reflexivity|]. apply U. vm_compute. tauto.
  - destruct b; eexists _, _; (split; [reflexivity|]); apply U; vm_compute; tauto.
  - cbn [write]. unfold number. destruct (z <? 0) eqn:E.
    + eexists _, _. split; [reflexivity|]. apply U. vm_compute. tauto.
    + destruct (udec_read z [] ltac:(lia) Logic.I) as [_ (c & t & -> & C)]. exists c, t. split; [reflexivity|]. now apply numeral_opens.
  - destruct P.
  - eexists _, _. split; [reflexivity|]. apply U. vm_compute. tauto.
  - destruct l; eexists _, _; (split; [reflexivity|]); apply U; vm_compute; tauto.
  - destruct l; eexists _, _; (split; [reflexivity|]); apply U; vm_compute; tauto.
Qed.
Lemma skip_newline : forall ind d c t, blank c = false -> skip (newline ind d ++ c :: t) = c :: t.
Proof.
  intros ind d c t H. assert (S0 : skip (c :: t) = c :: t) by (cbn [skip]; now rewrite H).
  destruct ind; [|exact S0]. unfold newline. cbn [app skip]. change (blank 10) with true. cbv iota.
  induction (2 * d)%nat as [|n IH]; [exact S0|]. cbn [repeat app skip]. change (blank 32) with true. exact IH.
Qed.
Lemma skip_newline_any : forall ind d s, skip (newline ind d ++ s) = skip s.
Proof.
  intros ind d s. destruct ind; [|reflexivity]. unfold newline. cbn [app skip]. change (blank 10) with true. cbv iota.
  induction (2 * d)%nat as [|n IH]; [reflexivity|]. cbn [repeat app skip]. change (blank 32) with true. exact IH.
Qed.
Lemma read_value_skip : forall n s s', skip s = skip s' -> read_value n s = read_value n s'.
Proof. intros [|n] s s' H; [reflexivity|]. cbn [read_value]. now rewrite H. Qed.
Lemma stops_newline : forall ind d c t, numeral c = false -> stops (newline ind d ++ c :: t).
Proof. intros [] d c t H; [reflexivity|exact H]. Qed.
Lemma stops_tail_arr : forall ind d (t : list json) r, stops (match t with [] => [] | _ => [44] end ++ tail_arr ind d t ++ r).
Proof. intros ind d [|x t] r; [|reflexivity]. cbn [app tail_arr]. rewrite <- app_assoc. cbn [app]. now apply stops_newline. Qed.
Lemma stops_tail_obj : forall ind d (t : list (bytes * json)) r, stops (match t with [] => [] | _ => [44] end ++ tail_obj ind d t ++ r).
Proof. intros ind d [|x t] r; [|reflexivity]. cbn [app tail_obj]. rewrite <- app_assoc. cbn [app]. now apply stops_newline. Qed.

Definition good (ind : bool) (j : json) : Prop :=
  plain j -> forall d n r, (need j <= n)%nat -> stops r -> read_value n (write ind d j ++ r) = Some (j, r).
Lemma elements_read : forall ind d l, Forall (good ind) l -> Forall plain l -> l <> [] -> forall n r, (needs l <= n)%nat ->
  read_elements n (tail_arr ind d l ++ r) = Some (l, r).
Proof.
  intros ind d l G. induction G as [|x t Gx G IH]; intros P NE n r L; [congruence|]. inversion P as [|? ? Px Pt]; subst. clear NE.
  cbn [needs fold_right] in L. fold (needs t) in L. destruct n as [|n]; [lia|].
  cbn [tail_arr]. fold (tail_arr ind d). rewrite <- !app_assoc. cbn [read_elements].
  rewrite (read_value_skip n _ (write ind (S d) x ++ match t with [] => [] | _ => [44] end ++ tail_arr ind d t ++ r)) by apply skip_newline_any.
  rewrite (Gx Px (S d) n) by (lia || apply stops_tail_arr).
  destruct t as [|y t].
  - cbn [app tail_arr]. rewrite <- app_assoc. cbn [app]. rewrite skip_newline by reflexivity. reflexivity.
  - cbn [app skip]. change (blank 44) with false. cbv iota. change (44 =? 93) with false. change (44 =? 44) with true. cbv iota.
    rewrite IH; [reflexivity|exact Pt|discriminate|lia].
Qed.
Lemma members_read : forall ind d l, Forall (fun p => good ind (snd p)) l -> Forall (fun p => Forall byte_ok (fst p) /\ plain (snd p)) l ->
  l <> [] -> forall n r, (needm l <= n)%nat -> read_members n (tail_obj ind d l ++ r) = Some (l, r).
Proof.
  intros ind d l G. induction G as [|[k x] t Gx G IH]; intros P NE n r L; [congruence|]. inversion P as [|? ? [Pk Px] Pt]; subst. clear NE.
  cbn [fst snd] in *. cbn [needm fold_right snd] in L. fold (needm t) in L. destruct n as [|n]; [lia|].
  cbn [tail_obj]. fold (tail_obj ind d). unfold quote. rewrite <- !app_assoc. cbn [app]. rewrite <- !app_assoc. cbn [read_members].
  rewrite skip_newline by reflexivity. change (34 =? 34) with true. cbv iota. cbn [app]. rewrite quote_read by exact Pk.
  cbn [skip]. change (blank 58) with false. cbv iota. change (58 =? 58) with true. cbv iota.
  rewrite (read_value_skip n _ (write ind (S d) x ++ match t with [] => [] | _ => [44] end ++ tail_obj ind d t ++ r)).
  2:{ rewrite <- ?app_assoc. destruct ind; reflexivity. }
  rewrite (Gx Px (S d) n) by (lia || apply stops_tail_obj).
  destruct t as [|y t].
  - cbn [app tail_obj]. rewrite <- app_assoc. cbn [app]. rewrite skip_newline by reflexivity. reflexivity.
  - cbn [app skip]. change (blank 44) with false. cbv iota. change (44 =? 125) with false. change (44 =? 44) with true. cbv iota.
    rewrite IH; [reflexivity|exact Pt|discriminate|lia].
Qed.
Lemma tail_arr_head : forall ind d x t, plain x -> exists c u, skip (tail_arr ind d (x :: t)) = c :: u /\ c <> 93 /\
  forall r, skip (tail_arr ind d (x :: t) ++ r) = c :: u ++ r.
Proof.
  intros ind d x t P. destruct (write_head ind (S d) x P) as (c & u & E & B & N1 & N2 & N3).
  cbn [tail_arr]. fold (tail_arr ind d). rewrite E. cbn [app]. rewrite skip_newline by exact B.
  eexists c, _. split; [reflexivity|]. split; [exact N1|]. intros r. rewrite <- !app_assoc. cbn [app]. rewrite skip_newline by exact B.
  now rewrite <- ?app_assoc.
Qed.
Lemma tail_obj_head : forall ind d x t r, exists u, skip (tail_obj ind d (x :: t) ++ r) = 34 :: u.
Proof.
  intros ind d [k x] t r. cbn [tail_obj]. fold (tail_obj ind d). unfold quote. rewrite <- !app_assoc. cbn [app].
  rewrite skip_newline by reflexivity. eexists. reflexivity.
Qed.
Lemma good_all : forall ind j, good ind j.
Proof.
  intros ind j. induction j as [|b|z| |s|l IH|l IH] using json_rect2; intros P d n r N S.
  - destruct n as [|n]; [cbn in N; lia|]. reflexivity.
  - destruct n as [|n]; [cbn in N; lia|]. destruct b; reflexivity.
  - destruct n as [|n]; [cbn in N; lia|]. cbn [write]. unfold number. destruct (z <? 0) eqn:E.
    + cbn [app read_value skip]. change (blank 45) with false. cbv iota. cbn [Z.eqb Pos.eqb].
      destruct (udec_read (- z) r ltac:(lia) S) as [-> _]. do 3 f_equal. lia.
    + destruct (udec_read z r ltac:(lia) S) as [R (c & t & U & C)]. rewrite U in *. cbn [app] in *.
      pose proof (numeral_opens c C) as (B & _). unfold numeral in C.
      cbn [read_value skip]. rewrite B. replace (c =? 34) with false by lia. replace (c =? 91) with false by lia.
      replace (c =? 123) with false by lia. replace (c =? 110) with false by lia. replace (c =? 116) with false by lia.
      replace (c =? 102) with false by lia. replace (c =? 45) with false by lia. now rewrite R.
  - destruct P.
  - destruct n as [|n]; [cbn in N; lia|]. cbn [write]. unfold quote. cbn [app read_value skip]. change (blank 34) with false. cbv iota.
    change (34 =? 34) with true. cbv iota. rewrite <- app_assoc. cbn [app]. rewrite quote_read by exact P. reflexivity.
  - rewrite need_arr in N. destruct n as [|n]; [lia|]. apply plain_arr in P. destruct l as [|x t]; [reflexivity|].
    rewrite write_arr. cbn [app read_value skip]. change (blank 91) with false. cbv iota. cbn [Z.eqb Pos.eqb].
    destruct (tail_arr_head ind d x t ltac:(now inversion P)) as (c & u & _ & NC & T). rewrite T.
    replace (c =? 93) with false by lia. rewrite (elements_read ind d (x :: t) IH P ltac:(discriminate) n r) by lia. reflexivity.
  - rewrite need_obj in N. destruct n as [|n]; [lia|]. apply plain_obj in P. destruct l as [|x t]; [reflexivity|].
    rewrite write_obj. cbn [app read_value skip]. change (blank 123) with false. cbv iota. cbn [Z.eqb Pos.eqb].
    destruct (tail_obj_head ind d x t r) as (u & T). rewrite T.
    change (34 =? 125) with false. cbv iota. rewrite (members_read ind d (x :: t) IH P ltac:(discriminate) n r) by lia. reflexivity.
Qed.
Lemma need_le : forall ind j d, plain j -> (need j <= List.length (write ind d j))%nat.
Proof.
  intros ind j. induction j as [|b|z| |s|l IH|l IH] using json_rect2; intros d P.
  - cbn. lia.
  - destruct b; cbn; lia.
  - destruct (write_head ind d (JInt z) P) as (c & t & -> & _). cbn [need List.length]. lia.
  - destruct P.
  - cbn. lia.
  - apply plain_arr in P. rewrite need_arr. destruct l as [|x t]; [cbn; lia|]. rewrite write_arr. cbn [List.length].
    enough (forall l, Forall (fun j => forall d, plain j -> (need j <= List.length (write ind d j))%nat) l -> Forall plain l -> l <> [] ->
      (needs l <= List.length (tail_arr ind d l))%nat) as K by (specialize (K (x :: t) IH P ltac:(discriminate)); lia).
    clear. intros l H. induction H as [|x t Hx H IH]; intros P NE; [congruence|]. inversion P; subst.
    cbn [needs fold_right tail_arr]. fold (needs t). fold (tail_arr ind d). rewrite !app_length. specialize (Hx (S d) ltac:(assumption)).
    destruct t as [|y t]; [cbn [needs fold_right List.length tail_arr]; rewrite app_length; cbn [List.length]; lia|].
    specialize (IH ltac:(assumption) ltac:(discriminate)). cbn [List.length] in *. lia.
  - apply plain_obj in P. rewrite need_obj. destruct l as [|x t]; [cbn; lia|]. rewrite write_obj. cbn [List.length].
    enough (forall l, Forall (fun p => forall d, plain (snd p) -> (need (snd p) <= List.length (write ind d (snd p)))%nat) l ->
      Forall (fun p => Forall byte_ok (fst p) /\ plain (snd p)) l -> l <> [] ->
      (needm l <= List.length (tail_obj ind d l))%nat) as K by (specialize (K (x :: t) IH P ltac:(discriminate)); lia).
    clear. intros l H. induction H as [|[k x] t Hx H IH]; intros P NE; [congruence|]. inversion P as [|? ? [Pk Px] Pt]; subst. cbn [fst snd] in *.
    cbn [needm fold_right tail_obj snd]. fold (needm t). fold (tail_obj ind d). rewrite !app_length. cbn [List.length]. rewrite !app_length.
    specialize (Hx (S d) Px). unfold quote. cbn [List.length]. rewrite app_length. cbn [List.length].
    destruct t as [|y t]; [cbn [needm fold_right List.length tail_obj]; rewrite app_length; cbn [List.length]; lia|].
    specialize (IH Pt ltac:(discriminate)). cbn [List.length] in *. lia.
Qed.
(** What is written is read as what it was. *)
Theorem write_read : forall ind j, plain j -> read_json (write ind 0 j) = Some j.
Proof.
  intros ind j P. unfold read_json. rewrite <- (app_nil_r (write ind 0 j)) at 2.
  now rewrite (good_all ind j P 0%nat _ [] (need_le ind j 0%nat P) Logic.I).
Qed.
