(** Facts about the flags of the command line program. *)
From Coq Require Import String Ascii.
From Verif Require Import Base BaseFacts Text TextFacts Flags FlagsSpec.

(** ** texts *)
Lemma word_inj : forall a b, word a = word b -> a = b.
Proof.
  induction a as [|c a IH]; intros [|d b] E; try discriminate E; [reflexivity|]. cbn [word] in E. injection E as E1 E2.
  f_equal; [|apply IH; exact E2]. rewrite <- (ascii_nat_embedding c), <- (ascii_nat_embedding d). f_equal. lia.
Qed.
Lemma word_eqb a b : beqb (word a) (word b) = String.eqb a b.
Proof.
  destruct (String.eqb a b) eqn:E; [apply String.eqb_eq in E; subst; apply beqb_refl|].
  apply beqb_false. intros H. apply word_inj in H. subst. rewrite String.eqb_refl in E. discriminate.
Qed.

(** ** numbers *)
Lemma digits_base : forall s acc n, digits s acc = Some n -> in_base 10 s acc = Some n.
Proof.
  induction s as [|c s IH]; intros acc n H; [exact H|]. cbn [digits in_base] in *. destruct (is_digit c) eqn:D; [|discriminate].
  unfold is_digit in D. unfold digit_value. rewrite D. cbv iota. destruct (Z.ltb_spec (c - 48) 10); [|lia]. apply IH. exact H.
Qed.
Lemma udec_lead : forall f x c s, 0 < x < 10 ^ Z.of_nat f -> udec f x [] = c :: s -> c <> 48 /\ is_digit c = true.
Proof.
  induction f as [|f IH]; intros x c s Hx H; [discriminate|]. cbn [udec] in H. destruct (x <? 10) eqn:E.
  - assert (C : c = 48 + x mod 10) by congruence. apply Z.ltb_lt in E. rewrite Z.mod_small in C by lia. unfold is_digit. lia.
  - rewrite udec_acc in H.
    assert (Q : 0 < x / 10 < 10 ^ Z.of_nat f).
    { rewrite Nat2Z.inj_succ, Z.pow_succ_r in Hx by lia. split; [apply Z.div_str_pos; lia|apply Z.div_lt_upper_bound; lia]. }
    destruct (udec f (x / 10) []) as [|c' s'] eqn:U.
    + destruct f; [cbn in Q; lia|]. destruct (udec_digits (S f) (x / 10)) as (_ & _ & N); [lia|lia|congruence].
    + injection H as <- _. eapply IH; eassumption.
Qed.
Lemma uint_udec z : 0 <= z < 2 ^ 64 -> parse_uint (udec 20 z []) = Some z.
Proof.
  intros H. destruct (Z.eq_dec z 0) as [->|N]; [reflexivity|].
  destruct (udec_digits 20 z) as (D & F & NE); [change (10 ^ Z.of_nat 20) with 100000000000000000000; lia|lia|].
  destruct (udec 20 z []) as [|c s] eqn:U; [congruence|].
  destruct (udec_lead 20 z c s) as (L & _); [change (10 ^ Z.of_nat 20) with 100000000000000000000; lia|exact U|].
  unfold parse_uint. apply digits_base in D.
  destruct c as [|p|p]; try exact D. destruct (Z.eq_dec (Zpos p) 48) as [E|E]; [congruence|].
  do 6 (destruct p as [p|p|]; try exact D; try congruence).
Qed.
Lemma int_decimal bits z : 0 < bits <= 64 -> - 2 ^ (bits - 1) <= z < 2 ^ (bits - 1) -> parse_int bits (decimal z) = Some z.
Proof.
  intros B H. assert (P : 2 ^ (bits - 1) <= 2 ^ 63) by (apply Z.pow_le_mono_r; lia).
  unfold parse_int, decimal. destruct (z <? 0) eqn:E.
  - change (45 =? 45) with true. cbv iota. rewrite uint_udec by lia. replace (- - z) with z by lia.
    replace ((- 2 ^ (bits - 1) <=? z) && (z <? 2 ^ (bits - 1))) with true by lia. reflexivity.
  - destruct (udec 20 z []) as [|c s] eqn:U; [destruct (udec_digits 20 z) as (_ & _ & N); [change (10 ^ Z.of_nat 20) with 100000000000000000000; lia|lia|congruence]|].
    destruct (udec_digits 20 z) as (_ & F & _); [change (10 ^ Z.of_nat 20) with 100000000000000000000; lia|lia|].
    rewrite U in F. assert (C : is_digit c = true) by (inversion F; assumption). unfold is_digit in C.
    replace (c =? 45) with false by lia. replace (c =? 43) with false by lia. cbv iota. rewrite <- U, uint_udec by lia.
    replace ((- 2 ^ (bits - 1) <=? z) && (z <? 2 ^ (bits - 1))) with true by lia. reflexivity.
Qed.
Lemma every_map {A B} (f : A -> option B) (g : B -> A) l : Forall (fun x => f (g x) = Some x) l -> every f (map g l) = Some l.
Proof. induction 1 as [|x l E _ IH]; [reflexivity|]. cbn [map every]. rewrite E, IH. reflexivity. Qed.
Lemma split_decimals l : l <> [] -> split 44 (join 44 (map decimal l)) = map decimal l.
Proof.
  intros N. apply split_join; [destruct l; [congruence|discriminate]|]. apply Forall_forall. intros w H. apply in_map_iff in H as (z & <- & _).
  apply decimal_no; [reflexivity|lia].
Qed.

(** ** values *)
Definition grown (t : ftype) (changed : bool) (old v : fval) : fval :=
  match t with
  | FInts _ => VNums ((if changed then nums old else []) ++ nums v)
  | FTexts | FArray => VTexts ((if changed then texts old else []) ++ texts v)
  | _ => v
  end.
Lemma in_words s l : In s (map word l) -> existsb (beqb s) (map word l) = true.
Proof. intros H. apply existsb_exists. exists s. split; [exact H|apply beqb_refl]. Qed.
Lemma bool_true s : In s (map word ["1"; "t"; "T"; "TRUE"; "true"; "True"]%string) -> parse_bool s = Some true.
Proof. intros H. unfold parse_bool. rewrite in_words by exact H. reflexivity. Qed.
Lemma bool_false s : In s (map word ["0"; "f"; "F"; "FALSE"; "false"; "False"]%string) -> parse_bool s = Some false.
Proof. cbn [map In]. intros H. repeat (destruct H as [<-|H]; [vm_compute; reflexivity|]). destruct H. Qed.
Lemma not_in_existsb (p : Z -> bool) s : (forall c, In c s -> p c = false) -> existsb p s = false.
Proof. induction s as [|c s IH]; intros H; [reflexivity|]. cbn [existsb]. rewrite (H c (or_introl eq_refl)). apply IH. intros d D. apply H. right. exact D. Qed.
Lemma in_join c sep l : In c (join sep l) -> c = sep \/ exists w, In w l /\ In c w.
Proof.
  induction l as [|w l IH]; intros H; [destruct H|]. destruct l as [|w' l]; [right; exists w; cbn in *; tauto|].
  cbn [join] in H. apply in_app_or in H as [H|[H|H]]; [right; exists w; cbn; auto|left; auto|].
  destruct (IH H) as [E|(x & X1 & X2)]; [left; exact E|right; exists x; split; [right; exact X1|exact X2]].
Qed.
Lemma convert_means t changed old s v : (changed = true -> match t with FInts _ => exists l, old = VNums l | FTexts | FArray => exists l, old = VTexts l | _ => True end) ->
  means t s v -> convert t changed old s = Some (Some (grown t changed old v)).
Proof.
  intros O M. destruct M as [s|s I|s I|bits z B R|z R|bits z B R|l N F|bits l B N F|l F N|s]; cbn [convert grown].
  - reflexivity.
  - rewrite bool_true by exact I. reflexivity.
  - rewrite bool_false by exact I. reflexivity.
  - rewrite int_decimal by assumption. reflexivity.
  - rewrite int_decimal by (change (64 - 1) with 63; lia). reflexivity.
  - unfold decimal. replace (z <? 0) with false by lia.
    assert (2 ^ bits <= 2 ^ 63) by (apply Z.pow_le_mono_r; lia). rewrite uint_udec by lia. replace (z <? 2 ^ bits) with true by lia. reflexivity.
  - rewrite split_decimals by exact N. change (0 =? 0) with true. cbv iota.
    rewrite (every_map atoi decimal) by (eapply Forall_impl; [|exact F]; intros z Z1; apply atoi_decimal; exact Z1).
    destruct changed; [destruct (O eq_refl) as [x ->]|]; reflexivity.
  - rewrite split_decimals by exact N. replace (bits =? 0) with false by lia.
    rewrite (every_map (parse_int bits) decimal) by (eapply Forall_impl; [|exact F]; intros z Z1; apply int_decimal; assumption).
    destruct changed; [destruct (O eq_refl) as [x ->]|]; reflexivity.
  - replace (existsb _ (join 44 l)) with false.
    + assert (E : match join 44 l with [] => [] | _ => split 44 (join 44 l) end = l).
      { destruct l as [|w l]; [reflexivity|]. rewrite split_join; [|discriminate|eapply Forall_impl; [|exact F]; intros x (X & _); exact X].
        destruct (join 44 (w :: l)) eqn:J; [|reflexivity]. destruct l as [|w' l]; [cbn in J; subst; congruence|].
        cbn [join] in J. destruct w; discriminate. }
      rewrite E. destruct changed; [destruct (O eq_refl) as [x ->]|]; reflexivity.
    + symmetry. apply not_in_existsb. intros c I. rewrite Forall_forall in F. apply in_join in I as [->|(w & W1 & W2)]; [reflexivity|].
      destruct (F w W1) as (_ & F1 & F2 & F3). repeat (apply orb_false_iff; split); apply Z.eqb_neq; congruence.
  - destruct changed; [destruct (O eq_refl) as [x ->]|]; reflexivity.
Qed.

(** ** what the state of the flags is after a part of the command line *)
Definition canon (fl : list flag) (g : list item) : fstate :=
  map (fun f => (f, (final f (values f g), match values f g with [] => false | _ => true end))) fl.
Lemma canon_nil fl : fresh fl = canon fl [].
Proof. reflexivity. Qed.

(** flags as they are declared: names without '=' that do not begin with '-', letters, no two alike *)
Definition good_name (s : bytes) : Prop := match s with [] => False | c :: _ => c <> 45 /\ c <> 61 end /\ ~ In 61 s.
Definition good_letter (o : option string) : Prop := match o with None => True | Some l => exists c, word l = [c] /\ c <> 45 end.
Definition letters (fl : list flag) : list string := flat_map (fun f => match fl_short f with Some l => [l] | None => [] end) fl.
Definition good (fl : list flag) : Prop :=
  NoDup (map fl_name fl) /\ NoDup (letters fl) /\ Forall (fun f => good_name (word (fl_name f)) /\ good_letter (fl_short f)) fl.

Lemma canon_name fl g f : NoDup (map fl_name fl) -> In f fl ->
  by_name (word (fl_name f)) (canon fl g) = Some (f, (final f (values f g), match values f g with [] => false | _ => true end)).
Proof.
  unfold by_name. induction fl as [|f' fl IH]; intros N I; [destruct I|]. cbn [canon map find fst]. rewrite word_eqb.
  inversion N as [|? ? N1 N2]; subst. destruct (String.eqb (fl_name f') (fl_name f)) eqn:E.
  - apply String.eqb_eq in E. destruct I as [->|I]; [reflexivity|]. exfalso. apply N1. rewrite E. apply in_map. exact I.
  - destruct I as [->|I]; [rewrite String.eqb_refl in E; discriminate|]. apply IH; assumption.
Qed.
Lemma canon_letter fl g f l c : NoDup (letters fl) -> In f fl -> fl_short f = Some l -> word l = [c] ->
  by_letter c (canon fl g) = Some (f, (final f (values f g), match values f g with [] => false | _ => true end)).
Proof.
  unfold by_letter. intros N I S W. induction fl as [|f' fl IH]; [destruct I|]. cbn [canon map find fst].
  cbn [letters flat_map] in N. destruct (fl_short f') as [l'|] eqn:S'.
  - rewrite <- W, word_eqb. cbn [app] in N. inversion N as [|? ? N1 N2]; subst. destruct (String.eqb l' l) eqn:E.
    + apply String.eqb_eq in E. subst l'. destruct I as [->|I]; [reflexivity|]. exfalso. apply N1. apply in_flat_map. exists f.
      split; [exact I|]. rewrite S. left. reflexivity.
    + destruct I as [->|I]; [rewrite S in S'; injection S' as ->; rewrite String.eqb_refl in E; discriminate|]. rewrite W. apply IH; assumption.
  - destruct I as [->|I]; [congruence|]. apply IH; assumption.
Qed.
Lemma values_app f g i : values f (g ++ [i]) = values f g ++ (if String.eqb (fl_name (it_flag i)) (fl_name f) then [it_value i] else []).
Proof. unfold values. rewrite filter_app, map_app. f_equal. cbn [filter]. destruct (String.eqb _ _); reflexivity. Qed.
Lemma put_canon fl g i v : NoDup (map fl_name fl) -> In (it_flag i) fl -> v = final (it_flag i) (values (it_flag i) g ++ [it_value i]) ->
  put_value (fl_name (it_flag i)) v (canon fl g) = canon fl (g ++ [i]).
Proof.
  intros N I V. induction fl as [|f' fl IH]; [destruct I|]. inversion N as [|? ? N1 N2]; subst. cbn [canon map put_value].
  rewrite values_app. rewrite (String.eqb_sym (fl_name (it_flag i))). destruct (String.eqb (fl_name f') (fl_name (it_flag i))) eqn:E.
  - apply String.eqb_eq in E. assert (X : f' = it_flag i) by (destruct I as [X|I]; [exact X|exfalso; apply N1; rewrite E; apply in_map; exact I]).
    subst f'. f_equal; [destruct (values (it_flag i) g); reflexivity|].
    apply map_ext_in. intros f F. rewrite values_app. replace (String.eqb (fl_name (it_flag i)) (fl_name f)) with false; [rewrite app_nil_r; reflexivity|].
    symmetry. apply String.eqb_neq. intros X. apply N1. rewrite X. apply in_map. exact F.
  - rewrite app_nil_r. f_equal. apply IH; [exact N2|]. destruct I as [->|I]; [rewrite String.eqb_refl in E; discriminate|exact I].
Qed.
Lemma grown_final f vs v : grown (fl_type f) (match vs with [] => false | _ => true end) (final f vs) v = final f (vs ++ [v]).
Proof.
  unfold grown, final. destruct vs as [|w vs]; destruct (fl_type f); cbn [app flat_map nums texts]; rewrite ?app_nil_r; try reflexivity;
  try (rewrite flat_map_app; cbn [flat_map]; rewrite app_nil_r, app_assoc; reflexivity);
  try (change (w :: vs ++ [v]) with ((w :: vs) ++ [v]); rewrite last_last; reflexivity).
Qed.
Lemma set_canon fl g i s : good fl -> In (it_flag i) fl -> means (fl_type (it_flag i)) s (it_value i) ->
  set_flag (it_flag i, (final (it_flag i) (values (it_flag i) g), match values (it_flag i) g with [] => false | _ => true end)) s (canon fl g) = PRun (canon fl (g ++ [i])) [].
Proof.
  intros (G & _) I M. unfold set_flag. cbn [fst snd]. rewrite (convert_means _ _ _ s (it_value i)); [|clear|exact M].
  - rewrite grown_final. rewrite (put_canon fl g i); [reflexivity|exact G|exact I|reflexivity].
  - unfold final. destruct (values (it_flag i) g) as [|v vs]; [discriminate|]. intros _. destruct (fl_type (it_flag i)); eauto.
Qed.
Lemma cut_name n s : ~ In 61 n -> cut 61 (n ++ 61 :: s) = Some (n, s).
Proof.
  induction n as [|c n IH]; intros N; cbn [app cut]; [reflexivity|]. destruct (Z.eqb_spec c 61) as [E|E]; [exfalso; apply N; left; exact E|].
  rewrite IH; [reflexivity|]. intros X. apply N. right. exact X.
Qed.
Lemma cut_none n : ~ In 61 n -> cut 61 n = None.
Proof.
  induction n as [|c n IH]; intros N; cbn [cut]; [reflexivity|]. destruct (Z.eqb_spec c 61) as [E|E]; [exfalso; apply N; left; exact E|].
  rewrite IH; [reflexivity|]. intros X. apply N. right. exact X.
Qed.
Lemma long_value klog fl g f s : good fl -> In f fl ->
  long_arg klog (word (fl_name f) ++ 61 :: s) (canon fl g) =
  TDone (set_flag (f, (final f (values f g), match values f g with [] => false | _ => true end)) s (canon fl g)).
Proof.
  intros (G1 & G2 & G3) I. rewrite Forall_forall in G3. destruct (G3 f I) as ((A & B) & _). unfold long_arg.
  rewrite cut_name by exact B. rewrite canon_name by assumption.
  destruct (word (fl_name f)) as [|c w]; [destruct A|]. cbn [app]. replace ((c =? 45) || (c =? 61)) with false by lia. reflexivity.
Qed.
Lemma long_alone klog fl g f : good fl -> In f fl ->
  let x := (f, (final f (values f g), match values f g with [] => false | _ => true end)) in
  long_arg klog (word (fl_name f)) (canon fl g) =
  (if alone (fl_type f) then TDone (set_flag x (word "true") (canon fl g)) else TNext x (canon fl g)).
Proof.
  intros (G1 & G2 & G3) I x. rewrite Forall_forall in G3. destruct (G3 f I) as ((A & B) & _). unfold long_arg.
  rewrite cut_none by exact B. rewrite canon_name by assumption. fold x.
  destruct (word (fl_name f)) as [|c w]; [destruct A|]. replace ((c =? 45) || (c =? 61)) with false by lia. reflexivity.
Qed.
Lemma arg_long klog st name rest : match name with [] => False | _ => True end ->
  parse_args klog st ((45 :: 45 :: name) :: rest) =
  match long_arg klog name st with
  | TDone (PRun st' _) => parse_args klog st' rest
  | TDone r => r
  | TNext x st1 => match rest with [] => PBad | v :: rest' => match set_flag x v st1 with PRun st' _ => parse_args klog st' rest' | r => r end end
  end.
Proof. intros N. destruct name as [|c n]; [destruct N|]. reflexivity. Qed.
Lemma arg_short klog st c l rest : c <> 45 ->
  parse_args klog st ((45 :: c :: l) :: rest) =
  match short_arg klog (c :: l) st with
  | TDone (PRun st' _) => parse_args klog st' rest
  | TDone r => r
  | TNext x st1 => match rest with [] => PBad | v :: rest' => match set_flag x v st1 with PRun st' _ => parse_args klog st' rest' | r => r end end
  end.
Proof.
  intros N. cbn [parse_args]. replace (beqb (45 :: c :: l) [45; 45]) with false
    by (symmetry; apply beqb_false; congruence).
  destruct c as [|p|p]; try reflexivity. do 6 (destruct p as [p|p|]; try reflexivity; try congruence).
Qed.
Lemma short_eq klog fl g f l c d s : good fl -> In f fl -> fl_short f = Some l -> word l = [c] ->
  short_arg klog (c :: 61 :: d :: s) (canon fl g) =
  TDone (set_flag (f, (final f (values f g), match values f g with [] => false | _ => true end)) (d :: s) (canon fl g)).
Proof. intros (G1 & G2 & _) I S W. cbn [short_arg]. rewrite (canon_letter fl g f l c) by assumption. reflexivity. Qed.
Lemma short_next klog fl g f l c : good fl -> In f fl -> fl_short f = Some l -> word l = [c] -> fl_type f <> FBool ->
  short_arg klog [c] (canon fl g) = TNext (f, (final f (values f g), match values f g with [] => false | _ => true end)) (canon fl g).
Proof.
  intros (G1 & G2 & _) I S W T. cbn [short_arg]. rewrite (canon_letter fl g f l c) by assumption. cbn [fst].
  destruct (fl_type f); try reflexivity. congruence.
Qed.
Lemma short_glued klog fl g f l c d s : good fl -> In f fl -> fl_short f = Some l -> word l = [c] -> fl_type f <> FBool -> d <> 61 ->
  short_arg klog (c :: d :: s) (canon fl g) =
  TDone (set_flag (f, (final f (values f g), match values f g with [] => false | _ => true end)) (d :: s) (canon fl g)).
Proof.
  intros (G1 & G2 & _) I S W T D. cbn [short_arg]. rewrite (canon_letter fl g f l c) by assumption. cbn [fst].
  assert (A : alone (fl_type f) = false) by (destruct (fl_type f); try reflexivity; congruence). rewrite A.
  destruct d as [|p|p]; try reflexivity. do 6 (destruct p as [p|p|]; try reflexivity; try congruence).
Qed.
Lemma short_bool klog fl g f l c : good fl -> In f fl -> fl_short f = Some l -> word l = [c] -> fl_type f = FBool ->
  short_arg klog [c] (canon fl g) =
  TDone (set_flag (f, (final f (values f g), match values f g with [] => false | _ => true end)) (word "true") (canon fl g)).
Proof.
  intros (G1 & G2 & _) I S W T. cbn [short_arg]. rewrite (canon_letter fl g f l c) by assumption. cbn [fst]. rewrite T. cbn [alone].
  unfold set_flag. cbn [fst snd]. rewrite T. reflexivity.
Qed.
Lemma item_parsed klog fl g i rest : good fl -> In (it_flag i) fl -> item_ok i ->
  parse_args klog (canon fl g) (render i ++ rest) = parse_args klog (canon fl (g ++ [i])) rest.
Proof.
  destruct i as [f [sty [s v]]]. cbn [it_flag fst]. intros G I O. set (i := (f, (sty, (s, v)))).
  pose proof (fun s' M => set_canon fl g i s' G I M) as SC. cbn [it_flag it_value fst snd i] in SC.
  assert (GF := G). destruct GF as (_ & _ & GF). rewrite Forall_forall in GF. destruct (GF f I) as ((GN & GN') & GL). clear GF.
  assert (TR : fl_type f = FBool -> v = VBool true -> means (fl_type f) (word "true") v).
  { intros -> ->. apply M_true. cbn. tauto. }
  assert (HL : has_letter f -> exists l c, fl_short f = Some l /\ word l = [c] /\ c <> 45 /\ letter f = [c]).
  { unfold has_letter, letter, good_letter in *. destruct (fl_short f) as [l|]; [|congruence]. destruct GL as (c & W & C). intros _. exists l, c. rewrite W. auto. }
  assert (NE : forall x, match word (fl_name f) ++ x with [] => False | _ => True end) by (destruct (word (fl_name f)); [destruct GN|intros; exact Logic.I]).
  destruct sty; cbn [item_ok] in O; unfold i; cbn [render]; cbn [word app].
  - change (Z.of_nat (nat_of_ascii "-")) with 45. change (Z.of_nat (nat_of_ascii "=")) with 61.
    rewrite arg_long by apply NE. rewrite long_value by assumption. rewrite SC by exact O. reflexivity.
  - change (Z.of_nat (nat_of_ascii "-")) with 45. rewrite arg_long by (specialize (NE []); rewrite app_nil_r in NE; exact NE).
    destruct O as (M & T). rewrite long_alone by assumption. cbv zeta.
    replace (alone (fl_type f)) with false by (destruct (fl_type f); try reflexivity; congruence). rewrite SC by exact M. reflexivity.
  - destruct O as (M & L & N). destruct (HL L) as (l & c & S & W & C & ->). destruct s as [|d s]; [congruence|].
    change (Z.of_nat (nat_of_ascii "-")) with 45. change (Z.of_nat (nat_of_ascii "=")) with 61. cbn [app].
    rewrite arg_short by exact C. rewrite (short_eq klog fl g f l c) by assumption. rewrite SC by exact M. reflexivity.
  - destruct O as (M & L & N). destruct (HL L) as (l & c & S & W & C & ->). change (Z.of_nat (nat_of_ascii "-")) with 45.
    rewrite arg_short by exact C. rewrite (short_next klog fl g f l c) by assumption. rewrite SC by exact M. reflexivity.
  - destruct O as (M & L & N & D). destruct (HL L) as (l & c & S & W & C & ->). change (Z.of_nat (nat_of_ascii "-")) with 45.
    destruct s as [|d s]; [destruct D|]. cbn [app]. rewrite arg_short by exact C. rewrite (short_glued klog fl g f l c) by assumption.
    rewrite SC by exact M. reflexivity.
  - destruct O as (T & V). change (Z.of_nat (nat_of_ascii "-")) with 45. rewrite arg_long by (specialize (NE []); rewrite app_nil_r in NE; exact NE).
    rewrite long_alone by assumption. cbv zeta. rewrite T at 1. cbn [alone]. rewrite SC by (apply TR; assumption). reflexivity.
  - destruct O as (T & V & L). destruct (HL L) as (l & c & S & W & C & ->). change (Z.of_nat (nat_of_ascii "-")) with 45.
    rewrite arg_short by exact C. rewrite (short_bool klog fl g f l c) by assumption. rewrite SC by (apply TR; assumption). reflexivity.
Qed.
Lemma items_parsed klog fl : good fl -> forall l g rest, Forall (fun i => In (it_flag i) fl /\ item_ok i) l ->
  parse_args klog (canon fl g) (flat_map render l ++ rest) = parse_args klog (canon fl (g ++ l)) rest.
Proof.
  intros G. induction l as [|i l IH]; intros g rest F; [rewrite app_nil_r; reflexivity|]. inversion F as [|? ? (F1 & F2) F3]; subst.
  cbn [flat_map]. rewrite <- app_assoc, item_parsed by assumption. rewrite IH by exact F3. rewrite <- app_assoc. reflexivity.
Qed.

(** ** the commands as they are *)
Definition nodupb (l : list string) : bool :=
  (fix go l := match l with [] => true | x :: l' => negb (existsb (String.eqb x) l') && go l' end) l.
Lemma nodupb_ok : forall l, nodupb l = true -> NoDup l.
Proof.
  induction l as [|x l IH]; intros H; constructor; cbn in H; apply andb_prop in H as (H1 & H2); [|apply IH; exact H2].
  intros I. apply negb_true_iff in H1. rewrite (proj2 (existsb_exists _ _)) in H1; [discriminate|]. exists x. split; [exact I|apply String.eqb_refl].
Qed.
Definition goodb (fl : list flag) : bool :=
  nodupb (map fl_name fl) && nodupb (letters fl) &&
  forallb (fun f => match word (fl_name f) with [] => false | c :: _ => negb (c =? 45) && negb (c =? 61) end &&
                    negb (existsb (Z.eqb 61) (word (fl_name f))) &&
                    match fl_short f with None => true | Some l => match word l with [c] => negb (c =? 45) | _ => false end end) fl.
Lemma goodb_ok fl : goodb fl = true -> good fl.
Proof.
  unfold goodb. intros H. apply andb_prop in H as (H & H3). apply andb_prop in H as (H1 & H2).
  split; [apply nodupb_ok; exact H1|]. split; [apply nodupb_ok; exact H2|]. rewrite forallb_forall in H3. apply Forall_forall. intros f F.
  specialize (H3 f F). apply andb_prop in H3 as (A & B). apply andb_prop in A as (A1 & A2). split; [split|].
  - destruct (word (fl_name f)) as [|c w]; [discriminate|]. lia.
  - intros I. apply negb_true_iff in A2. rewrite (proj2 (existsb_exists _ _)) in A2; [discriminate|]. exists 61. split; [exact I|reflexivity].
  - unfold good_letter. destruct (fl_short f) as [l|]; [|exact Logic.I]. destruct (word l) as [|c [|? ?]]; try discriminate. exists c. split; [reflexivity|lia].
Qed.
Lemma commands_good c : In c commands -> good (all_flags c).
Proof.
  intros I. apply goodb_ok. revert c I. apply forallb_forall. vm_compute. reflexivity.
Qed.
Lemma commands_found klog c rest : In c commands -> healer klog (word (cm_name c) :: rest) =
  match parse_args klog (fresh (all_flags c)) rest with
  | PBad => Exits 1
  | PElse => Elsewhere
  | PRun st pos =>
      match get_flag st ("help"%string, FBool) with
      | Some (VBool true) => Help
      | _ => if forallb (fun n => match by_name (word n) st with Some (_, (_, true)) => true | _ => false end) (cm_required c)
             then Runs c st pos else Exits 1
      end
  end.
Proof.
  intros I. unfold commands in I. cbn [In] in I.
  repeat (destruct I as [<-|I]; [reflexivity|]). destruct I.
Qed.

(** ** whole command lines *)
Definition help_flag : flag := mkFlag "help" (Some "h"%string) FBool (VBool false).
Lemma help_in c : In help_flag (all_flags c).
Proof. apply in_or_app. right. right. right. left. reflexivity. Qed.
Lemma values_none f l : (forall i, In i l -> fl_name (it_flag i) <> fl_name f) -> values f l = [].
Proof.
  unfold values. induction l as [|i l IH]; intros H; [reflexivity|]. cbn [filter].
  replace (String.eqb (fl_name (it_flag i)) (fl_name f)) with false by (symmetry; apply String.eqb_neq; apply H; left; reflexivity).
  apply IH. intros j J. apply H. right. exact J.
Qed.
Lemma values_some f l i : In i l -> fl_name (it_flag i) = fl_name f -> values f l <> [].
Proof.
  intros I E V. assert (X : In (it_value i) (values f l)); [|rewrite V in X; exact X].
  apply in_map. apply filter_In. split; [exact I|]. rewrite E. apply String.eqb_refl.
Qed.
Lemma ftype_refl t : ftype_eqb t t = true.
Proof. destruct t; cbn; try reflexivity; apply Z.eqb_refl. Qed.
Lemma get_canon fl g f : NoDup (map fl_name fl) -> In f fl -> get_flag (canon fl g) (fl_name f, fl_type f) = Some (final f (values f g)).
Proof. intros N I. unfold get_flag. cbn [fst snd]. rewrite canon_name by assumption. rewrite ftype_refl. reflexivity. Qed.
Lemma required_in c n : In c commands -> In n (cm_required c) -> exists f, In f (all_flags c) /\ fl_name f = n.
Proof.
  intros I R. assert (X : forallb (fun c => forallb (fun n => existsb (fun f => String.eqb (fl_name f) n) (all_flags c)) (cm_required c)) commands = true) by (vm_compute; reflexivity).
  rewrite forallb_forall in X. specialize (X c I). rewrite forallb_forall in X. specialize (X n R). apply existsb_exists in X as (f & F & E).
  exists f. split; [exact F|apply String.eqb_eq; exact E].
Qed.
Lemma no_help_get c l : In c commands -> no_help l -> get_flag (canon (all_flags c) l) ("help"%string, FBool) = Some (VBool false).
Proof.
  intros C H. destruct (commands_good c C) as (N & _). change (get_flag (canon (all_flags c) l) (fl_name help_flag, fl_type help_flag) = Some (VBool false)).
  rewrite (get_canon _ l help_flag N (help_in c)). rewrite values_none; [reflexivity|exact H].
Qed.
Lemma runs klog c l : In c commands -> given c l -> no_help l -> complete c l ->
  exists st, healer klog (word (cm_name c) :: flat_map render l) = Runs c st [] /\
    forall f, In f (all_flags c) -> get_flag st (fl_name f, fl_type f) = Some (final f (values f l)).
Proof.
  intros C G H R. destruct (commands_good c C) as (N & N' & _). exists (canon (all_flags c) l). split.
  - rewrite commands_found by exact C. rewrite canon_nil. rewrite <- (app_nil_r (flat_map render l)).
    rewrite items_parsed by (assumption || apply commands_good; exact C). cbn [app parse_args]. rewrite no_help_get by assumption.
    replace (forallb _ (cm_required c)) with true; [reflexivity|]. symmetry. apply forallb_forall. intros n I.
    destruct (required_in c n C I) as (f & F & <-). rewrite canon_name by assumption. destruct (R _ I) as (i & I1 & I2).
    destruct (values f l) eqn:V; [|reflexivity]. exfalso. exact (values_some f l i I1 I2 V).
  - intros f F. apply get_canon; assumption.
Qed.
Lemma missing klog c l n : In c commands -> given c l -> no_help l -> In n (cm_required c) -> (forall i, In i l -> fl_name (it_flag i) <> n) ->
  healer klog (word (cm_name c) :: flat_map render l) = Exits 1.
Proof.
  intros C G H I R. destruct (commands_good c C) as (N & N' & _).
  rewrite commands_found by exact C. rewrite canon_nil. rewrite <- (app_nil_r (flat_map render l)).
  rewrite items_parsed by (assumption || apply commands_good; exact C). cbn [app parse_args]. rewrite no_help_get by assumption.
  replace (forallb _ (cm_required c)) with false; [reflexivity|]. symmetry. apply not_true_iff_false. rewrite forallb_forall. intros X. specialize (X n I). cbv beta in X.
  destruct (required_in c n C I) as (f & F & E). subst n. rewrite canon_name in X by assumption. rewrite values_none in X by exact R. discriminate.
Qed.

(** ** refusals *)
Lemma by_name_none fl g n : ~ In n (map (fun f => word (fl_name f)) fl) -> by_name n (canon fl g) = None.
Proof.
  unfold by_name. induction fl as [|f fl IH]; intros N; [reflexivity|]. cbn [canon map find fst].
  destruct (beqb (word (fl_name f)) n) eqn:E; [exfalso; apply N; left; apply beqb_true; exact E|]. apply IH. intros X. apply N. right. exact X.
Qed.
Lemma bad_flag klog c l n x rest : In c commands -> given c l -> unknown c n -> ~ In n klog -> ~ In 61 n ->
  x = n \/ (exists v, x = n ++ 61 :: v) -> x <> [] ->
  healer klog (word (cm_name c) :: flat_map render l ++ ([45; 45] ++ x) :: rest) = Exits 1.
Proof.
  intros C G U K N X NE. rewrite commands_found by exact C. rewrite canon_nil.
  rewrite items_parsed by (assumption || apply commands_good; exact C). cbn [app]. rewrite arg_long by (destruct x; [congruence|exact Logic.I]).
  assert (K' : existsb (beqb n) klog = false).
  { apply not_true_iff_false. intros E. apply existsb_exists in E as (k & E1 & E2). apply beqb_true in E2. subst. contradiction. }
  assert (L : long_arg klog x (canon (all_flags c) l) = TDone PBad); [|rewrite L; reflexivity].
  unfold long_arg. destruct x as [|c0 x]; [reflexivity|]. destruct ((c0 =? 45) || (c0 =? 61)); [reflexivity|].
  destruct X as [E|(v & E)]; rewrite E; [rewrite cut_none by exact N|rewrite cut_name by exact N];
  rewrite by_name_none by exact U; rewrite K'; reflexivity.
Qed.
Lemma long_value_given klog c l f s rest : In c commands -> given c l -> In f (all_flags c) ->
  (forall ch old, convert (fl_type f) ch old s = Some None) ->
  healer klog (word (cm_name c) :: flat_map render l ++ ([45; 45] ++ word (fl_name f) ++ 61 :: s) :: rest) = Exits 1.
Proof.
  intros C G F V. rewrite commands_found by exact C. rewrite canon_nil.
  rewrite items_parsed by (assumption || apply commands_good; exact C). cbn [app].
  rewrite arg_long by (destruct (word (fl_name f)); exact Logic.I). rewrite long_value; [|apply commands_good; exact C|exact F].
  unfold set_flag. cbn [fst snd]. rewrite V. reflexivity.
Qed.
Lemma uint_udec' z : 0 <= z < 10 ^ 20 -> parse_uint (udec 20 z []) = Some z.
Proof.
  intros H. destruct (Z.eq_dec z 0) as [->|N]; [reflexivity|].
  destruct (udec_digits 20 z) as (D & F & NE); [change (Z.of_nat 20) with 20; lia|lia|].
  destruct (udec 20 z []) as [|c s] eqn:U; [congruence|].
  destruct (udec_lead 20 z c s) as (L & _); [change (Z.of_nat 20) with 20; lia|exact U|].
  unfold parse_uint. apply digits_base in D.
  destruct c as [|p|p]; try exact D. destruct (Z.eq_dec (Zpos p) 48) as [E|E]; [congruence|].
  do 6 (destruct p as [p|p|]; try exact D; try congruence).
Qed.
Lemma int_too_big bits z : 0 < bits -> - 10 ^ 20 < z < 10 ^ 20 -> ~ - 2 ^ (bits - 1) <= z < 2 ^ (bits - 1) -> parse_int bits (decimal z) = None.
Proof.
  intros B H R. unfold parse_int, decimal. destruct (z <? 0) eqn:E.
  - change (45 =? 45) with true. cbv iota. rewrite uint_udec' by lia. replace (- - z) with z by lia.
    replace ((- 2 ^ (bits - 1) <=? z) && (z <? 2 ^ (bits - 1))) with false by lia. reflexivity.
  - destruct (udec_digits 20 z) as (_ & F & NE); [change (Z.of_nat 20) with 20; lia|lia|].
    destruct (udec 20 z []) as [|c s] eqn:U; [congruence|].
    assert (C : is_digit c = true) by (inversion F; assumption). unfold is_digit in C.
    replace (c =? 45) with false by lia. replace (c =? 43) with false by lia. cbv iota. rewrite <- U, uint_udec' by lia.
    replace ((- 2 ^ (bits - 1) <=? z) && (z <? 2 ^ (bits - 1))) with false by lia. reflexivity.
Qed.
Lemma too_big klog c l f z bits rest : In c commands -> given c l -> In f (all_flags c) -> fl_type f = FInt bits -> 0 < bits -> - 10 ^ 20 < z < 10 ^ 20 ->
  ~ - 2 ^ (bits - 1) <= z < 2 ^ (bits - 1) ->
  healer klog (word (cm_name c) :: flat_map render l ++ ([45; 45] ++ word (fl_name f) ++ 61 :: decimal z) :: rest) = Exits 1.
Proof. intros C G F T B H R. apply long_value_given; try assumption. intros ch old. rewrite T. cbn [convert]. rewrite int_too_big by assumption. reflexivity. Qed.

(** ** what every run finds *)
Lemma digit_value_nonneg c : 0 <= digit_value c.
Proof. unfold digit_value. destruct ((48 <=? c) && (c <=? 57)) eqn:A; [lia|]. destruct ((97 <=? c) && (c <=? 122)) eqn:B; [lia|]. destruct ((65 <=? c) && (c <=? 90)) eqn:C; lia. Qed.
Lemma in_base_nonneg b : 0 <= b -> forall s acc n, 0 <= acc -> in_base b s acc = Some n -> 0 <= n.
Proof.
  intros B. induction s as [|c s IH]; intros acc n A H; cbn [in_base] in H; [congruence|]. destruct (digit_value c <? b); [|discriminate].
  eapply IH; [|exact H]. pose proof (digit_value_nonneg c). nia.
Qed.
Lemma parse_uint_nonneg s n : parse_uint s = Some n -> 0 <= n.
Proof.
  assert (X : forall b s n, 0 <= b -> in_base b s 0 = Some n -> 0 <= n) by (intros b s' n' B; apply in_base_nonneg; [exact B|lia]).
  destruct s as [|c s]; [discriminate|]. destruct (Z.eq_dec c 48) as [->|N].
  - unfold parse_uint. destruct s as [|d [|e s]]; try (apply X; lia). cbv zeta.
    destruct ((d =? 98) || (d =? 66)); [apply X; lia|]. destruct ((d =? 111) || (d =? 79)); [apply X; lia|]. destruct ((d =? 120) || (d =? 88)); apply X; lia.
  - intros H. assert (E : parse_uint (c :: s) = in_base 10 (c :: s) 0).
    { destruct c as [|p|p]; try reflexivity. do 6 (destruct p as [p|p|]; try reflexivity; try congruence). }
    rewrite E in H. eapply X; [|exact H]. lia.
Qed.
Lemma parse_int_range bits s n : parse_int bits s = Some n -> - 2 ^ (bits - 1) <= n < 2 ^ (bits - 1).
Proof.
  unfold parse_int. destruct (match s with [] => (false, s) | c :: s' => if c =? 45 then (true, s') else if c =? 43 then (false, s') else (false, s) end) as [neg s'].
  destruct (parse_uint s') as [m|]; [|discriminate]. cbv zeta.
  destruct ((- 2 ^ (bits - 1) <=? (if neg then - m else m)) && ((if neg then - m else m) <? 2 ^ (bits - 1))) eqn:E; [|discriminate].
  intros H. injection H as <-. lia.
Qed.
Lemma atoi_range s n : atoi s = Some n -> - 2 ^ 63 <= n < 2 ^ 63.
Proof.
  assert (X : forall x, in_i64 x = Some n -> - 2 ^ 63 <= n < 2 ^ 63).
  { intros x. unfold in_i64. destruct ((- 2 ^ 63 <=? x) && (x <? 2 ^ 63)) eqn:E; [|discriminate]. intros Y. injection Y as <-. lia. }
  unfold atoi. destruct s as [|c s]; [discriminate|].
  destruct (c =? 43); [|destruct (c =? 45)]; (destruct (unsigned _); [apply X|discriminate]).
Qed.
Lemma every_all {A B} (f : A -> option B) (P : B -> Prop) : (forall x y, f x = Some y -> P y) -> forall l r, every f l = Some r -> Forall P r.
Proof.
  intros H. induction l as [|x l IH]; intros r E; cbn [every] in E; [injection E as <-; constructor|].
  destruct (f x) eqn:X; [|discriminate]. destruct (every f l); [|discriminate]. injection E as <-. constructor; [eapply H; exact X|apply IH; reflexivity].
Qed.
Lemma typed_ints b l : typed (FInts b) (VNums l) <-> Forall (fun n => if b =? 0 then - 2 ^ 63 <= n < 2 ^ 63 else - 2 ^ (b - 1) <= n < 2 ^ (b - 1)) l.
Proof. destruct b; reflexivity. Qed.
Lemma convert_typed t ch old s v : typed t old -> convert t ch old s = Some (Some v) -> typed t v.
Proof.
  intros O H. destruct t as [| |b| |b|b| |]; cbn [convert] in H.
  - injection H as <-. exact I.
  - destruct (parse_bool s); [|discriminate]. injection H as <-. exact I.
  - destruct (parse_int b s) eqn:E; [|discriminate]. injection H as <-. apply parse_int_range in E. exact E.
  - destruct (parse_int 64 s) eqn:E; [|discriminate]. injection H as <-. apply parse_int_range in E. exact E.
  - destruct (parse_uint s) as [n|] eqn:E; [|discriminate]. destruct (n <? 2 ^ b) eqn:L; [|discriminate]. injection H as <-. apply parse_uint_nonneg in E. cbn. lia.
  - destruct (every _ _) as [l|] eqn:E; [|discriminate]. injection H as <-. apply typed_ints. apply Forall_app. split.
    + destruct ch; [|constructor]. destruct old; try constructor. apply typed_ints. exact O.
    + eapply every_all; [|exact E]. intros x y Y. destruct (b =? 0); [apply atoi_range in Y; exact Y|apply parse_int_range in Y; exact Y].
  - destruct (existsb _ s); [discriminate|]. injection H as <-. exact I.
  - injection H as <-. exact I.
Qed.
Definition inv (fl : list flag) (st : fstate) : Prop := map fst st = fl /\ Forall (fun x => typed (fl_type (fst x)) (fst (snd x))) st.
Lemma put_inv fl n v st : inv fl st -> (forall f, In f fl -> fl_name f = n -> typed (fl_type f) v) -> inv fl (put_value n v st).
Proof.
  intros (M & F) T. assert (X : map fst (put_value n v st) = map fst st /\ Forall (fun x => typed (fl_type (fst x)) (fst (snd x))) (put_value n v st)).
  { rewrite <- M in T. clear M fl. induction st as [|[f x] st IH]; [split; [reflexivity|constructor]|]. cbn [put_value]. inversion F as [|? ? F1 F2]; subst.
    destruct (String.eqb (fl_name f) n) eqn:E.
    - split; [reflexivity|]. constructor; [|exact F2]. cbn [fst snd]. apply T; [left; reflexivity|apply String.eqb_eq; exact E].
    - destruct (IH F2) as (A & B); [intros f' I'; apply T; right; exact I'|]. split; [cbn [map]; rewrite A; reflexivity|]. constructor; assumption. }
  destruct X as (X1 & X2). split; [rewrite X1; exact M|exact X2].
Qed.
Lemma set_inv fl x s st st' p : NoDup (map fl_name fl) -> inv fl st -> In x st -> set_flag x s st = PRun st' p -> inv fl st'.
Proof.
  intros N I X H. unfold set_flag in H. destruct (convert _ _ _ _) as [[v|]|] eqn:C; try discriminate. injection H as <- _.
  apply put_inv; [exact I|]. destruct I as (M & F). rewrite Forall_forall in F. specialize (F x X). apply convert_typed in C; [|exact F].
  intros f I E. assert (f = fst x); [|subst; exact C]. rewrite <- M in *.
  assert (J : In (fst x) (map fst st)) by (apply in_map; exact X). clear - N I E J. induction (map fst st) as [|y l IH]; [destruct I|].
  cbn [map] in N. inversion N as [|? ? N1 N2]; subst. destruct I as [->|I]; destruct J as [->|J]; try reflexivity.
  - exfalso. apply N1. rewrite E. apply in_map. exact J.
  - exfalso. apply N1. rewrite <- E. apply in_map. exact I.
  - apply IH; assumption.
Qed.
Definition took_inv (fl : list flag) (t : took) : Prop :=
  match t with TDone (PRun st' _) => inv fl st' | TNext x st' => inv fl st' /\ In x st' | _ => True end.
Lemma set_took fl x s st : NoDup (map fl_name fl) -> inv fl st -> In x st -> took_inv fl (TDone (set_flag x s st)).
Proof. intros N I X. cbn [took_inv]. destruct (set_flag x s st) eqn:S; try exact Logic.I. eapply set_inv; eassumption. Qed.
Lemma long_inv klog fl n st : NoDup (map fl_name fl) -> inv fl st -> took_inv fl (long_arg klog n st).
Proof.
  intros N I. unfold long_arg. destruct n as [|c n]; [exact Logic.I|]. destruct (_ || _); [exact Logic.I|]. cbv zeta.
  destruct (cut 61 (c :: n)) as [[a v]|]; [destruct (by_name a st) as [x|] eqn:B|destruct (by_name (c :: n) st) as [x|] eqn:B];
  try (destruct (existsb _ klog); exact Logic.I); apply find_some in B as (B & _).
  - apply set_took; assumption.
  - destruct (alone _); [apply set_took; assumption|split; assumption].
Qed.
Lemma short_inv klog fl : NoDup (map fl_name fl) -> forall l st, inv fl st -> took_inv fl (short_arg klog l st).
Proof.
  intros N. induction l as [|c l IH]; intros st I; [exact I|]. cbn [short_arg].
  destruct (by_letter c st) as [x|] eqn:B; [|destruct (existsb _ klog); exact Logic.I].
  apply find_some in B as (B & _).
  assert (S1 : forall v, took_inv fl (TDone (set_flag x v st))) by (intros; apply set_took; assumption).
  assert (S2 : took_inv fl (if alone (fl_type (fst x)) then match set_flag x (word "true") st with PRun st' _ => short_arg klog l st' | r => TDone r end
                            else match l with [] => TNext x st | _ => TDone (set_flag x l st) end)).
  { destruct (alone _).
    - destruct (set_flag x (word "true") st) eqn:S; try exact Logic.I. apply IH. eapply set_inv; eassumption.
    - destruct l; [split; assumption|apply S1]. }
  destruct l as [|e [|d l]]; try exact S2.
  - destruct e as [|p|p]; try exact S2. do 6 (destruct p as [p|p|]; try exact S2).
  - destruct e as [|p|p]; try exact S2. do 6 (destruct p as [p|p|]; try exact S2). apply S1.
Qed.
Lemma args_inv klog fl : NoDup (map fl_name fl) -> forall n args st st' pos, (length args <= n)%nat -> inv fl st ->
  parse_args klog st args = PRun st' pos -> inv fl st'.
Proof.
  intros N. induction n as [|n IH]; intros args st st' pos L I H.
  - destruct args; [injection H as <- _; exact I|cbn in L; lia].
  - destruct args as [|s rest]; [injection H as <- _; exact I|]. cbn [length] in L. cbn [parse_args] in H.
    assert (T : match match s with
               | 45 :: 45 :: name => Some (long_arg klog name st)
               | 45 :: ((_ :: _) as letters) => Some (short_arg klog letters st)
               | _ => None
               end with Some t => took_inv fl t | None => True end).
    { destruct s as [|a s]; [exact Logic.I|]. destruct (Z.eq_dec a 45) as [->|A].
      - destruct s as [|b s]; [exact Logic.I|]. destruct (Z.eq_dec b 45) as [->|B]; [apply long_inv; assumption|].
        destruct b as [|p|p]; try (apply short_inv; assumption). do 6 (destruct p as [p|p|]; try (apply short_inv; assumption); try congruence).
      - destruct a as [|p|p]; try exact Logic.I. do 6 (destruct p as [p|p|]; try exact Logic.I; try congruence). }
    set (t := match s with 45 :: 45 :: name => _ | _ => _ end) in *. clearbody t.
    destruct (beqb s [45; 45]); [injection H as <- _; exact I|].
    destruct t as [[[st1 p1| |]|x st1]|]; try discriminate H.
    + eapply IH; [|exact T|exact H]. lia.
    + destruct T as (T1 & T2). destruct rest as [|v rest]; [discriminate|]. destruct (set_flag x v st1) as [st2 p2| |] eqn:S; try discriminate.
      cbn [length] in L. eapply IH; [|eapply set_inv; [exact N|exact T1|exact T2|exact S]|exact H]. lia.
    + destruct (parse_args klog st rest) as [st1 p1| |] eqn:P; try discriminate. injection H as <- _. eapply IH; [|exact I|exact P]. lia.
Qed.
Definition typedb (t : ftype) (v : fval) : bool :=
  match t, v with
  | FText, VText _ | FBool, VBool _ | FTexts, VTexts _ | FArray, VTexts _ => true
  | FInt bits, VNum n => (- 2 ^ (bits - 1) <=? n) && (n <? 2 ^ (bits - 1))
  | FGoInt, VNum n => (- 2 ^ 63 <=? n) && (n <? 2 ^ 63)
  | FUint bits, VNum n => (0 <=? n) && (n <? 2 ^ bits)
  | FInts _, VNums [] => true
  | _, _ => false
  end.
Lemma typedb_ok t v : typedb t v = true -> typed t v.
Proof.
  destruct t as [| |b| |b|b| |]; destruct v as [s|x|n|l|l]; cbn [typedb]; intros H; try discriminate H; try exact I; cbn [typed]; try lia.
  destruct l; [|discriminate]. destruct b; constructor.
Qed.
Lemma fresh_inv c : In c commands -> inv (all_flags c) (fresh (all_flags c)).
Proof.
  intros C. assert (X : forallb (fun c => forallb (fun f => typedb (fl_type f) (fl_default f)) (all_flags c)) commands = true) by (vm_compute; reflexivity).
  rewrite forallb_forall in X. specialize (X c C). rewrite forallb_forall in X. split.
  - unfold fresh. rewrite map_map. cbn [fst]. apply map_id.
  - apply Forall_forall. intros x I. apply in_map_iff in I as (f & <- & F). apply typedb_ok. apply X. exact F.
Qed.
Lemma healer_runs klog args c st pos : healer klog args = Runs c st pos -> In c commands /\ inv (all_flags c) st.
Proof.
  unfold healer. destruct args as [|a rest]; [discriminate|]. destruct (std_flag klog a) as [o|] eqn:S.
  - intros ->. exfalso. unfold std_flag in S.
    repeat match type of S with context [match ?x with _ => _ end] => destruct x; try discriminate S end.
  - destruct (find _ commands) as [c'|] eqn:F; [|destruct (existsb _ _); discriminate]. apply find_some in F as (F & _).
    destruct (parse_args klog (fresh (all_flags c')) rest) as [st1 p1| |] eqn:P; try discriminate. intros H.
    assert (Q : Runs c' st1 p1 = Runs c st pos).
    { destruct (get_flag st1 ("help"%string, FBool)) as [[s|[]|n|l|l]|]; try discriminate H; (destruct (forallb _ _); [exact H|discriminate H]). }
    injection Q as -> -> ->. split; [exact F|]. eapply args_inv; [|apply le_n|apply fresh_inv; exact F|exact P]. apply commands_good. exact F.
Qed.
Lemma inv_name fl st n : inv fl st -> match find (fun f => beqb (word (fl_name f)) n) fl with
  | Some f => exists v b, by_name n st = Some (f, (v, b)) /\ typed (fl_type f) v
  | None => by_name n st = None
  end.
Proof.
  intros (M & F). subst fl. unfold by_name. induction st as [|[f [v b]] st IH]; [reflexivity|]. inversion F as [|? ? F1 F2]; subst. cbn [map find fst].
  destruct (beqb (word (fl_name f)) n); [exists v, b; split; [reflexivity|exact F1]|apply IH; exact F2].
Qed.
Definition readable (c : command) (r : string * ftype) : bool :=
  match find (fun f => beqb (word (fl_name f)) (word (fst r))) (all_flags c) with Some f => ftype_eqb (fl_type f) (snd r) | None => false end.
Lemma ftype_eq a b : ftype_eqb a b = true -> a = b.
Proof. destruct a, b; cbn; intros H; try discriminate; try reflexivity; apply Z.eqb_eq in H; subst; reflexivity. Qed.
Lemma reads_all : forallb (fun c => forallb (fun r => readable c r || (String.eqb (cm_name c) "reset-offset" && String.eqb (fst r) "offset.storage")) (cm_reads c)) commands = true.
Proof. vm_compute. reflexivity. Qed.
Lemma reads klog args c st pos r : healer klog args = Runs c st pos -> In r (cm_reads c) -> ~ (cm_name c = "reset-offset"%string /\ fst r = "offset.storage"%string) ->
  exists v, get_flag st r = Some v /\ typed (snd r) v.
Proof.
  intros H R N. apply healer_runs in H as (C & I). pose proof reads_all as X. rewrite forallb_forall in X. specialize (X c C).
  rewrite forallb_forall in X. specialize (X r R). apply orb_prop in X as [X|X].
  - unfold readable in X. unfold get_flag. pose proof (inv_name _ _ (word (fst r)) I) as J. destruct (find _ (all_flags c)) as [f|]; [|discriminate].
    destruct J as (v & b & -> & T). rewrite X. exists v. split; [reflexivity|]. apply ftype_eq in X. rewrite <- X. exact T.
  - exfalso. apply N. apply andb_prop in X as (X1 & X2). split; apply String.eqb_eq; assumption.
Qed.
Lemma never_read klog args c st pos : healer klog args = Runs c st pos -> cm_name c = "reset-offset"%string -> get_flag st ("offset.storage"%string, FText) = None.
Proof.
  intros H E. apply healer_runs in H as (C & I). unfold get_flag. cbn [fst]. pose proof (inv_name _ _ (word "offset.storage") I) as J.
  replace (find _ (all_flags c)) with (@None flag) in J; [rewrite J; reflexivity|]. symmetry.
  assert (X : forallb (fun c => negb (String.eqb (cm_name c) "reset-offset") || match find (fun f => beqb (word (fl_name f)) (word "offset.storage")) (all_flags c) with None => true | _ => false end) commands = true) by (vm_compute; reflexivity).
  rewrite forallb_forall in X. specialize (X c C). cbv beta in X. rewrite E in X. cbn [negb orb String.eqb] in X. change (String.eqb "reset-offset" "reset-offset") with true in X. cbn [negb orb] in X.
  destruct (find _ (all_flags c)); [discriminate|reflexivity].
Qed.

(** ** get-metadata *)
Lemma split_lines l : Forall (fun w => ~ In 10 w) l -> split 10 (flat_map (fun w => w ++ [10]) l) = l ++ [[]].
Proof.
  induction 1 as [|w l N _ IH]; [reflexivity|]. cbn [flat_map]. rewrite <- app_assoc. cbn [app]. rewrite split_word by exact N. rewrite IH. reflexivity.
Qed.
Lemma address_known : forall bs id h p, NoDup (map fst bs) -> In (id, (h, p)) bs -> address_in bs id = net_address h p.
Proof.
  unfold address_in. intros bs id h p N I.
  assert (K : forall l acc, ~ In id (map fst l) -> fold_left (fun acc b => if fst b =? id then net_address (fst (snd b)) (snd (snd b)) else acc) l acc = acc).
  { induction l as [|b l IH]; intros acc M; [reflexivity|]. cbn [fold_left]. destruct (Z.eqb_spec (fst b) id) as [E|E]; [exfalso; apply M; left; exact E|].
    apply IH. intros X. apply M. right. exact X. }
  generalize (@nil Z). induction bs as [|b bs IH]; intros acc; [destruct I|]. cbn [map] in N. inversion N as [|? ? N1 N2]; subst. cbn [fold_left].
  destruct I as [->|I].
  - cbn [fst snd]. rewrite Z.eqb_refl. apply K. exact N1.
  - apply IH; assumption.
Qed.
Lemma address_unknown bs id : ~ In id (map fst bs) -> address_in bs id = [].
Proof.
  unfold address_in. generalize (@nil Z). induction bs as [|b l IH]; intros acc M; [reflexivity|]. cbn [fold_left].
  destruct (Z.eqb_spec (fst b) id) as [E|E]; [exfalso; apply M; left; exact E|]. apply IH. intros X. apply M. right. exact X.
Qed.
Lemma no_nl_address h p : ~ In 10 h -> ~ In 10 (net_address h p).
Proof.
  intros H X. unfold net_address in X. apply in_app_or in X as [X|X].
  - destruct (existsb _ h); [|contradiction]. cbn [word app] in X. destruct X as [X|X]; [cbn in X; lia|]. apply in_app_or in X as [X|X]; [contradiction|].
    destruct X as [X|[]]. cbn in X. lia.
  - destruct X as [X|X]; [cbn in X; lia|]. revert X. apply decimal_no; [reflexivity|lia].
Qed.
Definition broker_line (b : Z * (bytes * Z)) : bytes := decimal (fst b) ++ [32] ++ net_address (fst (snd b)) (snd (snd b)).
Definition part_lines (bs : list (Z * (bytes * Z))) (t : bytes * list (Z * Z)) : list bytes :=
  map (fun p => fst t ++ [32] ++ decimal (fst p) ++ [32] ++ address_in bs (snd p)) (snd t).
Lemma cat_lines r : Forall (fun b => ~ In 10 (fst (snd b))) (cl_brokers r) -> Forall (fun t => ~ In 10 (fst t)) (cl_topics r) ->
  split 10 (cat_response r) = [word "brokers:"] ++ map broker_line (cl_brokers r) ++ [word "topics:"] ++ flat_map (part_lines (cl_brokers r)) (cl_topics r) ++ [[]].
Proof.
  intros B T. assert (D : forall z, ~ In 10 (decimal z)) by (intros z; apply decimal_no; [reflexivity|lia]).
  assert (A : forall id, ~ In 10 (address_in (cl_brokers r) id)).
  { intros id. unfold address_in. assert (Z0 : ~ In 10 (@nil Z)) by (intros []). revert Z0. generalize (@nil Z).
    induction B as [|b l B1 B2 IH]; intros acc Z0; [exact Z0|]. cbn [fold_left]. apply IH. destruct (fst b =? id); [apply no_nl_address; exact B1|exact Z0]. }
  assert (E : cat_response r = flat_map (fun w => w ++ [10]) ([word "brokers:"] ++ map broker_line (cl_brokers r) ++ [word "topics:"] ++ flat_map (part_lines (cl_brokers r)) (cl_topics r))).
  { unfold cat_response. rewrite !flat_map_app. cbn [flat_map]. rewrite !app_nil_r, <- !app_assoc. f_equal. f_equal. f_equal; [|f_equal; f_equal].
    - clear. induction (cl_brokers r) as [|b l IH]; [reflexivity|]. cbn [map flat_map]. rewrite IH. unfold broker_line. rewrite <- !app_assoc. reflexivity.
    - clear. induction (cl_topics r) as [|t l IH]; [reflexivity|]. cbn [flat_map]. rewrite flat_map_app, IH. f_equal. unfold part_lines.
      induction (snd t) as [|p ps IHp]; [reflexivity|]. cbn [map flat_map]. rewrite IHp, <- !app_assoc. reflexivity. }
  rewrite E. rewrite split_lines; [rewrite <- !app_assoc; reflexivity|].
  apply Forall_app. split; [constructor; [cbn; lia|constructor]|]. apply Forall_app. split.
  - apply Forall_map. eapply Forall_impl; [|exact B]. intros b Hb X. unfold broker_line in X. apply in_app_or in X as [X|[X|X]]; [exact (D _ X)|lia|]. exact (no_nl_address _ _ Hb X).
  - apply Forall_app. split; [constructor; [cbn; lia|constructor]|]. apply Forall_flat_map. eapply Forall_impl; [|exact T]. intros t Ht. unfold part_lines. apply Forall_map. apply Forall_forall.
    intros p _ X. apply in_app_or in X as [X|X]; [exact (Ht X)|]. apply in_app_or in X as [[X|[]]|X]; [lia|]. apply in_app_or in X as [X|X]; [exact (D _ X)|]. apply in_app_or in X as [[X|[]]|X]; [lia|exact (A _ X)].
Qed.
Lemma shows_address id h p : shows_broker (id, (h, p)) (join 32 [decimal id; net_address h p]).
Proof.
  exists (net_address h p). split; [reflexivity|]. unfold net_address. destruct (existsb (Z.eqb 58) h) eqn:E.
  - right. split; [apply existsb_exists in E as (x & X & Y); apply Z.eqb_eq in Y; subst; exact X|]. rewrite <- !app_assoc. reflexivity.
  - left. split; [|reflexivity]. intros X. apply not_true_iff_false in E. apply E. apply existsb_exists. exists 58. split; [exact X|reflexivity].
Qed.
Lemma Forall2_map_r {A B} (R : A -> B -> Prop) (f : A -> B) l : (forall x, In x l -> R x (f x)) -> Forall2 R l (map f l).
Proof. induction l as [|x l IH]; intros H; constructor; [apply H; left; reflexivity|apply IH; intros y Y; apply H; right; exact Y]. Qed.
Lemma cat_shows r : cluster_ok r -> exists bl pl, split 10 (cat_response r) = [word "brokers:"] ++ bl ++ [word "topics:"] ++ pl ++ [[]] /\
  Forall2 shows_broker (cl_brokers r) bl /\ Forall2 (shows_partition (cl_brokers r)) (partitions_of r) pl.
Proof.
  intros (A & B & N & L). exists (map broker_line (cl_brokers r)), (flat_map (part_lines (cl_brokers r)) (cl_topics r)).
  split; [apply cat_lines; assumption|]. split.
  - apply Forall2_map_r. intros [id [h p]] _. apply shows_address.
  - replace (flat_map (part_lines (cl_brokers r)) (cl_topics r)) with
      (map (fun x => fst x ++ [32] ++ decimal (fst (snd x)) ++ [32] ++ address_in (cl_brokers r) (snd (snd x))) (partitions_of r)).
    + apply Forall2_map_r. rewrite Forall_forall in L. intros [t [id l]] I. specialize (L _ I). cbn [snd] in L. apply in_map_iff in L as ([l' [h p]] & E & I').
      cbn [fst] in E. subst l'. exists (l, (h, p)), (net_address h p). split; [exact I'|]. split; [reflexivity|]. split; [apply shows_address|].
      cbn [fst snd]. rewrite (address_known _ _ h p N I'). reflexivity.
    + unfold partitions_of. clear. induction (cl_topics r) as [|t l IH]; [reflexivity|]. cbn [flat_map]. rewrite map_app, IH, map_map. reflexivity.
Qed.
