(** What is decoded, and what is asked for, is not bounded by the bytes of a response. *)
From Verif Require Import Base BaseFacts Wire Prims Group Responses ResponseFacts ResponseRefute SizeSpec SizeFacts Reserve.

Lemma zlen_repeat {A} (a : A) n : 0 <= n -> zlen (repeat a (Z.to_nat n)) = n.
Proof. intros H. unfold zlen. rewrite repeat_length. lia. Qed.

(** bytes that were not sent *)
Definition padded (n : Z) : bytes := frame (be 4 7 ++ be 2 0 ++ be 2 0 ++ be 4 n ++ []).
Lemma padded_decoded n : u32 n -> parse 36 0 (padded n) = Ok (RSaslAuthenticate 7 0 [] (repeat 0 (Z.to_nat n))).
Proof.
  intros H. unfold padded. cbn [parse]. unfold dec_saslauthenticate.
  rewrite whole_eq by (unfold zlen; rewrite !app_length, !be_length; reflexivity).
  erewrite bind_ok by (apply rd_u32_be; unfold u32; lia).
  erewrite bind_ok by (apply rd_i16_be; unfold i16; lia).
  erewrite bind_ok by (unfold rd_ostr; erewrite bind_ok by (apply rd_i16_be; unfold i16; lia); reflexivity).
  erewrite bind_ok by (apply rd_u32_be; exact H).
  unfold bind, ret. rewrite firstn_nil. cbn [length app]. rewrite Nat.sub_0_r. reflexivity.
Qed.

(** elements that were not sent *)
Definition copied (n : Z) : bytes := frame (be 4 7 ++ be 4 0 ++ be 4 n ++ [0; 0; 0; 0; 2; 0; 0]).
Lemma copied_decoded n : u32 n -> parse 33 0 (copied n) = Ok (RAlterConfigs 7 0 (repeat (0, ([], (2, []))) (Z.to_nat n))).
Proof.
  intros H. unfold copied. cbn [parse]. unfold dec_alterconfigs.
  rewrite whole_eq by (unfold zlen; rewrite !app_length, !be_length; reflexivity).
  erewrite bind_ok by (apply rd_u32_be; unfold u32; lia). erewrite bind_ok by (apply rd_u32_be; unfold u32; lia).
  erewrite bind_ok.
  2:{ unfold rd_arr. erewrite bind_ok by (apply rd_u32_be; exact H). unfold rd_make. destruct (Z.ltb_spec n 0); [unfold u32 in H; lia|].
      eapply (rd_n_stay _ _ (0, ([], (2, [])))). vm_compute. reflexivity. }
  reflexivity.
Qed.

(** tagged fields that were not sent *)
Lemma tags_of_nothing n : rd_n n decodeTaggedField [] = Ok (repeat (0, []) n, []).
Proof.
  induction n as [|n IH]; [reflexivity|]. cbn [rd_n repeat]. erewrite bind_ok by (vm_compute; reflexivity).
  rewrite (bind_ok _ _ _ _ _ IH). reflexivity.
Qed.
Definition tagging (n : Z) : bytes := frame (be 4 7 ++ [0] ++ be 4 0 ++ be 2 0 ++ [1] ++ uvarint n ++ []).
Lemma tagging_decoded n : u64 n -> parse 16 3 (tagging n) = Ok (RListGroups 7 [] 0 0 (Some []) (repeat (0, []) (Z.to_nat n))).
Proof.
  intros H. unfold tagging. cbn [parse]. unfold dec_listgroups. change (rhv_from 3 3) with true. change (1 <=? 3) with true. cbv zeta iota.
  rewrite whole_eq.
  2:{ unfold zlen. rewrite !app_length, !be_length. cbn [length]. pose proof (uvarint_length n). lia. }
  erewrite bind_ok.
  2:{ unfold rd_header. erewrite bind_ok by (apply rd_u32_be; unfold u32; lia). erewrite bind_ok by reflexivity. reflexivity. }
  erewrite bind_ok by (apply rd_i32_be; unfold i32; lia). erewrite bind_ok by (apply rd_u16_be; unfold u16; lia).
  erewrite bind_ok by reflexivity. erewrite bind_ok by reflexivity.
  erewrite bind_ok.
  2:{ unfold decodeTaggedFields. erewrite bind_ok by (apply rd_uvarint_app; exact H). apply tags_of_nothing. }
  reflexivity.
Qed.

(** user data that were not sent *)
Definition group_head : bytes := be 2 0 ++ [0; 1; 103] ++ [0; 0] ++ [0; 0] ++ [0; 0].
Definition assignment (n : Z) : bytes := be 2 0 ++ be 4 0 ++ be 4 n ++ [].
Definition idle (n : Z) : bytes := frame (be 4 7 ++ be 4 1 ++ group_head ++ be 4 1 ++ [0; 1; 109] ++ [0; 0] ++ [0; 0] ++ be 4 0 ++ be 4 10 ++ assignment n).
Lemma assignment_decoded n : i32 n -> 0 <= n -> newMemberAssignment (assignment n) = Ok (mkMA 0 [] (repeat 0 (Z.to_nat n))).
Proof.
  intros H L. unfold newMemberAssignment. assert (N : assignment n <> []) by (intros E; apply (f_equal (@length Z)) in E; unfold assignment in E; rewrite !app_length, !be_length in E; discriminate E).
  destruct (assignment n) as [|b t] eqn:E; [congruence|]. rewrite <- E. unfold assignment.
  erewrite bind_ok by (apply rd_i16_be; unfold i16; lia). erewrite bind_ok by (apply rd_i32_be; unfold i32; lia).
  erewrite bind_ok by reflexivity.
  erewrite bind_ok.
  2:{ unfold rd_ma_user. erewrite bind_ok by (apply rd_i32_be; exact H). destruct (Z.eqb_spec n (-1)); [lia|]. destruct (Z.ltb_spec n 0); [lia|].
      rewrite firstn_nil, skipn_nil. cbn [length app]. rewrite Nat.sub_0_r. reflexivity. }
  reflexivity.
Qed.
Lemma idle_decoded n : i32 n -> 0 <= n ->
  parse 15 0 (idle n) = Ok (RDescribeGroups 7 [(0, ([103], ([], ([], ([], [([109], ([], ([], ([], (assignment n, Some (mkMA 0 [] (repeat 0 (Z.to_nat n))))))))])))))]).
Proof.
  intros H L. unfold idle. cbn [parse]. unfold dec_describegroups.
  assert (La : length (assignment n) = 10%nat) by (unfold assignment; rewrite !app_length, !be_length; reflexivity).
  rewrite whole_eq.
  2:{ unfold zlen, group_head. rewrite !app_length, !be_length, La. cbn [length]. lia. }
  erewrite bind_ok by (apply rd_u32_be; unfold u32; lia). erewrite bind_ok by (apply rd_u32_be; unfold u32; lia).
  change (Z.to_nat 1) with 1%nat. cbn [rd_gdetails].
  assert (EM : rd_member ([0; 1; 109] ++ [0; 0] ++ [0; 0] ++ be 4 0 ++ be 4 10 ++ assignment n) =
    Ok (([109], ([], ([], ([], (assignment n, Some (mkMA 0 [] (repeat 0 (Z.to_nat n))))))), None), [])).
  { unfold rd_member. erewrite bind_ok by reflexivity. erewrite bind_ok by reflexivity. erewrite bind_ok by reflexivity.
    erewrite bind_ok by (unfold rd_blob; erewrite bind_ok by (apply rd_u32_be; unfold u32; lia); reflexivity).
    erewrite bind_ok.
    2:{ unfold rd_blob. erewrite bind_ok by (apply rd_u32_be; unfold u32; lia). unfold rd_bytes.
        assert (Lz : zlen (assignment n) = 10) by (unfold zlen; rewrite La; reflexivity). rewrite Lz. change ((10 <? 0) || (10 <? 10)) with false. cbv iota.
        rewrite firstn_all2, skipn_all2 by (rewrite La; apply le_n). reflexivity. }
    rewrite assignment_decoded by assumption. reflexivity. }
  assert (EG : rd_gdetail None (group_head ++ be 4 1 ++ [0; 1; 109] ++ [0; 0] ++ [0; 0] ++ be 4 0 ++ be 4 10 ++ assignment n) =
    Ok ((0, ([103], ([], ([], ([], [([109], ([], ([], ([], (assignment n, Some (mkMA 0 [] (repeat 0 (Z.to_nat n))))))))]))))), None, [])).
  { unfold rd_gdetail, group_head. rewrite <- !app_assoc.
    erewrite bind_ok by (apply rd_i16_be; unfold i16; lia). do 4 (erewrite bind_ok by reflexivity).
    erewrite bind_ok by (apply rd_u32_be; unfold u32; lia). change (Z.to_nat 1) with 1%nat. cbn [rd_members].
    erewrite bind_ok.
    2:{ erewrite bind_ok by exact EM. cbn [fst snd]. erewrite bind_ok by reflexivity. reflexivity. }
    reflexivity. }
  erewrite bind_ok.
  2:{ erewrite bind_ok by exact EG. cbn [fst snd]. erewrite bind_ok by reflexivity. reflexivity. }
  reflexivity.
Qed.

(** ** The numbers asked for *)
Lemma make_len {A} n (p : parser A) s l r : rd_make n p s = Ok (l, r) -> zlen l = n.
Proof.
  unfold rd_make. destruct (Z.ltb_spec n 0) as [L|L]; [discriminate|]. intros E.
  assert (G : forall k s l r, rd_n k p s = Ok (l, r) -> length l = k).
  { clear. induction k as [|k IH]; intros s l r E; cbn [rd_n] in E; [injection E as <- _; reflexivity|].
    unfold bind in E. destruct (p s) as [[a s1]| | |]; try discriminate E. destruct (rd_n k p s1) as [[m s2]| | |] eqn:E2; try discriminate E.
    injection E as <- _. cbn [length]. f_equal. eapply IH, E2. }
  apply G in E. unfold zlen. rewrite E. lia.
Qed.
Lemma gdetails_len k : forall e s l r, rd_gdetails k e s = Ok (l, r) -> length (fst l) = k.
Proof.
  induction k as [|k IH]; intros e s l r E; cbn [rd_gdetails] in E; [injection E as <- _; reflexivity|].
  unfold bind in E. destruct (rd_gdetail e s) as [[g s1]| | |]; try discriminate E.
  destruct (rd_gdetails k (snd g) s1) as [[gs s2]| | |] eqn:E2; try discriminate E.
  injection E as <- _. cbn [fst length]. f_equal. eapply IH, E2.
Qed.
Ltac head x := lazymatch x with match ?y with _ => _ end => head y | _ => x end.
Lemma asked_for key v p s n t r : first_make key v = Some p -> zlen s < 2 ^ 32 -> p s = Ok (n, t) -> 0 <= n -> parse key v (frame s) = Ok r -> listed r = Some n.
Proof.
  intros F L P N E. unfold first_make in F.
  destruct key as [|key|key]; [discriminate F| |discriminate F].
  do 6 (try (destruct key as [key|key|]; try discriminate F)); injection F as <-; cbn [parse] in E;
  match type of E with ?d = _ => first [unfold d in E|let h := (match d with ?h _ => h end) in first [unfold h in E|let h' := (match h with ?h' _ => h' end) in unfold h' in E]] end.
  all: try (rewrite whole_eq in E by exact L).
  all: try (destruct (rd_u32 (frame s)) as [[? ?]| | |]; [|discriminate E|discriminate E|discriminate E]; rewrite whole_eq in E by exact L).
  all: unfold bind, rd_arr, rd_iarr, with_err, kafka_error in *; cbv beta in *.
  all: repeat match goal with
    | P : match ?x with _ => _ end = Ok (_, _), E : _ = Ok _ |- _ => let K := fresh "K" in destruct x as [[? ?]| | |] eqn:K; try discriminate P
    end.
  all: unfold bind in E.
  all: rewrite P in E.
  all: repeat (match type of E with ?x = Ok _ => let y := head x in let K := fresh "K" in
    lazymatch y with Ok _ => fail | ret _ _ => fail | _ => destruct y as [[? ?]| | |] eqn:K || destruct y eqn:K end; try discriminate E end; cbv iota in E; cbv beta in E).
  all: unfold ret in E; try discriminate E; injection E as <-; cbn [listed fst].
  all: repeat match goal with H : match ?x with _ => _ end _ = Ok (_, _) |- _ => destruct x; [unfold fail in H; discriminate H|]; unfold ret in H; injection H as <- _; cbn [listed fst] end.
  all: try (f_equal; eapply make_len; eassumption).
  f_equal. unfold zlen. match goal with H : rd_gdetails _ _ _ = _ |- _ => apply gdetails_len in H; transitivity (Z.of_nat (Z.to_nat n)); [f_equal; exact H|lia] end.
Qed.

(** a list is part of what is held *)
Lemma many_len {A} (f : A -> Z) l : (forall x, 0 <= f x) -> zlen l <= many f l.
Proof. intros H. induction l as [|x l IH]; [unfold zlen; cbn; lia|]. specialize (H x). unfold zlen, many, sum in *. cbn [length fold_right]. lia. Qed.
Lemma flat_nonneg {A} (l : list A) : 0 <= flat l.
Proof. apply many_nonneg. intros; lia. Qed.
Ltac pos := repeat first [ apply Z.add_nonneg_nonneg | apply zlen_nonneg | apply flat_nonneg | apply many_nonneg; intros | apply many_len; intros | lia ].
Lemma opt_nonneg {A} (f : A -> Z) o : (forall x, 0 <= f x) -> 0 <= opt f o.
Proof. intros H. destruct o; [apply H|apply Z.le_refl]. Qed.
Lemma assigned_nonneg m : 0 <= assigned 0 m.
Proof. unfold assigned. pos. Qed.
Lemma listed_size r n : listed r = Some n -> n <= size 0 r.
Proof.
  destruct r; cbn [listed]; intros E; try discriminate E; injection E as <-; cbn [size]; cbv zeta.
  all: try (unfold flat; apply many_len; intros; pos).
  - match goal with |- zlen ?l <= many ?f ?l + ?a + ?b => assert (0 <= a) by pos; assert (0 <= b) by pos; assert (zlen l <= many f l) by (apply many_len; intros; pos); lia end.
  - match goal with |- zlen ?l <= ?a + many ?f ?l => assert (0 <= a) by pos; assert (zlen l <= many f l) by (apply many_len; intros; pos); lia end.
  - apply opt_nonneg. apply assigned_nonneg.
Qed.
