(** The administration APIs of the table [response_spec]; the table as a whole. *)
From Verif Require Import Base BaseFacts Wire WireFacts Prims PrimsFacts Group GroupFacts Assign AssignFacts SortFacts RequestSpec Responses ResponseSpec ResponseFacts ResponseDecode.
Local Open Scope ty_scope.

(** ** Groups *)
Lemma nonneg_count {A} (l : list A) : 0 <=? zlen l = true.
Proof. pose proof (zlen_nonneg l). lia. Qed.
Lemma count_arr t (l : list (den t)) r : wf (TArr t) l -> rd_i32 (enc (TArr t) l ++ r) = Ok (zlen l, flat_map (enc t) l ++ r).
Proof.
  cbn [wf enc]. intros [H _]. rewrite <- app_assoc. pose proof (zlen_nonneg l). apply rd_i32_be. unfold i32. lia.
Qed.
Lemma count_u32 t (l : list (den t)) r : wf (TArr t) l -> rd_u32 (enc (TArr t) l ++ r) = Ok (zlen l, flat_map (enc t) l ++ r).
Proof.
  cbn [wf enc]. intros [H _]. rewrite <- app_assoc. pose proof (zlen_nonneg l). pose proof p31_32. apply rd_u32_be. unfold u32. lia.
Qed.
Lemma count_carr t (l : list (den t)) r : wf (TCArr t) l -> compactArrayLength (enc (TCArr t) l ++ r) = Ok (zlen l, flat_map (enc t) l ++ r).
Proof.
  cbn [wf enc]. intros [H _]. rewrite <- app_assoc. pose proof (zlen_nonneg l). apply compactArrayLength_wire. lia.
Qed.
Lemma make_all {B} t (p : parser B) (g : den t -> B) (l : list (den t)) r :
  (forall x r, wf t x -> p (enc t x ++ r) = Ok (g x, r)) -> Forall (wf t) l ->
  rd_make (zlen l) p (flat_map (enc t) l ++ r) = Ok (map g l, r).
Proof. intros H Hw. apply (make_e t p g (fun _ => True)); auto using all_true. Qed.

Lemma h_listgroups_0 : handled 16 0 P_ListGroups_0.
Proof.
  start P_ListGroups_0. open_pairs. pure.
  - spread. unfold rd_header. ifs. erewrite bind_ok by (repeat step1; reflexivity). repeat step1.
    erewrite bind_ok by (apply count_arr; eassumption). rewrite nonneg_count.
    erewrite bind_ok by (erewrite bind_ok by (apply (make_all (TStr *** TStr) _ (fun g : bytes * bytes => (fst g, (snd g, ([], ([], []))))));
      [unfold rd_group; cbv zeta; ifs; elem|match goal with H : wf (TArr _) _ |- _ => apply H end]); reflexivity).
    repeat step1. reflexivity.
  - subst. reflexivity.
  - reflexivity.
  - subst. split; [reflexivity|]. intros H1. inversion H1 as [? ? H2|? ? H2]; [congruence|inversion H2].
Qed.
Lemma h_listgroups_1 v : v = 1 \/ v = 2 -> handled 16 v P_ListGroups_1.
Proof.
  intros [-> | ->];
  (start P_ListGroups_1; open_pairs; pure;
  [ spread; unfold rd_header; ifs; erewrite bind_ok by (repeat step1; reflexivity); repeat step1;
    erewrite bind_ok by (apply count_arr; eassumption); rewrite nonneg_count;
    erewrite bind_ok by (erewrite bind_ok by (apply (make_all (TStr *** TStr) _ (fun g : bytes * bytes => (fst g, (snd g, ([], ([], []))))));
      [unfold rd_group; cbv zeta; ifs; elem|match goal with H : wf (TArr _) _ |- _ => apply H end]); reflexivity);
    repeat step1; reflexivity
  | subst; reflexivity
  | reflexivity
  | subst; split; [reflexivity|]; intros H1'; inversion H1' as [? ? H2'|? ? H2']; [congruence|inversion H2'] ]).
Qed.
Ltac listgroups t g := erewrite bind_ok by (repeat step1; reflexivity); repeat step1;
    erewrite bind_ok by (apply count_carr; eassumption); rewrite nonneg_count;
    erewrite bind_ok by (erewrite bind_ok by (apply (make_all t _ g);
      [unfold rd_group; cbv zeta; ifs; elem|match goal with H : wf (TCArr _) _ |- _ => apply H end]); reflexivity);
    repeat step1; reflexivity.
Lemma h_listgroups_3 : handled 16 3 P_ListGroups_3.
Proof.
  start P_ListGroups_3. open_pairs. pure.
  - spread. unfold rd_header. ifs.
    listgroups (TCStr *** TCStr *** TTags) (fun g : bytes * (bytes * list (Z * bytes)) => (fst g, (fst (snd g), (@nil Z, (@nil Z, snd (snd g)))))).
  - subst. reflexivity.
  - reflexivity.
  - subst. split; [reflexivity|]. intros H1'. inversion H1' as [? ? H2'|? ? H2']; [congruence|inversion H2'].
Qed.
Lemma h_listgroups_4 : handled 16 4 P_ListGroups_4.
Proof.
  start P_ListGroups_4. open_pairs. pure.
  - spread. unfold rd_header. ifs.
    listgroups (TCStr *** TCStr *** TCStr *** TTags)
      (fun g : bytes * (bytes * (bytes * list (Z * bytes))) => (fst g, (fst (snd g), (fst (snd (snd g)), (@nil Z, snd (snd (snd g))))))).
  - subst. reflexivity.
  - reflexivity.
  - subst. split; [reflexivity|]. intros H1'. inversion H1' as [? ? H2'|? ? H2']; [congruence|inversion H2'].
Qed.
Lemma h_listgroups_5 : handled 16 5 P_ListGroups_5.
Proof.
  start P_ListGroups_5. open_pairs. pure.
  - spread. unfold rd_header. ifs.
    listgroups (TCStr *** TCStr *** TCStr *** TCStr *** TTags)
      (fun g : bytes * (bytes * (bytes * (bytes * list (Z * bytes)))) => g).
  - subst. rewrite map_id. reflexivity.
  - reflexivity.
  - subst. split; [reflexivity|]. intros H1'. inversion H1' as [? ? H2'|? ? H2']; [congruence|inversion H2'].
Qed.

Lemma assignment_e a : wf G_Assignment a -> newMemberAssignment (enc G_Assignment a) = Ok (mkMA (fst a) (fst (snd a)) (or_empty (snd (snd a)))).
Proof.
  destruct a as [v [ps u]]. intros [H1 [[H2 H3] H4]]. cbn [fst snd] in *.
  apply (newMemberAssignment_wire v ps u); [exact H1|cbn [den] in H2; lia| |].
  - eapply Forall_impl; [|exact H3]. intros [t qs] [K1 [K2 K3]]. cbn [fst snd] in *. cbn [wf] in *. pose proof p15_16. pose proof p31_32.
    split; [|split]; cbn [fst snd]; [lia|cbn [den] in K2; lia|exact K3].
  - destruct u as [b|]; [|exact I]. cbn in H4. lia.
Qed.
Definition assigned (m : den R_Member) : Prop := exists a, wf G_Assignment a /\ snd (snd (snd (snd m))) = enc G_Assignment a.
Lemma member_e m r : wf R_Member m -> assigned m -> exists s, rd_member (enc R_Member m ++ r) = Ok ((s, None), r) /\ member_shown m s.
Proof.
  intros Hw [[v [ps u]] [Ha E]]. pose proof (assignment_e _ Ha) as N. clear Ha. open_pairs. spread. eexists. unfold rd_member. repeat step1.
  rewrite E, N. split; [reflexivity|]. eexists _, v, ps, u. split; reflexivity.
Qed.
Lemma members_e ms : Forall (wf R_Member) ms -> Forall assigned ms -> forall e r,
  exists ms' e', rd_members (length ms) e (flat_map (enc R_Member) ms ++ r) = Ok ((ms', e'), r) /\ Forall2 member_shown ms ms' /\ (e' = e \/ e' = None).
Proof.
  induction ms as [|m ms IH]; intros Hw Ha e r; cbn [length rd_members flat_map].
  - exists [], e. split; [reflexivity|]. split; [constructor|left; reflexivity].
  - inversion Hw; subst. inversion Ha; subst. rewrite <- app_assoc.
    match goal with H : wf R_Member m, K : assigned m |- context [enc R_Member m ++ ?s] => destruct (member_e m s H K) as [g [E S]] end.
    rewrite (bind_ok _ _ _ _ _ E). cbn [fst snd].
    edestruct (IH ltac:(assumption) ltac:(assumption) None r) as [ms' [e' [E' [S' Se]]]].
    rewrite (bind_ok _ _ _ _ _ E'). cbn [fst snd]. exists (g :: ms'), e'. split; [reflexivity|]. split; [constructor; assumption|].
    right. destruct Se; assumption.
Qed.
Lemma to_nat_zlen {A} (l : list A) : Z.to_nat (zlen l) = length l.
Proof. unfold zlen. apply Nat2Z.id. Qed.
Lemma members_z ms : Forall (wf R_Member) ms -> Forall assigned ms -> forall e r,
  exists ms' e', rd_members (Z.to_nat (zlen ms)) e (flat_map (enc R_Member) ms ++ r) = Ok ((ms', e'), r) /\ Forall2 member_shown ms ms' /\ (e' = e \/ e' = None).
Proof. rewrite to_nat_zlen. apply members_e. Qed.
Definition T_Group : ty := TI16 *** TStr *** TStr *** TStr *** TStr *** TArr R_Member.
Definition fine (cs : list Z) (e : option err) : Prop := e = None \/ exists e' c, e = Some e' /\ err_code e' = Some c /\ In c cs /\ c <> 0.
Lemma gdetail_e (g : den T_Group) e r : wf T_Group g -> Forall assigned (snd (snd (snd (snd (snd g))))) ->
  exists s e', rd_gdetail e (enc T_Group g ++ r) = Ok ((s, e'), r) /\ group_shown g s /\ (e' = e \/ fine [fst g] e').
Proof.
  intros Hw Ha. open_pairs. spread. unfold rd_gdetail. repeat step1.
  erewrite bind_ok by (apply count_u32; assumption).
  match goal with |- context [rd_members (Z.to_nat (zlen ?ms)) ?e0] =>
    destruct (members_z ms ltac:(match goal with H : wf (TArr _) ms |- _ => apply H end) Ha e0 r) as [ms' [e' [E [S Se]]]] end.
  rewrite (bind_ok _ _ _ _ _ E). cbn [fst snd]. eexists _, e'. split; [reflexivity|]. split; [eexists; split; [reflexivity|exact S]|].
  destruct Se as [-> | ->]; [|right; left; reflexivity].
  destruct e; [left; reflexivity|]. unfold kafka_error. destruct (Z.eqb_spec d 0); [left; reflexivity|].
  right. right. exists (EKafka d), d. cbn. auto.
Qed.
Lemma gdetails_e (gs : list (den T_Group)) : Forall (wf T_Group) gs -> Forall (fun g => Forall assigned (snd (snd (snd (snd (snd g)))))) gs ->
  forall e r cs, fine cs e -> exists gs' e', rd_gdetails (length gs) e (flat_map (enc T_Group) gs ++ r) = Ok ((gs', e'), r) /\
  Forall2 group_shown gs gs' /\ fine (cs ++ map fst gs) e'.
Proof.
  induction gs as [|g gs IH]; intros Hw Ha e r cs He; cbn [length rd_gdetails flat_map].
  - exists [], e. split; [reflexivity|]. split; [constructor|]. cbn [map]. rewrite app_nil_r. exact He.
  - inversion Hw; subst. inversion Ha; subst. rewrite <- app_assoc.
    edestruct (gdetail_e g e (flat_map (enc T_Group) gs ++ r) ltac:(assumption) ltac:(assumption)) as [s [e1 [E [S Se]]]].
    rewrite (bind_ok _ _ _ _ _ E). cbn [fst snd].
    edestruct (IH ltac:(assumption) ltac:(assumption) e1 r (cs ++ [fst g])) as [gs' [e' [E' [S' Se']]]].
    { destruct Se as [-> |Se].
      - destruct He as [->|[x [c [-> [? [? ?]]]]]]; [left; reflexivity|]. right. exists x, c. repeat split; auto. apply in_or_app; auto.
      - destruct Se as [->|[x [c [-> [? [? ?]]]]]]; [left; reflexivity|]. right. exists x, c. repeat split; auto. apply in_or_app; auto. }
    rewrite (bind_ok _ _ _ _ _ E'). cbn [fst snd]. exists (s :: gs'), e'. split; [reflexivity|]. split; [constructor; assumption|].
    rewrite <- app_assoc in Se'. exact Se'.
Qed.
Lemma answer_loose key v data r cs o o' (P : response -> Prop) :
  parse key v data = match o with None => Ok r | Some e => Err e end -> P r -> fine cs o ->
  response_error r = Ok o' -> reports cs o' ->
  (zeros cs -> exists r, answer key v data = Ok r /\ P r) /\
  (nonzero cs -> exists e c, answer key v data = Err e /\ err_code e = Some c /\ In c cs /\ c <> 0).
Proof.
  intros E HP [->|[e [c [-> [Ec [Hi Hc]]]]]] Eo R.
  - eapply answer_value; eauto.
  - unfold answer. rewrite E. split; intros H.
    + unfold zeros in H. rewrite Forall_forall in H. apply H in Hi. congruence.
    + exists (EWrap e), c. auto.
Qed.
Lemma shown_codes gs gs' : Forall2 group_shown gs gs' -> map fst gs = map fst gs'.
Proof.
  induction 1 as [|g s gs gs' H Hs IH]; [reflexivity|]. cbn [map]. rewrite IH. f_equal.
  destruct g as [? [? [? [? [? ?]]]]]. destruct H as [? [-> _]]. reflexivity.
Qed.
Lemma h_describegroups : handled 15 0 P_DescribeGroups.
Proof.
  start P_DescribeGroups. unfold R_DescribeGroups_0 in *. fold T_Group in *. cbn [den] in x.
  destruct (gdetails_e x (proj2 Hw) Hok None [] [] (or_introl eq_refl)) as [gs [e [E [S Se]]]].
  eapply (answer_loose _ _ _ (RDescribeGroups corr gs) _ e).
  - change (parse 15 0) with dec_describegroups. unfold dec_describegroups. eapply whole_err; [sized|].
    repeat step1. erewrite bind_ok by (apply count_u32; exact Hw).
    rewrite to_nat_zlen. rewrite (bind_ok _ _ _ _ _ E). cbn [fst snd]. apply with_err_eq.
  - exists gs. split; [reflexivity|exact S].
  - exact Se.
  - reflexivity.
  - apply reports_code_eq. exact (shown_codes _ _ S).
Qed.

(** ** SASL *)
Lemma h_saslhandshake v : rflexible 17 v = false -> handled 17 v P_SaslHandshake.
Proof.
  intros Hv. intros corr ht x Hc Ht Hflex Hw Hok Hsz. cbv zeta. rewrite bytes_plain in * by exact Hv. cbn [s_ty s_shown s_codes s_ok P_SaslHandshake] in *.
  destruct x as [d ms]. destruct Hw as [H1 H2]. destruct Hok as [H3 H4]. cbn [fst snd den] in *. subst d. pose proof (zlen_nonneg ms).
  checked.
  - spread. step1.
    assert (P : rd_peek 4 (enc TI16 0 ++ enc (TArr TStr) ms ++ []) = Ok (0, enc TI16 0 ++ enc (TArr TStr) ms ++ [])).
    { cbn [enc]. unfold rd_peek, rd_u. cbn [be app length Nat.leb firstn unbe fold_left Nat.add].
      match goal with |- Ok (?a, _) = _ => replace a with 0; [reflexivity|] end. change (Z.of_nat 3) with 3. change (Z.of_nat 2) with 2.
      change (256 ^ 3) with 16777216. change (256 ^ 2) with 65536. change (2 ^ 16) with 65536 in *. cbn [den] in *.
      rewrite !Z.div_small by lia. reflexivity. }
    rewrite (bind_ok _ _ _ _ _ P). erewrite bind_ok by reflexivity.
    erewrite bind_ok by (apply (arr_e TStr _ (fun a : bytes => a)); [exact str_e|exact H2]). rewrite map_id. apply with_err_eq.
  - reflexivity.
  - apply reports_kafka_error.
  - reflexivity.
  - apply reports_kafka_error.
Qed.
Lemma h_saslauthenticate : handled 36 0 P_SaslAuthenticate.
Proof.
  start P_SaslAuthenticate. open_pairs. pure.
  - spread. repeat step1. cbn [enc]. rewrite <- app_assoc. cbn [wf] in *. pose proof p31_32.
    match goal with |- context [be 4 (zlen ?b)] => pose proof (zlen_nonneg b); rename b into au end.
    erewrite bind_ok by (apply rd_u32_be; unfold u32; lia).
    unfold bind at 1. cbv zeta. replace (Z.to_nat (zlen au)) with (length au) by (unfold zlen; rewrite Nat2Z.id; reflexivity).
    rewrite firstn_app_exact, skipn_app_exact by reflexivity. rewrite Nat.sub_diag, app_nil_r. reflexivity.
  - reflexivity.
  - reflexivity.
  - apply reports_code_error.
Qed.

(** ** Configurations and log directories *)
Lemma stay_e {B} t (p : parser B) (g : den t -> B) (Q : den t -> Prop) (l : list (den t)) r :
  (forall x r, wf t x -> Q x -> p (enc t x ++ r) = Ok (g x, r)) -> wf (TArr t) l -> Forall Q l -> zlen l <= 1 ->
  exists r', rd_arr (rd_stay p) (enc (TArr t) l ++ r) = Ok (map g l, r').
Proof.
  intros Hp [H1 H2] HQ Hl. destruct l as [|x [|y l]].
  - eexists. unfold rd_arr. cbn [enc flat_map]. rewrite <- app_assoc. erewrite bind_ok by (apply rd_u32_be; vm_compute; split; congruence). reflexivity.
  - inversion H2; subst. inversion HQ; subst. eexists. unfold rd_arr. cbn [enc flat_map]. rewrite <- !app_assoc.
    erewrite bind_ok by (apply rd_u32_be; vm_compute; split; congruence). change (@zlen (den t) [x]) with 1.
    unfold rd_make. change (1 <? 0) with false. cbv iota. change (Z.to_nat 1) with 1%nat. cbn [rd_n].
    unfold rd_stay at 1. erewrite bind_ok by (rewrite Hp by assumption; reflexivity). reflexivity.
  - rewrite !zlen_cons in Hl. pose proof (zlen_nonneg l). lia.
Qed.
Definition v_config (a : Z * (option bytes * (Z * bytes))) : Z * (bytes * (Z * bytes)) :=
  (fst a, (or_empty (fst (snd a)), (as_u 8 (fst (snd (snd a))), snd (snd (snd a))))).
Lemma h_alterconfigs : handled 33 0 P_AlterConfigs.
Proof.
  start P_AlterConfigs. open_pairs.
  match goal with H : wf (TArr _) ?l, K : zlen ?l <= 1, Q : Forall _ ?l |- _ =>
    destruct (stay_e (TI16 *** TNStr *** TI8 *** TStr) (ec <- rd_i16 ;; msg <- rd_str ;; ty <- rd_u8 ;; name <- rd_str ;; ret (ec, (msg, (ty, name)))) v_config (fun a : Z * (option bytes * (Z * bytes)) => fst (snd a) <> None) l []
      ltac:(intros x r Hx Hq; open_pairs; spread; repeat step1; erewrite bind_ok by (apply str_some; assumption); repeat step1; reflexivity) H Q K) as [r' E] end.
  pure.
  - spread. repeat step1. rewrite (bind_ok _ _ _ _ _ E). reflexivity.
  - reflexivity.
  - reflexivity.
  - apply reports_code_eq. rewrite map_map. reflexivity.
Qed.
Lemma h_incremental : handled 44 0 P_IncrementalAlterConfigs.
Proof.
  start P_IncrementalAlterConfigs. open_pairs.
  match goal with H : wf (TArr _) ?l, K : zlen ?l <= 1 |- _ =>
    destruct (stay_e (TI16 *** TNStr *** TI8 *** TStr) (ec <- rd_i16 ;; msg <- rd_ostr ;; ty <- rd_u8 ;; name <- rd_ostr ;; ret (ec, (msg, (ty, name)))) v_config (fun _ => True) l []
      ltac:(intros x r Hx _; open_pairs; spread; repeat step1; reflexivity) H (all_true l) K) as [r' E] end.
  pure.
  - spread. repeat step1. rewrite (bind_ok _ _ _ _ _ E). reflexivity.
  - reflexivity.
  - reflexivity.
  - apply reports_code_eq. rewrite map_map. reflexivity.
Qed.
