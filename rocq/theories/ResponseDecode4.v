(** ACLs and produce responses; the table [response_spec] as a whole. *)
From Verif Require Import Base BaseFacts Wire WireFacts Prims PrimsFacts Group GroupFacts Assign AssignFacts SortFacts RequestSpec Responses ResponseSpec ResponseFacts ResponseDecode ResponseDecode2 ResponseDecode3.
Local Open Scope ty_scope.

(** ** DeleteAcls *)
Definition matching : Type := Z * (option bytes * (Z * (bytes * (Z * (bytes * (bytes * (Z * (Z * taggedFields)))))))).
Definition v_m0 (b : den R_Matching_0) : matching := let '(e, (m, (t, (n, (pr, (ho, (op, pe))))))) := b in
  (e, (m, (as_u 8 t, (n, (0, (pr, (ho, (as_u 8 op, (as_u 8 pe, []))))))))).
Definition v_m1 (b : den R_Matching_1) : matching := let '(e, (m, (t, (n, (pt, (pr, (ho, (op, pe)))))))) := b in
  (e, (m, (as_u 8 t, (n, (as_u 8 pt, (pr, (ho, (as_u 8 op, (as_u 8 pe, []))))))))).
Definition v_m2 (b : den R_Matching_2) : matching := let '(e, (m, (ty, (n, (pt, (pr, (ho, (op, (pe, t))))))))) := b in
  (e, (m, (as_u 8 ty, (n, (as_u 8 pt, (pr, (ho, (as_u 8 op, (as_u 8 pe, t))))))))).
Lemma m0_e x r : wf R_Matching_0 x -> rd_matching 0 false (enc R_Matching_0 x ++ r) = Ok (v_m0 x, r).
Proof. unfold rd_matching. cbv zeta. ifs. elem. Qed.
Lemma m1_e x r : wf R_Matching_1 x -> rd_matching 1 false (enc R_Matching_1 x ++ r) = Ok (v_m1 x, r).
Proof. unfold rd_matching. cbv zeta. ifs. elem. Qed.
Lemma m2_e v x r : 1 <=? v = true -> wf R_Matching_2 x -> rd_matching v true (enc R_Matching_2 x ++ r) = Ok (v_m2 x, r).
Proof. intros Hv. unfold rd_matching. cbv zeta. rewrite Hv. elem. Qed.
Definition aclresult : Type := Z * (option bytes * (list matching * taggedFields)).
Definition acl_told (rs : list aclresult) : Prop :=
  Forall (fun a : aclresult => told (fst a) (fst (snd a)) /\ Forall (fun b : matching => told (fst b) (fst (snd b))) (fst (snd (snd a)))) rs.
Definition aclresult_codes (rs : list aclresult) : list Z := flat_map (fun a : aclresult => fst a :: map fst (fst (snd (snd a)))) rs.
Lemma acl_error rs : acl_told rs ->
  exists o, first_message (flat_map (fun r : aclresult => (fst r, fst (snd r)) :: map (fun m : matching => (fst m, fst (snd m))) (fst (snd (snd r)))) rs) = Ok o
  /\ reports (aclresult_codes rs) o.
Proof.
  intros H. set (l := flat_map _ rs).
  assert (F : Forall (fun p => told (fst p) (snd p)) l).
  { unfold l. clear l. induction H as [|a rs [H1 H2] Hs IH]; cbn [flat_map]; [constructor|]. cbn [app]. constructor; [exact H1|].
    apply Forall_app. split; [|exact IH]. exact (told_fst (fun m : matching => (fst m, fst (snd m))) _ H2). }
  destruct (first_message_told _ F) as [o [Eo Ro]]. exists o. split; [exact Eo|].
  replace (aclresult_codes rs) with (map fst l); [exact Ro|]. unfold l, aclresult_codes. clear.
  induction rs as [|a rs IH]; [reflexivity|]. cbn [flat_map]. rewrite map_app, IH. f_equal. cbn [map fst]. f_equal. rewrite map_map. reflexivity.
Qed.
Lemma sint_len n : 0 <= n < 2 ^ 31 -> sint 32 n = n.
Proof. intros. apply sint_id; lia. Qed.

Definition T_DA (t : ty) : ty := TI16 *** TNStr *** TArr t.
Definition v_da {t} (f : den t -> matching) (a : Z * (option bytes * list (den t))) : aclresult :=
  (fst a, (fst (snd a), (map f (snd (snd a)), []))).
Lemma deleteacls_plain v t (f : den t -> matching) corr th (rs : list (den (T_DA t))) :
  2 <=? v = false -> (forall x r, wf t x -> rd_matching v false (enc t x ++ r) = Ok (f x, r)) ->
  u32 corr -> i32 th -> wf (TArr (T_DA t)) rs -> zlen rs <= 1 ->
  zlen (frame (be 4 corr ++ enc (TI32 *** TArr (T_DA t)) (th, rs) ++ [])) < 2 ^ 31 ->
  dec_deleteacls v (frame (be 4 corr ++ enc (TI32 *** TArr (T_DA t)) (th, rs) ++ [])) = Ok (RDeleteAcls corr [] th (map (v_da f) rs) []).
Proof.
  intros Hv Hf Hc Hth [Hw1 Hw2] Hl Hsz. unfold dec_deleteacls, rhv_from. rewrite Hv. cbv zeta iota.
  rewrite zlen_frame in *. unfold frame. set (s := be 4 corr ++ _) in *. pose proof (zlen_nonneg s).
  rewrite rd_i32_be by (unfold i32; lia). rewrite Z.eqb_refl. unfold s. spread. unfold rd_header.
  erewrite bind_ok by (repeat step1; reflexivity). erewrite bind_ok by (apply i32_e; exact Hth).
  unfold rd_iarr at 1. cbn [enc]. rewrite <- app_assoc. rewrite app_nil_r.
  destruct rs as [|a [|b l]].
  - vm_compute. reflexivity.
  - rewrite (bind_ok _ _ _ (map (v_da f) [a]) []).
    2:{ erewrite bind_ok by (apply rd_i32_be; vm_compute; split; congruence). change (@zlen (den (T_DA t)) [a]) with 1. unfold rd_make.
        change (1 <? 0) with false. cbv iota. change (Z.to_nat 1) with 1%nat. cbn [rd_n flat_map]. inversion Hw2; subst.
        destruct a as [e [m ms]]. match goal with H : wf (T_DA t) _ |- _ => destruct H as [K1 [K2 K3]] end. cbn [fst snd] in *.
        unfold T_DA. cbn [app]. spread. erewrite bind_ok.
        2:{ repeat step1. erewrite bind_ok by (apply (iarr_e t _ f); [exact Hf|exact K3]). erewrite bind_ok by reflexivity. reflexivity. }
        erewrite bind_ok by reflexivity. reflexivity. }
    reflexivity.
  - rewrite !zlen_cons in Hl. pose proof (zlen_nonneg l). lia.
Qed.
Lemma da_codes {t} (f : den t -> matching) (g : den t -> Z) (rs : list (Z * (option bytes * list (den t)))) :
  (forall x, fst (f x) = g x) -> acl_codes g (map (fun a => (fst a, snd (snd a))) rs) = aclresult_codes (map (v_da f) rs).
Proof.
  intros H. unfold acl_codes, aclresult_codes. induction rs as [|a rs IH]; [reflexivity|]. cbn [map flat_map v_da fst snd app]. rewrite IH. do 2 f_equal.
  rewrite map_map. apply map_ext. auto.
Qed.
Lemma da_told {t} (f : den t -> matching) (g : den t -> Z) (h : den t -> option bytes) (rs : list (Z * (option bytes * list (den t)))) :
  (forall x, fst (f x) = g x) -> (forall x, fst (snd (f x)) = h x) ->
  Forall (fun a => told (fst a) (fst (snd a)) /\ Forall (fun b => told (g b) (h b)) (snd (snd a))) rs -> acl_told (map (v_da f) rs).
Proof.
  intros H1 H2. induction 1 as [|a rs [K1 K2] Hs IH]; cbn [map]; constructor; [|exact IH]. split; [exact K1|]. cbn [v_da fst snd].
  induction K2; cbn [map]; constructor; auto. rewrite H1, H2. assumption.
Qed.
Lemma h_deleteacls_0 : handled 31 0 P_DeleteAcls_0.
Proof.
  start P_DeleteAcls_0. unfold R_DeleteAcls_0 in *. fold (T_DA R_Matching_0) in *. destruct x as [th rs]. destruct Hw as [H1 H2]. destruct Hok as [H3 H4].
  cbn [fst snd den] in *.
  assert (F : acl_told (map (v_da v_m0) rs)).
  { apply (da_told v_m0 fst (fun x => fst (snd x))); [| |exact H4]; intros [? [? [? [? [? [? [? ?]]]]]]]; reflexivity. }
  destruct (acl_error _ F) as [o [Eo Ro]].
  eapply answer_value.
  - cbn [parse]. apply (deleteacls_plain 0 R_Matching_0 v_m0); [reflexivity|exact m0_e|exact Hc|exact H1|exact H2|exact H3|exact Hsz].
  - cbv beta iota. f_equal. apply map_ext. intros [e [m ms]]. reflexivity.
  - exact Eo.
  - erewrite <- (da_codes v_m0 fst) in Ro; [exact Ro|]. intros [? [? [? [? [? [? [? ?]]]]]]]; reflexivity.
Qed.
Lemma h_deleteacls_1 : handled 31 1 P_DeleteAcls_1.
Proof.
  start P_DeleteAcls_1. unfold R_DeleteAcls_1 in *. fold (T_DA R_Matching_1) in *. destruct x as [th rs]. destruct Hw as [H1 H2]. destruct Hok as [H3 H4].
  cbn [fst snd den] in *.
  assert (F : acl_told (map (v_da v_m1) rs)).
  { apply (da_told v_m1 fst (fun x => fst (snd x))); [| |exact H4]; intros [? [? [? [? [? [? [? [? ?]]]]]]]]; reflexivity. }
  destruct (acl_error _ F) as [o [Eo Ro]].
  eapply answer_value.
  - cbn [parse]. apply (deleteacls_plain 1 R_Matching_1 v_m1); [reflexivity|exact m1_e|exact Hc|exact H1|exact H2|exact H3|exact Hsz].
  - cbv beta iota. f_equal. apply map_ext. intros [e [m ms]]. reflexivity.
  - exact Eo.
  - erewrite <- (da_codes v_m1 fst) in Ro; [exact Ro|]. intros [? [? [? [? [? [? [? [? ?]]]]]]]]; reflexivity.
Qed.
Definition T_DA2 : ty := TI16 *** TCNStr *** TCArr R_Matching_2 *** TTags.
Definition v_da2 (a : den T_DA2) : aclresult := let '(e, (m, (ms, t))) := a in (e, (m, (map v_m2 ms, t))).
Lemma da2_e v x r : 1 <=? v = true -> wf T_DA2 x ->
  (ec <- rd_i16 ;; m <- compactNullableString ;; ms <- rd_carr (rd_matching v true) ;; t <- decodeTaggedFields ;; ret (ec, (m, (ms, t)))) (enc T_DA2 x ++ r)
  = Ok (v_da2 x, r).
Proof.
  intros Hv Hw. open_pairs. spread. repeat step1.
  erewrite bind_ok by (apply (carr_e R_Matching_2 _ v_m2); [intros; apply m2_e; assumption|assumption]). step1. reflexivity.
Qed.
Lemma h_deleteacls_2 v : rflexible 31 v = true -> 2 <=? v = true -> handled 31 v P_DeleteAcls_2.
Proof.
  intros Hv Hv2 corr ht x Hc Ht Hflex Hw Hok Hsz. cbv zeta. rewrite bytes_flex in * by exact Hv. cbn [s_ty s_shown s_codes s_ok P_DeleteAcls_2] in *.
  unfold R_DeleteAcls_2 in *. fold T_DA2 in *. destruct x as [th [rs tg]]. destruct Hw as [H1 [H2 H3]]. cbn [fst snd den] in *.
  assert (Hv1 : 1 <=? v = true) by lia.
  assert (F : acl_told (map v_da2 rs)).
  { clear -Hok. induction Hok as [|a rs [K1 K2] Hs IH]; cbn [map]; constructor; [|exact IH]. destruct a as [e [m [ms t]]]. cbn [fst snd v_da2] in *.
    split; [exact K1|]. cbn [fst snd]. clear -K2. induction K2 as [|b ms H Hs IH]; cbn [map]; constructor; [|exact IH].
    destruct b as [? [? [? [? [? [? [? [? [? ?]]]]]]]]]. exact H. }
  destruct (acl_error _ F) as [o [Eo Ro]].
  eapply answer_value.
  - cbn [parse]. unfold dec_deleteacls, rhv_from. rewrite Hv2. cbv zeta iota.
    rewrite zlen_frame in *. unfold frame. set (s := be 4 corr ++ _) in *. pose proof (zlen_nonneg s).
    rewrite rd_i32_be by (unfold i32; lia). rewrite Z.eqb_refl. unfold s. spread. unfold rd_header.
    erewrite bind_ok by (repeat step1; reflexivity). repeat step1.
    erewrite bind_ok by (apply (carr_e T_DA2 _ v_da2); [intros; apply da2_e; assumption|exact H2]). repeat step1. reflexivity.
  - reflexivity.
  - exact Eo.
  - replace (acl_codes _ _) with (aclresult_codes (map v_da2 rs)); [exact Ro|]. clear. unfold acl_codes, aclresult_codes.
    induction rs as [|a rs IH]; [reflexivity|]. cbn [map flat_map]. rewrite IH. f_equal. destruct a as [e [m [ms t]]]. cbn [v_da2 fst snd]. f_equal.
    rewrite map_map. apply map_ext. intros [? [? [? [? [? [? [? [? [? ?]]]]]]]]]. reflexivity.
Qed.

(** ** DescribeAcls *)
Definition v_acl0 (b : bytes * (bytes * (Z * Z))) : bytes * (bytes * (Z * (Z * taggedFields))) :=
  let '(pr, (ho, (op, pe))) := b in (pr, (ho, (as_u 8 op, (as_u 8 pe, [])))).
Definition v_acl2 (b : den R_Acl_2) : bytes * (bytes * (Z * (Z * taggedFields))) :=
  let '(pr, (ho, (op, (pe, t)))) := b in (pr, (ho, (as_u 8 op, (as_u 8 pe, t)))).
Lemma acl0_e x r : wf R_Acl_0 x -> rd_acl 0 (enc R_Acl_0 x ++ r) = Ok (v_acl0 x, r).
Proof. unfold rd_acl. cbv zeta. ifs. elem. Qed.
Lemma acl2_e x r : wf R_Acl_2 x -> rd_acl 2 (enc R_Acl_2 x ++ r) = Ok (v_acl2 x, r).
Proof. unfold rd_acl. cbv zeta. ifs. elem. Qed.
Definition T_AR0 : ty := TI8 *** TStr *** TArr R_Acl_0.
Definition T_AR2 : ty := TI8 *** TCStr *** TI8 *** TCArr R_Acl_2 *** TTags.
Definition v_ar0 (a : den T_AR0) : Z * (bytes * (Z * (list (bytes * (bytes * (Z * (Z * taggedFields)))) * taggedFields))) :=
  let '(t, (n, acls)) := a in (as_u 8 t, (n, (0, (map v_acl0 acls, [])))).
Definition v_ar2 (a : den T_AR2) : Z * (bytes * (Z * (list (bytes * (bytes * (Z * (Z * taggedFields)))) * taggedFields))) :=
  let '(ty, (n, (pt, (acls, t)))) := a in (as_u 8 ty, (n, (as_u 8 pt, (map v_acl2 acls, t)))).
Lemma ar0_e x r : wf T_AR0 x -> rd_aclresource 0 (enc T_AR0 x ++ r) = Ok (v_ar0 x, r).
Proof.
  intros Hw. open_pairs. spread. unfold rd_aclresource. ifs. repeat step1. erewrite bind_ok by (apply count_u32; assumption).
  erewrite bind_ok by (apply (make_all R_Acl_0 _ v_acl0); [exact acl0_e|match goal with H : wf (TArr _) _ |- _ => apply H end]).
  repeat step1. reflexivity.
Qed.
Lemma ar2_e x r : wf T_AR2 x -> rd_aclresource 2 (enc T_AR2 x ++ r) = Ok (v_ar2 x, r).
Proof.
  intros Hw. open_pairs. spread. unfold rd_aclresource. ifs. repeat step1.
  erewrite bind_ok by (erewrite bind_ok by (apply count_carr; assumption); reflexivity).
  match goal with H : wf (TCArr _) ?l |- _ => pose proof (proj1 H); pose proof (@zlen_nonneg (den R_Acl_2) l); pose proof p31_32; cbn [den] in * end.
  unfold uint. rewrite Z.mod_small by lia.
  erewrite bind_ok by (apply (make_all R_Acl_2 _ v_acl2); [exact acl2_e|match goal with H : wf (TCArr _) _ |- _ => apply H end]).
  repeat step1. reflexivity.
Qed.
Lemma not_null {A} (l : list A) : zlen l =? -1 = false.
Proof. pose proof (zlen_nonneg l). lia. Qed.
Lemma skip4 n s : rd_skip 4 (be 4 n ++ s) = Ok (tt, s).
Proof. reflexivity. Qed.
Lemma h_describeacls_0 : handled 29 0 P_DescribeAcls_0.
Proof.
  start P_DescribeAcls_0. unfold R_DescribeAcls_0 in *. fold T_AR0 in *. open_pairs.
  eapply answer_value.
  - cbn [parse]. unfold dec_describeacls, frame. ifs. erewrite bind_ok by apply skip4. spread. repeat step1.
    erewrite bind_ok by (apply count_arr; assumption). rewrite not_null.
    erewrite bind_ok by (erewrite bind_ok by (apply (make_all T_AR0 _ v_ar0); [exact ar0_e|match goal with H : wf (TArr _) _ |- _ => apply H end]); reflexivity).
    repeat step1. reflexivity.
  - reflexivity.
  - reflexivity.
  - apply reports_kafka_error.
Qed.
Lemma h_describeacls_2 : handled 29 2 P_DescribeAcls_2.
Proof.
  start P_DescribeAcls_2. unfold R_DescribeAcls_2 in *. fold T_AR2 in *. open_pairs.
  eapply answer_value.
  - cbn [parse]. unfold dec_describeacls, frame. ifs. erewrite bind_ok by apply skip4. spread. repeat step1.
    erewrite bind_ok by (apply count_carr; assumption). rewrite not_null.
    erewrite bind_ok by (erewrite bind_ok by (apply (make_all T_AR2 _ v_ar2); [exact ar2_e|match goal with H : wf (TCArr _) _ |- _ => apply H end]); reflexivity).
    repeat step1. reflexivity.
  - reflexivity.
  - reflexivity.
  - apply reports_kafka_error.
Qed.

(** ** Produce *)
Lemma ppart_e x r : wf R_PPart_9 x -> exists r', rd_produce_partition 9 true (enc R_PPart_9 x ++ r) = Ok (v_ppart_9 x, r').
Proof.
  intros Hw. open_pairs. eexists. spread. unfold rd_produce_partition. cbv zeta. ifs. repeat step1.
  erewrite bind_ok by (apply (carr_e (TI32 *** TCNStr *** TTags) _ (fun x : Z * (option bytes * list (Z * bytes)) => (fst x, fst (snd x)))); [elem|assumption]).
  repeat step1. reflexivity.
Qed.
Lemma carr_one {B} t (p : parser B) (x : den t) r a r' : p (enc t x ++ r) = Ok (a, r') -> rd_carr p (enc (TCArr t) [x] ++ r) = Ok ([a], r').
Proof.
  intros H. unfold rd_carr. cbn [enc]. rewrite <- app_assoc. change (@zlen (den t) [x] + 1) with (1 + 1).
  erewrite bind_ok by (apply compactArrayLength_wire; vm_compute; split; congruence).
  unfold rd_make. change (1 <? 0) with false. cbv iota. change (Z.to_nat 1) with 1%nat. cbn [rd_n flat_map]. rewrite app_nil_r.
  rewrite (bind_ok _ _ _ _ _ H). reflexivity.
Qed.
Lemma no_tags x r : 0 <= x < 2 ^ 24 -> exists r', decodeTaggedFields (be 4 x ++ r) = Ok ([], r').
Proof.
  intros H. eexists. cbn [be app]. change (Z.of_nat 3) with 3. rewrite (Z.div_small x (256 ^ 3)) by exact H. reflexivity.
Qed.
Lemma h_produce_9 : handled 0 9 P_Produce_9.
Proof.
  start P_Produce_9. unfold R_Produce_9 in *. destruct x as [ts [th tg]]. destruct Hw as [H1 [H2 H3]].
  destruct Hok as [t [p [tags [E Hp]]]]. cbn [fst snd] in *. subst ts.
  destruct H1 as [_ H1]. inversion H1 as [|? ? [K1 [K2 K3]] _]; subst. cbn [fst snd] in *. destruct K2 as [_ K2]. inversion K2 as [|? ? Kp _]; subst.
  assert (T : exists r', rd_produce_topic 9 true (enc (TCStr *** TCArr R_PPart_9 *** TTags) (t, ([p], tags)) ++ enc (TI32 *** TTags) (th, tg) ++ [])
              = Ok ((t, [v_ppart_9 p]), r')).
  { repeat rewrite enc_pair. rewrite <- ?app_assoc. unfold rd_produce_topic. cbv iota. step1.
    match goal with |- context [enc (TCArr R_PPart_9) [p] ++ ?s] => destruct (ppart_e p s Kp) as [r1 E1];
      assert (E2 : rd_carr (rd_stay (rd_produce_partition 9 true)) (enc (TCArr R_PPart_9) [p] ++ s) = Ok ([v_ppart_9 p], enc R_PPart_9 p ++ s)) end.
    { apply (carr_one R_PPart_9). unfold rd_stay. rewrite E1. reflexivity. }
    rewrite (bind_ok _ _ _ _ _ E2). destruct p as [i p']. unfold R_PPart_9. rewrite enc_pair. rewrite <- app_assoc. cbn [fst] in Hp.
    match goal with |- context [enc TI32 i ++ ?s] => destruct (no_tags i s Hp) as [r2 E3] end.
    eexists. erewrite bind_ok by exact E3. reflexivity. }
  destruct T as [r' T].
  pure.
  - unfold rd_header. ifs. erewrite bind_ok by (repeat step1; reflexivity). rewrite enc_pair. rewrite <- app_assoc.
    erewrite bind_ok by (exact (carr_one _ _ _ _ _ _ T)). reflexivity.
  - reflexivity.
  - reflexivity.
  - apply reports_code_eq. cbn [flat_map map app fst snd]. destruct p as [? [? [? [? [? [? [? ?]]]]]]]. reflexivity.
Qed.

(** ** The table *)
Theorem answer_table key v sp : response_spec key v = Some sp -> handled key v sp.
Proof.
  unfold response_spec. intros H.
  repeat (match type of H with context [match ?x with _ => _ end] => is_var x; destruct x; try discriminate H end).
  all: injection H as <-.
  all: first [exact h_produce_9 | exact h_deleteacls_0 | exact h_deleteacls_1 | exact (h_deleteacls_2 2 eq_refl eq_refl) | exact (h_deleteacls_2 3 eq_refl eq_refl)
    | exact h_describegroups | exact h_electleaders | exact h_describelogdirs | exact h_createtopics | exact h_joingroup | exact h_alterreassignments
    | exact h_describeacls_0 | exact h_describeacls_2 | exact h_createpartitions_0 | exact h_createpartitions_2 | exact h_leavegroup | exact h_alterconfigs
    | exact (h_saslhandshake 0 eq_refl) | exact (h_saslhandshake 1 eq_refl) | exact (h_offsetfetch 0 eq_refl) | exact (h_offsetfetch 1 eq_refl)
    | exact h_metadata_7 | exact h_metadata_4 | exact h_metadata_1 | exact h_listreassignments | exact h_syncgroup | exact h_deletegroups | exact h_apiversions
    | exact h_findcoordinator | exact h_incremental | exact h_saslauthenticate | exact h_deletetopics | exact h_heartbeat | exact h_describeconfigs
    | exact h_listgroups_0 | exact h_listgroups_5 | exact h_listgroups_3 | exact h_listgroups_4 | exact (h_listgroups_1 2 (or_intror eq_refl))
    | exact (h_listgroups_1 1 (or_introl eq_refl)) | exact (h_offsetcommit 0 eq_refl) | exact (h_offsetcommit 2 eq_refl) | exact h_offsets_0 | exact h_offsets_1].
Qed.
