(** The remaining administration APIs of the table [response_spec]; the table as a whole. *)
From Verif Require Import Base BaseFacts Wire WireFacts Prims PrimsFacts Group GroupFacts Assign AssignFacts SortFacts RequestSpec Responses ResponseSpec ResponseFacts ResponseDecode ResponseDecode2.
Local Open Scope ty_scope.

(** ** Configurations and log directories *)
Definition T_CResource : ty := TI16 *** TNStr *** TI8 *** TStr *** TArr R_CEntry.
Definition v_centry (c : bytes * (option bytes * (bool * (bool * bool)))) : bytes * (bytes * (bool * (bool * bool))) :=
  (fst c, (or_empty (fst (snd c)), snd (snd c))).
Definition v_cresource (a : den T_CResource) : Z * (bytes * (Z * (bytes * list (bytes * (bytes * (bool * (bool * bool))))))) :=
  let '(e, (m, (t, (n, es)))) := a in (e, (or_empty m, (as_u 8 t, (n, map v_centry es)))).
Lemma centry_e x r : wf R_CEntry x -> rd_centry (enc R_CEntry x ++ r) = Ok (v_centry x, r).
Proof. unfold rd_centry. elem. Qed.
Lemma empty_nstr m : or_empty m = [] -> exists a b, enc TNStr m = [a; b].
Proof. destruct m as [s|]; cbn; [intros ->|intros _]; eexists _, _; reflexivity. Qed.
Lemma cresource_e x r : wf T_CResource x -> (fst x = 0 -> or_empty (fst (snd x)) = []) ->
  rd_cresource (enc T_CResource x ++ r) = Ok (v_cresource x, r).
Proof.
  intros Hw Hm. open_pairs. spread. unfold rd_cresource. step1.
  match goal with |- bind _ ?k (enc TNStr ?m ++ ?s) = _ =>
    assert (E : (if d =? 0 then (_ <- rd_skip 2 ;; ret []) else rd_ostr) (enc TNStr m ++ s) = Ok (or_empty m, s)) end.
  { destruct (Z.eqb_spec d 0) as [E|E]; [|apply ostr_e; assumption].
    rewrite (Hm E). destruct (empty_nstr _ (Hm E)) as [a [b ->]]. reflexivity. }
  rewrite (bind_ok _ _ _ _ _ E). step1.
  match goal with |- context [enc TStr ?s ++ ?q] => assert (L : rd_i16 (enc TStr s ++ q) = Ok (zlen s, s ++ q)) end.
  { cbn [enc]. rewrite <- app_assoc. cbn [wf] in *. apply rd_i16_be. unfold i16.
    match goal with |- context [zlen ?s] => pose proof (zlen_nonneg s) end. lia. }
  rewrite (bind_ok _ _ _ _ _ L). rewrite nonneg_count. erewrite bind_ok by apply rd_bytes_app.
  erewrite bind_ok by (apply (arr_e R_CEntry _ v_centry); [exact centry_e|eassumption]). reflexivity.
Qed.
Lemma h_describeconfigs : handled 32 0 P_DescribeConfigs.
Proof.
  start P_DescribeConfigs. unfold R_DescribeConfigs_0 in *. fold T_CResource in *. open_pairs. pure.
  - spread. repeat step1.
    erewrite bind_ok.
    2:{ apply (arr_q T_CResource _ v_cresource (fun a : den T_CResource => fst a = 0 -> or_empty (fst (snd a)) = [])); [exact cresource_e|eassumption|exact Hok]. }
    reflexivity.
  - reflexivity.
  - reflexivity.
  - apply reports_text_eq. rewrite map_map. apply map_ext. intros [? [? [? [? ?]]]]. reflexivity.
Qed.

Definition T_LDPart : ty := TI32 *** TI64 *** TI64 *** TBool.
Definition T_LDir : ty := TI16 *** TStr *** TArr (TStr *** TArr T_LDPart).
Lemma ldtopic_e x r : wf (TStr *** TArr T_LDPart) x -> rd_logdir_topic (enc (TStr *** TArr T_LDPart) x ++ r) = Ok (x, r).
Proof.
  intros Hw. open_pairs. spread. unfold rd_logdir_topic. step1.
  erewrite bind_ok by (apply (arr_e T_LDPart _ (fun a : den T_LDPart => a)); [elem|eassumption]). rewrite map_id. reflexivity.
Qed.
Lemma ldir_e x r : wf T_LDir x ->
  (ec <- rd_i16 ;; dir <- rd_str ;; ts <- rd_arr rd_logdir_topic ;; ret (ec, (dir, ts))) (enc T_LDir x ++ r) = Ok (x, r).
Proof.
  intros Hw. open_pairs. spread. repeat step1.
  erewrite bind_ok by (apply (arr_e (TStr *** TArr T_LDPart) _ (fun a : den (TStr *** TArr T_LDPart) => a)); [exact ldtopic_e|eassumption]).
  rewrite map_id. reflexivity.
Qed.
Lemma h_describelogdirs : handled 35 0 P_DescribeLogDirs.
Proof.
  start P_DescribeLogDirs. unfold R_DescribeLogDirs_0 in *. fold T_LDPart in *. fold T_LDir in *. open_pairs.
  eapply answer_value.
  - cbn [parse]. unfold dec_describelogdirs, frame at 1. rewrite rd_u32_be.
    2:{ apply size_of in Hsz. split; [apply zlen_nonneg|exact Hsz]. }
    eapply whole_ok; [sized|]. erewrite bind_ok by reflexivity.
    match goal with |- bind _ _ ?s = _ => change s with (enc (TI32 *** TArr T_LDir) (d, d0) ++ []) end. spread. step1.
    erewrite bind_ok by (apply (arr_e T_LDir _ (fun a : den T_LDir => a)); [exact ldir_e|eassumption]). rewrite map_id. reflexivity.
  - eexists. reflexivity.
  - reflexivity.
  - apply reports_first_code.
Qed.

(** ** CreatePartitions *)
Definition T_CP0 : ty := TStr *** TI16 *** TNStr.
Definition T_CP2 : ty := TCStr *** TI16 *** TCNStr *** TTags.
Definition v_cp2 (a : bytes * (Z * (option bytes * list (Z * bytes)))) : bytes * (Z * option bytes) := (fst a, (fst (snd a), fst (snd (snd a)))).
Lemma cp0_e x r : wf T_CP0 x -> rd_cpresult 0 (enc T_CP0 x ++ r) = Ok (x, r).
Proof. unfold rd_cpresult. ifs. elem. Qed.
Lemma cp2_e (x : den T_CP2) r : wf T_CP2 x -> snd (snd (snd x)) = [] -> rd_cpresult 2 (enc T_CP2 x ++ r) = Ok (v_cp2 x, 0 :: r).
Proof. intros Hw Ht. unfold rd_cpresult. ifs. open_pairs. subst. spread. repeat step1. reflexivity. Qed.
Lemma cp2_loop (l : list (den T_CP2)) r : Forall (wf T_CP2) l -> Forall (fun x : den T_CP2 => snd (snd (snd x)) = []) l ->
  rd_n (length l) (_ <- rd_skip 1 ;; rd_cpresult 2) (0 :: flat_map (enc T_CP2) l ++ r) = Ok (map v_cp2 l, 0 :: r).
Proof.
  induction l as [|x l IH]; intros Hw Ht; cbn [length rd_n flat_map map]; [reflexivity|].
  inversion Hw; subst. inversion Ht; subst. rewrite <- app_assoc.
  erewrite bind_ok by (erewrite bind_ok by reflexivity; apply cp2_e; assumption).
  erewrite bind_ok by (apply IH; assumption). reflexivity.
Qed.
Lemma told_fst {A} (f : A -> Z * option bytes) (l : list A) : Forall (fun a => told (fst (f a)) (snd (f a))) l ->
  Forall (fun p => told (fst p) (snd p)) (map f l).
Proof. induction 1; cbn [map]; constructor; auto. Qed.
Lemma h_createpartitions_0 : handled 37 0 P_CreatePartitions_0.
Proof.
  start P_CreatePartitions_0. unfold R_CreatePartitions_0 in *. fold T_CP0 in *. open_pairs. rename d0 into l. cbn [den] in l.
  assert (F : Forall (fun p => told (fst p) (snd p)) (map snd l)) by (apply told_fst; assumption).
  destruct (first_message_told _ F) as [o [Eo Ro]].
  eapply (answer_value _ _ _ (RCreatePartitions corr d l)).
  - cbn [parse]. unfold dec_createpartitions. rewrite whole_eq by sized. spread. ifs. repeat step1.
    erewrite bind_ok by (apply count_u32; eassumption). pose proof (zlen_nonneg l).
    destruct (Z.ltb_spec (zlen l) 0); [lia|]. rewrite to_nat_zlen.
    destruct l as [|a [|b l]].
    + reflexivity.
    + cbn [length rd_cpresults]. erewrite bind_ok; [reflexivity|]. cbn [flat_map]. rewrite <- app_assoc.
      match goal with H : wf (TArr T_CP0) _ |- _ => destruct H as [_ H]; inversion H; subst end.
      erewrite bind_ok by (apply cp0_e; assumption). reflexivity.
    + rewrite !zlen_cons in *. pose proof (zlen_nonneg l). lia.
  - reflexivity.
  - exact Eo.
  - rewrite map_map in Ro. exact Ro.
Qed.
Lemma h_createpartitions_2 : handled 37 2 P_CreatePartitions_2.
Proof.
  start P_CreatePartitions_2. unfold R_CreatePartitions_2 in *. fold T_CP2 in *. destruct x as [d [l tg]]. destruct Hw as [H1 [H2 H3]]. destruct Hok as [H4 H5].
  cbn [fst snd den] in *. subst ht.
  assert (F : Forall (fun p => told (fst p) (snd p)) (map snd (map v_cp2 l))).
  { rewrite map_map. apply told_fst. eapply Forall_impl; [|exact H5]. intros a [K _]. exact K. }
  assert (G : Forall (fun x : den T_CP2 => snd (snd (snd x)) = []) l).
  { eapply Forall_impl; [|exact H5]. intros a [_ K]. exact K. }
  destruct (first_message_told _ F) as [o [Eo Ro]].
  eapply (answer_value _ _ _ (RCreatePartitions corr d (map v_cp2 l))).
  - cbn [parse]. unfold dec_createpartitions. rewrite whole_eq by sized. spread. ifs. step1. erewrite bind_ok by reflexivity.
    match goal with |- context [bind _ _ ?s] => change s with (enc TI32 d ++ enc (TCArr T_CP2) l ++ enc TTags tg ++ []) end. step1.
    erewrite bind_ok by (apply count_carr; exact H2). pose proof (zlen_nonneg l). cbn [den] in *.
    destruct (Z.ltb_spec (zlen l) 0); [lia|]. rewrite to_nat_zlen.
    destruct H2 as [_ H2]. cbn [den] in *.
    destruct l as [|a l].
    + reflexivity.
    + cbn [length rd_cpresults]. inversion H2; subst. inversion G; subst. cbn [flat_map]. rewrite <- app_assoc.
      erewrite bind_ok; [reflexivity|]. erewrite bind_ok by (apply cp2_e; assumption).
      erewrite bind_ok by (apply cp2_loop; assumption). reflexivity.
  - reflexivity.
  - exact Eo.
  - rewrite !map_map in Ro. exact Ro.
Qed.

(** ** Reassignments *)
Definition v_lrpart (p : den R_LRPart) : Z * (list Z * (list Z * list Z)) := let '(i, (a, (b, (c, pt)))) := p in (i, (a, (b, c))).
Lemma tagcount_nil r : rd_tagcount (enc TTags [] ++ r) = Ok (tt, r).
Proof. reflexivity. Qed.
Lemma tagcount_e t r : wf TTags t -> exists r', rd_tagcount (enc TTags t ++ r) = Ok (tt, r').
Proof.
  intros [H _]. cbn [enc]. rewrite <- app_assoc. eexists. unfold rd_tagcount. erewrite bind_ok; [reflexivity|]. apply rd_uvarint_app.
  pose proof (zlen_nonneg t). split; [assumption|]. etransitivity; [exact H|]. reflexivity.
Qed.
Lemma lrpart_e (x : den R_LRPart) r : wf R_LRPart x -> snd (snd (snd (snd x))) = [] -> rd_lr_partition (enc R_LRPart x ++ r) = Ok (v_lrpart x, r).
Proof.
  intros Hw Ht. open_pairs. subst. spread. unfold rd_lr_partition. repeat step1. erewrite bind_ok by apply tagcount_nil. reflexivity.
Qed.
Definition T_LRTopic : ty := TCStr *** TCArr R_LRPart *** TTags.
Definition v_lrtopic (t : bytes * (list (den R_LRPart) * list (Z * bytes))) : bytes * list (Z * (list Z * (list Z * list Z))) :=
  (fst t, map v_lrpart (fst (snd t))).
Lemma lrtopic_e (x : den T_LRTopic) r : wf T_LRTopic x ->
  snd (snd x) = [] /\ Forall (fun p : den R_LRPart => snd (snd (snd (snd p))) = []) (fst (snd x)) ->
  rd_lr_topic (enc T_LRTopic x ++ r) = Ok (v_lrtopic x, r).
Proof.
  intros Hw [Ht Hp]. open_pairs. subst. spread. unfold rd_lr_topic. step1.
  erewrite bind_ok by (apply (carr_pos_q R_LRPart _ v_lrpart (fun p : den R_LRPart => snd (snd (snd (snd p))) = [])); [exact lrpart_e|assumption|exact Hp]).
  erewrite bind_ok by apply tagcount_nil. reflexivity.
Qed.
Lemma h_listreassignments : handled 46 0 P_ListReassignments.
Proof.
  start P_ListReassignments. unfold R_ListReassignments_0 in *. fold T_LRTopic in *. destruct x as [th [e [m [ts tg]]]].
  destruct Hw as [H1 [H2 [H3 [H4 H5]]]]. destruct Hok as [-> [-> [-> Hok]]]. cbn [fst snd den] in *.
  destruct (tagcount_e tg [] H5) as [r' Er].
  pure.
  - spread. step1.
    match goal with |- bind _ _ ?s = _ => change s with (enc TI32 0 ++ enc TI16 0 ++ [0] ++ enc TCNStr m ++ enc (TCArr T_LRTopic) ts ++ enc TTags tg ++ []) end.
    erewrite bind_ok by (apply i32_e; exact H1). erewrite bind_ok by (apply i16_e; exact H2).
    erewrite bind_ok by reflexivity.
    match goal with |- bind _ _ ?s = _ => change s with (enc TCNStr m ++ enc (TCArr T_LRTopic) ts ++ enc TTags tg ++ []) end. step1.
    erewrite bind_ok by (apply (carr_pos_q T_LRTopic _ v_lrtopic
      (fun x : den T_LRTopic => snd (snd x) = [] /\ Forall (fun p : den R_LRPart => snd (snd (snd (snd p))) = []) (fst (snd x)))); [exact lrtopic_e|exact H4|exact Hok]).
    rewrite (bind_ok _ _ _ _ _ Er). reflexivity.
  - reflexivity.
  - reflexivity.
  - apply reports_code_error.
Qed.
Definition T_ARTopic : ty := TCStr *** TCArr R_ARPart *** TTags.
Lemma artopic_e x r : wf T_ARTopic x -> rd_ar_topic (enc T_ARTopic x ++ r) = Ok (x, r).
Proof.
  intros Hw. open_pairs. spread. unfold rd_ar_topic. step1.
  erewrite bind_ok by (apply (carr_e R_ARPart _ (fun a : den R_ARPart => a)); [elem|assumption]). rewrite map_id. step1. reflexivity.
Qed.
Lemma h_alterreassignments : handled 45 0 P_AlterReassignments.
Proof.
  start P_AlterReassignments. unfold R_AlterReassignments_0 in *. fold T_ARTopic in *. destruct x as [th [e [m [ts tg]]]].
  destruct Hw as [H1 [H2 [H3 [H4 H5]]]]. destruct Hok as [Hm Hts]. cbn [fst snd den] in *.
  assert (F : Forall (fun p => told (fst p) (snd p))
    ((e, m) :: flat_map (fun t : den T_ARTopic => map (fun p : den R_ARPart => (fst (snd p), fst (snd (snd p)))) (fst (snd t))) ts)).
  { constructor; [exact Hm|]. clear -Hts. induction Hts as [|t ts H Hts IH]; cbn [flat_map]; [constructor|].
    apply Forall_app. split; [|exact IH]. apply (told_fst (fun p : den R_ARPart => (fst (snd p), fst (snd (snd p))))). exact H. }
  destruct (first_message_told _ F) as [o [Eo Ro]].
  eapply answer_value.
  - cbn [parse]. unfold dec_alterreassignments.
    rewrite zlen_frame in *. unfold frame. set (s := be 4 corr ++ _). fold s in Hsz. pose proof (zlen_nonneg s).
    rewrite rd_i32_be by (unfold i32; lia). rewrite Z.eqb_refl. unfold s. spread. unfold rd_header.
    erewrite bind_ok by (repeat step1; reflexivity). repeat step1.
    erewrite bind_ok by (apply (opt_carr_q T_ARTopic _ (fun a : den T_ARTopic => a) (fun _ => True)); [intros; apply artopic_e; assumption|exact H4|apply all_true]).
    rewrite map_id. repeat step1. reflexivity.
  - reflexivity.
  - exact Eo.
  - cbn [map fst] in Ro. rewrite flat_map_concat_map in Ro. rewrite concat_map, map_map in Ro. rewrite <- flat_map_concat_map in Ro.
    erewrite flat_map_ext in Ro; [exact Ro|]. intros t. cbv beta. rewrite map_map. reflexivity.
Qed.
