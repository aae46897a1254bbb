(** Every API and version of the table [response_spec] is handled as specified. *)
From Verif Require Import Base BaseFacts Wire WireFacts Prims PrimsFacts Group GroupFacts Assign AssignFacts SortFacts RequestSpec Responses ResponseSpec ResponseFacts.
Local Open Scope ty_scope.

Lemma bytes_plain key v corr ht b : rflexible key v = false -> response_bytes key v corr ht b = frame (be 4 corr ++ b ++ []).
Proof. intros H. unfold response_bytes, rheader_bytes. rewrite H, !app_nil_r. reflexivity. Qed.
Lemma bytes_flex key v corr ht b : rflexible key v = true -> response_bytes key v corr ht b = frame (be 4 corr ++ enc TTags ht ++ b ++ []).
Proof. intros H. unfold response_bytes, rheader_bytes. rewrite H, <- app_assoc, app_nil_r. reflexivity. Qed.
Lemma size_of s : zlen (frame s) < 2 ^ 31 -> zlen s < 2 ^ 32.
Proof. rewrite zlen_frame. pose proof p31_32. lia. Qed.
Lemma whole_err {A} (p : parser A) s o a r : zlen s < 2 ^ 32 -> p s = match o with None => Ok (a, r) | Some e => Err e end ->
  whole p (frame s) = match o with None => Ok a | Some e => Err e end.
Proof. intros H E. rewrite whole_eq, E by exact H. destruct o; reflexivity. Qed.

(* the value, its error read off the value *)
Ltac start P := let H := fresh "Hflex" in
  intros corr ht x Hc Ht H Hw Hok Hsz; cbv zeta;
  match goal with
  | |- context [response_bytes ?k ?v _ _ _] =>
      let f := eval vm_compute in (rflexible k v) in
      match f with
      | true => rewrite bytes_flex in * by reflexivity
      | false => rewrite bytes_plain in * by reflexivity; rewrite (H eq_refl) in *; clear Ht
      end
  end; clear H; cbn [s_ty s_shown s_codes s_ok P] in *.
Ltac sized := apply size_of; match goal with H : zlen (frame _) < _ |- _ => exact H end.
Ltac pure := eapply answer_value; [cbn [parse]; eapply whole_ok; [sized|]| | |].
Ltac checked := eapply answer_checked; [cbn [parse]; eapply whole_err; [sized|]| | | |].
Ltac elem := intros; open_pairs; spread; repeat step1; reflexivity.
Ltac arr g := lazymatch goal with
  | |- bind (rd_arr _) _ (enc (TArr ?t) _ ++ _) = _ => erewrite bind_ok by (apply (arr_e t _ g); [elem | eassumption])
  | |- bind (rd_iarr _) _ (enc (TArr ?t) _ ++ _) = _ => erewrite bind_ok by (apply (iarr_e t _ g); [elem | eassumption])
  | |- bind (rd_carr _) _ (enc (TCArr ?t) _ ++ _) = _ => erewrite bind_ok by (apply (carr_e t _ g); [elem | eassumption])
  end.
Lemma h_heartbeat : handled 12 0 P_Heartbeat.
Proof.
  start P_Heartbeat. checked.
  - repeat step1. apply with_err_eq.
  - reflexivity.
  - apply reports_kafka_error.
  - reflexivity.
  - apply reports_code_error.
Qed.
Lemma h_leavegroup : handled 13 0 P_LeaveGroup.
Proof.
  start P_LeaveGroup. checked.
  - repeat step1. apply with_err_eq.
  - reflexivity.
  - apply reports_kafka_error.
  - reflexivity.
  - apply reports_code_error.
Qed.
Lemma h_apiversions : handled 18 0 P_ApiVersions.
Proof.
  start P_ApiVersions. open_pairs. pure.
  - spread. repeat step1. arr (fun a : Z * (Z * Z) => (as_u 16 (fst a), (as_u 16 (fst (snd a)), as_u 16 (snd (snd a))))). reflexivity.
  - reflexivity.
  - reflexivity.
  - apply reports_kafka_error.
Qed.
Lemma h_findcoordinator : handled 10 0 P_FindCoordinator.
Proof.
  start P_FindCoordinator. open_pairs. pure.
  - spread. repeat step1. reflexivity.
  - reflexivity.
  - reflexivity.
  - apply reports_code_error.
Qed.
Lemma h_joingroup : handled 11 0 P_JoinGroup.
Proof.
  start P_JoinGroup. open_pairs. checked.
  - spread. repeat step1. arr (fun a : bytes * bytes => a). rewrite map_id. apply with_err_eq.
  - reflexivity.
  - apply reports_kafka_error.
  - reflexivity.
  - apply reports_code_error.
Qed.
Lemma h_syncgroup : handled 14 0 P_SyncGroup.
Proof.
  start P_SyncGroup. open_pairs. checked.
  - spread. repeat step1. apply with_err_eq.
  - reflexivity.
  - apply reports_kafka_error.
  - reflexivity.
  - apply reports_kafka_error.
Qed.

(** ** Metadata *)
Section KeyedSort.
  Context {A K : Type} (key : A -> K) (ltk : K -> K -> bool) (HT : strict_total ltk).
  Let lt a b := ltk (key a) (key b).
  Let le a b := lt b a = false.
  Lemma keyed_insert x l : StronglySorted le l -> StronglySorted le (insert lt x l).
  Proof using HT.
    induction 1 as [|y l Hs IH Hy]; cbn [insert]; [repeat constructor|].
    destruct (lt y x) eqn:E.
    - constructor; [exact IH|]. apply (Permutation_Forall (Permutation_sym (insert_perm lt x l))).
      constructor; [|exact Hy]. exact (lt_leo ltk HT _ _ E).
    - constructor; [constructor; assumption|]. constructor; [exact E|].
      eapply Forall_impl; [|exact Hy]. intros z Hz. exact (leo_trans ltk HT _ _ _ E Hz).
  Qed.
  Lemma keyed_isort l : StronglySorted le (isort lt l).
  Proof using HT. induction l as [|x l IH]; cbn; [constructor|]. apply keyed_insert, IH. Qed.
End KeyedSort.

Definition sort_parts (t : Z * (bytes * (bool * list nopart))) : Z * (bytes * (bool * list nopart)) :=
  (fst t, (fst (snd t), (fst (snd (snd t)), isort id_lt (snd (snd (snd t)))))).
Lemma presented ts : presented_topics ts (map sort_parts (isort name_lt ts)).
Proof.
  exists (isort name_lt ts). split; [symmetry; apply isort_perm|]. split.
  - exact (keyed_isort (fun t : Z * (bytes * (bool * list nopart)) => fst (snd t)) bltb bltb_st ts).
  - induction (isort name_lt ts) as [|t l IH]; cbn [map]; constructor; [|exact IH].
    do 3 (split; [reflexivity|]). cbn [snd sort_parts]. split; [symmetry; apply isort_perm|].
    pose proof (keyed_isort (fun p : nopart => fst (snd p)) Z.ltb Zltb_st (snd (snd (snd t)))) as H.
    eapply (StronglySorted_ind (fun l => StronglySorted (fun a b => fst (snd a) <= fst (snd b)) l)); [| |exact H]; [constructor|].
    intros a l' Hs IH' Hf. constructor; [exact IH'|]. eapply Forall_impl; [|exact Hf]. intros b Hb. cbn in Hb |- *. lia.
Qed.
Lemma perm_flat_map {A B} (f : A -> list B) l l' : Permutation l l' -> Permutation (flat_map f l) (flat_map f l').
Proof.
  induction 1; cbn [flat_map]; auto.
  - apply Permutation_app_head. assumption.
  - rewrite !app_assoc. apply Permutation_app_tail, Permutation_app_comm.
  - etransitivity; eassumption.
Qed.
Lemma reports_perm cs cs' o : Permutation cs cs' -> reports cs o -> reports cs' o.
Proof.
  intros P [Hz Hn]. split; intros H.
  - apply Hz. unfold zeros in *. eapply Permutation_Forall; [symmetry; exact P|exact H].
  - destruct Hn as [e [c [? [? [? ?]]]]].
    + unfold nonzero in *. apply Exists_exists in H. destruct H as [x [Hx Hx']]. apply Exists_exists. exists x.
      split; [|exact Hx']. eapply Permutation_in; [symmetry; exact P|exact Hx].
    + exists e, c. repeat split; auto. eapply Permutation_in; eassumption.
Qed.
Lemma codes_sorted ts : Permutation
  (flat_map (fun t : Z * (bytes * (bool * list nopart)) => fst t :: map fst (snd (snd (snd t)))) ts)
  (flat_map (fun t : Z * (bytes * (bool * list nopart)) => fst t :: map fst (snd (snd (snd t)))) (map sort_parts (isort name_lt ts))).
Proof.
  etransitivity; [apply perm_flat_map; symmetry; apply (isort_perm name_lt)|].
  induction (isort name_lt ts) as [|t l IH]; cbn [map flat_map]; [reflexivity|].
  apply Permutation_app; [|exact IH]. cbn [fst snd sort_parts]. constructor.
  apply Permutation_map. symmetry. apply isort_perm.
Qed.

Lemma broker_e x r : wf R_Broker x -> rd_broker (enc R_Broker x ++ r) = Ok (v_broker x, r).
Proof. intros. open_pairs. spread. unfold rd_broker. repeat step1. reflexivity. Qed.
Lemma part_1 v x r : 7 <=? v = false -> wf R_Part_1 x -> rd_partition v (enc R_Part_1 x ++ r) = Ok (v_part_1 x, r).
Proof. intros Hv H. open_pairs. spread. unfold rd_partition. rewrite Hv. repeat step1. reflexivity. Qed.
Lemma part_7 x r : wf R_Part_7 x -> rd_partition 7 (enc R_Part_7 x ++ r) = Ok (x, r).
Proof. intros H. open_pairs. spread. unfold rd_partition. change (7 <=? 7) with true. cbv iota. repeat step1. reflexivity. Qed.
Lemma topic_e v t f x r : (forall x r, wf t x -> rd_partition v (enc t x ++ r) = Ok (f x, r)) ->
  wf (TI16 *** TStr *** TBool *** TArr t) x ->
  rd_topicmeta v (enc (TI16 *** TStr *** TBool *** TArr t) x ++ r) = Ok (v_topic f x, r).
Proof.
  intros Ht H. open_pairs. spread. unfold rd_topicmeta. repeat step1.
  erewrite bind_ok by (apply (arr_e t _ f); [exact Ht|eassumption]). reflexivity.
Qed.
Lemma cluster_e x r : wf TNStr x -> x <> None -> exists c, rd_cluster (enc TNStr x ++ r) = Ok (c, r).
Proof.
  destruct x as [s|]; [|congruence]. intros H _. cbn [wf enc] in *. pose proof (zlen_nonneg s). pose proof p15_16.
  unfold rd_cluster. rewrite <- app_assoc. rewrite rd_u16_be by (unfold u16; lia).
  assert (E : be 2 (zlen s) ++ s ++ r = firstn (length s) (be 2 (zlen s) ++ s ++ r) ++ skipn (length s) (be 2 (zlen s) ++ s ++ r)) by (symmetry; apply firstn_skipn).
  assert (L : zlen (firstn (length s) (be 2 (zlen s) ++ s ++ r)) = zlen s).
  { unfold zlen. rewrite firstn_length_le; [reflexivity|]. rewrite !app_length. lia. }
  assert (B : rd_bytes (zlen s) (be 2 (zlen s) ++ s ++ r) = Ok (firstn (length s) (be 2 (zlen s) ++ s ++ r), skipn (length s) (be 2 (zlen s) ++ s ++ r))).
  { rewrite <- L at 1. rewrite E at 2. apply rd_bytes_app. }
  cbv iota beta. rewrite B. cbv iota beta.
  eexists. unfold rd_skip. replace (Z.to_nat (zlen s)) with (length s) by (unfold zlen; lia).
  replace (Nat.leb (2 + length s) (length (be 2 (zlen s) ++ s ++ r))) with true.
  - cbn [be]. cbn [app Nat.add skipn]. rewrite skipn_app, skipn_all, Nat.sub_diag. reflexivity.
  - symmetry. apply Nat.leb_le. rewrite !app_length. cbn [be length]. lia.
Qed.
Lemma map_v_topic_codes {A} (f : A -> nopart) (g : A -> Z) (ts : list (Z * (bytes * (bool * list A)))) : (forall p, fst (f p) = g p) ->
  meta_codes g ts = flat_map (fun t : Z * (bytes * (bool * list nopart)) => fst t :: map fst (snd (snd (snd t)))) (map (v_topic f) ts).
Proof.
  intros H. unfold meta_codes. induction ts as [|[e [n [i ps]]] ts IH]; [reflexivity|]. cbn [flat_map map v_topic fst snd].
  rewrite IH. do 2 f_equal. rewrite map_map. apply map_ext. auto.
Qed.
Lemma v_part_code p : fst (v_part_1 p) = fst p.
Proof. destruct p as [? [? [? [? ?]]]]. reflexivity. Qed.

Lemma h_metadata_1 : handled 3 1 P_Metadata_1.
Proof.
  start P_Metadata_1. open_pairs. pure.
  - spread. ifs. repeat step1. erewrite bind_ok by (apply (arr_e R_Broker _ v_broker); [exact broker_e|eassumption]).
    repeat step1. erewrite bind_ok.
    2:{ apply (arr_e (TI16 *** TStr *** TBool *** TArr R_Part_1) _ (v_topic v_part_1)); [|eassumption]. intros y q. apply topic_e. intros. apply part_1; [reflexivity|assumption]. }
    reflexivity.
  - eexists. split; [|reflexivity]. apply presented.
  - reflexivity.
  - eapply reports_perm; [|apply reports_first_wrapped].
    rewrite (map_v_topic_codes v_part_1 fst _ v_part_code). symmetry. apply codes_sorted.
Qed.
Ltac cluster c := match goal with |- context [bind rd_cluster _ (enc TNStr ?x ++ ?r)] =>
    destruct (cluster_e x r ltac:(assumption) ltac:(assumption)) as [c ?E]; rewrite (bind_ok _ _ _ _ _ E)
  end.
Lemma h_metadata_4 : handled 3 4 P_Metadata_4.
Proof.
  start P_Metadata_4. open_pairs.
  assert (exists ts' c, presented_topics (map (v_topic v_part_1) d3) ts' /\
    parse 3 4 (frame (be 4 corr ++ enc R_Metadata_4 (d, (d0, (d1, (d2, d3)))) ++ [])) = Ok (RMetadata corr d (map v_broker d0) c d2 ts') /\
    Permutation (flat_map (fun t => fst t :: map fst (snd (snd (snd t)))) ts') (meta_codes fst d3)) as [ts' [c [H5 [H6 H7]]]].
  { unfold R_Metadata_4. change (parse 3 4) with (dec_metadata 4). unfold dec_metadata. eexists. 
    rewrite whole_eq by (sized). spread. ifs. repeat step1.
    erewrite bind_ok by (apply (arr_e R_Broker _ v_broker); [exact broker_e|eassumption]).
    cluster c. exists c. split; [apply presented|]. repeat step1. split.
    - erewrite bind_ok; [reflexivity|].
      apply (arr_e (TI16 *** TStr *** TBool *** TArr R_Part_1) _ (v_topic v_part_1)); [|eassumption]. intros y q. apply topic_e.
      intros. apply part_1; [reflexivity|assumption].
    - rewrite (map_v_topic_codes v_part_1 fst _ v_part_code). symmetry. apply codes_sorted. }
  eapply answer_value; [exact H6|exists ts', c; auto|reflexivity|].
  eapply reports_perm; [exact H7|apply reports_first_wrapped].
Qed.
Lemma h_metadata_7 : handled 3 7 P_Metadata_7.
Proof.
  start P_Metadata_7. open_pairs.
  assert (exists ts' c, presented_topics (map (v_topic (fun p => p)) d3) ts' /\
    parse 3 7 (frame (be 4 corr ++ enc R_Metadata_7 (d, (d0, (d1, (d2, d3)))) ++ [])) = Ok (RMetadata corr d (map v_broker d0) c d2 ts') /\
    Permutation (flat_map (fun t => fst t :: map fst (snd (snd (snd t)))) ts') (meta_codes fst d3)) as [ts' [c [H5 [H6 H7]]]].
  { unfold R_Metadata_7. change (parse 3 7) with (dec_metadata 7). unfold dec_metadata. eexists. 
    rewrite whole_eq by (sized). spread. ifs. repeat step1.
    erewrite bind_ok by (apply (arr_e R_Broker _ v_broker); [exact broker_e|eassumption]).
    cluster c. exists c. split; [apply presented|]. repeat step1. split.
    - erewrite bind_ok; [reflexivity|].
      apply (arr_e (TI16 *** TStr *** TBool *** TArr R_Part_7) _ (v_topic (fun p => p))); [|eassumption]. intros y q. apply topic_e.
      intros. apply part_7; assumption.
    - rewrite (map_v_topic_codes (fun p => p) fst _ (fun p => eq_refl)). symmetry. apply codes_sorted. }
  eapply answer_value; [exact H6|exists ts', c; auto|reflexivity|].
  eapply reports_perm; [exact H7|apply reports_first_wrapped].
Qed.

(** ** Topics and partitions *)
Lemma tp_q {B} t (p : parser B) (f : den t -> B) (Q : den t -> Prop) (l : list (bytes * list (den t))) r :
  (forall x r, wf t x -> Q x -> p (enc t x ++ r) = Ok (f x, r)) -> wf (TArr (TStr *** TArr t)) l ->
  Forall (fun x => Forall Q (snd x)) l ->
  rd_arr (n <- rd_str ;; ps <- rd_arr p ;; ret (n, ps)) (enc (TArr (TStr *** TArr t)) l ++ r)
  = Ok (map (fun x => (fst x, map f (snd x))) l, r).
Proof.
  intros Hp Hw HQ.
  apply (arr_q (TStr *** TArr t) _ (fun x : bytes * list (den t) => (fst x, map f (snd x))) (fun x : bytes * list (den t) => Forall Q (snd x))); [|exact Hw|exact HQ].
  intros x r' Hx Hq. destruct x as [n ps]. destruct Hx as [H1 H2]. cbn [fst snd] in *. spread. step1.
  erewrite bind_ok by (apply (arr_q t p f Q); [exact Hp|exact H2|exact Hq]). reflexivity.
Qed.
Lemma tp_e {B} t (p : parser B) (f : den t -> B) (l : list (bytes * list (den t))) r :
  (forall x r, wf t x -> p (enc t x ++ r) = Ok (f x, r)) -> wf (TArr (TStr *** TArr t)) l ->
  rd_arr (n <- rd_str ;; ps <- rd_arr p ;; ret (n, ps)) (enc (TArr (TStr *** TArr t)) l ++ r)
  = Ok (map (fun x => (fst x, map f (snd x))) l, r).
Proof.
  intros Hp Hw. apply (tp_q t p f (fun _ => True)); [auto|exact Hw|]. apply Forall_forall. auto using all_true.
Qed.
Lemma tp_codes_map {A B} (f : A -> B) (g : B -> Z) (h : A -> Z) (l : list (bytes * list A)) : (forall p, g (f p) = h p) ->
  tp_codes h l = flat_map (fun t => map g (snd t)) (map (fun x => (fst x, map f (snd x))) l).
Proof.
  intros H. unfold tp_codes. induction l as [|[n ps] l IH]; [reflexivity|]. cbn [flat_map map fst snd]. rewrite IH. f_equal.
  rewrite map_map. apply map_ext. auto.
Qed.
Lemma reports_wrapped_eq cs cs' : cs = cs' -> reports cs (first_wrapped cs').
Proof. intros ->. apply reports_first_wrapped. Qed.
Lemma reports_code_eq cs cs' : cs = cs' -> reports cs (first_code cs').
Proof. intros ->. apply reports_first_code. Qed.
Lemma reports_text_eq cs cs' : cs = cs' -> reports cs (first_text cs').
Proof. intros ->. apply reports_first_text. Qed.
Lemma mset_fold {V} (l : list (bytes * V)) : forall acc, NoDup (map fst (acc ++ l)) ->
  fold_left (fun m t => mset (fst t) (snd t) m) l acc = acc ++ l.
Proof.
  induction l as [|[k v] l IH]; intros acc H; cbn [fold_left fst snd]; [symmetry; apply app_nil_r|].
  rewrite mset_fresh.
  - rewrite IH, <- app_assoc; [reflexivity|]. rewrite <- app_assoc. exact H.
  - rewrite map_app in H. cbn [map fst] in H. apply NoDup_remove_2 in H. intros K. apply H. apply in_or_app. left. exact K.
Qed.
Lemma h_offsets_0 : handled 2 0 P_ListOffsets_0.
Proof.
  start P_ListOffsets_0. unfold R_ListOffsets_0 in *. cbn [den] in x. pure.
  - ifs. repeat step1.
    erewrite bind_ok by (apply (tp_e (TI32 *** TI16 *** TArr TI64) (rd_offset 0) (fun p : Z * (Z * list Z) => (fst p, (fst (snd p), (snd (snd p), (0, 0))))));
      [unfold rd_offset; ifs; elem|exact Hw]).
    rewrite mset_fold by (cbn [app]; rewrite map_map; exact Hok). reflexivity.
  - reflexivity.
  - reflexivity.
  - apply reports_wrapped_eq. apply (tp_codes_map _ _ _). reflexivity.
Qed.
Lemma h_offsets_1 : handled 2 1 P_ListOffsets_1.
Proof.
  start P_ListOffsets_1. unfold R_ListOffsets_1 in *. cbn [den] in x. pure.
  - ifs. step1.
    erewrite bind_ok. 2:{ erewrite bind_ok. 2:{ unfold rd_peek. cbn [enc]. rewrite <- app_assoc. unfold rd_u32 in *.
      rewrite rd_u_be. rewrite app_assoc. reflexivity. } reflexivity. }
    change (be 4 (@zlen _ x)  ++ flat_map (enc (TStr *** TArr (TI32 *** TI16 *** TI64 *** TI64))) x) with (enc (TArr (TStr *** TArr (TI32 *** TI16 *** TI64 *** TI64))) x).
    erewrite bind_ok by (apply (tp_e (TI32 *** TI16 *** TI64 *** TI64) (rd_offset 1) (fun p : Z * (Z * (Z * Z)) => (fst p, (fst (snd p), ([], snd (snd p))))));
      [unfold rd_offset; ifs; elem|exact Hw]).
    rewrite mset_fold by (cbn [app]; rewrite map_map; exact Hok). reflexivity.
  - eexists. reflexivity.
  - reflexivity.
  - apply reports_wrapped_eq. apply (tp_codes_map _ _ _). reflexivity.
Qed.
Lemma h_offsetcommit v : rflexible 8 v = false -> handled 8 v P_OffsetCommit.
Proof.
  intros Hv. intros corr ht x Hc Ht Hflex Hw Hok Hsz. cbv zeta. rewrite bytes_plain in * by exact Hv. cbn [s_ty s_shown s_codes s_ok P_OffsetCommit] in *.
  unfold R_OffsetCommit_0 in *. cbn [den] in x. checked.
  - repeat step1.
    erewrite bind_ok by (apply (tp_e (TI32 *** TI16) _ (fun p : Z * Z => (as_u 32 (fst p), snd p))); [elem|exact Hw]).
    apply with_err_eq.
  - reflexivity.
  - apply reports_code_eq. apply (tp_codes_map _ _ _). reflexivity.
  - reflexivity.
  - apply reports_code_eq. apply (tp_codes_map _ _ _). reflexivity.
Qed.
Lemma h_offsetfetch v : rflexible 9 v = false -> handled 9 v P_OffsetFetch.
Proof.
  intros Hv. intros corr ht x Hc Ht Hflex Hw Hok Hsz. cbv zeta. rewrite bytes_plain in * by exact Hv. cbn [s_ty s_shown s_codes s_ok P_OffsetFetch] in *.
  unfold R_OffsetFetch_0 in *. cbn [den] in x. checked.
  - repeat step1.
    erewrite bind_ok.
    2:{ apply (tp_q (TI32 *** TI64 *** TNStr *** TI16) _
          (fun p : Z * (Z * (option bytes * Z)) => (fst p, (fst (snd p), (or_empty (fst (snd (snd p))), snd (snd (snd p))))))
          (fun p : Z * (Z * (option bytes * Z)) => fst (snd (snd p)) <> None)); [|exact Hw|exact Hok].
        intros y q Hy Hq. open_pairs. spread. repeat step1.
        erewrite bind_ok by (apply str_some; assumption). repeat step1. reflexivity. }
    apply with_err_eq.
  - reflexivity.
  - apply reports_code_eq. apply (tp_codes_map _ _ _). reflexivity.
  - reflexivity.
  - apply reports_wrapped_eq. apply (tp_codes_map _ _ _). reflexivity.
Qed.
Lemma result_e x r : wf (TStr *** TI16) x -> rd_result (enc (TStr *** TI16) x ++ r) = Ok (x, r).
Proof. intros H. unfold rd_result. revert H. elem. Qed.
Lemma h_deletegroups : handled 42 0 P_DeleteGroups.
Proof.
  start P_DeleteGroups. open_pairs. pure.
  - spread. repeat step1. erewrite bind_ok by (apply (arr_e (TStr *** TI16) _ (fun a : bytes * Z => a)); [exact result_e|eassumption]).
    rewrite map_id. reflexivity.
  - reflexivity.
  - reflexivity.
  - apply reports_first_text.
Qed.
Lemma h_deletetopics : handled 20 0 P_DeleteTopics.
Proof.
  start P_DeleteTopics. unfold R_Topics_0 in *. cbn [den] in x. pure.
  - repeat step1. erewrite bind_ok by (apply (arr_e (TStr *** TI16) _ (fun a : bytes * Z => a)); [exact result_e|eassumption]).
    rewrite map_id. reflexivity.
  - reflexivity.
  - reflexivity.
  - apply reports_first_text.
Qed.
Lemma h_createtopics : handled 19 0 P_CreateTopics.
Proof.
  start P_CreateTopics. unfold R_Topics_0 in *. cbn [den] in x. pure.
  - repeat step1. erewrite bind_ok by (apply (iarr_e (TStr *** TI16) _ (fun a : bytes * Z => a)); [elem|eassumption]).
    rewrite map_id. reflexivity.
  - reflexivity.
  - reflexivity.
  - apply reports_first_code.
Qed.
Lemma h_electleaders : handled 43 0 P_ElectLeaders.
Proof.
  start P_ElectLeaders. unfold R_ElectLeaders_0 in *. open_pairs. pure.
  - spread. repeat step1.
    erewrite bind_ok by (apply (tp_e (TI32 *** TI16 *** TNStr) _ (fun p : Z * (Z * option bytes) => (fst p, (fst (snd p), or_empty (snd (snd p))))));
      [elem|eassumption]). reflexivity.
  - reflexivity.
  - reflexivity.
  - apply reports_wrapped_eq. apply (tp_codes_map _ _ _). reflexivity.
Qed.
