(** One round of a group gives every partition to exactly one member. *)
From Verif Require Import Base BaseFacts Wire WireFacts Prims PrimsFacts Group GroupFacts Assign SortFacts AssignFacts Requests RequestSpec RequestFacts RequestPrep
  Responses ResponseSpec ResponseFacts ResponseDecode4 Consumer Gcons Lead RoundSpec.

(** ** Lists *)
Lemma mapr_map {A B} (f : A -> res B) g l : (forall x, In x l -> f x = Ok (g x)) -> mapr f l = Ok (map g l).
Proof.
  induction l as [|x l IH]; intros H; cbn [mapr map]; [reflexivity|]. rewrite (H x (or_introl eq_refl)). cbn [rbind].
  rewrite IH by (intros y Hy; apply H; right; exact Hy). reflexivity.
Qed.
Lemma flat_map_app_perm {A B} (f g : A -> list B) l : Permutation (flat_map (fun x => f x ++ g x) l) (flat_map f l ++ flat_map g l).
Proof.
  induction l as [|x l IH]; cbn [flat_map]; [constructor|]. rewrite <- app_assoc. rewrite IH.
  rewrite <- app_assoc. apply Permutation_app_head. rewrite !app_assoc. apply Permutation_app_tail, Permutation_app_comm.
Qed.
Lemma flat_map_nil {A B} (l : list A) : flat_map (fun _ => @nil B) l = [].
Proof. induction l; [reflexivity|assumption]. Qed.
Lemma flat_map_swap {A B C} (f : A -> B -> list C) la lb :
  Permutation (flat_map (fun a => flat_map (f a) lb) la) (flat_map (fun b => flat_map (fun a => f a b) la) lb).
Proof.
  induction la as [|a la IH]; cbn [flat_map]; [rewrite flat_map_nil; constructor|].
  rewrite IH. symmetry. apply (flat_map_app_perm (f a) (fun b => flat_map (fun a => f a b) la) lb).
Qed.
Lemma flat_map_perm_ext {A B} (f g : A -> list B) l : (forall x, In x l -> Permutation (f x) (g x)) -> Permutation (flat_map f l) (flat_map g l).
Proof.
  induction l as [|x l IH]; intros H; cbn [flat_map]; [constructor|].
  apply Permutation_app; [apply H; left; reflexivity|apply IH; intros y Hy; apply H; right; exact Hy].
Qed.
Lemma NoDup_app_intro {A} (a b : list A) : NoDup a -> NoDup b -> (forall x, In x a -> In x b -> False) -> NoDup (a ++ b).
Proof.
  induction a as [|x a IH]; intros Ha Hb Hd; [exact Hb|]. inversion Ha as [|? ? H1 H2]; subst. cbn [app]. constructor.
  - intros H. apply in_app_or in H. destruct H as [H|H]; [exact (H1 H)|exact (Hd x (or_introl eq_refl) H)].
  - apply IH; [exact H2|exact Hb|]. intros y Hy. apply Hd. right. exact Hy.
Qed.
Lemma flat_map_support {B} (f : bytes -> list B) (ids subs : list bytes) : NoDup ids -> NoDup subs -> incl subs ids ->
  (forall i, ~ In i subs -> f i = []) -> Permutation (flat_map f ids) (flat_map f subs).
Proof.
  intros Hi Hs Hin Hf. set (rest := filter (fun i => negb (existsb (beqb i) subs)) ids).
  assert (Hr : forall i, In i rest <-> In i ids /\ ~ In i subs).
  { intros i. unfold rest. rewrite filter_In. split; intros [H1 H2]; split; try exact H1.
    - intros H. apply negb_true_iff in H2. assert (existsb (beqb i) subs = true) by (apply existsb_exists; exists i; split; [exact H|apply beqb_refl]). congruence.
    - apply negb_true_iff. apply not_true_iff_false. intros H. apply existsb_exists in H. destruct H as [j [H3 H4]]. apply beqb_true in H4. subst. exact (H2 H3). }
  assert (P : Permutation ids (subs ++ rest)).
  { apply NoDup_Permutation; [exact Hi| |].
    - apply NoDup_app_intro.
      + exact Hs.
      + apply NoDup_filter. exact Hi.
      + intros x H1 H2. apply Hr in H2. exact (proj2 H2 H1).
    - intros x. rewrite in_app_iff, Hr. destruct (in_dec (list_eq_dec Z.eq_dec) x subs); split; intros H; try tauto.
      + apply Hin. assumption. }
  rewrite (Permutation_flat_map f P), flat_map_app.
  assert (E : flat_map f rest = []).
  { clear P. assert (H : forall i, In i rest -> f i = []) by (intros i H; apply Hf; apply Hr in H; tauto).
    induction rest as [|x l IH]; [reflexivity|]. cbn [flat_map]. rewrite (H x (or_introl eq_refl)). cbn [app].
    clear Hr. clear IH. assert (forall i, In i l -> f i = []) by (intros i Hx; apply H; right; exact Hx). clear H. induction l as [|y l IH]; [reflexivity|].
    cbn [flat_map]. rewrite (H0 y (or_introl eq_refl)). apply IH. intros i Hx; apply H0; right; exact Hx. }
  rewrite E, app_nil_r. reflexivity.
Qed.

(** ** Messages *)
Definition sub (t : bytes) : bytes := enc Subscription_ty (0, ([t], Some [])).
Arguments sub : simpl never.
Lemma zlen_sub t : zlen (sub t) = 12 + zlen t.
Proof.
  unfold sub, Subscription_ty. rewrite !zs_pair, zs_i16, zs_arr. cbn [sumz]. rewrite zs_str. cbn [enc]. rewrite zlen_app, zlen_be. change (zlen (@nil Z)) with 0. lia.
Qed.
Lemma sub_encode t : zlen t < 2 ^ 15 -> pm_encode (mkPM 0 [t] None) = Ok (sub t).
Proof.
  intros H. apply (pm_encode_wire (mkPM 0 [t] None)). unfold ok_pm. cbn [pm_version pm_subs pm_user_bytes pm_user].
  split; [unfold u16; lia|]. split; [reflexivity|]. split; [|reflexivity].
  repeat constructor. assert (2 ^ 15 < 2 ^ 16) by reflexivity. lia.
Qed.
Lemma sub_decode t : zlen t < 2 ^ 15 -> newProtocolMetadata (sub t) = Ok (mkPM 0 [t] (Some [])).
Proof.
  intros H. apply newProtocolMetadata_wire; [unfold u16; lia|cbn; lia| |cbn; lia]. repeat constructor. assert (2 ^ 15 < 2 ^ 16) by reflexivity. lia.
Qed.
Lemma sumz_bound {A} (f : A -> Z) c l : (forall x, In x l -> f x <= c) -> sumz f l <= c * zlen l.
Proof. intros H. rewrite <- sumz_const. apply sumz_le. exact H. Qed.

(** ** A member *)
Lemma idle_run n g : g_sess g = [mkS PDone MIdle] -> grun g (repeat (OStartOne 0) n) = Ok (g, []).
Proof.
  intros H. induction n as [|n IH]; [reflexivity|]. cbn [repeat grun gstep]. rewrite H. cbn [nth_error rbind fst snd]. rewrite IH. reflexivity.
Qed.
Lemma start_run l : forall n g, (length l <= n)%nat -> g_sess g = [mkS PDone (MStart l)] ->
  exists g', grun g (repeat (OStartOne 0) n) = Ok (g', map GStarted l).
Proof.
  induction l as [|p l IH]; intros n g Hn Hs.
  - destruct n as [|n]; [eexists; reflexivity|]. cbn [repeat grun gstep]. rewrite Hs. cbn [nth_error rbind fst snd].
    eexists. rewrite idle_run; [reflexivity|]. unfold set_main. rewrite Hs. reflexivity.
  - destruct n as [|n]; [cbn in Hn; lia|]. cbn [repeat grun gstep]. rewrite Hs. cbn [nth_error rbind fst snd].
    edestruct (IH n) as [g' E]; [cbn in Hn; lia| |].
    2:{ exists g'. rewrite E. reflexivity. }
    unfold set_main, set_sc. cbn [g_sess]. rewrite Hs. reflexivity.
Qed.
Lemma started_map l : started (map GStarted l) = l.
Proof. induction l as [|p l IH]; [reflexivity|]. cbn. f_equal. exact IH. Qed.

(** ** The round *)
Section Round.
  Variable zip : Z -> bytes -> res bytes.
  Variable client group : bytes.
  Variable session corr gen : Z.
  Variable leader : bytes.
  Variable ms : list (bytes * bytes).
  Variable tops : gtopics.
  Hypothesis OK : round_ok client group session corr gen leader ms tops.

  Let members := map (fun m => (fst m, sub (snd m))) ms.

  Lemma members_fst : map fst members = map fst ms.
  Proof. unfold members. rewrite map_map. reflexivity. Qed.

  Lemma joins_ok m : In m ms -> joins zip client group session corr m = Ok (fst m, sub (snd m)).
  Proof.
    intros Hm. destruct OK as [Kc Kg Ks Kr Kn Kl [Kd Kf] Kz [Kt Ki] [Kp Kq]]. rewrite Forall_forall in Kf. destruct (Kf m Hm) as [H1 H2].
    unfold joins, join_body. rewrite sub_encode by (assert (249 < 2 ^ 15) by reflexivity; lia). cbn [rbind].
    set (b := QJoinGroup group session 60000 [] n_consumer [(n_range, sub (snd m))]).
    set (x := V S_JoinGroup_0 (group, (session, ([], (n_consumer, [(n_range, sub (snd m))]))))).
    assert (Hx : request_value b 0 = Some x) by reflexivity.
    assert (Hw : val_wf x).
    { cbn. repeat split; try assumption; try (unfold i32 in *; lia); try reflexivity. repeat constructor; cbn [fst snd]; try reflexivity.
      rewrite zlen_sub. assert (249 + 12 < 2 ^ 31 - 1) by reflexivity. lia. }
    rewrite (prepare_value zip corr (Some client) b 0 x Hx Hw I). cbn [rbind fst].
    assert (Hl : zlen (request_bytes b 0 corr (Some client) x) < 2 ^ 31).
    { unfold request_bytes, frame. rewrite !zlen_app, zlen_be. unfold header_bytes. change (flexibleb (kafka_key b) 0) with false. cbv iota.
      unfold val_bytes, x, Header1, S_JoinGroup_0. cbn [projT1 projT2 V]. rewrite !zs_pair, !zs_i16, !zs_i32, !zs_str, zs_nstr, zs_arr. cbn [sumz olen].
      rewrite zs_pair, zs_str, zs_bytes, zlen_sub. unfold n_consumer, n_range. 
      change (zlen [99; 111; 110; 115; 117; 109; 101; 114]) with 8. change (zlen [114; 97; 110; 103; 101]) with 5. change (zlen (@nil Z)) with 0.
      assert (2 ^ 15 = 32768) by reflexivity. assert (2 ^ 31 = 2147483648) by reflexivity. lia. }
    pose proof (broker_reads_request b 0 corr (Some client) x [] Hw ltac:(unfold i16; lia) ltac:(unfold i32; lia) Kc Hl) as R.
    rewrite app_nil_r in R. unfold coord_join. change (api_key b) with 11 in R. change (projT1 x) with S_JoinGroup_0 in R. rewrite R. reflexivity.
  Qed.

  Lemma member_wf : Forall (fun m => zlen (fst m) < 2 ^ 15 /\ zlen (snd m) <= 261) members.
  Proof.
    destruct OK as [Kc Kg Ks Kr Kn Kl [Kd Kf] Kz [Kt Ki] [Kp Kq]]. rewrite Forall_forall in *. intros x Hx. unfold members in Hx.
    apply in_map_iff in Hx. destruct Hx as [m [<- Hm]]. cbn [fst snd]. rewrite zlen_sub. specialize (Kf m Hm). lia.
  Qed.
  Lemma joined_ok me : In me (map fst ms) ->
    answer 11 0 (coord_joined corr gen leader me members) = Ok (RJoinGroup corr 0 gen [114; 97; 110; 103; 101] leader me (if beqb me leader then members else [])).
  Proof.
    intros Hme. pose proof member_wf as Hw. destruct OK as [Kc Kg Ks Kr Kn Kl [Kd Kf] Kz [Kt Ki] [Kp Kq]].
    assert (Hid : forall i, In i (map fst ms) -> zlen i < 2 ^ 15).
    { intros i Hi. apply in_map_iff in Hi. destruct Hi as [m [<- Hm]]. rewrite Forall_forall in Kf. apply Kf. exact Hm. }
    pose proof (Hid _ Hme) as L1. pose proof (Hid _ Kl) as L2. clear Hid.
    set (l := if beqb me leader then members else []).
    assert (Hl : Forall (fun m => zlen (fst m) < 2 ^ 15 /\ zlen (snd m) <= 261) l /\ zlen l <= 1000).
    { unfold l. destruct (beqb me leader); [|split; [constructor|rewrite zlen_nil; lia]]. split; [exact Hw|]. unfold members. rewrite zlen_map. exact Kz. }
    destruct Hl as [Hl1 Hl2]. pose proof (zlen_nonneg l). assert (P15 : 2 ^ 15 = 32768) by reflexivity. assert (P31 : 2 ^ 31 = 2147483648) by reflexivity.
    assert (T : forall x : den R_JoinGroup_0, x = (0, (gen, ([114; 97; 110; 103; 101], (leader, (me, l))))) -> wf R_JoinGroup_0 x /\ zlen (response_bytes 11 0 corr [] (enc R_JoinGroup_0 x)) < 2 ^ 31).
    { intros x ->. split.
      - cbn [wf R_JoinGroup_0 fst snd]. split; [unfold i16; lia|]. split; [exact Kn|]. split; [reflexivity|]. split; [exact L2|]. split; [exact L1|]. split; [change (zlen l < 2 ^ 31 - 1); lia|].
        refine (Forall_impl _ _ Hl1). intros m [A B]. split; [exact A|]. change (zlen (snd m) < 2 ^ 31 - 1). lia.
      - unfold response_bytes, rheader_bytes, frame. change (rflexible 11 0) with false. cbv iota. rewrite !zlen_app, !zlen_be. change (zlen (@nil Z)) with 0.
        unfold R_JoinGroup_0. rewrite !zs_pair, zs_i16, zs_i32, !zs_str, zs_arr. change (zlen [114; 97; 110; 103; 101]) with 5.
        assert (B : sumz (fun x : den (TPair TStr TBytes) => zlen (enc (TPair TStr TBytes) x)) l <= 33100 * zlen l).
        { apply sumz_bound. intros [k b] Hin. rewrite Forall_forall in Hl1. specialize (Hl1 _ Hin). cbn [fst snd] in Hl1. rewrite zs_pair, zs_str, zs_bytes. lia. }
        lia. }
    destruct (T _ eq_refl) as [W S].
    destruct (proj1 (answer_table 11 0 P_JoinGroup eq_refl corr [] (0, (gen, ([114; 97; 110; 103; 101], (leader, (me, l))))) ltac:(unfold u32; lia)
      ltac:(split; [reflexivity|constructor]) (fun _ => eq_refl) W I S)) as [r [E R]].
    { cbn. repeat constructor. }
    transitivity (Ok r); [exact E|]. cbn in R. rewrite R. reflexivity.
  Qed.

  Variable ordS : list bytes -> list bytes.
  Variable ordT : list (bytes * list (bytes * list Z)) -> list (bytes * list (bytes * list Z)).
  Variable ordI : list (bytes * list Z) -> list (bytes * list Z).
  Variable ordM : list (bytes * list (bytes * list Z)) -> list (bytes * list (bytes * list Z)).
  Hypothesis HS : forall l, Permutation (ordS l) l.
  Hypothesis HT : forall l, Permutation (ordT l) l.
  Hypothesis HI : forall l, Permutation (ordI l) l.
  Hypothesis HM : forall l, Permutation (ordM l) l.

  Variable answers : list bytes -> list (option (gtopics * option err)).
  Hypothesis HA : told_metadata ms tops answers.

  Lemma fold_add1 t ts : fold_left add_topic [t] ts = if existsb (beqb t) ts then ts else ts ++ [t].
  Proof. reflexivity. Qed.
  Lemma topics_of_ok l : Forall (fun m => zlen (snd m) <= 249) l -> forall ts, NoDup ts ->
    exists ts', topics_of (map (fun m : bytes * bytes => (fst m, sub (snd m))) l) ts = Ok ts' /\ NoDup ts' /\
      forall t, In t ts' <-> In t ts \/ In t (map snd l).
  Proof.
    clear. induction 1 as [|m l Hm Hl IH]; intros ts Hn.
    - exists ts. split; [reflexivity|]. split; [exact Hn|]. intros t. cbn. tauto.
    - cbn [map topics_of snd]. rewrite sub_decode by (assert (249 < 2 ^ 15) by reflexivity; lia). cbn [rbind pm_subs]. rewrite fold_add1.
      destruct (existsb (beqb (snd m)) ts) eqn:E.
      + destruct (IH ts Hn) as [ts' [E1 [E2 E3]]]. exists ts'. split; [exact E1|]. split; [exact E2|]. intros t. rewrite E3. cbn [In].
        apply existsb_exists in E. destruct E as [x [H1 H2]]. apply beqb_true in H2. subst x. split; [tauto|]. intros [H|[<-|H]]; tauto.
      + destruct (IH (ts ++ [snd m])) as [ts' [E1 [E2 E3]]].
        { apply NoDup_app_intro; [exact Hn|repeat constructor; intros []|]. intros x H1 [<-|[]].
          assert (existsb (beqb (snd m)) ts = true) by (apply existsb_exists; exists (snd m); split; [exact H1|apply beqb_refl]). congruence. }
        exists ts'. split; [exact E1|]. split; [exact E2|]. intros t. rewrite E3, in_app_iff. cbn [In]. tauto.
  Qed.
  Lemma meta_loop_ok fails rest cur : Forall (fun a => exists m e, a = Some (m, Some e)) fails ->
    meta_loop (fails ++ Some (tops, None) :: rest) cur = Done tops.
  Proof.
    clear. intros H. revert cur. induction H as [|a fails [m [e ->]] Hf IH]; intros cur; cbn [app meta_loop]; [reflexivity|]. apply IH.
  Qed.

  Lemma metas_fst : map fst (metas_of tops) = map (fun t => fst (snd t)) tops.
  Proof. unfold metas_of. rewrite map_map. reflexivity. Qed.
  Lemma partitions_metas : partitions tops = flat_map (fun m => map (pair (fst m)) (snd m)) (metas_of tops).
  Proof.
    unfold partitions, metas_of. rewrite flat_map_map. apply flat_map_ext_in. intros t _. cbn [fst snd]. rewrite map_map. reflexivity.
  Qed.
  Lemma in_metas_partitions t P p : In (t, P) (metas_of tops) -> In p P -> In (t, p) (partitions tops).
  Proof. intros H1 H2. rewrite partitions_metas. apply in_flat_map. exists (t, P). split; [exact H1|]. cbn [fst snd]. apply in_map. exact H2. Qed.
  Lemma metas_size t P : In (t, P) (metas_of tops) -> zlen P <= zlen (partitions tops).
  Proof.
    rewrite partitions_metas. induction (metas_of tops) as [|[t' P'] l IH]; intros H; [contradiction|]. cbn [flat_map fst snd]. rewrite zlen_app, zlen_map.
    pose proof (zlen_nonneg (flat_map (fun m : bytes * list Z => map (pair (fst m)) (snd m)) l)). pose proof (zlen_nonneg P').
    destruct H as [[= -> ->]|H]; [lia|]. specialize (IH H). lia.
  Qed.
  Lemma subscribes_sub t i u : zlen u <= 249 -> subscribes t (i, sub u) = beqb t u.
  Proof.
    clear. intros H. unfold subscribes. cbn [snd]. rewrite sub_decode by (assert (249 < 2 ^ 15) by reflexivity; lia). cbn [pm_subs existsb]. apply orb_false_r.
  Qed.
  Lemma group_ok_members : group_ok members (metas_of tops).
  Proof.
    destruct OK as [Kc Kg Ks Kr Kn Kl [Kd Kf] Kz [Kt Ki] [Kp Kq]]. rewrite Forall_forall in Kf, Kp.
    assert (P31 : 2 ^ 31 = 2147483648) by reflexivity. assert (P16 : 2 ^ 16 = 65536) by reflexivity. assert (P15 : 2 ^ 15 = 32768) by reflexivity.
    repeat split.
    - apply Forall_forall. intros x Hx. unfold members in Hx. apply in_map_iff in Hx. destruct Hx as [m [<- Hm]]. eexists. apply sub_decode. specialize (Kf m Hm). lia.
    - rewrite members_fst. exact Kd.
    - rewrite metas_fst. exact Kt.
    - apply Forall_forall. intros [t P] Hin. unfold meta_ok. cbn [fst snd].
      assert (Ht : In t (map snd ms)) by (apply Ki; rewrite <- metas_fst; apply (in_map fst) in Hin; exact Hin).
      apply in_map_iff in Ht. destruct Ht as [m [<- Hm]]. specialize (Kf m Hm). pose proof (metas_size _ _ Hin). split; [lia|]. split; [lia|].
      apply Forall_forall. intros p Hp. exact (Kp _ (in_metas_partitions _ _ _ Hin Hp)).
    - pose proof (NoDup_incl_length Kt Ki) as L. rewrite !map_length in L. unfold metas_of, zlen in *. rewrite map_length. lia.
    - intros t Ht. rewrite metas_fst in Ht. apply Ki in Ht. apply in_map_iff in Ht. destruct Ht as [m [<- Hm]].
      exists (fst m, sub (snd m)). split; [unfold members; apply in_map_iff; exists m; auto|]. specialize (Kf m Hm). rewrite subscribes_sub by lia. apply beqb_refl.
  Qed.

  (** what member [i] is given *)
  Let ta := map (topic_plan members) (metas_of tops).
  Let parts (i : bytes) := flat_map (pick i) (ordT ta).
  Let got (i : bytes) := parts_of (mkMA 0 (parts i) []).
  Let share (i : bytes) (x : bytes * list (bytes * list Z)) : list (bytes * Z) :=
    match Assign.mget i (snd x) with Some ps => map (pair (fst x)) ps | None => [] end.

  Lemma got_share i : got i = flat_map (share i) (ordT ta).
  Proof.
    unfold got, parts_of, parts. cbn [ma_parts]. induction (ordT ta) as [|x l IH]; [reflexivity|]. cbn [flat_map]. rewrite flat_map_app, IH. f_equal.
    unfold pick, share. destruct (Assign.mget i (snd x)); cbn [flat_map fst snd]; [rewrite app_nil_r|]; reflexivity.
  Qed.
  Lemma in_ordT x : In x (ordT ta) -> exists P, In (fst x, P) (metas_of tops) /\ snd x = plan (subs_of members (fst x)) (isort Z.ltb P).
  Proof.
    intros H. apply (Permutation_in _ (HT ta)) in H. unfold ta in H. apply in_map_iff in H. destruct H as [[t P] [<- H]].
    exists P. split; [exact H|reflexivity].
  Qed.
  (** only of its own topic *)
  Lemma pick_own m x : In m ms -> In x (ordT ta) -> fst x <> snd m -> Assign.mget (fst m) (snd x) = None.
  Proof.
    intros Hm Hx Hne. destruct (in_ordT x Hx) as [P [_ E]]. rewrite E. apply AssignFacts.mget_none. rewrite plan_keys. intros Hin.
    apply subs_of_in in Hin. destruct Hin as [raw [H1 H2]]. unfold members in H1. apply in_map_iff in H1. destruct H1 as [m' [E1 Hm']]. injection E1 as E1 <-.
    destruct OK as [Kc Kg Ks Kr Kn Kl [Kd Kf] Kz [Kt Ki] [Kp Kq]].
    assert (m' = m).
    { clear -Kd Hm Hm' E1. induction ms as [|a l IH]; [contradiction|]. cbn [map] in Kd. inversion Kd as [|? ? N1 N2]; subst.
      destruct Hm as [->|Hm], Hm' as [->|Hm']; try reflexivity.
      - exfalso. apply N1. rewrite <- E1. apply in_map. exact Hm'.
      - exfalso. apply N1. rewrite E1. apply in_map. exact Hm.
      - apply IH; assumption. }
    subst m'. rewrite Forall_forall in Kf. specialize (Kf m Hm). rewrite subscribes_sub in H2 by lia. apply beqb_true in H2. congruence.
  Qed.
  Lemma got_own m : In m ms -> Forall (fun p => fst p = snd m) (got (fst m)).
  Proof.
    intros Hm. rewrite got_share. apply Forall_forall. intros p Hp. apply in_flat_map in Hp. destruct Hp as [x [Hx Hp]].
    unfold share in Hp. destruct (Assign.mget (fst m) (snd x)) as [ps|] eqn:E; [|contradiction]. apply in_map_iff in Hp. destruct Hp as [q [<- _]]. cbn [fst].
    destruct (list_eq_dec Z.eq_dec (fst x) (snd m)) as [H|H]; [exact H|]. rewrite (pick_own m x Hm Hx H) in E. discriminate.
  Qed.

  Lemma share_topic x : In x (ordT ta) -> exists P, In (fst x, P) (metas_of tops) /\
    Permutation (flat_map (fun i => share i x) (map fst ms)) (map (pair (fst x)) P).
  Proof.
    intros Hx. destruct (in_ordT x Hx) as [P [H1 H2]]. exists P. split; [exact H1|].
    pose proof group_ok_members as [Hp [Hnd [Hnt [Hmo [Hml Hsub]]]]]. rewrite members_fst in Hnd.
    set (subs := subs_of members (fst x)) in *.
    assert (Hns : NoDup subs) by (apply subs_of_nodup; rewrite members_fst; exact Hnd).
    assert (Hne : subs <> []).
    { destruct (Hsub (fst x) ltac:(apply (in_map fst) in H1; exact H1)) as [[m raw] [A B]]. intros E.
      assert (In m subs) by (apply subs_of_in; eauto). rewrite E in H. contradiction. }
    rewrite (flat_map_support (fun i => share i x) (map fst ms) subs Hnd Hns).
    - assert (E : flat_map (fun i => share i x) subs = map (pair (fst x)) (isort Z.ltb P)).
      { rewrite <- (plan_concat subs (isort Z.ltb P) Hne) at 1.
        assert (Hk : NoDup (AssignFacts.keys (plan subs (isort Z.ltb P)))) by (rewrite plan_keys; exact Hns).
        rewrite <- (plan_assoc_concat _ Hk), plan_keys.
        unfold share. rewrite H2. fold subs. clear. induction subs as [|i l IH] at 2 4; [reflexivity|]. cbn [flat_map]. rewrite map_app, <- IH. f_equal.
        destruct (Assign.mget i (plan subs (isort Z.ltb P))); reflexivity. }
      rewrite E. apply Permutation_map, isort_perm.
    - intros i Hi. apply subs_of_in in Hi. destruct Hi as [raw [Hi _]]. rewrite <- members_fst. apply (in_map fst) in Hi. exact Hi.
    - intros i Hi. unfold share. rewrite H2. replace (Assign.mget i (plan subs (isort Z.ltb P))) with (@None (list Z)); [reflexivity|].
      symmetry. apply AssignFacts.mget_none. rewrite plan_keys. exact Hi.
  Qed.
  Lemma got_all : Permutation (flat_map got (map fst ms)) (partitions tops).
  Proof.
    rewrite (flat_map_ext_in got (fun i => flat_map (share i) (ordT ta))) by (intros i _; apply got_share).
    rewrite flat_map_swap, partitions_metas.
    rewrite (Permutation_flat_map _ (HT ta)). unfold ta. rewrite flat_map_map. apply flat_map_perm_ext. intros [t P] Hin.
    set (x := topic_plan members (t, P)).
    destruct (share_topic x) as [P' [H1 H2]].
    { apply (Permutation_in _ (Permutation_sym (HT ta))). unfold ta. apply in_map_iff. exists (t, P). split; [reflexivity|exact Hin]. }
    pose proof group_ok_members as [_ [_ [Hnt _]]].
    assert (P' = P).
    { change (fst x) with t in H1. apply (AssignFacts.in_mget _ _ _ Hnt) in H1. apply (AssignFacts.in_mget _ _ _ Hnt) in Hin. congruence. }
    subst P'. exact H2.
  Qed.
  (** *** The leader *)
  Let asg (i : bytes) : bytes := enc Assignment_ty (0, (parts i, Some [])).
  Lemma ga_shape : exists ks, Permutation ks (map fst ms) /\
    assign ordT ordI ordM members (metas_of tops) = Ok (map (fun i => (i, asg i)) ks) /\
    forall i, In i (map fst ms) -> newMemberAssignment (asg i) = Ok (mkMA 0 (parts i) []).
  Proof.
    destruct (assign_spec ordT ordI ordM HT HI HM members (metas_of tops) group_ok_members) as [ga [E [Pk [_ [_ G]]]]].
    rewrite members_fst in Pk, G. fold ta in G. exists (map fst ga). split; [exact Pk|]. split.
    - rewrite E. f_equal. rewrite map_map. rewrite <- (map_id ga) at 1. apply map_ext_in. intros [k b] Hin. cbn [fst].
      assert (Hk : In k (map fst ms)) by (apply (Permutation_in _ Pk); apply (in_map fst) in Hin; exact Hin).
      destruct (G k Hk) as [b' [H1 [_ ->]]]. fold (parts k) in H1. fold (asg k) in H1.
      assert (Hn : NoDup (AssignFacts.keys ga)).
      { destruct OK as [Kc Kg Ks Kr Kn Kl [Kd Kf] Kz [Kt Ki] [Kp Kq]]. apply (Permutation_NoDup (Permutation_sym Pk) Kd). }
      apply (AssignFacts.in_mget _ _ _ Hn) in Hin. apply (AssignFacts.in_mget _ _ _ Hn) in H1. congruence.
    - intros i Hi. destruct (G i Hi) as [b' [_ [H1 ->]]]. exact H1.
  Qed.

  Lemma metas_len : zlen (metas_of tops) <= 1000.
  Proof.
    destruct OK as [Kc Kg Ks Kr Kn Kl [Kd Kf] Kz [Kt Ki] [Kp Kq]].
    pose proof (NoDup_incl_length Kt Ki) as L. rewrite !map_length in L. unfold metas_of, zlen in *. rewrite map_length. lia.
  Qed.
  Lemma parts_len i : zlen (parts i) <= 1000.
  Proof.
    unfold parts. pose proof (flat_map_pick_len i (ordT ta)) as H. pose proof metas_len as L. unfold zlen in H at 2. rewrite (Permutation_length (HT ta)) in H.
    unfold ta in H at 2. rewrite map_length in H. change (Z.of_nat (length (metas_of tops))) with (zlen (metas_of tops)) in H. lia.
  Qed.
  Lemma parts_names i : Forall (fun p => zlen (fst p) <= 249) (parts i).
  Proof.
    apply Forall_forall. intros p Hp. unfold parts in Hp. apply in_flat_map in Hp. destruct Hp as [x [Hx Hp]].
    unfold pick in Hp. destruct (Assign.mget i (snd x)); [|contradiction]. destruct Hp as [<-|[]]. cbn [fst].
    destruct (in_ordT x Hx) as [P [H1 _]]. destruct OK as [Kc Kg Ks Kr Kn Kl [Kd Kf] Kz [Kt Ki] [Kp Kq]].
    assert (Ht : In (fst x) (map snd ms)) by (apply Ki; rewrite <- metas_fst; apply (in_map fst) in H1; exact H1).
    apply in_map_iff in Ht. destruct Ht as [m [<- Hm]]. rewrite Forall_forall in Kf. specialize (Kf m Hm). lia.
  Qed.
  Lemma sumz_i32 (l : list Z) : sumz (fun x => zlen (enc TI32 x)) l = 4 * zlen l.
  Proof. clear. induction l as [|x l IH]; [reflexivity|]. cbn [sumz]. rewrite IH, zs_i32, zlen_cons. lia. Qed.
  Lemma zlen_asg i : zlen (asg i) <= 10 + 255 * zlen (parts i) + 4 * zlen (got i).
  Proof.
    unfold asg, got, parts_of, Assignment_ty. cbn [ma_parts]. rewrite !zs_pair, zs_i16, zs_arr. change (zlen (enc TNBytes (Some []))) with 4.
    pose proof (parts_names i) as Hn.
    assert (H : forall l : list (bytes * list Z), Forall (fun p => zlen (fst p) <= 249) l ->
      sumz (fun x : den (TStr *** TArr TI32) => zlen (enc (TStr *** TArr TI32) x)) l
      <= 255 * zlen l + 4 * zlen (flat_map (fun p : bytes * list Z => map (fun x => (fst p, x)) (snd p)) l)).
    { clear. induction 1 as [|[t ps] l H _ IH]; [reflexivity || (cbn; lia)|]. cbn [sumz flat_map]. rewrite zlen_app, zlen_map, zlen_cons, zs_pair, zs_str, zs_arr, sumz_i32.
      cbn [fst snd] in *. lia. }
    specialize (H _ Hn). lia.
  Qed.
  Lemma sync_size ks : Permutation ks (map fst ms) ->
    sumz (fun x : den (TStr *** TBytes) => zlen (enc (TStr *** TBytes) x)) (map (fun i => (i, asg i)) ks) <= 300000000 /\
    zlen ks <= 1000 /\ Forall (fun i => zlen i < 2 ^ 15 /\ zlen (asg i) <= 4255010) ks.
  Proof.
    intros Pk. pose proof (Permutation_trans (Permutation_flat_map got Pk) got_all) as PG.
    destruct OK as [Kc Kg Ks Kr Kn Kl [Kd Kf] Kz [Kt Ki] [Kp Kq]].
    assert (Hi : Forall (fun i => zlen i < 2 ^ 15) ks).
    { apply Forall_forall. intros i Hi. apply (Permutation_in _ Pk) in Hi. apply in_map_iff in Hi. destruct Hi as [m [<- Hm]].
      rewrite Forall_forall in Kf. apply (Kf m Hm). }
    assert (Hl : zlen ks <= 1000) by (unfold zlen in *; rewrite (Permutation_length Pk), map_length; exact Kz).
    assert (Hp : zlen (flat_map got ks) <= 1000000) by (unfold zlen in *; rewrite (Permutation_length PG); exact Kq).
    assert (Hb : sumz (fun x : den (TStr *** TBytes) => zlen (enc (TStr *** TBytes) x)) (map (fun i => (i, asg i)) ks) <= 290000 * zlen ks + 4 * zlen (flat_map got ks)).
    { clear Pk PG Kc Kg Ks Kr Kn Kl Kd Kf Kz Kt Ki Kp Kq Hl Hp. assert (P15 : 2 ^ 15 = 32768) by reflexivity. induction Hi as [|i ks H _ IH]; [cbn; lia|]. cbn [map sumz flat_map]. rewrite zlen_app, zlen_cons, zs_pair, zs_str, zs_bytes.
      pose proof (zlen_asg i). pose proof (parts_len i). lia. }
    split; [lia|]. split; [exact Hl|]. rewrite Forall_forall in *. intros i Hin. split; [exact (Hi i Hin)|].
    pose proof (zlen_asg i). pose proof (parts_len i).
    assert (zlen (got i) <= zlen (flat_map got ks)).
    { clear -Hin. induction ks as [|k ks IH]; [contradiction|]. cbn [flat_map]. rewrite zlen_app. pose proof (zlen_nonneg (got k)). pose proof (zlen_nonneg (flat_map got ks)).
      destruct Hin as [->|Hin]; [lia|]. specialize (IH Hin). lia. }
    lia.
  Qed.

  Lemma leads_ok : exists ks, Permutation ks (map fst ms) /\
    leads zip ordS ordT ordI ordM client group corr gen leader answers members = Ok (map (fun i => (i, asg i)) ks).
  Proof.
    destruct ga_shape as [ks [Pk [E D]]]. exists ks. split; [exact Pk|]. destruct (sync_size ks Pk) as [S1 [S2 S3]].
    pose proof OK as [Kc Kg Ks Kr Kn Kl [Kd Kf] Kz [Kt Ki] [Kp Kq]].
    unfold leads. rewrite (joined_ok leader Kl), beqb_refl. cbn [rbind]. unfold lead.
    destruct (topics_of_ok ms) with (ts := @nil bytes) as [ts [T1 [T2 T3]]]; [|constructor|].
    { refine (Forall_impl _ _ Kf). cbn. tauto. }
    unfold members at 1. rewrite T1. cbn [rbind].
    destruct (HA (ordS ts)) as [fails [rest [A1 A2]]].
    { apply (Permutation_NoDup (Permutation_sym (HS ts)) T2). }
    { intros t. rewrite (Permutation_in' eq_refl (HS ts)), T3. cbn [In]. tauto. }
    rewrite A1, meta_loop_ok by exact A2. rewrite E. cbn [rbind opt].
    set (gs := map (fun i => (i, asg i)) ks) in *.
    assert (Lid : zlen leader < 2 ^ 15).
    { apply in_map_iff in Kl. destruct Kl as [m [<- Hm]]. rewrite Forall_forall in Kf. apply (Kf m Hm). }
    set (b := sync_body group gen leader gs).
    set (x := V S_SyncGroup_0 (group, (gen, (leader, gs)))).
    assert (Hx : request_value b 0 = Some x) by reflexivity.
    assert (P31 : 2 ^ 31 = 2147483648) by reflexivity. assert (P15 : 2 ^ 15 = 32768) by reflexivity.
    assert (Lgs : zlen gs = zlen ks) by (unfold gs; apply zlen_map).
    assert (Hw : val_wf x).
    { change (zlen group < 2 ^ 15 /\ i32 gen /\ zlen leader < 2 ^ 15 /\ zlen gs < 2 ^ 31 - 1 /\ Forall (wf (TStr *** TBytes)) gs).
      split; [exact Kg|]. split; [exact Kn|]. split; [exact Lid|]. split; [lia|].
      unfold gs. apply Forall_map. refine (Forall_impl _ _ S3). intros i [A B]. split; [exact A|]. change (zlen (asg i) < 2 ^ 31 - 1). lia. }
    rewrite (prepare_value zip corr (Some client) b 0 x Hx Hw I). cbn [rbind fst].
    assert (Hl : zlen (request_bytes b 0 corr (Some client) x) < 2 ^ 31).
    { unfold request_bytes, frame. rewrite !zlen_app, zlen_be. unfold header_bytes. change (flexibleb (kafka_key b) 0) with false. cbv iota.
      unfold val_bytes, x, Header1, S_SyncGroup_0. cbn [projT1 projT2 V]. rewrite !zs_pair, !zs_i16, !zs_i32, !zs_str, zs_nstr, zs_arr. cbn [olen].
      pose proof (zlen_nonneg group). change (zlen client < 2 ^ 15) in Kc. lia. }
    pose proof (broker_reads_request b 0 corr (Some client) x [] Hw ltac:(unfold i16; lia) ltac:(unfold i32; lia) Kc Hl) as R.
    rewrite app_nil_r in R. unfold coord_sync. change (api_key b) with 14 in R. change (projT1 x) with S_SyncGroup_0 in R. rewrite R. reflexivity.
  Qed.

  Lemma entry_asg i ks : In i ks -> entry i (map (fun i => (i, asg i)) ks) = asg i.
  Proof.
    intros H. induction ks as [|k ks IH]; [contradiction|]. cbn [map entry]. destruct (beqb k i) eqn:E; [apply beqb_true in E; congruence|].
    apply IH. destruct H as [->|H]; [rewrite beqb_refl in E; discriminate|exact H].
  Qed.
  Lemma synced_ok i : In i (map fst ms) -> zlen (asg i) <= 4255010 -> forall ga, entry i ga = asg i ->
    answer 14 0 (coord_synced corr i ga) = Ok (RSyncGroup corr 0 (asg i)).
  Proof.
    intros Hi Hl ga Ge. pose proof OK as [Kc Kg Ks Kr Kn Kl [Kd Kf] Kz [Kt Ki] [Kp Kq]]. assert (P31 : 2 ^ 31 = 2147483648) by reflexivity.
    destruct (proj1 (answer_table 14 0 P_SyncGroup eq_refl corr [] (0, asg i) ltac:(unfold u32; lia)
      ltac:(split; [reflexivity|constructor]) (fun _ => eq_refl) ltac:(cbn; split; [unfold i16; lia|change (zlen (asg i) < 2 ^ 31 - 1); lia]) I
      ltac:(unfold response_bytes, rheader_bytes, frame; change (rflexible 14 0) with false; cbv iota; rewrite !zlen_app, !zlen_be; change (zlen (@nil Z)) with 0;
            unfold P_SyncGroup, s_ty, R_SyncGroup_0; rewrite zs_pair, zs_i16, zs_bytes; lia))) as [r [E R]].
    { cbn. repeat constructor. }
    unfold coord_synced. rewrite Ge. transitivity (Ok r); [exact E|]. cbn in R. rewrite R. reflexivity.
  Qed.

  Lemma got_len i : In i (map fst ms) -> (length (got i) <= length (partitions tops))%nat.
  Proof.
    intros Hi. rewrite <- (Permutation_length got_all). clear -Hi. induction (map fst ms) as [|k l IH]; [contradiction|]. cbn [flat_map]. rewrite app_length.
    destruct Hi as [->|Hi]; [lia|]. specialize (IH Hi). lia.
  Qed.
  Lemma ends_ok n ks m : (length (partitions tops) <= n)%nat -> Permutation ks (map fst ms) -> In m ms ->
    ends corr gen leader n members (map (fun i => (i, asg i)) ks) m = Ok (fst m, got (fst m)).
  Proof.
    intros Hn Pk Hm. assert (Hi : In (fst m) (map fst ms)) by (apply in_map; exact Hm).
    unfold ends. rewrite (joined_ok _ Hi). cbn [rbind].
    destruct (sync_size ks Pk) as [_ [_ S3]]. rewrite Forall_forall in S3.
    assert (Hk : In (fst m) ks) by (apply (Permutation_in _ (Permutation_sym Pk) Hi)).
    rewrite (synced_ok (fst m) Hi (proj2 (S3 _ Hk)) _ (entry_asg (fst m) ks Hk)). cbn [rbind].
    destruct ga_shape as [_ [_ [_ D]]]. specialize (D _ Hi).
    cbn [app grun gstep ginit g_sess nth_error g_closed g_avail rbind fst snd set_loop set_sess set_avail set_id upd g_member g_gen g_leader g_coord g_joined g_chan g_sc g_wg g_com s_main s_loop].
    rewrite D.
    cbn [app grun gstep ginit g_sess nth_error g_closed g_avail rbind fst snd set_loop set_main set_sess set_avail set_id set_sc set_joined upd g_member g_gen g_leader g_coord g_joined g_chan g_sc g_wg g_com s_main s_loop].
    edestruct (start_run (got (fst m)) n) as [g' E]; [pose proof (got_len _ Hi); lia| |].
    2:{ unfold got at 1 2 in E. erewrite E. cbn [rbind fst snd app started flat_map]. fold (started (map GStarted (got (fst m)))). rewrite started_map. reflexivity. }
    reflexivity.
  Qed.
  Lemma round_gives n : (length (partitions tops) <= n)%nat ->
    round zip ordS ordT ordI ordM client group session corr gen leader answers n ms = Ok (map (fun m => (fst m, got (fst m))) ms).
  Proof.
    intros Hn. unfold round. rewrite (mapr_map _ (fun m => (fst m, sub (snd m)))) by (intros m Hm; apply joins_ok; exact Hm). cbn [rbind]. fold members.
    destruct leads_ok as [ks [Pk E]]. rewrite E. cbn [rbind]. apply mapr_map. intros m Hm. apply ends_ok; assumption.
  Qed.

  (** the share of a member *)
  Lemma share_one i t l : NoDup (AssignFacts.keys l) -> (forall x, In x l -> fst x <> t -> Assign.mget i (snd x) = None) ->
    flat_map (share i) l = match Assign.mget t l with Some a => share i (t, a) | None => [] end.
  Proof.
    clear. induction l as [|[t' a] l IH]; intros Hn Hx; [reflexivity|]. cbn [AssignFacts.keys map fst] in Hn. inversion Hn as [|? ? H1 H2]; subst.
    cbn [flat_map Assign.mget]. rewrite IH; [|exact H2|intros x H; apply Hx; right; exact H]. destruct (beqb t t') eqn:E.
    - apply beqb_true in E. subst t'. assert (Assign.mget t l = None) as -> by (apply AssignFacts.mget_none; exact H1). apply app_nil_r.
    - unfold share at 1. cbn [fst snd]. pose proof (Hx (t', a) (or_introl eq_refl)) as Hx'. cbn [fst snd] in Hx'. rewrite Hx'; [reflexivity|]. intros ->. rewrite beqb_refl in E. discriminate.
  Qed.
  Lemma got_one m : In m ms -> got (fst m) = match Assign.mget (snd m) ta with Some a => share (fst m) (snd m, a) | None => [] end.
  Proof.
    intros Hm. pose proof group_ok_members as [_ [_ [Hnt _]]].
    assert (Hk : NoDup (AssignFacts.keys (ordT ta))).
    { apply (Permutation_NoDup (l := AssignFacts.keys ta)); [apply Permutation_map, Permutation_sym, HT|]. unfold ta. rewrite topic_plans_keys. exact Hnt. }
    rewrite got_share, (share_one _ (snd m)) by (try exact Hk; intros x Hx; apply pick_own; assumption).
    rewrite (AssignFacts.mget_perm _ _ _ Hk (HT ta)). reflexivity.
  Qed.
  Lemma got_even m1 m2 : In m1 ms -> In m2 ms -> snd m1 = snd m2 -> zlen (got (fst m1)) <= zlen (got (fst m2)) + 1.
  Proof.
    intros H1 H2 Et. rewrite (got_one m1 H1), (got_one m2 H2), Et. destruct (Assign.mget (snd m2) ta) as [a|] eqn:E; [|rewrite zlen_nil; lia].
    apply AssignFacts.mget_in in E. unfold ta in E. apply in_map_iff in E. destruct E as [[t P] [E Hin]]. injection E as E1 <-. cbn [fst snd] in *. subst t. set (t := snd m2) in *.
    set (subs := subs_of members t). set (L := isort Z.ltb P).
    assert (Hns : NoDup (AssignFacts.keys (plan subs L))).
    { rewrite plan_keys. apply subs_of_nodup. rewrite members_fst. destruct OK as [Kc Kg Ks Kr Kn Kl [Kd Kf] Kz [Kt Ki] [Kp Kq]]. exact Kd. }
    assert (Hs : forall m, In m ms -> snd m = t -> exists d, 0 <= d <= 1 /\ zlen (share (fst m) (t, plan subs L)) = zlen L / zlen subs + d).
    { intros m Hm Hmt. assert (Hi : In (fst m) subs).
      { apply subs_of_in. exists (sub (snd m)). split; [unfold members; apply in_map_iff; exists m; auto|].
        destruct OK as [Kc Kg Ks Kr Kn Kl [Kd Kf] Kz [Kt Ki] [Kp Kq]]. rewrite Forall_forall in Kf. rewrite subscribes_sub by (apply Kf; exact Hm). rewrite Hmt. apply beqb_refl. }
      rewrite <- (plan_keys subs L) in Hi. apply in_map_iff in Hi. destruct Hi as [[i ps] [Ei Hi]]. cbn [fst] in Ei. subst i.
      pose proof Hi as Hi'. apply In_nth_error in Hi'. destruct Hi' as [n Hn]. apply plan_sizes in Hn. destruct Hn as [_ Hn].
      unfold share. cbn [fst snd]. rewrite (AssignFacts.in_mget _ _ _ Hns Hi), zlen_map, Hn. eexists. split; [|reflexivity]. destruct (Z.of_nat n <? zlen L mod zlen subs); lia. }
    change (zlen (share (fst m1) (t, plan subs L)) <= zlen (share (fst m2) (t, plan subs L)) + 1).
    destruct (Hs m1 H1 Et) as [d1 [A1 ->]]. destruct (Hs m2 H2 eq_refl) as [d2 [A2 ->]]. lia.
  Qed.

  Lemma round_correct n : (length (partitions tops) <= n)%nat ->
    exists gs, round zip ordS ordT ordI ordM client group session corr gen leader answers n ms = Ok gs /\
      Permutation (flat_map snd gs) (partitions tops) /\
      Forall2 (fun m g => fst g = fst m /\ Forall (fun p => fst p = snd m) (snd g)) ms gs /\
      forall k1 k2 m1 m2 g1 g2, nth_error ms k1 = Some m1 -> nth_error gs k1 = Some g1 -> nth_error ms k2 = Some m2 -> nth_error gs k2 = Some g2 ->
        snd m1 = snd m2 -> zlen (snd g1) <= zlen (snd g2) + 1.
  Proof.
    intros Hn. eexists. split; [apply round_gives; exact Hn|]. split; [|split].
    - rewrite flat_map_map. cbn [snd]. rewrite <- got_all, flat_map_map. reflexivity.
    - assert (H : forall l, incl l ms -> Forall2 (fun m g => fst g = fst m /\ Forall (fun p : bytes * Z => fst p = snd m) (snd g)) l (map (fun m => (fst m, got (fst m))) l)).
      { induction l as [|m l IH]; intros Hl; [constructor|]. cbn [map]. constructor; [|apply IH; intros x Hx; apply Hl; right; exact Hx].
        split; [reflexivity|]. cbn [snd]. apply got_own. apply Hl. left. reflexivity. }
      apply H. intros x Hx. exact Hx.
    - intros k1 k2 m1 m2 g1 g2 A1 B1 A2 B2 Et. rewrite (map_nth_error _ _ _ A1) in B1. rewrite (map_nth_error _ _ _ A2) in B2. injection B1 as <-. injection B2 as <-. cbn [snd].
      apply got_even; [eapply nth_error_In; eassumption|eapply nth_error_In; eassumption|exact Et].
  Qed.
End Round.

(** ** Waiting *)
Lemma meta_loop_waits l cur : Forall (fun a => exists m e, a = Some (m, Some e)) l -> meta_loop l cur = Running.
Proof. intros H. revert cur. induction H as [|a l [m [e ->]] _ IH]; intros cur; [reflexivity|]. cbn [meta_loop]. apply IH. Qed.
Lemma lead_waits ordS ordT ordI ordM ms ts : topics_of ms [] = Ok ts ->
  forall answers, Forall (fun a => exists m e, a = Some (m, Some e)) (answers (ordS ts)) -> lead ordS ordT ordI ordM ms answers = Ok None.
Proof. intros E answers H. unfold lead. rewrite E. cbn [rbind]. rewrite meta_loop_waits by exact H. reflexivity. Qed.
