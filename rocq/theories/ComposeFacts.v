(** Proofs about the requests that a user puts together. *)
From Coq Require Import Permutation.
From Verif Require Import Base BaseFacts Wire WireFacts Prims Records Requests RequestSpec RequestFacts RequestBodies RequestFlex RequestPrep
  Builders BuildersSpec BuildersFacts Calls CallsSpec CallsFacts Compose ComposeSpec.

(** ** Fields that are set *)
Definition lastv {A B} (f : A -> option B) (l : list A) (d : B) : B := fold_left (fun a s => match f s with Some b => b | None => a end) l d.
Lemma lastv_last {A B} (f : A -> option B) (d : B) l : set_last f d l (lastv f l d).
Proof.
  induction l as [|s l IH] using rev_ind; [right; split; [constructor|reflexivity]|].
  unfold lastv in *. rewrite fold_left_app. cbn [fold_left]. destruct (f s) as [b|] eqn:E.
  - left. exists l, s, []. auto.
  - destruct IH as [(a & y & c & -> & Y & F)|[F X]].
    + left. exists a, y, (c ++ [s]). split; [rewrite <- app_assoc; reflexivity|]. split; [exact Y|]. apply Forall_app. auto.
    + right. split; [apply Forall_app; auto|exact X].
Qed.

(** ** Configs *)
Definition cfgs (l : list cfgstep) : list cfgadd := flat_map (fun s => match s with FConfig a => [a] | _ => [] end) l.
Lemma configs_cfgs l : configs l = map ca_tuple (cfgs l).
Proof. unfold configs, cfgs. induction l as [|[b|[rt rn n v]] l IH]; cbn; [reflexivity|exact IH|f_equal; exact IH]. Qed.
Lemma alter_run l : forall h rs va, fold_left alter_step l (h, QAlterConfigs rs va) =
  (h, QAlterConfigs (fold_left (fun r a => fst (ac_step r a)) (cfgs l) rs) (lastv validates l va)).
Proof. induction l as [|[b|a] l IH]; intros h rs va; cbn [fold_left cfgs flat_map app lastv validates]; [reflexivity|apply IH..]. Qed.
Lemma incremental_run l : forall h rs va, fold_left incremental_step l (h, QIncrementalAlterConfigs rs va) =
  (h, QIncrementalAlterConfigs (fold_left (fun r a => fst (iac_step r a)) (cfgs l) rs) (lastv validates l va)).
Proof. induction l as [|[b|a] l IH]; intros h rs va; cbn [fold_left cfgs flat_map app lastv validates]; [reflexivity|apply IH..]. Qed.
Lemma cfg_put_filled {V} (val : V -> bytes) n v : forall es r, cfg_put val n v es = Some r -> r <> [].
Proof.
  intros [|[m w] es] r; cbn; [injection 1 as <-; discriminate|]. destruct (beqb m n); [destruct (beqb _ _)|destruct (cfg_put val n v es)];
    intros H; try discriminate H; injection H as <-; discriminate.
Qed.
Lemma cfg_add_filled {V} (val : V -> bytes) rt rn n v : forall rs r, cfg_filled rs -> cfg_add val rs rt rn n v = Some r -> cfg_filled r.
Proof.
  induction rs as [|[rt' [rn' es]] rs IH]; intros r F E; cbn in E.
  - injection E as <-. repeat constructor. discriminate.
  - inversion F; subst. destruct ((rt' =? rt) && beqb rn' rn).
    + destruct (cfg_put val n v es) as [es'|] eqn:P; [|discriminate E]. injection E as <-. constructor; [exact (cfg_put_filled val n v es es' P)|assumption].
    + destruct (cfg_add val rs rt rn n v) as [r'|]; [|discriminate E]. injection E as <-. constructor; [assumption|]. apply IH; [assumption|reflexivity].
Qed.
Lemma ac_filled adds : cfg_filled (ac_run adds).
Proof.
  unfold ac_run. induction adds as [|a adds IH] using rev_ind; [constructor|]. rewrite fold_left_app. cbn [fold_left]. unfold ac_step, ac_add.
  match goal with |- context [cfg_add ?f ?rs ?a ?b ?c ?d] => destruct (cfg_add f rs a b c d) eqn:E end; cbn [fst]; [eapply cfg_add_filled; eassumption|exact IH].
Qed.
Lemma iac_filled adds : cfg_filled (iac_run adds).
Proof.
  unfold iac_run. induction adds as [|a adds IH] using rev_ind; [constructor|]. rewrite fold_left_app. cbn [fold_left]. unfold iac_step, iac_add.
  match goal with |- context [cfg_add ?f ?rs ?a ?b ?c ?d] => destruct (cfg_add f rs a b c d) eqn:E end; cbn [fst]; [eapply cfg_add_filled; eassumption|exact IH].
Qed.
(** the entries of a request with other values *)
Definition cmap {V W} (g : V -> W) (rs : list (Z * (bytes * list (bytes * V)))) : list (Z * (bytes * list (bytes * W))) :=
  map (fun r => (fst r, (fst (snd r), map (fun c => (fst c, g (snd c))) (snd (snd r))))) rs.
Lemma cmap_entry {V W} (g : V -> W) rs rt rn n u : cfg_entry (cmap g rs) rt rn n u <-> exists w, u = g w /\ cfg_entry rs rt rn n w.
Proof.
  unfold cfg_entry, cmap. split.
  - intros (es & H & I). apply in_map_iff in H as ([rt' [rn' es']] & E & H). cbn in E. injection E as -> -> <-.
    apply in_map_iff in I as ([m w] & E & I). cbn in E. injection E as -> <-. exists w. split; [reflexivity|]. exists es'. auto.
  - intros (w & -> & es & H & I). exists (map (fun c => (fst c, g (snd c))) es). split.
    + apply in_map_iff. exists (rt, (rn, es)). auto.
    + apply in_map_iff. exists (n, w). auto.
Qed.
Lemma cmap_unique {V W} (g : V -> W) rs : cfg_unique rs -> cfg_unique (cmap g rs).
Proof.
  intros [N F]. unfold cmap. split.
  - rewrite map_map. cbn [fst snd]. exact N.
  - apply Forall_map. eapply Forall_impl; [|exact F]. intros [rt [rn es]] D. cbn in *. rewrite map_map. cbn [fst]. exact D.
Qed.
Lemma cmap_filled {V W} (g : V -> W) rs : cfg_filled rs -> cfg_filled (cmap g rs).
Proof. intros F. apply Forall_map. eapply Forall_impl; [|exact F]. intros [rt [rn es]] D E. cbn in *. apply D. destruct es; [reflexivity|discriminate E]. Qed.

(** ** Filters *)
Lemma groups_run l : forall h s t, fold_left groups_step l (h, QListGroups s t) = (h, QListGroups (lastv states l s) (lastv types l t)).
Proof. induction l as [|[x|x] l IH]; intros h s t; cbn [fold_left lastv states types]; [reflexivity|apply IH..]. Qed.
Lemma lastv_some (f : lgstep -> option (option (list bytes))) l : (forall s x, f s = Some x -> match s with GStates y | GTypes y => x = y end) ->
  Forall (fun s => match s with GStates f | GTypes f => exists l, f = Some l /\ Forall (fun n => zlen n < 2 ^ 14 - 1) l end) l ->
  exists s, lastv f l (Some []) = Some s /\ Forall (fun n => zlen n < 2 ^ 14 - 1) s.
Proof.
  intros F H. destruct (lastv_last f (Some []) l) as [(a & y & b & E & Y & _)|[_ E]].
  - rewrite E in H. apply Forall_app in H as [_ H]. apply Forall_inv in H. apply F in Y.
    destruct y as [y|y]; destruct H as (m & M & L); rewrite E in *; rewrite Y, M; exists m; auto.
  - rewrite E. exists []. auto.
Qed.

(** ** Commits *)
Lemma commit_run l : forall h g n m r ts, fold_left commit_step l (h, QOffsetCommit g n m r ts) =
  (h, QOffsetCommit g (lastv gens l n) (lastv members l m) (lastv retentions l r)
        (fold_left (fun r a => oc_add r (fst (fst a)) (snd (fst a)) (fst (snd a)) (snd (snd a))) (parts l) ts)).
Proof. induction l as [|[x|x|x|t p off md] l IH]; intros h g n m r ts; cbn [fold_left lastv gens members retentions parts flat_map app]; [reflexivity|apply IH..]. Qed.
Definition omap (ts : list (bytes * list (Z * (Z * bytes)))) : list (bytes * list (Z * (Z * option bytes))) :=
  map (fun t => (fst t, map (fun p => (fst p, (fst (snd p), Some (snd (snd p))))) (snd t))) ts.
Lemma omap_entry ts t p u : entry (omap ts) t p u <-> exists md, snd u = Some md /\ entry ts t p (fst u, md).
Proof.
  unfold entry, omap. split.
  - intros (ps & H & I). apply in_map_iff in H as ([t' ps'] & E & H). cbn in E. injection E as -> <-.
    apply in_map_iff in I as ([q [off md]] & E & I). cbn in E. injection E as -> <-. exists md. split; [reflexivity|]. exists ps'. auto.
  - destruct u as [off o]. cbn [fst snd]. intros (md & -> & ps & H & I). eexists. split; [apply in_map_iff; exists (t, ps); split; [reflexivity|exact H]|].
    cbn [fst snd]. apply in_map_iff. exists (p, (off, md)). auto.
Qed.
Lemma omap_unique ts : unique_entries ts -> unique_entries (omap ts).
Proof.
  intros [N F]. unfold omap. split; [rewrite map_map; exact N|]. apply Forall_map. eapply Forall_impl; [|exact F]. intros [t ps] [D E]. cbn in *.
  split; [destruct ps; [congruence|discriminate]|]. rewrite map_map. exact E.
Qed.
Lemma commit_entries l : unique_entries (omap (oc_run (parts l))) /\
  forall t p u, entry (omap (oc_run (parts l))) t p u <-> exists md, snd u = Some md /\ said_last (parts l) t p (fst u, md).
Proof.
  destruct (oc_ok (parts l)) as [U E]. split; [apply omap_unique; exact U|]. intros t p u. rewrite omap_entry. split.
  - intros (md & A & B). exists md. split; [exact A|]. apply E. exact B.
  - intros (md & A & B). exists md. split; [exact A|]. apply E. exact B.
Qed.

(** ** Committed offsets *)
Lemma fetch_run g l : forall h ts, fold_left (fun r a => fetch_add (fst a) (snd a) r) l (h, QOffsetFetch g ts) =
  (h, QOffsetFetch g (fold_left (fun r a => of_add r (fst a) (snd a)) l ts)).
Proof. induction l as [|a l IH]; intros h ts; cbn [fold_left]; [reflexivity|apply IH]. Qed.

(** ** Topics *)
Lemma topics_run to l : forall h ts, fold_left topics_step l (h, QCreateTopics ts to) = (h, QCreateTopics (ct_run ts l) to).
Proof. induction l as [|o l IH]; intros h ts; cbn [fold_left ct_run]; [reflexivity|]. unfold topics_step at 2. cbn [snd fst]. apply IH. Qed.
Lemma rising_snoc p rs : forall l top, rising top (l ++ [(p, rs)]) =
  rising top l ++ (if match last (map Some (map fst (rising top l))) top with None => true | Some q => q <? p end then [(p, rs)] else []).
Proof.
  induction l as [|[q w] l IH]; intros top; cbn [app rising].
  - cbn. destruct top as [t|]; [destruct (t <? p)|]; reflexivity.
  - destruct (match top with None => true | Some t => t <? q end).
    + rewrite IH. cbn [map fst app]. f_equal. f_equal. 
      assert (L : forall m (x : option Z) d, last (x :: m) d = last m x).
      { induction m as [|y m IHm]; intros x d; [reflexivity|]. change (last (x :: y :: m) d) with (last (y :: m) d). rewrite (IHm y d), (IHm y x). reflexivity. }
      rewrite L. reflexivity.
    + apply IH.
Qed.
Lemma last_above l p : StronglySorted Z.lt l ->
  (match last (map Some l) None with None => true | Some q => q <? p end = true <-> Forall (fun q => q < p) l).
Proof.
  induction l as [|a l IH]; intros S; [split; [constructor|reflexivity]|]. inversion S as [|? ? S1 F]; subst.
  destruct l as [|b l].
  - cbn. rewrite Z.ltb_lt. split; [repeat constructor; assumption|intros H; inversion H; assumption].
  - change (last (map Some (a :: b :: l)) None) with (last (map Some (b :: l)) None). rewrite (IH S1). split; [|intros H; inversion H; assumption].
    intros H. constructor; [|exact H]. inversion H; subst. inversion F; subst. lia.
Qed.
Lemma assigned_app t a b : assigned t (a ++ b) = assigned t a ++ assigned t b.
Proof. apply flat_map_app. Qed.
Lemma ct_global l : forall t n rf ras cs, In (t, (n, (rf, (ras, cs)))) (ct_run [] l) -> cs = [] /\
  exists before after, l = before ++ CAddTopic t n rf :: after /\ (forall n' rf', ~ In (CAddTopic t n' rf') before) /\ ras = rising None (assigned t after).
Proof.
  induction l as [|o l IH] using rev_ind; [intros t n rf ras cs []|]. intros t n rf ras cs. rewrite ct_run_app. cbn [ct_run].
  assert (Inv : ct_inv (ct_run [] l)) by (apply ct_run_inv, ct_inv_nil). set (ts := ct_run [] l) in *.
  assert (More : forall ras cs, In (t, (n, (rf, (ras, cs)))) ts -> assigned t [o] = [] -> cs = [] /\
    exists before after, l ++ [o] = before ++ CAddTopic t n rf :: after /\ (forall n' rf', ~ In (CAddTopic t n' rf') before) /\ ras = rising None (assigned t after)).
  { intros ras' cs' H A. destruct (IH _ _ _ _ _ H) as (C & b & a & E & N & R). split; [exact C|]. exists b, (a ++ [o]).
    split; [rewrite E, <- app_assoc; reflexivity|]. split; [exact N|]. rewrite assigned_app, A, app_nil_r. exact R. }
  destruct o as [t' n' rf'|t' p rs]; cbn [ct_step].
  - pose proof (ct_add_spec ts t' n' rf') as X. destruct (ct_add ts t' n' rf') as [ts'|]; cbn [fst]; [|intros H; exact (More _ _ H eq_refl)].
    destruct X as [Nt ->]. rewrite in_app_iff. intros [H|[H|[]]]; [exact (More _ _ H eq_refl)|]. injection H as -> -> -> <- <-. split; [reflexivity|].
    exists l, []. split; [reflexivity|]. split; [|reflexivity]. intros n' rf' H. apply Nt. apply (ct_topics l [] t ct_inv_nil). right. eauto.
  - assert (Same : forall y, In y ts -> fst y = t' -> forall z, In z ts -> fst z = t' -> y = z).
    { intros y Hy Ey z Hz Ez. destruct Inv as [ND _]. clear - ND Hy Ey Hz Ez. induction ts as [|w ts IH]; [destruct Hy|]. cbn in ND. inversion ND as [|? ? N1 N2]; subst.
      destruct Hy as [->|Hy], Hz as [->|Hz]; [reflexivity| | |exact (IH N2 Hy Hz)]; exfalso; apply N1;
        [rewrite <- Ez|rewrite Ez in N1; rewrite Ez]; apply in_map; assumption. }
    pose proof (ra_add_spec ts t' p rs Inv) as X. destruct (bytes_eq_dec t' t) as [->|Nt].
    + assert (At : assigned t [CAddReplicas t p rs] = [(p, rs)]) by (cbn; rewrite beqb_refl; reflexivity).
      assert (Srt : forall n rf ras cs, In (t, (n, (rf, (ras, cs)))) ts -> StronglySorted Z.lt (map fst ras)).
      { intros ? ? ? ? H. destruct Inv as [_ F]. rewrite Forall_forall in F. exact (F _ H). }
      destruct (ra_add ts t p rs) as [e|ts'] eqn:Er; cbn [fst].
      * intros H. destruct (IH _ _ _ _ _ H) as (C & b & a & E & N & R). split; [exact C|]. exists b, (a ++ [CAddReplicas t p rs]).
        split; [rewrite E, <- app_assoc; reflexivity|]. split; [exact N|]. rewrite assigned_app, At, rising_snoc, <- R.
        destruct (match last (map Some (map fst ras)) None with None => true | Some q => q <? p end) eqn:L; [|rewrite app_nil_r; reflexivity].
        exfalso. apply (last_above _ _ (Srt _ _ _ _ H)) in L. destruct e.
        -- apply X. apply in_map_iff. eexists; split; [|exact H]. reflexivity.
        -- destruct X as (y & q & Hy & Ey & Hq & Lq). rewrite (Same y Hy Ey _ H eq_refl) in Hq. cbn in Hq. rewrite Forall_forall in L. specialize (L q Hq). lia.
      * destruct X as (a0 & n0 & rf0 & ras0 & cs0 & b0 & Ets & -> & F). intros H.
        assert (H0 : In (t, (n0, (rf0, (ras0, cs0)))) ts) by (rewrite Ets; apply in_or_app; right; left; reflexivity).
        assert (Out : forall y, In y (a0 ++ b0) -> fst y <> t).
        { intros y Hy Ey. destruct Inv as [ND _]. rewrite Ets in ND. rewrite map_app in ND. cbn in ND. apply NoDup_remove_2 in ND. apply ND.
          rewrite <- map_app, <- Ey. apply in_map. exact Hy. }
        assert (Eq : (t, (n, (rf, (ras, cs)))) = (t, (n0, (rf0, (ras0 ++ [(p, rs)], cs0))))).
        { apply in_app_or in H as [H|[H|H]]; [|symmetry; exact H|]; exfalso; (eapply Out; [apply in_or_app; (left + right); exact H|reflexivity]). }
        injection Eq as -> -> -> ->. destruct (IH _ _ _ _ _ H0) as (C & b & a & E & N & R). split; [exact C|]. exists b, (a ++ [CAddReplicas t p rs]).
        split; [rewrite E, <- app_assoc; reflexivity|]. split; [exact N|]. rewrite assigned_app, At, rising_snoc, <- R.
        rewrite (proj2 (last_above _ _ (Srt _ _ _ _ H0)) F). reflexivity.
    + assert (At : assigned t [CAddReplicas t' p rs] = []) by (cbn; destruct (beqb t' t) eqn:B; [apply beqb_true in B; contradiction|reflexivity]).
      destruct (ra_add ts t' p rs) as [e|ts']; cbn [fst]; [intros H; exact (More _ _ H At)|].
      destruct X as (a0 & n0 & rf0 & ras0 & cs0 & b0 & Ets & -> & F). intros H. apply (More _ _); [|exact At]. rewrite Ets.
      apply in_app_or in H as [H|[H|H]]; apply in_or_app; [left; exact H|congruence|right; right; exact H].
Qed.
Lemma topics_created l : creates l (map (fun x : bytes * (Z * (Z * (list (Z * list Z) * list (bytes * bytes)))) =>
  let '(name, (np, (rf, (ras, cfgs)))) := x in (name, (np, (rf, (ras, map (fun c => (fst c, Some (snd c))) cfgs))))) (ct_run [] l)).
Proof.
  assert (K : map fst (map (fun x : bytes * (Z * (Z * (list (Z * list Z) * list (bytes * bytes)))) =>
    let '(name, (np, (rf, (ras, cfgs)))) := x in (name, (np, (rf, (ras, map (fun c => (fst c, Some (snd c))) cfgs))))) (ct_run [] l)) = map fst (ct_run [] l)).
  { rewrite map_map. apply map_ext. intros [t [n [rf [ras cs]]]]. reflexivity. }
  split; [rewrite K; exact (proj1 (ct_run_inv l [] ct_inv_nil))|]. split.
  - intros t. rewrite K, (ct_topics l [] t ct_inv_nil). cbn. tauto.
  - intros t n rf ras cs H. apply in_map_iff in H as ([t' [n' [rf' [ras' cs']]]] & E & H). injection E as -> -> -> -> <-.
    destruct (ct_global l _ _ _ _ _ H) as [-> X]. split; [reflexivity|exact X].
Qed.

(** ** Partitions *)
Lemma partitions_run to va l : forall h ts,
  fold_left (fun r a => partitions_add (fst a) (fst (snd a)) (snd (snd a)) r) l (h, QCreatePartitions ts to va) = (h, QCreatePartitions (ts ++ l) to va).
Proof.
  induction l as [|[t [n a]] l IH]; intros h ts; cbn [fold_left]; [rewrite app_nil_r; reflexivity|].
  unfold partitions_add at 2. cbn [snd fst]. rewrite IH. unfold cp_add. rewrite <- app_assoc. reflexivity.
Qed.

(** ** Log directories *)
Lemma logdirs_started topics tps : NoDup topics ->
  let ts := fold_left (fun r a => ld_add r (fst a) (snd a)) tps (map (fun t => (t, [])) topics) in
  NoDup (map fst ts) /\ (forall t, In t (map fst ts) <-> In t topics \/ In t (map fst tps)) /\
  (forall t ps, In (t, ps) ts -> NoDup ps /\ forall p, In p ps <-> In (t, p) tps).
Proof.
  intros N. cbv zeta. induction tps as [|[t p] tps IH] using rev_ind.
  - cbn [fold_left]. assert (M : map fst (map (fun t : bytes => (t, @nil Z)) topics) = topics) by (rewrite map_map; apply map_id). rewrite M.
    split; [exact N|]. split; [cbn; tauto|]. intros t ps H. apply in_map_iff in H as (t' & E & _). injection E as <- <-. split; [constructor|cbn; tauto].
  - rewrite fold_left_app. cbn [fold_left fst snd]. set (ts := fold_left _ tps _) in *. destruct IH as (ND & K & E). unfold ld_add.
    split; [apply at_name_nodup; exact ND|]. split.
    + intros t'. rewrite at_name_keys, K, map_app, in_app_iff. cbn. intuition congruence.
    + intros t' ps H. apply at_name_in in H; [|exact ND]. destruct H as [[D H]|[-> [[b [H ->]]|[D ->]]]].
      * destruct (E _ _ H) as [E1 E2]. split; [exact E1|]. intros q. rewrite E2, in_app_iff. cbn. intuition congruence.
      * destruct (E _ _ H) as [E1 E2]. split; [apply add_pid_nodup; exact E1|]. intros q. rewrite add_pid_in, E2, in_app_iff. cbn. intuition congruence.
      * split; [repeat constructor; intros []|]. intros q. rewrite in_app_iff. cbn. split; [intros [->|[]]; auto|]. intros [X|[X|[]]]; [|injection X as <-; auto].
        exfalso. apply D. apply K. right. apply (in_map fst tps (t, q)). exact X.
Qed.

(** ** All *)
Lemma composed_value client rc v : recipe_limits rc v -> In v (recipe_versions rc) -> (forall x, composed rc v x -> val_wf x) ->
  exists b ver x, compose client rc = (new_header (recipe_key rc) ver (Some client), b) /\
    api_key b = recipe_key rc /\ kafka_key b = recipe_key rc /\ request_value b v = Some x /\ composed rc v x /\ fits (Some client) b v.
Proof.
  intros L S W. destruct rc; cbn [recipe_limits compose recipe_key recipe_versions In] in *.
  - destruct S as [<-|[]]; cbn [composed] in *. unfold NewAlterConfigsRequest. rewrite alter_run.
    eexists _, _, _. split; [reflexivity|]. split; [reflexivity|]. split; [reflexivity|]. split; [reflexivity|]. split; [|exact I].
    exists (cmap (@Some bytes) (ac_run (cfgs l))), (lastv validates l false). split; [apply lastv_last|].
    destruct (ac_ok (cfgs l) (mkCA 0 [] [] [])) as (U & E & _). split; [apply cmap_unique; exact U|]. split; [apply cmap_filled, ac_filled|]. split; [|reflexivity].
    intros rt rn n u. rewrite cmap_entry, configs_cfgs. split; intros (w & A & B); exists w; (split; [exact A|]); apply E; exact B.
  - destruct S as [<-|[]]; cbn [composed] in *. unfold NewIncrementalAlterConfigsRequest. rewrite incremental_run.
    eexists _, _, _. split; [reflexivity|]. split; [reflexivity|]. split; [reflexivity|]. split; [reflexivity|]. split; [|exact I].
    exists (cmap (fun c : Z * bytes => (fst c, Some (snd c))) (iac_run (cfgs l))), (lastv validates l false). split; [apply lastv_last|].
    destruct (iac_ok (cfgs l) (mkCA 0 [] [] [])) as (U & E & _). split; [apply cmap_unique; exact U|]. split; [apply cmap_filled, iac_filled|]. split; [|reflexivity].
    intros rt rn n u. rewrite cmap_entry, configs_cfgs. split.
    + intros ([o w] & -> & B). apply E in B as [B1 B2]. cbn in B1. subst o. exists w. auto.
    + intros (w & -> & B). exists (0, w). split; [reflexivity|]. apply E. auto.
  - unfold NewListGroupsRequest. rewrite groups_run.
    destruct (lastv_some states l) as (s & Es & Fs); [intros [y|y] x E; cbn in E; congruence|exact L|].
    destruct (lastv_some types l) as (t & Et & Ft); [intros [y|y] x E; cbn in E; congruence|exact L|].
    pose proof (lastv_last states (Some []) l) as Ls. pose proof (lastv_last types (Some []) l) as Lt. rewrite Es in *. rewrite Et in *.
    repeat (match type of S with _ \/ _ => destruct S as [<-|S] | False => destruct S end); cbn [composed] in *;
      (eexists _, _, _; split; [reflexivity|]; split; [reflexivity|]; split; [reflexivity|]; split; [reflexivity|]); (split; [|cbn [fits olist]; auto]); eauto.
  - unfold NewOffsetCommitRequest. rewrite commit_run. destruct (commit_entries l) as [U E].
    repeat (match type of S with _ \/ _ => destruct S as [<-|S] | False => destruct S end); cbn [composed] in *;
      (eexists _, _, _; split; [reflexivity|]; split; [reflexivity|]; split; [reflexivity|]; split; [reflexivity|]); (split; [|exact I]).
    + exists (omap (oc_run (parts l))). auto.
    + exists (omap (oc_run (parts l))), (lastv gens l 0), (lastv members l []), (lastv retentions l 0). split; [apply lastv_last|]. split; [apply lastv_last|]. split; [apply lastv_last|]. auto.
  - unfold NewOffsetFetchRequest. rewrite fetch_run.
    repeat (match type of S with _ \/ _ => destruct S as [<-|S] | False => destruct S end); cbn [composed] in *;
      (eexists _, _, _; split; [reflexivity|]; split; [reflexivity|]; split; [reflexivity|]; split; [reflexivity|]); (split; [|exact I]);
      (eexists; split; [exact (pid_ok tps)|reflexivity]).
  - unfold NewCreateTopicsRequest. rewrite topics_run. destruct S as [<-|[]]; cbn [composed] in *.
    eexists _, _, _. split; [reflexivity|]. split; [reflexivity|]. split; [reflexivity|]. split; [reflexivity|]. split; [|exact I].
    eexists. split; [exact (topics_created l)|reflexivity].
  - unfold NewCreatePartitionsRequest. rewrite partitions_run. cbn [app].
    repeat (match type of S with _ \/ _ => destruct S as [<-|S] | False => destruct S end); cbn [composed] in *;
      (assert (E : sint 32 timeout = timeout) by (apply wf_sint32; specialize (W _ eq_refl); cbn in W; fold_out W));
      rewrite E; cbn [Z.eqb] in L; (eexists _, _, _; split; [reflexivity|]; split; [reflexivity|]; split; [reflexivity|]; split; [reflexivity|]).
    + split; [reflexivity|]. cbn [fits Z.eqb]. exact L.
    + split.
      * f_equal. f_equal. apply map_ext. intros [t [n a]]. reflexivity.
      * cbn [fits Z.eqb]. eapply Forall_impl; [|exact L]. intros [t [n a]] H. cbn [fst snd] in *. destruct a as [a|]; cbn [olist]; [exact (H a eq_refl)|split; [reflexivity|constructor]].
  - unfold NewDescribeLogDirsRequest. rewrite logdirs_run. destruct S as [<-|[]]; cbn [composed] in *.
    eexists _, _, _. split; [reflexivity|]. split; [reflexivity|]. split; [reflexivity|]. split; [reflexivity|]. split; [|exact I].
    eexists. destruct (logdirs_started topics tps L) as (A & B & C). split; [exact A|]. split; [exact B|]. split; [exact C|reflexivity].
  - destruct S as [<-|[]]; cbn [composed] in *.
    eexists _, _, _. split; [reflexivity|]. split; [reflexivity|]. split; [reflexivity|]. split; [reflexivity|]. split; [reflexivity|exact I].
  - destruct S as [<-|[]]; cbn [composed] in *.
    eexists _, _, _. split; [reflexivity|]. split; [reflexivity|]. split; [reflexivity|]. split; [reflexivity|]. split; [reflexivity|exact I].
  - destruct S as [<-|[]]; cbn [composed] in *.
    eexists _, _, _. split; [reflexivity|]. split; [reflexivity|]. split; [reflexivity|]. split; [reflexivity|]. split; [reflexivity|exact I].
Qed.
Lemma composed_sent zip client rc v corr rest : recipe_limits rc v -> In v (recipe_versions rc) ->
  (forall x, composed rc v x -> val_wf x /\ zlen (val_bytes x) + zlen client + 15 < 2 ^ 31) ->
  i16 v -> i32 corr -> zlen client < 2 ^ 15 ->
  exists out r' x, prepare zip corr v (compose client rc) = Ok (out, r') /\ composed rc v x /\
    broker_reads (recipe_key rc) v (projT1 x) (out ++ rest) = Some (zlen out - 4, (recipe_key rc, v, corr, Some client), projT2 x, rest).
Proof.
  intros L S W Hv Hc Hcl. destruct (composed_value client rc v L S (fun x Hx => proj1 (W x Hx))) as (b & ver & x & E & Ka & Kk & Rv & Sx & F).
  destruct (W x Sx) as [Wx Sz]. rewrite E.
  exists (request_bytes b v corr (Some client) x), (sent_header (Some client) b v corr, b), x.
  rewrite <- Ka, prepare_version. split; [exact (prepare_value zip corr (Some client) b v x Rv Wx F)|]. split; [exact Sx|].
  rewrite Ka, <- Kk. apply broker_reads_request; try assumption.
  assert (H31 : 2 ^ 31 = 2147483648) by reflexivity.
  assert (Hh : zlen (header_bytes (flexibleb (kafka_key b) v) (kafka_key b) v corr (Some client)) <= 11 + zlen client).
  { unfold header_bytes. pose proof (zlen_nonneg client). destruct (flexibleb (kafka_key b) v); unfold Header1, Header2;
      rewrite !zs_pair, !zs_i16, !zs_i32, zs_nstr, ?zs_tags; cbn [olen]; lia. }
  unfold request_bytes, frame. rewrite !zlen_app, zlen_be. lia.
Qed.
