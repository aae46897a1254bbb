(** Facts about the command line tools. *)
From Verif Require Import Base BaseFacts Text TextFacts Consumer Assign SortFacts Builders BuildersSpec BuildersFacts Config Tools ToolsSpec.

(** ** maps *)
Lemma zput_fresh : forall m k v, ~ In k (map fst m) -> zput k v m = m ++ [(k, v)].
Proof.
  induction m as [|[k' w] m IH]; intros k v H; cbn in *; [reflexivity|].
  replace (k' =? k) with false by (symmetry; apply Z.eqb_neq; intros ->; apply H; auto).
  rewrite IH by (intros C; apply H; auto). reflexivity.
Qed.
Lemma zget_in : forall m k v, NoDup (map fst m) -> In (k, v) m -> zget k m = v.
Proof.
  induction m as [|[k' w] m IH]; intros k v N H; cbn in *; [destruct H|]. inversion N; subst.
  destruct H as [H|H].
  - injection H as -> ->. now rewrite Z.eqb_refl.
  - replace (k' =? k) with false. { apply IH; assumption. }
    symmetry. apply Z.eqb_neq. intros ->. apply H2. apply in_map_iff. exists (k, v). auto.
Qed.

(** ** the answers *)
Lemma reports_get : forall p v o, getPartitionOffset (p, v) = Ok o <-> reports v o.
Proof.
  intros p (e & old & ts & o') o. unfold getPartitionOffset. cbn [fst snd]. split.
  - destruct old as [|x [|y old]]; intros H; try discriminate; injection H as <-; constructor.
  - inversion 1; reflexivity.
Qed.
Lemma collect_fresh : forall ps m m', collect ps m = Ok m' -> NoDup (map fst m ++ map fst ps) ->
  exists os, m' = m ++ os /\ Forall2 (fun p x => fst x = fst p /\ getPartitionOffset p = Ok (snd x)) ps os.
Proof.
  induction ps as [|p ps IH]; intros m m' H N; cbn in H.
  - injection H as <-. exists []. split; [now rewrite app_nil_r|constructor].
  - destruct (getPartitionOffset p) as [o| | |] eqn:E; try discriminate. cbn in H.
    pose proof (NoDup_remove _ _ _ N) as (N1 & N2).
    rewrite zput_fresh in H by (intros C; apply N2; apply in_or_app; auto).
    apply IH in H as (os & -> & F).
    + exists ((fst p, o) :: os). split; [now rewrite <- app_assoc|]. constructor; auto.
    + rewrite map_app, <- app_assoc. exact N.
Qed.
Lemma Forall2_fst : forall {A} (ps : list (Z * A)) (os : list (Z * Z)) (P : Z * A -> Z * Z -> Prop),
  Forall2 (fun p x => fst x = fst p /\ P p x) ps os -> map fst os = map fst ps.
Proof. intros A ps os P F. induction F as [|p x ps os (E & _) F IH]; cbn; [reflexivity|]. congruence. Qed.

Lemma offsets_get : forall rs m p v o, offsets_of rs = Ok m -> told (flat_map (flat_map snd) rs) p v -> reports v o ->
  zget p m = o.
Proof.
  intros rs m p v o H (I & N) R. unfold offsets_of in H. apply collect_fresh in H as (os & -> & F); [|exact N].
  cbn [app]. apply zget_in.
  - erewrite Forall2_fst by (exact F). exact N.
  - clear N. revert I. induction F as [|q x ps os (E & G) F IH]; intros I; [destruct I|].
    destruct I as [->|I]; [|right; auto]. left. apply (reports_get p) in R. rewrite R in G. injection G as G.
    destruct x; cbn in *; congruence.
Qed.

Lemma committed_get : forall ts p c m, told (flat_map snd ts) p (c, m) -> zget p (committed_of ts) = c.
Proof.
  intros ts p c m (I & N). unfold committed_of.
  assert (G : forall ps acc, NoDup (map fst acc ++ map fst ps) ->
    fold_left (fun m (p : Z * (Z * (bytes * Z))) => zput (fst p) (fst (snd p)) m) ps acc = acc ++ map (fun q => (fst q, fst (snd q))) ps).
  { induction ps as [|q ps IH]; intros acc ND; cbn [fold_left map]; [now rewrite app_nil_r|].
    cbn [map] in ND. pose proof (NoDup_remove _ _ _ ND) as (N1 & N2).
    rewrite zput_fresh by (intros C; apply N2; apply in_or_app; auto).
    rewrite IH; [now rewrite <- app_assoc|]. rewrite map_app, <- app_assoc. exact ND. }
  rewrite G by exact N. cbn [app]. apply zget_in.
  - rewrite map_map. exact N.
  - apply in_map_iff. exists (p, (c, m)). auto.
Qed.

(** ** get-pending *)
Lemma sint64_id : forall x, - 2 ^ 63 <= x < 2 ^ 63 -> sint 64 x = x.
Proof. intros x H. apply sint_id; lia. Qed.

Lemma isort_Zle : forall l, StronglySorted Z.le (isort Z.ltb l).
Proof.
  intros l. pose proof (isort_sorted Z.ltb Zltb_st l) as H. induction H as [|x l' H IH F]; constructor; auto.
  eapply Forall_impl; [|exact F]. intros y Hy. unfold leo in Hy. lia.
Qed.
Lemma rows_fst : forall offs coms ps, map fst (map (pending_row offs coms) ps) = ps.
Proof. intros. rewrite map_map. unfold pending_row. cbn. apply map_id. Qed.

Lemma getPending_inv : forall rs md cs rows tot, getPending rs md cs = Ok (rows, tot) ->
  exists rs' md' cs' offs, rs = Ok rs' /\ md = Ok md' /\ cs = Ok cs' /\ offsets_of rs' = Ok offs /\
    rows = map (pending_row offs (committed_of cs')) (partitions_of md') /\ tot = fold_left add3 rows (0, (0, 0)).
Proof.
  intros rs md cs rows tot H. unfold getPending in H.
  destruct rs as [rs| | |]; try discriminate. cbn [rbind] in H.
  destruct (offsets_of rs) as [offs| | |] eqn:O; try discriminate. cbn [rbind] in H.
  destruct md as [md| | |]; try discriminate. cbn [rbind] in H.
  destruct cs as [cs| | |]; try discriminate. cbn [rbind] in H. injection H as <- <-.
  exists rs, md, cs, offs. auto 10.
Qed.

Lemma pending_lines : forall rs md cs rows tot, getPending (Ok rs) (Ok md) (Ok cs) = Ok (rows, tot) ->
  StronglySorted Z.le (map fst rows) /\ Permutation (map fst rows) (flat_map snd md) /\
  forall p o c l v last com mt, In (p, (o, (c, l))) rows ->
    told (flat_map (flat_map snd) rs) p v -> reports v last -> 0 <= last < 2 ^ 63 ->
    told (flat_map snd cs) p (com, mt) -> 0 <= com < 2 ^ 63 ->
    o = last /\ c = com /\ l = backlog last com.
Proof.
  intros rs md cs rows tot H. apply getPending_inv in H as (rs' & md' & cs' & offs & [= <-] & [= <-] & [= <-] & O & -> & _).
  rewrite rows_fst. split; [apply isort_Zle|]. split; [apply isort_perm|].
  intros p o c l v last com mt I T R L TC C.
  apply in_map_iff in I as (q & E & _). unfold pending_row in E. injection E as -> Eo Ec El.
  rewrite (offsets_get _ _ _ _ _ O T R) in *. rewrite (committed_get _ _ _ _ TC) in *.
  subst. split; [reflexivity|]. split; [reflexivity|]. unfold backlog.
  replace (o =? -1) with false by lia. replace (c <? 0) with false by lia. apply sint64_id. lia.
Qed.

Lemma sint_add : forall x y, sint 64 (sint 64 x + y) = sint 64 (x + y).
Proof.
  intros x y. rewrite <- (sint_mod 64 (sint 64 x + y)), <- (sint_mod 64 (x + y)) by lia. f_equal.
  rewrite <- (Z.add_mod_idemp_l x), <- Z.add_mod_idemp_l by lia. f_equal. f_equal.
  unfold sint. destruct (_ <? _); [apply Z.mod_mod; lia|].
  replace (x mod 2 ^ 64 - 2 ^ 64) with (x mod 2 ^ 64 + (-1) * 2 ^ 64) by lia.
  rewrite Z.mod_add by lia. apply Z.mod_mod. lia.
Qed.
Lemma fold_add3 : forall rows a b c, 
  fold_left add3 rows (sint 64 a, (sint 64 b, sint 64 c)) =
  (sint 64 (a + total (map (fun r => fst (snd r)) rows)),
   (sint 64 (b + total (map (fun r => fst (snd (snd r))) rows)), sint 64 (c + total (map (fun r => snd (snd (snd r))) rows)))).
Proof.
  induction rows as [|r rows IH]; intros a b c; cbn [fold_left map total].
  - now rewrite !Z.add_0_r.
  - unfold add3 at 2. cbn [fst snd]. rewrite !sint_add, IH. rewrite !Z.add_assoc. reflexivity.
Qed.
Lemma pending_total : forall rs md cs rows a b c, getPending rs md cs = Ok (rows, (a, (b, c))) ->
  a = sint 64 (total (map (fun r => fst (snd r)) rows)) /\
  b = sint 64 (total (map (fun r => fst (snd (snd r))) rows)) /\
  c = sint 64 (total (map (fun r => snd (snd (snd r))) rows)).
Proof.
  intros rs md cs rows a b c H. apply getPending_inv in H as (? & ? & ? & ? & _ & _ & _ & _ & _ & T).
  change (0, (0, 0)) with (sint 64 0, (sint 64 0, sint 64 0)) in T. rewrite fold_add3 in T. cbn [Z.add] in T.
  injection T as -> -> ->. auto.
Qed.

(** ** patterns *)
Definition translate (g : bytes) : bytes := replace 42 [46; 42] (replace 46 [92; 46] g).
Definition rx_of (c : Z) : rx := if c =? 42 then RMany else RLit c.

Lemma plain_meta : forall c, plain_pat c -> is_meta c = false /\ c <> 92.
Proof.
  intros c (R & N). split; [|intros ->; apply N; cbn; tauto].
  apply Bool.not_true_is_false. intros H. apply existsb_exists in H as (x & H & E).
  apply Z.eqb_eq in E as <-. apply N. cbn in *. tauto.
Qed.
Lemma translate_cons : forall c g, translate (c :: g) =
  (if c =? 46 then [92; 46] else if c =? 42 then [46; 42] else [c]) ++ translate g.
Proof.
  intros c g. unfold translate, replace. cbn [flat_map]. destruct (c =? 46) eqn:E; cbn [flat_map app].
  - reflexivity.
  - destruct (c =? 42); reflexivity.
Qed.
Lemma parse_translate : forall g, Forall plain_pat g -> rx_parse (translate g) = Ok (map rx_of g).
Proof.
  induction g as [|c g IH]; intros F; [reflexivity|]. inversion F; subst. destruct H1 as (R & M0). destruct (plain_meta c (conj R M0)) as (M & B).
  rewrite translate_cons. unfold rx_of at 1. cbn [map]. destruct (c =? 46) eqn:E; [|destruct (c =? 42) eqn:E'].
  - apply Z.eqb_eq in E as ->. cbn [app rx_parse]. rewrite IH by assumption. reflexivity.
  - cbn [app rx_parse]. rewrite IH by assumption. apply Z.eqb_eq in E' as ->. reflexivity.
  - cbn [app rx_parse]. rewrite IH by assumption. rewrite ?E, ?E', M.
    replace (c =? 92) with false by lia. replace (127 <? c) with false by lia. cbn.
    reflexivity.
Qed.
Lemma translate_in : forall g c, In c (translate g) -> In c g \/ c = 92 \/ c = 46 \/ c = 42.
Proof.
  induction g as [|x g IH]; intros c H; [destruct H|]. rewrite translate_cons in H. apply in_app_or in H as [H|H].
  - destruct (x =? 46) eqn:E; [|destruct (x =? 42) eqn:E']; cbn in H; repeat (destruct H as [<-|H]); try tauto; left; left; lia.
  - apply IH in H. cbn. tauto.
Qed.
Lemma compile_translate : forall g, Forall plain_pat g -> mustCompile (translate g) = Ok (map rx_of g).
Proof.
  intros g F. unfold mustCompile. replace (existsb (Z.eqb 40) (translate g)) with false.
  { cbn. apply parse_translate; assumption. }
  symmetry. apply Bool.not_true_is_false. intros H. apply existsb_exists in H as (c & H & E).
  apply Z.eqb_eq in E as <-. apply translate_in in H as [H|H]; [|lia].
  rewrite Forall_forall in F. apply F, plain_meta in H as (M & _). discriminate.
Qed.

Lemma many_eq : forall r s, rx_match (RMany :: r) s =
  rx_match r s || match s with [] => false | x :: s' => negb (x =? 10) && rx_match (RMany :: r) s' end.
Proof. intros r s. destruct s; reflexivity. Qed.
Lemma match_glob : forall g s, ~ In 10 s -> rx_match (map rx_of g) s = true <-> glob g s.
Proof.
  induction g as [|c g IH]; intros s N.
  - cbn. destruct s; split; intros H; try discriminate; try constructor. inversion H.
  - cbn [map]. unfold rx_of at 1. destruct (c =? 42) eqn:E.
    + apply Z.eqb_eq in E as ->. induction s as [|x s IHs]; rewrite many_eq.
      * rewrite Bool.orb_false_r. rewrite IH by assumption. split; [intros H; now apply g_none|]. inversion 1; subst; assumption.
      * rewrite Bool.orb_true_iff, IH by assumption. cbn in N.
        replace (negb (x =? 10)) with true by lia. rewrite Bool.andb_true_l, IHs by tauto. split.
        -- intros [H|H]; [now apply g_none|now apply g_more].
        -- inversion 1; subst; auto. congruence.
    + destruct s as [|x s]; cbn [rx_match].
      * split; [discriminate|]. inversion 1; subst; discriminate.
      * rewrite Bool.andb_true_iff, IH by (cbn in N; tauto). split.
        -- intros (H & G). assert (x = c) by lia. subst. constructor; [lia|assumption].
        -- inversion 1; subst; try discriminate. split; [lia|assumption].
Qed.

Lemma glob_plain : forall g s, ~ In 42 g -> glob g s <-> s = g.
Proof.
  induction g as [|c g IH]; intros s N.
  - split; [inversion 1; reflexivity|intros ->; constructor].
  - cbn in N. split.
    + inversion 1; subst; try tauto. f_equal. apply IH; tauto.
    + intros ->. constructor; [intros ->; tauto|]. apply IH; tauto.
Qed.

Lemma getGroups_ok : forall g all, g <> [] -> In 42 g -> Forall plain_pat g -> Forall (fun s => ~ In 10 s) all ->
  exists l, getGroups g all = Ok l /\ (forall x, In x l <-> In x all /\ glob g x) /\
    exists f, l = filter f all.
Proof.
  intros g all NE S F A. unfold getGroups. destruct g as [|c g]; [congruence|].
  replace (existsb (Z.eqb 42) (c :: g)) with true.
  2:{ symmetry. apply existsb_exists. exists 42. split; [assumption|reflexivity]. }
  cbn [negb]. change (replace 42 [46; 42] (replace 46 [92; 46] (c :: g))) with (translate (c :: g)).
  rewrite (compile_translate _ F). cbn [rbind]. eexists. split; [reflexivity|]. split; [|eexists; reflexivity].
  intros x. rewrite filter_In. rewrite Forall_forall in A. split; intros (H & M); (split; [assumption|]); apply match_glob; auto.
Qed.
Lemma getGroups_name : forall g all, g <> [] -> ~ In 42 g -> getGroups g all = Ok [g].
Proof.
  intros g all NE N. unfold getGroups. destruct g as [|c g]; [congruence|].
  replace (existsb (Z.eqb 42) (c :: g)) with false; [reflexivity|].
  symmetry. apply Bool.not_true_is_false. intros H. apply existsb_exists in H as (x & H & E).
  apply Z.eqb_eq in E as <-. auto.
Qed.

(** ** reset-offset *)
Definition keep (sel : list Z) (p : Z) : bool := match sel with [] => true | _ => existsb (Z.eqb p) sel end.
Lemma reset_fold : forall topic sel l r,
  fold_left (fun r (x : Z * Z) => if keep sel (fst x) then oc_add r topic (fst x) (snd x) [] else r) l r =
  fold_left (fun r a => oc_add r (fst (fst a)) (snd (fst a)) (fst (snd a)) (snd (snd a)))
    (map (fun x : Z * Z => ((topic, fst x), (snd x, []))) (filter (fun x => keep sel (fst x)) l)) r.
Proof.
  induction l as [|x l IH]; intros r; cbn [fold_left filter]; [reflexivity|].
  destruct (keep sel (fst x)); cbn [map fold_left]; rewrite IH; reflexivity.
Qed.
Lemma keep_spec : forall sel p, keep sel p = true <-> sel = [] \/ In p sel.
Proof.
  intros sel p. unfold keep. destruct sel as [|x sel]; [tauto|]. rewrite existsb_exists. split.
  - intros (y & H & E). apply Z.eqb_eq in E as <-. auto.
  - intros [H|H]; [discriminate|]. exists p. split; [assumption|apply Z.eqb_refl].
Qed.

Lemma said_last_nodup : forall {V} (adds : list (bytes * Z * V)) t p v, NoDup (map fst adds) ->
  said_last adds t p v <-> In ((t, p), v) adds.
Proof.
  intros V adds t p v N. split.
  - intros (b & a & -> & _). apply in_or_app. right. left. reflexivity.
  - intros H. apply in_split in H as (b & a & ->). exists b, a. split; [reflexivity|].
    intros w C. rewrite map_app in N. cbn in N. apply NoDup_remove in N as (_ & N). apply N.
    apply in_or_app. right. apply in_map_iff. exists ((t, p), w). auto.
Qed.

Lemma NoDup_map_inj : forall {A B} (f : A -> B) l, (forall x y, In x l -> In y l -> f x = f y -> x = y) -> NoDup l -> NoDup (map f l).
Proof.
  induction l as [|x l IH]; intros I N; cbn; [constructor|]. inversion N; subst. constructor.
  - intros C. apply in_map_iff in C as (y & E & Hy). apply I in E; cbn; auto. congruence.
  - apply IH; auto. intros; apply I; cbn; auto.
Qed.
Lemma NoDup_filter_fst : forall {B} (f : Z * B -> bool) l, NoDup (map fst l) -> NoDup (map fst (filter f l)).
Proof.
  induction l as [|x l IH]; intros N; cbn; [constructor|]. inversion N; subst. destruct (f x); auto.
  cbn. constructor; auto. intros C. apply H1. apply in_map_iff in C as (y & E & Hy). apply filter_In in Hy as (Hy & _).
  apply in_map_iff. eauto.
Qed.

Lemma reset_ok : forall topic sel st rs coord order v req,
  (forall l, Permutation (order l) l) -> NoDup (map fst (flat_map (flat_map snd) rs)) ->
  reset_offset topic sel st (Ok tt) (Ok rs) coord order = Ok (v, req) ->
  unique_entries req /\
  forall t p x, entry req t p x <->
    t = topic /\ (sel = [] \/ In p sel) /\ exists w o, In (p, w) (flat_map (flat_map snd) rs) /\ reports w o /\ x = (o, []).
Proof.
  intros topic sel st rs coord order v req PO N H. unfold reset_offset in H. cbn [rbind] in H.
  destruct (offsets_of rs) as [m| | |] eqn:O; try discriminate. cbn [rbind] in H.
  destruct coord; try discriminate. cbn [rbind] in H. injection H as _ <-.
  change (fun r (x : Z * Z) => if match sel with [] => true | _ => existsb (Z.eqb (fst x)) sel end
        then oc_add r topic (fst x) (snd x) [] else r) with
    (fun r (x : Z * Z) => if keep sel (fst x) then oc_add r topic (fst x) (snd x) [] else r).
  rewrite reset_fold. match goal with |- context [fold_left _ ?l []] => change (fold_left _ l []) with (oc_run l); set (adds := l) end.
  apply collect_fresh in O as (os & E & F); [|exact N]. cbn [app] in E. subst os.
  assert (NM : NoDup (map fst m)) by (erewrite Forall2_fst by exact F; exact N).
  assert (NA : NoDup (map fst adds)).
  { unfold adds. rewrite map_map. cbn.
    rewrite <- (map_map fst (fun k => (topic, k))). apply NoDup_map_inj; [congruence|]. apply NoDup_filter_fst.
    eapply Permutation_NoDup; [apply Permutation_sym, Permutation_map, PO|]. exact NM. }
  destruct (oc_ok adds) as (U & S). split; [exact U|].
  intros t p x. rewrite S, said_last_nodup by exact NA. unfold adds. rewrite in_map_iff.
  assert (IM : forall q o, In (q, o) m <-> exists w, In (q, w) (flat_map (flat_map snd) rs) /\ reports w o).
  { intros q o. clear - F. induction F as [|a b ps os (E & G) F IH].
    - split; [intros []|intros (w & [] & _)].
    - destruct a as [q' w'], b as [q'' o']. cbn in E. subst q''. apply reports_get in G. cbn [snd] in G. split.
      + intros [H|H]; [injection H as -> ->; exists w'; cbn; auto|]. apply IH in H as (w & H & R). exists w. cbn; auto.
      + intros (w & [H|H] & R).
        * injection H as -> ->. left. f_equal. inversion G; subst; inversion R; subst; reflexivity.
        * right. apply IH. exists w. auto. }
  split.
  - intros ([q o] & E & I). injection E as <- <- <-. apply filter_In in I as (I & K). apply keep_spec in K. cbn in K.
    split; [reflexivity|]. split; [exact K|]. apply (Permutation_in _ (PO m)) in I. apply IM in I as (w & I & R). exists w, o. auto.
  - intros (-> & K & w & o & I & R & ->). exists (p, o). split; [reflexivity|]. apply filter_In. split.
    + apply (Permutation_in _ (Permutation_sym (PO m))). apply IM. exists w. auto.
    + apply keep_spec. exact K.
Qed.

(** ** create-topic, create-partitions *)
Lemma i32_i64 : forall x, int32 x -> i64 x.
Proof. unfold int32, i64. intros x H. lia. Qed.
Lemma ids_decimal : forall l, Forall int32 l -> ids_of (map decimal l) = Some l.
Proof.
  induction l as [|x l IH]; intros F; cbn [map ids_of]; [reflexivity|]. inversion F; subst.
  rewrite atoi_decimal by (apply i32_i64; assumption). rewrite IH by assumption.
  rewrite sint_id by (unfold int32 in *; lia). reflexivity.
Qed.
Lemma ids_ptext : forall l, l <> [] -> Forall int32 l -> ids_of (split 58 (ptext l)) = Some l.
Proof.
  intros l NE F. unfold ptext. rewrite split_join.
  - apply ids_decimal; assumption.
  - destruct l; [congruence|discriminate].
  - apply Forall_map, Forall_forall. intros x _. apply decimal_no; [reflexivity|lia].
Qed.
Lemma join_no : forall sep c l, c <> sep -> Forall (fun w => ~ In c w) l -> ~ In c (join sep l).
Proof.
  induction l as [|w l IH]; intros H F; [intros []|]. inversion F; subst.
  destruct l as [|w' l]; [assumption|]. change (join sep (w :: w' :: l)) with (w ++ sep :: join sep (w' :: l)).
  intros C. apply in_app_or in C as [C|[C|C]]; [auto|congruence|]. apply IH in C; auto.
Qed.
Lemma ptexts_split : forall ls, ls <> [] -> split 44 (ptexts ls) = map ptext ls.
Proof.
  intros ls NE. unfold ptexts. apply split_join.
  - destruct ls; [congruence|discriminate].
  - apply Forall_map, Forall_forall. intros l _. apply join_no; [lia|].
    apply Forall_map, Forall_forall. intros x _. apply decimal_no; [reflexivity|lia].
Qed.

Lemma replicas_ptexts : forall ls i, 0 <= i -> i + zlen ls < 2 ^ 31 -> Forall (fun l => l <> [] /\ Forall int32 l) ls ->
  replicas_from i (map ptext ls) = Some (numbered i ls).
Proof.
  induction ls as [|l ls IH]; intros i Hi L F; cbn [map replicas_from numbered]; [reflexivity|].
  inversion F; subst. rewrite zlen_cons in L. pose proof (zlen_nonneg ls).
  rewrite ids_ptext by tauto. rewrite IH by (assumption || lia). rewrite sint_id by lia. reflexivity.
Qed.
Lemma ra_put_after : forall p rs l, Forall (fun x => fst x < p) l -> ra_put p rs l = inr (l ++ [(p, rs)]).
Proof.
  induction l as [|[q w] l IH]; intros F; cbn; [reflexivity|]. inversion F; subst. cbn in H1.
  replace (q >=? p) with false by lia. replace (q =? p) with false by lia. rewrite IH by assumption. reflexivity.
Qed.
Lemma ct_run_numbered : forall topic n rf ls i ras, Forall (fun x => fst x < i) ras ->
  ct_run [(topic, (n, (rf, (ras, []))))] (map (fun x => CAddReplicas topic (fst x) (snd x)) (numbered i ls)) =
  [(topic, (n, (rf, (ras ++ numbered i ls, []))))].
Proof.
  induction ls as [|l ls IH]; intros i ras F; cbn [numbered map ct_run]; [now rewrite app_nil_r|].
  cbn [ct_step ra_add fst snd]. rewrite beqb_refl. rewrite ra_put_after by assumption. cbn [fst].
  rewrite IH.
  - now rewrite <- app_assoc.
  - apply Forall_app. split.
    + eapply Forall_impl; [|exact F]. cbn. intros; lia.
    + constructor; [cbn; lia|constructor].
Qed.
Lemma create_topic_ok : forall topic ls, well ls -> zlen ls < 2 ^ 31 ->
  create_topic topic (ptexts ls) (fun m => m) = Some [(topic, (-1, (-1, (numbered 0 ls, []))))].
Proof.
  intros topic ls (NE & F) L. unfold create_topic. rewrite ptexts_split by assumption.
  rewrite replicas_ptexts by (assumption || lia). cbn [ct_run ct_step ct_add existsb app fst].
  rewrite ct_run_numbered by constructor. reflexivity.
Qed.

Lemma extend_last : forall acc l x, extend (length acc) x (acc ++ [l]) = Some (acc ++ [l ++ [x]]).
Proof. induction acc as [|a acc IH]; intros l x; cbn; [reflexivity|]. now rewrite IH. Qed.
Lemma gen_one_ok : forall l acc pre, Forall int32 l ->
  gen_one (length acc) (map decimal l) (acc ++ [pre]) = Ok (acc ++ [pre ++ l]).
Proof.
  induction l as [|x l IH]; intros acc pre F; cbn [map gen_one]; [now rewrite app_nil_r|]. inversion F; subst.
  rewrite atoi_decimal by (apply i32_i64; assumption). rewrite sint_id by (unfold int32 in *; lia).
  rewrite extend_last, IH by assumption. now rewrite <- app_assoc.
Qed.
Lemma ptext_ne : forall l, l <> [] -> ptext l <> [].
Proof.
  intros [|x l] NE; [congruence|]. unfold ptext. cbn [map]. pose proof (decimal_ne x).
  destruct (map decimal l) as [|w ws]; [assumption|]. change (join 58 (decimal x :: w :: ws)) with (decimal x ++ 58 :: join 58 (w :: ws)).
  destruct (decimal x); [congruence|discriminate].
Qed.
Lemma gen_all_ok : forall ls acc, Forall (fun l => l <> [] /\ Forall int32 l) ls ->
  gen_all (length acc) (map ptext ls) acc = Ok (acc ++ ls).
Proof.
  induction ls as [|l ls IH]; intros acc F; cbn [map gen_all]; [now rewrite app_nil_r|]. inversion F as [|? ? (NE & FI) F']; subst.
  pose proof (ptext_ne l NE). destruct (ptext l) as [|c w] eqn:E; [congruence|]. rewrite <- E.
  replace (split 58 (ptext l)) with (map decimal l).
  2:{ unfold ptext. rewrite split_join; [reflexivity|destruct l; [congruence|discriminate]|].
      apply Forall_map, Forall_forall. intros x _. apply decimal_no; [reflexivity|lia]. }
  rewrite gen_one_ok by assumption. cbn [rbind app].
  replace (S (length acc)) with (length (acc ++ [l])) by (rewrite app_length; cbn; lia).
  rewrite IH by assumption. now rewrite <- app_assoc.
Qed.
Lemma gen_ok : forall ls, well ls -> genPartitionAssignments (ptexts ls) = Ok ls.
Proof.
  intros ls (NE & F). unfold genPartitionAssignments. rewrite ptexts_split by assumption.
  apply (gen_all_ok ls []). assumption.
Qed.

(** which assignments survive an arbitrary order *)
Lemma ra_put_iff : forall p rs l, 
  (Forall (fun x => fst x < p) l /\ ra_put p rs l = inr (l ++ [(p, rs)])) \/
  (Exists (fun x => p <= fst x) l /\ ra_put p rs l = inl CTRange).
Proof.
  induction l as [|[q w] l IH]; cbn [ra_put app]; [left; split; [constructor|reflexivity]|].
  destruct (q >=? p) eqn:E.
  - right. split; [left; cbn; lia|reflexivity].
  - replace (q =? p) with false by lia. destruct IH as [(F & ->)|(X & ->)].
    + left. split; [constructor; [cbn; lia|assumption]|reflexivity].
    + right. split; [right; assumption|reflexivity].
Qed.
Lemma ct_run_any : forall topic n rf l done ras,
  (forall x, In x ras <-> raised done x) ->
  exists ras', ct_run [(topic, (n, (rf, (ras, []))))] (map (fun x => CAddReplicas topic (fst x) (snd x)) l) =
      [(topic, (n, (rf, (ras', []))))] /\ (forall x, In x ras' <-> raised (done ++ l) x).
Proof.
  induction l as [|[p rs] l IH]; intros done ras H; cbn [map ct_run].
  - exists ras. split; [reflexivity|]. now rewrite app_nil_r.
  - cbn [ct_step ra_add fst snd]. rewrite beqb_refl.
    assert (MAX : forall y, In y done -> exists z, In z ras /\ fst y <= fst z).
    { clear - H. intros y Hy. apply in_split in Hy as (b & a & ->).
      assert (G : forall l' : list (Z * list Z), l' <> [] -> exists z b' a', l' = b' ++ z :: a' /\ Forall (fun w => fst w < fst z) b' /\ Forall (fun w => fst w <= fst z) l').
      { induction l' as [|w l' IH] using rev_ind; intros NE; [congruence|]. destruct l' as [|w' l'].
        - exists w, [], []. split; [reflexivity|]. split; constructor; [lia|constructor].
        - destruct IH as (z & b' & a' & E & F & L); [discriminate|]. rewrite E in *. destruct (fst z <? fst w) eqn:C.
          + exists w, (b' ++ z :: a'), []. split; [reflexivity|]. split.
            * eapply Forall_impl; [|exact L]. intros; cbn in *; lia.
            * apply Forall_app. split; [eapply Forall_impl; [|exact L]; intros; cbn in *; lia|]. constructor; [lia|constructor].
          + exists z, b', (a' ++ [w]). split; [now rewrite <- app_assoc|]. split; [assumption|].
            apply Forall_app. split; [assumption|]. constructor; [lia|constructor]. }
      destruct (G (b ++ y :: a)) as (z & b' & a' & E & F & L); [destruct b; discriminate|].
      exists z. split.
      - apply H. exists b', a'. auto.
      - rewrite Forall_forall in L. apply L. apply in_or_app. right. left. reflexivity. }
    replace (done ++ (p, rs) :: l) with ((done ++ [(p, rs)]) ++ l) by (now rewrite <- app_assoc).
    assert (SNOC : forall x, raised (done ++ [(p, rs)]) x <-> raised done x \/ (x = (p, rs) /\ Forall (fun w => fst w < p) done)).
    { intros x. split.
      - intros (b & a & E & F). destruct (snoc_inv _ _ _ _ _ E) as [(-> & -> & EQ)|(a' & -> & ->)].
        + right. subst x. auto.
        + left. exists b, a'. auto.
      - intros [(b & a & -> & F)|(-> & F)].
        + exists b, (a ++ [(p, rs)]). split; [now rewrite <- app_assoc|assumption].
        + exists done, []. auto. }
    destruct (ra_put_iff p rs ras) as [(F & ->)|(X & ->)]; cbn [fst].
    + apply IH. intros x. rewrite in_app_iff, SNOC, H. cbn. split.
      * intros [K|[<-|[]]]; [auto|]. right. split; [reflexivity|].
        apply Forall_forall. intros y Hy. apply MAX in Hy as (z & Hz & L). rewrite Forall_forall in F. apply F in Hz. lia.
      * intros [K|(-> & K)]; auto.
    + apply IH. intros x. rewrite SNOC, H. split; [auto|]. intros [K|(-> & K)]; [exact K|].
      apply Exists_exists in X as (z & Hz & L). apply H in Hz as (b & a & -> & _).
      rewrite Forall_forall in K. assert (fst z < p) by (apply K, in_or_app; right; left; reflexivity). lia.
Qed.
Lemma create_topic_any : forall topic ls order, well ls -> zlen ls < 2 ^ 31 -> 
  exists ras, create_topic topic (ptexts ls) order = Some [(topic, (-1, (-1, (ras, []))))] /\
    forall x, In x ras <-> raised (order (numbered 0 ls)) x.
Proof.
  intros topic ls order (NE & F) L. unfold create_topic. rewrite ptexts_split by assumption.
  rewrite replicas_ptexts by (assumption || lia). cbn [ct_run ct_step ct_add existsb app fst].
  destruct (ct_run_any topic (-1) (-1) (order (numbered 0 ls)) [] []) as (ras & E & S).
  - intros x. split; [intros []|]. intros (b & a & E & _). destruct b; discriminate.
  - exists ras. rewrite E. auto.
Qed.

(** ** ACL arguments *)
Lemma json_plain : forall s, Forall plain_byte s -> json_text s = Ok s.
Proof.
  induction s as [|c s IH]; intros F; [reflexivity|]. inversion F as [|? ? (R & Q & B) F']; subst. cbn [json_text].
  replace (c =? 34) with false by lia. replace (c =? 92) with false by lia.
  replace (c <? 32) with false by lia. replace (127 <? c) with false by lia. rewrite IH by assumption. reflexivity.
Qed.

(** ** timeouts *)
Lemma tool_wait_ok : forall t ms, 0 < ms -> t = CmdAlterReassign \/ t = CmdCreateTopicAssign \/ t = HttpAlterReassign -> tool_wait t ms = ms.
Proof.
  intros t ms H [->|[->| ->]]; unfold tool_wait, request_timeout; cbn; replace (ms >? 0) with true by lia; reflexivity.
Qed.
Lemma tool_wait_other : forall t ms, t <> CmdAlterReassign -> t <> CmdCreateTopicAssign -> t <> HttpAlterReassign ->
  tool_wait t ms = default_timeout.
Proof. intros t ms A B C. destruct t; try congruence; reflexivity. Qed.
