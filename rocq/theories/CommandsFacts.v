From Coq Require Import String Ascii.
From Verif Require Import Base BaseFacts Wire Text Consumer Assign SortFacts AssignFacts Acl Group GroupFacts Tools ToolsSpec ToolsFacts MoreSpec MoreFacts
  Commands CommandsSpec.

(** ** owners *)
Lemma beqb_eq a b : beqb a b = true <-> a = b.
Proof. unfold beqb. destruct (bytes_eq_dec a b); split; congruence. Qed.

Fixpoint pget (p : Z) (l : list (Z * bytes)) : option bytes :=
  match l with [] => None | (p', m) :: l' => if p' =? p then Some m else pget p l' end.
Fixpoint tget (t : bytes) (s : subs) : option (list (Z * bytes)) :=
  match s with [] => None | (t', l) :: s' => if beqb t' t then Some l else tget t s' end.
Lemma owner_pget p l : owner p l = match pget p l with Some m => m | None => [] end.
Proof. induction l as [|[p' m] l IH]; cbn; [reflexivity|]. destruct (p' =? p); auto. Qed.
Lemma pget_pput p q m l : pget p (pput q m l) = if p =? q then Some m else pget p l.
Proof.
  induction l as [|[p' m'] l IH]; cbn [pput pget].
  - rewrite (Z.eqb_sym q p). reflexivity.
  - destruct (Z.eqb_spec p' q) as [->|D]; cbn [pget].
    + rewrite (Z.eqb_sym q p). destruct (Z.eqb_spec p q); reflexivity.
    + rewrite IH. destruct (Z.eqb_spec p' p) as [->|]; [|reflexivity]. destruct (Z.eqb_spec p q); [contradiction|reflexivity].
Qed.
Lemma pget_fold m ids : forall l p, pget p (fold_left (fun l q => pput q m l) ids l) = if existsb (Z.eqb p) ids then Some m else pget p l.
Proof.
  induction ids as [|q ids IH]; intros l p; cbn [fold_left existsb]; [reflexivity|].
  rewrite IH, pget_pput. destruct (p =? q); cbn [orb]; [|reflexivity]. destruct (existsb (Z.eqb p) ids); reflexivity.
Qed.
Lemma tget_tput t u f s : tget t (tput u f s) =
  if beqb u t then Some (f (match tget u s with Some l => l | None => [] end)) else tget t s.
Proof.
  induction s as [|[t' l] s IH]; cbn [tput tget].
  - destruct (beqb u t); reflexivity.
  - destruct (beqb t' u) eqn:E; cbn [tget].
    + apply beqb_eq in E. subst t'. destruct (beqb u t); reflexivity.
    + rewrite IH. destruct (beqb t' t) eqn:E2; [|reflexivity]. apply beqb_eq in E2. subst t'.
      destruct (beqb u t) eqn:E3; [|reflexivity]. apply beqb_eq in E3. subst u. assert (beqb t t = true) by (apply beqb_eq; reflexivity). congruence.
Qed.
Definition hold (s : subs) (t : bytes) (p : Z) : option bytes := match tget t s with Some l => pget p l | None => None end.
Lemma hold_add m s pa t p : hold (add_part m s pa) t p =
  if beqb (fst pa) t && existsb (Z.eqb p) (snd pa) then Some m else hold s t p.
Proof.
  unfold hold, add_part. rewrite tget_tput. destruct (beqb (fst pa) t) eqn:E; cbn [andb]; [|reflexivity].
  apply beqb_eq in E. subst t. rewrite pget_fold. destruct (existsb _ _); [reflexivity|]. destruct (tget (fst pa) s); reflexivity.
Qed.
Lemma hold_parts m ps : forall s t p,
  (hold (fold_left (add_part m) ps s) t p = Some m /\ exists ids, In (t, ids) ps /\ In p ids) \/
  (hold (fold_left (add_part m) ps s) t p = hold s t p /\ forall ids, In (t, ids) ps -> ~ In p ids).
Proof.
  induction ps as [|[u ids] ps IH]; intros s t p; cbn [fold_left].
  - right. split; [reflexivity|]. intros ids [].
  - destruct (IH (add_part m s (u, ids)) t p) as [[H [i [I1 I2]]]|[H N]].
    + left. split; [exact H|]. exists i. split; [right; exact I1|exact I2].
    + rewrite H, hold_add. cbn [fst snd]. destruct (beqb u t && existsb (Z.eqb p) ids) eqn:E.
      * left. split; [reflexivity|]. apply andb_prop in E. destruct E as [E1 E2]. apply beqb_eq in E1. subst u.
        apply existsb_exists in E2. destruct E2 as [x [I X]]. assert (p = x) by lia. subst x.
        exists ids. split; [left; reflexivity|exact I].
      * right. split; [reflexivity|]. intros i [I|I]; [|apply N; exact I]. injection I as -> ->.
        intro J. assert (existsb (Z.eqb p) i = true) by (apply existsb_exists; exists p; split; [exact J|lia]).
        assert (beqb t t = true) by (apply beqb_eq; reflexivity). rewrite H0, H1 in E. discriminate.
Qed.
Lemma tput_keys t u f s : In t (map fst (tput u f s)) <-> t = u \/ In t (map fst s).
Proof.
  induction s as [|[t' l] s IH]; cbn [tput map fst In]; [intuition auto|].
  destruct (beqb t' u) eqn:E; cbn [map fst In].
  - apply beqb_eq in E. subst. intuition auto.
  - rewrite IH. intuition auto.
Qed.
Lemma tput_nodup u f s : NoDup (map fst s) -> NoDup (map fst (tput u f s)).
Proof.
  induction s as [|[t' l] s IH]; cbn [tput map fst]; intro H; [repeat constructor; intros []|].
  inversion H; subst. destruct (beqb t' u) eqn:E; cbn [map fst]; [exact H|].
  constructor; [|auto]. rewrite tput_keys. intros [X|X]; [|contradiction]. subst.
  assert (beqb u u = true) by (apply beqb_eq; reflexivity). congruence.
Qed.
Lemma parts_keys m ps : forall s t, In t (map fst (fold_left (add_part m) ps s)) <-> In t (map fst ps) \/ In t (map fst s).
Proof.
  induction ps as [|[u ids] ps IH]; intros s t; cbn [fold_left map In fst]; [intuition auto|].
  rewrite IH. unfold add_part. rewrite tput_keys. cbn [fst]. intuition auto.
Qed.
Lemma parts_nodup m ps : forall s, NoDup (map fst s) -> NoDup (map fst (fold_left (add_part m) ps s)).
Proof. induction ps as [|pa ps IH]; intros s H; cbn [fold_left]; [exact H|]. apply IH, tput_nodup, H. Qed.

Lemma assigns_reads raw ps : assigns raw ps -> raw <> [] /\ exists u, newMemberAssignment raw = Ok u /\ ma_parts u = ps.
Proof.
  intros [v [u [V [L [P [U ->]]]]]]. split.
  - cbn [Assignment_ty enc fst snd be]. discriminate.
  - eexists. rewrite (newMemberAssignment_wire v ps u V L P U). split; reflexivity.
Qed.
Lemma assigns_fun raw ps ps' : assigns raw ps -> assigns raw ps' -> ps = ps'.
Proof.
  intros A B. apply assigns_reads in A. apply assigns_reads in B. destruct A as [_ [u [E1 <-]]], B as [_ [u' [E2 <-]]].
  rewrite E1 in E2. injection E2 as ->. reflexivity.
Qed.

Lemma owners_go_ok ms : forall s, Forall readable ms ->
  exists s', owners_go ms s = Ok s' /\
    (forall t p, (exists m, hold s' t p = Some m /\ owns ms m t p) \/ (hold s' t p = hold s t p /\ forall m, ~ owns ms m t p)) /\
    (forall t, In t (map fst s') <-> named ms t \/ In t (map fst s)) /\
    (NoDup (map fst s) -> NoDup (map fst s')).
Proof.
  induction ms as [|[m raw] ms IH]; intros s R; cbn [owners_go].
  - exists s. split; [reflexivity|]. split; [|split; [|auto]].
    + intros t p. right. split; [reflexivity|]. intros m [raw [ps [ids [[] _]]]].
    + intro t. split; [auto|]. intros [[m [raw [ps [ids [[] _]]]]]|H]; exact H.
  - inversion R as [|x y R1 R2]; subst.
    assert (LIFT : forall m' t p, owns ms m' t p -> owns ((m, raw) :: ms) m' t p).
    { intros m' t p [r [ps [ids [I X]]]]. exists r, ps, ids. split; [right; exact I|exact X]. }
    assert (LIFTN : forall t, named ms t -> named ((m, raw) :: ms) t).
    { intros t [m' [r [ps [ids [I X]]]]]. exists m', r, ps, ids. split; [right; exact I|exact X]. }
    destruct R1 as [E|[ps A]]; cbn [snd] in *.
    + subst raw. destruct (IH s R2) as [s' [H1 [H2 [H3 H4]]]]. exists s'. split; [exact H1|]. split; [|split; [|exact H4]].
      * intros t p. destruct (H2 t p) as [[m' [X Y]]|[X Y]]; [left; eauto|]. right. split; [exact X|].
        intros m' [r [ps [ids [[I|I] [B Z]]]]]; [|apply (Y m'); exists r, ps, ids; auto].
        injection I as <- <-. apply assigns_reads in B. destruct B as [B _]. contradiction.
      * intro t. rewrite H3. split; [intros [X|X]; auto|]. intros [[m' [r [ps [ids [[I|I] [B Z]]]]]]|X]; [| |auto].
        -- injection I as <- <-. apply assigns_reads in B. destruct B as [B _]. contradiction.
        -- left. exists m', r, ps, ids. auto.
    + pose proof (assigns_reads _ _ A) as [NE [u [RD PS]]]. destruct raw as [|c raw]; [contradiction|].
      rewrite RD. cbn [rbind]. rewrite PS.
      destruct (IH (fold_left (add_part m) ps s) R2) as [s' [H1 [H2 [H3 H4]]]]. exists s'. split; [exact H1|]. split; [|split].
      * intros t p. destruct (H2 t p) as [[m' [X Y]]|[X Y]]; [left; eauto|].
        rewrite X. destruct (hold_parts m ps s t p) as [[P [ids [I J]]]|[P N]].
        -- left. exists m. split; [exact P|]. exists (c :: raw), ps, ids. split; [left; reflexivity|auto].
        -- right. split; [exact P|]. intros m' [r [ps' [ids [[I|I] [B [Z1 Z2]]]]]]; [|apply (Y m'); exists r, ps', ids; auto].
           injection I as <- <-. assert (ps' = ps) by (eapply assigns_fun; eassumption). subst ps'. exact (N ids Z1 Z2).
      * intro t. rewrite H3, parts_keys. split.
        -- intros [X|[X|X]]; auto. left. apply in_map_iff in X. destruct X as [[t' ids] [X I]]. cbn in X. subst t'.
           exists m, (c :: raw), ps, ids. split; [left; reflexivity|auto].
        -- intros [[m' [r [ps' [ids [[I|I] [B Z]]]]]]|X]; auto.
           ++ injection I as <- <-. assert (ps' = ps) by (eapply assigns_fun; eassumption). subst ps'.
              right. left. apply in_map_iff. exists (t, ids). auto.
           ++ left. exists m', r, ps', ids. auto.
      * intro ND. apply H4, parts_nodup, ND.
Qed.
Lemma tget_in t l s : NoDup (map fst s) -> In (t, l) s -> tget t s = Some l.
Proof.
  induction s as [|[t' l'] s IH]; intros ND I; [destruct I|]. cbn [tget]. inversion ND; subst. destruct I as [I|I].
  - injection I as -> ->. assert (beqb t t = true) as -> by (apply beqb_eq; reflexivity). reflexivity.
  - destruct (beqb t' t) eqn:E; [|auto]. apply beqb_eq in E. subst. exfalso. apply H1. apply in_map_iff. exists (t, l). auto.
Qed.

Lemma gp_topics_blocks pend g : forall l bs, gp_topics pend g l = (bs, Ok tt) ->
  (forall b, In b bs -> exists t o rows, In (t, o) l /\ pend g t = Ok rows /\ b = block_of g t (Some o) rows) /\
  (forall t o rows, In (t, o) l -> pend g t = Ok rows -> In (block_of g t (Some o) rows) bs).
Proof.
  induction l as [|[t o] l IH]; intros bs; cbn [gp_topics].
  - intro H. injection H as <-. split; [intros b []|intros t o rows []].
  - destruct (pend g t) as [rows|e| |] eqn:P; try discriminate.
    + destruct (gp_topics pend g l) as [b r] eqn:G. intro H. injection H as <- ->. destruct (IH _ eq_refl) as [A B]. split.
      * intros x [<-|I]; [exists t, o, rows; auto using in_eq|]. destruct (A x I) as [t' [o' [r' [I' X]]]]. exists t', o', r'. split; [right; exact I'|exact X].
      * intros t' o' r' [I|I] P'; [injection I as <- <-; rewrite P in P'; injection P' as <-; left; reflexivity|right; eauto].
    + intro H. destruct (IH _ H) as [A B]. split.
      * intros x I. destruct (A x I) as [t' [o' [r' [I' X]]]]. exists t', o', r'. split; [right; exact I'|exact X].
      * intros t' o' r' [I|I] P'; [injection I as <- <-; congruence|eauto].
Qed.

Lemma gp_topics_once pend g : forall l bs, NoDup (map fst l) -> gp_topics pend g l = (bs, Ok tt) -> NoDup (map k_topic bs).
Proof.
  induction l as [|[t o] l IH]; intros bs ND; cbn [gp_topics].
  - intro H. injection H as <-. constructor.
  - inversion ND; subst. destruct (pend g t) as [rows|e| |] eqn:P; try discriminate; [|apply IH; assumption].
    destruct (gp_topics pend g l) as [b r] eqn:G. intro H. injection H as <- ->. cbn [map]. constructor; [|apply IH; auto].
    intro I. cbn in I. apply in_map_iff in I. destruct I as [x [E I]]. apply (proj1 (gp_topics_blocks _ _ _ _ G)) in I.
    destruct I as [t' [o' [r' [I [_ ->]]]]]. cbn in E. subst t'. apply H1. apply in_map_iff. exists (t, o'). auto.
Qed.
(** get-pending for several groups: one after the other *)
Lemma pending_all : forall garg topic all desc pend order gs bs,
  getGroups garg all = Ok gs -> (forall g, In g gs -> g <> [] /\ ~ In 42 g) ->
  get_pending (Ok tt) garg topic (Some all) desc pend order = (bs, Ok tt) ->
  bs = flat_map (fun g => fst (get_pending (Ok tt) g topic None desc pend order)) gs /\
  forall g, In g gs -> snd (get_pending (Ok tt) g topic None desc pend order) = Ok tt.
Proof.
  intros garg topic all desc pend order gs bs G N. unfold get_pending at 1. rewrite G. clear G garg all. revert bs.
  induction gs as [|g gs IH]; intros bs; cbn [gp_groups].
  - intro H. injection H as <-. split; [reflexivity|intros g []].
  - destruct (N g (or_introl eq_refl)) as [N1 N2].
    assert (E : get_pending (Ok tt) g topic None desc pend order = gp_groups topic desc pend order [g]).
    { unfold get_pending. rewrite getGroups_name by assumption. reflexivity. }
    cbn [flat_map]. specialize (IH (fun x I => N x (or_intror I))).
    destruct (gp_groups topic desc pend order gs) as [b' r'] eqn:GG.
    cbn [gp_groups] in E. destruct (getSubscriptions (desc g)) as [s|e| |]; try discriminate.
    + set (X := match topic with [] => _ | _ => _ end) in E |- *. destruct X as [b r]. destruct r as [[]|e| |]; try discriminate.
      intro H. injection H as <- ->. destruct (IH _ eq_refl) as [-> I2]. rewrite app_nil_r in E. split.
      * rewrite E. reflexivity.
      * intros x [<-|J]; [rewrite E; reflexivity|auto].
    + intro H. injection H as <- ->. destruct (IH _ eq_refl) as [-> I2]. split.
      * rewrite E. reflexivity.
      * intros x [<-|J]; [rewrite E; reflexivity|auto].
Qed.
(** with a topic: its rows, without owners *)
Lemma pending_topic : forall g c topic all desc pend order gs rows, g <> [] -> ~ In 42 g -> desc g = Ok gs -> Forall readable (concat gs) ->
  pend g (c :: topic) = Ok rows ->
  get_pending (Ok tt) g (c :: topic) all desc pend order = ([mkBlock g (c :: topic) (map (fun r => (r, None)) rows)], Ok tt).
Proof.
  intros g c topic all desc pend order gs rows NE NS D R P. unfold get_pending. rewrite getGroups_name by assumption.
  cbn [gp_groups]. rewrite D. unfold getSubscriptions. cbn [rbind].
  destruct (owners_go_ok (concat gs) [] R) as [s [-> _]]. rewrite P. reflexivity.
Qed.

(** get-pending for a group: the blocks and the owners in them *)
Lemma pending_owners : forall g all desc pend order gs bs,
  g <> [] -> ~ In 42 g -> (forall l, Permutation (order l) l) ->
  desc g = Ok gs -> Forall readable (concat gs) ->
  get_pending (Ok tt) g [] all desc pend order = (bs, Ok tt) ->
  (forall b, In b bs -> k_group b = g /\ named (concat gs) (k_topic b) /\ pend g (k_topic b) = Ok (map fst (k_rows b)) /\
     forall r o, In (r, o) (k_rows b) -> exists x, o = Some x /\ owner_text (concat gs) (k_topic b) (fst r) x) /\
  (forall t rows, named (concat gs) t -> pend g t = Ok rows -> exists b, In b bs /\ k_topic b = t) /\
  NoDup (map k_topic bs).
Proof.
  intros g all desc pend order gs bs NE NS ORD D R. unfold get_pending. rewrite getGroups_name by assumption.
  cbn [gp_groups]. rewrite D. unfold getSubscriptions. cbn [rbind].
  destruct (owners_go_ok (concat gs) [] R) as [s [-> [HO [HK ND]]]]. cbn [map] in ND. specialize (ND (NoDup_nil _)).
  destruct (gp_topics pend g (order s)) as [b r] eqn:G. intro H.
  assert (r = Ok tt /\ bs = b) as [-> ->].
  { destruct r as [[]|e| |]; try discriminate. rewrite app_nil_r in H. injection H as <-. auto. }
  destruct (gp_topics_blocks _ _ _ _ G) as [A B].
  assert (NB : NoDup (map k_topic b)).
  { apply (gp_topics_once _ _ _ _) in G; [exact G|]. apply (Permutation_NoDup (l := map fst s)); [|exact ND].
    apply Permutation_map, Permutation_sym, ORD. }
  split; [|split; [|exact NB]].
  - intros x I. destruct (A x I) as [t [o [rows [I1 [P ->]]]]]. unfold block_of. cbn [k_group k_topic k_rows].
    apply (Permutation_in _ (ORD s)) in I1.
    split; [reflexivity|]. split.
    { assert (In t (map fst s)) as J by (apply in_map_iff; exists (t, o); auto). apply HK in J. destruct J as [J|[]]; exact J. }
    split; [rewrite map_map; cbn [fst]; rewrite map_id; exact P|].
    intros r o' J. apply in_map_iff in J. destruct J as [r' [J _]]. injection J as -> <-. eexists. split; [reflexivity|].
    rewrite owner_pget. pose proof (HO t (fst r)) as H0. unfold hold in H0. rewrite (tget_in _ _ _ ND I1) in H0. cbn [tget] in H0.
    destruct H0 as [[m [E O]]|[E N]]; rewrite E; split.
    + intros m' O' U. apply U. exact O.
    + intros N. exfalso. exact (N _ O).
    + intros m' O'. exfalso. exact (N _ O').
    + reflexivity.
  - intros t rows N P. assert (In t (map fst s)) as J by (apply HK; left; exact N).
    apply in_map_iff in J. destruct J as [[t' o] [E J]]. cbn in E. subst t'.
    exists (block_of g t (Some o) rows). split; [|reflexivity]. apply B; [|exact P].
    apply (Permutation_in _ (Permutation_sym (ORD s))). exact J.
Qed.

(** ** get-offsets *)
Lemma getPartitionOffset_reports (p : poff) o : getPartitionOffset p = Ok o -> reports (snd p) o.
Proof.
  destruct p as [p [e [olds [ts off]]]]. unfold getPartitionOffset. cbn.
  destruct olds as [|x [|y l]]; intro H; try discriminate; injection H as <-; constructor.
Qed.
Lemma offset_lines_shows : forall l ls, offset_lines l = Ok ls -> Forall2 shows l ls.
Proof.
  induction l as [|p l IH]; intros ls; cbn [offset_lines].
  - intro H. injection H as <-. constructor.
  - destruct (getPartitionOffset p) as [o|e| |] eqn:E; try discriminate. cbn [rbind].
    destruct (offset_lines l) as [r|e| |]; try discriminate. cbn [rbind]. intro H. injection H as <-.
    constructor; [|apply IH; reflexivity]. split; [reflexivity|]. split; [reflexivity|]. cbn [fst snd].
    apply getPartitionOffset_reports. exact E.
Qed.
Lemma shows_fst l ls : Forall2 shows l ls -> map fst ls = map fst l.
Proof. induction 1 as [|e x l ls [H _] F IH]; cbn; congruence. Qed.

Lemma insert_in {A} (lt : A -> A -> bool) x l y : In y (insert lt x l) -> y = x \/ In y l.
Proof. induction l as [|z l IH]; cbn; [intuition auto|]. destruct (lt z x); cbn; intuition auto. Qed.
Lemma insert_sorted (x : poff) l : StronglySorted (fun a b : poff => fst a <= fst b) l ->
  StronglySorted (fun a b : poff => fst a <= fst b) (insert (fun a b : poff => fst a <? fst b) x l).
Proof.
  induction 1 as [|y l S IH F]; cbn [insert]; [repeat constructor|].
  destruct (Z.ltb_spec (fst y) (fst x)).
  - constructor; [exact IH|]. rewrite Forall_forall in *. intros z I. apply insert_in in I. destruct I as [->|I]; [lia|auto].
  - constructor; [constructor; assumption|]. constructor; [lia|]. rewrite Forall_forall in *. intros z I. specialize (F z I). lia.
Qed.
Lemma sorted_parts_sorted rs : StronglySorted (fun a b : poff => fst a <= fst b) (sorted_parts rs).
Proof. unfold sorted_parts, isort. induction (flat_map (flat_map snd) rs) as [|x l IH]; cbn [fold_right]; [constructor|]. apply insert_sorted, IH. Qed.
Lemma sorted_map {A} (f : A -> Z) l : StronglySorted (fun a b => f a <= f b) l -> StronglySorted Z.le (map f l).
Proof. induction 1 as [|x l S IH F]; cbn [map]; constructor; [exact IH|]. rewrite Forall_forall in *. intros z I. apply in_map_iff in I. destruct I as [y [<- I]]. auto. Qed.
Lemma get_offsets_ok : forall rs ls, get_offsets (Ok tt) (Ok rs) = Ok ls ->
  StronglySorted Z.le (map fst ls) /\ exists es, Permutation es (flat_map (flat_map snd) rs) /\ Forall2 shows es ls.
Proof.
  intros rs ls H. unfold get_offsets in H. cbn [rbind] in H. apply offset_lines_shows in H. split.
  - rewrite (shows_fst _ _ H). apply sorted_map, sorted_parts_sorted.
  - exists (sorted_parts rs). split; [apply isort_perm|exact H].
Qed.
Lemma get_offsets_total : forall rs, (forall e, In e (flat_map (flat_map snd) rs) -> exists o, reports (snd e) o) ->
  exists ls, get_offsets (Ok tt) (Ok rs) = Ok ls.
Proof.
  intros rs H. unfold get_offsets. cbn [rbind].
  assert (G : forall e, In e (sorted_parts rs) -> exists o, reports (snd e) o).
  { intros e I. apply H. eapply Permutation_in; [apply isort_perm|exact I]. }
  induction (sorted_parts rs) as [|e l IH]; cbn [offset_lines]; [eauto|].
  destruct (G e (or_introl eq_refl)) as [o R]. destruct IH as [ls E]; [intros x I; apply G; right; exact I|]. rewrite E.
  assert (exists o', getPartitionOffset e = Ok o') as [o' ->].
  { destruct e as [p w]. cbn [snd] in R. inversion R; subst; unfold getPartitionOffset; cbn; eauto. }
  cbn [rbind]. eauto.
Qed.
Lemma get_offsets_errs : forall nb rs e, nb = Err e \/ (nb = Ok tt /\ rs = Err e) -> get_offsets nb rs = Err e.
Proof. intros nb rs e [->|[-> ->]]; reflexivity. Qed.

(** ** flags of the ACL commands *)
Lemma acl_flag_plain parse s v : Forall plain_byte s -> parse (text_of s) = Some v -> acl_flag parse s = Ok v.
Proof. intros P E. unfold acl_flag. rewrite json_plain by exact P. rewrite E. reflexivity. Qed.
Lemma acl_flags_ok : forall a rt pt op pm,
  Forall plain_byte (a_rtype a) -> Forall plain_byte (a_ptype a) -> Forall plain_byte (a_op a) -> Forall plain_byte (a_perm a) ->
  (forall s, a_resource a = Some s -> Forall plain_byte s) ->
  says resource_texts (text_of (a_rtype a)) rt -> says pattern_texts (text_of (a_ptype a)) pt ->
  ~ (same_text (text_of (a_op a)) "UNKNOWN" \/ same_text (text_of (a_op a)) "0") ->
  ~ (same_text (text_of (a_perm a)) "UNKNOWN" \/ same_text (text_of (a_perm a)) "0") ->
  says operation_texts (text_of (a_op a)) op -> says permission_texts (text_of (a_perm a)) pm ->
  acl_filter_of a = Ok (mkFilter rt (a_resource a) pt (a_principal a) (a_host a) op pm).
Proof.
  intros a rt pt op pm P1 P2 P3 P4 P5 S1 S2 N3 N4 S3 S4. unfold acl_filter_of.
  rewrite (acl_flag_plain _ _ rt P1) by (apply resource_says, S1). cbn [rbind].
  assert ((match a_resource a with None => Ok None | Some s => acl_filter_arg s end) = Ok (a_resource a)) as ->.
  { destruct (a_resource a) as [s|]; [|reflexivity]. unfold acl_filter_arg. rewrite json_plain by (apply P5; reflexivity). reflexivity. }
  cbn [rbind]. rewrite (acl_flag_plain _ _ pt P2) by (apply pattern_says, S2). cbn [rbind].
  rewrite (acl_flag_plain _ _ op P3) by (apply operation_says; assumption). cbn [rbind].
  rewrite (acl_flag_plain _ _ pm P4) by (apply permission_says; assumption). reflexivity.
Qed.

(** ** printing *)
Lemma simple_loop_ok json po stop : forall ms n ls e, StronglySorted Z.lt (map p_offset ms) ->
  simple_loop n stop json po ms = (ls, e) ->
  ls = map (show json po) (firstn n (filter (fun m => below stop (p_offset m)) ms)) /\  (e = true <-> (n <= length (filter (fun m => below stop (p_offset m)) ms))%nat \/ exists m, In m ms /\ below stop (p_offset m) = false).
Proof.
  induction ms as [|m ms IH]; intros n ls e S; destruct n as [|n]; cbn [simple_loop].
  - intro H. injection H as <- <-. split; [reflexivity|]. split; [left; cbn; lia|reflexivity].
  - intro H. injection H as <- <-. split; [reflexivity|]. cbn. split; [discriminate|]. intros [X|[m [[] _]]]. lia.
  - intro H. injection H as <- <-. split; [reflexivity|]. split; [left; lia|reflexivity].
  - cbn [map] in S. inversion S as [|x y S1 F]; subst.
    assert (B : below stop (p_offset m) = negb ((0 <? stop) && (stop <=? p_offset m))).
    { unfold below. destruct (Z.leb_spec stop 0), (Z.ltb_spec 0 stop), (Z.ltb_spec (p_offset m) stop), (Z.leb_spec stop (p_offset m)); cbn; try reflexivity; lia. }
    destruct ((0 <? stop) && (stop <=? p_offset m)) eqn:C; cbn [negb] in B.
    + intro H. injection H as <- <-. cbn [filter]. rewrite B.
      assert (filter (fun m => below stop (p_offset m)) ms = []) as ->.
      { rewrite Forall_forall in F. destruct (filter _ ms) as [|z l] eqn:E; [reflexivity|]. exfalso.
        assert (In z (filter (fun m => below stop (p_offset m)) ms)) as I by (rewrite E; left; reflexivity).
        apply filter_In in I. destruct I as [I Bz]. specialize (F (p_offset z) (in_map _ _ _ I)).
        unfold below in *. lia. }
      split; [destruct n; reflexivity|]. split; [intros _; right; exists m; split; [left; reflexivity|exact B]|reflexivity].
    + destruct (simple_loop n stop json po ms) as [l e'] eqn:L. intro H. injection H as <- <-. cbn [filter]. rewrite B. cbn [firstn map length].
      destruct (IH _ _ _ S1 L) as [-> X]. split; [reflexivity|]. rewrite X. split.
      * intros [Y|[z [I Y]]]; [left; lia|]. right. exists z. split; [right; exact I|exact Y].
      * intros [Y|[z [[I|I] Y]]]; [left; lia|congruence|]. right. exists z. auto.
Qed.
Lemma simple_consumer_ok : forall max stop json po ms ls e, StronglySorted Z.lt (map p_offset ms) ->
  simple_consumer max stop json po ms = (ls, e) ->
  ls = map (show json po) (firstn (Z.to_nat max) (filter (fun m => below stop (p_offset m)) ms)) /\  (e = true <-> (Z.to_nat max <= length (filter (fun m => below stop (p_offset m)) ms))%nat \/ exists m, In m ms /\ below stop (p_offset m) = false).
Proof. intros max stop json po ms ls e. apply simple_loop_ok. Qed.
Lemma console_loop : forall json po ms n, simple_loop n 0 json po ms = (map (show json po) (firstn n ms), (n <=? length ms)%nat).
Proof.
  intros json po. induction ms as [|m ms IH]; intros [|n]; cbn [simple_loop firstn map length Nat.leb]; try reflexivity.
  cbn [Z.ltb Z.compare andb]. rewrite IH. reflexivity.
Qed.
Lemma group_loop_ok json max : forall ms i, 0 <= i -> (0 < max -> i < max) ->
  group_loop i max json ms = (if 0 <? max then (map (show json true) (firstn (Z.to_nat (max - i)) ms), Z.to_nat (max - i) <=? length ms)%nat
                              else (map (show json true) ms, false)).
Proof.
  induction ms as [|m ms IH]; intros i H0 H1; cbn [group_loop].
  - destruct (Z.ltb_spec 0 max) as [P|P]; [|reflexivity]. rewrite firstn_nil. cbn. specialize (H1 P).
    destruct (Z.to_nat (max - i)) eqn:E; [lia|]. reflexivity.
  - destruct (Z.ltb_spec 0 max) as [P|P]; cbn [andb].
    + specialize (H1 P). destruct (Z.leb_spec max (i + 1)).
      * replace (max - i) with 1 by lia. reflexivity.
      * rewrite IH by lia. destruct (Z.ltb_spec 0 max); [|lia].
        replace (Z.to_nat (max - i)) with (S (Z.to_nat (max - (i + 1)))) by lia. reflexivity.
    + rewrite IH by lia. destruct (Z.ltb_spec 0 max); [lia|]. reflexivity.
Qed.
Lemma group_consumer_ok : forall max json ms, group_consumer max json ms =
  (if 0 <? max then (map (show json true) (firstn (Z.to_nat max) ms), Z.to_nat max <=? length ms)%nat else (map (show json true) ms, false)).
Proof. intros. unfold group_consumer. rewrite group_loop_ok by lia. rewrite Z.sub_0_r. reflexivity. Qed.

(** ** settings *)
Lemma jstring_plain s r : Forall plain_byte s -> jstring (s ++ 34 :: r) = Ok (s, r).
Proof.
  induction 1 as [|c s [H1 [H2 H3]] F IH]; cbn [app jstring]; [reflexivity|].
  destruct (Z.eqb_spec c 34); [contradiction|]. destruct (Z.eqb_spec c 92); [contradiction|].
  destruct (Z.ltb_spec c 32); [lia|]. destruct (Z.ltb_spec 127 c); [lia|]. rewrite IH. reflexivity.
Qed.
Definition member (x : bytes * bytes) : bytes := quoted (fst x) ++ 58 :: quoted (snd x).
Definition plain_pair (x : bytes * bytes) : Prop := Forall plain_byte (fst x) /\ Forall plain_byte (snd x).
Lemma member_app x r : member x ++ r = 34 :: fst x ++ 34 :: 58 :: 34 :: snd x ++ 34 :: r.
Proof. unfold member, quoted. cbn [app]. rewrite <- !app_assoc. cbn [app]. rewrite <- app_assoc. reflexivity. Qed.
Lemma jmembers_ok : forall l n, l <> [] -> Forall plain_pair l -> (length l <= n)%nat ->
  jmembers n (join 44 (map member l) ++ [125]) = Ok l.
Proof.
  induction l as [|x l IH]; intros n NE P L; [contradiction|]. inversion P as [|y z [P1 P2] P3]; subst.
  destruct n as [|n]; [cbn in L; lia|]. cbn [length] in L.
  destruct l as [|x' l].
  - cbn [map join]. rewrite member_app. cbn [jmembers jbyte Z.eqb Pos.eqb]. cbn [rbind].
    rewrite jstring_plain by exact P1. cbn [rbind fst snd jbyte Z.eqb Pos.eqb]. rewrite jstring_plain by exact P2.
    cbn [rbind fst snd]. destruct x; reflexivity.
  - assert (E : join 44 (map member (x :: x' :: l)) ++ [125] = member x ++ 44 :: (join 44 (map member (x' :: l)) ++ [125])).
    { cbn [map join]. rewrite <- app_assoc. reflexivity. }
    rewrite E, member_app. cbn [jmembers jbyte Z.eqb Pos.eqb]. cbn [rbind].
    rewrite jstring_plain by exact P1. cbn [rbind fst snd jbyte Z.eqb Pos.eqb]. rewrite jstring_plain by exact P2.
    cbn [rbind fst snd]. rewrite IH; [|discriminate|exact P3|cbn [length] in *; lia]. cbn [rbind]. destruct x; reflexivity.
Qed.
Lemma join_length l : (length l <= length (join 44 (map member l) ++ [125%Z]))%nat.
Proof.
  induction l as [|x [|x' l] IH]; cbn [map join length] in *; [cbn; lia|rewrite app_length; cbn; lia|].
  rewrite !app_length. cbn [app length] in *. rewrite app_length in IH. cbn [length] in IH. lia.
Qed.
Lemma jobject_ok l : Forall plain_pair l -> jobject (object l) = Ok l.
Proof.
  intro P. destruct l as [|x l]; [reflexivity|]. unfold object. change (map _ (x :: l)) with (map member (x :: l)).
  pose proof (join_length (x :: l)) as L. pose proof (jmembers_ok (x :: l) _ ltac:(discriminate) P L) as M.
  assert (exists s', join 44 (map member (x :: l)) ++ [125] = 34 :: s') as [s' E].
  { destruct l as [|x' l]; cbn [map join]; unfold member, quoted; cbn [app]; eauto. }
  rewrite E in *. cbn [jobject]. exact M.
Qed.
Definition sget (k : bytes) (m : list (bytes * bytes)) : option bytes :=
  match find (fun x => beqb (fst x) k) m with Some x => Some (snd x) | None => None end.
Lemma sget_sput k j v m : sget k (sput j v m) = if beqb j k then Some v else sget k m.
Proof.
  unfold sget. induction m as [|[k' w] m IH]; cbn [sput find fst].
  - destruct (beqb j k); reflexivity.
  - destruct (beqb k' j) eqn:E; cbn [find fst].
    + apply beqb_eq in E. subst k'. destruct (beqb j k); reflexivity.
    + destruct (beqb k' k) eqn:E2; [|exact IH]. apply beqb_eq in E2. subst k'.
      destruct (beqb j k) eqn:E3; [|reflexivity]. apply beqb_eq in E3. subst j. assert (beqb k k = true) by (apply beqb_eq; reflexivity). congruence.
Qed.
Lemma find_app {A} (f : A -> bool) l r : find f (l ++ r) = match find f l with Some x => Some x | None => find f r end.
Proof. induction l as [|x l IH]; cbn; [reflexivity|]. destruct (f x); auto. Qed.
Lemma sget_fold l : forall m k, sget k (fold_left (fun m x => sput (fst x) (snd x) m) l m) =
  match value k l with Some v => Some v | None => sget k m end.
Proof.
  induction l as [|x l IH]; intros m k; cbn [fold_left]; [reflexivity|].
  rewrite IH. unfold value. cbn [rev]. rewrite find_app. destruct (find _ (rev l)); [reflexivity|].
  rewrite sget_sput. cbn [find]. destruct (beqb (fst x) k); reflexivity.
Qed.
Lemma settings_ok : forall base l, Forall plain_pair l -> exists m, with_settings base (object l) = Ok m /\
  forall k, sget k m = match value k l with Some v => Some v | None => sget k base end.
Proof. intros base l P. unfold with_settings. rewrite jobject_ok by exact P. eexists. split; [reflexivity|]. intro k. apply sget_fold. Qed.

(** ** lines *)
Lemma drop_cr_line l : (forall l', l <> l' ++ [13]) -> drop_cr l = l.
Proof.
  induction l as [|c l IH]; intro H; [reflexivity|]. destruct l as [|d l].
  - cbn. destruct (Z.eqb_spec c 13) as [->|]; [|reflexivity]. exfalso. apply (H []). reflexivity.
  - cbn [drop_cr] in *. f_equal. apply IH. intros l' E. apply (H (c :: l')). cbn. rewrite E. reflexivity.
Qed.
Lemma cut_line l : forall cur s, ~ In 10 l -> cut_lines (l ++ s) cur = cut_lines s (cur ++ l).
Proof.
  induction l as [|c l IH]; intros cur s N; cbn [app]; [rewrite app_nil_r; reflexivity|].
  cbn [cut_lines]. destruct (Z.eqb_spec c 10) as [->|]; [exfalso; apply N; left; reflexivity|].
  rewrite IH by (intro; apply N; right; assumption). rewrite <- app_assoc. reflexivity.
Qed.
Lemma cut_prefix : forall ls t a b, Forall is_line ls -> ~ In 10 t -> a ++ b = text_of_lines ls ++ t ->
  exists ls1 ls2 r, ls = ls1 ++ ls2 /\ cut_lines a [] = (ls1, r) /\ r ++ b = text_of_lines ls2 ++ t /\ ~ In 10 r.
Proof.
  induction ls as [|l ls IH]; intros t a b F N H.
  - cbn in H. exists [], [], a. assert (~ In 10 a) by (intro I; apply N; rewrite <- H; apply in_or_app; left; exact I).
    rewrite <- (app_nil_r a) at 1. rewrite cut_line by assumption. cbn. auto.
  - inversion F as [|x y [L1 L2] F']; subst. cbn [text_of_lines flat_map] in H. fold (text_of_lines ls) in H.
    rewrite <- !app_assoc in H. cbn [app] in H.
    destruct (Nat.le_gt_cases (length a) (length l)) as [L|L].
    + (* within the first line *)
      assert (exists l', l = a ++ l' /\ b = l' ++ 10 :: text_of_lines ls ++ t) as [l' [E1 E2]].
      { exists (skipn (length a) l). assert (firstn (length a) (l ++ 10 :: text_of_lines ls ++ t) = a) as Q
          by (rewrite <- H, firstn_app, firstn_all, Nat.sub_diag, app_nil_r; reflexivity).
        rewrite firstn_app in Q. replace (length a - length l)%nat with 0%nat in Q by lia. cbn [firstn] in Q. rewrite app_nil_r in Q.
        split; [rewrite <- Q at 1; symmetry; apply firstn_skipn|].
        rewrite <- (firstn_skipn (length a) l), Q, <- app_assoc in H. apply app_inv_head in H. exact H. }
      assert (Na : ~ In 10 a) by (intro I; apply L1; rewrite E1; apply in_or_app; left; exact I).
      exists [], (l :: ls), a. split; [reflexivity|]. split; [rewrite <- (app_nil_r a) at 1; rewrite cut_line by exact Na; reflexivity|].
      split; [|exact Na]. cbn [text_of_lines flat_map]. fold (text_of_lines ls). rewrite <- !app_assoc. cbn [app]. exact H.
    + assert (exists a', a = l ++ 10 :: a' /\ a' ++ b = text_of_lines ls ++ t) as [a' [E1 E2]].
      { set (k := length (l ++ [10])). assert (K : k = S (length l)) by (unfold k; rewrite app_length; cbn; lia).
        exists (skipn k a).
        assert (firstn k (a ++ b) = l ++ [10]) as Q.
        { rewrite H. change (10 :: text_of_lines ls ++ t) with ([10] ++ (text_of_lines ls ++ t)). rewrite app_assoc, firstn_app.
          fold k. replace (k - k)%nat with 0%nat by lia. unfold k. rewrite firstn_all, app_nil_r. reflexivity. }
        rewrite firstn_app in Q. replace (k - length a)%nat with 0%nat in Q by lia. rewrite firstn_O, app_nil_r in Q.
        split.
        - rewrite <- (firstn_skipn k a) at 1. rewrite Q, <- app_assoc. reflexivity.
        - rewrite <- (firstn_skipn k a), Q, <- !app_assoc in H. apply app_inv_head in H. injection H as H. exact H. }
      destruct (IH t a' b F' N E2) as [ls1 [ls2 [r [E3 [E4 [E5 E6]]]]]].
      exists (l :: ls1), ls2, r. split; [rewrite E3; reflexivity|]. split; [|auto].
      rewrite E1, cut_line by exact L1. cbn. rewrite E4, drop_cr_line by exact L2. reflexivity.
Qed.
(** a text without a line feed at the start of lines lies within the first one *)
Lemma within_first : forall ls t rest b, ~ In 10 rest -> rest ++ b = text_of_lines ls ++ t ->
  match ls with [] => True | l :: _ => zlen rest <= zlen l end.
Proof.
  intros [|l ls] t rest b N H; [exact I|]. cbn [text_of_lines flat_map] in H. fold (text_of_lines ls) in H.
  rewrite <- !app_assoc in H. cbn [app] in H. unfold zlen. destruct (Nat.le_gt_cases (length rest) (length l)) as [L|L]; [lia|].
  exfalso. apply N.
  assert (nth (length l) (rest ++ b) 0 = 10) as Q by (rewrite H, app_nth2, Nat.sub_diag by lia; reflexivity).
  rewrite app_nth1 in Q by lia. rewrite <- Q. apply nth_In. lia.
Qed.
Lemma scan_ok max : forall chunks rest ls t, Forall is_line ls -> is_line t -> Forall (fun l => zlen l < max) (t :: ls) ->
  ~ In 10 rest -> rest ++ concat chunks = text_of_lines ls ++ t ->
  scan max rest chunks = (ls ++ match t with [] => [] | _ => [t] end, Ok tt).
Proof.
  induction chunks as [|c cs IH]; intros rest ls t F T B N H.
  - cbn [concat] in H. rewrite app_nil_r in H. destruct ls as [|l ls].
    + cbn in H. subst rest. cbn [scan]. inversion B; subst. destruct (Z.leb_spec max (zlen t)); [lia|].
      destruct T as [_ T]. rewrite drop_cr_line by exact T. reflexivity.
    + exfalso. apply N. rewrite H. cbn [text_of_lines flat_map]. rewrite <- !app_assoc. apply in_or_app. right. left. reflexivity.
  - cbn [concat] in H. cbn [scan].
    assert (Z : zlen rest < max).
    { pose proof (within_first ls t rest _ N H) as W. destruct ls as [|l ls].
      - inversion B; subst. cbn in H. rewrite <- H in H2. unfold zlen in *. rewrite app_length in H2. lia.
      - inversion B as [|x y B1 B2]; subst. inversion B2; subst. lia. }
    destruct (Z.leb_spec max (zlen rest)); [lia|].
    rewrite app_assoc in H. destruct (cut_prefix ls t (rest ++ c) (concat cs) F (proj1 T) H) as [ls1 [ls2 [r [E1 [E2 [E3 E4]]]]]].
    rewrite E2. subst ls. apply Forall_app in F. destruct F as [_ F2].
    rewrite (IH r ls2 t F2 T); [rewrite app_assoc; reflexivity| |exact E4|exact E3].
    inversion B as [|x y B1 B2]; subst. apply Forall_app in B2. constructor; tauto.
Qed.
Lemma read_lines_ok : forall chunks ls t, Forall is_line ls -> is_line t -> Forall (fun l => zlen l < 65536) (t :: ls) ->
  concat chunks = text_of_lines ls ++ t -> read_lines chunks = (ls ++ match t with [] => [] | _ => [t] end, Ok tt).
Proof. intros chunks ls t F T B H. unfold read_lines, max_token. apply scan_ok; auto. Qed.

(** what a read of a buffer of [max] bytes can return *)
Fixpoint fitting (max : Z) (rest : bytes) (chunks : list bytes) : Prop :=
  match chunks with
  | [] => True
  | c :: cs => zlen rest + zlen c <= max /\ fitting max (snd (cut_lines (rest ++ c) [])) cs
  end.
Lemma scan_long max : forall chunks rest ls t s, Forall is_line ls -> ~ In 10 t -> Forall (fun l => zlen l < max) ls -> zlen t = max -> 0 < max ->
  ~ In 10 rest -> zlen rest <= max -> fitting max rest chunks -> rest ++ concat chunks = text_of_lines ls ++ t ++ s ->
  exists e, scan max rest chunks = (ls, Err e).
Proof.
  induction chunks as [|c cs IH]; intros rest ls t s F T B TL MP N RL FT H.
  - cbn [concat] in H. rewrite app_nil_r in H. destruct ls as [|l ls].
    + cbn in H. cbn [scan]. destruct (Z.leb_spec max (zlen rest)) as [_|X]; [eauto|]. subst rest. unfold zlen in *. rewrite app_length in X. lia.
    + exfalso. apply N. rewrite H. cbn [text_of_lines flat_map]. rewrite <- !app_assoc. apply in_or_app. right. left. reflexivity.
  - cbn [concat] in H. cbn [scan]. destruct FT as [FC FT].
    destruct (Z.leb_spec max (zlen rest)) as [X|X].
    + destruct ls as [|l ls]; [eauto|]. exfalso. pose proof (within_first (l :: ls) _ rest _ N H) as W. cbn in W. inversion B; subst. lia.
    + assert (exists b, (rest ++ c) ++ b = text_of_lines ls ++ t /\ concat cs = b ++ s) as [b [Hb Hs]].
      { exists (skipn (length (rest ++ c)) (text_of_lines ls ++ t)).
        rewrite app_assoc in H. rewrite (app_assoc (text_of_lines ls)) in H.
        assert (L : (length (rest ++ c) <= length (text_of_lines ls ++ t))%nat).
        { unfold zlen in *. rewrite !app_length. lia. }
        assert (firstn (length (rest ++ c)) (text_of_lines ls ++ t) = rest ++ c) as Q.
        { assert (firstn (length (rest ++ c)) ((text_of_lines ls ++ t) ++ s) = rest ++ c) as Q
            by (rewrite <- H, firstn_app, firstn_all, Nat.sub_diag, app_nil_r; reflexivity).
          rewrite firstn_app in Q. replace (length (rest ++ c) - length (text_of_lines ls ++ t))%nat with 0%nat in Q by lia.
          cbn [firstn] in Q. rewrite app_nil_r in Q. exact Q. }
        split; [rewrite <- Q at 1; apply firstn_skipn|].
        rewrite <- (firstn_skipn (length (rest ++ c)) (text_of_lines ls ++ t)), Q in H.
        rewrite <- (app_assoc (rest ++ c) _ s) in H. apply app_inv_head in H. exact H. }
      destruct (cut_prefix ls t (rest ++ c) b F T Hb) as [ls1 [ls2 [r [E1 [E2 [E3 E4]]]]]].
      rewrite E2 in *. cbn [snd] in FT. subst ls. apply Forall_app in F. apply Forall_app in B.
      destruct (IH r ls2 t s (proj2 F) T (proj2 B) TL MP E4) as [e E]; [|exact FT| |rewrite E; eauto].
      * pose proof (within_first ls2 t r b E4 E3) as W. destruct ls2 as [|l ls2].
        -- cbn in E3. rewrite <- TL, <- E3. unfold zlen. rewrite app_length. lia.
        -- destruct B as [_ B]. inversion B; subst. lia.
      * rewrite Hs. rewrite app_assoc, E3, app_assoc. reflexivity.
Qed.
Lemma read_lines_long : forall chunks ls t s, Forall is_line ls -> ~ In 10 t -> Forall (fun l => zlen l < 65536) ls -> zlen t = 65536 ->
  fitting 65536 [] chunks -> concat chunks = text_of_lines ls ++ t ++ s -> exists e, read_lines chunks = (ls, Err e).
Proof. intros chunks ls t s F T B TL FT H. unfold read_lines, max_token. eapply scan_long; eauto; cbn; lia. Qed.

(** ** exit status *)
Lemma crun_status works : forall l k, ~ In Dropped l ->
  (snd (crun works k l) = 0 <-> forall j, (k <= j < k + length l)%nat -> works j = true) /\
  (snd (crun works k l) = 0 \/ snd (crun works k l) = 1).
Proof.
  induction l as [|t l IH]; intros k N; cbn [crun].
  - cbn. split; [|auto]. split; [intros _ j J; lia|reflexivity].
  - destruct (IH (S k)) as [I1 I2]; [intro I; apply N; right; exact I|].
    assert (t = Returned) as -> by (destruct t; [reflexivity|exfalso; apply N; left; reflexivity]).
    destruct (works k) eqn:W.
    + destruct (crun works (S k) l) as [m x] eqn:E. cbn [snd] in *. split; [|exact I2]. rewrite I1. cbn [length]. split.
      * intros H j J. destruct (Nat.eq_dec j k) as [->|]; [exact W|]. apply H. lia.
      * intros H j J. apply H. lia.
    + cbn. split; [|auto]. split; [discriminate|]. intro H. rewrite (H k) in W by lia. discriminate.
Qed.
Lemma crun_all works : forall l k, snd (crun works k l) = 0 -> fst (crun works k l) = seq k (length l).
Proof.
  induction l as [|t l IH]; intros k; cbn [crun length seq]; [reflexivity|].
  specialize (IH (S k)). destruct (crun works (S k) l) as [m x]. cbn [fst snd] in *.
  destruct (works k), t; cbn [fst snd]; intro H; try discriminate; rewrite IH; auto.
Qed.
(** no call is made behind one that fails and is returned *)
Lemma crun_stops works : forall l k j, In j (fst (crun works k l)) -> forall i, (k <= i < j)%nat -> nth_error l (i - k) = Some Returned -> works i = true.
Proof.
  induction l as [|t l IH]; intros k j I i L E; [destruct I|].
  cbn [crun] in I. specialize (IH (S k) j). destruct (crun works (S k) l) as [m x]. cbn [fst] in IH.
  assert (G : In j (k :: m) -> t <> Returned \/ works k = true -> works i = true).
  { intros [<-|J] W; [lia|]. destruct (Nat.eq_dec i k) as [->|D].
    - rewrite Nat.sub_diag in E. cbn in E. destruct W; [congruence|assumption].
    - apply IH; [exact J|lia|]. replace (i - k)%nat with (S (i - S k)) in E by lia. exact E. }
  destruct (works k) eqn:W, t; cbn [fst] in I.
  - apply G; [exact I|right; reflexivity].
  - apply G; [exact I|right; reflexivity].
  - destruct I as [<-|[]]. lia.
  - apply G; [exact I|left; discriminate].
Qed.
