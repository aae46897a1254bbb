From Verif Require Import Base BaseFacts Wire RecordSpec Records RecordFacts Responses Fetch FetchSpec FetchFacts FetchKeep DeliverFacts FetchShort FetchRefute Consumer ConsumerSpec.

(** *** Answers of an honest broker *)
Lemma exp_all_msgs topic pid st ws :
  exp_all topic pid st ws = map (EvMsg topic pid) (filter (wanted st) (log_msgs ws)).
Proof.
  unfold exp_all, log_msgs, exp_events. induction ws as [|w ws IH]; [reflexivity|].
  cbn [flat_map]. rewrite filter_app, map_app, IH. reflexivity.
Qed.
Lemma filter_none {A} (f : A -> bool) l : Forall (fun x => f x = false) l -> filter f l = [].
Proof. induction 1 as [|x l H _ IH]; [reflexivity|]. cbn. rewrite H. exact IH. Qed.
Lemma prefix_map_inv {A B} (f : A -> B) (l : list A) : forall ms, prefix ms (map f l) -> exists l', ms = map f l' /\ prefix l' l.
Proof.
  induction l as [|a l IH]; intros ms [c Hc].
  - symmetry in Hc. apply app_eq_nil in Hc. destruct Hc as [-> _]. exists []. split; [reflexivity|apply prefix_nil].
  - destruct ms as [|m ms]; [exists []; split; [reflexivity|apply prefix_nil]|].
    cbn in Hc. injection Hc as H1 H2. destruct (IH ms (ex_intro _ c H2)) as [l' [-> Hp]]. subst m.
    exists (a :: l'). split; [reflexivity|]. apply (prefix_app [a]), Hp.
Qed.

(** messages of the log from [o] on, in order, then possibly an error *)
Definition good (topic : bytes) (pid : Z) (D : list Message) (o : Z) (evs : list event) : Prop :=
  exists l, prefix l (filter (wanted o) D) /\ msgs_then_err (map (EvMsg topic pid) l) evs.

Lemma slice_good topic pid L pre ws post o ms :
  L = pre ++ ws ++ post -> Forall (fun m => m_offset m < o) (log_msgs pre) ->
  prefix ms (exp_all topic pid o ws) ->
  exists l, ms = map (EvMsg topic pid) l /\ prefix l (filter (wanted o) (log_msgs L)).
Proof.
  intros -> Hpre Hp. rewrite exp_all_msgs in Hp. destruct (prefix_map_inv _ _ _ Hp) as [l [-> Hl]].
  exists l. split; [reflexivity|]. unfold log_msgs in *. rewrite !flat_map_app, !filter_app.
  rewrite (filter_none (wanted o) (flat_map _ pre)).
  - cbn [app]. apply prefix_app_r. exact Hl.
  - eapply Forall_impl; [|exact Hpre]. intros m Hm. unfold wanted. cbn in Hm. lia.
Qed.

Lemma honest_good unzip zip topic pid L o evs : log_ok unzip L ->
  honest unzip zip topic pid L o (Ok evs) -> good topic pid (log_msgs L) o evs.
Proof.
  intros [Hw [Hr _]] H. inversion H as [| v p code rest chunks fin evs' s Hv Hwf Hc Hc0 Hch Hf E |
      v p pre ws post c rest chunks fin evs' s HL Hpre Hv Hwf Ht Hp Hrec Hch Hf E |
      v p pre ws post c k chunks fin evs' s HL Hpre Hv Hwf Ht Hp Hrec Hch Hf E]; subst evs'.
  - destruct (fetch_error_code unzip zip v o p code rest chunks fin Hv Hwf Hc Hc0 Hch Hf) as [s' [E' _]].
    rewrite E' in E. apply Ok_inj in E. apply (f_equal fst) in E. cbn in E. subst evs.
    exists []. split; [apply prefix_nil|]. right. eexists; reflexivity.
  - assert (Hw' : Forall (wf_wb unzip) ws /\ Forall (rejects_cuts unzip) ws).
    { rewrite HL in Hw, Hr. apply Forall_app in Hw, Hr. destruct Hw as [_ Hw], Hr as [_ Hr]. apply Forall_app in Hw, Hr. tauto. }
    destruct (stream_whole unzip zip v o p ws c rest chunks fin Hv Hwf Hrec (proj1 Hw') (proj2 Hw') Hch Hf) as [ms [evs' [s' [Hpx [Hme E']]]]].
    rewrite E' in E. apply Ok_inj in E. apply (f_equal fst) in E. cbn in E. subst evs'. rewrite Ht, Hp in Hpx.
    destruct (slice_good topic pid L pre ws post o ms HL Hpre Hpx) as [l [-> Hl]]. exists l. split; assumption.
  - assert (Hw' : Forall (wf_wb unzip) ws /\ Forall (rejects_cuts unzip) ws).
    { rewrite HL in Hw, Hr. apply Forall_app in Hw, Hr. destruct Hw as [_ Hw], Hr as [_ Hr]. apply Forall_app in Hw, Hr. tauto. }
    destruct (stream_cut unzip zip v o p ws c k chunks fin Hv Hwf Hrec (proj1 Hw') (proj2 Hw') Hch Hf) as [ms [evs' [s' [Hpx [Hme E']]]]].
    rewrite E' in E. apply Ok_inj in E. apply (f_equal fst) in E. cbn in E. subst evs'. rewrite Ht, Hp in Hpx.
    destruct (slice_good topic pid L pre ws post o ms HL Hpre Hpx) as [l [-> Hl]]. exists l. split; assumption.
Qed.

(** *** Positions in a sorted log *)
Lemma filter_next D : StronglySorted before D -> forall pos m tl, filter (wanted pos) D = m :: tl ->
  next_msg D pos = Some m /\ filter (wanted (m_offset m + 1)) D = tl /\ In m D.
Proof.
  unfold next_msg, wanted. induction 1 as [|a D HS IH HF]; intros pos m tl E; [discriminate|].
  cbn [filter find] in *. destruct (Z.leb_spec pos (m_offset a)) as [Ha|Ha].
  - injection E as <- <-. split; [reflexivity|]. split; [|left; reflexivity].
    destruct (Z.leb_spec (m_offset a + 1) (m_offset a)); [lia|].
    rewrite Forall_forall in HF. apply filter_ext_in. intros b Hb. specialize (HF b Hb). unfold before in HF.
    destruct (Z.leb_spec (m_offset a + 1) (m_offset b)), (Z.leb_spec pos (m_offset b)); try lia; reflexivity.
  - destruct (IH pos m tl E) as [E1 [E2 E3]]. split; [exact E1|]. split; [|right; exact E3].
    rewrite Forall_forall in HF. specialize (HF m E3). unfold before in HF.
    destruct (Z.leb_spec (m_offset m + 1) (m_offset a)); [lia|exact E2].
Qed.
Lemma next_msg_in D pos m : next_msg D pos = Some m -> In m D /\ pos <= m_offset m.
Proof. intros H. apply find_some in H. destruct H as [H1 H2]. split; [exact H1|apply Z.leb_le; exact H2]. Qed.
Lemma next_msg_first D pos m : StronglySorted before D -> next_msg D pos = Some m ->
  forall m', In m' D -> pos <= m_offset m' < m_offset m + 1 -> m' = m.
Proof.
  unfold next_msg. induction 1 as [|a D HS IH HF]; intros E m' Hin Ho; [discriminate|].
  cbn [find] in E. destruct (Z.leb_spec pos (m_offset a)) as [Ha|Ha].
  - injection E as ->. destruct Hin as [->|Hin]; [reflexivity|]. rewrite Forall_forall in HF. specialize (HF m' Hin). unfold before in HF. lia.
  - destruct Hin as [->|Hin]; [lia|]. apply IH; assumption.
Qed.

(** *** The fetch loop *)
Definition cur (s : cst) : Z := match c_adv s with Some o => o | None => c_off s end.
Definition cinv (topic : bytes) (pid : Z) (D : list Message) (s : cst) : Prop :=
  match c_pend s with
  | Some evs => good topic pid D (cur s) evs
  | None => c_adv s = None
  end.

Lemma good_msg topic pid D o t p m rest : StronglySorted before D ->
  good topic pid D o (EvMsg t p m :: rest) ->
  t = topic /\ p = pid /\ next_msg D o = Some m /\ good topic pid D (m_offset m + 1) rest.
Proof.
  intros HS [l [[c Hc] Hm]]. destruct l as [|m' l].
  - cbn in Hm. destruct Hm as [Hm|[e Hm]]; discriminate.
  - cbn [app] in Hc. destruct (filter_next D HS o m' (l ++ c) Hc) as [E1 [E2 _]].
    assert (H : t = topic /\ p = pid /\ m = m' /\ msgs_then_err (map (EvMsg topic pid) l) rest).
    { destruct Hm as [Hm|[e Hm]]; cbn in Hm; injection Hm as -> -> -> ->; (split; [reflexivity|]); (split; [reflexivity|]); (split; [reflexivity|]).
      - left; reflexivity.
      - right; exists e; reflexivity. }
    destruct H as [-> [-> [-> H]]]. split; [reflexivity|]. split; [reflexivity|]. split; [exact E1|].
    exists l. split; [|exact H]. exists c. rewrite E2. reflexivity.
Qed.

(** what a step shows and where it leaves the position *)
Definition step_ok (topic : bytes) (pid : Z) (D : list Message) (s s' : cst) (t : list tev) : Prop :=
  match t with
  | [] => cur s' = cur s
  | [TMsg tp p m] => tp = topic /\ p = pid /\ next_msg D (cur s) = Some m /\ cur s' = m_offset m + 1
  | [TReset _ o] => cur s' = o
  | [TFetch o _] => o = cur s /\ cur s' = cur s
  | [TCommit _ _] => cur s' = cur s
  | _ => False
  end.

Lemma step_in_order unzip zip c L s op s' t : log_ok unzip L ->
  cinv (k_topic c) (k_part c) (log_msgs L) s ->
  match op with OFetch r => honest unzip zip (k_topic c) (k_part c) L (c_off s) r | _ => True end ->
  cstep c s op = Ok (s', t) ->
  cinv (k_topic c) (k_part c) (log_msgs L) s' /\ step_ok (k_topic c) (k_part c) (log_msgs L) s s' t.
Proof.
  intros HL Hi Hh E. pose proof HL as [_ [_ [HS HB]]]. destruct op as [r|ans ls| | | | | |i|i mb ok]; cbn [cstep] in E.
  - destruct (c_live s); [|apply Ok_inj in E; injection E as <- <-; split; [exact Hi|reflexivity]].
    destruct (c_pend s) as [evs|] eqn:Ep; [apply Ok_inj in E; injection E as <- <-; split; [exact Hi|reflexivity]|].
    unfold cinv in Hi. rewrite Ep in Hi.
    destruct (c_stop s). { apply Ok_inj in E; injection E as <- <-. split; [unfold cinv; cbn; rewrite Ep; exact Hi|reflexivity]. }
    assert (Hc : cur s = c_off s) by (unfold cur; rewrite Hi; reflexivity).
    destruct r as [evs|e| |]; try discriminate.
    + apply Ok_inj in E; injection E as <- <-. split.
      * unfold cinv, cur; cbn. apply (honest_good unzip zip); assumption.
      * cbn. rewrite Hc. split; reflexivity.
    + destruct e; apply Ok_inj in E; injection E as <- <-; (split; [unfold cinv; cbn; rewrite Ep; exact Hi|]);
        cbn; rewrite Hc; (split; [reflexivity|]); first [reflexivity|unfold cur; cbn; rewrite Hi; reflexivity].
  - destruct (c_pend s) as [[|[tp p m|e] rest]|] eqn:Ep; destruct (c_adv s) as [a|] eqn:Ea;
      try (apply Ok_inj in E; injection E as <- <-; split; [exact Hi|reflexivity]).
    + apply Ok_inj in E; injection E as <- <-. split; [reflexivity|]. cbn. unfold cur. cbn. rewrite Ea. reflexivity.
    + unfold cinv in Hi. rewrite Ep in Hi. destruct (good_msg _ _ _ _ _ _ _ _ HS Hi) as [-> [-> [Hn Hg]]].
      assert (Hs : sint 64 (m_offset m + 1) = m_offset m + 1).
      { destruct (next_msg_in _ _ _ Hn) as [Hin _].
        assert (Hlow : - 2 ^ 63 <= m_offset m).
        { destruct HL as [Hw _]. unfold log_msgs in Hin. apply in_flat_map in Hin. destruct Hin as [w [Hw1 Hw2]].
          apply in_map_iff in Hw2. destruct Hw2 as [r [<- Hr]]. rewrite Forall_forall in Hw. destruct (Hw w Hw1) as [Hc _].
          destruct Hc as [_ [_ [_ [Ho _]]]]. rewrite Forall_forall in Ho. specialize (Ho r Hr). unfold i64 in Ho. cbn. lia. }
        rewrite Forall_forall in HB. specialize (HB m Hin). apply sint_id; [lia|].
        change (2 ^ (64 - 1)) with (2 ^ 63). lia. }
      rewrite Hs in E. apply Ok_inj in E; injection E as <- <-. split.
      * unfold cinv, cur; cbn. exact Hg.
      * cbn. split; [reflexivity|]. split; [reflexivity|]. split; [exact Hn|reflexivity].
    + unfold onError in E.
      set (s1 := match e with EMaxBytesTooSmall => _ | _ => _ end) in E.
      assert (Hs1 : c_off s1 = c_off s) by (destruct e; reflexivity).
      assert (Hcur : cur s = c_off s) by (unfold cur; rewrite Ea; reflexivity).
      cbv zeta in E.
      assert (Hdflt : Ok (set_pend s1 None None, []) = Ok (s', t) ->
         cinv (k_topic c) (k_part c) (log_msgs L) s' /\ step_ok (k_topic c) (k_part c) (log_msgs L) s s' t).
      { intros E'. apply Ok_inj in E'; injection E' as <- <-. split; [reflexivity|]. unfold step_ok. rewrite Hcur. exact Hs1. }
      destruct (err_root e) as [code| | | | | | | | | | | | | | | | |]; try (exact (Hdflt E)).
      destruct (Z.eq_dec code 1) as [->|H1].
      { destruct (getOffset (k_topic c) ans); try discriminate; apply Ok_inj in E; injection E as <- <-; split; reflexivity. }
      destruct (Z.eq_dec code 6) as [->|H6].
      { destruct (leaderLoop ls); try discriminate; try (exact (Hdflt E)).
        apply Ok_inj in E; injection E as <- <-. split; [reflexivity|]. unfold step_ok. rewrite Hcur. exact Hs1. }
      apply Hdflt. destruct code as [|q|q]; try exact E; destruct q as [q|q|]; try exact E; try congruence; destruct q as [q|q|]; try exact E; destruct q; first [exact E|congruence].
  - destruct (c_adv s) as [a|] eqn:Ea; apply Ok_inj in E; injection E as <- <-.
    + unfold cinv, cur in *. rewrite Ea in Hi. destruct (c_pend s) as [evs|] eqn:Ep; [|discriminate].
      cbn. split; [exact Hi|]. unfold cur; cbn. rewrite Ea. reflexivity.
    + split; [exact Hi|reflexivity].
  - apply Ok_inj in E; injection E as <- <-. split; [exact Hi|reflexivity].
  - apply Ok_inj in E; injection E as <- <-. split; [exact Hi|reflexivity].
  - destruct (c_pend s) as [evs|] eqn:Ep; [|apply Ok_inj in E; injection E as <- <-; split; [exact Hi|reflexivity]].
    destruct (c_adv s) as [a|] eqn:Ea; [apply Ok_inj in E; injection E as <- <-; split; [exact Hi|reflexivity]|].
    destruct (c_cancel s); apply Ok_inj in E; injection E as <- <-; (split; [first [exact Hi|reflexivity]|]); cbn; try reflexivity.
    unfold cur; cbn; rewrite Ea; reflexivity.
  - destruct (c_off s =? c_com s); [|destruct (k_belongs c); [|destruct (k_group c)]]; apply Ok_inj in E; injection E as <- <-;
      (split; [exact Hi|reflexivity]).
  - destruct (nth_error (c_fly s) i) as [[cap [v|]]|]; apply Ok_inj in E; injection E as <- <-; (split; [exact Hi|reflexivity]).
  - destruct (nth_error (c_fly s) i) as [[cap [v|]]|]; try (apply Ok_inj in E; injection E as <- <-; split; [exact Hi|reflexivity]).
    destruct (k_belongs c && (negb mb || (v <? 0))); [apply Ok_inj in E; injection E as <- <-; split; [exact Hi|reflexivity]|].
    destruct ok; apply Ok_inj in E; injection E as <- <-; (split; [exact Hi|reflexivity]).
Qed.

Lemma step_ok_in_order topic pid D s s' t t' : step_ok topic pid D s s' t ->
  in_order topic pid D (cur s') t' -> in_order topic pid D (cur s) (t ++ t').
Proof.
  destruct t as [|e [|e2 t]]; cbn; intros H H'; [rewrite <- H; exact H'| |destruct e; contradiction].
  destruct e as [o mx|tp p m|w o|o ok]; cbn in *.
  - destruct H as [-> H]. split; [reflexivity|]. rewrite <- H. exact H'.
  - destruct H as [-> [-> [Hn H]]]. split; [reflexivity|]. split; [reflexivity|]. split; [exact Hn|]. rewrite <- H. exact H'.
  - rewrite <- H. exact H'.
  - rewrite <- H. exact H'.
Qed.

Lemma crun_cons c s op ops s2 t : crun c s (op :: ops) = Ok (s2, t) ->
  exists s1 t1 t2, cstep c s op = Ok (s1, t1) /\ crun c s1 ops = Ok (s2, t2) /\ t = t1 ++ t2.
Proof.
  cbn [crun]. intros H. destruct (cstep c s op) as [[s1 t1]|e| |] eqn:E1; cbn [rbind] in H; try discriminate.
  cbn [fst snd] in H. destruct (crun c s1 ops) as [[s3 t3]|e| |] eqn:E2; cbn [rbind fst snd] in H; try discriminate.
  apply Ok_inj in H. injection H as <- <-. exists s1, t1, t3. split; [reflexivity|]. split; [exact E2|reflexivity].
Qed.

Lemma run_in_order unzip zip c L : log_ok unzip L -> forall ops s s' t,
  cinv (k_topic c) (k_part c) (log_msgs L) s ->
  honest_run unzip zip c L s ops -> crun c s ops = Ok (s', t) ->
  in_order (k_topic c) (k_part c) (log_msgs L) (cur s) t.
Proof.
  intros HL. induction ops as [|op ops IH]; intros s s' t Hi Hh E.
  - cbn in E. apply Ok_inj in E. injection E as <- <-. exact I.
  - destruct (crun_cons _ _ _ _ _ _ E) as [s1 [t1 [t2 [E1 [E2 ->]]]]]. destruct Hh as [Hh1 Hh2]. rewrite E1 in Hh2.
    destruct (step_in_order unzip zip c L s op s1 t1 HL Hi Hh1 E1) as [Hi1 Hs1].
    apply (step_ok_in_order _ _ _ s s1); [exact Hs1|]. apply (IH s1 s' t2 Hi1 Hh2 E2).
Qed.

Lemma consumer_in_order unzip zip c L start from mx ops s' t :
  log_ok unzip L -> honest_run unzip zip c L (cinit start from mx) ops -> crun c (cinit start from mx) ops = Ok (s', t) ->
  in_order (k_topic c) (k_part c) (log_msgs L) start t.
Proof. intros HL Hh E. apply (run_in_order unzip zip c L HL ops (cinit start from mx) s' t); [reflexivity|exact Hh|exact E]. Qed.

(** *** Positions *)
Lemma position_app start a b : position start (a ++ b) = position (position start a) b.
Proof. apply fold_left_app. Qed.
Lemma segment_app start a b : segment start (a ++ b) = fold_left seg b (segment start a).
Proof. apply fold_left_app. Qed.

Lemma in_order_app topic pid D : forall a b pos, in_order topic pid D pos (a ++ b) -> in_order topic pid D pos a /\ in_order topic pid D (position pos a) b.
Proof.
  induction a as [|e a IH]; intros b pos H; [split; [exact I|exact H]|].
  destruct e as [o mx|tp p m|w o|o ok]; cbn [app in_order] in *; change (position pos (?x :: a)) with (position (move pos x) a); cbn [move].
  - destruct H as [H1 H2]. destruct (IH b pos H2) as [G1 G2]. repeat split; assumption.
  - destruct H as [H1 [H2 [H3 H4]]]. destruct (IH b _ H4) as [G1 G2]. repeat split; assumption.
  - apply IH, H.
  - apply IH, H.
Qed.

(** everything between the start of a segment and the position has been handed out *)
Lemma segment_complete topic pid D : StronglySorted before D -> forall t pos x,
  in_order topic pid D pos t ->
  (forall m, In m D -> fst x <= m_offset m < pos -> In m (snd x)) ->
  forall m, In m D -> fst (fold_left seg t x) <= m_offset m < position pos t -> In m (snd (fold_left seg t x)).
Proof.
  intros HS. induction t as [|e t IH]; intros pos x Ho Hx; [exact Hx|].
  destruct e as [o mx|tp p m|w o|o ok]; cbn [in_order fold_left seg] in *;
    change (position pos (?y :: t)) with (position (move pos y) t); cbn [move].
  - apply IH; [apply Ho|exact Hx].
  - destruct Ho as [_ [_ [Hn Ho]]]. apply IH; [exact Ho|]. cbn [fst snd]. intros m' Hin Hr. apply in_or_app.
    destruct (Z.ltb_spec (m_offset m') pos) as [Hlt|Hge]; [left; apply Hx; [exact Hin|lia]|].
    right. left. symmetry. apply (next_msg_first D pos m HS Hn m' Hin). lia.
  - apply IH; [exact Ho|]. cbn. intros m Hin Hr. lia.
  - apply IH; [exact Ho|exact Hx].
Qed.

(** *** Commits *)
(** [v] has been the position at some moment of [T] *)
Definition been (start : Z) (T : list tev) (v : Z) : Prop := exists a, prefix a T /\ v = position start a.
Lemma been_app start T t v : been start T v -> been start (T ++ t) v.
Proof. intros [a [Hp Hv]]. exists a. split; [apply prefix_app_r; exact Hp|exact Hv]. Qed.
Lemma been_now start T : been start T (position start T).
Proof. exists T. split; [apply prefix_refl|reflexivity]. Qed.

Definition entry_ok (P : Z -> Prop) (x : Z * option Z) : Prop := P (fst x) /\ match snd x with Some v => P v | None => True end.
Definition vinv (P : Z -> Prop) (s : cst) : Prop :=
  P (c_off s) /\ match c_adv s with Some o => P o | None => True end /\ Forall (entry_ok P) (c_fly s).

Lemma set_nth_fly_forall (P : Z * option Z -> Prop) x l : P x -> Forall P l -> forall i, Forall P (set_nth_fly i x l).
Proof. intros Hx H. induction H as [|a l Ha Hl IH]; intros [|i]; cbn; constructor; auto. Qed.
Lemma drop_nth_forall (P : Z * option Z -> Prop) l : Forall P l -> forall i, Forall P (drop_nth i l).
Proof. intros H. induction H as [|a l Ha Hl IH]; intros [|i]; cbn; try constructor; auto. Qed.
Lemma nth_error_forall {A} (P : A -> Prop) l i x : Forall P l -> nth_error l i = Some x -> P x.
Proof. intros H E. rewrite Forall_forall in H. apply H. apply (nth_error_In _ _ E). Qed.

(** one step: the values the state holds, and what is committed, have property [P],
    if the new positions that show up have it *)
Lemma step_values c (P : Z -> Prop) s op s' t : vinv P s -> cstep c s op = Ok (s', t) ->
  (forall tp p m, In (TMsg tp p m) t -> P (sint 64 (m_offset m + 1))) -> (forall w o, In (TReset w o) t -> P o) ->
  vinv P s' /\ Forall P (commits t) /\ (k_belongs c = true -> Forall (fun v => 0 <= v) (commits t)).
Proof.
  intros [Ho [Ha Hf]] E HM HR.
  assert (Hsame : Ok (s, @nil tev) = Ok (s', t) -> vinv P s' /\ Forall P (commits t) /\ (k_belongs c = true -> Forall (fun v => 0 <= v) (commits t))).
  { intros E'. apply Ok_inj in E'; injection E' as <- <-. split; [repeat split; assumption|]. split; [constructor|intros _; constructor]. }
  destruct op as [r|ans ls| | | | | |i|i mb ok]; cbn [cstep] in E.
  - destruct (c_live s); [|exact (Hsame E)]. destruct (c_pend s) as [evs|]; [exact (Hsame E)|].
    destruct (c_stop s). { apply Ok_inj in E; injection E as <- <-. split; [repeat split; assumption|]. split; [constructor|intros _; constructor]. }
    destruct r as [evs|e| |]; try discriminate.
    + apply Ok_inj in E; injection E as <- <-. split; [repeat split; assumption|]. split; [constructor|intros _; constructor].
    + destruct e; apply Ok_inj in E; injection E as <- <-; (split; [repeat split; assumption|]); (split; [constructor|intros _; constructor]).
  - destruct (c_pend s) as [[|[tp p m|e] rest]|] eqn:Ep; destruct (c_adv s) as [a|] eqn:Ea; try (exact (Hsame E)).
    + apply Ok_inj in E; injection E as <- <-. split; [repeat split; assumption|]. split; [constructor|intros _; constructor].
    + apply Ok_inj in E; injection E as <- <-. split; [|split; [constructor|intros _; constructor]].
      split; [exact Ho|]. split; [|exact Hf]. cbn. apply (HM tp p m). left; reflexivity.
    + unfold onError in E.
      set (s1 := match e with EMaxBytesTooSmall => _ | _ => _ end) in E. cbv zeta in E.
      assert (Hs1 : vinv P (set_pend s1 None None)) by (destruct e; (split; [exact Ho|]); (split; [exact I|exact Hf])).
      assert (Hdflt : Ok (set_pend s1 None None, @nil tev) = Ok (s', t) -> vinv P s' /\ Forall P (commits t) /\ (k_belongs c = true -> Forall (fun v => 0 <= v) (commits t))).
      { intros E'. apply Ok_inj in E'; injection E' as <- <-. split; [exact Hs1|]. split; [constructor|intros _; constructor]. }
      destruct (err_root e) as [code| | | | | | | | | | | | | | | | |]; try (exact (Hdflt E)).
      destruct (Z.eq_dec code 1) as [->|H1].
      { destruct (getOffset (k_topic c) ans) as [o|e'| |]; try discriminate; apply Ok_inj in E; injection E as <- <-;
          (split; [|split; [constructor|intros _; constructor]]); destruct Hs1 as [_ [_ Hs1]];
          (split; [cbn; apply (HR (ask (c_from s1))); left; reflexivity|]); (split; [exact I|exact Hs1]). }
      destruct (Z.eq_dec code 6) as [->|H6].
      { destruct (leaderLoop ls); try discriminate; try (exact (Hdflt E)).
        apply Ok_inj in E; injection E as <- <-. split; [exact Hs1|]. split; [constructor|intros _; constructor]. }
      apply Hdflt. destruct code as [|q|q]; try exact E; destruct q as [q|q|]; try exact E; try congruence; destruct q as [q|q|]; try exact E; destruct q; first [exact E|congruence].
  - destruct (c_adv s) as [a|] eqn:Ea; [|exact (Hsame E)]. apply Ok_inj in E; injection E as <- <-.
    split; [split; [exact Ha|split; [exact I|exact Hf]]|]. split; [constructor|intros _; constructor].
  - apply Ok_inj in E; injection E as <- <-. split; [repeat split; assumption|]. split; [constructor|intros _; constructor].
  - apply Ok_inj in E; injection E as <- <-. split; [repeat split; assumption|]. split; [constructor|intros _; constructor].
  - destruct (c_pend s) as [evs|]; [|exact (Hsame E)]. destruct (c_adv s) as [a|] eqn:Ea; [exact (Hsame E)|].
    destruct (c_cancel s); [|exact (Hsame E)]. apply Ok_inj in E; injection E as <- <-. split; [repeat split; assumption|]. split; [constructor|intros _; constructor].
  - destruct (c_off s =? c_com s); [exact (Hsame E)|].
    destruct (k_belongs c); [|destruct (k_group c); [|exact (Hsame E)]]; apply Ok_inj in E; injection E as <- <-;
      (split; [|split; [constructor|intros _; constructor]]); (split; [exact Ho|]); (split; [exact Ha|]); cbn; apply Forall_app; (split; [exact Hf|]);
      repeat constructor; exact Ho.
  - destruct (nth_error (c_fly s) i) as [[cap [v|]]|] eqn:En; try (exact (Hsame E)). apply Ok_inj in E; injection E as <- <-.
    split; [|split; [constructor|intros _; constructor]]. split; [exact Ho|]. split; [exact Ha|]. cbn.
    pose proof (nth_error_forall _ _ _ _ Hf En) as [Hc _]. apply set_nth_fly_forall; [split; [exact Hc|exact Ho]|exact Hf].
  - destruct (nth_error (c_fly s) i) as [[cap [v|]]|] eqn:En; try (exact (Hsame E)).
    pose proof (nth_error_forall _ _ _ _ Hf En) as [Hc Hv]. cbn in Hc, Hv. pose proof (drop_nth_forall _ _ Hf i) as Hd.
    destruct (k_belongs c && (negb mb || (v <? 0))) eqn:Eb.
    { apply Ok_inj in E; injection E as <- <-. split; [split; [exact Ho|split; [exact Ha|exact Hd]]|]. split; [constructor|intros _; constructor]. }
    destruct ok; apply Ok_inj in E; injection E as <- <-;
      (split; [split; [exact Ho|split; [exact Ha|exact Hd]]|]); (split; [repeat constructor; exact Hv|]); intros Hbl;
      rewrite Hbl in Eb; cbn [andb] in Eb; apply orb_false_iff in Eb; destruct Eb as [_ Eb]; repeat constructor; lia.
Qed.

Lemma commits_app a b : commits (a ++ b) = commits a ++ commits b. Proof. apply flat_map_app. Qed.

(** group consumers never commit a negative offset *)
Lemma group_commits_nonneg c : k_belongs c = true -> forall ops s s' t, crun c s ops = Ok (s', t) -> Forall (fun v => 0 <= v) (commits t).
Proof.
  intros Hb. induction ops as [|op ops IH]; intros s s' t E.
  - cbn in E. apply Ok_inj in E. injection E as <- <-. constructor.
  - destruct (crun_cons _ _ _ _ _ _ E) as [s1 [t1 [t2 [E1 [E2 ->]]]]]. rewrite commits_app. apply Forall_app. split; [|apply (IH _ _ _ E2)].
    assert (Hv : vinv (fun _ => True) s).
    { split; [exact I|]. split; [destruct (c_adv s); exact I|]. clear. induction (c_fly s) as [|x l IHl]; constructor; [|exact IHl]. split; [exact I|destruct (snd x); exact I]. }
    destruct (step_values c (fun _ => True) s op s1 t1 Hv E1 (fun _ _ _ _ => I) (fun _ _ _ => I)) as [_ [_ H]]. exact (H Hb).
Qed.

(** where the position is after a step *)
Lemma step_position c s op s' t : cstep c s op = Ok (s', t) ->
  (forall tp p m, In (TMsg tp p m) t -> i64 (m_offset m + 1)) ->
  (c_pend s = None -> c_adv s = None) ->
  cur s' = position (cur s) t /\ (c_pend s' = None -> c_adv s' = None).
Proof.
  intros E HM Hpa.
  assert (Hsame : Ok (s, @nil tev) = Ok (s', t) -> cur s' = position (cur s) t /\ (c_pend s' = None -> c_adv s' = None)).
  { intros E'. apply Ok_inj in E'; injection E' as <- <-. split; [reflexivity|exact Hpa]. }
  destruct op as [r|ans ls| | | | | |i|i mb ok]; cbn [cstep] in E.
  - destruct (c_live s); [|exact (Hsame E)]. destruct (c_pend s) as [evs|] eqn:Ep; [exact (Hsame E)|]. specialize (Hpa eq_refl).
    destruct (c_stop s). { apply Ok_inj in E; injection E as <- <-. split; [reflexivity|intros _; exact Hpa]. }
    destruct r as [evs|e| |]; try discriminate.
    + apply Ok_inj in E; injection E as <- <-. split; [|reflexivity]. unfold cur; cbn. rewrite Hpa. reflexivity.
    + destruct e; apply Ok_inj in E; injection E as <- <-; (split; [|intros _; exact Hpa]); reflexivity.
  - destruct (c_pend s) as [[|[tp p m|e] rest]|] eqn:Ep; destruct (c_adv s) as [a|] eqn:Ea; try (exact (Hsame E)).
    + apply Ok_inj in E; injection E as <- <-. split; [|reflexivity]. unfold cur; cbn. rewrite Ea. reflexivity.
    + apply Ok_inj in E; injection E as <- <-. split; [|discriminate]. cbn. unfold cur; cbn.
      apply sint_id; [lia|]. apply (HM tp p m). left; reflexivity.
    + unfold onError in E.
      set (s1 := match e with EMaxBytesTooSmall => _ | _ => _ end) in E. cbv zeta in E.
      assert (Hs1 : cur (set_pend s1 None None) = cur s) by (unfold cur; rewrite Ea; destruct e; reflexivity).
      assert (Hdflt : Ok (set_pend s1 None None, @nil tev) = Ok (s', t) -> cur s' = position (cur s) t /\ (c_pend s' = None -> c_adv s' = None)).
      { intros E'. apply Ok_inj in E'; injection E' as <- <-. split; [exact Hs1|reflexivity]. }
      destruct (err_root e) as [code| | | | | | | | | | | | | | | | |]; try (exact (Hdflt E)).
      destruct (Z.eq_dec code 1) as [->|H1].
      { destruct (getOffset (k_topic c) ans) as [o|e'| |]; try discriminate; apply Ok_inj in E; injection E as <- <-; split; reflexivity. }
      destruct (Z.eq_dec code 6) as [->|H6].
      { destruct (leaderLoop ls); try discriminate; try (exact (Hdflt E)).
        apply Ok_inj in E; injection E as <- <-. split; [exact Hs1|reflexivity]. }
      apply Hdflt. destruct code as [|q|q]; try exact E; destruct q as [q|q|]; try exact E; try congruence; destruct q as [q|q|]; try exact E; destruct q; first [exact E|congruence].
  - destruct (c_adv s) as [a|] eqn:Ea; [|exact (Hsame E)]. apply Ok_inj in E; injection E as <- <-. split; [|intros _; reflexivity].
    unfold cur; cbn. rewrite Ea. reflexivity.
  - apply Ok_inj in E; injection E as <- <-. split; [reflexivity|exact Hpa].
  - apply Ok_inj in E; injection E as <- <-. split; [reflexivity|exact Hpa].
  - destruct (c_pend s) as [evs|] eqn:Ep; [|exact (Hsame E)]. destruct (c_adv s) as [a|] eqn:Ea; [exact (Hsame E)|].
    destruct (c_cancel s); [|exact (Hsame E)]. apply Ok_inj in E; injection E as <- <-. split; [|reflexivity]. unfold cur; cbn; rewrite Ea; reflexivity.
  - destruct (c_off s =? c_com s); [exact (Hsame E)|].
    destruct (k_belongs c); [|destruct (k_group c); [|exact (Hsame E)]]; apply Ok_inj in E; injection E as <- <-; (split; [reflexivity|exact Hpa]).
  - destruct (nth_error (c_fly s) i) as [[cap [v|]]|] eqn:En; try (exact (Hsame E)). apply Ok_inj in E; injection E as <- <-. split; [reflexivity|exact Hpa].
  - destruct (nth_error (c_fly s) i) as [[cap [v|]]|] eqn:En; try (exact (Hsame E)).
    destruct (k_belongs c && (negb mb || (v <? 0))); [|destruct ok]; apply Ok_inj in E; injection E as <- <-; (split; [reflexivity|exact Hpa]).
Qed.

(** the form of what one step shows *)
Lemma step_shape c s op s' t : cstep c s op = Ok (s', t) -> (length t <= 1)%nat.
Proof.
  intros E. destruct op as [r|ans ls| | | | | |i|i mb ok]; cbn [cstep] in E;
    repeat first [discriminate | lazymatch type of E with
      | Ok (_, ?l) = Ok _ => apply Ok_inj in E; injection E as <- <-; cbn; lia
      | onError _ _ _ _ _ = _ => unfold onError in E; cbv zeta in E
      | context [match ?x with _ => _ end] => destruct x
      end].
Qed.

Lemma commit_positions c : forall ops start s s' T t, crun c s ops = Ok (s', t) ->
  vinv (been start T) s -> cur s = position start T -> (c_pend s = None -> c_adv s = None) ->
  (forall m, In m (msgs t) -> i64 (m_offset m + 1)) ->
  forall t1 v ok t2, t = t1 ++ TCommit v ok :: t2 -> been start (T ++ t1) v.
Proof.
  induction ops as [|op ops IH]; intros start s s' T t E Hv Hc Hpa HM t1 v ok t2 Ht.
  - cbn in E. apply Ok_inj in E. injection E as _ <-. destruct t1; discriminate.
  - destruct (crun_cons _ _ _ _ _ _ E) as [s1 [u1 [u2 [E1 [E2 Eu]]]]]. rewrite Ht in Eu. subst t.
    assert (HMm : forall tp p m, In (TMsg tp p m) u1 -> i64 (m_offset m + 1)).
    { intros tp p m Hin. apply HM. rewrite Eu. unfold msgs. apply in_flat_map. exists (TMsg tp p m). split; [apply in_or_app; left; exact Hin|left; reflexivity]. }
    destruct (step_position c s op s1 u1 E1 HMm Hpa) as [Hp1 Hpa1]. pose proof (step_shape _ _ _ _ _ E1) as Hlen.
    assert (Hp1' : cur s1 = position start (T ++ u1)) by (rewrite position_app, <- Hc; exact Hp1).
    assert (Hv' : vinv (been start (T ++ u1)) s).
    { destruct Hv as [H1 [H2 H3]]. split; [apply been_app, H1|]. split; [destruct (c_adv s); [apply been_app, H2|exact I]|].
      eapply Forall_impl; [|exact H3]. intros x [G1 G2]. split; [apply been_app, G1|]. destruct (snd x); [apply been_app, G2|exact I]. }
    assert (HMv : forall tp p m, In (TMsg tp p m) u1 -> been start (T ++ u1) (sint 64 (m_offset m + 1))).
    { intros tp p m Hin. rewrite sint_id by (try lia; apply (HMm tp p m Hin)).
      destruct u1 as [|e [|e2 u1]]; [contradiction| |cbn in Hlen; lia]. destruct Hin as [->|[]].
      exists (T ++ [TMsg tp p m]). split; [apply prefix_refl|]. rewrite position_app. reflexivity. }
    assert (HRv : forall w o, In (TReset w o) u1 -> been start (T ++ u1) o).
    { intros w o Hin. destruct u1 as [|e [|e2 u1]]; [contradiction| |cbn in Hlen; lia]. destruct Hin as [->|[]].
      exists (T ++ [TReset w o]). split; [apply prefix_refl|]. rewrite position_app. reflexivity. }
    destruct (step_values c (been start (T ++ u1)) s op s1 u1 Hv' E1 HMv HRv) as [Hv1 [Hcm _]].
    destruct u1 as [|e [|e2 u1]]; [| |cbn in Hlen; lia].
    + cbn [app] in Eu. rewrite app_nil_r in *. refine (IH start s1 s' T u2 E2 Hv1 Hp1' Hpa1 _ t1 v ok t2 (eq_sym Eu)).
      intros m Hin. apply HM. rewrite Eu. exact Hin.
    + cbn [app] in Eu. destruct t1 as [|e' t1].
      * cbn in Eu. injection Eu as <- Eu. cbn in Hcm. inversion Hcm as [|? ? Hx _]; subst. rewrite app_nil_r.
        destruct Hx as [a [[b Hab] Hva]]. destruct (rev b) as [|z zs] eqn:Erev.
        -- assert (b = []) as -> by (rewrite <- (rev_involutive b), Erev; reflexivity). rewrite app_nil_r in Hab. subst a.
           exists T. split; [apply prefix_refl|]. rewrite Hva, position_app. reflexivity.
        -- assert (Hb : b = rev zs ++ [z]) by (rewrite <- (rev_involutive b), Erev; reflexivity). rewrite Hb, app_assoc in Hab.
           apply app_inj_tail in Hab. destruct Hab as [Hab _]. exists a. split; [exists (rev zs); exact Hab|exact Hva].
      * cbn in Eu. injection Eu as <- Eu. replace (T ++ e' :: t1) with ((T ++ [e']) ++ t1) by (rewrite <- app_assoc; reflexivity).
        refine (IH start s1 s' (T ++ [e']) u2 E2 Hv1 Hp1' Hpa1 _ t1 v ok t2 (eq_sym Eu)).
        intros m Hin. apply HM. cbn. apply in_or_app. right. rewrite Eu. exact Hin.
Qed.

Lemma consumer_commit_positions c start from mx ops s' t :
  crun c (cinit start from mx) ops = Ok (s', t) -> (forall m, In m (msgs t) -> i64 (m_offset m + 1)) ->
  forall t1 v ok t2, t = t1 ++ TCommit v ok :: t2 -> exists a, prefix a t1 /\ v = position start a.
Proof.
  intros E HM t1 v ok t2 Ht. apply (commit_positions c ops start (cinit start from mx) s' [] t E) with (ok := ok) (t2 := t2).
  - split; [exists []; split; [apply prefix_refl|reflexivity]|]. split; [exact I|constructor].
  - reflexivity.
  - reflexivity.
  - exact HM.
  - exact Ht.
Qed.

Lemma in_order_msgs topic pid D : forall t pos m, in_order topic pid D pos t -> In m (msgs t) -> In m D.
Proof.
  induction t as [|e t IH]; intros pos m Ho Hin; [contradiction|]. unfold msgs in Hin. cbn [flat_map] in Hin. fold (msgs t) in Hin.
  destruct e as [o mx|tp p m'|w o|o ok]; cbn in *.
  - apply (IH pos); [apply Ho|exact Hin].
  - destruct Ho as [_ [_ [Hn Ho]]]. destruct Hin as [->|Hin]; [apply (next_msg_in _ _ _ Hn)|apply (IH _ _ Ho Hin)].
  - apply (IH o); assumption.
  - apply (IH pos); assumption.
Qed.
Lemma log_i64 unzip L m : log_ok unzip L -> In m (log_msgs L) -> i64 (m_offset m + 1).
Proof.
  intros [Hw [_ [_ HB]]] Hin. rewrite Forall_forall in HB. specialize (HB m Hin).
  unfold log_msgs in Hin. apply in_flat_map in Hin. destruct Hin as [w [Hw1 Hw2]].
  apply in_map_iff in Hw2. destruct Hw2 as [r [<- Hr]]. rewrite Forall_forall in Hw. destruct (Hw w Hw1) as [Hc _].
  destruct Hc as [_ [_ [_ [Ho _]]]]. rewrite Forall_forall in Ho. specialize (Ho r Hr). unfold i64 in *. cbn in *. lia.
Qed.

(** a commit covers only messages handed out before *)
Lemma consumer_committed_delivered unzip zip c L start from mx ops s' t :
  log_ok unzip L -> honest_run unzip zip c L (cinit start from mx) ops -> crun c (cinit start from mx) ops = Ok (s', t) ->
  forall t1 v ok t2, t = t1 ++ TCommit v ok :: t2 ->
  exists a, prefix a t1 /\ v = position start a /\
    forall m, In m (log_msgs L) -> fst (segment start a) <= m_offset m < v -> In m (snd (segment start a)).
Proof.
  intros HL Hh E t1 v ok t2 Ht. pose proof (consumer_in_order _ _ _ _ _ _ _ _ _ _ HL Hh E) as Ho.
  destruct (consumer_commit_positions c start from mx ops s' t E) with (t1 := t1) (v := v) (ok := ok) (t2 := t2) as [a [Hp Hv]]; [|exact Ht|].
  { intros m Hin. apply (log_i64 unzip L m HL). apply (in_order_msgs _ _ _ _ _ _ Ho Hin). }
  exists a. split; [exact Hp|]. split; [exact Hv|]. subst v. destruct Hp as [b Hb]. rewrite Ht, Hb, <- app_assoc in Ho.
  apply in_order_app in Ho. destruct Ho as [Ho _]. pose proof HL as [_ [_ [HS _]]].
  apply (segment_complete (k_topic c) (k_part c) _ HS a start (start, []) Ho). cbn. intros m _ Hr. lia.
Qed.

(** commits never negative if positions never are *)
Lemma position_nonneg : forall t start, 0 <= start -> (forall m, In m (msgs t) -> 0 <= m_offset m) ->
  (forall w o, In (w, o) (resets t) -> 0 <= o) -> 0 <= position start t.
Proof.
  induction t as [|e t IH]; intros start Hs HM HR; [exact Hs|]. change (position start (e :: t)) with (position (move start e) t).
  apply IH.
  - destruct e as [o mx|tp p m|w o|o ok]; cbn [move]; try exact Hs.
    + specialize (HM m (or_introl eq_refl)). lia.
    + apply (HR w). left; reflexivity.
  - intros m Hin. apply HM. unfold msgs. cbn [flat_map]. apply in_or_app. right. exact Hin.
  - intros w o Hin. apply (HR w). unfold resets. cbn [flat_map]. apply in_or_app. right. exact Hin.
Qed.
Lemma commits_in t v : In v (commits t) -> exists t1 ok t2, t = t1 ++ TCommit v ok :: t2.
Proof.
  unfold commits. rewrite in_flat_map. intros [e [Hin He]]. destruct e; cbn in He; try contradiction. destruct He as [->|[]].
  destruct (in_split _ _ Hin) as [t1 [t2 ->]]. exists t1, ok, t2. reflexivity.
Qed.
Lemma consumer_commits_nonneg c start from mx ops s' t :
  crun c (cinit start from mx) ops = Ok (s', t) -> 0 <= start ->
  (forall m, In m (msgs t) -> 0 <= m_offset m < 2 ^ 63 - 1) -> (forall w o, In (w, o) (resets t) -> 0 <= o) ->
  Forall (fun v => 0 <= v) (commits t).
Proof.
  intros E Hs HM HR. apply Forall_forall. intros v Hin. destruct (commits_in _ _ Hin) as [t1 [ok [t2 Ht]]].
  destruct (consumer_commit_positions c start from mx ops s' t E) with (t1 := t1) (v := v) (ok := ok) (t2 := t2) as [a [[b Hb] ->]]; [|exact Ht|].
  { intros m Hm. specialize (HM m Hm). unfold i64. lia. }
  assert (Hsub : forall e, In e a -> In e t) by (intros e He; rewrite Ht, Hb; apply in_or_app; left; apply in_or_app; left; exact He).
  apply position_nonneg; [exact Hs| |].
  - intros m Hm. apply HM. unfold msgs in *. rewrite in_flat_map in *. destruct Hm as [e [He Hm]]. exists e. split; [apply Hsub, He|exact Hm].
  - intros w o Hm. apply (HR w). unfold resets in *. rewrite in_flat_map in *. destruct Hm as [e [He Hm]]. exists e. split; [apply Hsub, He|exact Hm].
Qed.

(** *** Commits of one caller do not go back *)
Definition jinv (last : Z) (s : cst) : Prop :=
  last <= c_off s /\ c_off s <= cur s /\ (length (c_fly s) <= 1)%nat /\
  Forall (entry_ok (fun v => last <= v <= c_off s)) (c_fly s).

Lemma jinv_step c topic pid D last s op s' t : jinv last s -> cstep c s op = Ok (s', t) ->
  step_ok topic pid D s s' t -> resets t = [] -> match op with OCommit => c_fly s = [] | _ => True end ->
  (commits t = [] /\ jinv last s') \/ (exists v, commits t = [v] /\ last <= v /\ jinv v s').
Proof.
  intros [H1 [H2 [H3 H4]]] E Hs Hr Hse.
  assert (Hsame : Ok (s, @nil tev) = Ok (s', t) -> (commits t = [] /\ jinv last s') \/ (exists v, commits t = [v] /\ last <= v /\ jinv v s')).
  { intros E'. apply Ok_inj in E'; injection E' as <- <-. left. repeat split; assumption. }
  destruct op as [r|ans ls| | | | | |i|i mb ok]; cbn [cstep] in E.
  - destruct (c_live s); [|exact (Hsame E)]. destruct (c_pend s) as [evs|]; [exact (Hsame E)|].
    assert (Hkeep : c_off s' = c_off s -> c_fly s' = c_fly s -> cur s <= cur s' -> commits t = [] -> (commits t = [] /\ jinv last s') \/ (exists v, commits t = [v] /\ last <= v /\ jinv v s')).
    { intros G1 G2 G3 G4. left. split; [exact G4|]. unfold jinv. rewrite G1, G2. repeat split; try assumption; lia. }
    destruct (c_stop s). { apply Ok_inj in E; injection E as <- <-. apply Hkeep; first [reflexivity|cbn in Hs; lia]. }
    destruct r as [evs|e| |]; try discriminate.
    + apply Ok_inj in E; injection E as <- <-. destruct Hs as [_ Hs]. apply Hkeep; first [reflexivity|lia].
    + destruct e; apply Ok_inj in E; injection E as <- <-; destruct Hs as [_ Hs]; apply Hkeep; first [reflexivity|lia].
  - destruct (c_pend s) as [[|[tp p m|e] rest]|] eqn:Ep; destruct (c_adv s) as [a|] eqn:Ea; try (exact (Hsame E)).
    + apply Ok_inj in E; injection E as <- <-. cbn in Hs. left. split; [reflexivity|]. unfold jinv. cbn. repeat split; try assumption. lia.
    + apply Ok_inj in E; injection E as <- <-. destruct Hs as [_ [_ [Hn Hs]]]. apply next_msg_in in Hn. left. split; [reflexivity|].
      unfold jinv. rewrite Hs. cbn. repeat split; try assumption. lia.
    + unfold onError in E.
      set (s1 := match e with EMaxBytesTooSmall => _ | _ => _ end) in E. cbv zeta in E.
      assert (Hs1 : c_off (set_pend s1 None None) = c_off s /\ c_fly (set_pend s1 None None) = c_fly s) by (destruct e; split; reflexivity).
      assert (Hdflt : Ok (set_pend s1 None None, @nil tev) = Ok (s', t) -> (commits t = [] /\ jinv last s') \/ (exists v, commits t = [v] /\ last <= v /\ jinv v s')).
      { intros E'. apply Ok_inj in E'; injection E' as <- <-. left. split; [reflexivity|]. destruct Hs1 as [G1 G2]. unfold jinv. unfold step_ok in Hs. rewrite Hs, G1, G2. repeat split; assumption. }
      destruct (err_root e) as [code| | | | | | | | | | | | | | | | |]; try (exact (Hdflt E)).
      destruct (Z.eq_dec code 1) as [->|Hn1].
      { destruct (getOffset (k_topic c) ans) as [o|e'| |]; try discriminate; apply Ok_inj in E; injection E as <- <-; discriminate. }
      destruct (Z.eq_dec code 6) as [->|Hn6].
      { destruct (leaderLoop ls); try discriminate; try (exact (Hdflt E)).
        apply Ok_inj in E; injection E as <- <-. left. split; [reflexivity|]. destruct Hs1 as [G1 G2].
        unfold step_ok in Hs.
        match type of Hs with cur ?x = _ => assert (G3 : c_off x = c_off s) by (destruct e; reflexivity); assert (G4 : c_fly x = c_fly s) by (destruct e; reflexivity) end.
        unfold jinv. rewrite Hs, G3, G4. repeat split; assumption. }
      apply Hdflt. destruct code as [|q|q]; try exact E; destruct q as [q|q|]; try exact E; try congruence; destruct q as [q|q|]; try exact E; destruct q; first [exact E|congruence].
  - destruct (c_adv s) as [a|] eqn:Ea; [|exact (Hsame E)]. apply Ok_inj in E; injection E as <- <-. left. split; [reflexivity|].
    assert (Hca : cur s = a) by (unfold cur; rewrite Ea; reflexivity). rewrite Hca in H2.
    unfold jinv. cbn. repeat split; try assumption; try lia.
    eapply Forall_impl; [|exact H4]. intros x [G1 G2]. split; [lia|]. destruct (snd x); lia.
  - apply Ok_inj in E; injection E as <- <-. left. repeat split; assumption.
  - apply Ok_inj in E; injection E as <- <-. left. repeat split; assumption.
  - destruct (c_pend s) as [evs|]; [|exact (Hsame E)]. destruct (c_adv s) as [a|] eqn:Ea; [exact (Hsame E)|].
    destruct (c_cancel s); [|exact (Hsame E)]. apply Ok_inj in E; injection E as <- <-. left. split; [reflexivity|]. unfold jinv. cbn. repeat split; try assumption. lia.
  - destruct (c_off s =? c_com s); [exact (Hsame E)|].
    destruct (k_belongs c); [|destruct (k_group c); [|exact (Hsame E)]]; apply Ok_inj in E; injection E as <- <-; left; (split; [reflexivity|]);
      unfold jinv; cbn; rewrite Hse; cbn; repeat split; try assumption; repeat constructor; cbn; lia.
  - destruct (nth_error (c_fly s) i) as [[cap [v|]]|] eqn:En; try (exact (Hsame E)). apply Ok_inj in E; injection E as <- <-. left. split; [reflexivity|].
    unfold jinv. cbn. pose proof (nth_error_forall _ _ _ _ H4 En) as [G1 _]. cbn in G1. repeat split; try assumption.
    + destruct (c_fly s) as [|x [|y l]]; [destruct i; discriminate| |cbn in H3; lia]. destruct i as [|i]; [cbn; lia|destruct i; discriminate].
    + apply set_nth_fly_forall; [split; cbn; lia|exact H4].
  - destruct (nth_error (c_fly s) i) as [[cap [v|]]|] eqn:En; try (exact (Hsame E)).
    pose proof (nth_error_forall _ _ _ _ H4 En) as [G1 G2]. cbn in G1, G2.
    assert (Hd : drop_nth i (c_fly s) = []).
    { destruct (c_fly s) as [|x [|y l]]; [destruct i; discriminate| |cbn in H3; lia]. destruct i as [|i]; [reflexivity|destruct i; discriminate]. }
    rewrite Hd in E. cbv zeta in E. destruct (k_belongs c && (negb mb || (v <? 0))).
    + apply Ok_inj in E; injection E as <- <-. left. split; [reflexivity|]. unfold jinv. cbn. repeat split; try assumption; [lia|constructor].
    + destruct ok; apply Ok_inj in E; injection E as <- <-; right; exists v; (split; [reflexivity|]); (split; [lia|]); unfold jinv; cbn;
        repeat split; try assumption; try lia; constructor.
Qed.

Lemma resets_app a b : resets (a ++ b) = resets a ++ resets b. Proof. apply flat_map_app. Qed.

Lemma serial_commits unzip zip c L : log_ok unzip L -> forall ops s s' t last,
  cinv (k_topic c) (k_part c) (log_msgs L) s -> jinv last s -> serial c s ops ->
  honest_run unzip zip c L s ops -> crun c s ops = Ok (s', t) -> resets t = [] ->
  Forall (Z.le last) (commits t) /\ StronglySorted Z.le (commits t).
Proof.
  intros HL. induction ops as [|op ops IH]; intros s s' t last Hi Hj Hse Hh E Hr.
  - cbn in E. apply Ok_inj in E. injection E as <- <-. split; constructor.
  - destruct (crun_cons _ _ _ _ _ _ E) as [s1 [t1 [t2 [E1 [E2 ->]]]]]. destruct Hh as [Hh1 Hh2]. rewrite E1 in Hh2.
    destruct Hse as [Hse1 Hse2]. rewrite E1 in Hse2.
    destruct (step_in_order unzip zip c L s op s1 t1 HL Hi Hh1 E1) as [Hi1 Hs1].
    rewrite resets_app in Hr. apply app_eq_nil in Hr. destruct Hr as [Hr1 Hr2]. rewrite commits_app.
    destruct (jinv_step c _ _ _ last s op s1 t1 Hj E1 Hs1 Hr1 Hse1) as [[Hc Hj1]|[v [Hc [Hv Hj1]]]]; rewrite Hc.
    + apply (IH s1 s' t2 last Hi1 Hj1 Hse2 Hh2 E2 Hr2).
    + destruct (IH s1 s' t2 v Hi1 Hj1 Hse2 Hh2 E2 Hr2) as [G1 G2]. cbn. split.
      * constructor; [exact Hv|]. eapply Forall_impl; [|exact G1]. intros; lia.
      * constructor; assumption.
Qed.
Lemma consumer_serial_commits unzip zip c L start from mx ops s' t :
  log_ok unzip L -> honest_run unzip zip c L (cinit start from mx) ops -> serial c (cinit start from mx) ops ->
  crun c (cinit start from mx) ops = Ok (s', t) -> resets t = [] -> StronglySorted Z.le (commits t) /\ Forall (Z.le start) (commits t).
Proof.
  intros HL Hh Hse E Hr.
  destruct (serial_commits unzip zip c L HL ops (cinit start from mx) s' t start) as [G1 G2]; try assumption; [reflexivity| |split; assumption].
  unfold jinv; cbn. repeat split; try lia. constructor.
Qed.

(** *** Resets *)
Lemma step_resets c s op s' t : cstep c s op = Ok (s', t) -> c_from s' = c_from s /\ Forall (fun x => fst x = ask (c_from s)) (resets t).
Proof.
  intros E. destruct op as [r|ans ls| | | | | |i|i mb ok]; cbn [cstep] in E;
    repeat first [discriminate | lazymatch type of E with
      | Ok (_, ?l) = Ok _ => apply Ok_inj in E; injection E as <- <-; split; [repeat match goal with |- context [match ?x with EMaxBytesTooSmall => _ | _ => _ end] => destruct x end; reflexivity|repeat match goal with |- context [match ?x with EMaxBytesTooSmall => _ | _ => _ end] => destruct x end; repeat constructor]
      | onError _ _ _ _ _ = _ => unfold onError in E; cbv zeta in E
      | context [match ?x with _ => _ end] => destruct x
      end].
  destruct ok; apply Ok_inj in E; injection E as <- <-; split; try reflexivity; constructor.
Qed.
Lemma run_resets c : forall ops s s' t, crun c s ops = Ok (s', t) -> Forall (fun x => fst x = ask (c_from s)) (resets t).
Proof.
  induction ops as [|op ops IH]; intros s s' t E.
  - cbn in E. apply Ok_inj in E. injection E as <- <-. constructor.
  - destruct (crun_cons _ _ _ _ _ _ E) as [s1 [t1 [t2 [E1 [E2 ->]]]]]. rewrite resets_app.
    destruct (step_resets c s op s1 t1 E1) as [G1 G2]. apply Forall_app. split; [exact G2|]. rewrite <- G1. apply (IH _ _ _ E2).
Qed.

(** a good answer to an offsets request for one partition: [old] holds at most the offset *)
Definition offsets_answer (topic : bytes) (pid o : Z) (r : response) : Prop :=
  exists corr thr ts old, r = ROffsets corr thr [(topic, [(pid, (0, (old, (ts, o))))])] /\ (old = [] \/ old = [o]).

Lemma getOffset_answer topic pid o r : offsets_answer topic pid o r -> getOffset topic (Ok r) = Ok o.
Proof.
  intros [corr [thr [ts [old [-> Ho]]]]]. unfold getOffset. cbn. rewrite beqb_refl. destruct Ho as [->| ->]; reflexivity.
Qed.

Lemma reset_position c s e rest o r ls : c_pend s = Some (EvErr e :: rest) -> c_adv s = None -> err_root e = EKafka 1 ->
  offsets_answer (k_topic c) (k_part c) o r ->
  exists s', cstep c s (ONext (Ok r) ls) = Ok (s', [TReset (ask (c_from s)) o]) /\ c_off s' = o /\ c_pend s' = None.
Proof.
  intros Ep Ea Er Ha. cbn [cstep]. rewrite Ep, Ea. unfold onError. cbv zeta. rewrite Er, (getOffset_answer _ _ _ _ Ha).
  destruct e; eexists; (split; [reflexivity|split; reflexivity]).
Qed.

(** *** Where consumption starts *)
Definition reaches_leader (ts : list (option leaderTry)) : Prop := leaderLoop ts = Done tt.

Lemma start_explicit c from0 start leaders cs os : reaches_leader leaders -> start <> -1 -> start <> -2 ->
  startOffset c from0 start leaders cs os = Done (start, from0).
Proof.
  intros Hl H1 H2. unfold startOffset. rewrite Hl. cbv zeta beta.
  destruct (Z.eqb_spec start (-1)); [lia|]. destruct (Z.eqb_spec start (-2)); [lia|]. cbn [orb]. rewrite andb_false_r.
  destruct (Z.eqb_spec start (-1)); [lia|]. destruct (Z.eqb_spec start (-2)); [lia|]. reflexivity.
Qed.

(** an answer to an offset fetch that names one partition *)
Definition fetched (topic : bytes) (pid o : Z) (r : response) : Prop :=
  exists corr md ec, r = ROffsetFetch corr [(topic, [(pid, (o, (md, ec)))])].
Definition failed_r (x : res response) : Prop := exists e, x = Err e.
Definition failed_o (topic : bytes) (x : option (res response)) : Prop :=
  exists a e, x = Some a /\ getOffset topic a = Err e.

Lemma committedLoop_skip topic pid cur : forall fs rest, Forall failed_r fs -> committedLoop topic pid (fs ++ rest) cur = committedLoop topic pid rest cur.
Proof. induction fs as [|f fs IH]; intros rest H; [reflexivity|]. inversion H as [|? ? [e ->] H2]; subst. cbn. apply IH, H2. Qed.
Lemma committedLoop_found topic pid cur fs r rest o : Forall failed_r fs -> fetched topic pid o r ->
  committedLoop topic pid (fs ++ Ok r :: rest) cur = Done (if 0 <=? o then o else cur).
Proof.
  intros Hf [corr [md [ec ->]]]. rewrite committedLoop_skip by exact Hf. cbn. rewrite beqb_refl, Z.eqb_refl. destruct (0 <=? o); reflexivity.
Qed.
Lemma initLoop_found topic pid o r rest : forall fs cur, Forall (failed_o topic) fs -> offsets_answer topic pid o r ->
  initLoop topic (fs ++ Some (Ok r) :: rest) cur = Done o.
Proof.
  induction fs as [|f fs IH]; intros cur Hf Ha.
  - cbn [app initLoop]. rewrite (getOffset_answer _ _ _ _ Ha). reflexivity.
  - inversion Hf as [|? ? [a [e [-> He]]] H2]; subst. cbn [app initLoop]. rewrite He. apply IH; assumption.
Qed.

Lemma start_committed c from0 start leaders fs r rest os o : reaches_leader leaders ->
  k_group c = true -> (k_storage c = 0 \/ k_storage c = 1) -> start = -1 \/ start = -2 ->
  Forall failed_r fs -> fetched (k_topic c) (k_part c) o r -> 0 <= o ->
  startOffset c from0 start leaders (fs ++ Ok r :: rest) os = Done (o, from0).
Proof.
  intros Hl Hg Hs Hst Hf Hr Ho. unfold startOffset. rewrite Hl. cbv zeta beta. rewrite Hg.
  assert (Esp : (start =? -1) || (start =? -2) = true) by (destruct Hst as [->| ->]; reflexivity). rewrite Esp. cbn [andb].
  unfold getCommitedOffet. assert (Ess : (k_storage c =? 0) || (k_storage c =? 1) = true) by (destruct Hs as [->| ->]; reflexivity). rewrite Ess.
  rewrite (committedLoop_found _ _ _ _ _ _ o Hf Hr). destruct (Z.leb_spec 0 o); [|lia].
  destruct (Z.eqb_spec o (-1)); [lia|]. destruct (Z.eqb_spec o (-2)); [lia|]. reflexivity.
Qed.

Definition no_commit (c : ccfg) (cs : list (res response)) : Prop :=
  k_group c = false \/
  exists fs r rest o, cs = fs ++ Ok r :: rest /\ Forall failed_r fs /\ fetched (k_topic c) (k_part c) o r /\ o < 0 /\
    (k_storage c = 0 \/ k_storage c = 1).

Lemma start_from_log c from0 start leaders cs fo r rest o : reaches_leader leaders ->
  start = -1 \/ start = -2 -> no_commit c cs -> Forall (failed_o (k_topic c)) fo -> offsets_answer (k_topic c) (k_part c) o r ->
  startOffset c from0 start leaders cs (fo ++ Some (Ok r) :: rest) = Done (o, start =? -2).
Proof.
  intros Hl Hst Hn Hf Ha. unfold startOffset. rewrite Hl. cbv zeta beta.
  assert (Esp : (start =? -1) || (start =? -2) = true) by (destruct Hst as [->| ->]; reflexivity).
  assert (Eg : (if k_group c && ((start =? -1) || (start =? -2)) then getCommitedOffet (k_storage c) (k_topic c) (k_part c) cs start else Done start) = Done start).
  { destruct Hn as [->|[fs [r' [rest' [o' [-> [Hf' [Hr' [Ho' Hs']]]]]]]]]; [reflexivity|].
    destruct (k_group c); [|reflexivity]. rewrite Esp. cbn [andb]. unfold getCommitedOffet.
    assert (Ess : (k_storage c =? 0) || (k_storage c =? 1) = true) by (destruct Hs' as [->| ->]; reflexivity). rewrite Ess.
    rewrite (committedLoop_found _ _ _ _ _ _ o' Hf' Hr'). destruct (Z.leb_spec 0 o'); [lia|reflexivity]. }
  rewrite Eg, Esp. rewrite (initLoop_found _ _ _ _ _ _ _ Hf Ha). reflexivity.
Qed.

(** resets of a consumer whose start came from the log go where the start came from *)
Lemma reset_like_start c from0 start leaders cs fo r rest o mx ops s' t : reaches_leader leaders ->
  start = -1 \/ start = -2 -> no_commit c cs -> Forall (failed_o (k_topic c)) fo -> offsets_answer (k_topic c) (k_part c) o r ->
  forall pos from, startOffset c from0 start leaders cs (fo ++ Some (Ok r) :: rest) = Done (pos, from) ->
  crun c (cinit pos from mx) ops = Ok (s', t) -> Forall (fun x => fst x = start) (resets t).
Proof.
  intros Hl Hst Hn Hf Ha pos from E Er. rewrite (start_from_log c from0 start leaders cs fo r rest o Hl Hst Hn Hf Ha) in E.
  injection E as <- <-. eapply Forall_impl; [|apply (run_resets _ _ _ _ _ Er)]. cbn. intros x ->. destruct Hst as [->| ->]; reflexivity.
Qed.

(** *** Connection state after a response *)
Lemma emit_no_error unzip zip v st len conn evs s : streamEmit unzip zip v st len conn = Ok (evs, s) ->
  (forall e, ~ In (EvErr e) evs) -> streamDecode unzip zip v st len conn = Ok (evs, s).
Proof.
  unfold streamEmit, streamDecode. intros E He. destruct (decodeHeader v _) as [n s1|e s1| |] eqn:Eh; try discriminate.
  - destruct (dec_n (Z.to_nat n) (decodeResponses unzip zip v) s1) as [x s2|e s2| |] eqn:Ed; try discriminate.
    + exact E.
    + apply Ok_inj in E. injection E as <- <-. exfalso. apply (He e). apply in_or_app. right. left. reflexivity.
  - exact E.
Qed.
Lemma emit_drained unzip zip v st body rest chunks fin evs s :
  concat chunks = body ++ rest -> streamEmit unzip zip v st (zlen body) (mkStream chunks fin) = Ok (evs, s) ->
  (forall e, ~ In (EvErr e) evs) -> concat (st_chunks (d_in s)) = rest.
Proof.
  intros Hc E He. apply (stream_consumes_response unzip zip v st body rest chunks fin evs s Hc). apply emit_no_error; assumption.
Qed.

Lemma honest_cons unzip zip c L s op ops s1 t1 : cstep c s op = Ok (s1, t1) ->
  match op with OFetch r => honest unzip zip (k_topic c) (k_part c) L (c_off s) r | _ => True end ->
  honest_run unzip zip c L s1 ops -> honest_run unzip zip c L s (op :: ops).
Proof. intros E H1 H2. split; [exact H1|]. rewrite E. exact H2. Qed.
Lemma serial_cons c s op ops s1 t1 : cstep c s op = Ok (s1, t1) ->
  match op with OCommit => c_fly s = [] | _ => True end -> serial c s1 ops -> serial c s (op :: ops).
Proof. intros E H1 H2. split; [exact H1|]. rewrite E. exact H2. Qed.
