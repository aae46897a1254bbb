(** Lemmas about the multi-partition producer. *)
From Verif Require Import Base BaseFacts Prims PrimsFacts Wire Records Requests Responses Producer ProducerSpec ProducerFacts ProducerWire.

Lemma set_nth_length {A} i (x : A) l : length (set_nth i x l) = length l.
Proof. revert i. induction l as [|y l IH]; intros [|i]; cbn; auto. Qed.
Lemma set_nth_same {A} i (x y : A) l : nth_error l i = Some y -> nth_error (set_nth i x l) i = Some x.
Proof. revert i. induction l as [|z l IH]; intros [|i]; cbn; try discriminate; auto. Qed.
Lemma set_nth_other {A} i j (x : A) l : i <> j -> nth_error (set_nth i x l) j = nth_error l j.
Proof. revert i j. induction l as [|z l IH]; intros [|i] [|j] H; cbn; auto; try congruence. Qed.

Section Zip.
Variable zip : Z -> bytes -> res bytes.
Variable g : scfg.

Lemma on_sp_inv f m i m' e a : on_sp g f m i = Ok (m', e, a) ->
  exists x s', nth_error (m_sps m) i = Some x /\ f (cfg_of g (owned m i) (x_part x)) (m_heap m) (x_sp x) = Ok (s', e, a) /\
    m' = mkMP (m_heap m) (m_meta m) (m_cur m) (m_pids m) (m_lead m) (set_nth i (mkX (x_part x) (x_leader x) s') (m_sps m)).
Proof.
  unfold on_sp. destruct (nth_error (m_sps m) i) as [x|] eqn:E; [|discriminate]. intros H. rb H y F. injection H as <- <- <-.
  destruct y as [[s' e'] a']. exists x, s'. repeat split; [exact F|]. cbn [fst]. unfold set_sp. rewrite E. reflexivity.
Qed.
Lemma first_of_inv {A B C} (x : res (A * B * C)) y : first_of x = Ok y -> exists e a, x = Ok (y, e, a).
Proof. unfold first_of. intros H. rb H z E. injection H as <-. destruct z as [[u e] a]. exists e, a. exact E. Qed.

(** simple producers keep their partition and leader; none disappears *)
Definition keeps (m m' : mp) : Prop := forall i x, nth_error (m_sps m) i = Some x ->
  exists x', nth_error (m_sps m') i = Some x' /\ x_part x' = x_part x /\ x_leader x' = x_leader x.
Lemma keeps_refl m : keeps m m.
Proof. intros i x H. exists x. repeat split. exact H. Qed.
Lemma keeps_trans a b c : keeps a b -> keeps b c -> keeps a c.
Proof.
  intros H1 H2 i x Hx. destruct (H1 i x Hx) as (y & Hy & P & L). destruct (H2 i y Hy) as (z & Hz & P2 & L2).
  exists z. repeat split; [exact Hz|congruence|congruence].
Qed.
Lemma keeps_set m i x s' h meta cur pids lead : nth_error (m_sps m) i = Some x ->
  keeps m (mkMP h meta cur pids lead (set_nth i (mkX (x_part x) (x_leader x) s') (m_sps m))).
Proof.
  intros Hx j y Hy. cbn [m_sps]. destruct (Nat.eq_dec i j) as [->|N].
  - rewrite Hx in Hy. injection Hy as <-. eexists; split; [eapply set_nth_same; exact Hx|]. split; reflexivity.
  - rewrite set_nth_other by exact N. exists y. repeat split. exact Hy.
Qed.
Lemma keeps_snoc m x h meta cur pids lead : keeps m (mkMP h meta cur pids lead (m_sps m ++ [x])).
Proof.
  intros i y Hy. cbn [m_sps]. exists y. repeat split. rewrite nth_error_app1; [exact Hy|]. apply nth_error_Some. congruence.
Qed.

(** the partition getSimpleProducer computes from a key *)
Definition part_of (m : mp) (r : nat) : Z := sint 32 (MurmurHash2 (buf (m_heap m) r) 0 mod uint 32 (zlen (m_meta m))).
Lemma get_inv m key conn m' i : getSimpleProducer m key conn = Ok (m', i) ->
  (key = None /\ m' = m /\ i = m_cur m) \/
  (exists r, key = Some r /\ m_meta m <> [] /\ m_cur m' = m_cur m /\ m_heap m' = m_heap m /\ m_meta m' = m_meta m /\
    ((m' = m /\ assoc (m_pids m) (part_of m r) = Some i) \/
     (assoc (m_pids m) (part_of m r) = None /\ i = length (m_sps m) /\ m_pids m' = (part_of m r, i) :: m_pids m /\
      exists leader, getLeaderID m (part_of m r) = Ok leader /\ m_sps m' = m_sps m ++ [mkX (part_of m r) leader sp0]))).
Proof.
  unfold getSimpleProducer. destruct key as [r|]; [|intros H; injection H as <- <-; left; repeat split].
  destruct (Z.eqb_spec (zlen (m_meta m)) 0) as [|Hz]; [discriminate|].
  assert (Hm : m_meta m <> []) by (intros X; rewrite X in Hz; apply Hz; reflexivity).
  fold (part_of m r). cbv zeta. destruct (assoc (m_pids m) (part_of m r)) as [j|] eqn:Ea.
  - intros H; injection H as <- <-. right. exists r. repeat split; [exact Hm|]. left. split; [reflexivity|exact Ea].
  - destruct (getLeaderID m (part_of m r)) as [leader|e| |] eqn:El; try discriminate.
    destruct (if existsb (Z.eqb leader) (m_lead m) then None else conn); [discriminate|].
    intros H; injection H as <- <-. right. exists r. cbn [m_cur m_heap m_meta m_pids m_sps]. repeat split; [exact Hm|]. right.
    repeat split; [exact Ea|]. exists leader. split; [exact El|reflexivity].
Qed.
Lemma get_keeps m key conn m' i : getSimpleProducer m key conn = Ok (m', i) -> keeps m m'.
Proof.
  intros H. destruct (get_inv _ _ _ _ _ H) as [(_ & -> & _)|(r & _ & _ & _ & _ & _ & [(-> & _)|(_ & _ & _ & leader & _ & E)])];
    try apply keeps_refl.
  intros j y Hy. rewrite E. exists y. repeat split. rewrite nth_error_app1; [exact Hy|]. apply nth_error_Some. congruence.
Qed.
Lemma on_sp_keeps f m i m' e a : on_sp g f m i = Ok (m', e, a) -> keeps m m'.
Proof. intros H. destruct (on_sp_inv _ _ _ _ _ _ H) as (x & s' & Hx & _ & ->). apply keeps_set. exact Hx. Qed.
Lemma mstep_keeps m e m' : mstep zip g m e = Ok m' -> keeps m m'.
Proof.
  destruct e as [meta|pid leader n|i n|i n|i|key conn|i n k v|r i x]; cbn [mstep]; intros H.
  - destruct (existsb _ meta); [|discriminate]. injection H as <-. intros j y Hy. exists y. repeat split. exact Hy.
  - apply first_of_inv in H. destruct H as (e & a & H). apply on_sp_keeps in H. eapply keeps_trans; [apply keeps_snoc|exact H].
  - apply first_of_inv in H. destruct H as (e & a & H). apply on_sp_keeps in H. exact H.
  - apply first_of_inv in H. destruct H as (e & a & H). apply on_sp_keeps in H. exact H.
  - apply first_of_inv in H. destruct H as (e & a & H). apply on_sp_keeps in H. exact H.
  - destruct (getSimpleProducer m key conn) as [[m1 i]|e| |] eqn:E; try discriminate.
    + injection H as <-. cbn [fst]. eapply get_keeps; exact E.
    + injection H as <-. apply keeps_refl.
  - apply first_of_inv in H. destruct H as (e & a & H). apply on_sp_keeps in H. exact H.
  - injection H as <-. intros j y Hy. exists y. repeat split. exact Hy.
Qed.
Lemma mrun_keeps es : forall m m', mrun zip g m es = Ok m' -> keeps m m'.
Proof.
  induction es as [|e es IH]; intros m m' H; cbn [mrun] in H.
  - injection H as <-. apply keeps_refl.
  - rb H m1 E. eapply keeps_trans; [eapply mstep_keeps; exact E|apply IH; exact H].
Qed.

(** ** Partition of a key *)
Definition meta_count (n : Z) (e : mev) : Prop := match e with EMeta meta => zlen meta = n | _ => True end.
Definition no_mwrite (e : mev) : Prop := match e with EWrite _ _ _ => False | _ => True end.
(** every cached simple producer has the partition it is cached for; the metadata have n partitions *)
Definition pinv (n : Z) (m : mp) : Prop :=
  zlen (m_meta m) = n /\ forall pid i, assoc (m_pids m) pid = Some i -> exists x, nth_error (m_sps m) i = Some x /\ x_part x = pid.
Lemma pids_keep n m m' : pinv n m -> keeps m m' -> m_pids m' = m_pids m -> m_meta m' = m_meta m -> pinv n m'.
Proof.
  intros (H1 & H2) K Ep Em. split; [congruence|]. intros pid i Ha. rewrite Ep in Ha. destruct (H2 pid i Ha) as (x & Hx & Px).
  destruct (K i x Hx) as (y & Hy & Py & _). exists y. split; [exact Hy|congruence].
Qed.
Lemma on_sp_pinv n f m i m' e a : pinv n m -> on_sp g f m i = Ok (m', e, a) -> pinv n m'.
Proof.
  intros Hp H. pose proof (on_sp_keeps _ _ _ _ _ _ H) as K. destruct (on_sp_inv _ _ _ _ _ _ H) as (x & s' & _ & _ & ->).
  eapply pids_keep; [exact Hp|exact K|reflexivity|reflexivity].
Qed.
Lemma get_pinv n m key conn m' i : pinv n m -> getSimpleProducer m key conn = Ok (m', i) -> pinv n m'.
Proof.
  intros Hp H. pose proof (get_keeps _ _ _ _ _ H) as K.
  destruct (get_inv _ _ _ _ _ H) as [(_ & -> & _)|(r & _ & _ & _ & _ & Em & [(-> & _)|(_ & Ei & Ep & leader & _ & Es)])]; try exact Hp.
  destruct Hp as (H1 & H2). split; [congruence|]. intros pid j Ha. rewrite Ep in Ha. unfold assoc in Ha. cbn [find fst] in Ha.
  destruct (Z.eqb_spec (part_of m r) pid) as [<-|N].
  - cbn [option_map snd] in Ha. injection Ha as <-. rewrite Es, Ei. eexists; split; [rewrite nth_error_app2 by lia; rewrite Nat.sub_diag; reflexivity|reflexivity].
  - destruct (H2 pid j Ha) as (x & Hx & Px). destruct (K j x Hx) as (y & Hy & Py & _). exists y. split; [exact Hy|congruence].
Qed.
Lemma mstep_pinv n m e m' : pinv n m -> meta_count n e -> mstep zip g m e = Ok m' -> pinv n m'.
Proof.
  intros Hp Hc H. destruct e as [meta|pid leader k|i k|i k|i|key conn|i nn k v|r i x]; cbn [mstep] in H.
  - destruct (existsb _ meta); [|discriminate]. injection H as <-. destruct Hp as (H1 & H2). split; [exact Hc|exact H2].
  - apply first_of_inv in H. destruct H as (e & a & H). eapply on_sp_pinv; [|exact H].
    eapply pids_keep; [exact Hp|apply keeps_snoc|reflexivity|reflexivity].
  - apply first_of_inv in H. destruct H as (e & a & H). eapply on_sp_pinv; eassumption.
  - apply first_of_inv in H. destruct H as (e & a & H). eapply on_sp_pinv; eassumption.
  - apply first_of_inv in H. destruct H as (e & a & H). eapply on_sp_pinv; eassumption.
  - destruct (getSimpleProducer m key conn) as [[m1 i]|e| |] eqn:E; try discriminate.
    + injection H as <-. cbn [fst]. eapply get_pinv; eassumption.
    + injection H as <-. exact Hp.
  - apply first_of_inv in H. destruct H as (e & a & H). eapply on_sp_pinv; eassumption.
  - injection H as <-. destruct Hp as (H1 & H2). split; [exact H1|exact H2].
Qed.
Lemma mrun_pinv n es : forall m m', pinv n m -> Forall (meta_count n) es -> mrun zip g m es = Ok m' -> pinv n m'.
Proof.
  induction es as [|e es IH]; intros m m' Hp Hc H; cbn [mrun] in H.
  - injection H as <-. exact Hp.
  - rb H m1 E. inversion Hc; subst. eapply IH; [eapply mstep_pinv; eassumption|assumption|exact H].
Qed.
Lemma mstep_heap m e m' : no_mwrite e -> mstep zip g m e = Ok m' -> m_heap m' = m_heap m.
Proof.
  intros Hw H. destruct e as [meta|pid leader k|i k|i k|i|key conn|i nn k v|r i x]; cbn [mstep] in H; try contradiction.
  - destruct (existsb _ meta); [|discriminate]. injection H as <-. reflexivity.
  - apply first_of_inv in H. destruct H as (e & a & H). destruct (on_sp_inv _ _ _ _ _ _ H) as (x & s' & _ & _ & ->). reflexivity.
  - apply first_of_inv in H. destruct H as (e & a & H). destruct (on_sp_inv _ _ _ _ _ _ H) as (x & s' & _ & _ & ->). reflexivity.
  - apply first_of_inv in H. destruct H as (e & a & H). destruct (on_sp_inv _ _ _ _ _ _ H) as (x & s' & _ & _ & ->). reflexivity.
  - apply first_of_inv in H. destruct H as (e & a & H). destruct (on_sp_inv _ _ _ _ _ _ H) as (x & s' & _ & _ & ->). reflexivity.
  - destruct (getSimpleProducer m key conn) as [[m1 i]|e| |] eqn:E; try discriminate; injection H as <-; [|reflexivity].
    cbn [fst]. destruct (get_inv _ _ _ _ _ E) as [(_ & -> & _)|(r & _ & _ & _ & X & _)]; [reflexivity|exact X].
  - apply first_of_inv in H. destruct H as (e & a & H). destruct (on_sp_inv _ _ _ _ _ _ H) as (x & s' & _ & _ & ->). reflexivity.
Qed.
Lemma mrun_heap es : forall m m', Forall no_mwrite es -> mrun zip g m es = Ok m' -> m_heap m' = m_heap m.
Proof.
  induction es as [|e es IH]; intros m m' Hw H; cbn [mrun] in H.
  - injection H as <-. reflexivity.
  - rb H m1 E. inversion Hw; subst. rewrite (IH _ _ ltac:(eassumption) H). eapply mstep_heap; eassumption.
Qed.

Definition round_evs (r : around) : list mev := a_before r ++ a_between r.
Lemma part_spec n m r : zlen (m_meta m) = n -> 0 < n < 2 ^ 31 -> bytes_ok (buf (m_heap m) r) ->
  part_of m r = murmur_spec (buf (m_heap m) r) mod n /\ 0 <= part_of m r < n.
Proof.
  intros En Hn Hb. unfold part_of. rewrite En, (murmur_is_spec _ Hb). unfold uint. rewrite (Z.mod_small n) by lia.
  pose proof (Z.mod_pos_bound (murmur_spec (buf (m_heap m) r)) n ltac:(lia)) as B. rewrite sint_id; [split; [reflexivity|exact B]|lia|].
  change (2 ^ (32 - 1)) with (2 ^ 31). lia.
Qed.
Lemma add_loop_part n key r v rs : forall m m' e t, pinv n m -> 0 < n < 2 ^ 31 -> bytes_ok key -> buf (m_heap m) r = key ->
  Forall (fun a => Forall (meta_count n) (round_evs a) /\ Forall no_mwrite (round_evs a)) rs ->
  add_loop zip g m (Some r) v rs = Ok (m', e, Some t) ->
  k_part t = murmur_spec key mod n /\ 0 <= k_part t < n.
Proof.
  induction rs as [|a rs IH]; intros m m' e t Hp Hn Hk Hb Hr H; cbn [add_loop] in H; [discriminate|].
  inversion Hr as [|? ? (Hc & Hw) Hrs]; subst. unfold round_evs in Hc, Hw. apply Forall_app in Hc, Hw. destruct Hc as (Hc1 & Hc2), Hw as (Hw1 & Hw2).
  rb H m1 E1. pose proof (mrun_pinv n _ _ _ Hp Hc1 E1) as P1. pose proof (mrun_heap _ _ _ Hw1 E1) as Hh1.
  destruct (getSimpleProducer m1 (Some r) (a_conn a)) as [[m2 i]|e2| |] eqn:E2; try discriminate.
  rb H m3 E3. rb H x E4. destruct x as [[m4 e4] at4]. cbn [fst snd] in H.
  pose proof (get_pinv n _ _ _ _ _ P1 E2) as P2. pose proof (mrun_pinv n _ _ _ P2 Hc2 E3) as P3. pose proof (on_sp_pinv n _ _ _ _ _ _ P3 E4) as P4.
  assert (Hh2 : m_heap m2 = m_heap m1) by (destruct (get_inv _ _ _ _ _ E2) as [(X & _)|(r' & _ & _ & _ & X & _)]; [discriminate|exact X]).
  pose proof (mrun_heap _ _ _ Hw2 E3) as Hh3.
  assert (Hh4 : m_heap m4 = m_heap m3) by (destruct (on_sp_inv _ _ _ _ _ _ E4) as (x & s' & _ & _ & ->); reflexivity).
  destruct e4 as [e4|].
  - assert (L : add_loop zip g m4 (Some r) v rs = Ok (m', e, Some t)) by (destruct e4; try discriminate H; exact H).
    apply (IH m4 m' e t P4 Hn Hk); [rewrite Hh4, Hh3, Hh2, Hh1; reflexivity|exact Hrs|exact L].
  - injection H as _ _ H. destruct (nth_error (m_sps m3) i) as [y|] eqn:E5; [|discriminate H]. cbn [option_map] in H. injection H as <-. cbn [k_part].
    destruct (get_inv _ _ _ _ _ E2) as [(X & _)|(r' & Er & _ & _ & _ & Em & X)]; [discriminate|]. injection Er as <-.
    assert (Y : exists x, nth_error (m_sps m2) i = Some x /\ x_part x = part_of m1 r).
    { destruct X as [(-> & Ha)|(_ & Ei & _ & leader & _ & Es)]; [exact (proj2 P1 _ _ Ha)|].
      rewrite Es, Ei. eexists; split; [rewrite nth_error_app2 by lia; rewrite Nat.sub_diag; reflexivity|reflexivity]. }
    destruct Y as (x & Hx & Px). destruct (mrun_keeps _ _ _ E3 i x Hx) as (x' & Hx' & Px' & _). rewrite E5 in Hx'. injection Hx' as <-.
    rewrite Px', Px, <- Hh1. apply part_spec; [exact (proj1 P1)|exact Hn|rewrite Hh1; exact Hk].
Qed.

(** ** Open simple producers *)
Definition no_close (e : mev) : Prop := match e with EClose _ _ => False | _ => True end.
Definition is_swap (e : mev) : bool := match e with ESwap _ _ _ => true | _ => false end.
Definition open_at (m : mp) (i : nat) : Prop := exists x, nth_error (m_sps m) i = Some x /\ s_closed (x_sp x) = false.
(** nobody called Close: the current producer and the cached ones are open, and distinct *)
Definition oinv (m : mp) : Prop :=
  open_at m (m_cur m) /\ forall pid i, In (pid, i) (m_pids m) -> open_at m i /\ i <> m_cur m.
Lemma open_lt m i : open_at m i -> (i < length (m_sps m))%nat.
Proof. intros (x & Hx & _). apply nth_error_Some. congruence. Qed.

Definition same_closed (f : scfg -> heap -> sp -> res (sp * option err * option attempt)) : Prop :=
  forall g h s s' e a, f g h s = Ok (s', e, a) -> s_closed s' = s_closed s.
Lemma on_sp_open f m i m' e a j : same_closed f -> on_sp g f m i = Ok (m', e, a) -> open_at m j -> open_at m' j.
Proof.
  intros Hf H (y & Hy & Hc). destruct (on_sp_inv _ _ _ _ _ _ H) as (x & s' & Hx & Hs & ->). unfold open_at. cbn [m_sps].
  destruct (Nat.eq_dec i j) as [->|N].
  - rewrite Hx in Hy. injection Hy as <-. eexists; split; [eapply set_nth_same; exact Hx|]. cbn [x_sp]. rewrite (Hf _ _ _ _ _ _ Hs). exact Hc.
  - rewrite set_nth_other by exact N. exists y. split; assumption.
Qed.
Lemma on_sp_other f m i m' e a j : on_sp g f m i = Ok (m', e, a) -> i <> j -> open_at m j -> open_at m' j.
Proof.
  intros H N (y & Hy & Hc). destruct (on_sp_inv _ _ _ _ _ _ H) as (x & s' & Hx & Hs & ->). unfold open_at. cbn [m_sps].
  rewrite set_nth_other by exact N. exists y. split; assumption.
Qed.
Lemma sadd_same n k v : same_closed (fun g h s => sadd zip g h n k v s).
Proof. intros g' h s s' e a H. exact (proj1 (sadd_inv _ _ _ _ _ _ _ _ _ _ H)). Qed.
Lemma stick_same n : same_closed (fun g h s => stick zip g h n s).
Proof. intros g' h s s' e a H. exact (proj1 (stick_inv _ _ _ _ _ _ _ _ H)). Qed.
Lemma sexit_same : same_closed (fun g h s => Ok (sexit s, None, None)).
Proof. intros g' h s s' e a H. injection H as <- _ _. reflexivity. Qed.
Lemma on_sp_oinv f m i m' e a : same_closed f -> on_sp g f m i = Ok (m', e, a) -> oinv m -> oinv m'.
Proof.
  intros Hf H (H1 & H2). pose proof (fun j => on_sp_open f m i m' e a j Hf H) as K.
  destruct (on_sp_inv _ _ _ _ _ _ H) as (x & s' & Hx & Hs & Em). subst m'. cbn [m_cur m_pids] in *. split; [apply K; exact H1|].
  intros pid j Hin. cbn [m_cur m_pids] in *. destruct (H2 pid j Hin) as (O & N). split; [apply K; exact O|exact N].
Qed.
Lemma open_snoc m x h meta cur pids lead j : open_at m j -> open_at (mkMP h meta cur pids lead (m_sps m ++ [x])) j.
Proof.
  intros (y & Hy & Hc). exists y. split; [|exact Hc]. cbn [m_sps]. rewrite nth_error_app1; [exact Hy|]. apply nth_error_Some. congruence.
Qed.
Lemma open_new m p l h meta cur pids lead : open_at (mkMP h meta cur pids lead (m_sps m ++ [mkX p l sp0])) (length (m_sps m)).
Proof. eexists. split; [cbn [m_sps]; rewrite nth_error_app2 by lia; rewrite Nat.sub_diag; reflexivity|reflexivity]. Qed.
Lemma get_oinv m key conn m' i : getSimpleProducer m key conn = Ok (m', i) -> oinv m -> oinv m' /\ open_at m' i /\ (forall j, open_at m j -> open_at m' j).
Proof.
  intros H (H1 & H2). pose proof H as H0. unfold getSimpleProducer in H0.
  destruct (get_inv _ _ _ _ _ H) as [(_ & -> & ->)|(r & _ & _ & Ec & Eh & Em & X)].
  - split; [split; assumption|]. split; [exact H1|intros j Hj; exact Hj].
  - destruct X as [(-> & Ha)|(_ & Ei & Ep & leader & _ & Es)].
    + split; [split; assumption|]. split; [|intros j Hj; exact Hj]. unfold assoc in Ha.
      destruct (find (fun x => fst x =? part_of m r) (m_pids m)) as [[pid k]|] eqn:Ef; [|discriminate]. injection Ha as <-.
      exact (proj1 (H2 pid k (proj1 (find_some _ _ Ef)))).
    + clear H0. destruct m' as [h' meta' cur' pids' lead' sps']. cbn [m_cur m_heap m_meta m_pids m_sps] in *. subst.
      assert (K : forall j, open_at m j -> open_at (mkMP (m_heap m) (m_meta m) (m_cur m) ((part_of m r, length (m_sps m)) :: m_pids m) lead' (m_sps m ++ [mkX (part_of m r) leader sp0])) j).
      { intros j Hj. apply open_snoc. exact Hj. }
      split; [|split; [apply open_new|exact K]]. split; [apply K; exact H1|]. cbn [m_pids m_cur]. intros pid j [E|Hin].
      * injection E as _ <-. split; [apply open_new|]. pose proof (open_lt _ _ H1). lia.
      * destruct (H2 pid j Hin) as (O & N). split; [apply K; exact O|exact N].
Qed.
(** [i] is open and stays so: it is a cached producer, or no refresh replaces the current one *)
Lemma mstep_oinv m e m' : no_close e -> mstep zip g m e = Ok m' -> oinv m ->
  oinv m' /\ (forall j, open_at m j -> j <> m_cur m \/ is_swap e = false -> open_at m' j) /\
  (is_swap e = false -> m_cur m' = m_cur m) /\ (forall pid j, In (pid, j) (m_pids m) -> In (pid, j) (m_pids m')).
Proof.
  intros Hn H Hi. destruct e as [meta|pid leader n|i n|i n|i|key conn|i n k v|r i x]; cbn [mstep] in H; try contradiction.
  - destruct (existsb _ meta); [|discriminate]. injection H as <-. repeat split; try apply Hi; try (apply (proj2 Hi) in H; apply H); auto.
  - apply first_of_inv in H. destruct H as (e & a & H). cbn [is_swap].
    pose proof (fun j => on_sp_other _ _ _ _ _ _ j H) as K. destruct Hi as (H1 & H2). pose proof (open_lt _ _ H1) as Hlt.
    destruct (on_sp_inv _ _ _ _ _ _ H) as (x & s' & Hx & Hs & Em). subst m'. cbn [m_heap m_meta m_cur m_pids m_lead m_sps] in *.
    assert (K2 : forall j, open_at m j -> j <> m_cur m -> open_at (mkMP (m_heap m) (m_meta m) (length (m_sps m)) (m_pids m) (m_lead m) (set_nth (m_cur m) (mkX (x_part x) (x_leader x) s') (m_sps m ++ [mkX pid leader sp0]))) j).
    { intros j Hj Nj. apply K; [congruence|]. apply open_snoc. exact Hj. }
    split; [split|split; [|split]].
    + apply K; [cbn [m_cur]; lia|apply open_new].
    + intros p j Hin. cbn [m_pids m_cur] in *. destruct (H2 p j Hin) as (O & N). split; [apply K2; assumption|]. pose proof (open_lt _ _ O). lia.
    + intros j Hj [Nj|X]; [apply K2; assumption|discriminate].
    + discriminate.
    + intros p j Hin. exact Hin.
  - apply first_of_inv in H. destruct H as (e & a & H). pose proof (on_sp_oinv _ _ _ _ _ _ (stick_same n) H Hi) as O.
    split; [exact O|]. split; [intros j Hj _; exact (on_sp_open _ _ _ _ _ _ j (stick_same n) H Hj)|].
    destruct (on_sp_inv _ _ _ _ _ _ H) as (x & s' & _ & _ & ->). split; [reflexivity|auto].
  - apply first_of_inv in H. destruct H as (e & a & H). pose proof (on_sp_oinv _ _ _ _ _ _ sexit_same H Hi) as O.
    split; [exact O|]. split; [intros j Hj _; exact (on_sp_open _ _ _ _ _ _ j sexit_same H Hj)|].
    destruct (on_sp_inv _ _ _ _ _ _ H) as (x & s' & _ & _ & ->). split; [reflexivity|auto].
  - destruct (getSimpleProducer m key conn) as [[m1 i]|e| |] eqn:E; try discriminate; injection H as <-.
    + cbn [fst]. destruct (get_oinv _ _ _ _ _ E Hi) as (O & _ & K). split; [exact O|]. split; [intros j Hj _; apply K; exact Hj|].
      destruct (get_inv _ _ _ _ _ E) as [(_ & -> & _)|(r & _ & _ & Ec & _ & _ & [(-> & _)|(_ & _ & Ep & _)])]; split; auto.
      intros pid j Hin. rewrite Ep. right. exact Hin.
    + split; [exact Hi|]. split; [auto|]. split; auto.
  - apply first_of_inv in H. destruct H as (e & a & H). pose proof (on_sp_oinv _ _ _ _ _ _ (sadd_same n k v) H Hi) as O.
    split; [exact O|]. split; [intros j Hj _; exact (on_sp_open _ _ _ _ _ _ j (sadd_same n k v) H Hj)|].
    destruct (on_sp_inv _ _ _ _ _ _ H) as (x & s' & _ & _ & ->). split; [reflexivity|auto].
  - injection H as <-. repeat split; try apply Hi; try (apply (proj2 Hi) in H; apply H); auto.
Qed.
Lemma mrun_oinv es : forall m m', Forall no_close es -> mrun zip g m es = Ok m' -> oinv m ->
  oinv m' /\ (forall pid j, In (pid, j) (m_pids m) -> In (pid, j) (m_pids m')) /\
  (existsb is_swap es = false -> m_cur m' = m_cur m /\ forall j, open_at m j -> open_at m' j).
Proof.
  induction es as [|e es IH]; intros m m' Hn H Hi; cbn [mrun] in H.
  - injection H as <-. repeat split; try apply Hi; try (apply (proj2 Hi) in H; apply H); auto.
  - rb H m1 E. inversion Hn; subst. destruct (mstep_oinv _ _ _ ltac:(eassumption) E Hi) as (O1 & K1 & C1 & P1).
    destruct (IH _ _ ltac:(eassumption) H O1) as (O2 & P2 & K2). split; [exact O2|]. split; [auto|].
    cbn [existsb]. intros X. apply orb_false_iff in X. destruct X as (X1 & X2). destruct (K2 X2) as (C2 & J2).
    split; [rewrite C2; auto|]. intros j Hj. apply J2. apply K1; [exact Hj|right; exact X1].
Qed.

Lemma add_open n k v m i m' e a x : on_sp g (fun g h s => sadd zip g h n k v s) m i = Ok (m', e, a) ->
  nth_error (m_sps m) i = Some x -> s_closed (x_sp x) = false -> e = None.
Proof.
  intros H Hx Hc. destruct (on_sp_inv _ _ _ _ _ _ H) as (y & s' & Hy & Hs & _). rewrite Hx in Hy. injection Hy as <-.
  destruct (sadd_inv _ _ _ _ _ _ _ _ _ _ Hs) as (_ & _ & [(C & _)|(_ & E & _)]); [congruence|exact E].
Qed.
(** A keyed message is taken, or an error is returned. *)
Lemma keyed_taken r v rd rs m m' t : oinv m -> Forall no_close (round_evs rd) ->
  add_loop zip g m (Some r) v (rd :: rs) = Ok (m', None, t) -> exists y, t = Some y.
Proof.
  intros Hi Hn H. cbn [add_loop] in H. unfold round_evs in Hn. apply Forall_app in Hn. destruct Hn as (Hn1 & Hn2).
  rb H m1 E1. destruct (mrun_oinv _ _ _ Hn1 E1 Hi) as (O1 & _).
  destruct (getSimpleProducer m1 (Some r) (a_conn rd)) as [[m2 i]|e2| |] eqn:E2; try discriminate.
  destruct (get_oinv _ _ _ _ _ E2 O1) as (O2 & _). rb H m3 E3. rb H x E4. destruct x as [[m4 e4] at4]. cbn [fst snd] in H.
  assert (Hin : exists pid, In (pid, i) (m_pids m2)).
  { destruct (get_inv _ _ _ _ _ E2) as [(X & _)|(r' & _ & _ & _ & _ & _ & [(-> & Ha)|(_ & _ & Ep & _)])]; [discriminate| |].
    - unfold assoc in Ha. destruct (find (fun x => fst x =? part_of m1 r') (m_pids m1)) as [[pid k]|] eqn:Ef; [|discriminate]. injection Ha as <-.
      exists pid. exact (proj1 (find_some _ _ Ef)).
    - exists (part_of m1 r'). rewrite Ep. left. reflexivity. }
  destruct Hin as (pid & Hin). destruct (mrun_oinv _ _ _ Hn2 E3 O2) as (O3 & P3 & _).
  destruct (proj2 O3 pid i (P3 _ _ Hin)) as ((x & Hx & Hc) & _).
  rewrite (add_open _ _ _ _ _ _ _ _ _ E4 Hx Hc) in H. rewrite Hx in H. injection H as _ <-. eexists; reflexivity.
Qed.
(** An unkeyed message is dropped only if each round is interrupted by a refresh. *)
Lemma unkeyed_dropped v rs : forall m m', oinv m -> Forall (fun rd => Forall no_close (round_evs rd)) rs ->
  add_loop zip g m None v rs = Ok (m', None, None) -> Forall (fun rd => existsb is_swap (a_between rd) = true) rs.
Proof.
  induction rs as [|rd rs IH]; intros m m' Hi Hn H; [constructor|]. cbn [add_loop] in H. inversion Hn as [|? ? Hn0 Hn']; subst.
  unfold round_evs in Hn0. apply Forall_app in Hn0. destruct Hn0 as (Hn1 & Hn2).
  rb H m1 E1. destruct (mrun_oinv _ _ _ Hn1 E1 Hi) as (O1 & _). cbn [getSimpleProducer] in H. rb H m3 E3. rb H x E4. destruct x as [[m4 e4] at4]. cbn [fst snd] in H.
  destruct (mrun_oinv _ _ _ Hn2 E3 O1) as (O3 & _ & K).
  pose proof (on_sp_oinv _ _ _ _ _ _ (sadd_same _ _ _) E4 O3) as O4.
  destruct e4 as [e4|].
  - assert (L : add_loop zip g m4 None v rs = Ok (m', None, None)) by (destruct e4; try discriminate H; exact H).
    constructor; [|exact (IH _ _ O4 Hn' L)]. destruct (existsb is_swap (a_between rd)) eqn:Es; [reflexivity|].
    destruct (K eq_refl) as (_ & J). destruct (J _ (proj1 O1)) as (x & Hx & Hc). pose proof (add_open _ _ _ _ _ _ _ _ _ E4 Hx Hc). discriminate.
  - exfalso. destruct (on_sp_inv _ _ _ _ _ _ E4) as (x & s' & Hx & _). rewrite Hx in H. discriminate.
Qed.
Lemma new_oinv h meta pid leader : oinv (new_mp h meta pid leader).
Proof. split; [exists (mkX pid leader sp0); split; reflexivity|]. intros p i []. Qed.
End Zip.

(** *** C35 *)
Theorem keyed_not_dropped zip g h meta pid leader es m r v r1 r2 r3 m' t :
  mrun zip g (new_mp h meta pid leader) es = Ok m -> Forall no_close es -> Forall no_close (round_evs r1) ->
  addMessage zip g m (Some r) v r1 r2 r3 = Ok (m', None, t) -> exists y, t = Some y.
Proof.
  intros H Hn H1 Ha. unfold addMessage in Ha. destruct (mrun_oinv _ _ _ _ _ Hn H (new_oinv h meta pid leader)) as (O & _).
  exact (keyed_taken _ _ _ _ _ _ _ _ _ O H1 Ha).
Qed.
Theorem unkeyed_not_dropped zip g h meta pid leader es m v r1 r2 r3 m' t :
  mrun zip g (new_mp h meta pid leader) es = Ok m -> Forall no_close es ->
  Forall no_close (round_evs r1) -> Forall no_close (round_evs r2) -> Forall no_close (round_evs r3) ->
  (length (filter is_swap (a_between r1 ++ a_between r2 ++ a_between r3)) < 3)%nat ->
  addMessage zip g m None v r1 r2 r3 = Ok (m', None, t) -> exists y, t = Some y.
Proof.
  intros H Hn H1 H2 H3 Hc Ha. unfold addMessage in Ha. destruct (mrun_oinv _ _ _ _ _ Hn H (new_oinv h meta pid leader)) as (O & _).
  destruct t as [y|]; [exists y; reflexivity|]. exfalso.
  assert (X : Forall (fun rd => existsb is_swap (a_between rd) = true) [r1; r2; r3]).
  { eapply unkeyed_dropped; [exact O| |exact Ha]. repeat constructor; assumption. }
  inversion X as [|? ? X1 X']; subst. inversion X' as [|? ? X2 X'']; subst. inversion X'' as [|? ? X3 _]; subst.
  assert (L : forall l, existsb is_swap l = true -> (1 <= length (filter is_swap l))%nat).
  { intros l E. apply existsb_exists in E. destruct E as (x & Hx & Ex). assert (In x (filter is_swap l)) by (apply filter_In; split; assumption).
    destruct (filter is_swap l); [contradiction|cbn; lia]. }
  rewrite !filter_app, !app_length in Hc. pose proof (L _ X1). pose proof (L _ X2). pose proof (L _ X3). lia.
Qed.

(** *** C36 *)
Theorem key_partition zip g n h meta pid leader es m r key v r1 r2 r3 m' e t :
  zlen meta = n -> 0 < n < 2 ^ 31 -> mrun zip g (new_mp h meta pid leader) es = Ok m ->
  Forall (meta_count n) (es ++ round_evs r1 ++ round_evs r2 ++ round_evs r3) ->
  Forall no_mwrite (round_evs r1 ++ round_evs r2 ++ round_evs r3) ->
  bytes_ok key -> buf (m_heap m) r = key ->
  addMessage zip g m (Some r) v r1 r2 r3 = Ok (m', e, Some t) ->
  k_part t = murmur_spec key mod n /\ 0 <= k_part t < n.
Proof.
  intros Hm Hn H Hc Hw Hk Hb Ha. unfold addMessage in Ha. rewrite !Forall_app in Hc. rewrite !Forall_app in Hw.
  destruct Hc as (C0 & C1 & C2 & C3), Hw as (W1 & W2 & W3).
  assert (P : pinv n m).
  { eapply mrun_pinv; [|exact C0|exact H]. split; [exact Hm|]. intros p i X. discriminate. }
  eapply add_loop_part; [exact P|exact Hn|exact Hk|exact Hb| |exact Ha].
  repeat (constructor; [split; assumption|]). constructor.
Qed.
