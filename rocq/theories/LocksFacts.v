(** Proofs about locks. *)
From Verif Require Import Base Locks LocksSpec.
Local Open Scope lang_scope.

(** the order in which locks are taken *)
Definition rank (l : lock) : nat :=
  match l with
  | Restart _ => 0 | GMutex _ => 1 | Joining _ => 2 | Loop _ => 2 | PLock _ => 3 | Once _ => 4 | SLock _ => 5
  | BMutex _ => 6 | Mux _ => 7 | CloseL _ => 8
  end.
Definition below (n : nat) (h : list lock) : Prop := Forall (fun x => (rank x < n)%nat) h.
Lemma below_le n m h : (n <= m)%nat -> below n h -> below m h.
Proof. intros L. apply Forall_impl. intros; lia. Qed.
Lemma lock_dec : forall a b : lock, {a = b} + {a <> b}.
Proof. decide equality; apply Z.eq_dec. Defined.

Section Ordered.
  (** with [guard]: the handles are only used under their lock *)
  Variable guard : bool.
  (** with [strict]: every lock after those that come before it; else only the innermost ones last *)
  Variable strict : bool.
  Definition after (h : list lock) (l : lock) : Prop := if strict then below (rank l) h else below 8 h.
  Definition acc (h : list lock) (m : shared) : Prop :=
    guard = true -> match m with Handles k => In (BMutex k) h | _ => True end.
  Fixpoint ord (h : list lock) (t : list op) : Prop :=
    match t with
    | [] => h = []
    | Acq l :: t => after h l /\ ord (l :: h) t
    | Rel l :: t => (exists h', h = l :: h' /\ ord h' t)
    | Net _ :: t => below 8 h /\ ord h t
    | Rd m :: t => below 8 h /\ acc h m /\ ord h t
    | Wr m :: t => below 8 h /\ acc h m /\ ord h t
    end.
  Definition okL (h : list lock) (a : lang) : Prop := forall t, a t -> forall u, ord h u -> ord h (t ++ u).

  Lemma ok_eps h : okL h eps.
  Proof. intros t -> u. auto. Qed.
  Lemma ok_net h b : below 8 h -> okL h (one (Net b)).
  Proof. intros H t -> u O. split; assumption. Qed.
  Lemma ok_rd h m : below 8 h -> acc h m -> okL h (one (Rd m)).
  Proof. intros H A t -> u O. split; [|split]; assumption. Qed.
  Lemma ok_wr h m : below 8 h -> acc h m -> okL h (one (Wr m)).
  Proof. intros H A t -> u O. split; [|split]; assumption. Qed.
  Lemma ok_seq h a b : okL h a -> okL h b -> okL h (a ;; b).
  Proof. intros A B t (x & y & X & Y & ->) u O. rewrite <- app_assoc. apply A; [exact X|]. apply B; assumption. Qed.
  Lemma ok_alt h a b : okL h a -> okL h b -> okL h (a or b).
  Proof. intros A B t [X|X] u O; [apply A|apply B]; assumption. Qed.
  Lemma ok_may h a : okL h a -> okL h (may a).
  Proof. intros A. apply ok_alt; [apply ok_eps|exact A]. Qed.
  Lemma ok_if h b a : (b = true -> okL h a) -> okL h (if_may b a).
  Proof. destruct b; intros A; [apply ok_may; auto|apply ok_eps]. Qed.
  Lemma ok_some h f : (forall n, okL h (f n)) -> okL h (some f).
  Proof. intros A t [n X] u O. apply (A n); assumption. Qed.
  Lemma ok_star h a : okL h a -> okL h (star a).
  Proof. intros A t X. induction X as [|x y X Y IH]; intros u O; [exact O|]. rewrite <- app_assoc. apply A; [exact X|]. apply IH. exact O. Qed.
  Lemma after_below h l : below (rank l) h -> after h l.
  Proof. unfold after. destruct strict; [auto|]. apply below_le. destruct l; cbn; lia. Qed.
  Lemma after_8 h l : after h l -> below 8 h.
  Proof. unfold after. destruct strict; [|auto]. apply below_le. destruct l; cbn; lia. Qed.
  Lemma ok_locked' h l a : after h l -> okL (l :: h) a -> okL h (locked l a).
  Proof.
    intros B A t (x & y & -> & (z & w & Z & -> & ->) & ->) u O. cbn [app ord]. split; [exact B|]. rewrite <- app_assoc. apply A; [exact Z|].
    cbn [app ord]. exists h. split; [reflexivity|exact O].
  Qed.
  Lemma ok_locked h l a : below (rank l) h -> okL (l :: h) a -> okL h (locked l a).
  Proof. intros B. apply ok_locked', after_below, B. Qed.

  Variables sasl drops fails closes : bool.
  Hypothesis sd : strict = true -> sasl && drops = false.
  Hypothesis gu : guard = true -> fails = false /\ closes = false.

  Lemma below_cons n l h : (rank l < n)%nat -> below n h -> below n (l :: h).
  Proof. intros. constructor; assumption. Qed.
  Hint Resolve below_cons : locks.
  Ltac bel := match goal with B : below _ ?h |- below _ _ => solve [repeat (apply below_cons; [cbn; lia|]); apply below_le with (2 := B); cbn; lia] end.

  Lemma k_close h b : below 8 h -> okL h (broker_close b).
  Proof. intros B. apply ok_locked; [exact B|apply ok_eps]. Qed.
  Lemma k_exchange h b : below 8 h -> okL h (exchange b).
  Proof. intros B. apply ok_seq; [apply ok_net, B|apply ok_may, k_close, B]. Qed.
  Lemma k_auth h b : below 7 h \/ (strict = false /\ below 8 h) -> okL h (authenticate b).
  Proof.
    intros B. assert (A : after h (Mux b)) by (destruct B as [B|[E B]]; [apply after_below, B|unfold after; rewrite E; exact B]).
    assert (B8 : below 8 h) by (eapply after_8, A).
    assert (okL h (locked (Mux b) (exchange b))) by (apply ok_locked'; [exact A|apply k_exchange; bel]). apply ok_seq; [|apply ok_may]; assumption.
  Qed.
  Lemma k_conn h b : below 8 h -> (sasl = true -> below 7 h \/ strict = false) -> okL h (createConnAndAuth sasl b).
  Proof.
    intros B S. apply ok_seq; [apply ok_net, B|]. apply ok_may, ok_seq; [apply ok_net, B|]. apply ok_if. intros E. apply k_auth. destruct (S E); auto.
  Qed.
  Lemma k_rag h b : below 7 h -> okL h (requestAndGet sasl drops b).
  Proof.
    intros B. apply ok_locked; [exact B|]. apply ok_seq; [|apply ok_may, k_exchange; bel].
    apply ok_if. intros D. apply k_conn; [bel|]. intros S. right. destruct strict; [|reflexivity]. specialize (sd eq_refl). rewrite S, D in sd. discriminate.
  Qed.
  Lemma k_new h b : below 7 h -> okL h (newBroker sasl b).
  Proof. intros B. apply k_conn; [bel|auto]. Qed.
  Lemma k_fetch h b : below 7 h -> okL h (requestFetch sasl b).
  Proof.
    intros B. apply ok_seq; [apply ok_may, k_conn; [bel|auto]|]. apply ok_may, ok_locked; [exact B|]. apply ok_seq; [apply ok_net; bel|apply ok_may, k_close; bel].
  Qed.
  Lemma k_refresh h : below 7 h -> okL h (refreshMetadata sasl drops).
  Proof.
    intros B. apply ok_seq; apply ok_star, ok_some; intros b; apply ok_seq; try (apply k_new, B); apply ok_may.
    - apply ok_seq; [apply k_rag, B|apply ok_may, k_close; bel].
    - apply k_rag, B.
  Qed.
  Lemma k_get h k : below 6 h -> okL h (getBroker sasl drops k).
  Proof.
    intros B. assert (B' : below 7 (BMutex k :: h)) by bel. assert (A : acc (BMutex k :: h) (Handles k)) by (intros _; left; reflexivity).
    apply ok_locked; [exact B|]. apply ok_seq; [apply ok_rd; [bel|exact A]|]. apply ok_may, ok_seq; [apply ok_may, k_refresh, B'|].
    apply ok_may, ok_some. intros b. apply ok_seq; [apply k_new, B'|]. apply ok_may, ok_wr; [bel|exact A].
  Qed.
  Lemma k_bnew h : below 7 h -> okL h (brokersNewBroker sasl drops).
  Proof. intros B. apply ok_seq; apply ok_may; [apply k_refresh, B|]. apply ok_some. intros b. apply k_new, B. Qed.
  Lemma k_ask h : below 7 h -> okL h (ask1 sasl drops).
  Proof. intros B. apply ok_some. intros b. apply k_rag, B. Qed.
  Lemma k_to h k : below 6 h -> okL h (toBroker sasl drops k).
  Proof. intros B. apply ok_seq; [apply k_get, B|]. apply ok_may, k_ask. bel. Qed.
  Lemma k_any h k : below 6 h -> okL h (anyBroker sasl drops k).
  Proof. intros B. apply ok_star, k_to, B. Qed.
  Lemma k_closes h : below 8 h -> okL h (some broker_close).
  Proof. intros B. apply ok_some. intros b. apply k_close, B. Qed.
  Lemma k_news h k : below 6 h -> okL h (newBrokers sasl drops k).
  Proof.
    intros B. apply ok_star, ok_some. intros b. apply ok_seq; [apply k_new; bel|]. apply ok_may, ok_seq; [apply k_rag; bel|].
    apply ok_may, ok_locked; [exact B|]. apply ok_star, ok_wr; [bel|]. intros _. left. reflexivity.
  Qed.
  Lemma k_flush h : below 7 h -> okL h (flush sasl drops).
  Proof. apply k_ask. Qed.
  Lemma k_add h s : below 5 h -> okL h (addRecord sasl drops s).
  Proof. intros B. apply ok_locked; [exact B|]. apply ok_may, k_flush. bel. Qed.
  Lemma k_sclose h s : below 4 h -> okL h (simpleClose sasl drops s).
  Proof.
    intros B. apply ok_may, ok_locked; [exact B|]. apply ok_may, ok_locked; [bel|]. apply ok_seq; apply ok_may; [apply k_flush; bel|apply k_closes; bel].
  Qed.
  Lemma k_nsp h : below 6 h -> okL h (newSimpleProducer sasl drops).
  Proof.
    intros B. apply ok_may, ok_some. intros k. apply ok_seq; apply ok_may; [apply k_news, B|]. apply ok_seq; [apply k_any, B|]. apply ok_may, k_bnew. bel.
  Qed.
  Lemma k_update h p k : below 3 h -> okL h (updateCurrent sasl drops p k).
  Proof.
    intros B. apply ok_seq; [apply k_any; bel|]. apply ok_may, ok_seq; [apply k_nsp; bel|]. apply ok_may, ok_locked; [exact B|].
    apply ok_may, ok_some. intros s. apply k_sclose. bel.
  Qed.
  Lemma acc_keyed h p : acc h (Keyed p).
  Proof. intros _. exact Logic.I. Qed.
  Lemma acc_leaders h p : acc h (Leaders p).
  Proof. intros _. exact Logic.I. Qed.
  Hint Resolve acc_keyed acc_leaders : locks.
  Lemma k_padd h p : below 3 h -> okL h (producerAdd sasl drops p).
  Proof.
    intros B. apply ok_star, ok_seq; [|apply ok_may, ok_some; intros s; apply k_add; bel].
    apply ok_alt; [apply ok_locked; [exact B|apply ok_eps]|].
    apply ok_seq; [apply ok_rd; [bel|apply acc_keyed]|]. apply ok_may, ok_seq; [apply ok_rd; [bel|apply acc_leaders]|]. apply ok_seq.
    - apply ok_may, ok_seq; [apply k_bnew; bel|]. apply ok_may, ok_wr; [bel|apply acc_leaders].
    - apply ok_may, ok_seq; [apply k_nsp; bel|]. apply ok_may, ok_wr; [bel|apply acc_keyed].
  Qed.
  Lemma k_pclose h p : below 4 h -> okL h (producerClose sasl drops p).
  Proof.
    intros B. assert (C : okL h (some (simpleClose sasl drops))) by (apply ok_some; intros s; apply k_sclose, B).
    apply ok_seq; [apply ok_may, C|]. apply ok_seq; [apply ok_rd; [bel|apply acc_keyed]|]. apply ok_seq; [apply ok_star, C|].
    apply ok_seq; [apply ok_rd; [bel|apply acc_leaders]|]. apply ok_star, k_closes. bel.
  Qed.
  Lemma k_coord h k : below 6 h -> okL h (getCoordinator sasl drops k).
  Proof. intros B. apply ok_seq; [apply k_any, B|apply ok_may, k_get, B]. Qed.
  Lemma k_leader h k : below 6 h -> okL h (getLeaderBroker sasl drops fails k).
  Proof.
    intros B. apply ok_seq; [apply k_any, B|]. apply ok_may, ok_seq; [apply k_bnew; bel|]. apply ok_if. intros F. apply ok_rd; [bel|].
    intros G. destruct (gu G). congruence.
  Qed.
  Lemma k_nsc h k : below 6 h -> okL h (newSimpleConsumer sasl drops k).
  Proof. intros B. apply ok_seq; [apply k_any, B|apply ok_star, k_coord, B]. Qed.
  Lemma k_cstart h k : below 6 h -> okL h (consumeStart sasl drops fails k).
  Proof. intros B. apply ok_seq; apply ok_star; [apply k_leader, B|apply k_ask; bel]. Qed.
  Lemma k_rounds h k : below 6 h -> okL h (consumeRounds sasl drops fails k).
  Proof.
    intros B. apply ok_star, ok_some. intros b. apply ok_seq; [apply k_fetch; bel|]. apply ok_seq; [apply ok_star, ok_net; bel|]. apply ok_may.
    apply ok_alt; [apply k_close; bel|]. apply ok_alt; [apply k_ask; bel|]. apply ok_alt; [|apply k_any, B].
    apply ok_seq; [apply k_close; bel|apply ok_star, k_leader, B].
  Qed.
  Lemma k_stop h s : below 2 h -> okL h (stopConsumer s).
  Proof. intros B. apply ok_seq; [apply ok_locked; [exact B|apply ok_eps]|]. apply ok_may, k_closes. bel. Qed.
  Lemma k_tcons h k : below 6 h -> okL h (topicsConsume sasl drops fails k).
  Proof.
    intros B. apply ok_seq; [apply ok_star, k_any, B|]. apply ok_seq; apply ok_star; [|apply k_cstart, B].
    apply ok_seq; [apply k_nsc, B|apply ok_star, k_coord, B].
  Qed.
  Lemma k_gstop h g : below 1 h -> okL h (groupStop g).
  Proof. intros B. apply ok_locked; [exact B|]. apply ok_star, ok_some. intros s. apply k_stop. bel. Qed.
  Lemma k_gstart h : below 2 h -> okL h groupStart.
  Proof. intros B. apply ok_may, ok_some. intros j. apply ok_locked; [exact B|apply ok_eps]. Qed.
  Lemma k_restart h g : below 0 h -> okL h (groupRestart g).
  Proof. intros B. apply ok_locked; [exact B|]. apply ok_seq; [apply k_gstop; bel|apply k_gstart; bel]. Qed.
  Lemma k_heart h g : below 0 h -> okL h (heartbeats sasl drops g).
  Proof.
    intros B. apply ok_star, ok_seq; [|apply ok_may, k_restart, B]. apply ok_locked; [bel|]. apply ok_may, k_ask. bel.
  Qed.
  Lemma k_meta h g k : below 0 h -> okL h (refreshMeta sasl drops g k).
  Proof. intros B. apply ok_star, ok_may, ok_seq; [apply k_any; bel|apply ok_may, k_restart, B]. Qed.
  Lemma k_bclose h k : closes = true -> below 8 h -> okL h (brokersClose k).
  Proof. intros C B. apply ok_seq; [apply ok_rd; [exact B|]|apply ok_star, k_closes, B]. intros G. destruct (gu G). congruence. Qed.
  Lemma k_join h k : below 6 h -> okL h (joinRounds sasl drops k).
  Proof.
    intros B. apply ok_star, ok_seq; [apply ok_may, k_coord, B|]. apply ok_may, ok_seq; [apply k_ask; bel|]. apply ok_may, ok_seq; [apply ok_star, k_any, B|].
    apply ok_seq; [apply k_ask; bel|apply ok_star, k_nsc, B].
  Qed.
  Lemma k_calls : okL [] (calls sasl drops fails closes).
  Proof.
    assert (B : forall n, below n []) by (intros; constructor). apply ok_star. unfold call.
    repeat match goal with |- okL _ (alt _ _) => apply ok_alt end; try (apply ok_some; intros ?); try (apply ok_some; intros ?);
      first [apply k_news, B|apply k_get, B|apply k_any, B|apply k_to, B|apply k_ask, B|apply k_close, B|apply k_add, B|apply k_sclose, B|apply k_nsp, B
            |apply k_update, B|apply k_padd, B|apply k_pclose, B|apply k_nsc, B|apply k_cstart, B|apply k_stop, B|apply k_tcons, B|apply k_heart, B|apply k_meta, B
            |apply k_gstop, B|apply k_gstart, B|apply k_rag, B|idtac].
    - apply ok_seq; [apply k_any, B|]. apply ok_star, k_to, B.
    - apply ok_if. intros C. repeat match goal with |- okL _ (alt _ _) => apply ok_alt end; apply ok_some; intros x.
      + apply k_bclose; auto.
      + apply ok_seq; [apply ok_star, ok_some; intros s; apply k_stop, B|]. apply ok_may, k_bclose; auto.
      + apply ok_some. intros k. apply ok_seq; [apply k_gstop, B|]. apply ok_seq; [apply ok_may, k_ask, B|apply k_bclose; auto].
  Qed.
  Lemma o_calls t : calls sasl drops fails closes t -> ord [] t.
  Proof. intros C. rewrite <- (app_nil_r t). apply k_calls; [exact C|reflexivity]. Qed.
  Lemma o_loop k c t : loopRun sasl drops fails k c t -> ord [Loop c] t.
  Proof.
    intros (x & y & X & -> & ->). apply (k_rounds [Loop c] k).
    - apply below_cons; [cbn; lia|constructor].
    - exact X.
    - cbn. exists []. auto.
  Qed.
  Lemma o_join k j t : joinRun sasl drops k j t -> ord [Joining j] t.
  Proof.
    intros (x & y & X & -> & ->). apply (k_join [Joining j] k).
    - apply below_cons; [cbn; lia|constructor].
    - exact X.
    - cbn. exists []. auto.
  Qed.

  (** ** the invariant *)
  Fixpoint desc (h : list lock) : Prop := match h with [] => True | l :: h => after h l /\ desc h end.
  Definition inv (s : list thr) : Prop :=
    NoDup (flat_map held s) /\ Forall (fun t => ord (held t) (todo t) /\ desc (held t)) s.

  Lemma free_flat l s : free l s <-> ~ In l (flat_map held s).
  Proof.
    unfold free. rewrite Forall_forall, in_flat_map. split.
    - intros F (t & I & H). exact (F t I H).
    - intros N t I H. apply N. exists t. auto.
  Qed.
  Lemma flat_mid (a : list thr) x b : flat_map held (a ++ x :: b) = flat_map held a ++ held x ++ flat_map held b.
  Proof. rewrite flat_map_app. reflexivity. Qed.
  Lemma NoDup_mid {A} (a h b : list A) l : NoDup (a ++ h ++ b) -> ~ In l (a ++ h ++ b) -> NoDup (a ++ (l :: h) ++ b).
  Proof. intros N I. cbn [app]. apply NoDup_Add with (a := l) (l := a ++ h ++ b); [apply Add_app|]. split; assumption. Qed.
  Lemma NoDup_mid_inv {A} (a h b : list A) l : NoDup (a ++ (l :: h) ++ b) -> NoDup (a ++ h ++ b).
  Proof. cbn [app]. intros N. apply NoDup_remove_1 in N. exact N. Qed.
  Lemma inv_step s o s' : inv s -> step s o s' -> inv s'.
  Proof.
    intros [N F] S. destruct S as [a x o x' b A]. apply Forall_app in F as [Fa F]. inversion F as [|? ? [O D] Fb]; subst.
    split; [|apply Forall_app; split; [exact Fa|constructor; [|exact Fb]]].
    - inversion A as [h l t G|h l t|h z t|h m t|h m t]; subst; rewrite flat_mid in *; cbn [held] in *; try exact N.
      + apply NoDup_mid; [exact N|]. apply free_flat in G. rewrite flat_mid in G. exact G.
      + eapply NoDup_mid_inv. exact N.
    - inversion A as [h l t G|h l t|h z t|h m t|h m t]; subst; cbn [held todo ord desc] in *.
      + destruct O as [B O]. auto.
      + destruct O as (h' & E & O). injection E as <-. destruct D. auto.
      + destruct O. auto.
      + destruct O as (? & ? & ?). auto.
      + destruct O as (? & ? & ?). auto.
  Qed.
  Lemma inv_add s t : inv s -> Forall (fun l => free l s) (held t) -> NoDup (held t) -> ord (held t) (todo t) -> desc (held t) -> inv (s ++ [t]).
  Proof.
    intros [N F] Fr Nt O D. split; [|apply Forall_app; split; [exact F|repeat constructor; assumption]].
    rewrite flat_map_app. cbn [flat_map]. rewrite app_nil_r. clear F O D. revert N. rewrite Forall_forall in Fr.
    assert (Fr' : forall l, In l (held t) -> ~ In l (flat_map held s)) by (intros l I; apply free_flat, Fr, I). clear Fr.
    induction (flat_map held s) as [|y ys IH]; intros N; [exact Nt|]. inversion N as [|? ? Y N']; subst. cbn [app]. constructor.
    - rewrite in_app_iff. intros [C|C]; [contradiction|]. apply (Fr' y C). left. reflexivity.
    - apply IH; [|exact N']. intros l I C. apply (Fr' l I). right. exact C.
  Qed.
  Lemma inv_reach s : reach sasl drops fails closes s -> inv s.
  Proof.
    induction 1 as [|s t R IH C|s k c t R IH G C|s k j t R IH G C|s o s' R IH S].
    - split; constructor.
    - apply inv_add; cbn [held todo]; auto; try constructor. apply o_calls, C.
    - apply inv_add; cbn [held todo]; auto; [constructor; [intros []|constructor]|eapply o_loop, C|split; [apply after_below; constructor|exact Logic.I]].
    - apply inv_add; cbn [held todo]; auto; [constructor; [intros []|constructor]|eapply o_join, C|split; [apply after_below; constructor|exact Logic.I]].
    - eapply inv_step; eauto.
  Qed.

  (** ** nobody waits for ever *)
  Lemma holder l s : {exists t, In t s /\ In l (held t)} + {free l s}.
  Proof.
    induction s as [|t s [E|F]]; [right; constructor| |].
    - left. destruct E as (t' & I & H). exists t'. split; [right; exact I|exact H].
    - destruct (in_dec lock_dec l (held t)) as [I|I]; [left; exists t; split; [left; reflexivity|exact I]|right; constructor; assumption].
  Qed.
  Lemma move n s t : strict = true -> inv s -> In t s -> todo t <> [] -> (forall l u, todo t = Acq l :: u -> (8 - rank l < n)%nat) -> exists o s', step s o s'.
  Proof.
    intros St. assert (Aft : forall h l, after h l -> below (rank l) h) by (unfold after; rewrite St; auto). revert t. induction n as [|n IH]; intros t V I T L.
    - destruct (in_split _ _ I) as (a & b & ->). destruct V as [_ F]. rewrite Forall_forall in F. destruct (F t I) as [O _].
      destruct t as [h [|[l|l|z|m|m] u]]; cbn [todo held ord] in *.
      + congruence.
      + specialize (L _ _ eq_refl). lia.
      + destruct O as (h' & -> & O). eexists _, _. constructor. apply act_rel.
      + eexists _, _. constructor. apply act_net.
      + eexists _, _. constructor. apply act_rd.
      + eexists _, _. constructor. apply act_wr.
    - destruct (in_split _ _ I) as (a & b & E). pose proof V as V'. destruct V as [_ F]. rewrite Forall_forall in F. destruct (F t I) as [O _].
      destruct t as [h [|[l|l|z|m|m] u]]; cbn [todo held ord] in *.
      + congruence.
      + destruct (holder l s) as [(t' & I' & H')|G].
        * destruct (F t' I') as [O' D']. apply (IH t' V' I').
          -- intros E'. rewrite E' in O'. cbn in O'. rewrite O' in H'. destruct H'.
          -- intros l' u' E'. rewrite E' in O'. cbn in O'. destruct O' as [B' _]. apply Aft in B'. unfold below in B'. rewrite Forall_forall in B'.
             specialize (B' _ H'). specialize (L _ _ eq_refl). destruct l'; cbn [rank] in *; lia.
        * rewrite E. eexists _, _. constructor. apply act_acq. rewrite <- E. exact G.
      + destruct O as (h' & -> & O). rewrite E. eexists _, _. constructor. apply act_rel.
      + rewrite E. eexists _, _. constructor. apply act_net.
      + rewrite E. eexists _, _. constructor. apply act_rd.
      + rewrite E. eexists _, _. constructor. apply act_wr.
  Qed.
  Lemma done_dec s : {all_done s} + {exists t, In t s /\ todo t <> []}.
  Proof.
    induction s as [|t s [D|E]]; [left; constructor| |].
    - destruct (todo t) as [|o u] eqn:T; [left; constructor; assumption|right]. exists t. split; [left; reflexivity|congruence].
    - right. destruct E as (t' & I & H). exists t'. split; [right; exact I|exact H].
  Qed.
  Lemma no_deadlock s : strict = true -> reach sasl drops fails closes s -> ~ deadlock s.
  Proof.
    intros St R [N S]. apply inv_reach in R. destruct (done_dec s) as [D|(t & I & T)]; [exact (N D)|].
    destruct (move 9 s t St R I T) as (o & s' & X); [intros; lia|]. exact (S _ _ X).
  Qed.
  Definition work (s : list thr) : nat := length (flat_map todo s).
  Lemma step_work s o s' : step s o s' -> work s = S (work s').
  Proof.
    intros X. destruct X as [a x o x' b A]. unfold work. rewrite !flat_map_app, !app_length. cbn [flat_map]. rewrite !app_length.
    inversion A; subst; cbn [todo length]; lia.
  Qed.
  Lemma finish_inv n s : strict = true -> work s = n -> inv s -> exists s', steps (fun _ => True) s s' /\ all_done s'.
  Proof.
    intros St. revert s. induction n as [|n IH]; intros s W V; (destruct (done_dec s) as [D|(t & I & T)]; [exists s; split; [constructor|exact D]|]);
      (destruct (move 9 s t St V I T) as (o & s' & X); [intros; lia|]).
    - apply step_work in X. lia.
    - pose proof (step_work _ _ _ X) as W'. destruct (IH s') as (s'' & Y & D); [lia|eapply inv_step; eauto|].
      exists s''. split; [econstructor; eauto; exact Logic.I|exact D].
  Qed.
  Lemma finish s : strict = true -> reach sasl drops fails closes s -> exists s', steps (fun _ => True) s s' /\ all_done s'.
  Proof. intros St R. apply (finish_inv (work s)); [exact St|reflexivity|]. apply inv_reach, R. Qed.
  Lemma bounded ok s s' : steps ok s s' -> (work s' <= work s)%nat.
  Proof. induction 1 as [|s o s' s'' K X Y IH]; [lia|]. apply step_work in X. lia. Qed.

  (** ** closing a handle *)
  Lemma desc_top b h : In (CloseL b) h -> desc h -> exists h', h = CloseL b :: h'.
  Proof.
    destruct h as [|l h]; [intros []|]. intros [->|I] D; [eauto|]. destruct D as [B _]. apply after_8 in B. unfold below in B. rewrite Forall_forall in B.
    specialize (B _ I). cbn in B. lia.
  Qed.
  Lemma top_releases b h t : ord (CloseL b :: h) t -> exists u, t = Rel (CloseL b) :: u.
  Proof.
    assert (N : forall n, (n <= 8)%nat -> below n (CloseL b :: h) -> False).
    { intros n L B. inversion B as [|? ? X _]; subst. cbn in X. lia. }
    destruct t as [|[l|l|z|m|m] u]; cbn [ord].
    - discriminate.
    - intros [B _]. exfalso. apply after_8 in B. apply (N 8%nat); auto.
    - intros (h' & E & _). injection E as <- <-. eauto.
    - intros [B _]. exfalso. apply (N 8%nat); auto.
    - intros [B _]. exfalso. apply (N 8%nat); auto.
    - intros [B _]. exfalso. apply (N 8%nat); auto.
  Qed.
  Lemma close_soon a h b u c : inv (a ++ mkThr h (Acq (CloseL b) :: u) :: c) ->
    exists a' c', steps (fun o => ~ is_net o) (a ++ mkThr h (Acq (CloseL b) :: u) :: c) (a' ++ mkThr (CloseL b :: h) u :: c') /\
                  length a' = length a /\ length c' = length c.
  Proof.
    intros V. set (s := a ++ _ :: c) in *. destruct (holder (CloseL b) s) as [(y & I & H)|G].
    - destruct V as [N F]. pose proof F as F'. rewrite Forall_forall in F. destruct (F y I) as [O D].
      destruct (desc_top _ _ H D) as [h' E]. rewrite E in O. destruct (top_releases _ _ _ O) as [v Ev].
      destruct y as [hy ty]. cbn [held todo] in *. subst hy ty.
      assert (Sp : exists a1 c1, s = a1 ++ mkThr (CloseL b :: h') (Rel (CloseL b) :: v) :: c1 /\
                 exists a' c', a1 ++ mkThr h' v :: c1 = a' ++ mkThr h (Acq (CloseL b) :: u) :: c' /\ length a' = length a /\ length c' = length c).
      { subst s. apply in_app_or in I as [I|[I|I]].
        - destruct (in_split _ _ I) as (a1 & a2 & ->). exists a1, (a2 ++ mkThr h (Acq (CloseL b) :: u) :: c). split; [rewrite <- app_assoc; reflexivity|].
          exists (a1 ++ mkThr h' v :: a2), c. rewrite <- app_assoc. split; [reflexivity|]. rewrite !app_length. split; reflexivity.
        - discriminate I.
        - destruct (in_split _ _ I) as (c1 & c2 & ->). exists (a ++ mkThr h (Acq (CloseL b) :: u) :: c1), c2. split; [rewrite <- app_assoc; reflexivity|].
          exists a, (c1 ++ mkThr h' v :: c2). rewrite <- app_assoc. split; [reflexivity|]. rewrite !app_length. split; reflexivity. }
      destruct Sp as (a1 & c1 & E1 & a' & c' & E2 & La & Lc).
      assert (X : step s (Rel (CloseL b)) (a' ++ mkThr h (Acq (CloseL b) :: u) :: c')).
      { rewrite E1, <- E2. constructor. apply act_rel. }
      exists a', c'. split; [|split; assumption]. apply (steps_cons _ s (Rel (CloseL b)) (a' ++ mkThr h (Acq (CloseL b) :: u) :: c')).
      + intros [z Z]. discriminate.
      + exact X.
      + apply (steps_cons _ _ (Acq (CloseL b)) (a' ++ mkThr (CloseL b :: h) u :: c')).
        * intros [z Z]. discriminate.
        * constructor. apply act_acq. apply free_flat. rewrite <- E2, flat_mid. cbn [held].
          rewrite E1, flat_mid in N. cbn [held app] in N. apply NoDup_remove_2 in N. exact N.
        * constructor.
    - exists a, c. split; [|split; reflexivity]. apply (steps_cons _ _ (Acq (CloseL b)) (a ++ mkThr (CloseL b :: h) u :: c)).
      + intros [z Z]. discriminate.
      + constructor. apply act_acq. exact G.
      + constructor.
  Qed.

  (** ** a goroutine that needs locks nobody else needs *)
  Lemma alone t : strict = true -> forall h a c, inv (a ++ mkThr h t :: c) -> (forall l, In (Acq l) t -> Forall (fun x => ~ In l (held x)) (a ++ c)) ->
    steps (fun o => In o t) (a ++ mkThr h t :: c) (a ++ mkThr [] [] :: c).
  Proof.
    intros Sx. assert (W : forall (ok ok' : op -> Prop) s s', (forall o, ok o -> ok' o) -> steps ok s s' -> steps ok' s s').
    { intros ok ok' s s' K X. induction X; econstructor; eauto. }
    induction t as [|o t IH]; intros h a c V L.
    - destruct V as [_ F]. rewrite Forall_forall in F. destruct (F (mkThr h [])) as [O _]; [apply in_or_app; right; left; reflexivity|]. cbn in O. subst h. constructor.
    - assert (St : exists h', step (a ++ mkThr h (o :: t) :: c) o (a ++ mkThr h' t :: c)).
      { destruct V as [N F]. rewrite Forall_forall in F. destruct (F (mkThr h (o :: t))) as [O _]; [apply in_or_app; right; left; reflexivity|].
        destruct o as [l|l|z|m|m]; cbn [held todo ord] in O.
        - exists (l :: h). constructor. apply act_acq. destruct O as [B _]. unfold after in B. rewrite Sx in B. specialize (L l (or_introl eq_refl)). apply Forall_app in L as [La Lc].
          apply Forall_app. split; [exact La|]. constructor; [|exact Lc]. cbn. intros I. unfold below in B. rewrite Forall_forall in B. specialize (B _ I). lia.
        - destruct O as (h' & -> & O). exists h'. constructor. apply act_rel.
        - exists h. constructor. apply act_net.
        - exists h. constructor. apply act_rd.
        - exists h. constructor. apply act_wr. }
      destruct St as [h' St]. apply (steps_cons _ _ o (a ++ mkThr h' t :: c)); [left; reflexivity|exact St|].
      apply (W (fun o => In o t)); [intros; right; assumption|]. apply IH; [eapply inv_step; eauto|]. intros l I. apply L. right. exact I.
  Qed.

  (** ** the handles of a Brokers *)
  Lemma no_race s k : guard = true -> inv s -> ~ race (Handles k) s.
  Proof.
    intros G [N F] (a & x & b & y & c & -> & R). rewrite Forall_forall in F.
    assert (H : forall t, In t (a ++ x :: b ++ y :: c) -> (reads (Handles k) t \/ writes (Handles k) t) -> In (BMutex k) (held t)).
    { intros t I [[u E]|[u E]]; destruct (F t I) as [O _]; rewrite E in O; cbn in O; destruct O as (_ & A & _); exact (A G). }
    assert (X : In (BMutex k) (held x)) by (apply H; [apply in_or_app; right; left; reflexivity|tauto]).
    assert (Y : In (BMutex k) (held y)) by (apply H; [apply in_or_app; right; right; apply in_or_app; right; left; reflexivity|tauto]).
    rewrite flat_map_app in N. cbn [flat_map] in N. rewrite flat_map_app in N. cbn [flat_map] in N.
    destruct (in_split _ _ X) as (h1 & h2 & E). rewrite E in N. rewrite <- !app_assoc in N. cbn [app] in N. rewrite app_assoc in N. apply NoDup_remove_2 in N.
    apply N. rewrite !in_app_iff. tauto.
  Qed.
End Ordered.

(** ** stuck for ever *)
Definition wants (l : lock) (t : thr) : Prop := exists u, todo t = Acq l :: u.
Lemma stuck l ok s s' : steps ok s s' -> forall i t, nth_error s i = Some t -> In l (held t) -> wants l t ->
  nth_error s' i = Some t /\ forall j y, nth_error s j = Some y -> wants l y -> nth_error s' j = Some y.
Proof.
  induction 1 as [|s o s' s'' K X Y IH]; intros i t I H W; [auto|].
  assert (U : forall j y, nth_error s j = Some y -> wants l y -> nth_error s' j = Some y).
  { intros j y J [u E]. destruct X as [a x o x' b A]. destruct (Nat.eq_dec j (length a)) as [->|D].
    - exfalso. rewrite nth_error_app2 in J by lia. rewrite Nat.sub_diag in J. injection J as ->. inversion A as [h l' v G| | | |]; subst; cbn in E; try discriminate.
      injection E as -> ->. unfold free in G. rewrite Forall_forall in G. exact (G t (nth_error_In _ _ I) H).
    - destruct (Nat.lt_ge_cases j (length a)) as [L|L].
      + rewrite nth_error_app1 in * by lia. exact J.
      + rewrite nth_error_app2 in * by lia. destruct (j - length a)%nat as [|n] eqn:Ej; [lia|]. exact J. }
  destruct (IH i t (U i t I W) H W) as [I2 U2]. split; [exact I2|]. intros j y J Wy. apply U2; [|exact Wy]. apply U; assumption.
Qed.
(** whoever waits for a lock waits as long as its holder waits for the network *)
Lemma held_up l b s s' : steps (fun o => o <> Net b) s s' -> forall i t, nth_error s i = Some t -> In l (held t) -> (exists u, todo t = Net b :: u) ->
  nth_error s' i = Some t /\ forall j y, nth_error s j = Some y -> wants l y -> nth_error s' j = Some y.
Proof.
  induction 1 as [|s o s' s'' K X Y IH]; intros i t I H W; [auto|].
  assert (U : forall j y, nth_error s j = Some y -> wants l y \/ (exists u, todo y = Net b :: u) -> nth_error s' j = Some y).
  { intros j y J E. destruct X as [a x o x' c A]. destruct (Nat.eq_dec j (length a)) as [->|D].
    - exfalso. rewrite nth_error_app2 in J by lia. rewrite Nat.sub_diag in J. injection J as ->. destruct E as [[u E]|[u E]].
      + inversion A as [h l' v G| | | |]; subst; cbn in E; try discriminate.
        injection E as -> ->. unfold free in G. rewrite Forall_forall in G. exact (G t (nth_error_In _ _ I) H).
      + inversion A; subst; cbn in E; try discriminate. injection E as -> ->. apply K. reflexivity.
    - destruct (Nat.lt_ge_cases j (length a)) as [L|L].
      + rewrite nth_error_app1 in * by lia. exact J.
      + rewrite nth_error_app2 in * by lia. destruct (j - length a)%nat as [|n] eqn:Ej; [lia|]. exact J. }
  destruct (IH i t (U i t I (or_intror W)) H W) as [I2 U2]. split; [exact I2|]. intros j y J Wy. apply U2; [|exact Wy]. apply U; auto.
Qed.

(** ** the operations of a request *)
Definition allL (P : op -> Prop) (a : lang) : Prop := forall t, a t -> Forall P t.
Lemma all_seq P a b : allL P a -> allL P b -> allL P (a ;; b).
Proof. intros A B t (x & y & X & Y & ->). apply Forall_app. auto. Qed.
Lemma all_may P a : allL P a -> allL P (may a).
Proof. intros A t [->|X]; auto. Qed.
Lemma all_if P b a : allL P a -> allL P (if_may b a).
Proof. intros A. destruct b; [apply all_may, A|]. intros t ->. constructor. Qed.
Lemma all_one (P : op -> Prop) o : P o -> allL P (one o).
Proof. intros H t ->. repeat constructor. exact H. Qed.
Lemma all_locked (P : op -> Prop) l a : P (Acq l) -> P (Rel l) -> allL P a -> allL P (locked l a).
Proof. intros A R H. apply all_seq; [apply all_one, A|]. apply all_seq; [exact H|apply all_one, R]. Qed.
Definition of_handle (b : Z) (o : op) : Prop :=
  o = Net b \/ o = Acq (Mux b) \/ o = Rel (Mux b) \/ o = Acq (CloseL b) \/ o = Rel (CloseL b).
Lemma rag_handle sasl drops b : allL (of_handle b) (requestAndGet sasl drops b).
Proof.
  assert (C : allL (of_handle b) (broker_close b)).
  { apply all_locked; unfold of_handle; auto. intros t ->. constructor. }
  assert (X : allL (of_handle b) (exchange b)).
  { apply all_seq; [apply all_one; unfold of_handle; auto|apply all_may, C]. }
  assert (A : allL (of_handle b) (locked (Mux b) (exchange b))) by (apply all_locked; unfold of_handle; auto).
  apply all_locked; unfold of_handle; auto. apply all_seq; [|apply all_may, X]. apply all_if. apply all_seq; [apply all_one; left; reflexivity|].
  apply all_may, all_seq; [apply all_one; left; reflexivity|]. apply all_if. apply all_seq; [exact A|apply all_may, A].
Qed.
