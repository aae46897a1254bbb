(** Locks: goroutines that wait for each other, for the network, and that use the same map. *)
From Verif Require Import Base Locks LocksSpec LocksFacts.
Local Open Scope lang_scope.

(** ** sequences of functions *)
Lemma in_seq (a b : lang) x y : a x -> b y -> (a ;; b) (x ++ y).
Proof. intros A B. exists x, y. auto. Qed.
Lemma in_yes (a : lang) x : a x -> may a x.
Proof. intros A. right. exact A. Qed.
Lemma in_no (a : lang) : may a [].
Proof. left. reflexivity. Qed.
Lemma in_locked (a : lang) l x : a x -> locked l a ([Acq l] ++ x ++ [Rel l]).
Proof. intros A. apply in_seq; [reflexivity|]. apply in_seq; [exact A|reflexivity]. Qed.
Lemma in_star (a : lang) x : a x -> star a x.
Proof. intros A. rewrite <- (app_nil_r x). constructor; [exact A|constructor]. Qed.
Ltac pick H := first [exact H | eexists; exact H | eexists; eexists; exact H | left; pick H | right; pick H].
Ltac a_call H := apply in_star; unfold call; pick H.

(** RequestAndGet over an open connection *)
Lemma ask b : requestAndGet false false b [Acq (Mux b); Net b; Rel (Mux b)].
Proof. apply (in_locked _ _ [Net b]), (in_seq _ _ [] [Net b]); [reflexivity|]. apply in_yes, (in_seq _ _ [Net b] []); [reflexivity|apply in_no]. Qed.
(** Brokers.GetBroker of a handle it has *)
Lemma has sasl drops k : getBroker sasl drops k [Acq (BMutex k); Rd (Handles k); Rel (BMutex k)].
Proof. apply (in_locked _ _ [Rd (Handles k)]), (in_seq _ _ [Rd (Handles k)] []); [reflexivity|apply in_no]. Qed.
(** of one it has to connect to: dialling, the API versions *)
Lemma dials k b : getBroker false false k [Acq (BMutex k); Rd (Handles k); Net b; Net b; Wr (Handles k); Rel (BMutex k)].
Proof.
  apply (in_locked _ _ [Rd (Handles k); Net b; Net b; Wr (Handles k)]), (in_seq _ _ [Rd (Handles k)] [Net b; Net b; Wr (Handles k)]); [reflexivity|].
  apply in_yes, (in_seq _ _ [] [Net b; Net b; Wr (Handles k)]); [apply in_no|]. apply in_yes. exists b. apply (in_seq _ _ [Net b; Net b] [Wr (Handles k)]).
  - apply (in_seq _ _ [Net b] [Net b]); [reflexivity|]. apply in_yes, (in_seq _ _ [Net b] []); reflexivity.
  - apply in_yes. reflexivity.
Qed.
(** a request to broker [b] over a handle it has *)
Lemma asks k b : toBroker false false k [Acq (BMutex k); Rd (Handles k); Rel (BMutex k); Acq (Mux b); Net b; Rel (Mux b)].
Proof. apply (in_seq _ _ [Acq (BMutex k); Rd (Handles k); Rel (BMutex k)] [Acq (Mux b); Net b; Rel (Mux b)]); [apply has|]. apply in_yes. exists b. apply ask. Qed.

(** goroutine [i] goes on, if it can *)
Definition can (h : list lock) (o : op) (s : list thr) : bool :=
  match o with
  | Acq l => forallb (fun x => negb (if in_dec lock_dec l (held x) then true else false)) s
  | Rel l => match h with x :: _ => if lock_dec l x then true else false | [] => false end
  | _ => true
  end.
Definition next (s : list thr) (i : nat) : list thr :=
  match skipn i s with
  | mkThr h (o :: t) :: b => if can h o s then firstn i s ++ mkThr (match o with Acq l => l :: h | Rel _ => tl h | _ => h end) t :: b else s
  | _ => s
  end.
Lemma reach_next sd dr fa cl s i : reach sd dr fa cl s -> reach sd dr fa cl (next s i).
Proof.
  intros R. unfold next. destruct (skipn i s) as [|[h [|o t]] b] eqn:E; try exact R. destruct (can h o s) eqn:C; [|exact R].
  apply reach_step with (s := s) (o := o); [exact R|]. rewrite <- (firstn_skipn i s) at 1. rewrite E. constructor.
  destruct o as [l|l|z|m|m]; cbn in C; try constructor.
  - rewrite <- E, firstn_skipn. unfold free. rewrite Forall_forall. rewrite forallb_forall in C. intros x I. specialize (C x I).
    destruct (in_dec lock_dec l (held x)); [discriminate|assumption].
  - destruct h as [|x h]; [discriminate|]. destruct (lock_dec l x) as [->|]; [|discriminate]. constructor.
Qed.
Lemma reach_run sd dr fa cl is s : reach sd dr fa cl s -> reach sd dr fa cl (fold_left next is s).
Proof. revert s. induction is as [|i is IH]; intros s R; [exact R|]. apply IH, reach_next, R. Qed.

(** ** C133 Goroutines do not wait for each other for ever *)
(** Whatever goroutines run: unless all are through, one of them can go on -- if no login is needed,
    or no connection is found closed. *)
Theorem C133_no_deadlock_partial : forall sasl drops fails closes s,
  sasl && drops = false -> reach sasl drops fails closes s -> ~ deadlock s.
Proof. intros sasl drops fails closes s E. apply (no_deadlock false true); [auto|discriminate|reflexivity]. Qed.
Print Assumptions C133_no_deadlock_partial.
(** and all of them can get through *)
Theorem C133_all_finish_partial : forall sasl drops fails closes s,
  sasl && drops = false -> reach sasl drops fails closes s -> exists s', steps (fun _ => True) s s' /\ all_done s'.
Proof. intros sasl drops fails closes s E. apply (finish false true); [auto|discriminate|reflexivity]. Qed.
Print Assumptions C133_all_finish_partial.
(** A goroutine that finds its connection closed where a login is needed waits for the lock it holds. *)
Definition again : thr := mkThr [Mux 1] [Acq (Mux 1); Net 1; Rel (Mux 1); Rel (Mux 1)].
Lemma again_reach : reach true true false false [again].
Proof.
  assert (R : reach true true false false ([] ++ [mkThr [] [Acq (Mux 1); Net 1; Net 1; Acq (Mux 1); Net 1; Rel (Mux 1); Rel (Mux 1)]])).
  { apply reach_calls; [constructor|].
    assert (H : requestAndGet true true 1 [Acq (Mux 1); Net 1; Net 1; Acq (Mux 1); Net 1; Rel (Mux 1); Rel (Mux 1)]).
    { apply (in_locked _ _ [Net 1; Net 1; Acq (Mux 1); Net 1; Rel (Mux 1)]).
      apply (in_seq _ _ [Net 1; Net 1; Acq (Mux 1); Net 1; Rel (Mux 1)] []); [|apply in_no]. apply in_yes, (in_seq _ _ [Net 1] [Net 1; Acq (Mux 1); Net 1; Rel (Mux 1)]); [reflexivity|].
      apply in_yes, (in_seq _ _ [Net 1] [Acq (Mux 1); Net 1; Rel (Mux 1)]); [reflexivity|]. apply in_yes.
      apply (in_seq _ _ [Acq (Mux 1); Net 1; Rel (Mux 1)] []); [|apply in_no]. apply (in_locked _ _ [Net 1]), (in_seq _ _ [Net 1] []); [reflexivity|apply in_no]. }
    assert (H' : ask1 true true [Acq (Mux 1); Net 1; Net 1; Acq (Mux 1); Net 1; Rel (Mux 1); Rel (Mux 1)]) by (exists 1; exact H). a_call H'. }
  exact (reach_run _ _ _ _ [0; 0; 0]%nat _ R).
Qed.
Theorem C133_refuted : exists s, reach true true false false s /\ deadlock s.
Proof.
  exists [again]. split; [exact again_reach|]. split.
  - intros D. inversion D as [|? ? E _]. discriminate E.
  - intros o s' X. inversion X as [a x o' x' b A E]. destruct a as [|y [|z a]]; try discriminate. injection E as -> ->. inversion A as [? ? ? G| | | |]; subst.
    inversion G as [|? ? N _]. apply N. left. reflexivity.
Qed.
Print Assumptions C133_refuted.
(** and whoever else wants to use that handle waits with it, whatever happens *)
Theorem C133_for_ever : forall l ok s s' i t, steps ok s s' -> nth_error s i = Some t -> In l (held t) -> (exists u, todo t = Acq l :: u) ->
  nth_error s' i = Some t /\ forall j y, nth_error s j = Some y -> (exists u, todo y = Acq l :: u) -> nth_error s' j = Some y.
Proof. intros l ok s s' i t X I H W. exact (stuck l ok s s' X i t I H W). Qed.
Print Assumptions C133_for_ever.

(** two goroutines at one Brokers: the first connects to broker 1 and has the lock *)
Definition dialling : thr := mkThr [BMutex 1] [Net 1; Net 1; Wr (Handles 1); Rel (BMutex 1)].
Definition waiting : thr := mkThr [] [Acq (BMutex 1); Rd (Handles 1); Rel (BMutex 1); Acq (Mux 2); Net 2; Rel (Mux 2)].
Lemma dialling_reach : reach false false false false [dialling; waiting].
Proof.
  assert (R : reach false false false false (([] ++ [mkThr [] [Acq (BMutex 1); Rd (Handles 1); Net 1; Net 1; Wr (Handles 1); Rel (BMutex 1)]]) ++ [waiting])).
  { apply reach_calls; [apply reach_calls; [constructor|]|].
    - assert (H := dials 1 1). a_call H.
    - assert (H := asks 1 2). a_call H. }
  exact (reach_run _ _ _ _ [0; 0]%nat _ R).
Qed.
Example C133_example : ~ deadlock [dialling; waiting] /\ exists s', steps (fun _ => True) [dialling; waiting] s' /\ all_done s'.
Proof.
  split; [exact (C133_no_deadlock_partial false false _ _ _ eq_refl dialling_reach)|exact (C133_all_finish_partial false false _ _ _ eq_refl dialling_reach)].
Qed.

(** ** C134 Closing a handle does not wait for the network *)
(** Whatever the others do, a goroutine that closes a handle gets its lock without anything coming
    from a broker. *)
Theorem C134_close_proceeds : forall sasl drops fails closes s i h b u,
  reach sasl drops fails closes s -> nth_error s i = Some (mkThr h (Acq (CloseL b) :: u)) ->
  exists s', steps (fun o => ~ is_net o) s s' /\ nth_error s' i = Some (mkThr (CloseL b :: h) u).
Proof.
  intros sasl drops fails closes s i h b u R I. apply (inv_reach false false) in R; [|discriminate|discriminate].
  destruct (nth_error_split _ _ I) as (a & c & -> & <-). destruct (close_soon _ _ _ _ _ _ _ R) as (a' & c' & X & La & _).
  exists (a' ++ mkThr (CloseL b :: h) u :: c'). split; [exact X|]. rewrite nth_error_app2, La, Nat.sub_diag by lia. reflexivity.
Qed.
Print Assumptions C134_close_proceeds.
(** who has the lock gives it back with the next operation *)
Theorem C134_close_ends : forall sasl drops fails closes s t b,
  reach sasl drops fails closes s -> In t s -> In (CloseL b) (held t) -> exists u, todo t = Rel (CloseL b) :: u.
Proof.
  intros sasl drops fails closes s t b R I H. apply (inv_reach false false) in R; [|discriminate|discriminate]. destruct R as [_ F].
  rewrite Forall_forall in F. destruct (F t I) as [O D]. destruct (desc_top _ _ _ H D) as [h' E]. rewrite E in O. eapply top_releases, O.
Qed.
Print Assumptions C134_close_ends.
(** one goroutine asks broker 1 and waits for it, another one closes the handle *)
Example C134_example :
  reach false false false false [mkThr [Mux 1] [Net 1; Rel (Mux 1)]; mkThr [] [Acq (CloseL 1); Rel (CloseL 1)]] /\
  exists s', steps (fun o => ~ is_net o) [mkThr [Mux 1] [Net 1; Rel (Mux 1)]; mkThr [] [Acq (CloseL 1); Rel (CloseL 1)]] s' /\
             nth_error s' 1 = Some (mkThr [CloseL 1] [Rel (CloseL 1)]).
Proof.
  assert (R : reach false false false false [mkThr [Mux 1] [Net 1; Rel (Mux 1)]; mkThr [] [Acq (CloseL 1); Rel (CloseL 1)]]).
  { assert (R : reach false false false false (([] ++ [mkThr [] [Acq (Mux 1); Net 1; Rel (Mux 1)]]) ++ [mkThr [] [Acq (CloseL 1); Rel (CloseL 1)]])).
    { apply reach_calls; [apply reach_calls; [constructor|]|].
      - assert (H : ask1 false false [Acq (Mux 1); Net 1; Rel (Mux 1)]) by (exists 1; apply ask). a_call H.
      - assert (H : broker_close 1 [Acq (CloseL 1); Rel (CloseL 1)]) by (apply (in_locked _ _ []); reflexivity). a_call H. }
    exact (reach_run _ _ _ _ [0]%nat _ R). }
  split; [exact R|]. exact (C134_close_proceeds _ _ _ _ _ 1%nat _ _ _ R eq_refl).
Qed.

(** ** C135 A broker that does not answer holds up only those who ask it *)
(** One goroutine connects to broker 1, in GetBroker.  Another one wants to ask broker 2, whose
    handle is there: it gets nowhere until broker 1 answers. *)
Theorem C135_refuted : exists s i t, reach false false false false s /\ nth_error s i = Some t /\ toBroker false false 1 (todo t) /\
  (forall b, In (Net b) (todo t) -> b = 2) /\
  forall s', steps (fun o => o <> Net 1) s s' -> nth_error s' i = Some t.
Proof.
  exists [dialling; waiting], 1%nat, waiting. split; [exact dialling_reach|]. split; [reflexivity|]. split; [apply asks|]. split.
  - cbn. intros b I. repeat (destruct I as [I|I]; [congruence|]). destruct I.
  - intros s' X. apply (held_up (BMutex 1) 1 _ _ X 0%nat dialling); try reflexivity; [left; reflexivity|eexists; reflexivity|eexists; reflexivity].
Qed.
Print Assumptions C135_refuted.
(** Over a handle nobody else is using, RequestAndGet waits for nothing but the answer of its broker. *)
Theorem C135_own_handle_partial : forall sasl drops fails closes a t c b,
  sasl && drops = false -> reach sasl drops fails closes (a ++ mkThr [] t :: c) -> requestAndGet sasl drops b t ->
  Forall (fun x => ~ In (Mux b) (held x) /\ ~ In (CloseL b) (held x)) (a ++ c) ->
  steps (fun o => forall x, o = Net x -> x = b) (a ++ mkThr [] t :: c) (a ++ mkThr [] [] :: c).
Proof.
  intros sasl drops fails closes a t c b E R Q F. apply (inv_reach false true) in R; [|auto|discriminate].
  pose proof (rag_handle _ _ _ _ Q) as H. rewrite Forall_forall in H.
  assert (X : steps (fun o => In o t) (a ++ mkThr [] t :: c) (a ++ mkThr [] [] :: c)).
  { apply (alone false true _ eq_refl [] a c R). intros l I. specialize (H _ I). destruct H as [H|[H|[H|[H|H]]]]; try discriminate; injection H as ->; (eapply Forall_impl; [|exact F]); intros x [A B]; first [exact A|exact B]. }
  clear R Q F E. assert (W : forall s s', steps (fun o => In o t) s s' -> steps (fun o => forall x, o = Net x -> x = b) s s'); [|apply W, X].
  intros s s' Y. induction Y as [|s o s' s'' K Y1 Y2 IH]; [constructor|]. econstructor; [|exact Y1|exact IH]. intros x ->. specialize (H _ K).
  destruct H as [H|[H|[H|[H|H]]]]; try discriminate. injection H as ->. reflexivity.
Qed.
Print Assumptions C135_own_handle_partial.
(** broker 1 does not answer: the goroutine that has the handle of broker 2 gets its answer *)
Example C135_example : steps (fun o => forall x, o = Net x -> x = 2) [mkThr [Mux 1] [Net 1; Rel (Mux 1)]; mkThr [] [Acq (Mux 2); Net 2; Rel (Mux 2)]]
                                                                     [mkThr [Mux 1] [Net 1; Rel (Mux 1)]; mkThr [] []].
Proof.
  apply (C135_own_handle_partial false false false false [mkThr [Mux 1] [Net 1; Rel (Mux 1)]] [Acq (Mux 2); Net 2; Rel (Mux 2)] []); [reflexivity| |apply ask|].
  - assert (R : reach false false false false (([] ++ [mkThr [] [Acq (Mux 1); Net 1; Rel (Mux 1)]]) ++ [mkThr [] [Acq (Mux 2); Net 2; Rel (Mux 2)]])).
    { apply reach_calls; [apply reach_calls; [constructor|]|].
      - assert (H : ask1 false false [Acq (Mux 1); Net 1; Rel (Mux 1)]) by (exists 1; apply ask). a_call H.
      - assert (H : ask1 false false [Acq (Mux 2); Net 2; Rel (Mux 2)]) by (exists 2; apply ask). a_call H. }
    exact (reach_run _ _ _ _ [0]%nat _ R).
  - repeat constructor; cbn; intuition discriminate.
Qed.

(** ** C136 A map is not changed by one goroutine while another one uses it *)
(** The handles of a Brokers: nobody uses them without the lock, if no Brokers is closed and
    every leader can be reached. *)
Theorem C136_handles_partial : forall sasl drops s k, reach sasl drops false false s -> ~ race (Handles k) s.
Proof.
  intros sasl drops s k R. apply (inv_reach true false) in R; [|discriminate|auto]. revert R. eapply no_race; try reflexivity; auto.
Qed.
Print Assumptions C136_handles_partial.
(** GetBroker about to enter a new handle *)
Definition entering : thr := mkThr [BMutex 1] [Wr (Handles 1); Rel (BMutex 1)].
(** Brokers.Close reads the map while GetBroker writes it *)
Theorem C136_close_refuted : exists s, reach false false false true s /\ race (Handles 1) s.
Proof.
  exists [entering; mkThr [] [Rd (Handles 1)]]. split.
  - assert (R : reach false false false true (([] ++ [mkThr [] [Acq (BMutex 1); Rd (Handles 1); Net 2; Net 2; Wr (Handles 1); Rel (BMutex 1)]]) ++ [mkThr [] [Rd (Handles 1)]])).
    { apply reach_calls; [apply reach_calls; [constructor|]|].
      - assert (H := dials 1 2). a_call H.
      - assert (H : brokersClose 1 [Rd (Handles 1)]) by (apply (in_seq _ _ [Rd (Handles 1)] []); [reflexivity|constructor]). apply in_star. unfold call. cbn [if_may].
        do 22 right. left. exists 1. exact H. }
    exact (reach_run _ _ _ _ [0; 0; 0; 0]%nat _ R).
  - exists [], entering, [], (mkThr [] [Rd (Handles 1)]), []. split; [reflexivity|]. left. split; [eexists; reflexivity|left; eexists; reflexivity].
Qed.
Print Assumptions C136_close_refuted.
(** getLeaderBroker logs it, when the leader cannot be reached, while GetBroker writes it *)
Theorem C136_log_refuted : exists s, reach false false true false s /\ race (Handles 1) s.
Proof.
  exists [mkThr [] [Rd (Handles 1)]; entering]. split.
  - set (l := [Acq (BMutex 1); Rd (Handles 1); Rel (BMutex 1); Acq (Mux 2); Net 2; Rel (Mux 2); Net 3; Rd (Handles 1)]).
    assert (R : reach false false true false (([] ++ [mkThr [] l]) ++ [mkThr [] [Acq (BMutex 1); Rd (Handles 1); Net 2; Net 2; Wr (Handles 1); Rel (BMutex 1)]])).
    { apply reach_calls; [apply reach_calls; [constructor|]|].
      - assert (H : consumeStart false false true 1 l).
        { apply (in_seq _ _ l []); [|constructor]. apply in_star, (in_seq _ _ [Acq (BMutex 1); Rd (Handles 1); Rel (BMutex 1); Acq (Mux 2); Net 2; Rel (Mux 2)] [Net 3; Rd (Handles 1)]).
          - apply in_star, asks.
          - apply in_yes, (in_seq _ _ [Net 3] [Rd (Handles 1)]); [|apply in_yes; reflexivity]. apply (in_seq _ _ [] [Net 3]); [apply in_no|]. apply in_yes. exists 3.
            apply (in_seq _ _ [Net 3] []); [reflexivity|apply in_no]. }
        a_call H.
      - assert (H := dials 1 2). a_call H. }
    exact (reach_run _ _ _ _ [0; 0; 0; 0; 0; 0; 0; 1; 1; 1; 1]%nat _ R).
  - exists [], (mkThr [] [Rd (Handles 1)]), [], entering, []. split; [reflexivity|]. right. split; eexists; reflexivity.
Qed.
Print Assumptions C136_log_refuted.
(** two goroutines that produce with a key, for the first time *)
Theorem C136_keyed_refuted : exists s, reach false false false false s /\ race (Leaders 1) s.
Proof.
  set (l := [Rd (Keyed 1); Rd (Leaders 1); Net 2; Net 2; Wr (Leaders 1)]). exists [mkThr [] [Wr (Leaders 1)]; mkThr [] [Wr (Leaders 1)]]. split.
  - assert (H : producerAdd false false 1 l).
    { apply in_star, (in_seq _ _ l []); [|apply in_no]. right. apply (in_seq _ _ [Rd (Keyed 1)] [Rd (Leaders 1); Net 2; Net 2; Wr (Leaders 1)]); [reflexivity|].
      apply in_yes, (in_seq _ _ [Rd (Leaders 1)] [Net 2; Net 2; Wr (Leaders 1)]); [reflexivity|]. apply (in_seq _ _ [Net 2; Net 2; Wr (Leaders 1)] []); [|apply in_no].
      apply in_yes, (in_seq _ _ [Net 2; Net 2] [Wr (Leaders 1)]); [|apply in_yes; reflexivity]. apply (in_seq _ _ [] [Net 2; Net 2]); [apply in_no|]. apply in_yes. exists 2.
      apply (in_seq _ _ [Net 2] [Net 2]); [reflexivity|]. apply in_yes, (in_seq _ _ [Net 2] []); reflexivity. }
    assert (R : reach false false false false (([] ++ [mkThr [] l]) ++ [mkThr [] l])).
    { apply reach_calls; [apply reach_calls; [constructor|]|]; a_call H. }
    exact (reach_run _ _ _ _ [0; 0; 0; 0; 1; 1; 1; 1]%nat _ R).
  - exists [], (mkThr [] [Wr (Leaders 1)]), [], (mkThr [] [Wr (Leaders 1)]), []. split; [reflexivity|]. left. split; [|right]; eexists; reflexivity.
Qed.
Print Assumptions C136_keyed_refuted.
Example C136_example : ~ race (Handles 1) [dialling; waiting].
Proof. exact (C136_handles_partial _ _ _ _ dialling_reach). Qed.
