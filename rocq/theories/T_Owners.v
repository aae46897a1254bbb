(** Theorems about who closes which connection. *)
From Verif Require Import Base Brokers Owners OwnersSpec OwnersFacts.

(** A small world: every connection can be made; there is one broker, number 1, and one topic with one
    partition, whose leader is [leader]. *)
Definition one_dial (w : unit) (a : bytes) : unit * dres := (tt, DialOk).
(** maps are walked in order *)
Definition one_ord (A : Type) (w : unit) (l : list A) : unit * list A := (tt, l).
(** the cluster's answers *)
Definition one_exch (leader : Z) (w : unit) (h : handle) (q : req) : unit * (err + resp * option err) :=
  (tt, match q with
       | QMeta _ => inr (RMeta (mkMeta [(1, [97])] 1 [([116], [(0, (leader, [1]))])]), None)
       | QCoord _ => inr (RCoord 1, None)
       | _ => inl ENoBroker
       end).
(** a bootstrap address of the broker *)
Definition one_boot : list bytes := [[97]].

(** ** C137: closing a producer or a consumer closes its connections *)

(** Statement: whatever the cluster did, after Close of a producer (or Stop of a consumer of its own)
    every connection it made is closed.  It is false for every cluster: *)
Theorem C137_simple_refuted : forall W dial exch ord w boot topic pid s h,
  NewSimple W dial exch ord w boot topic pid = (s, Ok h) ->
  exists i, In i (open_now (b_tr W (SimpleClose W s h))).
Proof.
  intros W dial exch ord w boot topic pid s h E. destruct (simple_open _ _ _ _ _ _ _ _ _ _ E) as (i & _ & (M & G & _) & _).
  exists i. apply open_in. auto.
Qed.
Print Assumptions C137_simple_refuted.
(** A producer loses the connections of a broker list whenever it looks up its topic, and its own. *)
Theorem C137_producer_refuted : forall W dial exch ord w boot topic own ns p k,
  NewBrokers W dial exch w boot = (own, None) ->
  updates W dial exch ord boot topic (mkProd W own None []) ns = (p, k) ->
  (k + 1 <= open_count (p_traces W (ProducerClose W p)))%nat.
Proof.
  intros W dial exch ord w boot topic own ns p k E U. eapply close_open; [|exact U]. split; [|exact I].
  destruct (R_NewBrokers W dial exch ord _ _ _ _ E) as [_ H]. destruct (H eq_refl) as [i Hi]. exists i. exact Hi.
Qed.
Print Assumptions C137_producer_refuted.
(** A partition consumer that has its own broker list does not close it when it stops. *)
Theorem C137_consumer_refuted : forall W dial exch ord w boot own l,
  NewBrokers W dial exch w boot = (own, None) ->
  exists i, In i (open_now (b_tr W (k_b W (stop_all W dial exch ord (kruns W dial exch ord (mkCons W own []) l))))).
Proof.
  intros W dial exch ord w boot own l E. unfold stop_all.
  set (k := kruns W dial exch ord (mkCons W own []) l). unfold kruns at 1. 
  destruct (stop_open W dial exch ord w boot own (l ++ map (fun x => KDrop (fst x)) (k_leads W k)) E) as [i (M & G & _)].
  unfold kruns in M, G. rewrite fold_left_app in M, G. exists i. apply open_in. split; [exact M|exact G].
Qed.
Print Assumptions C137_consumer_refuted.
(** A consumer of several topics and a group consumer close their broker list; what a lookup of an
    unknown node opened stays open all the same. *)
Theorem C137_lookup_refuted : exists own l,
  NewBrokers unit one_dial (one_exch 2) tt one_boot = (own, None) /\
  exists i, In i (open_now (b_tr unit (close_cons unit one_dial (one_exch 2) one_ord (kruns unit one_dial (one_exch 2) one_ord (mkCons unit own []) l)))).
Proof.
  exists (fst (NewBrokers unit one_dial (one_exch 2) tt one_boot)), [KLead 0 [116] 0]. split; [reflexivity|]. exists 1. vm_compute. auto.
Qed.
Print Assumptions C137_lookup_refuted.
(** What they do close: the connection to the leader, that was open before; *)
Theorem C137_leader_partial : forall W dial exch ord w boot topic pid s h,
  NewSimple W dial exch ord w boot topic pid = (s, Ok (Some h)) ->
  In (h_id h) (open_now (b_tr W s)) /\ ~ In (h_id h) (open_now (b_tr W (SimpleClose W s (Some h)))).
Proof.
  intros W dial exch ord w boot topic pid s h E. destruct (simple_open _ _ _ _ _ _ _ _ _ _ E) as (i & _ & _ & (M & G & _) & C).
  split; [apply open_in; auto|]. rewrite open_in. tauto.
Qed.
Print Assumptions C137_leader_partial.
(** and when consumers that share a broker list are stopped and the list is closed, every
    connection but those that were only made to ask for the brokers (if no connection fails after it
    was made). *)
Theorem C137_shared_partial : forall W dial exch ord w boot own l,
  (forall w a w' e, dial w a <> (w', InitFail e)) ->
  NewBrokers W dial exch w boot = (own, None) ->
  let tr := b_tr W (close_cons W dial exch ord (kruns W dial exch ord (mkCons W own []) l)) in
  forall i, In i (open_now tr) -> In i (probed tr).
Proof. intros W dial exch ord w boot own l T E tr i. exact (close_probed W dial exch ord w boot own l i T E). Qed.
Print Assumptions C137_shared_partial.
(** A connection that fails after it was made is in nobody's hands. *)
Theorem C137_failed_refuted : forall W dial exch w boot s e a,
  boot = [a] -> (exists w' x, dial w a = (w', InitFail x)) ->
  NewBrokers W dial exch w boot = (s, e) -> e <> None /\ b_cache W s = [] /\ open_now (b_tr W s) = [0].
Proof.
  intros W dial exch w boot s e a -> (w' & x & D). unfold NewBrokers, new_brokers, new_broker. cbn [start b_w]. rewrite D.
  intros E. injection E as <- <-. repeat split. discriminate.
Qed.
Print Assumptions C137_failed_refuted.
(** a producer that looked up its topic twice: connections 0 and 1 of a broker list are that of the
    list and that of the leader *)
Definition one_own : bst unit := fst (NewBrokers unit one_dial (one_exch 1) tt one_boot).
Example C137_example :
  snd (updates unit one_dial (one_exch 1) one_ord one_boot [116] (mkProd unit one_own None []) [0%nat; 0%nat]) = 2%nat /\
  map open_now (p_traces unit (fst (updates unit one_dial (one_exch 1) one_ord one_boot [116] (mkProd unit one_own None []) [0%nat; 0%nat]))) = [[0]; [0; 1]; [0]] /\
  map open_now (p_traces unit (ProducerClose unit (fst (updates unit one_dial (one_exch 1) one_ord one_boot [116] (mkProd unit one_own None []) [0%nat; 0%nat])))) = [[0]; [0]; [0]] /\
  open_now (b_tr unit (k_b unit (kruns unit one_dial (one_exch 1) one_ord (mkCons unit one_own []) [KCoord [103]; KLead 0 [116] 0; KLead 1 [116] 0; KDrop 0]))) = [0; 2] /\
  open_now (b_tr unit (close_cons unit one_dial (one_exch 1) one_ord (kruns unit one_dial (one_exch 1) one_ord (mkCons unit one_own []) [KCoord [103]; KLead 0 [116] 0; KLead 1 [116] 0; KDrop 0]))) = [].
Proof. repeat split. Qed.

(** ** C138: the number of open connections is bounded *)

(** Statement: there is a number such that a producer or a consumer never has more connections open.
    It is false for a producer, even after it is closed: a cluster of one broker where all goes well. *)
Lemma one_simple : snd (NewSimple unit one_dial (one_exch 1) one_ord tt one_boot [116] 0) = Ok (Some (mkH 1 1 [97])).
Proof. reflexivity. Qed.
Lemma one_update cur old tr nx h : exists cur' old' tr',
  update unit one_dial (one_exch 1) one_ord one_boot [116] (mkProd unit (mkB unit tt one_boot [(1, [97])] [(1, h)] 1 nx tr) cur old) 0 =
  (mkProd unit (mkB unit tt one_boot [(1, [97])] [(1, h)] 1 nx tr') cur' old', Ok tt).
Proof.
  set (p := fst (update unit one_dial (one_exch 1) one_ord one_boot [116] (mkProd unit (mkB unit tt one_boot [(1, [97])] [(1, h)] 1 nx tr) cur old) 0)).
  exists (p_cur unit p), (p_old unit p), (b_tr unit (p_own unit p)). vm_compute. reflexivity.
Qed.
Lemma one_updates : forall n cur old tr nx h,
  snd (updates unit one_dial (one_exch 1) one_ord one_boot [116] (mkProd unit (mkB unit tt one_boot [(1, [97])] [(1, h)] 1 nx tr) cur old) (repeat 0%nat n)) = n.
Proof.
  induction n as [|n IH]; intros cur old tr nx h; [reflexivity|]. cbn [repeat updates].
  destruct (one_update cur old tr nx h) as (cur' & old' & tr' & E). rewrite E. specialize (IH cur' old' tr' nx h).
  destruct (updates unit one_dial (one_exch 1) one_ord one_boot [116] (mkProd unit (mkB unit tt one_boot [(1, [97])] [(1, h)] 1 nx tr') cur' old') (repeat 0%nat n)) as [p k].
  cbn in *. congruence.
Qed.
Theorem C138_producer_refuted : exists own, NewBrokers unit one_dial (one_exch 1) tt one_boot = (own, None) /\
  forall n : nat, exists ns,
    (n < open_count (p_traces unit (ProducerClose unit (fst (updates unit one_dial (one_exch 1) one_ord one_boot [116%Z] (mkProd unit own None []) ns)))))%nat.
Proof.
  exists one_own. split; [reflexivity|]. intros n. exists (repeat 0%nat n).
  pose proof (one_updates n None [] (b_tr unit one_own) 1 (mkH 0 (-1) [97])) as K.
  destruct (updates unit one_dial (one_exch 1) one_ord one_boot [116] (mkProd unit one_own None []) (repeat 0%nat n)) as [p k] eqn:E.
  pose proof (C137_producer_refuted unit one_dial (one_exch 1) one_ord tt one_boot [116] one_own _ p k eq_refl E) as L.
  assert (k = n) by (change one_own with (mkB unit tt one_boot [(1, [97])] [(1, mkH 0 (-1) [97])] 1 1 (b_tr unit one_own)) in E; rewrite E in K; exact K).
  cbn [fst]. lia.
Qed.
Print Assumptions C138_producer_refuted.
(** Nor for a consumer whose leader is a node the cluster does not list: every try leaves
    connections. *)
Lemma two_step tr nx h : exists tr', kstep unit one_dial (one_exch 2) one_ord (mkCons unit (mkB unit tt one_boot [(1, [97])] [(1, h)] 1 nx tr) []) (KLead 0 [116] 0) =
  mkCons unit (mkB unit tt one_boot [(1, [97])] [(1, h)] 1 (nx + 1 + 1) tr') [] /\ made tr' = made tr ++ [nx; nx + 1] /\ gone tr' = gone tr.
Proof.
  set (k := kstep unit one_dial (one_exch 2) one_ord (mkCons unit (mkB unit tt one_boot [(1, [97])] [(1, h)] 1 nx tr) []) (KLead 0 [116] 0)).
  exists (b_tr unit (k_b unit k)). split; [vm_compute; reflexivity|].
  assert (E : b_tr unit (k_b unit k) = ((((((((tr ++ [EvGet 1 (inl h)]) ++ [EvAsk h (QMeta [[116]]) (Some (RMeta (mkMeta [(1, [97])] 1 [([116], [(0, (2, [1]))])])), None)]) ++
     [EvOpen nx]) ++ [EvProbe (mkH nx (-1) [97])]) ++ [EvOpen (nx + 1)]) ++ [EvProbe (mkH (nx + 1) (-1) [97])]) ++ []) ++ [])) by (rewrite !app_nil_r; vm_compute; reflexivity).
  rewrite E, !made_app, !gone_app. cbn. rewrite <- !app_assoc, !app_nil_r. split; reflexivity.
Qed.
Lemma kruns_cons W dial exch ord k o l : kruns W dial exch ord k (o :: l) = kruns W dial exch ord (kstep W dial exch ord k o) l.
Proof. reflexivity. Qed.
Lemma two_steps : forall n tr nx h, gone tr = [] -> let k := kruns unit one_dial (one_exch 2) one_ord (mkCons unit (mkB unit tt one_boot [(1, [97])] [(1, h)] 1 nx tr) []) (repeat (KLead 0 [116] 0) n) in
  k_leads unit k = [] /\ b_cache unit (k_b unit k) = [(1, h)] /\ gone (b_tr unit (k_b unit k)) = [] /\ (length (made (b_tr unit (k_b unit k))) = length (made tr) + 2 * n)%nat.
Proof.
  induction n as [|n IH]; intros tr nx h G; cbn zeta; [split; [reflexivity|]; split; [reflexivity|]; split; [exact G|cbn [repeat kruns fold_left k_b b_tr]; lia]|].
  cbn [repeat]. rewrite kruns_cons. destruct (two_step tr nx h) as (tr' & E & M & G'). rewrite E. rewrite G in G'.
  destruct (IH tr' (nx + 1 + 1) h G') as (A & B & C & D). split; [exact A|]. split; [exact B|]. split; [exact C|]. rewrite D, M, app_length. cbn. lia.
Qed.
Lemma filter_true (l : list Z) : filter (fun i => negb (existsb (Z.eqb i) [])) l = l.
Proof. induction l as [|x l IH]; cbn in *; [reflexivity|]. f_equal. exact IH. Qed.
Theorem C138_consumer_refuted : exists own, NewBrokers unit one_dial (one_exch 2) tt one_boot = (own, None) /\
  forall n : nat, exists l,
    (n < length (open_now (b_tr unit (k_b unit (kruns unit one_dial (one_exch 2) one_ord (mkCons unit own []) l)))))%nat.
Proof.
  exists (fst (NewBrokers unit one_dial (one_exch 2) tt one_boot)). split; [reflexivity|]. intros n. exists (repeat (KLead 0 [116] 0) n).
  set (tr := b_tr unit (fst (NewBrokers unit one_dial (one_exch 2) tt one_boot))).
  destruct (two_steps n tr 1 (mkH 0 (-1) [97]) eq_refl) as (_ & _ & G & L).
  change (fst (NewBrokers unit one_dial (one_exch 2) tt one_boot)) with (mkB unit tt one_boot [(1, [97])] [(1, mkH 0 (-1) [97])] 1 1 tr).
  unfold open_now. rewrite G, filter_true, L. cbn. lia.
Qed.
Print Assumptions C138_consumer_refuted.
(** What bounds it: one connection for every node that was looked up, one for every partition
    consumer, and those made to ask for the brokers. *)
Theorem C138_bound_partial : forall W dial exch ord w boot own l,
  (forall w a w' e, dial w a <> (w', InitFail e)) ->
  NewBrokers W dial exch w boot = (own, None) ->
  let k := kruns W dial exch ord (mkCons W own []) l in
  (length (open_now (b_tr W (k_b W k))) <= length (b_cache W (k_b W k)) + length (k_leads W k) + length (probed (b_tr W (k_b W k))))%nat.
Proof. intros W dial exch ord w boot own l T E. exact (open_bound W dial exch ord w boot own l T E). Qed.
Print Assumptions C138_bound_partial.
Example C138_example :
  let k := kruns unit one_dial (one_exch 1) one_ord (mkCons unit one_own []) [KCoord [103]; KLead 0 [116] 0; KLead 1 [116] 0; KDrop 0; KLead 0 [116] 0] in
  (length (open_now (b_tr unit (k_b unit k))), length (b_cache unit (k_b unit k)), length (k_leads unit k), length (probed (b_tr unit (k_b unit k)))) = (3, 1, 2, 1)%nat /\
  length (open_now (b_tr unit (k_b unit (kruns unit one_dial (one_exch 2) one_ord (mkCons unit one_own []) (repeat (KLead 0 [116] 0) 10))))) = 21%nat.
Proof. split; reflexivity. Qed.
