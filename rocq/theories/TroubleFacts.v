From Verif Require Import Base BaseFacts Brokers Owners Responses ProducerSpec TroubleSpec.

Lemma first_wrapped_some cs c : In c cs -> c <> 0 -> exists c', first_wrapped cs = Some (EWrap (EKafka c')) /\ c' <> 0 /\ In c' cs.
Proof.
  intros Hi Hc. unfold first_wrapped. destruct (find _ cs) as [c'|] eqn:F.
  - apply find_some in F. destruct F as [I F]. exists c'. split; [reflexivity|]. split; [|exact I].
    apply Bool.negb_true_iff, Z.eqb_neq in F. exact F.
  - pose proof (find_none _ _ F c Hi) as N. cbn in N. apply Bool.negb_false_iff, Z.eqb_eq in N. contradiction.
Qed.
Lemma first_wrapped_none cs : Forall (fun c => c = 0) cs -> first_wrapped cs = None.
Proof.
  intros H. unfold first_wrapped. destruct (find _ cs) as [c'|] eqn:F; [|reflexivity].
  apply find_some in F. destruct F as [I F]. rewrite Forall_forall in H. rewrite (H _ I) in F. discriminate.
Qed.

Section Trouble.
  Variable W : Type.
  Variable dial : W -> bytes -> W * dres.
  Variable exch : W -> handle -> req -> W * (err + resp * option err).
  Variable ord : forall A : Type, W -> list A -> W * list A.
  Hypothesis T : troubled exch.

  Lemma rmd_troubled ts : ts <> [] -> forall l s r, snd (snd (rmd W dial exch ord s l ts r)) <> None.
  Proof using T.
    intros Ht. induction l as [|[node a] l IH]; intros s r; cbn [rmd]; [discriminate|].
    destruct (GetBroker W dial exch ord s node) as [s1 [h|e]]; [|apply IH].
    unfold rag. pose proof (T (b_w W s1) h ts Ht) as X. destruct (exch (b_w W s1) h (QMeta ts)) as [w [e|[q [e|]]]]; cbn [snd] in X; [| |contradiction].
    - cbn [as_meta fst snd]. destruct (kafka_err e); [discriminate|apply IH].
    - unfold as_meta. cbn [fst snd]. destruct q; cbn [fst snd]; (destruct (kafka_err e); [discriminate|apply IH]).
  Qed.
  Lemma meta_troubled s t : snd (snd (RequestMetaData W dial exch ord s [t])) <> None.
  Proof using T. unfold RequestMetaData. destruct (ordered W ord s (b_info W s)). apply rmd_troubled. discriminate. Qed.
  Lemma update_troubled boot topic p n : exists s e, update W dial exch ord boot topic p n = (mkProd W s (p_cur W p) (p_old W p), Err (EWrap e)).
  Proof using T.
    unfold update. pose proof (meta_troubled (p_own W p) topic) as N. destruct (RequestMetaData _ _ _ _ _ _) as [s [m [e|]]]; cbn [snd] in N; [|contradiction].
    exists s, e. reflexivity.
  Qed.
  Lemma updates_troubled boot topic : forall ns p, exists s, updates W dial exch ord boot topic p ns = (mkProd W s (p_cur W p) (p_old W p), 0%nat).
  Proof using T.
    induction ns as [|n ns IH]; intros p; cbn [updates].
    - destruct p as [o c l]. exists o. reflexivity.
    - destruct (update_troubled boot topic p n) as (s & e & E). rewrite E.
      destruct (IH (mkProd W s (p_cur W p) (p_old W p))) as [s' E']. cbn [p_cur p_old] in E'. rewrite E'. exists s'. reflexivity.
  Qed.
  Lemma offsets_troubled s t pid time num : exists e, snd (RequestOffsets W dial exch ord s t pid time num) = Err (EWrap e).
  Proof using T.
    unfold RequestOffsets. pose proof (meta_troubled s t) as N. destruct (RequestMetaData _ _ _ _ _ _) as [s1 [m [e|]]]; cbn [snd] in N; [|contradiction].
    exists e. reflexivity.
  Qed.
End Trouble.

Lemma leader_anyway W dial exch ord s t pid s' m e l ps ts : RequestMetaData W dial exch ord s [t] = (s', (m, e)) ->
  (match e with Some e => kafka_err e = true | None => True end) ->
  m_topics m = (t, ps) :: ts -> find_pid pid ps = Some l -> findLeader W dial exch ord s t pid = (s', Ok l).
Proof.
  intros E He Hm Hf. unfold findLeader. rewrite E. destruct e as [e|]; [rewrite He|]; rewrite Hm, Hf; reflexivity.
Qed.

(** ** keys *)
Definition some_keys : list bytes := map (fun n => [Z.of_nat n]) (seq 97 8).
Definition apart (n : Z) : bool := existsb (fun k => negb (murmur_spec k mod n =? kafka_partition k n)) some_keys.
Lemma all_apart : forallb (fun i => apart (Z.of_nat i)) (seq 2 999) = true.
Proof. vm_compute. reflexivity. Qed.
Lemma keys_apart n : 2 <= n <= 1000 -> exists key, bytes_ok key /\ murmur_spec key mod n <> kafka_partition key n.
Proof.
  intros Hn. pose proof all_apart as A. rewrite forallb_forall in A. specialize (A (Z.to_nat n)).
  rewrite Z2Nat.id in A by lia. assert (Hi : In (Z.to_nat n) (seq 2 999)) by (apply in_seq; lia). specialize (A Hi).
  unfold apart in A. apply existsb_exists in A. destruct A as (k & Hk & Hd). exists k. split.
  - unfold some_keys in Hk. apply in_map_iff in Hk. destruct Hk as (i & <- & Hi'). apply in_seq in Hi'.
    constructor; [|constructor]. unfold byte_ok. lia.
  - apply Bool.negb_true_iff, Z.eqb_neq in Hd. exact Hd.
Qed.
