(** Proofs about the connections of producers and consumers. *)
From Coq Require Import Permutation.
From Verif Require Import Base Brokers BrokersFacts Owners OwnersSpec.

Lemma made_app a b : made (a ++ b) = made a ++ made b.
Proof. apply flat_map_app. Qed.
Lemma gone_app a b : gone (a ++ b) = gone a ++ gone b.
Proof. apply flat_map_app. Qed.
Lemma probed_app a b : probed (a ++ b) = probed a ++ probed b.
Proof. apply flat_map_app. Qed.
Lemma open_in tr i : In i (open_now tr) <-> In i (made tr) /\ ~ In i (gone tr).
Proof.
  unfold open_now. rewrite filter_In. assert (E : existsb (Z.eqb i) (gone tr) = true <-> In i (gone tr)).
  { rewrite existsb_exists. split; [intros (x & I & Q); apply Z.eqb_eq in Q; subst; exact I|]. intros I. exists i. split; [exact I|apply Z.eqb_refl]. }
  destruct (existsb (Z.eqb i) (gone tr)); cbn; intuition congruence.
Qed.

Section Facts.
  Variable W : Type.
  Variable dial : W -> bytes -> W * dres.
  Variable exch : W -> handle -> req -> W * (err + resp * option err).
  Variable ord : forall A : Type, W -> list A -> W * list A.
  Notation bst := (bst W).
  Definition tidy : Prop := forall w a w' e, dial w a <> (w', InitFail e).

  (** what an operation does to the connections; [X]: those it hands to its caller *)
  Record RT (X : list Z) (t : list ev) (s s' : bst) : Prop := mkRT {
    r_tr : b_tr W s' = b_tr W s ++ t;
    r_next : b_next W s <= b_next W s';
    r_nodup : NoDup (made t);
    r_made : forall i, In i (made t) -> b_next W s <= i < b_next W s';
    r_gone : forall i, In i (gone t) -> b_next W s <= i < b_next W s';
    r_new : forall n h, In (n, h) (b_cache W s') -> In (n, h) (b_cache W s) \/ b_next W s <= h_id h < b_next W s';
    r_keep : incl (b_cache W s) (b_cache W s');
    r_mine : tidy -> forall i, In i (made t) -> (exists n h, In (n, h) (b_cache W s') /\ h_id h = i) \/ In i (probed t) \/ In i (gone t) \/ In i X;
    r_x : forall i, In i X -> In i (made t) /\ ~ In i (gone t);
    r_xn : NoDup X
  }.
  Definition R (X : list Z) (s s' : bst) : Prop := exists t, RT X t s s'.
  Lemma NoDup_two (a b : list Z) m : NoDup a -> NoDup b -> (forall i, In i a -> i < m) -> (forall i, In i b -> m <= i) -> NoDup (a ++ b).
  Proof.
    intros A B La Lb. induction A as [|x a N A IH]; [exact B|]. cbn. constructor.
    - rewrite in_app_iff. intros [I|I]; [auto|]. specialize (La x (or_introl eq_refl)). specialize (Lb _ I). lia.
    - apply IH. intros i I. apply La. right. exact I.
  Qed.
  Lemma R_trans X Y a b c : R X a b -> R Y b c -> R (X ++ Y) a c.
  Proof.
    intros [t A] [u B]. exists (t ++ u). pose proof (r_next _ _ _ _ A) as NA. pose proof (r_next _ _ _ _ B) as NB. constructor.
    - rewrite (r_tr _ _ _ _ B), (r_tr _ _ _ _ A). symmetry. apply app_assoc.
    - lia.
    - rewrite made_app. apply NoDup_two with (m := b_next W b); [exact (r_nodup _ _ _ _ A)|exact (r_nodup _ _ _ _ B)|intros i I; apply (r_made _ _ _ _ A) in I; lia|intros i I; apply (r_made _ _ _ _ B) in I; lia].
    - intros i. rewrite made_app, in_app_iff. intros [I|I]; [apply (r_made _ _ _ _ A) in I|apply (r_made _ _ _ _ B) in I]; lia.
    - intros i. rewrite gone_app, in_app_iff. intros [I|I]; [apply (r_gone _ _ _ _ A) in I|apply (r_gone _ _ _ _ B) in I]; lia.
    - intros n h I. destruct (r_new _ _ _ _ B n h I) as [J|J]; [|lia]. destruct (r_new _ _ _ _ A n h J) as [K|K]; [auto|lia].
    - intros x I. apply (r_keep _ _ _ _ B), (r_keep _ _ _ _ A), I.
    - intros T i. rewrite made_app, probed_app, gone_app, !in_app_iff. intros [I|I].
      + destruct (r_mine _ _ _ _ A T i I) as [(n & h & J & E)|[J|[J|J]]]; [|tauto..]. left. exists n, h. split; [apply (r_keep _ _ _ _ B), J|exact E].
      + destruct (r_mine _ _ _ _ B T i I) as [J|[J|[J|J]]]; tauto.
    - intros i. rewrite made_app, gone_app, !in_app_iff. intros [I|I].
      + destruct (r_x _ _ _ _ A i I) as [M N]. split; [auto|]. intros [J|J]; [auto|]. apply (r_made _ _ _ _ A) in M. apply (r_gone _ _ _ _ B) in J. lia.
      + destruct (r_x _ _ _ _ B i I) as [M N]. split; [auto|]. intros [J|J]; [|auto]. apply (r_made _ _ _ _ B) in M. apply (r_gone _ _ _ _ A) in J. lia.
    - apply NoDup_two with (m := b_next W b); [exact (r_xn _ _ _ _ A)|exact (r_xn _ _ _ _ B)|intros i I; apply (r_x _ _ _ _ A) in I as [I _]; apply (r_made _ _ _ _ A) in I; lia|intros i I; apply (r_x _ _ _ _ B) in I as [I _]; apply (r_made _ _ _ _ B) in I; lia].
  Qed.
  Lemma R_then a b c : R [] a b -> R [] b c -> R [] a c.
  Proof. exact (R_trans [] [] a b c). Qed.
  Lemma R_same s s' : b_tr W s' = b_tr W s -> b_cache W s' = b_cache W s -> b_next W s' = b_next W s -> R [] s s'.
  Proof.
    intros T C N. exists []. constructor.
    - rewrite app_nil_r. exact T.
    - lia.
    - constructor.
    - intros i [].
    - intros i [].
    - intros n h. rewrite C. auto.
    - rewrite C. apply incl_refl.
    - intros _ i [].
    - intros i [].
    - constructor.
  Qed.
  (** an event that is about no connection being made or closed *)
  Lemma R_ev X a s e : made [e] = [] -> gone [e] = [] -> R X a s -> R X a (log W s e).
  Proof.
    intros M G [t A]. exists (t ++ [e]). constructor; cbn [log b_tr b_next b_cache]; try rewrite made_app, M, app_nil_r; try rewrite gone_app, G, app_nil_r; try apply A.
    - rewrite (r_tr _ _ _ _ A), <- app_assoc. reflexivity.
    - intros T i I. rewrite probed_app, in_app_iff. destruct (r_mine _ _ _ _ A T i I) as [J|[J|[J|J]]]; tauto.
  Qed.
  Lemma R_w X a s w : R X a s -> R X a (with_w W s w).
  Proof. intros [t A]. exists t. destruct A. constructor; assumption. Qed.
  Lemma R_info X a s i : R X a s -> R X a (with_info W s i).
  Proof. intros [t A]. exists t. destruct A. constructor; assumption. Qed.
  Lemma R_probe X a s h : R X a s -> incl X [h_id h] -> R [] a (log W s (EvProbe h)).
  Proof.
    intros [t A] I. exists (t ++ [EvProbe h]). constructor; cbn [log b_tr b_next b_cache]; try rewrite made_app; try rewrite gone_app; cbn [made gone flat_map app]; rewrite ?app_nil_r; try apply A.
    - rewrite (r_tr _ _ _ _ A), <- app_assoc. reflexivity.
    - intros T i J. rewrite probed_app, in_app_iff. destruct (r_mine _ _ _ _ A T i J) as [K|[K|[K|K]]]; [auto..|]. apply I in K. right. left. right. cbn in *. tauto.
    - intros i [].
    - constructor.
  Qed.
  Lemma R_close a s i X : R X a s -> b_next W a <= i < b_next W s -> ~ In i X -> R X a (log W s (EvClose i)).
  Proof.
    intros [t A] I N. exists (t ++ [EvClose i]). constructor; cbn [log b_tr b_next b_cache]; try rewrite made_app; try rewrite gone_app; cbn [made gone flat_map app]; rewrite ?app_nil_r; try apply A.
    - rewrite (r_tr _ _ _ _ A), <- app_assoc. reflexivity.
    - intros j. rewrite in_app_iff. intros [J|[<-|[]]]; [apply (r_gone _ _ _ _ A), J|exact I].
    - intros T j J. rewrite probed_app, !in_app_iff. destruct (r_mine _ _ _ _ A T j J) as [K|[K|[K|K]]]; tauto.
    - intros j J. destruct (r_x _ _ _ _ A j J) as [M G]. split; [exact M|]. rewrite in_app_iff. intros [K|[<-|[]]]; tauto.
  Qed.
  Lemma R_cache a s n h : R [h_id h] a s -> get n (b_cache W s) = None -> R [] a (with_cache W s (put n h (b_cache W s))).
  Proof.
    intros [t A] G. exists t. assert (P : incl (b_cache W s) (put n h (b_cache W s))).
    { apply get_none in G. intros [k v] I. destruct (Z.eq_dec k n) as [->|D]; [destruct G; apply (in_map fst) in I; exact I|].
      clear - I D. induction (b_cache W s) as [|[k' v'] l IH]; [destruct I|]. cbn. destruct (k' =? n) eqn:E.
      - destruct I as [I|I]; [|right; exact I]. injection I as -> ->. apply Z.eqb_eq in E. lia.
      - destruct I as [I|I]; [left; exact I|right; auto]. }
    assert (Q : In (n, h) (put n h (b_cache W s))) by (apply get_in, get_put_same).
    constructor; cbn [with_cache b_tr b_next b_cache]; try apply A.
    - intros k v I. apply put_in in I as [I|I]; [|apply (r_new _ _ _ _ A), I]. injection I as -> ->. right.
      destruct (r_x _ _ _ _ A (h_id h) (or_introl eq_refl)) as [M _]. apply (r_made _ _ _ _ A), M.
    - intros x I. apply P, (r_keep _ _ _ _ A), I.
    - intros T i I. destruct (r_mine _ _ _ _ A T i I) as [(k & v & J & E)|[K|[K|[<-|[]]]]]; [|tauto..|].
      + left. exists k, v. split; [apply P, J|exact E].
      + left. exists n, h. auto.
    - intros i [].
    - constructor.
  Qed.
  Lemma R_refl s : R [] s s.
  Proof. apply R_same; reflexivity. Qed.

  Lemma R_new_broker a0 s a n s' r : R [] a0 s -> new_broker W dial s a n = (s', r) -> match r with inl h => R [h_id h] a0 s' | inr _ => R [] a0 s' end.
  Proof.
    intros H. unfold new_broker. destruct (dial (b_w W s) a) as [w d] eqn:D.
    assert (K : forall X, (tidy -> X = [b_next W s]) -> incl X [b_next W s] -> NoDup X -> R X a0 (fresh W (log W (with_w W s w) (EvOpen (b_next W (with_w W s w)))))).
    { intros X T I XN. apply (R_trans [] X a0 s); [exact H|]. exists [EvOpen (b_next W s)]. constructor.
      - reflexivity.
      - cbn. lia.
      - repeat constructor. intros [].
      - intros i [<-|[]]. cbn. lia.
      - intros i [].
      - intros m h J. auto.
      - apply incl_refl.
      - intros T' i [<-|[]]. rewrite (T T'). right. right. right. left. reflexivity.
      - intros i J. apply I in J. split; [exact J|]. intros [].
      - exact XN. }
    destruct d; intros E; injection E as <- <-.
    - apply K; [auto|apply incl_refl|repeat constructor; intros []].
    - apply R_w, H.
    - apply K; [intros T; destruct (T _ _ _ _ D)|intros x []|constructor].
  Qed.
  Lemma R_new_probe a0 s a n s1 h s2 o : R [] a0 s -> new_broker W dial s a n = (s1, inl h) -> probe W exch s1 h = (s2, o) ->
    R [] a0 s2 /\ b_next W a0 <= h_id h < b_next W s2.
  Proof.
    intros H E. apply (R_new_broker _ _ _ _ _ _ H) in E. unfold probe. destruct (exch (b_w W s1) h (QMeta [])) as [w x].
    intros P. injection P as <- <-. split; [|].
    - eapply R_probe; [apply R_w; exact E|apply incl_refl].
    - destruct E as [t A]. destruct (r_x _ _ _ _ A (h_id h) (or_introl eq_refl)) as [M _]. apply (r_made _ _ _ _ A), M.
  Qed.
  Lemma R_refresh_boot : forall l a0 s, R [] a0 s -> R [] a0 (refresh_boot W dial exch s l).
  Proof.
    induction l as [|a l IH]; intros a0 s H; cbn [refresh_boot]; [exact H|]. destruct (new_broker W dial s a (-1)) as [s1 [h|e]] eqn:E1.
    - destruct (probe W exch s1 h) as [s2 o] eqn:E2. destruct (R_new_probe _ _ _ _ _ _ _ _ H E1 E2) as [H2 I].
      destruct (m_brokers (fst (as_meta o))); apply IH; [apply R_close; auto|apply R_info; exact H2].
    - apply IH. exact (R_new_broker _ _ _ _ _ _ H E1).
  Qed.
  Lemma R_refresh_known : forall l a0 s s' b, R [] a0 s -> refresh_known W dial exch s l = (s', b) -> R [] a0 s'.
  Proof.
    induction l as [|[m a] l IH]; intros a0 s s' b H; cbn [refresh_known]; [intros E; injection E as <- <-; exact H|].
    destruct (new_broker W dial s a (-1)) as [s1 [h|e]] eqn:E1.
    - destruct (probe W exch s1 h) as [s2 o] eqn:E2. destruct (R_new_probe _ _ _ _ _ _ _ _ H E1 E2) as [H2 I].
      destruct (m_brokers (fst (as_meta o))); [apply IH; exact H2|]. intros E. injection E as <- <-. apply R_info, H2.
    - apply IH. exact (R_new_broker _ _ _ _ _ _ H E1).
  Qed.
  Lemma R_ordered A (l : list A) a0 s s' l' : R [] a0 s -> ordered W ord s l = (s', l') -> R [] a0 s'.
  Proof. intros H. unfold ordered. destruct (ord A (b_w W s) l). intros E. injection E as <- <-. apply R_w, H. Qed.
  Lemma R_refresh a0 s s' b : R [] a0 s -> refresh W dial exch ord s = (s', b) -> R [] a0 s'.
  Proof.
    intros H. unfold refresh. pose proof (R_refresh_boot (b_boot W s) a0 s H) as H1. set (s0 := refresh_boot W dial exch s (b_boot W s)) in *.
    destruct (ordered W ord s0 (b_info W s0)) as [s1 l] eqn:E. apply (R_ordered _ _ _ _ _ _ H1) in E. apply R_refresh_known, E.
  Qed.
  Lemma R_known a0 s n : R [] a0 s -> R [] a0 (known_or_refresh W dial exch ord s n).
  Proof.
    intros H. unfold known_or_refresh. destruct (get n (b_info W s)); [exact H|]. destruct (refresh W dial exch ord s) as [s' b] eqn:E. exact (R_refresh _ _ _ _ H E).
  Qed.
  Lemma R_NewBrokerFor a0 s n s' r : R [] a0 s -> NewBrokerFor W dial exch ord s n = (s', r) -> match r with inl h => R [h_id h] a0 s' | inr _ => R [] a0 s' end.
  Proof.
    intros H. unfold NewBrokerFor. pose proof (R_known a0 s n H) as H1. set (s1 := known_or_refresh W dial exch ord s n) in *.
    destruct (get n (b_info W s1)) as [ad|]; [|intros E; injection E as <- <-; exact H1]. destruct (new_broker W dial s1 ad n) as [s2 [h|e]] eqn:E2; intros E; injection E as <- <-;
      exact (R_new_broker _ _ _ _ _ _ H1 E2).
  Qed.
  Lemma known_cache s n : b_cache W (known_or_refresh W dial exch ord s n) = b_cache W s.
  Proof.
    unfold known_or_refresh. destruct (get n (b_info W s)); [reflexivity|]. destruct (refresh W dial exch ord s) as [s' b] eqn:E.
    unfold refresh in E. pose proof (q_cache _ _ _ (refresh_boot_quiet W dial exch (b_boot W s) s)) as Q. set (s0 := refresh_boot W dial exch s (b_boot W s)) in *.
    unfold ordered in E. destruct (ord _ (b_w W s0) (b_info W s0)) as [w l]. apply refresh_known_quiet in E. cbn [fst]. rewrite (q_cache _ _ _ E). exact Q.
  Qed.
  Lemma R_get_broker0 a0 s n s' r : R [] a0 s -> get_broker0 W dial exch ord s n = (s', r) -> R [] a0 s'.
  Proof.
    intros H. unfold get_broker0. destruct (get n (b_cache W s)) as [h|] eqn:G; [intros E; injection E as <- <-; exact H|].
    pose proof (R_known a0 s n H) as H1. pose proof (known_cache s n) as C1. set (s1 := known_or_refresh W dial exch ord s n) in *.
    destruct (get n (b_info W s1)) as [ad|]; [|intros E; injection E as <- <-; exact H1]. destruct (new_broker W dial s1 ad n) as [s2 [h|e]] eqn:E2; intros E; injection E as <- <-;
      pose proof (R_new_broker _ _ _ _ _ _ H1 E2) as H2; [|exact H2].
    apply R_cache; [exact H2|]. destruct (new_broker_quiet W dial _ _ _ _ _ E2) as [Q _]. rewrite (q_cache _ _ _ Q), C1. exact G.
  Qed.
  Lemma R_GetBroker a0 s n s' r : R [] a0 s -> GetBroker W dial exch ord s n = (s', r) -> R [] a0 s'.
  Proof.
    intros H. unfold GetBroker. destruct (get_broker0 W dial exch ord s n) as [s1 g] eqn:E. intros Q. injection Q as <- <-.
    apply R_ev; [reflexivity|reflexivity|]. exact (R_get_broker0 _ _ _ _ _ H E).
  Qed.
  Lemma R_rag a0 s h q s' o : R [] a0 s -> rag W exch s h q = (s', o) -> R [] a0 s'.
  Proof.
    intros H. unfold rag. destruct (exch (b_w W s) h q) as [w a]. intros E. injection E as <- <-. apply R_ev; [reflexivity|reflexivity|]. apply R_w, H.
  Qed.
  Lemma R_rmd : forall l a0 s ts r s' o, R [] a0 s -> rmd W dial exch ord s l ts r = (s', o) -> R [] a0 s'.
  Proof.
    induction l as [|[n a] l IH]; intros a0 s ts r s' o H; cbn [rmd]; [intros E; injection E as <- <-; exact H|].
    destruct (GetBroker W dial exch ord s n) as [s1 [h|e]] eqn:E1; pose proof (R_GetBroker _ _ _ _ _ H E1) as H1; [|apply IH; exact H1].
    destruct (rag W exch s1 h (QMeta ts)) as [s2 x] eqn:E2. pose proof (R_rag _ _ _ _ _ _ H1 E2) as H2.
    destruct (as_meta x) as [r' [e|]]; [destruct (kafka_err e)|]; try (intros E; injection E as <- <-; exact H2). apply IH, H2.
  Qed.
  Lemma R_meta a0 s ts s' o : R [] a0 s -> RequestMetaData W dial exch ord s ts = (s', o) -> R [] a0 s'.
  Proof.
    intros H. unfold RequestMetaData. destruct (ordered W ord s (b_info W s)) as [s1 l] eqn:E1. apply R_rmd, (R_ordered _ _ _ _ _ _ H E1).
  Qed.
  Lemma R_findLeader a0 s t p s' o : R [] a0 s -> findLeader W dial exch ord s t p = (s', o) -> R [] a0 s'.
  Proof.
    intros H. unfold findLeader. destruct (RequestMetaData W dial exch ord s [t]) as [s1 [m [e|]]] eqn:E1; pose proof (R_meta _ _ _ _ _ H E1) as H1;
      [destruct (kafka_err e)|]; try destruct (m_topics m) as [|[? ?] ?]; intros E; injection E as <- <-; exact H1.
  Qed.
  Lemma R_fco : forall l a0 s g s' o, R [] a0 s -> fco W dial exch ord s l g = (s', o) -> R [] a0 s'.
  Proof.
    induction l as [|[n a] l IH]; intros a0 s g s' o H; cbn [fco]; [intros E; injection E as <- <-; exact H|].
    destruct (GetBroker W dial exch ord s n) as [s1 [h|e]] eqn:E1; pose proof (R_GetBroker _ _ _ _ _ H E1) as H1; [|apply IH; exact H1].
    destruct (rag W exch s1 h (QCoord g)) as [s2 x] eqn:E2. pose proof (R_rag _ _ _ _ _ _ H1 E2) as H2.
    destruct (as_coord x) as [r' [e|]]; [apply IH, H2|]. intros E. injection E as <- <-. exact H2.
  Qed.
  Lemma R_coord a0 s g s' o : R [] a0 s -> FindCoordinator W dial exch ord s g = (s', o) -> R [] a0 s'.
  Proof.
    intros H. unfold FindCoordinator. destruct (ordered W ord s (b_info W s)) as [s1 l] eqn:E1. apply R_fco, (R_ordered _ _ _ _ _ _ H E1).
  Qed.

  (** the first connection of a broker list is never closed by its operations *)
  Definition has (s : bst) (i : Z) : Prop := In i (made (b_tr W s)) /\ ~ In i (gone (b_tr W s)) /\ i < b_next W s.
  Lemma has_R X s s' i : has s i -> R X s s' -> has s' i.
  Proof.
    intros (M & G & N) [t A]. unfold has. rewrite (r_tr _ _ _ _ A), made_app, gone_app, !in_app_iff. split; [auto|]. split.
    - intros [I|I]; [auto|]. apply (r_gone _ _ _ _ A) in I. lia.
    - pose proof (r_next _ _ _ _ A). lia.
  Qed.
  Lemma c_in : forall (bs : list (Z * bytes)) h c x, In x (fold_left (fun c x => if bytes_eq_dec (h_addr h) (snd x) then put (fst x) h c else c) bs c) -> In x c \/ snd x = h.
  Proof.
    induction bs as [|b bs IH]; intros h c x; cbn [fold_left]; [auto|]. intros I. apply IH in I as [I|I]; [|auto].
    destruct (bytes_eq_dec (h_addr h) (snd b)); [|auto]. apply put_in in I as [->|I]; auto.
  Qed.
  Lemma R_set_cache a s c h : R [] a s -> b_cache W s = [] -> b_next W a <= h_id h < b_next W s -> (forall x, In x c -> snd x = h) -> b_cache W a = [] -> R [] a (with_cache W s c).
  Proof.
    intros [t A] C I E Ca. exists t. constructor; try apply A; cbn [with_cache b_cache b_next].
    - intros n x J. right. apply E in J. cbn in J. subst x. exact I.
    - rewrite Ca. intros x [].
    - intros T i J. destruct (r_mine _ _ _ _ A T i J) as [(n & x & K & _)|K]; [rewrite C in K; destruct K|auto].
  Qed.
  Lemma R_ctl X a s c : R X a s -> R X a (with_ctl W s c).
  Proof. intros [t A]. exists t. destruct A. constructor; assumption. Qed.
  Lemma R_new_brokers : forall l a0 s s' e, R [] a0 s -> b_cache W s = [] -> b_cache W a0 = [] -> new_brokers W dial exch s l = (s', e) ->
    R [] a0 s' /\ (e = None -> (forall i, In i (gone (b_tr W s)) -> i < b_next W s) -> exists i, has s' i).
  Proof.
    induction l as [|a l IH]; intros a0 s s' e H C Ca; cbn [new_brokers].
    - intros E. injection E as <- <-. split; [exact H|discriminate].
    - destruct (new_broker W dial s a (-1)) as [s1 [h|e1]] eqn:E1; destruct (new_broker_quiet W dial _ _ _ _ _ E1) as (Q1 & _ & P1).
      + unfold from_one. destruct (probe W exch s1 h) as [s2 o] eqn:E2. destruct (R_new_probe _ _ _ _ _ _ _ _ H E1 E2) as [H2 I2].
        destruct (probe_quiet W exch _ _ _ _ E2) as (Q2 & _ & T2 & N2). destruct P1 as (_ & _ & P1 & P2 & P3).
        assert (C2 : b_cache W s2 = []) by (rewrite (q_cache _ _ _ Q2), (q_cache _ _ _ Q1); exact C).
        assert (G2 : (forall i, In i (gone (b_tr W s)) -> i < b_next W s) -> has s2 (h_id h)).
        { intros G. unfold has. rewrite T2, P3, N2, P2, !made_app, !gone_app, !in_app_iff, P1. cbn. split; [tauto|]. split; [|lia].
          intros [[I|[]]|[]]. apply G in I. lia. }
        destruct (as_meta o) as [m [e2|]] eqn:EM.
        * intros E. destruct (IH a0 s2 s' e H2 C2 Ca E) as [HA HB]. split; [exact HA|]. intros -> G. exists (h_id h).
          eapply has_R; [apply G2, G|]. destruct (IH s2 s2 s' None (R_refl s2) C2 C2 E) as [HC _]. exact HC.
        * destruct (m_brokers m) as [|b bs] eqn:EB.
          -- intros E. destruct (IH a0 s2 s' e H2 C2 Ca E) as [HA HB]. split; [exact HA|]. intros -> G. exists (h_id h).
             eapply has_R; [apply G2, G|]. destruct (IH s2 s2 s' None (R_refl s2) C2 C2 E) as [HC _]. exact HC.
          -- intros E. injection E as <- <-. split; [|intros _ G; exists (h_id h); exact (G2 G)].
             apply R_ctl. eapply R_set_cache with (h := h); [apply R_info, H2|exact C2|exact I2| |exact Ca].
             intros x J. change (In x (fold_left (fun c x => if bytes_eq_dec (h_addr h) (snd x) then put (fst x) h c else c) (b :: bs) [])) in J. apply c_in in J as [[]|J]. exact J.
      + intros E. apply (IH a0 s1 s' e) in E; [|exact (R_new_broker _ _ _ _ _ _ H E1)|rewrite (q_cache _ _ _ Q1); exact C|exact Ca].
        destruct E as [HA HB]. split; [exact HA|]. intros -> G. apply HB; [reflexivity|]. intros i I.
        destruct (q_tr _ _ _ Q1) as (evs & T & _). 
        unfold new_broker in E1. destruct (dial (b_w W s) a) as [w d]. destruct d; injection E1 as <- _ || discriminate; cbn in *; try (rewrite gone_app, in_app_iff in I; destruct I as [I|[]]); apply G in I; lia.
  Qed.
  Lemma R_NewBrokers w boot s e : NewBrokers W dial exch w boot = (s, e) -> R [] (start W w boot) s /\ (e = None -> exists i, has s i).
  Proof.
    intros E. unfold NewBrokers in E. apply R_new_brokers with (a0 := start W w boot) in E; [|apply R_refl|reflexivity|reflexivity].
    destruct E as [A B]. split; [exact A|]. intros ->. apply B; [reflexivity|]. intros i [].
  Qed.

  (** ** Producers *)
  Lemma has_close s i j : has s i -> i <> j -> has (log W s (EvClose j)) i.
  Proof.
    intros (M & G & N) D. unfold has. cbn. rewrite made_app, gone_app, !in_app_iff. cbn. split; [tauto|]. split; [|exact N]. intros [I|[I|[]]]; [auto|lia].
  Qed.
  Lemma simple_open w boot t p s h : NewSimple W dial exch ord w boot t p = (s, Ok h) ->
    exists i, has s i /\ has (SimpleClose W s h) i /\ match h with Some h => has s (h_id h) /\ In (h_id h) (gone (b_tr W (SimpleClose W s (Some h)))) | None => True end.
  Proof.
    unfold NewSimple. destruct (NewBrokers W dial exch w boot) as [s0 [e|]] eqn:E0; [discriminate|].
    destruct (R_NewBrokers _ _ _ _ E0) as [_ H0]. destruct (H0 eq_refl) as [i Hi].
    destruct (findLeader W dial exch ord s0 t p) as [s1 l] eqn:E1. pose proof (R_findLeader _ _ _ _ _ _ (R_refl s0) E1) as R1.
    pose proof (has_R _ _ _ _ Hi R1) as Hi1. destruct l as [id|e| |]; try discriminate. destruct (id =? -1).
    - intros E. injection E as <- <-. exists i. auto.
    - destruct (NewBrokerFor W dial exch ord s1 id) as [s2 [b|e]] eqn:E2; [|discriminate]. intros E. injection E as <- <-.
      pose proof (R_NewBrokerFor _ _ _ _ _ (R_refl s1) E2) as R2. cbn in R2. pose proof (has_R _ _ _ _ Hi1 R2) as Hi2. exists i.
      destruct R2 as [u A]. destruct (r_x _ _ _ _ A (h_id b) (or_introl eq_refl)) as [M G]. pose proof (r_made _ _ _ _ A _ M) as Rg.
      split; [exact Hi2|]. split; [apply has_close; [exact Hi2|destruct Hi1 as (_ & _ & ?); lia]|]. split.
      + unfold has. rewrite (r_tr _ _ _ _ A), made_app, gone_app, !in_app_iff. split; [auto|]. split; [|lia].
        intros [I|I]; [|auto]. assert (Gs : forall j, In j (gone (b_tr W s1)) -> j < b_next W s1); [|apply Gs in I; lia].
        destruct (R_NewBrokers _ _ _ _ E0) as [R0 _]. destruct (R_then _ _ _ R0 R1) as [v V]. intros j J. rewrite (r_tr _ _ _ _ V) in J. cbn in J. apply (r_gone _ _ _ _ V) in J. lia.
      + cbn. rewrite gone_app. apply in_or_app. right. left. reflexivity.
  Qed.
  Definition some_open (s : bst) : Prop := exists i, has s i.
  Definition p_ok (p : prod W) : Prop :=
    some_open (p_own W p) /\ match p_cur W p with Some (b, h) => some_open (SimpleClose W b h) | None => True end.
  Lemma some_count s : some_open s -> (1 <= length (open_now (b_tr W s)))%nat.
  Proof. intros [i (M & G & _)]. assert (I : In i (open_now (b_tr W s))) by (apply open_in; auto). destruct (open_now (b_tr W s)); [destruct I|cbn; lia]. Qed.
  Lemma has_own p s w : some_open (p_own W p) -> R [] (p_own W p) s -> some_open (with_w W s w).
  Proof. intros [i H] A. exists i. apply (has_R _ _ _ _ H) in A. exact A. Qed.
  Definition leftover (p : prod W) : nat := length (flat_map open_now (map (b_tr W) (p_old W p))).
  Definition running (p : prod W) : nat := match p_cur W p with Some _ => 1 | None => 0 end.
  Lemma update_open boot t p n p' r : p_ok p -> update W dial exch ord boot t p n = (p', r) ->
    p_ok p' /\ (leftover p + running p + match r with Ok _ => 1 | _ => 0 end <= leftover p' + running p')%nat.
  Proof.
    intros [Ho Hc]. unfold update. destruct (RequestMetaData W dial exch ord (p_own W p) [t]) as [s [m [e|]]] eqn:E0;
      pose proof (R_meta _ _ _ _ _ (R_refl _) E0) as R0.
    { intros E. injection E as <- <-. split; [|unfold leftover, running; cbn; lia]. split; [|exact Hc]. exact (has_own p s (b_w W s) Ho R0). }
    assert (Ho' : forall w, some_open (with_w W s w)) by (intros w; exact (has_own p s w Ho R0)).
    assert (Ho2 : some_open s) by exact (Ho' (b_w W s)).
    destruct (m_topics m) as [|[nm ps] ms]; [intros E; injection E as <- <-; split; [split; assumption|unfold leftover, running; cbn; lia]|].
    destruct (nth_error ps (n mod length ps)) as [[pid y]|]; [|intros E; injection E as <- <-; split; [split; assumption|unfold leftover, running; cbn; lia]].
    destruct (NewSimple W dial exch ord (b_w W s) boot t pid) as [b r0] eqn:E1. destruct r0 as [h|e| |]; intros E; injection E as <- <-;
      [|split; [split; [apply Ho'|exact Hc]|unfold leftover, running; cbn; rewrite app_length; lia]..].
    destruct (simple_open _ _ _ _ _ _ E1) as (i & _ & Hi & _). split; [split; [apply Ho'|cbn; exists i; exact Hi]|].
    unfold leftover, running. cbn [p_cur p_old]. destruct (p_cur W p) as [[b' h']|]; [|lia]. cbn [map flat_map]. rewrite app_length.
    pose proof (some_count _ Hc). lia.
  Qed.
  Lemma updates_open boot t : forall ns p p' k, p_ok p -> updates W dial exch ord boot t p ns = (p', k) ->
    p_ok p' /\ (leftover p + running p + k <= leftover p' + running p')%nat.
  Proof.
    induction ns as [|n ns IH]; intros p p' k H; cbn [updates].
    - intros E. injection E as <- <-. split; [exact H|lia].
    - destruct (update W dial exch ord boot t p n) as [p1 r] eqn:E1. destruct (update_open _ _ _ _ _ _ H E1) as [H1 L1].
      destruct (updates W dial exch ord boot t p1 ns) as [p2 k2] eqn:E2. destruct (IH _ _ _ H1 E2) as [H2 L2].
      intros E. injection E as <- <-. split; [exact H2|]. destruct r; lia.
  Qed.
  Lemma close_open boot t ns p p' k : p_ok p -> updates W dial exch ord boot t p ns = (p', k) ->
    (k + 1 <= open_count (p_traces W (ProducerClose W p')))%nat.
  Proof.
    intros H E. destruct (updates_open _ _ _ _ _ _ H E) as [[Ho Hc] L]. unfold open_count, p_traces. cbn [flat_map ProducerClose p_own p_cur p_old].
    unfold leftover, running in L. pose proof (some_count _ Ho). destruct (p_cur W p') as [[b h]|]; cbn [app flat_map]; rewrite !app_length; [|lia].
    pose proof (some_count _ Hc). lia.
  Qed.

  (** ** Consumers *)
  Lemma R_drop X a s i : R X a s -> In i X -> forall X', NoDup X' -> (forall j, In j X' <-> In j X /\ j <> i) -> R X' a (log W s (EvClose i)).
  Proof.
    intros [t A] I X' N E. destruct (r_x _ _ _ _ A i I) as [M _]. pose proof (r_made _ _ _ _ A _ M) as Rg.
    exists (t ++ [EvClose i]). constructor; cbn [log b_tr b_next b_cache]; try rewrite made_app; try rewrite gone_app; cbn [made gone flat_map app]; rewrite ?app_nil_r; try apply A.
    - rewrite (r_tr _ _ _ _ A), <- app_assoc. reflexivity.
    - intros j. rewrite in_app_iff. intros [J|[<-|[]]]; [apply (r_gone _ _ _ _ A), J|exact Rg].
    - intros T j J. rewrite probed_app, !in_app_iff. destruct (r_mine _ _ _ _ A T j J) as [K|[K|[K|K]]]; [tauto..|].
      destruct (Z.eq_dec j i) as [->|D]; [right; right; left; right; left; reflexivity|]. right. right. right. apply E. auto.
    - intros j J. apply E in J as [J D]. destruct (r_x _ _ _ _ A j J) as [Mj G]. split; [exact Mj|]. rewrite in_app_iff. intros [K|[K|[]]]; [auto|lia].
    - exact N.
  Qed.
  Definition ids (l : list (Z * handle)) : list Z := map (fun x => h_id (snd x)) l.
  Record K (k : cons W) (a : bst) : Prop := mkK { k_R : R (ids (k_leads W k)) a (k_b W k); k_keys : NoDup (map fst (k_leads W k)) }.
  Lemma put_new (c : Z) (h : handle) : forall l, get c l = None -> put c h l = l ++ [(c, h)].
  Proof.
    induction l as [|[k v] l IH]; cbn; [reflexivity|]. destruct (k =? c); [discriminate|]. intros E. f_equal. auto.
  Qed.
  Lemma K_more k a s X c h : K k a -> R X (k_b W k) s -> (X = [] /\ K (mkCons W s (k_leads W k)) a) \/ (X = [h_id h] -> get c (k_leads W k) = None -> K (mkCons W s (put c h (k_leads W k))) a).
  Proof.
    intros [A N] B. right. intros -> G. rewrite put_new by exact G. split; cbn.
    - unfold ids. rewrite map_app. exact (R_trans _ _ _ _ _ A B).
    - rewrite map_app. cbn. apply get_none in G. clear - N G. induction (map fst (k_leads W k)) as [|x l IH]; cbn; [repeat constructor; intros []|].
      inversion N; subst. constructor; [|apply IH; [assumption|intros I; apply G; right; exact I]]. rewrite in_app_iff. intros [I|[I|[]]]; [auto|]. apply G. left. auto.
  Qed.
  Lemma K_same k a s : K k a -> R [] (k_b W k) s -> K (mkCons W s (k_leads W k)) a.
  Proof. intros [A N] B. split; [|exact N]. cbn. pose proof (R_trans _ _ _ _ _ A B) as C. rewrite app_nil_r in C. exact C. Qed.
  Lemma filter_keys (c : Z) h : forall l, NoDup (map fst l) -> NoDup (ids l) -> In (c, h) l ->
    NoDup (map fst (filter (fun x => negb (fst x =? c)) l)) /\ NoDup (ids (filter (fun x => negb (fst x =? c)) l)) /\
    (forall j, In j (ids (filter (fun x => negb (fst x =? c)) l)) <-> In j (ids l) /\ j <> h_id h).
  Proof.
    intros l N D I.
    assert (F : forall l, NoDup (map fst l) -> NoDup (map fst (filter (fun x : Z * handle => negb (fst x =? c)) l))).
    { intros l0. induction l0 as [|x l0 IH]; cbn; [auto|]. intros Q. inversion Q; subst. destruct (negb (fst x =? c)); cbn; [|auto].
      constructor; [|auto]. intros J. apply H1. apply in_map_iff in J as (y & E & J). apply filter_In in J as [J _]. rewrite <- E. apply in_map, J. }
    assert (F2 : forall l, NoDup (ids l) -> NoDup (ids (filter (fun x : Z * handle => negb (fst x =? c)) l))).
    { intros l0. induction l0 as [|x l0 IH]; cbn; [auto|]. intros Q. inversion Q; subst. destruct (negb (fst x =? c)); cbn; [|auto].
      constructor; [|auto]. intros J. apply H1. apply in_map_iff in J as (y & E & J). apply filter_In in J as [J _]. rewrite <- E. unfold ids. apply (in_map (fun x => h_id (snd x))), J. }
    split; [auto|]. split; [auto|]. intros j. split.
    - intros J. apply in_map_iff in J as (y & <- & J). apply filter_In in J as [J Q]. apply Bool.negb_true_iff, Z.eqb_neq in Q.
      split; [apply (in_map (fun x => h_id (snd x))), J|]. intros E. apply Q.
      clear - D I J E. induction l as [|x l IH]; [destruct I|]. cbn in D. inversion D as [|? ? D1 D2]; subst.
      destruct I as [->|I], J as [<-|J]; [reflexivity| | |auto].
      + destruct D1. cbn. rewrite <- E. apply (in_map (fun x => h_id (snd x))), J.
      + destruct D1. rewrite E. change (h_id h) with (h_id (snd (c, h))). apply (in_map (fun x => h_id (snd x))), I.
    - intros [J Q]. apply in_map_iff in J as (y & <- & J). apply (in_map (fun x => h_id (snd x))), filter_In. split; [exact J|].
      apply Bool.negb_true_iff, Z.eqb_neq. intros E. apply Q. f_equal. 
      clear - N I J E. induction l as [|x l IH]; [destruct I|]. cbn in N. inversion N as [|? ? D1 D2]; subst.
      destruct I as [->|I], J as [<-|J]; [reflexivity| | |auto].
      + destruct D1. cbn. apply (in_map fst) in J. exact J.
      + destruct D1. apply (in_map fst) in I. exact I.
  Qed.
  Lemma K_drop k a c h : K k a -> get c (k_leads W k) = Some h -> K (mkCons W (log W (k_b W k) (EvClose (h_id h))) (filter (fun x => negb (fst x =? c)) (k_leads W k))) a.
  Proof.
    intros [A N] G. apply get_in in G. assert (D : NoDup (ids (k_leads W k))) by (destruct A as [t A]; exact (r_xn _ _ _ _ A)).
    destruct (filter_keys c h _ N D G) as (F1 & F2 & F3). split; [|exact F1]. cbn. eapply R_drop; [exact A| |exact F2|exact F3].
    change (h_id h) with (h_id (snd (c, h))). apply (in_map (fun x => h_id (snd x))), G.
  Qed.
  Lemma K_step k a o : K k a -> K (kstep W dial exch ord k o) a.
  Proof.
    intros H. destruct o as [ts|g|c t p|c]; cbn [kstep].
    - destruct (RequestMetaData W dial exch ord (k_b W k) ts) as [s r] eqn:E. apply K_same; [exact H|]. exact (R_meta _ _ _ _ _ (R_refl _) E).
    - destruct (FindCoordinator W dial exch ord (k_b W k) g) as [s r] eqn:E. pose proof (R_coord _ _ _ _ _ (R_refl _) E) as A.
      destruct r as [n|e| |]; try (apply K_same; [exact H|exact A]).
      destruct (GetBroker W dial exch ord s n) as [s2 b] eqn:E2. apply K_same; [exact H|]. exact (R_GetBroker _ _ _ _ _ A E2).
    - destruct (get c (k_leads W k)) eqn:G; [exact H|]. destruct (findLeader W dial exch ord (k_b W k) t p) as [s r] eqn:E.
      pose proof (R_findLeader _ _ _ _ _ _ (R_refl _) E) as A. destruct r as [n|e| |]; try (apply K_same; [exact H|exact A]).
      destruct (n =? -1); [apply K_same; [exact H|exact A]|].
      destruct (NewBrokerFor W dial exch ord s n) as [s2 [h|e]] eqn:E2; pose proof (R_NewBrokerFor _ _ _ _ _ A E2) as B; cbn in B; [|apply K_same; [exact H|exact B]].
      destruct (K_more k a s2 [h_id h] c h H B) as [[D _]|D]; [discriminate|]. apply D; [reflexivity|exact G].
    - destruct (get c (k_leads W k)) eqn:G; [apply K_drop; assumption|exact H].
  Qed.
  Lemma K_runs l : forall k a, K k a -> K (kruns W dial exch ord k l) a.
  Proof. induction l as [|o l IH]; intros k a H; [exact H|]. apply (IH (kstep W dial exch ord k o) a), K_step, H. Qed.
  Lemma stop_leads : forall l k, (forall c, In c (map fst (k_leads W k)) -> In c l) -> k_leads W (kruns W dial exch ord k (map KDrop l)) = [].
  Proof.
    induction l as [|c l IH]; intros k H; cbn.
    - destruct (k_leads W k) as [|x y]; [reflexivity|]. destruct (H (fst x)). left. reflexivity.
    - apply IH. intros c' I. destruct (get c (k_leads W k)) eqn:G; cbn [k_leads] in I.
      + apply in_map_iff in I as (y & <- & I). apply filter_In in I as [I Q]. apply Bool.negb_true_iff, Z.eqb_neq in Q.
        destruct (H (fst y)) as [E|J]; [apply in_map, I|congruence|exact J].
      + destruct (H _ I) as [<-|J]; [|exact J]. apply get_none in G. destruct (G I).
  Qed.
  Lemma stop_all_leads k : k_leads W (stop_all W dial exch ord k) = [].
  Proof. unfold stop_all. rewrite <- map_map. apply stop_leads. auto. Qed.
  Lemma closeall_tr : forall (c : list (Z * handle)) s, b_tr W (fold_left (fun s x => log W s (EvClose (h_id (snd x)))) c s) = b_tr W s ++ map (fun x => EvClose (h_id (snd x))) c.
  Proof.
    induction c as [|x c IH]; intros s; cbn; [symmetry; apply app_nil_r|]. rewrite IH. cbn. rewrite <- app_assoc. reflexivity.
  Qed.
  Lemma made_closes (c : list (Z * handle)) : made (map (fun x => EvClose (h_id (snd x))) c) = [].
  Proof. induction c; cbn; auto. Qed.
  Lemma gone_closes (c : list (Z * handle)) : gone (map (fun x => EvClose (h_id (snd x))) c) = ids c.
  Proof. induction c as [|x c IH]; cbn; [reflexivity|]. f_equal. exact IH. Qed.
  Lemma probed_closes (c : list (Z * handle)) : probed (map (fun x => EvClose (h_id (snd x))) c) = [].
  Proof. induction c; cbn; auto. Qed.
  Lemma close_probed w boot s l i : tidy -> NewBrokers W dial exch w boot = (s, None) ->
    let s' := close_cons W dial exch ord (kruns W dial exch ord (mkCons W s []) l) in In i (open_now (b_tr W s')) -> In i (probed (b_tr W s')).
  Proof.
    intros T E s'. destruct (R_NewBrokers _ _ _ _ E) as [R0 _]. assert (K0 : K (mkCons W s []) (start W w boot)) by (split; [exact R0|constructor]).
    set (k := stop_all W dial exch ord (kruns W dial exch ord (mkCons W s []) l)). assert (K1 : K k (start W w boot)) by (apply K_runs, K_runs, K0).
    assert (L : k_leads W k = []) by apply stop_all_leads. destruct K1 as [[t A] _]. rewrite L in A.
    unfold s', close_cons, CloseAll. fold k. rewrite closeall_tr, open_in, made_app, gone_app, probed_app, made_closes, gone_closes, probed_closes, !app_nil_r, in_app_iff.
    rewrite (r_tr _ _ _ _ A). cbn [start b_tr app]. intros [M G]. destruct (r_mine _ _ _ _ A T i M) as [(n & h & J & <-)|[J|[J|[]]]]; [|exact J|tauto].
    destruct G. right. change (h_id h) with (h_id (snd (n, h))). apply (in_map (fun x => h_id (snd x))), J.
  Qed.
  Lemma open_bound w boot s l : tidy -> NewBrokers W dial exch w boot = (s, None) ->
    let k := kruns W dial exch ord (mkCons W s []) l in
    (length (open_now (b_tr W (k_b W k))) <= length (b_cache W (k_b W k)) + length (k_leads W k) + length (probed (b_tr W (k_b W k))))%nat.
  Proof.
    intros T E k. destruct (R_NewBrokers _ _ _ _ E) as [R0 _]. assert (K0 : K (mkCons W s []) (start W w boot)) by (split; [exact R0|constructor]).
    assert (K1 : K k (start W w boot)) by (apply K_runs, K0). destruct K1 as [[t A] _].
    assert (Q : (length (b_cache W (k_b W k)) + length (k_leads W k) + length (probed (b_tr W (k_b W k))) = length (ids (b_cache W (k_b W k)) ++ ids (k_leads W k) ++ probed (b_tr W (k_b W k))))%nat).
    { rewrite !app_length. unfold ids. rewrite !map_length. lia. }
    rewrite Q. apply NoDup_incl_length.
    - unfold open_now. apply NoDup_filter. rewrite (r_tr _ _ _ _ A). exact (r_nodup _ _ _ _ A).
    - intros i I. apply open_in in I as [M G]. rewrite (r_tr _ _ _ _ A) in M, G |- *. cbn [start b_tr app] in *. rewrite !in_app_iff.
      destruct (r_mine _ _ _ _ A T i M) as [(n & h & J & <-)|[J|[J|J]]]; [|tauto..].
      left. change (h_id h) with (h_id (snd (n, h))). apply (in_map (fun x => h_id (snd x))), J.
  Qed.
  (** a partition consumer on its own: Stop closes the leader's handle only *)
  Lemma stop_open w boot s l : NewBrokers W dial exch w boot = (s, None) ->
    some_open (k_b W (kruns W dial exch ord (mkCons W s []) l)).
  Proof.
    intros E. destruct (R_NewBrokers _ _ _ _ E) as [R0 H]. destruct (H eq_refl) as [i Hi]. exists i.
    assert (K0 : K (mkCons W s []) s) by (split; [apply R_refl|constructor]).
    destruct (K_runs l _ _ K0) as [A _]. exact (has_R _ _ _ _ Hi A).
  Qed.
End Facts.
