(** Proofs about Clock.v. *)
From Verif Require Import Base BaseFacts Clock ClockSpec.

(** *** a read with a positive timeout ends *)
(** pieces that have not arrived *)
Definition pend (now : Z) (l : list (Z * bytes)) : Z := zlen (filter (fun x => now <? fst x) l).
Lemma pend_le : forall l now now', now <= now' -> pend now' l <= pend now l.
Proof.
  intros l now now' H. unfold pend, zlen. apply inj_le. induction l as [|x l IH]; [cbn; lia|]. cbn [filter].
  destruct (now' <? fst x) eqn:A; destruct (now <? fst x) eqn:B; cbn [length]; try lia.
  all: try (apply Z.ltb_lt in A; apply Z.ltb_ge in B; lia).
Qed.
Lemma pend_nonneg : forall now l, 0 <= pend now l.
Proof. intros. unfold pend, zlen. lia. Qed.
Lemma pend_length : forall now l, pend now l <= zlen l.
Proof. intros now l. unfold pend, zlen. apply inj_le. induction l as [|x l IH]; [cbn; lia|]. cbn [filter]. destruct (now <? fst x); cbn [length]; lia. Qed.
Lemma pieces_skip : forall n t b l, (n < length b)%nat -> pieces ((t, b) :: l) -> pieces ((t, skipn n b) :: l).
Proof. intros n t b l H P. inversion P; subst. constructor; [|assumption]. cbn. intro E. apply (f_equal (@length Z)) in E. rewrite skipn_length in E. cbn in E. lia. Qed.

(** one read with the deadline just set *)
Lemma tread_set : forall timeout n c, 0 < timeout -> (0 < n)%nat -> pieces (k_in c) ->
  (exists e, tread n (set_deadline timeout c) = TTimeout e /\ e = k_now c + timeout) \/
  (exists b c', tread n (set_deadline timeout c) = TOk b c' /\ (0 < length b <= n)%nat /\ pieces (k_in c') /\ k_now c <= k_now c' /\
     k_now c' + timeout * pend (k_now c') (k_in c') <= k_now c + timeout * pend (k_now c) (k_in c)).
Proof.
  intros timeout n [now dl l] T N P. destruct n as [|n]; [lia|]. unfold tread, set_deadline. cbn [k_now k_dl k_in] in *.
  destruct l as [|[t b] l]; [left; eexists; split; [reflexivity|lia]|].
  unfold wait_until. cbn [k_now k_dl]. destruct (Z.max now t <? now + timeout) eqn:W; [|left; eexists; split; [reflexivity|lia]].
  apply Z.ltb_lt in W. right. do 2 eexists. split; [reflexivity|]. cbn [k_now k_in].
  assert (B : (0 < length b)%nat) by (inversion P; subst; destruct b; [contradiction|cbn; lia]).
  split; [rewrite firstn_length; lia|]. split.
  { destruct (length b <=? S n)%nat eqn:L; [inversion P; assumption|]. apply Nat.leb_gt in L. apply pieces_skip; assumption. }
  split; [lia|].
  assert (S1 : pend now ((t, b) :: l) = (if now <? t then 1 else 0) + pend now l).
  { unfold pend. cbn [filter fst]. destruct (now <? t); [rewrite zlen_cons; lia|lia]. }
  assert (S2 : pend (Z.max now t) (if (length b <=? S n)%nat then l else (t, skipn (S n) b) :: l) = pend (Z.max now t) l).
  { destruct (length b <=? S n)%nat; [reflexivity|]. unfold pend. cbn [filter fst]. replace (Z.max now t <? t) with false by (symmetry; apply Z.ltb_ge; lia). reflexivity. }
  rewrite S1, S2. pose proof (pend_le l now (Z.max now t) ltac:(lia)) as M.
  destruct (now <? t) eqn:E; [apply Z.ltb_lt in E; nia|apply Z.ltb_ge in E; nia].
Qed.
Definition reach (timeout : Z) (c : tconn) : Z := k_now c + timeout * pend (k_now c) (k_in c).
Lemma fill_ends : forall timeout, 0 < timeout -> forall fuel want c acc, (want <= fuel)%nat -> (0 < fuel)%nat -> pieces (k_in c) ->
  (exists e, fill fuel timeout want c acc = TTimeout e /\ k_now c <= e <= reach timeout c + timeout) \/
  (exists b c', fill fuel timeout want c acc = TOk (acc ++ b) c' /\ length b = want /\ pieces (k_in c') /\ k_now c <= k_now c' /\ reach timeout c' <= reach timeout c).
Proof.
  intros timeout T. induction fuel as [|fuel IH]; intros want c acc L F P; [lia|]. cbn [fill].
  replace (0 <? timeout) with true by (symmetry; apply Z.ltb_lt; lia).
  destruct want as [|want].
  { right. exists [], (set_deadline timeout c). cbn [tread set_deadline k_in k_now length Nat.eqb]. split; [rewrite app_nil_r; reflexivity|]. repeat split; auto; try lia. unfold reach. cbn. lia. }
  destruct (tread_set timeout (S want) c T ltac:(lia) P) as [[e [E1 E2]]|[b [c' [E1 [B [P' [N R]]]]]]]; rewrite E1.
  - left. exists e. split; [reflexivity|]. unfold reach. pose proof (pend_nonneg (k_now c) (k_in c)). nia.
  - destruct (length b =? S want)%nat eqn:W.
    + apply Nat.eqb_eq in W. right. exists b, c'. unfold reach. auto 6.
    + apply Nat.eqb_neq in W.
      destruct (IH (S want - length b)%nat c' (acc ++ b) ltac:(lia) ltac:(lia) P') as [[e [G1 G2]]|[b' [c'' [G1 [G2 [G3 [G4 G5]]]]]]]; rewrite G1.
      * left. exists e. split; [reflexivity|]. unfold reach in *. lia.
      * right. exists (b ++ b'), c''. rewrite app_assoc. split; [reflexivity|]. rewrite app_length. unfold reach in *. repeat split; auto; lia.
Qed.
Lemma read_ends : forall timeout c, 0 < timeout -> pieces (k_in c) ->
  exists e, ended (tRead timeout c) = Some e /\ k_now c <= e <= k_now c + timeout * (zlen (k_in c) + 1).
Proof.
  intros timeout c T P. unfold tRead.
  assert (M : reach timeout c <= k_now c + timeout * zlen (k_in c)) by (unfold reach; pose proof (pend_length (k_now c) (k_in c)); nia).
  destruct (fill_ends timeout T 4 4 c [] ltac:(lia) ltac:(lia) P) as [[e [E1 E2]]|[h [c1 [E1 [H1 [P1 [N1 R1]]]]]]]; rewrite E1.
  { exists e. split; [reflexivity|lia]. }
  cbn [app]. set (n := Z.to_nat (unbe h)).
  destruct (fill_ends timeout T (S n) n c1 [] ltac:(lia) ltac:(lia) P1) as [[e [E3 E4]]|[b [c2 [E3 [H2 [P2 [N2 R2]]]]]]]; rewrite E3.
  - exists e. split; [reflexivity|lia].
  - exists (k_now c2). split; [reflexivity|]. assert (k_now c2 <= reach timeout c2) by (unfold reach; pose proof (pend_nonneg (k_now c2) (k_in c2)); nia). lia.
Qed.

(** *** a steady response is read *)
Lemma steady_mono : forall l timeout now now', now <= now' -> steady timeout now l -> steady timeout now' l.
Proof.
  induction l as [|[t b] l IH]; intros timeout now now' H S; [exact I|]. destruct S as [A B]. split; [lia|]. eapply IH; [|exact B]. lia.
Qed.
Lemma tread_steady : forall timeout n c, 0 < timeout -> (0 < n)%nat -> pieces (k_in c) -> steady timeout (k_now c) (k_in c) -> all_bytes (k_in c) <> [] ->
  exists b c', tread n (set_deadline timeout c) = TOk b c' /\ (0 < length b <= n)%nat /\ pieces (k_in c') /\ steady timeout (k_now c') (k_in c') /\
    all_bytes (k_in c) = b ++ all_bytes (k_in c').
Proof.
  intros timeout n [now dl l] T N P S A. destruct n as [|n]; [lia|]. unfold tread, set_deadline. cbn [k_now k_dl k_in] in *.
  destruct l as [|[t b] l]; [contradiction A; reflexivity|]. destruct S as [S1 S2].
  unfold wait_until. cbn [k_now k_dl]. replace (Z.max now t <? now + timeout) with true by (symmetry; apply Z.ltb_lt; lia).
  do 2 eexists. split; [reflexivity|]. cbn [k_now k_in].
  assert (B : (0 < length b)%nat) by (inversion P; subst; destruct b; [contradiction|cbn; lia]).
  split; [rewrite firstn_length; lia|]. destruct (length b <=? S n)%nat eqn:L.
  - apply Nat.leb_le in L. split; [inversion P; assumption|]. split; [exact S2|]. rewrite firstn_all2 by exact L. reflexivity.
  - apply Nat.leb_gt in L. split; [apply pieces_skip; assumption|]. split; [split; [lia|]; eapply steady_mono; [|exact S2]; lia|].
    unfold all_bytes. cbn [map concat snd]. rewrite app_assoc, firstn_skipn. reflexivity.
Qed.
Lemma app_split : forall (b x y z : bytes), b ++ z = x ++ y -> (length b <= length x)%nat -> exists x', x = b ++ x' /\ z = x' ++ y.
Proof.
  induction b as [|a b IH]; intros x y z E L; [exists x; auto|]. destruct x as [|a' x]; [cbn in L; lia|]. cbn in E, L. injection E as -> E.
  destruct (IH x y z E ltac:(lia)) as [x' [-> ->]]. exists x'. auto.
Qed.
Lemma fill_steady : forall timeout, 0 < timeout -> forall fuel x rest c acc, (length x <= fuel)%nat -> (0 < fuel)%nat -> pieces (k_in c) ->
  steady timeout (k_now c) (k_in c) -> all_bytes (k_in c) = x ++ rest ->
  exists c', fill fuel timeout (length x) c acc = TOk (acc ++ x) c' /\ pieces (k_in c') /\ steady timeout (k_now c') (k_in c') /\ all_bytes (k_in c') = rest.
Proof.
  intros timeout T. induction fuel as [|fuel IH]; intros x rest c acc L F P S A; [lia|]. cbn [fill].
  replace (0 <? timeout) with true by (symmetry; apply Z.ltb_lt; lia).
  destruct x as [|a x0].
  { exists (set_deadline timeout c). cbn [tread length Nat.eqb set_deadline k_in k_now]. rewrite app_nil_r. auto. }
  remember (a :: x0) as x eqn:X. assert (NX : (0 < length x)%nat) by (subst; cbn; lia).
  destruct (tread_steady timeout (length x) c T NX P S) as [b [c' [E1 [B [P' [S' A']]]]]]; [rewrite A; subst; discriminate|].
  rewrite E1. rewrite A in A'. destruct (app_split b x rest _ (eq_sym A') ltac:(lia)) as [x' [-> A2]].
  destruct (length b =? length (b ++ x'))%nat eqn:W.
  - apply Nat.eqb_eq in W. rewrite app_length in W. assert (x' = []) by (destruct x'; [reflexivity|cbn in W; lia]). subst x'. rewrite app_nil_r in *. exists c'. auto.
  - apply Nat.eqb_neq in W. rewrite app_length in *. replace (length b + length x' - length b)%nat with (length x') by lia.
    destruct (IH x' rest c' (acc ++ b) ltac:(lia) ltac:(lia) P' S' A2) as [c2 [G1 G2]].
    exists c2. rewrite G1, app_assoc. auto.
Qed.
Lemma read_steady : forall timeout c body rest, 0 < timeout -> pieces (k_in c) -> steady timeout (k_now c) (k_in c) ->
  all_bytes (k_in c) = response_of body ++ rest -> zlen body < 2 ^ 32 ->
  exists c', tRead timeout c = TOk (response_of body) c' /\ all_bytes (k_in c') = rest.
Proof.
  intros timeout c body rest T P S A L. unfold response_of in A. rewrite <- app_assoc in A. unfold tRead.
  assert (L4 : length (be 4 (zlen body)) = 4%nat) by apply be_length.
  destruct (fill_steady timeout T 4 (be 4 (zlen body)) (body ++ rest) c [] ltac:(lia) ltac:(lia) P S A) as [c1 [E1 [P1 [S1 A1]]]].
  rewrite L4 in E1. rewrite E1. cbn [app]. rewrite unbe_be, Z.mod_small by (change (256 ^ Z.of_nat 4) with (2 ^ 32); unfold zlen in *; lia).
  replace (Z.to_nat (zlen body)) with (length body) by (unfold zlen; lia).
  cbv zeta.
  destruct (fill_steady timeout T (Datatypes.S (length body)) body rest c1 [] ltac:(lia) ltac:(lia) P1 S1 A1) as [c2 [E2 [P2 [S2 A2]]]].
  rewrite E2. exists c2. auto.
Qed.
(** all pieces within the timeout *)
Lemma steady_all : forall l timeout now, Forall (fun x => fst x < now + timeout) l -> steady timeout now l.
Proof.
  intros l timeout now H. assert (G : forall now', now <= now' -> steady timeout now' l); [|apply G; lia].
  induction H as [|[t b] l A F IH]; intros now' L; [exact I|]. cbn in A. split; [lia|]. apply IH. lia.
Qed.

(** *** a response that drips *)
Fixpoint drip (gap now : Z) (b : bytes) : list (Z * bytes) :=
  match b with [] => [] | x :: b' => (now + gap, [x]) :: drip gap (now + gap) b' end.
Lemma drip_app : forall gap a b now, drip gap now (a ++ b) = drip gap now a ++ drip gap (now + gap * zlen a) b.
Proof.
  induction a as [|x a IH]; intros b now; cbn [app drip]; [f_equal; unfold zlen; cbn; lia|]. rewrite IH. cbn [app]. do 3 f_equal. rewrite zlen_cons. ring.
Qed.
Lemma drip_fill : forall timeout, 1 < timeout -> forall b fuel now dl l acc, (length b <= fuel)%nat -> (0 < fuel)%nat ->
  exists dl', fill fuel timeout (length b) (mkT now dl (drip (timeout - 1) now b ++ l)) acc = TOk (acc ++ b) (mkT (now + (timeout - 1) * zlen b) dl' l).
Proof.
  intros timeout T. induction b as [|x b IH]; intros fuel now dl l acc L F; destruct fuel as [|fuel]; try (cbn in L; lia); cbn [fill length drip app].
  all: replace (0 <? timeout) with true by (symmetry; apply Z.ltb_lt; lia).
  - cbn [tread Nat.eqb length]. eexists. unfold set_deadline. cbn [k_now k_in app]. change (zlen (@nil Z)) with 0. rewrite Z.mul_0_r, Z.add_0_r. reflexivity.
  - unfold set_deadline. cbn [k_now k_in tread k_dl wait_until]. unfold wait_until. cbn [k_now k_dl].
    replace (Z.max now (now + (timeout - 1)) <? now + timeout) with true by (symmetry; apply Z.ltb_lt; lia).
    replace (Z.max now (now + (timeout - 1))) with (now + (timeout - 1)) by lia. cbn [firstn length Nat.leb].
    destruct b as [|y b].
    + cbn [length Nat.eqb app drip]. eexists. replace (now + (timeout - 1) * zlen [x]) with (now + (timeout - 1)) by (change (zlen [x]) with 1; ring). reflexivity.
    + rewrite firstn_nil. cbn [length Nat.eqb]. cbn [length] in L. replace (S (S (length b)) - 1)%nat with (length (y :: b)) by (cbn; lia).
      destruct (IH fuel (now + (timeout - 1)) (Some (now + timeout)) l (acc ++ [x]) ltac:(cbn [length]; lia) ltac:(lia)) as [dl' G]. rewrite G. eexists.
      rewrite <- app_assoc. cbn [app]. replace (now + (timeout - 1) * zlen (x :: y :: b)) with (now + (timeout - 1) + (timeout - 1) * zlen (y :: b)) by (rewrite (zlen_cons x); ring). reflexivity.
Qed.
Lemma drip_read : forall timeout body, 1 < timeout -> zlen body < 2 ^ 32 ->
  ended (tRead timeout (mkT 0 None (drip (timeout - 1) 0 (response_of body)))) = Some ((4 + zlen body) * (timeout - 1)).
Proof.
  intros timeout body T L. unfold response_of, tRead. rewrite drip_app.
  assert (L4 : length (be 4 (zlen body)) = 4%nat) by apply be_length.
  destruct (drip_fill timeout T (be 4 (zlen body)) 4 0 None (drip (timeout - 1) (0 + (timeout - 1) * zlen (be 4 (zlen body))) body) [] ltac:(lia) ltac:(lia)) as [d1 E1].
  rewrite L4 in E1. rewrite E1. cbn [app]. rewrite unbe_be, Z.mod_small by (change (256 ^ Z.of_nat 4) with (2 ^ 32); unfold zlen in *; lia). replace (Z.to_nat (zlen body)) with (length body) by (unfold zlen; lia).
  cbv zeta. rewrite <- (app_nil_r (drip _ _ body)).
  destruct (drip_fill timeout T body (S (length body)) (0 + (timeout - 1) * zlen (be 4 (zlen body))) d1 [] [] ltac:(lia) ltac:(lia)) as [d2 E2].
  rewrite E2. cbn [ended k_now]. f_equal. assert (zlen (be 4 (zlen body)) = 4) by (unfold zlen at 1; rewrite L4; reflexivity). lia.
Qed.

(** *** streams *)
Definition total (l : list Z) : Z := fold_right Z.add 0 l.
Lemma total_nonneg : forall l, Forall (fun p => 0 <= p) l -> 0 <= total l.
Proof. intros l F. induction F; [cbn; lia|]. change (total (x :: l)) with (x + total l). lia. Qed.
Lemma tread_dl : forall n c d, k_dl c = Some d ->
  match tread n c with TOk _ c' => k_dl c' = Some d /\ k_now c' <= Z.max (k_now c) d | TTimeout t => t = Z.max (k_now c) d | THang => False end.
Proof.
  intros [|n] [now dl l] d E; cbn [k_dl] in E; subst dl; [cbn; split; [reflexivity|lia]|]. unfold tread. cbn [k_in k_dl k_now].
  destruct l as [|[t b] l]; [reflexivity|]. unfold wait_until. cbn [k_now k_dl]. destruct (Z.max now t <? d) eqn:W; [|reflexivity].
  apply Z.ltb_lt in W. cbn. split; [reflexivity|lia].
Qed.
Lemma drain_ends : forall pauses want c acc d e, Forall (fun p => 0 <= p) pauses -> k_dl c = Some d -> ended (drain pauses want c acc) = Some e ->
  e <= Z.max (k_now c) d + total pauses.
Proof.
  induction pauses as [|p pauses IH]; intros want c acc d e F D E; destruct want as [|want]; cbn [drain] in E; try discriminate.
  - injection E as <-. cbn. lia.
  - injection E as <-. assert (0 <= total (p :: pauses)); [apply total_nonneg; exact F|lia].
  - inversion F as [|? ? F1 F2]; subst.
    pose proof (tread_dl (S want) (mkT (k_now c + p) (k_dl c) (k_in c)) d D) as R. cbn [k_now] in R.
    assert (T0 : 0 <= total pauses) by (apply total_nonneg; exact F2).
    change (total (p :: pauses)) with (p + total pauses).
    destruct (tread _ _) as [b c'|t|]; [|injection E as <-; subst; lia|contradiction].
    destruct R as [R1 R2]. specialize (IH _ c' _ d e F2 R1 E). lia.
Qed.
Lemma stream_ends : forall timeout pauses c e, 0 < timeout -> Forall (fun p => 0 <= p) pauses -> ended (tstream timeout pauses c) = Some e ->
  e <= k_now c + timeout + total pauses.
Proof.
  intros timeout pauses c e T F E. unfold tstream in E. replace (0 <? timeout) with true in E by (symmetry; apply Z.ltb_lt; lia).
  pose proof (tread_dl 4 (set_deadline timeout c) _ eq_refl) as R. cbn [set_deadline k_now] in R.
  assert (T0 : 0 <= total pauses) by (apply total_nonneg; exact F).
  destruct (tread 4 _) as [h c'|t|]; [|injection E as <-; lia|contradiction]. destruct R as [R1 R2].
  destruct (length h =? 4)%nat; [|injection E as <-; lia].
  destruct (drain pauses (Z.to_nat (unbe h)) c' []) as [b c''|t|] eqn:G; try discriminate; injection E as <-.
  all: pose proof (drain_ends pauses (Z.to_nat (unbe h)) c' [] _ _ F R1 ltac:(rewrite G; reflexivity)); lia.
Qed.

(** a stream that arrives in time *)
Lemma tread_there : forall n c d a, (0 < n)%nat -> k_dl c = Some d -> pieces (k_in c) -> Forall (fun x => fst x <= a) (k_in c) -> all_bytes (k_in c) <> [] ->
  k_now c <= a -> a < d ->
  exists b c', tread n c = TOk b c' /\ (0 < length b <= n)%nat /\ pieces (k_in c') /\ Forall (fun x => fst x <= a) (k_in c') /\
    k_dl c' = Some d /\ k_now c' <= a /\ all_bytes (k_in c) = b ++ all_bytes (k_in c').
Proof.
  intros [|n] [now dl l] d a N D P F A L1 L2; [lia|]. cbn [k_dl k_in k_now] in *. subst dl. unfold tread. cbn [k_in].
  destruct l as [|[t b] l]; [contradiction A; reflexivity|]. inversion F as [|? ? F1 F2]; subst. cbn [fst] in F1.
  unfold wait_until. cbn [k_now k_dl]. replace (Z.max now t <? d) with true by (symmetry; apply Z.ltb_lt; lia).
  do 2 eexists. split; [reflexivity|]. cbn [k_now k_in k_dl].
  assert (B : (0 < length b)%nat) by (inversion P; subst; destruct b; [contradiction|cbn; lia]).
  split; [rewrite firstn_length; lia|]. destruct (length b <=? S n)%nat eqn:L.
  - apply Nat.leb_le in L. split; [inversion P; assumption|]. split; [exact F2|]. split; [reflexivity|]. split; [lia|]. rewrite firstn_all2 by exact L. reflexivity.
  - apply Nat.leb_gt in L. split; [apply pieces_skip; assumption|]. split; [constructor; assumption|]. split; [reflexivity|]. split; [lia|].
    unfold all_bytes. cbn [map concat snd]. rewrite app_assoc, firstn_skipn. reflexivity.
Qed.
Lemma drain_there : forall pauses x rest c acc d a, (length x <= length pauses)%nat -> Forall (fun p => 0 <= p) pauses -> k_dl c = Some d -> pieces (k_in c) ->
  Forall (fun x => fst x <= a) (k_in c) -> all_bytes (k_in c) = x ++ rest -> k_now c <= a -> a + total pauses < d ->
  exists c', drain pauses (length x) c acc = TOk (acc ++ x) c' /\ all_bytes (k_in c') = rest.
Proof.
  induction pauses as [|p pauses IH]; intros x rest c acc d a L F D P FA A N T.
  { destruct x; [|cbn in L; lia]. exists c. cbn. rewrite app_nil_r. auto. }
  destruct x as [|x0 x1]; [exists c; cbn; rewrite app_nil_r; auto|]. remember (x0 :: x1) as x eqn:X.
  assert (NX : (0 < length x)%nat) by (subst; cbn; lia).
  assert (F1 : 0 <= p) by (inversion F; assumption). assert (F2 : Forall (fun p => 0 <= p) pauses) by (inversion F; assumption). change (total (p :: pauses)) with (p + total pauses) in T. pose proof (total_nonneg pauses F2) as T0.
  assert (FA' : Forall (fun x => fst x <= a + p) (k_in c)) by (eapply Forall_impl; [|exact FA]; cbn; intros; lia).
  destruct (tread_there (length x) (mkT (k_now c + p) (k_dl c) (k_in c)) d (a + p) NX D P FA') as (b & c' & E & B & P' & G1 & G2 & G3 & G4); cbn [k_in k_now]; try lia.
  { rewrite A. subst x. discriminate. }
  cbn [k_in] in G4. rewrite A in G4. destruct (app_split b x rest _ (eq_sym G4) ltac:(lia)) as [x' [EX A2]].
  assert (EQ : drain (p :: pauses) (length x) c acc = drain pauses (length x - length b) c' (acc ++ b)).
  { destruct (length x) eqn:LX; [lia|]. cbn [drain]. rewrite E. reflexivity. }
  rewrite EQ. replace (length x - length b)%nat with (length x') by (rewrite EX, app_length; lia).
  assert (LP : (length x' <= length pauses)%nat) by (rewrite EX, app_length in L; cbn [length] in L; lia).
  destruct (IH x' rest c' (acc ++ b) d (a + p) LP F2 G2 P' G1 A2 G3 ltac:(lia)) as [c2 [H1 H2]].
  exists c2. rewrite H1, EX, app_assoc. auto.
Qed.
Lemma stream_there : forall timeout pauses c t b l body rest a, k_in c = (t, b) :: l -> (4 <= length b)%nat -> pieces l ->
  Forall (fun x => fst x <= a) (k_in c) -> k_now c <= a -> a + total pauses < k_now c + timeout -> Forall (fun p => 0 <= p) pauses ->
  all_bytes (k_in c) = response_of body ++ rest -> (length body <= length pauses)%nat -> zlen body < 2 ^ 32 ->
  exists c', tstream timeout pauses c = TOk (Ok body) c' /\ all_bytes (k_in c') = rest.
Proof.
  intros timeout pauses c t b l body rest a K B P F N T FP A LP L. pose proof (total_nonneg pauses FP) as T0.
  assert (TT : 0 < timeout) by lia. unfold tstream. replace (0 <? timeout) with true by (symmetry; apply Z.ltb_lt; lia).
  assert (PC : pieces (k_in c)) by (rewrite K; constructor; [destruct b; [cbn in B; lia|discriminate]|exact P]).
  unfold response_of in A. rewrite <- app_assoc in A. assert (L4 : length (be 4 (zlen body)) = 4%nat) by apply be_length.
  destruct (tread_there 4 (set_deadline timeout c) (k_now c + timeout) a) as (h & c1 & E & H & P1 & F1 & D1 & N1 & A1); cbn [set_deadline k_in k_now k_dl]; try assumption; try lia; try reflexivity.
  { rewrite A. intro C. apply (f_equal (@length Z)) in C. rewrite app_length, L4 in C. cbn in C. lia. }
  cbn [set_deadline k_in] in A1. rewrite E.
  assert (H4 : length h = 4%nat).
  { unfold tread, set_deadline in E. cbn [k_in k_now k_dl] in E. rewrite K in E. destruct (wait_until t _); [|discriminate].
    destruct b as [|b0 [|b1 [|b2 [|b3 b4]]]]; cbn [length] in B; try lia. injection E as <- _. reflexivity. }
  rewrite H4. cbn [Nat.eqb]. rewrite A in A1.
  destruct (app_split h _ _ _ (eq_sym A1) ltac:(lia)) as [x' [EX A2]].
  assert (x' = []) by (destruct x'; [reflexivity|rewrite EX, app_length in L4; cbn in L4; lia]). subst x'. rewrite app_nil_r in EX. subst h. cbn [app] in A2.
  rewrite unbe_be, Z.mod_small by (change (256 ^ Z.of_nat 4) with (2 ^ 32); unfold zlen in *; lia). replace (Z.to_nat (zlen body)) with (length body) by (unfold zlen; lia).
  destruct (drain_there pauses body rest c1 [] (k_now c + timeout) a LP FP D1 P1 F1 A2 N1 T) as [c2 [G1 G2]]. rewrite G1. exists c2. auto.
Qed.

(** *** no timeout and no deadline *)
Lemma tread_free : forall n c, (0 < n)%nat -> k_dl c = None -> pieces (k_in c) -> all_bytes (k_in c) <> [] ->
  exists b c', tread n c = TOk b c' /\ (0 < length b <= n)%nat /\ k_dl c' = None /\ pieces (k_in c') /\ all_bytes (k_in c) = b ++ all_bytes (k_in c').
Proof.
  intros n [now dl l] N D P A. destruct n as [|n]; [lia|]. cbn [k_now k_dl k_in] in *. subst dl. unfold tread. cbn [k_in k_dl].
  destruct l as [|[t b] l]; [contradiction A; reflexivity|]. unfold wait_until. cbn [k_now k_dl].
  do 2 eexists. split; [reflexivity|]. cbn [k_dl k_in].
  assert (B : (0 < length b)%nat) by (inversion P; subst; destruct b; [contradiction|cbn; lia]).
  split; [rewrite firstn_length; lia|]. split; [reflexivity|]. destruct (length b <=? S n)%nat eqn:L.
  - apply Nat.leb_le in L. split; [inversion P; assumption|]. rewrite firstn_all2 by exact L. reflexivity.
  - apply Nat.leb_gt in L. split; [apply pieces_skip; assumption|]. unfold all_bytes. cbn [map concat snd]. rewrite app_assoc, firstn_skipn. reflexivity.
Qed.
Lemma fill_free : forall timeout, timeout <= 0 -> forall fuel x rest c acc, (length x <= fuel)%nat -> (0 < fuel)%nat -> k_dl c = None -> pieces (k_in c) ->
  all_bytes (k_in c) = x ++ rest ->
  exists c', fill fuel timeout (length x) c acc = TOk (acc ++ x) c' /\ k_dl c' = None /\ pieces (k_in c') /\ all_bytes (k_in c') = rest.
Proof.
  intros timeout T. induction fuel as [|fuel IH]; intros x rest c acc L F D P A; [lia|]. cbn [fill].
  replace (0 <? timeout) with false by (symmetry; apply Z.ltb_ge; lia).
  destruct x as [|a x0].
  { exists c. cbn [tread length Nat.eqb]. rewrite app_nil_r. auto. }
  remember (a :: x0) as x eqn:X. assert (NX : (0 < length x)%nat) by (subst; cbn; lia).
  destruct (tread_free (length x) c NX D P) as [b [c' [E1 [B [D' [P' A']]]]]]; [rewrite A; subst; discriminate|].
  cbv zeta. rewrite E1. rewrite A in A'. destruct (app_split b x rest _ (eq_sym A') ltac:(lia)) as [x' [-> A2]].
  destruct (length b =? length (b ++ x'))%nat eqn:W.
  - apply Nat.eqb_eq in W. rewrite app_length in W. assert (x' = []) by (destruct x'; [reflexivity|cbn in W; lia]). subst x'. rewrite app_nil_r in *. exists c'. auto.
  - apply Nat.eqb_neq in W. rewrite app_length in *. replace (length b + length x' - length b)%nat with (length x') by lia.
    destruct (IH x' rest c' (acc ++ b) ltac:(lia) ltac:(lia) D' P' A2) as [c2 [G1 G2]].
    exists c2. rewrite G1, app_assoc. auto.
Qed.
Lemma read_free : forall timeout c body rest, timeout <= 0 -> k_dl c = None -> pieces (k_in c) ->
  all_bytes (k_in c) = response_of body ++ rest -> zlen body < 2 ^ 32 ->
  exists c', tRead timeout c = TOk (response_of body) c' /\ all_bytes (k_in c') = rest.
Proof.
  intros timeout c body rest T D P A L. unfold response_of in A. rewrite <- app_assoc in A. unfold tRead.
  assert (L4 : length (be 4 (zlen body)) = 4%nat) by apply be_length.
  destruct (fill_free timeout T 4 (be 4 (zlen body)) (body ++ rest) c [] ltac:(lia) ltac:(lia) D P A) as [c1 [E1 [D1 [P1 A1]]]].
  rewrite L4 in E1. rewrite E1. cbn [app]. rewrite unbe_be, Z.mod_small by (change (256 ^ Z.of_nat 4) with (2 ^ 32); unfold zlen in *; lia).
  replace (Z.to_nat (zlen body)) with (length body) by (unfold zlen; lia).
  cbv zeta.
  destruct (fill_free timeout T (Datatypes.S (length body)) body rest c1 [] ltac:(lia) ltac:(lia) D1 P1 A1) as [c2 [E2 [D2 [P2 A2]]]].
  rewrite E2. exists c2. auto.
Qed.
