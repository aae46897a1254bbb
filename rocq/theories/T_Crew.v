(** C131, C132: a group at work (Crew.v). *)
From Verif Require Import Base BaseFacts Wire Group GroupFacts Assign Requests RequestSpec Responses ResponseSpec Consumer Gcons GconsSpec GconsFacts GconsLoop Lead RoundSpec RoundFacts Crew CrewFacts.

(** ** Schedules *)
(** an assignment of partitions of topic "t", and the steps of a member *)
Definition sent (ps : list Z) : bytes := enc Assignment_ty (0, ([([116], ps)], Some [])).
Definition t_ (p : Z) : part := ([116], p).
Definition asks (n i : nat) : list wop := [WStep n (OLook i (Ok tt)); WStep n (OJoin i)].
Definition syncs (n i : nat) (gen : Z) : list wop :=
  [WStep n (OJoinAns i (Ok (gen, ([97], [97]))) false); WStep n (OSet i); WStep n (OSync i)].
Definition gets (n i : nat) (ps : list Z) : list wop :=
  WStep n (OSyncAns i (Ok (sent ps))) :: WStep n (OTakeJoined i) :: repeat (WStep n (OStartOne i)) (S (length ps)).
(** member 0 has both partitions; member 1 joins; member 0 stops, rejoins, and keeps one *)
Definition shares : list wop :=
  asks 0 0 ++ [WComplete [(0%nat, [t_ 3; t_ 4])]] ++ syncs 0 0 1 ++ gets 0 0 [3; 4] ++
  [WCheck 0 (t_ 3); WStep 0 (ORead 0); WStep 0 (OSend 0)] ++ asks 1 0 ++
  [WStep 0 ORestart] ++ asks 0 1 ++ [WComplete [(0%nat, [t_ 3]); (1%nat, [t_ 4])]] ++
  syncs 0 1 2 ++ syncs 1 0 2 ++ gets 1 0 [4] ++ gets 0 1 [3].
(** member 0 consumes partition 3; a commit for it is under way; it has to rejoin, and member 1
    gets the partition; then the commit request is sent *)
Definition late : list wop :=
  asks 0 0 ++ [WComplete [(0%nat, [t_ 3])]] ++ syncs 0 0 1 ++ gets 0 0 [3] ++ [WCheck 0 (t_ 3); WStep 0 (ORead 0)] ++
  asks 1 0 ++ [WStep 0 ORestart] ++ asks 0 1 ++ [WComplete [(0%nat, []); (1%nat, [t_ 3])]] ++ syncs 0 1 2 ++ syncs 1 0 2 ++ gets 1 0 [3].
(** member 0 consumes partition 3 and is silent for too long *)
Definition silent : list wop :=
  asks 0 0 ++ [WComplete [(0%nat, [t_ 3])]] ++ syncs 0 0 1 ++ gets 0 0 [3] ++ [WExpire 0] ++
  asks 1 0 ++ [WComplete [(1%nat, [t_ 3])]] ++ syncs 1 0 2 ++ gets 1 0 [3].
(** member 0 waits for its assignment; its metadata goroutine sees a change and restarts; the
    first call then gets its assignment and starts it, while the second has joined *)
Definition twice : list wop :=
  asks 0 0 ++ [WComplete [(0%nat, [t_ 3])]] ++ syncs 0 0 1 ++ [WStep 0 ORestart] ++ asks 0 1 ++ gets 0 0 [3] ++
  asks 1 0 ++ [WComplete [(0%nat, []); (1%nat, [t_ 3])]] ++ syncs 1 0 2 ++ gets 1 0 [3].

Lemma wguarded_cons (ok : crew -> wop -> Prop) w op ops w' evs :
  ok w op -> wstep w op = Ok (w', evs) -> wguarded ok w' ops -> wguarded ok w (op :: ops).
Proof. intros A B C. cbn [wguarded]. split; [exact A|]. rewrite B. exact C. Qed.
Ltac ok_orderly := first [exact I|exact eq_refl|(eexists; reflexivity)
  |(split; [exact I|intros ? X; injection X as <-; vm_compute; exact I])
  |(vm_compute; repeat (apply Forall_cons; [exact eq_refl|]); apply Forall_nil)].
Ltac ok_answers := first [exact I
  |(vm_compute; right; repeat split; [left; reflexivity|intros []])
  |(vm_compute; right; repeat split; [tauto|intros []])
  |(split; [vm_compute; tauto|split; [reflexivity|intros ? X; vm_compute in X; injection X as <-; reflexivity]])].
Ltac ok_disjoint := intros n n' p Hn Hn' Hp Hp'; vm_compute in Hn, Hn';
  repeat match goal with H : _ \/ _ |- _ => destruct H | H : False |- _ => destruct H end; subst; try reflexivity;
  vm_compute in Hp, Hp'; intuition congruence.
Ltac ok_wop := cbn [fair strict hasty careful];
  first [exact I
    |(split; [discriminate|split; [ok_orderly|ok_answers]])
    |(split; [intros k Hk; vm_compute in Hk |- *; tauto|ok_disjoint])
    |(vm_compute; tauto)].
Ltac wwalk := repeat (first [exact I|eapply wguarded_cons; [ok_wop|vm_compute; reflexivity|]]).
Lemma shares_fair : wguarded fair winit shares.
Proof. unfold shares, asks, syncs, gets. cbn [app repeat length]. wwalk. Qed.
Lemma shares_careful : wguarded careful winit shares.
Proof.
  unfold shares, asks, syncs, gets. cbn [app repeat length].
  repeat (first [exact I|eapply wguarded_cons; [split; [ok_wop|first [exact I|exact eq_refl]]|vm_compute; reflexivity|]]).
Qed.
Lemma late_fair : wguarded fair winit late.
Proof. unfold late, asks, syncs, gets. cbn [app repeat length]. wwalk. Qed.
Lemma silent_strict : wguarded strict winit silent.
Proof. unfold silent, asks, syncs, gets. cbn [app repeat length]. wwalk. Qed.
Lemma twice_hasty : wguarded hasty winit twice.
Proof. unfold twice, asks, syncs, gets. cbn [app repeat length]. wwalk. Qed.

(** *** C131 *)
(** "A partition is consumed by one member of the group at a time", for every number of
    members, through any number of rounds, in any order of the steps of all members, with
    members that come, close, leave and fail: if the assignments give nothing twice, the
    restarts of a member do not overlap with its starts, and no session times out while the
    member consumes. *)
Theorem C131_exclusive_partial : forall ops w evs, wguarded fair winit ops -> wrun winit ops = Ok (w, evs) ->
  forall n n' p, In p (w_run w n) -> In p (w_run w n') -> n = n'.
Proof. exact exclusive. Qed.
Print Assumptions C131_exclusive_partial.
(** what a member consumes is what it was given in the current generation *)
Theorem C131_current_partial : forall ops w evs, wguarded fair winit ops -> wrun winit ops = Ok (w, evs) ->
  forall n p, In p (w_run w n) -> In n (w_members w) /\ In p (w_asg w n).
Proof. exact owns_assigned. Qed.
Print Assumptions C131_current_partial.
(** and none of these runs crashes *)
Theorem C131_no_panic_partial : forall ops, wguarded fair winit ops -> exists r, wrun winit ops = Ok r.
Proof. intros ops H. exact (no_crash ops winit H crew_init). Qed.
Print Assumptions C131_no_panic_partial.
(** the assignments that a round of the code ends with (C100) give nothing twice *)
Theorem C131_round : forall zip client group session corr gen leader ms tops,
  round_ok client group session corr gen leader ms tops -> NoDup (partitions tops) ->
  forall ordS ordT ordI ordM,
  (forall l, Permutation (ordS l) l) -> (forall l, Permutation (ordT l) l) -> (forall l, Permutation (ordI l) l) -> (forall l, Permutation (ordM l) l) ->
  forall answers, told_metadata ms tops answers -> forall n, (length (partitions tops) <= n)%nat ->
  exists gs, round zip ordS ordT ordI ordM client group session corr gen leader answers n ms = Ok gs /\
    forall i j gi gj p, nth_error gs i = Some gi -> nth_error gs j = Some gj -> In p (snd gi) -> In p (snd gj) -> i = j.
Proof.
  intros zip client group session corr gen leader ms tops Hok Hnd ordS ordT ordI ordM H1 H2 H3 H4 answers Ht n Hn.
  destruct (round_correct zip client group session corr gen leader ms tops Hok ordS ordT ordI ordM H1 H2 H3 H4 answers Ht n Hn)
    as (gs & E & P & _). exists gs. split; [exact E|].
  apply Permutation_sym in P. apply (Permutation_NoDup P) in Hnd. clear -Hnd.
  induction gs as [|g gs IH]; intros i j gi gj p Hi Hj Pi Pj; [destruct i; discriminate|].
  cbn [flat_map] in Hnd. assert (Hnd' : NoDup (flat_map snd gs)).
  { clear - Hnd. induction (snd g) as [|q l IH]; [exact Hnd|]. cbn [app] in Hnd. inversion Hnd; subst. auto. }
  assert (Out : forall k gk, nth_error gs k = Some gk -> In p (snd gk) -> In p (snd g) -> False).
  { intros k gk Hk Pk Pg. apply nth_error_In in Hk.
    assert (Hf : In p (flat_map snd gs)) by (apply in_flat_map; exists gk; split; assumption).
    clear - Hnd Hf Pg. induction (snd g) as [|q l IH]; [destruct Pg|]. cbn [app] in Hnd. inversion Hnd as [|? ? N1 N2]; subst.
    destruct Pg as [->|Pg]; [apply N1, in_or_app; right; exact Hf|exact (IH N2 Pg)]. }
  destruct i as [|i], j as [|j]; cbn [nth_error] in Hi, Hj; [reflexivity| | |].
  - injection Hi as ->. destruct (Out j gj Hj Pj Pi).
  - injection Hj as ->. destruct (Out i gi Hi Pi Pj).
  - f_equal. exact (IH Hnd' i j gi gj p Hi Hj Pi Pj).
Qed.
Print Assumptions C131_round.
Example C131_ex : wguarded fair winit shares /\ exists w evs, wrun winit shares = Ok (w, evs) /\
  w_run w 0%nat = [t_ 3] /\ w_run w 1%nat = [t_ 4] /\ w_gen w = 2 /\
  exists w1 e1, wrun winit (firstn 16 shares) = Ok (w1, e1) /\ w_run w1 0%nat = [t_ 3; t_ 4].
Proof.
  split; [exact shares_fair|]. do 2 eexists. split; [vm_compute; reflexivity|]. repeat split.
  do 2 eexists. split; [vm_compute; reflexivity|]. reflexivity.
Qed.

(** Refuted when the session of a member times out while it consumes, which C130 shows it may:
    the member goes on, and another one consumes the same partition. *)
Theorem C131_expired_refuted : exists ops w evs p, wguarded strict winit ops /\ wrun winit ops = Ok (w, evs) /\
  In p (w_run w 0%nat) /\ In p (w_run w 1%nat).
Proof.
  exists silent. do 2 eexists. exists (t_ 3). split; [exact silent_strict|]. split; [vm_compute; reflexivity|].
  split; left; reflexivity.
Qed.
Print Assumptions C131_expired_refuted.
(** Refuted, with a coordinator that waits for every member, when a restart begins before the
    first start is through: the assignment of the first start is consumed in the generation of
    the second. *)
Theorem C131_restart_refuted : exists ops w evs p, wguarded hasty winit ops /\ wrun winit ops = Ok (w, evs) /\
  In p (w_run w 0%nat) /\ In p (w_run w 1%nat) /\ ~ In p (w_asg w 0%nat).
Proof.
  exists twice. do 2 eexists. exists (t_ 3). split; [exact twice_hasty|]. split; [vm_compute; reflexivity|].
  split; [left; reflexivity|]. split; [left; reflexivity|]. intros [].
Qed.
Print Assumptions C131_restart_refuted.

(** *** C132 *)
(** "Nobody but the member that consumes a partition commits for it", if no commit is under way
    when the partition consumers of a member are stopped. *)
Theorem C132_owner_partial : forall ops w tr op w' evs,
  wguarded careful winit ops -> wrun winit ops = Ok (w, tr) -> careful w op -> wstep w op = Ok (w', evs) ->
  forall n p a, In (WCommit n p a) evs -> In p (w_run w n) /\ forall n', In p (w_run w n') -> n' = n.
Proof. exact commits_own. Qed.
Print Assumptions C132_owner_partial.
Example C132_ex : wguarded careful winit shares /\ exists w, wrun winit shares = Ok (w, [WCommit 0 (t_ 3) true]).
Proof. split; [exact shares_careful|]. eexists. vm_compute. reflexivity. Qed.
(** Refuted for commits that are under way then (simple_consumer.go:387-388 starts one when the
    partition consumer is stopped, and nothing waits for it): the request carries the
    generation of the time it is sent, the coordinator takes it, and the partition belongs to
    another member. *)
Theorem C132_late_refuted : exists ops w tr op w' evs p, wguarded fair winit ops /\ wrun winit ops = Ok (w, tr) /\
  fair w op /\ wstep w op = Ok (w', evs) /\ In (WCommit 0 p true) evs /\ ~ In p (w_run w 0%nat) /\ In p (w_run w 1%nat).
Proof.
  exists late. do 2 eexists. exists (WStep 0 (OSend 0)). do 2 eexists. exists (t_ 3).
  split; [exact late_fair|]. split; [vm_compute; reflexivity|].
  split; [split; [discriminate|split; exact I]|]. split; [vm_compute; reflexivity|].
  split; [left; reflexivity|]. split; [intros []|left; reflexivity].
Qed.
Print Assumptions C132_late_refuted.
(** In any run at all, the coordinator takes a commit only from a member of the current generation that
    names this generation; *)
Theorem C132_taken : forall w op w' evs n p, wstep w op = Ok (w', evs) -> In (WCommit n p true) evs ->
  In n (w_members w) /\ g_gen (w_g w n) = w_gen w.
Proof.
  intros w op w' evs n p E H. destruct op as [k op|k q|asg|k]; cbn [wstep] in E.
  - destruct (gstep (w_g w k) op) as [[g' e]| | |] eqn:G; cbn [rbind] in E; try discriminate E. injection E as <- <-.
    destruct (sends op e) as [j|] eqn:S; [|destruct H]. destruct (nth_error (w_com w k) j) as [r|]; [|destruct H].
    destruct H as [H|[]]. injection H as <- <- H. apply andb_prop in H as [A B]. apply Z.eqb_eq in A.
    assert (F : g_gen g' = g_gen (w_g w k)).
    { destruct op as [| | | | | | | | | | | |i| | |]; try discriminate S. cbn [gstep] in G.
      destruct (nth_error (g_com (w_g w k)) i) as [[|m]|]; try (injection G as <- <-; reflexivity).
      destruct (g_coord (w_g w k)); [|discriminate G]. injection G as <- <-. reflexivity. }
    rewrite F in A. split; [|exact A]. unfold has in B. apply existsb_exists in B as (x & I & X). apply Nat.eqb_eq in X. subst x. exact I.
  - destruct (gstep (w_g w k) OCheck) as [[g' e]| | |]; cbn [rbind] in E; try discriminate E. injection E as <- <-. destruct H.
  - injection E as <- <-. destruct H.
  - injection E as <- <-. destruct H.
Qed.
Print Assumptions C132_taken.
(** so that a commit that is sent before the member has joined again is lost. *)
Definition too_late : list wop :=
  asks 0 0 ++ [WComplete [(0%nat, [t_ 3])]] ++ syncs 0 0 1 ++ gets 0 0 [3] ++ [WCheck 0 (t_ 3); WStep 0 (ORead 0)] ++
  asks 1 0 ++ [WStep 0 ORestart] ++ asks 0 1 ++ [WComplete [(0%nat, []); (1%nat, [t_ 3])]; WStep 0 (OSend 0)].
Example C132_refused_ex : wguarded fair winit too_late /\ exists w, wrun winit too_late = Ok (w, [WCommit 0 (t_ 3) false]) /\ In 0%nat (w_members w).
Proof.
  split; [unfold too_late, asks, syncs, gets; cbn [app repeat length]; wwalk|]. eexists. split; [vm_compute; reflexivity|]. vm_compute. tauto.
Qed.
