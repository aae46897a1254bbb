(** C27-C31: the group leader's range assignment. *)
From Verif Require Import Base BaseFacts Wire Prims PrimsFacts Group GroupFacts Assign SortFacts AssignFacts.

(** Vocabulary: [assigned ga m t] is what member [m] learns about topic [t] when it
    decodes its own entry of the leader's result; [subscribes t (m, raw)] says that the
    subscription bytes [raw] of member [m] name [t]; [ordT], [ordI], [ordM] are the
    iteration orders the Go runtime picks for the maps. *)

(** *** C27 *)
Theorem C27_range_assignment : forall ordT ordI ordM,
  (forall l, Permutation (ordT l) l) -> (forall l, Permutation (ordI l) l) -> (forall l, Permutation (ordM l) l) ->
  forall ms metas, group_ok ms metas ->
    exists ga, assign ordT ordI ordM ms metas = Ok ga /\
      Permutation (map fst ga) (map fst ms) /\
      forall t P, In (t, P) metas -> exists subs L,
        StronglySorted (leo bltb) subs /\ NoDup subs /\
        (forall m, In m subs <-> exists raw, In (m, raw) ms /\ subscribes t (m, raw) = true) /\
        StronglySorted (leo Z.ltb) L /\ Permutation L P /\
        flat_map (fun m => assigned ga m t) subs = L /\
        (forall i m, nth_error subs i = Some m ->
           zlen (assigned ga m t) = zlen P / zlen subs + (if Z.of_nat i <? zlen P mod zlen subs then 1 else 0)) /\
        (forall m, In m (map fst ms) -> ~ In m subs -> assigned ga m t = []).
Proof. exact range_assignment. Qed.
Print Assumptions C27_range_assignment.

Theorem C27_unique_owner : forall ordT ordI ordM,
  (forall l, Permutation (ordT l) l) -> (forall l, Permutation (ordI l) l) -> (forall l, Permutation (ordM l) l) ->
  forall ms metas ga t P p, group_ok ms metas ->
    assign ordT ordI ordM ms metas = Ok ga -> In (t, P) metas -> NoDup P -> In p P ->
    exists m, (In m (map fst ms) /\ In p (assigned ga m t)) /\
      (exists raw, In (m, raw) ms /\ subscribes t (m, raw) = true) /\
      forall m', In m' (map fst ms) -> In p (assigned ga m' t) -> m' = m.
Proof. exact unique_owner. Qed.
Print Assumptions C27_unique_owner.

(** A group of two members, "b" subscribed to "x" and "y", "a" to "x" only. *)
Definition ex_ms : list (bytes * bytes) :=
  [([98], enc Subscription_ty (0, ([[120]; [121]], Some []))); ([97], enc Subscription_ty (0, ([[120]], None)))].
Definition ex_metas : list (bytes * list Z) := [([120], [2; 0; 1]); ([121], [0])].
Definition idT (l : list (bytes * list (bytes * list Z))) := l.
Definition idI (l : list (bytes * list Z)) := l.
Example C27_ex_ok : group_ok ex_ms ex_metas.
Proof.
  unfold group_ok. repeat split.
  - repeat constructor; eexists; vm_compute; reflexivity.
  - repeat (constructor; [cbn; intuition congruence|]); constructor.
  - repeat (constructor; [cbn; intuition congruence|]); constructor.
  - repeat constructor; unfold i32; cbn; lia.
  - intros t [<-|[<-|[]]]; [exists (nth 1 ex_ms ([],[]))|exists (nth 0 ex_ms ([],[]))]; cbn; (split; [tauto|reflexivity]).
Qed.
Example C27_ex : exists ga, assign (@rev _) idI idT ex_ms ex_metas = Ok ga /\
  assigned ga [97] [120] = [0; 1] /\ assigned ga [98] [120] = [2] /\
  assigned ga [97] [121] = [] /\ assigned ga [98] [121] = [0].
Proof. eexists; split; [vm_compute; reflexivity|]. repeat split; vm_compute; reflexivity. Qed.

(** *** C28 *)
Theorem C28_order_independent : forall ordT ordI ordM ordT' ordI' ordM' ms ms' metas metas' ga ga',
  (forall l, Permutation (ordT l) l) -> (forall l, Permutation (ordI l) l) -> (forall l, Permutation (ordM l) l) ->
  (forall l, Permutation (ordT' l) l) -> (forall l, Permutation (ordI' l) l) -> (forall l, Permutation (ordM' l) l) ->
  group_ok ms metas -> group_ok ms' metas' -> Permutation ms ms' -> same_metas metas metas' ->
  assign ordT ordI ordM ms metas = Ok ga -> assign ordT' ordI' ordM' ms' metas' = Ok ga' ->
  forall m t, In m (map fst ms) -> assigned ga m t = assigned ga' m t.
Proof. exact assign_order_independent. Qed.
Print Assumptions C28_order_independent.

Example C28_ex_same : same_metas ex_metas [([121], [0]); ([120], [1; 2; 0])].
Proof.
  exists [([121], [0]); ([120], [2; 0; 1])]. split; [apply perm_swap|].
  repeat constructor. cbn.
  apply (Permutation_trans (l' := [2; 1; 0])); [apply perm_skip, perm_swap|apply perm_swap].
Qed.
Example C28_ex : exists ga ga',
  assign idT idI idT ex_ms ex_metas = Ok ga /\
  assign (@rev _) (@rev _) idT (rev ex_ms) [([121], [0]); ([120], [1; 2; 0])] = Ok ga' /\
  ga <> ga' /\ assigned ga [97] [120] = assigned ga' [97] [120].
Proof. do 2 eexists. split; [vm_compute; reflexivity|]. split; [vm_compute; reflexivity|].
  split; [vm_compute; congruence|vm_compute; reflexivity]. Qed.

(** *** C29 *)
(** Finding: a topic in the metadata that no member subscribes to is a division by
    zero in the leader.  [C27_range_assignment] shows this is the only way to crash
    for well-formed groups. *)
Theorem C29_orphan_topic_panics : forall ordT ordI ordM ms metas, Forall parses ms ->
  (exists t, In t (map fst metas) /\ forall m, In m ms -> subscribes t m = false) ->
  NoDup (map fst ms) ->
  assign ordT ordI ordM ms metas = Panic.
Proof. exact orphan_topic_panics. Qed.
Print Assumptions C29_orphan_topic_panics.

Theorem C29_leader_survives_refuted : exists ms metas,
  Forall parses ms /\ NoDup (map fst ms) /\ assign idT idI idT ms metas = Panic.
Proof.
  exists ex_ms, (ex_metas ++ [([122], [0; 1])]). split; [exact (proj1 C27_ex_ok)|].
  split; [exact (proj1 (proj2 C27_ex_ok))|vm_compute; reflexivity].
Qed.
Print Assumptions C29_leader_survives_refuted.

(** Finding: one member with undecodable subscription bytes crashes the leader too. *)
Theorem C29_bad_subscription_refuted : exists ms metas, assign idT idI idT ms metas = Panic /\
  forall t, In t (map fst metas) -> exists m, In m ms /\ subscribes t m = true.
Proof.
  exists (ex_ms ++ [([99], [0])]), ex_metas. split; [vm_compute; reflexivity|].
  intros t Ht. destruct (proj2 (proj2 (proj2 (proj2 (proj2 C27_ex_ok)))) t Ht) as [m [H1 H2]].
  exists m. split; [apply in_or_app; left; exact H1|exact H2].
Qed.
Print Assumptions C29_bad_subscription_refuted.

(** *** C30 *)
Theorem C30_assignment_bytes : forall m, ok_ma m -> ma_user m = [] ->
  exists b, ma_encode m = Ok b /\ b = enc Assignment_ty (ma_version m, (ma_parts m, Some [])) /\
    newMemberAssignment b = Ok m.
Proof. exact ma_bytes. Qed.
Print Assumptions C30_assignment_bytes.

(** whichever client leads the group *)
Theorem C30_any_leader : forall v ps u, i16 v -> zlen ps < 2 ^ 31 -> Forall ok_part ps ->
  (match u with None => True | Some b => zlen b < 2 ^ 31 end) ->
  newMemberAssignment (enc Assignment_ty (v, (ps, u)))
  = Ok (mkMA v ps (match u with None => [] | Some b => b end)).
Proof. exact newMemberAssignment_wire. Qed.
Print Assumptions C30_any_leader.

Theorem C30_subscription_bytes : forall m, ok_pm m ->
  exists b, pm_encode m = Ok b /\
    b = enc Subscription_ty (pm_version m, (pm_subs m, Some (pm_user_bytes m))) /\
    newProtocolMetadata b = Ok (mkPM (pm_version m) (pm_subs m) (Some (pm_user_bytes m))).
Proof. exact pm_bytes. Qed.
Print Assumptions C30_subscription_bytes.

Theorem C30_any_subscription : forall v subs u, u16 v -> zlen subs < 2 ^ 32 ->
  Forall (fun s => zlen s < 2 ^ 16) subs ->
  (match u with None => True | Some b => zlen b < 2 ^ 31 end) ->
  newProtocolMetadata (enc Subscription_ty (v, (subs, u))) = Ok (mkPM v subs u).
Proof. exact newProtocolMetadata_wire. Qed.
Print Assumptions C30_any_subscription.

Example C30_ex : ok_ma (mkMA 0 [([120], [0; 2])] []) /\
  ma_encode (mkMA 0 [([120], [0; 2])] []) = Ok [0;0; 0;0;0;1; 0;1;120; 0;0;0;2; 0;0;0;0; 0;0;0;2; 0;0;0;0].
Proof. split; [|vm_compute; reflexivity]. repeat split; try (unfold i16; cbn; lia).
  repeat constructor; cbn; lia. Qed.

(** *** C31 *)
(** Finding: user data is copied where its length prefix should be. *)
Theorem C31_user_data_refuted : exists m b, ok_ma m /\ ma_user m <> [] /\
  ma_encode m = Ok b /\ newMemberAssignment b <> Ok m.
Proof.
  exists (mkMA 0 [([120], [0])] [0; 0; 0; 1; 9]). eexists. split.
  { repeat split; try (unfold i16; cbn; lia). repeat constructor; cbn; lia. }
  split; [discriminate|]. split; [vm_compute; reflexivity|]. vm_compute. discriminate.
Qed.
Print Assumptions C31_user_data_refuted.

(** Finding: user data beginning with a byte >= 128 crashes the member. *)
Theorem C31_user_data_crash_refuted : exists m b, ok_ma m /\
  ma_encode m = Ok b /\ newMemberAssignment b = Panic.
Proof.
  exists (mkMA 0 [([120], [0])] [200; 0; 0; 0]). eexists. split.
  { repeat split; try (unfold i16; cbn; lia). repeat constructor; cbn; lia. }
  split; [vm_compute; reflexivity|vm_compute; reflexivity].
Qed.
Print Assumptions C31_user_data_crash_refuted.
