(** C143: what a group consumer is assigned is consumed. *)
From Verif Require Import Base BaseFacts Wire Group Responses Gcons GconsSpec GconsFacts GconsRefute Lives AssignedSpec AssignedFacts.

(** *** C143 *)
(** Guards: closeChan holds no value, no other call of consumeWithoutHeartBeat is under way, and there is no
    restart, closing or further assignment.  Whatever else happens, in whatever order: of the partitions that the
    sync answer named, those in front have been started, once each and nothing else; when the call has
    returned, all. *)
Theorem C143_started_partial : forall g i ans g1 evs parts ops g2 tr, gstep g (OSyncAns i ans) = Ok (g1, evs) -> In (GSynced i parts) evs ->
  g_chan g = false -> only_waiting g i -> Forall undisturbed ops -> grun g1 ops = Ok (g2, tr) ->
  exists l m, nth_error (g_sess g2) i = Some (mkS l m) /\ parts = started tr ++ left_over parts m.
Proof. exact assigned_started. Qed.
Print Assumptions C143_started_partial.
(** From every such state the call, alone, comes to its end. *)
Theorem C143_completed_partial : forall g i ans g1 evs parts ops g2 tr, gstep g (OSyncAns i ans) = Ok (g1, evs) -> In (GSynced i parts) evs ->
  g_chan g = false -> only_waiting g i -> Forall undisturbed ops -> grun g1 ops = Ok (g2, tr) ->
  exists more g3 tr', Forall (fun op => op = OTakeJoined i \/ op = OStartOne i) more /\ grun g2 more = Ok (g3, tr') /\
    started (tr ++ tr') = parts /\ option_map s_main (nth_error (g_sess g3) i) = Some MIdle.
Proof. exact assigned_completed. Qed.
Print Assumptions C143_completed_partial.

(** the assignment of partitions 3 and 5 of topic "t" *)
Definition pay143 : bytes := [0; 0; 0; 0; 0; 1; 0; 1; 116; 0; 0; 0; 2; 0; 0; 0; 3; 0; 0; 0; 5; 0; 0; 0; 0].
Definition join143 (i : nat) : list gop := [OLook i (Ok tt); OJoin i; OJoinAns i (Ok (7, ([109], [109]))) false; OSet i; OSync i].
Example C143_ex : exists g tr g1, grun ginit (join143 0) = Ok (g, tr) /\ g_chan g = false /\ only_waiting g 0 /\
  gstep g (OSyncAns 0 (Ok pay143)) = Ok (g1, [GSynced 0 [([116], 3); ([116], 5)]; GRet 0 None]) /\
  exists g2, grun g1 [OCheck; OTakeJoined 0; OStartOne 0; OBeat; OStartOne 0; ORead 0; OSend 0; OStartOne 0] =
    Ok (g2, [GStarted ([116], 3); GBeat 7 [109]; GStarted ([116], 5); GCommit 7 [109]]).
Proof.
  do 3 eexists. split; [vm_compute; reflexivity|]. split; [reflexivity|]. split.
  - split; [eexists; reflexivity|]. intros [|[|j]] s H; cbn in H; [reflexivity|discriminate H|destruct j; discriminate H].
  - split; [vm_compute; reflexivity|]. eexists. vm_compute. reflexivity.
Qed.

(** Finding: AwaitClose leaves its token in closeChan when nobody waits there.  Consume, which sets closed to false
    and so can be called again, joins and syncs as before; but its select may take the old token: it returns, the
    assigned partitions are not started, no heartbeat is sent, and nothing changes that. *)
Definition once143 : list gop := join143 0 ++ [OSyncAns 0 (Ok pay143); OTakeJoined 0; OStartOne 0; OStartOne 0; OStartOne 0; OClose; OLeave (Ok tt)].
Theorem C143_reused_refuted : exists l s g1 parts g2, lrun linit l = Ok s /\ g_closed (gl_g s) = false /\ only_waiting (gl_g s) 1 /\
  gstep (gl_g s) (OSyncAns 1 (Ok pay143)) = Ok (g1, [GSynced 1 parts; GRet 1 None]) /\ parts <> [] /\
  grun g1 [OTakeClose 1] = Ok (g2, []) /\ gstep g2 OBeat = Ok (g2, []) /\
  forall ops g3 tr, Forall undisturbed ops -> grun g2 ops = Ok (g3, tr) -> started tr = [].
Proof.
  exists (map LStep once143 ++ LConsume :: map LStep (join143 1)). do 4 eexists. split; [vm_compute; reflexivity|]. split; [reflexivity|]. split.
  { split; [eexists; reflexivity|]. intros [|[|[|j]]] s H; cbn in H; try (destruct j); try discriminate H; [|reflexivity].
    injection H as <-. intros X. exfalso. apply X. reflexivity. }
  split; [vm_compute; reflexivity|]. split; [discriminate|]. split; [vm_compute; reflexivity|]. split; [reflexivity|].
  intros ops g3 tr U R. match type of R with grun ?g _ = _ => assert (H : Inv 1 [] [] g) end.
  { split; [reflexivity|]. split; [exists MIdle; split; [reflexivity|]; split; [reflexivity|discriminate]|].
    intros [|[|[|j]]] s H D; cbn in H; try (destruct j); try discriminate H; [|contradiction D; reflexivity]. injection H as <-. reflexivity. }
  destruct (Inv_run 1 [] ops [] _ g3 tr U H R) as (_ & (m & _ & P & _) & _). cbn [app] in P. symmetry in P. apply app_eq_nil in P. apply P.
Qed.
Print Assumptions C143_reused_refuted.

(** Finding: a restart by the metadata goroutine while the first call still waits for its sync answer makes a second
    call; both start the partition: two consumers of it run in one member, and the first is in no list any more. *)
Definition pay143b : bytes := [0; 0; 0; 0; 0; 1; 0; 1; 116; 0; 0; 0; 1; 0; 0; 0; 3; 0; 0; 0; 0].
Theorem C143_twice_refuted : exists ops g tr, grun ginit ops = Ok (g, tr) /\ ~ In OClose ops /\
  started tr = [([116], 3); ([116], 3)] /\ g_sc g = [([116], 3)] /\ g_wg g = 2 /\
  (forall j s, nth_error (g_sess g) j = Some s -> s_main s = MIdle).
Proof.
  exists (join143 0 ++ [ORestart; OSyncAns 0 (Ok pay143b); OTakeJoined 0; OStartOne 0; OStartOne 0] ++
          join143 1 ++ [OSyncAns 1 (Ok pay143b); OTakeJoined 1; OStartOne 1; OStartOne 1]).
  do 2 eexists. split; [vm_compute; reflexivity|]. split; [cbn; intuition discriminate|]. split; [reflexivity|]. split; [reflexivity|]. split; [reflexivity|].
  intros [|[|[|j]]] s H; cbn in H; try (destruct j); try discriminate H; injection H as <-; reflexivity.
Qed.
Print Assumptions C143_twice_refuted.
