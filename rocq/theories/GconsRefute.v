(** Schedules of the group consumer that break C43-C45 and C65. *)
From Verif Require Import Base BaseFacts Wire Group GroupFacts Responses Fetch ResponseSpec Gcons GconsSpec.

(** partition 3 of topic "t" *)
Definition ma1 : bytes := enc Assignment_ty (0, ([([116], [3])], Some [])).
Definition rej : err := EWrap (EKafka 25).

(** a first start up to the running partition consumer, as member "a" of generation 7 *)
Definition start (i : nat) (n : Z) (m l : bytes) : list gop :=
  [OLook i (Ok tt); OJoin i; OJoinAns i (Ok (n, (m, l))) false; OSet i; OSync i; OSyncAns i (Ok ma1);
   OTakeJoined i; OStartOne i; OStartOne i].

(** the commit call checks the member id, then the member id is rejected in a restart *)
Definition sched_rejected : list gop :=
  start 0 7 [97] [97] ++ [OCheck; ORestart; OLook 1 (Ok tt); OJoin 1; OJoinAns 1 (Err rej) false; ORead 0; OSend 0].
(** the commit call reads the old member id and the new generation *)
Definition sched_torn : list gop :=
  start 0 7 [97] [97] ++ [OCheck; ORestart; OLook 1 (Ok tt); OJoin 1; OJoinAns 1 (Ok (8, ([98], [98]))) false; ORead 0; OSend 0; OSet 1].
(** Close while the first join is not answered; the end of the loop is taken for success *)
Definition sched_leave : list gop :=
  [OLook 0 (Ok tt); OJoin 0; OClose; OJoinAns 0 (Err EEOF) false; OTakeJoined 0; OLeave (Ok tt)].
(** The leader's metadata goroutine restarts while the first sync is not answered; both
    loops run.  One passes the lookup, the other is told that the coordinator moved, the
    first sets coordinatorAvailable. *)
Definition sched_lookup : list gop :=
  [OLook 0 (Ok tt); OJoin 0; OJoinAns 0 (Ok (7, ([97], [97]))) false; OSet 0; OSync 0; ORestart; OLook 1 (Ok tt);
   OSyncAns 0 (Err (EWrap (EKafka 16))); OJoin 1; OLook 0 (Ok tt); OJoin 0].
(** Close after the sync answer and before the partition consumer started *)
Definition sched_window : list gop :=
  [OLook 0 (Ok tt); OJoin 0; OJoinAns 0 (Ok (7, ([97], [97]))) false; OSet 0; OSync 0; OSyncAns 0 (Ok ma1); OClose].
(** the leave request fails *)
Definition sched_fail : list gop := start 0 7 [97] [97] ++ [OClose; OLeave (Err EEOF)].
(** Close while the coordinator is looked up for the first time *)
Definition sched_nil : list gop := [OLook 0 (Err EEOF); OClose; OLook 0 (Ok tt); OTakeJoined 0; OLeave (Ok tt)].
(** Close while the sync request is not answered *)
Definition sched_started : list gop :=
  [OLook 0 (Ok tt); OJoin 0; OJoinAns 0 (Ok (7, ([97], [97]))) false; OSet 0; OSync 0; OClose; OSyncAns 0 (Ok ma1);
   OTakeJoined 0; OStartOne 0].

Lemma rejected_refuted : exists ops g tr pre n m post, grun ginit ops = Ok (g, tr) /\
  tr = pre ++ GCommit n m :: post /\ ident pre = None /\ m = [].
Proof.
  exists sched_rejected. do 2 eexists.
  exists [GFound 0; GJoin 0 []; GJoined 0 7 [97]; GSync 0 7 [97]; GSynced 0 [([116], 3)]; GRet 0 None;
          GStarted ([116], 3); GJoin 1 [97]; GFailed 1 rej], 7, [], [].
  split; [vm_compute; reflexivity|]. split; [reflexivity|]. split; vm_compute; reflexivity.
Qed.
Lemma torn_refuted : exists ops g tr pre n m post, grun ginit ops = Ok (g, tr) /\
  tr = pre ++ GCommit n m :: post /\ forall i, ~ In (GJoined i n m) tr.
Proof.
  exists sched_torn. do 2 eexists.
  exists [GFound 0; GJoin 0 []; GJoined 0 7 [97]; GSync 0 7 [97]; GSynced 0 [([116], 3)]; GRet 0 None;
          GStarted ([116], 3); GJoin 1 [97]], 8, [97], [GJoined 1 8 [98]].
  split; [vm_compute; reflexivity|]. split; [reflexivity|]. intros i X. cbn in X. intuition congruence.
Qed.
Lemma leave_refuted : exists ops g tr pre m post, grun ginit ops = Ok (g, tr) /\
  tr = pre ++ GLeft m :: post /\ ident pre = None.
Proof.
  exists sched_leave. do 2 eexists. exists [GFound 0; GJoin 0 []; GClosing; GFailed 0 EEOF; GRet 0 None], [], [].
  split; [vm_compute; reflexivity|]. split; reflexivity.
Qed.
Lemma lookup_refuted : exists ops g tr a i e b m c, grun ginit ops = Ok (g, tr) /\
  tr = a ++ GFailed i e :: b ++ GJoin i m :: c /\ moved e = true /\ forall j, ~ In (GFound j) b.
Proof.
  exists sched_lookup. do 2 eexists.
  exists [GFound 0; GJoin 0 []; GJoined 0 7 [97]; GSync 0 7 [97]], 0%nat, (EWrap (EKafka 16)),
    [GRet 0 (Some (EWrap (EKafka 16))); GJoin 1 [97]], [97], [].
  split; [vm_compute; reflexivity|]. split; [reflexivity|]. split; [reflexivity|].
  intros j X. cbn in X. intuition congruence.
Qed.
Lemma window_refuted : exists ops g tr, grun ginit ops = Ok (g, tr) /\ g_closed g = false /\ g_coord g = true /\
  gstep g OClose = Panic.
Proof.
  exists (removelast sched_window). do 2 eexists. split; [vm_compute; reflexivity|]. split; [reflexivity|]. split; reflexivity.
Qed.
Lemma fail_refuted : exists ops g tr, grun ginit ops = Ok (g, tr) /\ g_closed g = true /\ g_joined g = true /\
  forall e, gstep g (OLeave (Err e)) = Panic.
Proof.
  exists (removelast sched_fail). do 2 eexists. split; [vm_compute; reflexivity|]. split; [reflexivity|]. split; reflexivity.
Qed.
Lemma nil_refuted : exists ops g tr, grun ginit ops = Ok (g, tr) /\ g_closed g = true /\
  forall ans, gstep g (OLeave ans) = Panic.
Proof.
  exists (removelast sched_nil). do 2 eexists. split; [vm_compute; reflexivity|]. split; reflexivity.
Qed.
Lemma started_refuted : exists ops g tr a b p c, grun ginit ops = Ok (g, tr) /\
  tr = a ++ GClosing :: b ++ GStarted p :: c.
Proof.
  exists sched_started. do 2 eexists.
  exists [GFound 0; GJoin 0 []; GJoined 0 7 [97]; GSync 0 7 [97]], [GSynced 0 [([116], 3)]; GRet 0 None], ([116], 3), [].
  split; [vm_compute; reflexivity|]. reflexivity.
Qed.

(** A long life: joins as leader, commits, is told 27 and 25 in a restart, joins anew, loses
    the coordinator, joins, beats, commits, closes, leaves. *)
Definition life : list gop :=
  start 0 7 [97] [97] ++ [OBeat; OCheck; ORead 0; OSend 0; ORestart;
   OLook 1 (Ok tt); OJoin 1; OJoinAns 1 (Err (EWrap (EKafka 27))) false; OLook 1 (Ok tt); OJoin 1; OJoinAns 1 (Err rej) false;
   OCheck; OLook 1 (Ok tt); OJoin 1; OJoinAns 1 (Ok (8, ([98], [97]))) false; OSet 1; OSync 1;
   OSyncAns 1 (Err (EWrap (EKafka 16))); OLook 1 (Err ETimeout)] ++ start 1 9 [98] [97] ++
  [OBeat; OCheck; ORead 0; OSend 0; OClose; OLeave (Ok tt)].
Definition life_trace : list gev :=
  [GFound 0; GJoin 0 []; GJoined 0 7 [97]; GSync 0 7 [97]; GSynced 0 [([116], 3)]; GRet 0 None; GStarted ([116], 3);
   GBeat 7 [97]; GCommit 7 [97];
   GJoin 1 [97]; GFailed 1 (EWrap (EKafka 27)); GJoin 1 [97]; GFailed 1 rej;
   GJoin 1 []; GJoined 1 8 [98]; GSync 1 8 [98]; GFailed 1 (EWrap (EKafka 16)); GRet 1 (Some (EWrap (EKafka 16)));
   GFound 1; GJoin 1 [98]; GJoined 1 9 [98]; GSync 1 9 [98]; GSynced 1 [([116], 3)]; GRet 1 None; GStarted ([116], 3);
   GBeat 9 [98]; GCommit 9 [98]; GClosing; GLeft [98]].
Lemma life_run : exists g, grun ginit life = Ok (g, life_trace).
Proof. eexists. vm_compute. reflexivity. Qed.

Lemma guarded_cons (ok : gst -> gop -> Prop) g op ops g' evs :
  ok g op -> gstep g op = Ok (g', evs) -> guarded ok g' ops -> guarded ok g (op :: ops).
Proof. intros A B C. cbn [guarded]. split; [exact A|]. rewrite B. exact C. Qed.
Ltac walk ok_tac :=
  repeat (first [exact I|eapply guarded_cons; [ok_tac|vm_compute; reflexivity|]]).
Ltac ok_life := first [exact I|exact eq_refl|(eexists; reflexivity)
  |(split; [repeat (apply Forall_cons; [exact I|]); apply Forall_nil|exact eq_refl])
  |(split; [exact I|intros ? X; inversion X; vm_compute; exact I])
  |(repeat (apply Forall_cons; [first [exact eq_refl|exact (fun X => X)]|]); apply Forall_nil)].
Lemma life_calm : guarded calm ginit life.
Proof. unfold life, start. cbn [app]. walk ok_life. Qed.
Lemma life_orderly : guarded orderly ginit life.
Proof. unfold life, start. cbn [app]. walk ok_life. Qed.
