(** C43-C46, C65: the group consumer. *)
From Verif Require Import Base BaseFacts Wire Group GroupFacts Assign Responses Fetch ResponseSpec ErrorCode Gcons GconsSpec GconsFacts GconsLoop GconsRefute.

(** Vocabulary: [grun ginit ops] is the run of a group consumer under a schedule [ops],
    which also holds all answers of the coordinator; its trace has the requests sent and
    the answers taken over.  [ident] is the identity (generation, member id) the trace so
    far gives the client. *)

(** *** C43 *)
Theorem C43_identity_partial : forall ops g tr pre ev post, guarded calm ginit ops -> grun ginit ops = Ok (g, tr) ->
  tr = pre ++ ev :: post -> carries (ident pre) ev.
Proof. exact requests_carry. Qed.
Print Assumptions C43_identity_partial.
(** Join requests, whatever the schedule. *)
Theorem C43_joins_partial : forall ops g tr pre i m post, grun ginit ops = Ok (g, tr) ->
  tr = pre ++ GJoin i m :: post -> m = member_of (ident pre).
Proof. exact (fun ops g tr pre i m post => joins_carry ops g tr pre (GJoin i m) post). Qed.
Print Assumptions C43_joins_partial.
Theorem C43_rejected_join_partial : forall ops g tr a i e b j m c, grun ginit ops = Ok (g, tr) ->
  tr = a ++ GFailed i e :: b ++ GJoin j m :: c -> reports 25 e = true ->
  (forall k n m', ~ In (GJoined k n m') b) -> m = [].
Proof. exact rejected_join. Qed.
Print Assumptions C43_rejected_join_partial.
Theorem C43_rejected_commit_partial : forall ops g tr a i e b n m c, guarded calm ginit ops -> grun ginit ops = Ok (g, tr) ->
  tr = a ++ GFailed i e :: b ++ GCommit n m :: c -> reports 25 e = true ->
  exists k n' m', In (GJoined k n' m') b.
Proof. exact rejected_commit. Qed.
Print Assumptions C43_rejected_commit_partial.
(** Off the calm schedules: a commit without identity after a rejection; *)
Theorem C43_rejected_commit_refuted : exists ops g tr pre n m post, grun ginit ops = Ok (g, tr) /\
  tr = pre ++ GCommit n m :: post /\ ident pre = None /\ m = [].
Proof. exact rejected_refuted. Qed.
Print Assumptions C43_rejected_commit_refuted.
(** a commit with a pair of generation and member id that no join answer had; *)
Theorem C43_torn_commit_refuted : exists ops g tr pre n m post, grun ginit ops = Ok (g, tr) /\
  tr = pre ++ GCommit n m :: post /\ forall i, ~ In (GJoined i n m) tr.
Proof. exact torn_refuted. Qed.
Print Assumptions C43_torn_commit_refuted.
(** a leave request of a consumer that never joined. *)
Theorem C43_leave_refuted : exists ops g tr pre m post, grun ginit ops = Ok (g, tr) /\
  tr = pre ++ GLeft m :: post /\ ident pre = None.
Proof. exact leave_refuted. Qed.
Print Assumptions C43_leave_refuted.
Example C43_ex : guarded calm ginit life /\ exists g, grun ginit life = Ok (g, life_trace).
Proof. exact (conj life_calm life_run). Qed.

(** *** C44 *)
Theorem C44_loop_ends_partial : forall ops g tr pre i post, grun ginit ops = Ok (g, tr) -> tr = pre ++ GRet i None :: post ->
  In GClosing pre \/
  exists q jm n m n' m' parts, own i pre = q ++ [GJoin i jm; GJoined i n m; GSync i n' m'; GSynced i parts].
Proof. exact loop_ends. Qed.
Print Assumptions C44_loop_ends_partial.
Theorem C44_installed_partial : forall g op g' evs i, gstep g op = Ok (g', evs) -> In (GRet i None) evs ->
  g_closed g = true \/
  exists payload ma, op = OSyncAns i (Ok payload) /\ newMemberAssignment payload = Ok ma /\
    evs = [GSynced i (pairs_of (ma_parts ma)); GRet i None] /\ g_sc g' = pairs_of (ma_parts ma).
Proof. exact installed. Qed.
Print Assumptions C44_installed_partial.
(** joinAndSync returns an error only after a failed attempt, and only one that is none of 22, 25 and 27, wrapped
    or not, and not a retriable one; *)
Theorem C44_returned_partial : forall g op g' evs i e, gstep g op = Ok (g', evs) -> In (GRet i (Some e)) evs ->
  (evs = [GFailed i e; GRet i (Some e)] \/ exists e', e = EWrap e' /\ evs = [GBad i; GRet i (Some e)]) /\
  (forall c, err_root e = EKafka c -> ~ In c [22; 25; 27]) /\ (forall c, e = EKafka c -> retriable c = false).
Proof.
  intros g op g' evs i e H I. rewrite <- stays_not.
  destruct op; cbn [gstep] in H; 
    repeat match type of H with context [match ?x with _ => _ end] => destruct x eqn:?; try discriminate H end.
  all: try (injection H as <- <-; cbn in I; repeat (destruct I as [I|I]; [discriminate I|]); destruct I; fail).
  all: try (unfold gstop in H; cbn in H; destruct (_ <? 0); try discriminate H; injection H as <- <-; cbn in I; intuition discriminate).
  all: injection H as <- <-.
  all: match type of I with context [if stays ?x then _ else _] => destruct (stays x) eqn:S end; cbn in I; destruct I as [I|I]; try discriminate I; try contradiction I.
  all: destruct I as [I|[]]; injection I as <- <-; split; [eauto|exact S].
Qed.
Print Assumptions C44_returned_partial.
(** such an error it does return. *)
Theorem C44_given_up_partial : forall g op g' evs i e, gstep g op = Ok (g', evs) -> In (GFailed i e) evs -> g_closed g = false ->
  (forall c, err_root e = EKafka c -> ~ In c [22; 25; 27]) -> (forall c, e = EKafka c -> retriable c = false) -> In (GRet i (Some e)) evs.
Proof.
  intros g op g' evs i e H I C A B. assert (S : stays e = false) by (apply stays_not; auto). clear A B.
  assert (J : forall e txt, g_closed (join_failed g e txt) = false).
  { intros e0 txt. unfold join_failed. destruct (is_kafka 25 e0), (_ || txt); cbn; exact C. }
  destruct op; cbn [gstep] in H; rewrite ?J, ?C in H;
    repeat match type of H with context [match ?x with _ => _ end] => destruct x eqn:?; try discriminate H end.
  all: try (injection H as <- <-; cbn in I; repeat (destruct I as [I|I]; [discriminate I|]); destruct I; fail).
  all: try (unfold gstop in H; cbn in H; destruct (_ <? 0); try discriminate H; injection H as <- <-; cbn in I; intuition discriminate).
  all: try (rewrite J in *; discriminate).
  all: injection H as <- <-.
  all: match type of I with context [if stays ?x then _ else _] => destruct (stays x) eqn:S' end; cbn in I; destruct I as [I|I]; try discriminate I; try contradiction I.
  all: try (injection I as -> ->; first [congruence|right; left; reflexivity]).
  all: destruct I as [I|[]]; discriminate I.
Qed.
Print Assumptions C44_given_up_partial.
Example C44_returned_ex : exists g tr, grun ginit [OLook 0 (Ok tt); OJoin 0; OJoinAns 0 (Err (EKafka 27)) false; OLook 0 (Ok tt); OJoin 0; OJoinAns 0 (Err (EKafka 24)) false] = Ok (g, tr) /\
  tr = [GFound 0; GJoin 0 []; GFailed 0 (EKafka 27); GJoin 0 []; GFailed 0 (EKafka 24); GRet 0 (Some (EKafka 24))].
Proof. eexists _, _. split; vm_compute; reflexivity. Qed.
(** together with C30: the coordinator's answer, as bytes *)
Theorem C44_installed_wire_partial : forall g i m v ps u, nth_error (g_sess g) i = Some (mkS PSyncWait m) ->
  i16 v -> zlen ps < 2 ^ 31 -> Forall ok_part ps -> match u with None => True | Some b => zlen b < 2 ^ 31 end ->
  exists g', gstep g (OSyncAns i (Ok (enc Assignment_ty (v, (ps, u))))) = Ok (g', [GSynced i (pairs_of ps); GRet i None]) /\
    g_sc g' = pairs_of ps.
Proof. exact installed_wire. Qed.
Print Assumptions C44_installed_wire_partial.
Theorem C44_lookup_partial : forall ops g tr a i e b m c, guarded single ginit ops -> grun ginit ops = Ok (g, tr) ->
  tr = a ++ GFailed i e :: b ++ GJoin i m :: c -> moved e = true -> In (GFound i) b.
Proof. exact lookup_again. Qed.
Print Assumptions C44_lookup_partial.
(** With two joining loops the stale lookup of one hides the error seen by the other. *)
Theorem C44_lookup_refuted : exists ops g tr a i e b m c, grun ginit ops = Ok (g, tr) /\
  tr = a ++ GFailed i e :: b ++ GJoin i m :: c /\ moved e = true /\ forall j, ~ In (GFound j) b.
Proof. exact lookup_refuted. Qed.
Print Assumptions C44_lookup_refuted.
Example C44_ex : exists a b c, life_trace = a ++ GFailed 1 (EWrap (EKafka 16)) :: b ++ GJoin 1 [98] :: c /\ In (GFound 1) b.
Proof.
  exists (firstn 16 life_trace), [GRet 1 (Some (EWrap (EKafka 16))); GFound 1], (skipn 20 life_trace).
  split; [reflexivity|cbn; tauto].
Qed.

(** *** C45 *)
Theorem C45_no_panic_partial : forall ops, guarded orderly ginit ops -> exists g tr, grun ginit ops = Ok (g, tr).
Proof. exact no_panic. Qed.
Print Assumptions C45_no_panic_partial.
(** Close between the sync answer and the start of the partition consumers *)
Theorem C45_window_refuted : exists ops g tr, grun ginit ops = Ok (g, tr) /\ g_closed g = false /\ g_coord g = true /\
  gstep g OClose = Panic.
Proof. exact window_refuted. Qed.
Print Assumptions C45_window_refuted.
(** a failing leave request *)
Theorem C45_leave_refuted : exists ops g tr, grun ginit ops = Ok (g, tr) /\ g_closed g = true /\ g_joined g = true /\
  forall e, gstep g (OLeave (Err e)) = Panic.
Proof. exact fail_refuted. Qed.
Print Assumptions C45_leave_refuted.
(** Close before the first coordinator was found *)
Theorem C45_no_coordinator_refuted : exists ops g tr, grun ginit ops = Ok (g, tr) /\ g_closed g = true /\
  forall ans, gstep g (OLeave ans) = Panic.
Proof. exact nil_refuted. Qed.
Print Assumptions C45_no_coordinator_refuted.
Example C45_ex : guarded orderly ginit life.
Proof. exact life_orderly. Qed.

(** *** C65 *)
Theorem C65_closed_starts_nothing_partial : forall ops g tr a b p c, guarded orderly ginit ops -> grun ginit ops = Ok (g, tr) ->
  tr = a ++ GClosing :: b ++ GStarted p :: c -> False.
Proof. exact closed_starts_nothing. Qed.
Print Assumptions C65_closed_starts_nothing_partial.
(** Close while the sync request is not answered *)
Theorem C65_started_after_close_refuted : exists ops g tr a b p c, grun ginit ops = Ok (g, tr) /\
  tr = a ++ GClosing :: b ++ GStarted p :: c.
Proof. exact started_refuted. Qed.
Print Assumptions C65_started_after_close_refuted.
Example C65_ex : exists a b, life_trace = a ++ GStarted ([116], 3) :: [GBeat 9 [98]; GCommit 9 [98]] ++ GClosing :: b.
Proof. exists (firstn 24 life_trace), [GLeft [98]]. reflexivity. Qed.

(** *** C46 *)
(** What the comparison says about metadata lists in order. *)
Theorem C46_same : forall a b, in_order a -> in_order b ->
  (ifTopicMetadatasSame (Some a) (Some b) = true <->
   (forall n e, says_topic a n e <-> says_topic b n e) /\ (forall n id e l, says_part a n id e l <-> says_part b n id e l)).
Proof. exact same_says. Qed.
Print Assumptions C46_same.
(** Metadata answers are presented in order (C23), whatever the order of the broker. *)
Theorem C46_presented : forall ts ts', presented_topics ts ts' -> NoDup (map (fun t => fst (snd t)) ts) ->
  Forall (fun t => NoDup (map (fun p : nopart => fst (snd p)) (snd (snd (snd t))))) ts -> in_order ts' /\
  (forall n e, says_topic ts' n e <-> says_topic ts n e) /\ (forall n id e l, says_part ts' n id e l <-> says_part ts n id e l).
Proof. exact presented_in_order. Qed.
Print Assumptions C46_presented.
Theorem C46_nil : forall a, (ifTopicMetadatasSame None a = true <-> a = None) /\ (ifTopicMetadatasSame a None = true <-> a = None).
Proof. exact same_nil. Qed.
Print Assumptions C46_nil.
Theorem C46_equivalence : (forall a, ifTopicMetadatasSame a a = true) /\
  (forall a b, ifTopicMetadatasSame a b = true -> ifTopicMetadatasSame b a = true) /\
  (forall a b c, ifTopicMetadatasSame a b = true -> ifTopicMetadatasSame b c = true -> ifTopicMetadatasSame a c = true).
Proof. exact same_equiv. Qed.
Print Assumptions C46_equivalence.
(** no difference that changes the assignment is missed *)
Theorem C46_same_assignment : forall ordT ordI ordM ms a b, ifTopicMetadatasSame (Some a) (Some b) = true ->
  assign ordT ordI ordM ms (metas_of a) = assign ordT ordI ordM ms (metas_of b).
Proof. exact (fun ordT ordI ordM ms a b H => f_equal (assign ordT ordI ordM ms) (same_metas_of a b H)). Qed.
Print Assumptions C46_same_assignment.
Definition ex_ta : list (Z * (bytes * (bool * list nopart))) :=
  [(0, ([97], (false, [(0, (0, (5, (0, ([5], ([5], [])))))); (0, (1, (6, (0, ([6], ([6], []))))))]))); (3, ([98], (false, [])))].
Definition ex_tb : list (Z * (bytes * (bool * list nopart))) :=
  [(0, ([97], (true, [(0, (0, (5, (7, ([], ([], [9])))))); (0, (1, (6, (0, ([6; 7], ([6], []))))))]))); (3, ([98], (false, [])))].
Definition ex_tc : list (Z * (bytes * (bool * list nopart))) :=
  [(0, ([97], (false, [(0, (0, (5, (0, ([5], ([5], [])))))); (0, (1, (5, (0, ([6], ([6], []))))))]))); (3, ([98], (false, [])))].
Example C46_ex : ifTopicMetadatasSame (Some ex_ta) (Some ex_tb) = true /\ ifTopicMetadatasSame (Some ex_ta) (Some ex_tc) = false /\
  ifTopicMetadatasSame (Some ex_ta) (Some (firstn 1 ex_ta)) = false /\ in_order ex_ta.
Proof.
  repeat split; repeat (constructor; cbn; try reflexivity; try lia).
Qed.
