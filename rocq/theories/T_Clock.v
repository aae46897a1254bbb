(** C121: a request takes no longer than its timeout, and is given that time. *)
From Verif Require Import Base BaseFacts Clock ClockSpec ClockFacts Settings.

(** A request with a timeout ends, whatever arrives: at most the timeout for every piece the
    response comes in, and once more. *)
Theorem C121_ends_partial : forall timeout c, 0 < timeout -> pieces (k_in c) ->
  exists e, ended (tRead timeout c) = Some e /\ k_now c <= e <= k_now c + timeout * (zlen (k_in c) + 1).
Proof. exact read_ends. Qed.
Print Assumptions C121_ends_partial.
(** A response that arrives in time is read, whole and nothing more, whatever happened before on
    the connection: it is in time if each piece arrives less than the timeout after the one
    before, *)
Theorem C121_steady_partial : forall timeout c body rest, 0 < timeout -> pieces (k_in c) -> steady timeout (k_now c) (k_in c) ->
  all_bytes (k_in c) = response_of body ++ rest -> zlen body < 2 ^ 32 ->
  exists c', tRead timeout c = TOk (response_of body) c' /\ all_bytes (k_in c') = rest.
Proof. exact read_steady. Qed.
Print Assumptions C121_steady_partial.
(** so in particular if all of them arrive within the timeout. *)
Theorem C121_prompt_partial : forall timeout c body rest, 0 < timeout -> pieces (k_in c) -> Forall (fun x => fst x < k_now c + timeout) (k_in c) ->
  all_bytes (k_in c) = response_of body ++ rest -> zlen body < 2 ^ 32 ->
  exists c', tRead timeout c = TOk (response_of body) c' /\ all_bytes (k_in c') = rest.
Proof. intros timeout c body rest T P F. apply read_steady; [exact T|exact P|apply steady_all; exact F]. Qed.
Print Assumptions C121_prompt_partial.
(** If nothing arrives, a request ends exactly when its timeout is over. *)
Theorem C121_silent : forall timeout now dl, 0 < timeout -> tRead timeout (mkT now dl []) = TTimeout (now + timeout).
Proof.
  intros timeout now dl T. unfold tRead, fill. replace (0 <? timeout) with true by (symmetry; apply Z.ltb_lt; lia).
  cbn. replace (Z.max now (now + timeout)) with (now + timeout) by lia. reflexivity.
Qed.
Print Assumptions C121_silent.
(** Without a timeout, on a connection that never had one, a response is read however late it
    is; a request that is not answered never ends. *)
Theorem C121_free : forall timeout c, timeout <= 0 -> k_dl c = None -> pieces (k_in c) ->
  (k_in c = [] -> tRead timeout c = THang) /\
  forall body rest, all_bytes (k_in c) = response_of body ++ rest -> zlen body < 2 ^ 32 ->
    exists c', tRead timeout c = TOk (response_of body) c' /\ all_bytes (k_in c') = rest.
Proof.
  intros timeout c T D P. split.
  - intros E. destruct c as [now dl l]. cbn in D, E. subst. unfold tRead, fill. replace (0 <? timeout) with false by (symmetry; apply Z.ltb_ge; lia). reflexivity.
  - intros body rest. apply read_free; assumption.
Qed.
Print Assumptions C121_free.
Example C121_free_ex : exists c', tRead 0 (mkT 0 None [(1000000, response_of [7])]) = TOk (response_of [7]) c'.
Proof. eexists. vm_compute. reflexivity. Qed.
(** The timeout of a request is the one of its API if that is positive, else the general one. *)
Theorem C121_timeout : forall general each api, 0 <= api ->
  (forall t, nth_error each (Z.to_nat api) = Some t -> 0 < t -> timeout_of general each api = t) /\
  ((forall t, nth_error each (Z.to_nat api) = Some t -> t <= 0) -> timeout_of general each api = general).
Proof.
  intros general each api _. unfold timeout_of. split.
  - intros t -> T. replace (0 <? t) with true by lia. reflexivity.
  - intros H. destruct (nth_error each (Z.to_nat api)) as [t|]; [|reflexivity]. specialize (H t eq_refl). replace (0 <? t) with false by lia. reflexivity.
Qed.
Print Assumptions C121_timeout.
Example C121_timeout_ex : map (timeout_of 30000 [0; 5000; -1]) [0; 1; 2; 18] = [30000; 5000; 30000; 30000].
Proof. reflexivity. Qed.
(** A client with the settings nobody chose waits half a minute for each answer. *)
Theorem C121_default : forall api, 0 <= api -> timeout_of (n_timeout (b_net DefaultBrokerConfig)) (n_each (b_net DefaultBrokerConfig)) api = 30000.
Proof. intros api _. unfold timeout_of. cbn [DefaultBrokerConfig b_net n_timeout n_each]. destruct (Z.to_nat api); reflexivity. Qed.
Print Assumptions C121_default.
Definition late : list (Z * bytes) := [(100, [0; 0]); (900, [0; 3; 7]); (1800, [8; 9; 1])].
Example C121_ex : pieces late /\ steady 1000 0 late /\ all_bytes late = response_of [7; 8; 9] ++ [1] /\
  tRead 1000 (mkT 0 (Some 5) late) = TOk (response_of [7; 8; 9]) (mkT 1800 (Some 1900) [(1800, [1])]) /\
  tRead 900 (mkT 0 None late) = TTimeout 1800.
Proof. split; [repeat constructor; discriminate|]. split; [cbn; lia|]. split; [reflexivity|]. split; vm_compute; reflexivity. Qed.

(** C121 is false: the deadline starts again with every piece.  A broker that sends one byte at
    a time keeps a request with a timeout waiting as long as it likes; all others wait for the
    lock of the handle meanwhile (broker.go:241). *)
Theorem C121_drip_refuted : forall timeout n, 1 < timeout -> 0 <= n < 2 ^ 32 -> exists l, pieces l /\
  ended (tRead timeout (mkT 0 None l)) = Some ((4 + n) * (timeout - 1)).
Proof.
  intros timeout n T N. exists (drip (timeout - 1) 0 (response_of (repeat 0 (Z.to_nat n)))). split.
  - generalize 0 at 1 as now. generalize (response_of (repeat 0 (Z.to_nat n))). unfold pieces.
    intro b. induction b as [|x b IH]; intro now; cbn [drip]; [apply Forall_nil|]. apply Forall_cons; [discriminate|apply IH].
  - assert (L : zlen (repeat 0 (Z.to_nat n)) = n) by (unfold zlen; rewrite repeat_length; lia).
    rewrite drip_read by (first [exact T|rewrite L; lia]). rewrite L. reflexivity.
Qed.
Print Assumptions C121_drip_refuted.
(** C121 is false in the other direction: a timeout of 0 is meant to be none, but the deadline of
    the request before stays.  Here the general timeout is 0 and that of a join 35 seconds, as
    config.go:135-145 makes it from timeout.ms 0 and session.timeout.ms 30000; a heartbeat that
    is answered after a millisecond fails. *)
Definition each121 : list Z := [0; 500; 0; 0; 0; 0; 0; 0; 15000; 0; 0; 35000; 0].
Theorem C121_left_refuted : exists each answer, timeout_of 0 each 12 = 0 /\ timeout_of 0 each 11 = 35000 /\ answer = response_of [0; 0; 0; 2; 0; 0] /\
  exists c e, calls 0 each [(11, 0, [(5, answer)]); (12, 40000, [(1, answer)])] (mkT 0 None []) = [TOk answer c; TTimeout e] /\ e < k_now c + 40000 + 1.
Proof.
  exists each121, (response_of [0; 0; 0; 2; 0; 0]). split; [reflexivity|]. split; [reflexivity|]. split; [reflexivity|].
  do 2 eexists. split; [vm_compute; reflexivity|]. vm_compute. reflexivity.
Qed.
Print Assumptions C121_left_refuted.
(** The same heartbeat on a connection without a deadline is answered. *)
Example C121_ex_left : calls 0 each121 [(12, 40000, [(1, response_of [0; 0; 0; 2; 0; 0])])] (mkT 5 None []) =
  [TOk (response_of [0; 0; 0; 2; 0; 0]) (mkT 40006 None [])].
Proof. vm_compute. reflexivity. Qed.

(** A response that is read as a stream: the deadline covers all of it, so it ends in time
    except for the time the reader is busy itself. *)
Theorem C121_stream_partial : forall timeout pauses c e, 0 < timeout -> Forall (fun p => 0 <= p) pauses -> ended (tstream timeout pauses c) = Some e ->
  e <= k_now c + timeout + total pauses.
Proof. exact stream_ends. Qed.
Print Assumptions C121_stream_partial.
(** If that time leaves enough, a stream whose first piece has the length is read, whole and
    nothing more.  [pauses] has one entry for each read. *)
Theorem C121_stream_read_partial : forall timeout pauses c t b l body rest a, k_in c = (t, b) :: l -> (4 <= length b)%nat -> pieces l ->
  Forall (fun x => fst x <= a) (k_in c) -> k_now c <= a -> a + total pauses < k_now c + timeout -> Forall (fun p => 0 <= p) pauses ->
  all_bytes (k_in c) = response_of body ++ rest -> (length body <= length pauses)%nat -> zlen body < 2 ^ 32 ->
  exists c', tstream timeout pauses c = TOk (Ok body) c' /\ all_bytes (k_in c') = rest.
Proof. exact stream_there. Qed.
Print Assumptions C121_stream_read_partial.
(** But that time counts: a response that arrived at once is lost if its reader is busy for
    longer than the timeout, which it is while nobody takes the messages it hands out. *)
Theorem C121_slow_refuted : exists timeout pauses l body, 0 < timeout /\ all_bytes l = response_of body /\ Forall (fun x => fst x <= 1) l /\
  exists e, tstream timeout pauses (mkT 0 None l) = TTimeout e.
Proof.
  exists 30500, [0; 40000; 0], [(1, [0; 0; 0; 4]); (1, [1; 2]); (1, [3; 4])], [1; 2; 3; 4]. split; [reflexivity|]. split; [reflexivity|].
  split; [repeat constructor; cbn; lia|]. eexists. vm_compute. reflexivity.
Qed.
Print Assumptions C121_slow_refuted.
Example C121_ex_stream : tstream 30500 [0; 400; 0] (mkT 0 None [(1, [0; 0; 0; 4]); (1, [1; 2]); (1, [3; 4])]) = TOk (Ok [1; 2; 3; 4]) (mkT 401 (Some 30500) []) /\
  tstream 30500 [0; 0] (mkT 0 None [(1, [0; 0; 0]); (2, [4; 1; 2; 3; 4])]) = TOk (Err EShort) (mkT 1 (Some 30500) [(2, [4; 1; 2; 3; 4])]).
Proof. split; vm_compute; reflexivity. Qed.
