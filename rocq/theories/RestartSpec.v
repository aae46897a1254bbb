(** Successive (or overlapping) consumers of one partition in one group: each resumes at
    an offset that one before it committed.  From the models come the types of what can be
    seen, and the machines the runs belong to. *)
From Verif Require Import Base Responses Records Fetch FetchSpec Consumer ConsumerSpec ConsumerFacts.

(** One consumer: its configuration, the log when it ran, what it was answered while it
    looked for its start, where it started, what happened then. *)
Record session := mkSess {
  ss_cfg : ccfg; ss_log : list wbatch; ss_from0 : bool;
  ss_leaders : list (option leaderTry); ss_committed : list (res response); ss_offsets : list (option (res response));
  ss_pos : Z; ss_from : bool; ss_max : Z; ss_ops : list cop; ss_end : cst; ss_trace : list tev }.

(** started with "from the beginning" in a group *)
Definition group_session (topic : bytes) (pid : Z) (x : session) : Prop :=
  k_topic (ss_cfg x) = topic /\ k_part (ss_cfg x) = pid /\ k_group (ss_cfg x) = true /\
  (k_storage (ss_cfg x) = 0 \/ k_storage (ss_cfg x) = 1) /\ reaches_leader (ss_leaders x) /\
  startOffset (ss_cfg x) (ss_from0 x) (-2) (ss_leaders x) (ss_committed x) (ss_offsets x) = Done (ss_pos x, ss_from x).
(** its fetches are answered by a broker that holds the log (see C38), the answers may be
    cut and the connections break; its position is never reset *)
Definition honest_session (unzip zip : Z -> bytes -> res bytes) (x : session) : Prop :=
  honest_run unzip zip (ss_cfg x) (ss_log x) (cinit (ss_pos x) (ss_from x) (ss_max x)) (ss_ops x) /\
  crun (ss_cfg x) (cinit (ss_pos x) (ss_from x) (ss_max x)) (ss_ops x) = Ok (ss_end x, ss_trace x) /\ resets (ss_trace x) = [].

(** The coordinator answers, after any number of failures, with an offset committed by an
    earlier consumer (any of them: commits may have failed or overtaken each other); or,
    nothing being committed, the leader names the first offset of the log. *)
Definition resumes (topic : bytes) (pid first : Z) (earlier : list session) (x : session) : Prop :=
  (exists fs r rest o y, ss_committed x = fs ++ Ok r :: rest /\ Forall failed_r fs /\ fetched topic pid o r /\ 0 <= o /\
     In y earlier /\ In o (commits (ss_trace y))) \/
  (no_commit (ss_cfg x) (ss_committed x) /\
   exists fo r rest, ss_offsets x = fo ++ Some (Ok r) :: rest /\ Forall (failed_o topic) fo /\ offsets_answer topic pid first r).

Definition group_history (unzip zip : Z -> bytes -> res bytes) (topic : bytes) (pid first : Z) (L : list wbatch) (xs : list session) : Prop :=
  forall i x, nth_error xs i = Some x ->
    group_session topic pid x /\ honest_session unzip zip x /\ prefix (ss_log x) L /\ resumes topic pid first (firstn i xs) x.

(** *** Groups that start at the end of the log *)
(** started with "from the newest message" in a group *)
Definition late_session (topic : bytes) (pid : Z) (x : session) : Prop :=
  k_topic (ss_cfg x) = topic /\ k_part (ss_cfg x) = pid /\ k_group (ss_cfg x) = true /\
  (k_storage (ss_cfg x) = 0 \/ k_storage (ss_cfg x) = 1) /\ reaches_leader (ss_leaders x) /\
  startOffset (ss_cfg x) (ss_from0 x) (-1) (ss_leaders x) (ss_committed x) (ss_offsets x) = Done (ss_pos x, ss_from x).
(** [n] was the end of the log at some time: it lies behind the messages of the log of then
    and not behind those that came later *)
Definition at_end (L : list wbatch) (n : Z) : Prop :=
  exists old new, L = old ++ new /\ (forall m, In m (log_msgs old) -> m_offset m < n) /\ (forall m, In m (log_msgs new) -> n <= m_offset m).
(** the coordinator answers with an offset that an earlier consumer committed *)
Definition resumed (topic : bytes) (pid : Z) (earlier : list session) (x : session) : Prop :=
  exists fs r rest o y, ss_committed x = fs ++ Ok r :: rest /\ Forall failed_r fs /\ fetched topic pid o r /\ 0 <= o /\
    In y earlier /\ In o (commits (ss_trace y)).
(** or, nothing being committed, the leader names the end of the log *)
Definition late_history (unzip zip : Z -> bytes -> res bytes) (topic : bytes) (pid : Z) (L : list wbatch) (xs : list session) : Prop :=
  forall i x, nth_error xs i = Some x ->
    late_session topic pid x /\ honest_session unzip zip x /\ prefix (ss_log x) L /\
    (resumed topic pid (firstn i xs) x \/
     (no_commit (ss_cfg x) (ss_committed x) /\
      exists fo r rest n, ss_offsets x = fo ++ Some (Ok r) :: rest /\ Forall (failed_o topic) fo /\ offsets_answer topic pid n r /\ at_end (ss_log x) n)).
