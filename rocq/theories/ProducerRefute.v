(** Where the producers lose, repeat or change messages, and examples. *)
From Verif Require Import Base BaseFacts Prims Wire WireFacts Records Requests Responses ResponseSpec ResponseFacts Producer ProducerSpec ProducerFacts ProducerMulti.

(** a configuration: topic "t", partition 0, acks 1, batches of up to two messages *)
Definition gx (max : Z) : scfg := mkSC [116] 0 [99] 1 1000 2 0 max true true.
Definition zx : Z -> bytes -> res bytes := fun _ b => Ok b.
(** the broker accepts the batch at offset 41; the broker is not the leader (6) *)
Definition reply (ec : Z) : den R_Produce_9 := ([([116], ([(0, (ec, (41, (-1, (0, ([], (None, [])))))))], []))], (0, [])).
Definition good : net := NSend 9 7 1000 true (Ok (response_bytes 0 9 7 [] (enc R_Produce_9 (reply 0)))).
Definition refused : net := NSend 9 7 1000 true (Ok (response_bytes 0 9 7 [] (enc R_Produce_9 (reply 6)))).
Definition unanswered : net := NSend 9 7 1000 false (Err EPipe).
Lemma good_succeeds : succeeds good.
Proof. do 5 eexists. split; [reflexivity|]. vm_compute. reflexivity. Qed.
Lemma all_honest : honest good /\ honest refused /\ honest unanswered.
Proof. repeat split. Qed.
Definition hx : heap := [[107; 49]; [118; 49]; [118; 50]; [118; 51]].

Lemma example_run : exists st evs,
  srun zx (gx 2) (hx, sp0) [(OAdd (Some 0%nat) (Some 1%nat), good); (OTick, good); (OAdd None (Some 2%nat), good); (OAdd (Some 0%nat) (Some 3%nat), good);
     (OAdd None (Some 1%nat), good); (OClose, good); (OAdd None (Some 1%nat), good)] = Ok (st, evs) /\
  received evs = [(Some [107; 49], [118; 49]); (None, [118; 50]); (Some [107; 49], [118; 51]); (None, [118; 49])] /\
  map (fun a => length (t_msgs a)) (flushes evs) = [1; 2; 1]%nat /\ map e_ret evs = [None; None; None; None; None; None; Some EClosed].
Proof. do 2 eexists. split; [vm_compute; reflexivity|]. repeat split. Qed.

(** ** Lost without notice (C33) *)
(** The batch an AddMessage sends is lost: every call returns nil. *)
Lemma lost_on_add : exists st evs,
  srun zx (gx 1) (hx, sp0) [(OAdd None (Some 1%nat), unanswered); (OFlush, good); (OClose, good)] = Ok (st, evs) /\
  Forall (fun e => e_ret e = None) evs /\ accepted evs = [(None, [118; 49])] /\ received evs = [] /\ s_recs (snd st) = [].
Proof. do 2 eexists. split; [vm_compute; reflexivity|]. repeat split. repeat constructor. Qed.
Lemma lost_on_tick : exists st evs,
  srun zx (gx 2) (hx, sp0) [(OAdd None (Some 1%nat), good); (OTick, NFail EConn); (OFlush, good); (OClose, good)] = Ok (st, evs) /\
  Forall (fun e => e_ret e = None) evs /\ accepted evs = [(None, [118; 49])] /\ received evs = [] /\ s_recs (snd st) = [].
Proof. do 2 eexists. split; [vm_compute; reflexivity|]. repeat split. repeat constructor. Qed.
Lemma lost_on_close : exists st evs,
  srun zx (gx 2) (hx, sp0) [(OAdd None (Some 1%nat), good); (OClose, refused)] = Ok (st, evs) /\
  Forall (fun e => e_ret e = None) evs /\ accepted evs = [(None, [118; 49])] /\
  map t_err (flushes evs) = [Some (EKafka 6)].
Proof. do 2 eexists. split; [vm_compute; reflexivity|]. repeat split. repeat constructor. Qed.
(** An explicit Flush that fails is reported, but the messages are gone. *)
Lemma lost_on_flush : exists st evs,
  srun zx (gx 2) (hx, sp0) [(OAdd None (Some 1%nat), good); (OFlush, unanswered); (OFlush, good); (OClose, good)] = Ok (st, evs) /\
  map e_ret evs = [None; Some EPipe; None; None] /\ accepted evs = [(None, [118; 49])] /\ received evs = [].
Proof. do 2 eexists. split; [vm_compute; reflexivity|]. repeat split. Qed.

(** ** Sent twice (C34) *)
Lemma sent_twice o : o = OTick \/ o = OFlush -> exists st evs,
  srun zx (gx 2) (hx, sp0) [(OAdd None (Some 1%nat), good); (OClose, good); (o, good)] = Ok (st, evs) /\
  accepted evs = [(None, [118; 49])] /\ received evs = [(None, [118; 49]); (None, [118; 49])] /\ map e_ret evs = [None; None; None].
Proof. intros [->| ->]; do 2 eexists; (split; [vm_compute; reflexivity|]); repeat split. Qed.

(** ** A changed key (C37) *)
Lemma key_changed : exists st evs,
  srun zx (gx 2) (hx, sp0) [(OAdd (Some 0%nat) (Some 1%nat), good); (OWrite 0 1 50, good); (OWrite 1 1 50, good); (OFlush, good); (OClose, good)] = Ok (st, evs) /\
  accepted evs = [(Some [107; 49], [118; 49])] /\ received evs = [(Some [107; 50], [118; 49])].
Proof. do 2 eexists. split; [vm_compute; reflexivity|]. repeat split. Qed.

(** ** The multi-partition producer *)
Definition round0 : around := mkRound [] None [] good.
Definition metax : list (Z * (Z * Z)) := [(0, (0, 1)); (1, (0, 2)); (2, (0, 1))].
Definition mx : mp := new_mp hx metax 0 1.
(** Close, then AddMessage: nil, although no producer took the message *)
Lemma dropped_after_close : exists m m', mrun zx (gx 2) mx [EClose 0 good] = Ok m /\
  addMessage zx (gx 2) m None (Some 1%nat) round0 round0 round0 = Ok (m', None, None).
Proof. do 2 eexists. split; [vm_compute; reflexivity|]. vm_compute. reflexivity. Qed.
(** likewise with a key once its producer is closed *)
Lemma dropped_keyed : exists m m', mrun zx (gx 2) mx [EGet (Some 0%nat) None; EClose 1 good] = Ok m /\
  addMessage zx (gx 2) m (Some 0%nat) (Some 1%nat) round0 round0 round0 = Ok (m', None, None).
Proof. do 2 eexists. split; [vm_compute; reflexivity|]. vm_compute. reflexivity. Qed.
(** three refreshes at the wrong moments *)
Lemma dropped_by_refresh : exists m', let r := mkRound [] None [ESwap 1 2 good] good in
  addMessage zx (gx 2) mx None (Some 1%nat) r r r = Ok (m', None, None).
Proof. eexists. vm_compute. reflexivity. Qed.
(** an example where two refreshes intervene and the message is taken in the third round *)
Lemma third_round : exists m', let r := mkRound [] None [ESwap 1 2 good] good in
  addMessage zx (gx 2) mx None (Some 1%nat) r r round0 = Ok (m', None, Some (mkTaken 2 1 2)).
Proof. eexists. vm_compute. reflexivity. Qed.
Lemma keyed_example : exists m',
  addMessage zx (gx 2) mx (Some 0%nat) (Some 1%nat) round0 round0 round0 = Ok (m', None, Some (mkTaken 1 (murmur_spec [107; 49] mod 3) 1)).
Proof. eexists. vm_compute. reflexivity. Qed.
(** a refresh after Close revives the producer *)
Lemma revived : exists m m' t, mrun zx (gx 2) mx [EClose 0 good; ESwap 1 2 good] = Ok m /\
  addMessage zx (gx 2) m None (Some 1%nat) round0 round0 round0 = Ok (m', None, Some t).
Proof. do 3 eexists. split; [vm_compute; reflexivity|]. vm_compute. reflexivity. Qed.
(** keyed messages keep going to the old leader: partition 0 moves from node 1 to node 5 *)
Lemma stale_leader : exists m m' t, let meta' := [(0, (0, 5)); (1, (0, 5)); (2, (0, 5))] in
  mrun zx (gx 2) mx [EGet (Some 0%nat) None; EMeta meta'; ESwap 0 5 good] = Ok m /\ m_meta m = meta' /\
  addMessage zx (gx 2) m (Some 0%nat) (Some 1%nat) round0 round0 round0 = Ok (m', None, Some t) /\ k_leader t = 1 /\
  getLeaderID m (k_part t) = Ok 5.
Proof. do 3 eexists. split; [vm_compute; reflexivity|]. split; [reflexivity|]. split; [vm_compute; reflexivity|]. split; reflexivity. Qed.

(** ** No leader *)
Lemma leaderless conn : newSimpleProducer (Ok (-1)) conn = Ok (false, sp0).
Proof. reflexivity. Qed.
Lemma leaderless_panics zip g h n s : g_leader g = false -> s_recs s <> [] -> sflushop zip g h n s = Panic.
Proof. intros H N. unfold sflushop. destruct (s_recs s); [contradiction|]. unfold sflush. rewrite H. reflexivity. Qed.
(** with a leader, or an error, it is reported: a producer without a handle comes only from -1 *)
Lemma leader_or_error find conn b s : newSimpleProducer find conn = Ok (b, s) -> find <> Ok (-1) ->
  b = true /\ s = sp0 /\ conn = None /\ exists id, find = Ok id.
Proof.
  unfold newSimpleProducer, createLeader. destruct find as [id|e| |]; try discriminate.
  destruct (Z.eqb_spec id (-1)) as [->|N]; [congruence|]. destruct conn; [discriminate|]. intros H _. injection H as <- <-. repeat split. eexists; reflexivity.
Qed.
