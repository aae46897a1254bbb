(** C146: producer, broker and the consumers of a group together. *)
From Verif Require Import Base Wire RequestSpec RecordSpec RequestPrep Producer ProducerSpec ProducerFacts ProducerRefute Responses Records Fetch FetchSpec FetchFacts FetchRefute FetchKeep DeliverFacts Consumer ConsumerSpec ConsumerFacts ConsumerRefute EndSpec EndFacts RestartSpec RestartFacts T_End EndGroupFacts.

(** *** C146 *)
(** Whatever the network does to the requests of the producer, to the fetches and to the
    commits of the consumers: if the broker numbers the records of each batch, every message
    that reached the broker and lies before the position or a committed offset of some
    consumer of the group was handed out by one of them, with its own offset, key and value;
    and whatever is handed out is one of them. *)
Theorem C146_numbering_broker_partial : forall unzip zip g st0 ops st evs epoch first,
  sane_cfg g -> codec_ok zip unzip (g_codec g) ->
  srun zip g st0 ops = Ok (st, evs) -> Forall (fun o => sends9 (snd o)) ops ->
  Forall sane_msg (received evs) -> Forall sane_wire (wires evs) ->
  Forall (fun a => 1 <= zlen (t_msgs a) < 2 ^ 31) (flushes evs) ->
  exists L, broker_log (g_topic g) (g_part g) epoch first (wires evs) = Some (map enc_wb L) /\
    Forall2 (fun w a => wb_recs w = map spec_record (t_msgs a)) L (filter reached (flushes evs)) /\
    forall L', Forall2 (renumbered unzip) L L' -> first + zlen (received evs) < 2 ^ 63 ->
    forall zip' xs, group_history unzip zip' (g_topic g) (g_part g) first L' xs ->
    (forall x v k m, In x xs -> v = position (ss_pos x) (ss_trace x) \/ In v (commits (ss_trace x)) ->
       nth_error (received evs) k = Some m -> first + Z.of_nat k < v ->
       exists y n, In y xs /\ In n (msgs (ss_trace y)) /\ m_offset n = first + Z.of_nat k /\ seen n = sent m) /\
    (forall y n, In y xs -> In n (msgs (ss_trace y)) ->
       exists k m, nth_error (received evs) k = Some m /\ m_offset n = first + Z.of_nat k /\ seen n = sent m).
Proof. intros unzip zip g st0 ops st evs epoch first Hg Hc. exact (group_receives unzip zip g Hg Hc st0 ops st evs epoch first). Qed.
Print Assumptions C146_numbering_broker_partial.

(** A producer that sends each message by itself over a network that works: any broker will
    do, and the messages are all that were accepted. *)
Theorem C146_one_by_one_partial : forall unzip zip g h ops1 n ops2 st evs epoch first,
  sane_cfg g -> codec_ok zip unzip (g_codec g) ->
  srun zip g (h, sp0) (ops1 ++ (OClose, n) :: ops2) = Ok (st, evs) ->
  ~ In OClose (map fst ops1) -> Forall (fun o => quiet (fst o)) ops2 -> Forall (fun o => no_write (fst o)) ops1 ->
  Forall (fun o => succeeds (snd o) /\ sends9 (snd o)) (ops1 ++ (OClose, n) :: ops2) ->
  Forall sane_msg (accepted evs) -> Forall sane_wire (wires evs) -> g_max g <= 1 ->
  i32 epoch -> 0 <= first -> first + zlen (accepted evs) < 2 ^ 63 ->
  exists L, broker_log (g_topic g) (g_part g) epoch first (wires evs) = Some (map enc_wb L) /\
    forall zip' xs, group_history unzip zip' (g_topic g) (g_part g) first L xs ->
    (forall x v k m, In x xs -> v = position (ss_pos x) (ss_trace x) \/ In v (commits (ss_trace x)) ->
       nth_error (accepted evs) k = Some m -> first + Z.of_nat k < v ->
       exists y n, In y xs /\ In n (msgs (ss_trace y)) /\ m_offset n = first + Z.of_nat k /\ seen n = sent m) /\
    (forall y n, In y xs -> In n (msgs (ss_trace y)) ->
       exists k m, nth_error (accepted evs) k = Some m /\ m_offset n = first + Z.of_nat k /\ seen n = sent m).
Proof. intros unzip zip g h ops1 n ops2 st evs epoch first Hg Hc. exact (group_end_to_end unzip zip g Hg Hc h ops1 n ops2 st evs epoch first). Qed.
Print Assumptions C146_one_by_one_partial.

(** The three messages of C96.  The fetch of the first consumer breaks after the first
    message; it commits 41 and stops; the second goes on from there. *)
Definition cg : ccfg := mkCC [116] 0 true true 1.
Definition L146 : list wbatch := [w96 40 [v1]; w96 41 [v2]; w96 42 [v3]].
Definition lead146 : list (option leaderTry) := [Some (mkLT (Ok 2) true true)].
Definition committed146 (o : Z) : response := ROffsetFetch 1 [([116], [(0, (o, ([], 0)))])].
Definition begins146 (o : Z) : response := ROffsets 1 0 [([116], [(0, (0, ([], (0, o))))])].
Definition end146 (st : Z) (ops : list cop) : cst * list tev := match crun cg (cinit st true 1000) ops with Ok x => x | _ => (cinit 0 false 0, []) end.
Definition ops146a : list cop :=
  [OFetch (Ok [e96 40 v1; EvErr EPipe]); ONext (Err ETimeout) []; OAdvance; ONext (Err ETimeout) []; OCommit; OSent 0 true true].
Definition ops146b : list cop :=
  [OFetch (Ok [e96 41 v2; e96 42 v3]); ONext (Err ETimeout) []; OAdvance; ONext (Err ETimeout) []; OAdvance; OCommit; OSent 0 true true].
Definition s146 (L : list wbatch) (com : Z) (offs : list (option (res response))) (st : Z) (ops : list cop) (e : cst * list tev) : session :=
  mkSess cg L true lead146 [Ok (committed146 com)] offs st true 1000 ops (fst e) (snd e).
Definition end146a : cst * list tev := Eval vm_compute in end146 40 ops146a.
Definition end146b : cst * list tev := Eval vm_compute in end146 41 ops146b.
Definition s146a : session := s146 L146 (-1) [Some (Ok (begins146 40))] 40 ops146a end146a.
Definition s146b : session := s146 L146 41 [] 41 ops146b end146b.
Lemma first146 L ops e : no_commit cg [Ok (committed146 (-1))] /\
  exists fo r rest, ss_offsets (s146 L (-1) [Some (Ok (begins146 40))] 40 ops e) = fo ++ Some (Ok r) :: rest /\ Forall (failed_o [116]) fo /\ offsets_answer [116] 0 40 r.
Proof.
  split.
  - right. exists [], (committed146 (-1)), [], (-1). repeat split; auto. do 3 eexists. reflexivity.
  - exists [], (begins146 40), []. repeat split; [constructor|]. do 4 eexists. split; [reflexivity|left; reflexivity].
Qed.
Example C146_ex : group_history err0 err0 [116] 0 40 L146 [s146a; s146b] /\
  map (fun x => (commits (ss_trace x), map (fun n => (m_offset n, seen n)) (msgs (ss_trace x)))) [s146a; s146b] =
  [([41], [(40, (Some [107; 49], Some [118; 49]))]); ([43], [(41, (None, Some [118; 50])); (42, (None, Some [118; 51]))])].
Proof.
  split; [|vm_compute; reflexivity]. set (p := p96 (flat_map enc_wb L146)).
  assert (Wp : wf_presp p) by (repeat split; cbn; unfold i32; lia).
  intros [|[|[|i]]] x Hi; cbn [nth_error] in Hi; try discriminate; injection Hi as <-.
  - split; [repeat split; auto|]. split.
    { split; [|split; vm_compute; reflexivity].
      eapply honest_cons; [vm_compute; reflexivity| |].
      { eapply (H_broken _ _ _ _ _ _ 10 p [] L146 [] 1000 190 [enc_presp 10 p] EPipe);
        [reflexivity|exact (Forall_nil _)|auto|exact Wp|reflexivity|reflexivity|vm_compute; reflexivity|apply app_nil_r| |vm_compute; reflexivity].
        apply fields_ok_one. vm_compute. lia. }
      do 5 (eapply honest_cons; [vm_compute; reflexivity|exact I|]). exact I. }
    split; [exists []; reflexivity|]. right. exact (first146 _ _ _).
  - split; [repeat split; auto|]. split.
    { split; [|split; vm_compute; reflexivity].
      eapply honest_cons; [vm_compute; reflexivity| |].
      { eapply (H_data _ _ _ _ _ _ 10 p [] L146 [] 1000 [] [enc_presp 10 p] EPipe);
        [reflexivity|exact (Forall_nil _)|auto|exact Wp|reflexivity|reflexivity|vm_compute; reflexivity|rewrite !app_nil_r; reflexivity| |vm_compute; reflexivity].
        apply fields_ok_one. vm_compute. lia. }
      do 6 (eapply honest_cons; [vm_compute; reflexivity|exact I|]). exact I. }
    split; [exists []; reflexivity|]. left. exists [], (committed146 41), [], 41, s146a. repeat split; auto; [|lia| |].
    + do 3 eexists. reflexivity.
    + left. reflexivity.
    + vm_compute. auto.
Qed.

(** Finding: with a broker that keeps the batches as they are sent (Kafka does so with
    uncompressed ones) everything works, the whole log is committed, and a message that was
    accepted was handed out by nobody. *)
Definition ops146c : list cop :=
  [OFetch (Ok [e96 40 v1]); ONext (Err ETimeout) []; OAdvance; ONext (Err ETimeout) [];
   OFetch (Ok [e96 42 v3]); ONext (Err ETimeout) []; OAdvance; OCommit; OSent 0 true true].
Definition end146c : cst * list tev := Eval vm_compute in end146 40 ops146c.
Definition M146 : list wbatch := [w96 40 [v1; v2]; w96 42 [v3]].
Theorem C146_committed_unseen_refuted : exists ops st evs L x m,
  srun zx (ProducerRefute.gx 2) (hx, sp0) ops = Ok (st, evs) /\ Forall (fun o => succeeds (snd o) /\ sends9 (snd o)) ops /\
  Forall (fun e => e_ret e = None) evs /\ broker_log [116] 0 0 40 (wires evs) = Some (map enc_wb L) /\
  group_history err0 err0 [116] 0 40 L [x] /\ nth_error (accepted evs) 1 = Some m /\ In (40 + zlen (accepted evs)) (commits (ss_trace x)) /\
  forall n, In n (msgs (ss_trace x)) -> seen n <> sent m.
Proof.
  set (p := p96 (flat_map enc_wb M146)). set (q := p96 (firstn 80 (flat_map enc_wb M146))).
  assert (Wp : wf_presp p) by (repeat split; cbn; unfold i32; lia).
  assert (Wq : wf_presp q) by (repeat split; cbn; unfold i32; lia).
  exists ops96. eexists _, _. exists M146, (s146 M146 (-1) [Some (Ok (begins146 40))] 40 ops146c end146c), (None, [118; 50]).
  split; [vm_compute; reflexivity|]. split.
  { repeat (apply Forall_cons; [split; [exact good_succeeds|repeat split; unfold i32, i64; lia]|]). apply Forall_nil. }
  split; [repeat (apply Forall_cons; [reflexivity|]); apply Forall_nil|]. split; [vm_compute; reflexivity|].
  split; [|split; [vm_compute; reflexivity|split; [vm_compute; auto|]]].
  - intros [|[|i]] x Hi; cbn [nth_error] in Hi; try discriminate; injection Hi as <-.
    split; [repeat split; auto|]. split.
    { split; [|split; vm_compute; reflexivity].
      eapply honest_cons; [vm_compute; reflexivity| |].
      { eapply (H_data _ _ _ _ _ _ 10 q [] M146 [] 80 [] [enc_presp 10 q] EPipe);
        [reflexivity|exact (Forall_nil _)|auto|exact Wq|reflexivity|reflexivity|vm_compute; reflexivity|rewrite !app_nil_r; reflexivity| |vm_compute; reflexivity].
        apply fields_ok_one. vm_compute. lia. }
      do 3 (eapply honest_cons; [vm_compute; reflexivity|exact I|]).
      eapply honest_cons; [vm_compute; reflexivity| |].
      { eapply (H_data _ _ _ _ _ _ 10 p [] M146 [] 1000 [] [enc_presp 10 p] EPipe);
        [reflexivity|exact (Forall_nil _)|auto|exact Wp|reflexivity|reflexivity|vm_compute; reflexivity|rewrite !app_nil_r; reflexivity| |vm_compute; reflexivity].
        apply fields_ok_one. vm_compute. lia. }
      do 4 (eapply honest_cons; [vm_compute; reflexivity|exact I|]). exact I. }
    split; [exists []; reflexivity|]. right. exact (first146 _ _ _).
  - intros n Hn. vm_compute in Hn. repeat (destruct Hn as [<-|Hn]; [vm_compute; intros X; discriminate X|]). destruct Hn.
Qed.
Print Assumptions C146_committed_unseen_refuted.
