(** C96: producer, broker and consumer of one partition together. *)
From Verif Require Import Base Wire RequestSpec RecordSpec RequestPrep Producer ProducerSpec ProducerFacts ProducerRefute Records Fetch FetchSpec FetchFacts FetchRefute FetchKeep DeliverFacts Consumer ConsumerSpec ConsumerFacts ConsumerRefute EndSpec EndFacts.

(** *** C96 *)
(** Whatever the network does to the producer's requests and to the consumer's fetches: if
    the broker numbers the records of each batch, the messages handed out are, in order
    and each once, those in the requests that reached the broker, up to where the consumer
    stands; all of them when it stands at the end of the log. *)
Theorem C96_numbering_broker_partial : forall unzip zip g st0 ops st evs epoch first,
  sane_cfg g -> codec_ok zip unzip (g_codec g) ->
  srun zip g st0 ops = Ok (st, evs) -> Forall (fun o => sends9 (snd o)) ops ->
  Forall sane_msg (received evs) -> Forall sane_wire (wires evs) ->
  Forall (fun a => 1 <= zlen (t_msgs a) < 2 ^ 31) (flushes evs) ->
  exists L, broker_log (g_topic g) (g_part g) epoch first (wires evs) = Some (map enc_wb L) /\
    Forall2 (fun w a => wb_recs w = map spec_record (t_msgs a)) L (filter reached (flushes evs)) /\
    forall L', Forall2 (renumbered unzip) L L' -> first + zlen (received evs) < 2 ^ 63 ->
    forall zip' c from mx cops s t, honest_run unzip zip' c L' (cinit first from mx) cops -> crun c (cinit first from mx) cops = Ok (s, t) ->
    resets t = [] ->
    prefix (map seen (msgs t)) (map sent (received evs)) /\
    (position first t = first + zlen (received evs) -> map seen (msgs t) = map sent (received evs)).
Proof. intros unzip zip g st0 ops st evs epoch first Hg Hc. exact (consumed_is_received unzip zip g Hg Hc st0 ops st evs epoch first). Qed.
Print Assumptions C96_numbering_broker_partial.

(** A producer that sends each message by itself (MessageMaxCount at most 1), over a network
    that works: any broker will do, and everything accepted is consumed. *)
Theorem C96_one_by_one_partial : forall unzip zip g h ops1 n ops2 st evs epoch first,
  sane_cfg g -> codec_ok zip unzip (g_codec g) ->
  srun zip g (h, sp0) (ops1 ++ (OClose, n) :: ops2) = Ok (st, evs) ->
  ~ In OClose (map fst ops1) -> Forall (fun o => quiet (fst o)) ops2 -> Forall (fun o => no_write (fst o)) ops1 ->
  Forall (fun o => succeeds (snd o) /\ sends9 (snd o)) (ops1 ++ (OClose, n) :: ops2) ->
  Forall sane_msg (accepted evs) -> Forall sane_wire (wires evs) -> g_max g <= 1 ->
  i32 epoch -> 0 <= first -> first + zlen (accepted evs) < 2 ^ 63 ->
  exists L, broker_log (g_topic g) (g_part g) epoch first (wires evs) = Some (map enc_wb L) /\
    forall zip' c from mx cops s t, honest_run unzip zip' c L (cinit first from mx) cops -> crun c (cinit first from mx) cops = Ok (s, t) ->
    resets t = [] ->
    prefix (map seen (msgs t)) (map sent (accepted evs)) /\
    (position first t = first + zlen (accepted evs) -> map seen (msgs t) = map sent (accepted evs)).
Proof. intros unzip zip g h ops1 n ops2 st evs epoch first Hg Hc. exact (end_to_end unzip zip g Hg Hc h ops1 n ops2 st evs epoch first). Qed.
Print Assumptions C96_one_by_one_partial.

(** three messages, sent by batches of at most [max]; the last batch is sent by Close *)
Definition ops96 : list (sop * net) :=
  [(OAdd (Some 0%nat) (Some 1%nat), ProducerRefute.good); (OAdd None (Some 2%nat), ProducerRefute.good); (OAdd None (Some 3%nat), ProducerRefute.good);
   (OClose, ProducerRefute.good)].
Definition evs96 (max : Z) : list Producer.event := match srun zx (ProducerRefute.gx max) (hx, sp0) ops96 with Ok (_, evs) => evs | _ => [] end.
Definition h96 (base n : Z) : sbatch := mkSBatch base 0 0 (n - 1) 1000 1000 (-1) 0 0.
Definition r96 (k : option bytes) (v : bytes) : srecord := mkSRec 0 0 0 k (Some v) [].
Definition w96 (base : Z) (rs : list srecord) : wbatch := mkWB (h96 base (zlen rs)) rs (flat_map enc_srecord rs).
Definition v1 : srecord := r96 (Some [107; 49]) [118; 49].
Definition v2 : srecord := r96 None [118; 50].
Definition v3 : srecord := r96 None [118; 51].
Definition p96 (records : bytes) : presp := mkPR 1 0 0 [116] 0 100 100 0 None records.
Definition c96 : ccfg := mkCC [116] 0 false false 0.
Definition m96 (off : Z) (r : srecord) : Message := exp_msg (h96 off 1) r.
Definition e96 (off : Z) (r : srecord) : Fetch.event := EvMsg [116] 0 (m96 off r).

Example C96_ex_log : accepted (evs96 1) = [(Some [107; 49], [118; 49]); (None, [118; 50]); (None, [118; 51])] /\
  broker_log [116] 0 0 40 (wires (evs96 1)) = Some (map enc_wb [w96 40 [v1]; w96 41 [v2]; w96 42 [v3]]).
Proof. split; vm_compute; reflexivity. Qed.
Example C96_ex_sane : sane_cfg (ProducerRefute.gx 1) /\ codec_ok zx err0 0 /\ Forall (fun o => succeeds (snd o) /\ sends9 (snd o)) ops96 /\
  Forall sane_msg (accepted (evs96 1)) /\ Forall sane_wire (wires (evs96 1)).
Proof.
  split; [repeat split; cbn; lia|]. split; [intros X; congruence|]. split; [|split].
  - repeat (apply Forall_cons; [split; [exact good_succeeds|repeat split; unfold i32, i64; lia]|]). apply Forall_nil.
  - rewrite (proj1 C96_ex_log). repeat (apply Forall_cons; [reflexivity|]). apply Forall_nil.
  - apply Forall_forall. intros out Hin. assert (Hb : forallb (fun o => zlen o <? 2 ^ 31 - 1) (wires (evs96 1)) = true) by (vm_compute; reflexivity).
    rewrite forallb_forall in Hb. apply Z.ltb_lt. exact (Hb out Hin).
Qed.
(** the first fetch breaks in the second batch *)
Example C96_ex_run : exists s t,
  honest_run err0 err0 c96 [w96 40 [v1]; w96 41 [v2]; w96 42 [v3]] (cinit 40 false 1000)
    [OFetch (Ok [e96 40 v1; EvErr EPipe]); ONext (Err ETimeout) []; OAdvance; ONext (Err ETimeout) [];
     OFetch (Ok [e96 41 v2; e96 42 v3]); ONext (Err ETimeout) []; OAdvance; ONext (Err ETimeout) []; OAdvance] /\
  crun c96 (cinit 40 false 1000)
    [OFetch (Ok [e96 40 v1; EvErr EPipe]); ONext (Err ETimeout) []; OAdvance; ONext (Err ETimeout) [];
     OFetch (Ok [e96 41 v2; e96 42 v3]); ONext (Err ETimeout) []; OAdvance; ONext (Err ETimeout) []; OAdvance] = Ok (s, t) /\
  position 40 t = 43 /\ map seen (msgs t) = map sent (accepted (evs96 1)).
Proof.
  set (L := [w96 40 [v1]; w96 41 [v2]; w96 42 [v3]]). set (p := p96 (flat_map enc_wb L)).
  assert (Wp : wf_presp p) by (repeat split; cbn; unfold i32; lia).
  eexists _, _. split; [|split; [vm_compute; reflexivity|split; vm_compute; reflexivity]].
  eapply honest_cons; [vm_compute; reflexivity| |].
  { eapply (H_broken _ _ _ _ _ _ 10 p [] L [] 1000 190 [enc_presp 10 p] EPipe);
    [reflexivity|exact (Forall_nil _)|auto|exact Wp|reflexivity|reflexivity|vm_compute; reflexivity|apply app_nil_r| |vm_compute; reflexivity].
    apply fields_ok_one. vm_compute. lia. }
  do 3 (eapply honest_cons; [vm_compute; reflexivity|exact I|]).
  eapply honest_cons; [vm_compute; reflexivity| |].
  { eapply (H_data _ _ _ _ _ _ 10 p [] L [] 1000 [] [enc_presp 10 p] EPipe);
    [reflexivity|exact (Forall_nil _)|auto|exact Wp|reflexivity|reflexivity|vm_compute; reflexivity|rewrite !app_nil_r; reflexivity| |vm_compute; reflexivity].
    apply fields_ok_one. vm_compute. lia. }
  do 4 (eapply honest_cons; [vm_compute; reflexivity|exact I|]). exact I.
Qed.

(** Finding: the producer gives all records of a batch the offset delta 0 (C07), and Kafka
    keeps uncompressed batches as they are.  When a fetch ends within a batch, the rest of
    the batch is never handed out: everything works, the consumer reaches the end of the
    log, and a message that was accepted is missing. *)
Theorem C96_message_lost_refuted : exists ops st evs L cops s t,
  srun zx (ProducerRefute.gx 2) (hx, sp0) ops = Ok (st, evs) /\ Forall (fun o => succeeds (snd o) /\ sends9 (snd o)) ops /\
  Forall (fun e => e_ret e = None) evs /\
  accepted evs = [(Some [107; 49], [118; 49]); (None, [118; 50]); (None, [118; 51])] /\
  broker_log [116] 0 0 40 (wires evs) = Some (map enc_wb L) /\
  honest_run err0 err0 c96 L (cinit 40 false 1000) cops /\ crun c96 (cinit 40 false 1000) cops = Ok (s, t) /\
  resets t = [] /\ position 40 t = 40 + zlen (accepted evs) /\
  map seen (msgs t) = [(Some [107; 49], Some [118; 49]); (None, Some [118; 51])].
Proof.
  set (L := [w96 40 [v1; v2]; w96 42 [v3]]). set (p := p96 (flat_map enc_wb L)). set (q := p96 (firstn 80 (flat_map enc_wb L))).
  assert (Wp : wf_presp p) by (repeat split; cbn; unfold i32; lia).
  assert (Wq : wf_presp q) by (repeat split; cbn; unfold i32; lia).
  exists ops96. eexists _, _. exists L.
  exists [OFetch (Ok [e96 40 v1]); ONext (Err ETimeout) []; OAdvance; ONext (Err ETimeout) [];
     OFetch (Ok [e96 42 v3]); ONext (Err ETimeout) []; OAdvance]. eexists _, _.
  split; [vm_compute; reflexivity|]. split.
  { repeat (apply Forall_cons; [split; [exact good_succeeds|repeat split; unfold i32, i64; lia]|]). apply Forall_nil. }
  split; [repeat (apply Forall_cons; [reflexivity|]); apply Forall_nil|]. split; [vm_compute; reflexivity|]. split; [vm_compute; reflexivity|].
  split; [|split; [vm_compute; reflexivity|split; [vm_compute; reflexivity|split; vm_compute; reflexivity]]].
  eapply honest_cons; [vm_compute; reflexivity| |].
  { eapply (H_data _ _ _ _ _ _ 10 q [] L [] 80 [] [enc_presp 10 q] EPipe);
    [reflexivity|exact (Forall_nil _)|auto|exact Wq|reflexivity|reflexivity|vm_compute; reflexivity|rewrite !app_nil_r; reflexivity| |vm_compute; reflexivity].
    apply fields_ok_one. vm_compute. lia. }
  do 3 (eapply honest_cons; [vm_compute; reflexivity|exact I|]).
  eapply honest_cons; [vm_compute; reflexivity| |].
  { eapply (H_data _ _ _ _ _ _ 10 p [] L [] 1000 [] [enc_presp 10 p] EPipe);
    [reflexivity|exact (Forall_nil _)|auto|exact Wp|reflexivity|reflexivity|vm_compute; reflexivity|rewrite !app_nil_r; reflexivity| |vm_compute; reflexivity].
    apply fields_ok_one. vm_compute. lia. }
  do 2 (eapply honest_cons; [vm_compute; reflexivity|exact I|]). exact I.
Qed.
Print Assumptions C96_message_lost_refuted.
