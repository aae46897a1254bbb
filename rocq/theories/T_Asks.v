(** C153 and C154: what fetches ask of the broker besides records. *)
From Verif Require Import Base BaseFacts Wire RecordSpec Requests RequestSpec RequestPrep RequestRefute Calls CallsSpec Fetch FetchSpec FetchRefute AsksSpec AsksFacts.

(** *** C153 *)
(** C153 is false: every fetch of version 7 or 10 is read by the broker as one that wants a new
    session and names none. *)
Theorem C153_new_session_refuted : forall zip client v out, v = 7 \/ v = 10 -> sends zip client v out ->
  exists level, asks v out = Some (level, (0, 0)).
Proof. intros zip client v out Hv H. exists 0. exact (sends_asks zip client v out Hv H). Qed.
Print Assumptions C153_new_session_refuted.
(** So each of them takes a slot until none is left, and nobody else gets one. *)
Theorem C153_slots_refuted : forall zip client v, (v = 7 \/ v = 10) -> forall l k,
  Forall (fun x : Z * bytes => fst x <> 0 /\ sends zip client v (snd x)) l -> ~ In 0 (sessions k) -> (length (sessions k) <= slots k)%nat ->
  length (sessions (serve_all v k l)) = Nat.min (slots k) (length (sessions k) + length l).
Proof. exact sessions_grow. Qed.
Print Assumptions C153_slots_refuted.
(** The session a response names makes no difference to what is delivered; it is not kept. *)
Theorem C153_not_kept : forall unzip zip v st p q ws fin, (v = 0 \/ v = 7 \/ v = 10) -> wf_presp p -> wf_presp q ->
  Forall (wf_wb unzip) ws -> pr_records p = flat_map enc_wb ws -> same_records p q ->
  exists evs s s', streamDecode unzip zip v st (zlen (enc_presp v p)) (mkStream [enc_presp v p] fin) = Ok (evs, s) /\
    streamDecode unzip zip v st (zlen (enc_presp v q)) (mkStream [enc_presp v q] fin) = Ok (evs, s').
Proof.
  intros unzip zip v st p q ws fin Hv Hp Hq Hw Hr S.
  destruct (one_read unzip zip v st p ws fin Hv Hp Hw Hr) as [s E].
  destruct (one_read unzip zip v st q ws fin Hv Hq Hw) as [s' E']; [destruct S as [_ [_ <-]]; exact Hr|].
  exists (exp_presp st p (mkRS ws None)), s, s'. split; [exact E|]. rewrite (records_only st p q _ S). exact E'.
Qed.
Print Assumptions C153_not_kept.
(** a fetch of partition 3 of topic "t" *)
Definition ex_fetch : bytes :=
  match call_request (@rev Z) [99] (CKFetch [116] 3 42 100 1 1024 7) with
  | Some r => match prepare noz 8 10 r with Ok (out, _) => out | _ => [] end
  | None => []
  end.
Example C153_ex : sends noz [99] 10 ex_fetch /\ asks 10 ex_fetch = Some (0, (0, 0)) /\
  sessions (serve_all 10 (mkCache 3 [77]) [(1, ex_fetch); (2, ex_fetch); (3, ex_fetch)]) = [2; 1; 77].
Proof.
  split; [|split; vm_compute; reflexivity].
  exists [116], 3, 42, 100, 1, 1024, 7, 8. eexists _, _. split.
  - intros x ->. split; [|vm_compute; reflexivity]. repeat split; cbn; unfold i8, i16, i32, i64; try lia; repeat constructor; cbn; lia.
  - split; [unfold i32; lia|]. split; [vm_compute; reflexivity|]. split; [reflexivity|]. vm_compute. reflexivity.
Qed.

(** *** C154 *)
(** C154 is false: fetches ask for everything (isolation level 0, read uncommitted), *)
Theorem C154_isolation_refuted : forall zip client v out, v = 7 \/ v = 10 -> sends zip client v out ->
  exists session, asks v out = Some (0, session).
Proof. intros zip client v out Hv H. exists (0, 0). exact (sends_asks zip client v out Hv H). Qed.
Print Assumptions C154_isolation_refuted.
(** and every record of every batch is delivered, be its transaction aborted or open, be it a
    marker, whatever aborted transactions the response names. *)
Theorem C154_uncommitted_refuted : forall unzip zip v st p ws fin, (v = 0 \/ v = 7 \/ v = 10) -> wf_presp p ->
  Forall (wf_wb unzip) ws -> pr_records p = flat_map enc_wb ws ->
  exists evs s', streamDecode unzip zip v st (zlen (enc_presp v p)) (mkStream [enc_presp v p] fin) = Ok (evs, s') /\
    forall w r, In w ws -> In r (wb_recs w) -> st <= sb_base (wb_h w) + sr_od r ->
      In (EvMsg (pr_topic p) (pr_pid p) (exp_msg (wb_h w) r)) evs.
Proof.
  intros unzip zip v st p ws fin Hv Hp Hw Hr. destruct (one_read unzip zip v st p ws fin Hv Hp Hw Hr) as [s' E].
  exists (exp_presp st p (mkRS ws None)), s'. split; [exact E|]. intros w r. apply exp_in.
Qed.
Print Assumptions C154_uncommitted_refuted.
(** What holds: without transactions, what is delivered is what is committed. *)
Theorem C154_plain_partial : forall unzip zip v st p ws fin, (v = 0 \/ v = 7 \/ v = 10) -> wf_presp p ->
  Forall (wf_wb unzip) ws -> pr_records p = flat_map enc_wb ws ->
  Forall (fun w => in_txn w = false /\ is_marker w = false) ws ->
  exists s', streamDecode unzip zip v st (zlen (enc_presp v p)) (mkStream [enc_presp v p] fin) =
    Ok (exp_presp st p (mkRS (committed ws) None), s').
Proof. intros unzip zip v st p ws fin Hv Hp Hw Hr Hn. rewrite plain_committed by exact Hn. exact (one_read unzip zip v st p ws fin Hv Hp Hw Hr). Qed.
Print Assumptions C154_plain_partial.
(** producer 5 writes "v" in a transaction and aborts it; producer 6 commits "w"; the response
    names the aborted transaction *)
Definition tx (base attr pid : Z) (r : srecord) : wbatch := mkWB (mkSBatch base 0 attr 0 1000 1000 pid 0 0) [r] (enc_srecord r).
Definition ex_log : list wbatch :=
  [tx 0 16 5 (rec 0 [107] [118]); tx 1 16 6 (rec 0 [107] [119]); tx 2 48 5 (rec 0 [0; 0; 0; 0] [0; 0; 0; 0; 0; 0]);
   tx 3 48 6 (rec 0 [0; 0; 0; 1] [0; 0; 0; 0; 0; 0])].
Example C154_ex : map (fun w => sb_base (wb_h w)) (committed ex_log) = [1] /\
  let p := mkPR 1 0 0 [116] 3 100 100 0 (Some [(5, 0)]) (flat_map enc_wb ex_log) in
  wf_presp p /\ Forall (wf_wb err0) ex_log /\
  exists s', streamDecode err0 err0 10 0 (zlen (enc_presp 10 p)) (mkStream [enc_presp 10 p] ETimeout) =
    Ok (map (fun w => EvMsg [116] 3 (exp_msg (wb_h w) (hd (rec 0 [] []) (wb_recs w)))) ex_log, s').
Proof.
  split; [vm_compute; reflexivity|]. cbv zeta. split; [wf|]. split; [repeat constructor; wf|]. eexists. vm_compute. reflexivity.
Qed.
