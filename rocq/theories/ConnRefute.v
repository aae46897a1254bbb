(** Witnesses for the statements about connections that are false, and the facts about
    Close running beside a request. *)
From Verif Require Import Base BaseFacts Fetch FetchRefute Conn ConnFacts ConnSync.

(** an exchange that works; the answer arrives in pieces of 3, 2 and 100 bytes *)
Definition gx (body : bytes) : exch := mkEx None body [3; 2; 100]%nat ETimeout None.
(** nothing arrives before the deadline *)
Definition late (body : bytes) : exch := mkEx None body [] ETimeout None.
Definition go : opening := mkOpen None (gx [0; 0]) (gx [0; 0]) (gx [0; 0]).

Lemma wrong_answer : exists s x1 x2 s' raw,
  newBroker false go = Some s /\
  requestAndGet false go x2 (snd (requestAndGet false go x1 s)) = (Ret (Ok raw), s') /\
  x_write x2 = None /\ covers x2 (8 + zlen (x_body x2)) /\ x_verdict x2 = None /\
  raw = frame (b_corr s' - 1) (x_body x1) /\ raw <> frame (b_corr s') (x_body x2).
Proof.
  eexists _, (late [1; 1]), (gx [2; 2]), _, _. split; [vm_compute; reflexivity|].
  split; [vm_compute; reflexivity|]. split; [reflexivity|]. split; [unfold covers; cbn; lia|]. split; [reflexivity|].
  split; [vm_compute; reflexivity|vm_compute; discriminate].
Qed.

Lemma unauthenticated_after_reopen : exists s o1 x1 x2 w,
  newBroker true go = Some s /\
  let s' := run err0 err0 true s [OClose; OReq o1 x1; OReq o1 x2] in
  In w (b_log s') /\ w_kind w = KUser /\ w_auth w = false.
Proof.
  eexists _, (mkOpen None (late [0; 0]) (gx [0; 0]) (gx [0; 0])), (gx [1; 1]), (gx [2; 2]), _.
  split; [vm_compute; reflexivity|]. cbv zeta. split; [vm_compute; do 4 right; left; reflexivity|split; reflexivity].
Qed.
Lemma unauthenticated_after_failed_sasl : exists s o1 x w,
  newBroker true go = Some s /\ x_verdict (o_au o1) = Some (EKafka 58) /\
  let s' := run err0 err0 true s [OClose; OFetch o1 10 0 x; OFetch o1 10 0 x] in
  In w (b_log s') /\ w_kind w = KUser /\ w_auth w = false.
Proof.
  eexists _, (mkOpen None (gx [0; 0]) (gx [0; 0]) (mkEx None [0; 58] [100]%nat ETimeout (Some (EKafka 58)))), (gx [1; 1]), _.
  split; [vm_compute; reflexivity|]. split; [reflexivity|]. cbv zeta. split; [vm_compute; do 6 right; left; reflexivity|split; reflexivity].
Qed.

Lemma fetch_length_split : exists s x, newBroker false go = Some s /\ x_write x = None /\ covers x (8 + zlen (x_body x)) /\
  forall unzip zip, fst (requestFetch unzip zip false go 10 0 x s) = Err EShortRead /\
    b_conn (snd (requestFetch unzip zip false go 10 0 x s)) = None.
Proof.
  eexists _, (mkEx None [0; 0] [3; 100]%nat ETimeout None). split; [vm_compute; reflexivity|]. split; [reflexivity|].
  split; [unfold covers; cbn; lia|]. intros unzip zip. split; vm_compute; reflexivity.
Qed.

Lemma version_not_announced : let avs := [(11, 2, 9)] in
  (forall v, announced avs 11 v <-> 2 <= v <= 9) /\ getHighestAvailableAPIVersion avs 11 = 0.
Proof.
  cbv zeta. split; [|reflexivity]. intros v. split.
  - intros [mn [mx [[H|[]] Hr]]]. injection H as <- <-. exact Hr.
  - intros H. exists 2, 9. split; [left; reflexivity|exact H].
Qed.
Lemma version_not_implemented : let avs := [(3, 0, 0)] in
  announced avs 3 0 /\ ~ In 0 (availableVersions 3) /\ getHighestAvailableAPIVersion avs 3 = 0.
Proof.
  cbv zeta. split; [exists 0, 0; split; [left; reflexivity|lia]|]. split; [|reflexivity].
  cbn. intros [H|[H|[H|[]]]]; discriminate.
Qed.

Lemma irun_app : forall a b c, irun c (a ++ b) = match irun c a with Some c' => irun c' b | None => None end.
Proof. induction a as [|x a IH]; intros b c; [reflexivity|]. cbn [app irun]. destruct (istep c x); [apply IH|reflexivity]. Qed.
Lemma irun_uses : forall n, irun true (repeat IUse n) = Some true.
Proof. induction n as [|n IH]; [reflexivity|exact IH]. Qed.
Lemma serial_close_safe : forall l c, exists c',
  irun c (flat_map (fun r : option nat => match r with Some n => request_trace n | None => [IClose] end) l) = Some c'.
Proof.
  induction l as [|r l IH]; intros c; cbn [flat_map]; [exists c; reflexivity|]. rewrite irun_app. destruct r as [n|].
  - unfold request_trace. cbn [irun istep]. rewrite irun_uses. apply IH.
  - cbn [irun istep]. apply IH.
Qed.
Lemma concurrent_close_crash : forall n, exists a b,
  request_trace (S n) = a ++ b /\ forall c, irun c (a ++ IClose :: b) = None.
Proof. intros n. exists [ICheck], (repeat IUse (S n)). split; reflexivity. Qed.
