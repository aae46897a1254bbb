(** C152: connections on which nothing comes back; and more on C13. *)
From Verif Require Import Base BaseFacts Fetch FetchRefute Conn ConnFacts ConnSync ConnRefute DeadSpec DeadFacts.

(** *** C152 *)
(** C152 is false: however many requests fail, one after the other, because nothing arrives
    before the deadline (or with any other error than the end of the stream and the broken
    pipe), all of them are written on the same connection; no new one is opened. *)
Theorem C152_kept_refuted : forall unzip zip sasl l s c, b_conn s = Some c ->
  Forall (fun r : opening * exch => exists e, fails (snd r) e /\ ~ ended e) l ->
  let s' := run unzip zip sasl s (map (fun r => OReq (fst r) (snd r)) l) in
  exists c', b_conn s' = Some c' /\ c_id c' = c_id c /\
    map w_conn (b_log s') = map w_conn (b_log s) ++ repeat (c_id c) (length l).
Proof. exact kept. Qed.
Print Assumptions C152_kept_refuted.
Example C152_kept_ex : exists s, newBroker false go = Some s /\
  map w_conn (b_log (run err0 err0 false s [OReq go (late [1]); OReq go (mkEx (Some EConn) [] [] EConn None); OReq go (late [2])])) = [0; 0; 0; 0]%nat /\
  answers false s [(go, late [1]); (go, mkEx (Some EConn) [] [] EConn None)] = [Ret (Err (EWrap ETimeout)); Ret (Err (EWrap EConn))].
Proof. eexists. split; [vm_compute; reflexivity|]. split; vm_compute; reflexivity. Qed.
(** What holds: the end of the stream and a broken pipe are returned and end the connection; *)
Theorem C152_given_up_partial : forall sasl o x s c e, b_conn s = Some c -> fails x e -> ended e ->
  fst (requestAndGet sasl o x s) = Ret (Err (EWrap e)) /\ b_conn (snd (requestAndGet sasl o x s)) = None.
Proof. exact given_up. Qed.
Print Assumptions C152_given_up_partial.
(** without SASL the next request is then answered on a new connection; *)
Theorem C152_again_partial : forall o x o2 x2 s c e, b_conn s = Some c -> fails x e -> ended e ->
  o_dial o2 = None -> small (o_ver o2) -> small x2 ->
  x_write (o_ver o2) = None -> covers (o_ver o2) (8 + zlen (x_body (o_ver o2))) -> x_verdict (o_ver o2) = None ->
  x_write x2 = None -> covers x2 (8 + zlen (x_body x2)) -> x_verdict x2 = None ->
  exists corr, answers false s [(o, x); (o2, x2)] = [Ret (Err (EWrap e)); Ret (Ok (frame corr (x_body x2)))].
Proof.
  intros o x o2 x2 s c e Hc Hf He. intros. destruct (given_up false o x s c e Hc Hf He) as [G1 G2].
  cbn [answers]. destruct (requestAndGet false o x s) as [r s1]. cbn [fst snd] in G1, G2. subst r.
  destruct (reopens s1 o2 x2) as [s2 [c2 [E _]]]; try assumption. rewrite E. exists (b_corr s2). reflexivity.
Qed.
Print Assumptions C152_again_partial.
Example C152_again_ex : exists s, newBroker false go = Some s /\
  answers false s [(go, mkEx (Some EPipe) [] [] EConn None); (go, gx [7])] = [Ret (Err (EWrap EPipe)); Ret (Ok (frame 4 [7]))].
Proof. eexists. split; [vm_compute; reflexivity|]. vm_compute. reflexivity. Qed.
(** a fetch of which nothing arrives ends the connection, whatever the error is.  Finding: the
    error of the write is dropped, so that a fetch that could not be sent waits for an answer
    and reports that there is none. *)
Theorem C152_fetch_partial : forall unzip zip sasl o v st x s c, b_conn s = Some c ->
  (list_sum (x_arr x) = 0%nat \/ (c_unread c = [] /\ x_write x <> None)) ->
  fst (requestFetch unzip zip sasl o v st x s) = Err (x_fin x) /\ b_conn (snd (requestFetch unzip zip sasl o v st x s)) = None.
Proof. exact fetch_given_up. Qed.
Print Assumptions C152_fetch_partial.
Example C152_fetch_ex : exists s, newBroker false go = Some s /\
  fst (requestFetch err0 err0 false go 10 0 (mkEx (Some EPipe) [] [] ETimeout None) s) = Err ETimeout.
Proof. eexists. split; [vm_compute; reflexivity|]. vm_compute. reflexivity. Qed.

(** *** C13 *)
(** Finding: the mix-up of C13_late_answer_refuted is never cleared up.  If the answers to some
    requests came too late, every later request, although everything arrives in time, is
    answered with the answer to the request that many places before it. *)
Theorem C13_behind_refuted : forall sasl late good s c, b_conn s = Some c -> c_unread c = [] ->
  Forall (fun r : opening * exch => small (snd r) /\ silent (snd r)) late ->
  Forall (fun r : opening * exch => small (snd r) /\ x_write (snd r) = None /\ x_verdict (snd r) = None /\
    Forall (fun r' : opening * exch => covers (snd r) (8 + zlen (x_body (snd r')))) (late ++ good)) good ->
  answers sasl s (late ++ good) = repeat (Ret (Err (EWrap ETimeout))) (length late) ++
    map (fun f => Ret (Ok f)) (firstn (length good) (sent (b_corr s) (map snd (late ++ good)))).
Proof. exact behind. Qed.
Print Assumptions C13_behind_refuted.
Example C13_behind_ex : exists s, newBroker false go = Some s /\
  answers false s [(go, late [1]); (go, late [2]); (go, gx [3]); (go, gx [4]); (go, gx [5])] =
  [Ret (Err (EWrap ETimeout)); Ret (Err (EWrap ETimeout)); Ret (Ok (frame 2 [1])); Ret (Ok (frame 3 [2])); Ret (Ok (frame 4 [3]))].
Proof. eexists. split; [vm_compute; reflexivity|]. vm_compute. reflexivity. Qed.
