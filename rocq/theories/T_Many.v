(** C09, C95 for fetch responses with any number of topics and partitions.  (The consumers of
    this package ask for one partition at a time; the decoder and the encoder know more.) *)
From Verif Require Import Base RecordSpec Records Fetch FetchSpec FetchFacts FetchRefute FetchEncode ManySpec ManyFacts ManyEncode.

(** Any number of topics and partitions, only the last record set cut, the fields of the
    partition headers not split between reads: if the first partition that has records has a
    wanted one, exactly the wanted records of all partitions are handed out, in order, else
    one error; and the connection stands behind the response. *)
Theorem C09_many_partial : forall unzip zip v st m rest chunks fin,
  (v = 0 \/ v = 7 \/ v = 10) -> wf_mresp unzip m -> cut_last (mr_topics m) ->
  concat chunks = enc_mresp v m ++ rest -> mresp_unsplit v chunks m ->
  exists evs s', streamDecode unzip zip v st (zlen (enc_mresp v m)) (mkStream chunks fin) = Ok (evs, s') /\
    concat (st_chunks (d_in s')) = rest /\
    (first_wanted st (mr_topics m) -> evs = exp_many st m) /\
    (~ first_wanted st (mr_topics m) -> evs = [EvErr EMaxBytesTooSmall]).
Proof. exact many_decode. Qed.
Print Assumptions C09_many_partial.
(** A response that arrives in one piece is not split. *)
Theorem C09_many_one_read_partial : forall v m, mresp_unsplit v [enc_mresp v m] m.
Proof. exact mresp_one. Qed.
Print Assumptions C09_many_one_read_partial.

Definition bA : wbatch := mkWB (hdr 7 0 2) [rec 0 [107] [118]; rec 1 [108] [119]] (flat_map enc_srecord [rec 0 [107] [118]; rec 1 [108] [119]]).
Definition bB : wbatch := mkWB (hdr 9 0 1) [rec 0 [109] [120]] (flat_map enc_srecord [rec 0 [109] [120]]).
Definition bC : wbatch := mkWB (hdr 8 0 1) [rec 0 [110] [121]] (flat_map enc_srecord [rec 0 [110] [121]]).
Definition mA (od : Z) (k v : bytes) : Message := mkMsg od 2 0 1000 (Some k) (Some v) [].
(** two topics; the first has an empty partition, and one whose first record is not wanted *)
Definition m3 : mresp := mkMR 1 0 0
  [([116], [mkPP 2 100 100 0 None (mkRS [] None); mkPP 3 100 100 0 (Some [(1, 2)]) (mkRS [bA] None)]);
   ([117], [mkPP 4 100 100 0 None (mkRS [bC] (Some (bB, 68%nat)))])].
Example C09_many_ex_wf : wf_mresp err0 m3 /\ cut_last (mr_topics m3).
Proof.
  assert (W : forall w, In w [bA; bB; bC] -> wf_wb err0 w).
  { intros w [<-|[<-|[<-|[]]]]; wf. }
  split.
  - split; [reflexivity|]. apply Forall_cons; [|apply Forall_cons; [|apply Forall_nil]].
    + split; [reflexivity|]. split; [discriminate|]. split; [reflexivity|]. apply Forall_cons; [|apply Forall_cons; [|apply Forall_nil]].
      * split; [split; cbn; lia|]. split; [exact I|]. split; [reflexivity|]. split; [apply Forall_nil|exact I].
      * split; [split; cbn; lia|]. split; [reflexivity|]. split; [reflexivity|]. split; [apply Forall_cons; [apply W; left; reflexivity|apply Forall_nil]|exact I].
    + split; [reflexivity|]. split; [discriminate|]. split; [reflexivity|]. apply Forall_cons; [|apply Forall_nil].
      split; [split; cbn; lia|]. split; [exact I|]. split; [reflexivity|]. split; [apply Forall_cons; [apply W; cbn; auto|apply Forall_nil]|].
      split; [apply W; cbn; auto|]. split; [discriminate|]. split; [reflexivity|vm_compute; lia].
  - intros A t a p b B E Hc. destruct A as [|x A]; cbn [app mr_topics m3] in E.
    + injection E as _ E _. destruct a as [|y a]; cbn [app] in E; [injection E as <- _; elim Hc; reflexivity|].
      injection E as _ E. destruct a as [|z a]; cbn [app] in E; [injection E as <- _; elim Hc; reflexivity|]. injection E as _ E. destruct a; discriminate.
    + injection E as _ E. destruct A as [|y A]; cbn [app] in E.
      * injection E as _ E <-. destruct a as [|z a]; cbn [app] in E; injection E as _ E; [split; [symmetry; exact E|reflexivity]|destruct a; discriminate].
      * injection E as _ E. destruct A; discriminate.
Qed.
Example C09_many_ex : exists s', streamDecode err0 err0 10 8 (zlen (enc_mresp 10 m3)) (mkStream [firstn 150 (enc_mresp 10 m3); skipn 150 (enc_mresp 10 m3)] ETimeout) =
  Ok ([EvMsg [116] 3 (mA 8 [108] [119]); EvMsg [117] 4 (mA 8 [110] [121])], s').
Proof. eexists. vm_compute. reflexivity. Qed.

(** Finding: a record set that is cut, as brokers do at the size asked for, with another
    partition behind: the decoder goes on reading in the next partition.  A record that is
    not in the log is handed out, those of the next partition are lost without an error; or
    the decoder crashes. *)
Definition m2 (k : nat) : mresp := mkMR 1 0 0
  [([116], [mkPP 3 100 100 0 None (mkRS [bA] (Some (bB, k))); mkPP 4 100 100 0 None (mkRS [bC] None)])].
Theorem C09_many_cut_refuted :
  (exists k s', exp_many 7 (m2 k) = [EvMsg [116] 3 (mA 7 [107] [118]); EvMsg [116] 3 (mA 8 [108] [119]); EvMsg [116] 4 (mA 8 [110] [121])] /\
     streamDecode err0 err0 10 7 (zlen (enc_mresp 10 (m2 k))) (mkStream [enc_mresp 10 (m2 k)] ETimeout) =
     Ok ([EvMsg [116] 3 (mA 7 [107] [118]); EvMsg [116] 3 (mA 8 [108] [119]); EvMsg [116] 3 (mkMsg 9 2 0 1000 (Some [109]) None [])], s')) /\
  (exists k, streamDecode err0 err0 10 7 (zlen (enc_mresp 10 (m2 k))) (mkStream [enc_mresp 10 (m2 k)] ETimeout) = Panic).
Proof.
  split; [exists 67%nat|exists 16%nat; vm_compute; reflexivity]. eexists. split; vm_compute; reflexivity.
Qed.
Print Assumptions C09_many_cut_refuted.

(** C95: a fetch response with any number of topics and partitions, encoded, delivers the
    records of all of them. *)
Theorem C95_many_partial : forall unzip zip v start corr throttle session topics out fin,
  v = 7 \/ v = 10 -> zlen topics < 2 ^ 31 -> Forall (good_topic unzip zip start) topics ->
  enc_fetchresp zip (mkFR corr throttle 0 session topics) = Ok out -> zlen out < 2 ^ 31 ->
  exists s', streamDecode unzip zip v start (zlen out) (mkStream [out] fin) = Ok (flat_map topic_events topics, s') /\
    concat (st_chunks (d_in s')) = [].
Proof. exact fetchresp_read_many. Qed.
Print Assumptions C95_many_partial.
Definition exb (base : Z) : RecordBatch := mkRB base 0 2 0 1 1000 1000 (-1) 0 0 [mkRec 0 5 0 (Some [107]) (Some [118]) []].
Example C95_many_ex : exists out s',
  enc_fetchresp err0 (mkFR 1 0 0 0 [([116], [mkPartR 3 0 100 100 0 [] [exb 7]; mkPartR 4 0 100 100 0 [] [exb 9; exb 10]]); ([117], [mkPartR 0 0 100 100 0 [(1, 2)] [exb 8]])]) = Ok out /\
  streamDecode err0 err0 10 0 (zlen out) (mkStream [out] EEOF) =
    Ok (map (fun x => EvMsg (fst x) (fst (snd x)) (mkMsg (snd (snd x)) 2 0 1005 (Some [107]) (Some [118]) []))
         [([116], (3, 7)); ([116], (4, 9)); ([116], (4, 10)); ([117], (0, 8))], s').
Proof. eexists. eexists. split; [vm_compute; reflexivity|]. vm_compute; reflexivity. Qed.
