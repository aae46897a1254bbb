(** What a partition consumer should do, stated on what can be seen from outside: the
    requests it sends and the messages it hands out.  From the model come the types of
    those observations, and the machine a run belongs to. *)
From Verif Require Import Base RecordSpec Records Responses Fetch FetchSpec Consumer.

(** *** The partition's log *)
Definition log_msgs (L : list wbatch) : list Message :=
  flat_map (fun w => map (exp_msg (wb_h w)) (wb_recs w)) L.
Definition before (a b : Message) : Prop := m_offset a < m_offset b.
Definition log_ok (unzip : Z -> bytes -> res bytes) (L : list wbatch) : Prop :=
  Forall (wf_wb unzip) L /\ Forall (rejects_cuts unzip) L /\
  StronglySorted before (log_msgs L) /\ Forall (fun m => m_offset m < 2 ^ 63 - 1) (log_msgs L).

(** What a broker that holds the log [L] may answer to a fetch at offset [o], as seen
    through the decoder: a failed request; an error code; consecutive batches of the log
    that do not begin behind [o], cut off at any number [c] of bytes, arriving in
    chunks; or the same over a connection that breaks after [k] bytes. *)
Inductive honest (unzip zip : Z -> bytes -> res bytes) (topic : bytes) (pid : Z) (L : list wbatch) (o : Z) : res (list event) -> Prop :=
| H_fail e : honest unzip zip topic pid L o (Err e)
| H_code v p code rest chunks fin evs s :
    (v = 0 \/ v = 7 \/ v = 10) -> wf_presp p -> i16 code -> code <> 0 ->
    concat chunks = enc_presp_head v p ++ (enc_presp_part v code p ++ pr_records p) ++ rest ->
    fields_ok chunks (length (enc_presp_head v p)) [4; 2]%nat ->
    streamDecode unzip zip v o (zlen (enc_presp_head v p ++ enc_presp_part v code p ++ pr_records p)) (mkStream chunks fin) = Ok (evs, s) ->
    honest unzip zip topic pid L o (Ok evs)
| H_data v p pre ws post c rest chunks fin evs s :
    L = pre ++ ws ++ post -> Forall (fun m => m_offset m < o) (log_msgs pre) ->
    (v = 0 \/ v = 7 \/ v = 10) -> wf_presp p -> pr_topic p = topic -> pr_pid p = pid ->
    pr_records p = firstn c (flat_map enc_wb ws) ->
    concat chunks = enc_presp v p ++ rest ->
    fields_ok chunks (length (enc_presp_head v p)) (part_fields v p) ->
    streamDecode unzip zip v o (zlen (enc_presp v p)) (mkStream chunks fin) = Ok (evs, s) ->
    honest unzip zip topic pid L o (Ok evs)
| H_broken v p pre ws post c k chunks fin evs s :
    L = pre ++ ws ++ post -> Forall (fun m => m_offset m < o) (log_msgs pre) ->
    (v = 0 \/ v = 7 \/ v = 10) -> wf_presp p -> pr_topic p = topic -> pr_pid p = pid ->
    pr_records p = firstn c (flat_map enc_wb ws) ->
    concat chunks = enc_presp v p ->
    fields_ok chunks (length (enc_presp_head v p)) (part_fields v p) ->
    streamDecode unzip zip v o (zlen (enc_presp v p)) (mkStream (trunc k chunks) fin) = Ok (evs, s) ->
    honest unzip zip topic pid L o (Ok evs).

(** every fetch of the run is answered by such a broker *)
Fixpoint honest_run (unzip zip : Z -> bytes -> res bytes) (c : ccfg) (L : list wbatch) (s : cst) (ops : list cop) : Prop :=
  match ops with
  | [] => True
  | op :: ops' =>
      match op with OFetch r => honest unzip zip (k_topic c) (k_part c) L (c_off s) r | _ => True end /\
      match cstep c s op with Ok (s', _) => honest_run unzip zip c L s' ops' | _ => True end
  end.

(** *** In order, without gaps
    [pos] is where the consumer stands.  Each message handed out is the first of the log
    at or after that position, for the right topic and partition; each fetch asks for
    that position; a reset moves it. *)
Definition next_msg (l : list Message) (pos : Z) : option Message := find (fun m => pos <=? m_offset m) l.
Fixpoint in_order (topic : bytes) (pid : Z) (l : list Message) (pos : Z) (t : list tev) : Prop :=
  match t with
  | [] => True
  | TMsg tp p m :: t' => tp = topic /\ p = pid /\ next_msg l pos = Some m /\ in_order topic pid l (m_offset m + 1) t'
  | TReset _ o :: t' => in_order topic pid l o t'
  | TFetch o _ :: t' => o = pos /\ in_order topic pid l pos t'
  | TCommit _ _ :: t' => in_order topic pid l pos t'
  end.

(** *** Positions and commits *)
Definition move (pos : Z) (e : tev) : Z :=
  match e with TMsg _ _ m => m_offset m + 1 | TReset _ o => o | _ => pos end.
Definition position (start : Z) (t : list tev) : Z := fold_left move t start.
(** since the last reset: where it went, and the messages handed out *)
Definition seg (x : Z * list Message) (e : tev) : Z * list Message :=
  match e with TMsg _ _ m => (fst x, snd x ++ [m]) | TReset _ o => (o, []) | _ => x end.
Definition segment (start : Z) (t : list tev) : Z * list Message := fold_left seg t (start, []).
Definition commits (t : list tev) : list Z := flat_map (fun e => match e with TCommit o _ => [o] | _ => [] end) t.
Definition resets (t : list tev) : list (Z * Z) := flat_map (fun e => match e with TReset w o => [(w, o)] | _ => [] end) t.
Definition msgs (t : list tev) : list Message := flat_map (fun e => match e with TMsg _ _ m => [m] | _ => [] end) t.

(** one CommitOffset call at a time *)
Fixpoint serial (c : ccfg) (s : cst) (ops : list cop) : Prop :=
  match ops with
  | [] => True
  | op :: ops' =>
      match op with OCommit => c_fly s = [] | _ => True end /\
      match cstep c s op with Ok (s', _) => serial c s' ops' | _ => True end
  end.
