(** Model of broker.go and of the reading side of response.go: one broker handle, its
    connection, correlation ids, reopening, authentication and locks. *)
From Verif Require Import Base Fetch.

(** *** Reading one response *)
(** response.go:49-62 and 66-83: Read until n bytes have been obtained.  Every Read
    returns at least one byte or an error, so n rounds suffice. *)
Fixpoint read_loop (fuel n : nat) (cs : list bytes) (acc : bytes) : option (bytes * list bytes) :=
  match n with
  | O => Some (acc, cs)
  | _ => match fuel with
         | O => None
         | S f => match read1 n cs with
                  | None => None
                  | Some (b, cs') => read_loop f (n - length b) cs' (acc ++ b)
                  end
         end
  end.

(** response.go:45-87 Read: length prefix, then that many bytes; both are returned.  The
    log statement on line 85 needs four bytes of body.  Bytes read before an error are
    gone. *)
Definition read_response (s : stream) : res bytes * list bytes :=
  match read_loop 4 4 (st_chunks s) [] with
  | None => (Err (st_fin s), [])
  | Some (lb, cs1) =>
      let n := unbe lb in
      match read_loop (Z.to_nat n) (Z.to_nat n) cs1 [] with
      | None => (Err (st_fin s), [])
      | Some (b, cs2) => if n <? 4 then (Panic, cs2) else (Ok (lb ++ b), cs2)
      end
  end.

(** broker.go:301-316: the length prefix of a fetch response is read with one Read *)
Definition EShortRead : err := EInvalid 60.
(** broker.go:301-316 *)
Definition read_fetch_length (s : stream) : res Z * list bytes :=
  match read1 4 (st_chunks s) with
  | None => (Err (st_fin s), [])
  | Some (b, cs) => if zlen b =? 4 then (Ok (unbe b), cs) else (Err EShortRead, cs)
  end.

(** *** API versions *)
(** request.go:46-59 *)
Definition availableVersions (k : Z) : list Z :=
  match k with
  | 0 => [9; 0] | 1 => [10; 7; 0] | 2 => [1; 0] | 3 => [7; 4; 1] | 8 => [2; 0] | 9 => [1; 0]
  | 16 => [5; 4; 3; 2; 1; 0] | 17 => [1; 0] | 29 => [2; 1; 0] | 30 => [3; 2; 1; 0] | 31 => [3; 2; 1; 0]
  | 37 => [2; 0] | _ => [] end.
(** broker.go:52-67; [avs] is what the broker announced: (key, min, max).  A key without
    entry in availableVersions and a key without common version both give 0. *)
Definition getHighestAvailableAPIVersion (avs : list (Z * Z * Z)) (k : Z) : Z :=
  match find (fun v => existsb (fun a => (fst (fst a) =? k) && (snd (fst a) <=? v) && (v <=? snd a)) avs)
             (availableVersions k) with
  | Some v => v
  | None => 0
  end.

(** *** One broker handle *)
(** os.IsTimeout (no unwrapping), errors.Is(err, io.EOF), errors.Is(err, EPIPE):
    broker.go:248 *)
Definition closing (e : err) : bool :=
  match e with ETimeout => true | _ => false end ||
  match err_root e with EEOF | EPipe => true | _ => false end.

(** what the broker sends in answer to the request with correlation id [corr] *)
Definition frame (corr : Z) (body : bytes) : bytes := be 4 (4 + zlen body) ++ be 4 corr ++ body.

(** One request/response exchange as the network performs it: an error of the write;
    the body of the broker's answer; the sizes of the reads that arrive before the
    error [x_fin] would be reported; and what Parse and Error() make of the answer. *)
Record exch := mkEx { x_write : option err; x_body : bytes; x_arr : list nat; x_fin : err; x_verdict : option err }.

(** which request: ApiVersions, SASL, or one of the caller *)
Inductive kind := KVersions | KSasl | KUser.
(** [c_unread]: bytes the broker has sent (or is about to send) on this connection and
    the client has not read; [c_auth]: the SASL exchange on it has succeeded. *)
Record conn := mkConn { c_id : nat; c_unread : bytes; c_auth : bool }.
(** a request written: connection, kind, correlation id, state of authentication *)
Record wrec := mkW { w_conn : nat; w_kind : kind; w_corr : Z; w_auth : bool }.
(** broker.go:18-30 Broker: connection, its number, correlation id; ghost log of what was written *)
Record bst := mkB { b_conn : option conn; b_next : nat; b_corr : Z; b_log : list wrec }.

(** how the bytes arrive: cut into reads *)
Fixpoint cut (sizes : list nat) (b : bytes) : list bytes :=
  match sizes with [] => [] | n :: ns => firstn n b :: cut ns (skipn n b) end.
(** what the client can read *)
Definition arrived (x : exch) (b : bytes) : stream := mkStream (cut (x_arr x) b) (x_fin x).
(** what is still in the connection *)
Definition pending (x : exch) (b : bytes) : bytes := skipn (length (concat (cut (x_arr x) b))) b.

(** broker.go:73, 205: conn changes *)
Definition set_conn (s : bst) (c : option conn) : bst := mkB c (b_next s) (b_corr s) (b_log s).
(** broker.go:197-207 Close *)
Definition close (s : bst) : bst := set_conn s None.

(** broker.go:217-236 Request, 265-281 request, response.go:31-42 ReadAndParse.  Errors
    are wrapped by fmt.Errorf.  On a write error the broker answers nothing. *)
Definition exchange (k : kind) (x : exch) (c : conn) (s : bst) : res bytes * bst :=
  let corr := (b_corr s + 1) mod 2 ^ 32 in
  let log := b_log s ++ [mkW (c_id c) k corr (c_auth c)] in
  match x_write x with
  | Some e => (Err (EWrap e), mkB (Some c) (b_next s) corr log)
  | None =>
      let all := c_unread c ++ frame corr (x_body x) in
      let '(r, cs) := read_response (arrived x all) in
      let c' := mkConn (c_id c) (concat cs ++ pending x all) (c_auth c) in
      (match r with Err e => Err (EWrap e) | _ => r end, mkB (Some c') (b_next s) corr log)
  end.
(** what becomes of the bytes that were read: the verdict of the caller's parser *)
Definition judge (x : exch) (r : res bytes) : res bytes :=
  match r with Ok b => match x_verdict x with Some e => Err e | None => Ok b end | _ => r end.

(** broker.go:247-251: the deferred function *)
Definition close_on (r : res bytes) (s : bst) : bst :=
  match r with Err e => if closing e then close s else s | _ => s end.

(** a call returns, or waits for ever for a lock *)
Inductive outcome := Ret (r : res bytes) | Blocked.

(** broker.go:239-263 RequestAndGet on an open connection, the lock being free *)
Definition requestOpen (k : kind) (x : exch) (c : conn) (s : bst) : res bytes * bst :=
  let '(r, s') := exchange k x c s in
  let r' := judge x r in (r', close_on r' s').

(** what the network does while a connection is opened *)
Record opening := mkOpen { o_dial : option err; o_ver : exch; o_hs : exch; o_au : exch }.

(** broker.go:79-108 createConnAndAuth and 151-180 sendSaslAuthenticate; [held]: the
    calling goroutine holds mux, which RequestAndGet locks again. *)
Definition createConnAndAuth (sasl held : bool) (o : opening) (s : bst) : outcome * bst :=
  match o_dial o with
  | Some e => (Ret (Err e), s)
  | None =>
      let c := mkConn (b_next s) [] (negb sasl) in
      let s0 := mkB (Some c) (S (b_next s)) (b_corr s) (b_log s) in
      let '(r, s1) := exchange KVersions (o_ver o) c s0 in
      match judge (o_ver o) r, b_conn s1 with
      | Ok b, Some c1 =>
          if negb sasl then (Ret (Ok b), s1) else
          if held then (Blocked, s1) else
          let '(r2, s2) := requestOpen KSasl (o_hs o) c1 s1 in
          match r2, b_conn s2 with
          | Ok _, Some c2 =>
              let '(r3, s3) := requestOpen KSasl (o_au o) c2 s2 in
              match r3, b_conn s3 with
              | Ok b, Some c3 => (Ret (Ok b), set_conn s3 (Some (mkConn (c_id c3) (c_unread c3) true)))
              | _, _ => (Ret r3, s3)
              end
          | _, _ => (Ret r2, s2)
          end
      | Ok b, None => (Ret (Ok b), s1)
      | Err e, _ => (Ret (Err (EWrap e)), s1)
      | r', _ => (Ret r', s1)
      end
  end.

(** broker.go:208-213 ensureOpen *)
Definition ensureOpen (sasl held : bool) (o : opening) (s : bst) : outcome * bst :=
  match b_conn s with
  | Some _ => (Ret (Ok []), s)
  | None => createConnAndAuth sasl held o s
  end.

(** broker.go:239-263 RequestAndGet *)
Definition requestAndGet (sasl : bool) (o : opening) (x : exch) (s : bst) : outcome * bst :=
  match ensureOpen sasl true o s with
  | (Ret (Ok _), s1) =>
      match b_conn s1 with
      | Some c => let '(r, s2) := requestOpen KUser x c s1 in (Ret r, s2)
      | None => (Ret Panic, s1)
      end
  | r => r
  end.

Section Fetch.
  Variable unzip zip : Z -> bytes -> res bytes.

  (** broker.go:370-389 requestFetchStreamingly, 283-318 requestStreamingly (the error of
      the write is ignored, any later one closes the connection), and the decoder
      reading the rest.  Result: what the messages channel receives. *)
  Definition fetchOpen (version start : Z) (x : exch) (c : conn) (s : bst) : res (list event) * bst :=
    let corr := (b_corr s + 1) mod 2 ^ 32 in
    let log := b_log s ++ [mkW (c_id c) KUser corr (c_auth c)] in
    let all := match x_write x with Some _ => c_unread c | None => c_unread c ++ frame corr (x_body x) end in
    let st := arrived x all in
    let '(r, cs) := read_fetch_length st in
    let s' := mkB (Some c) (b_next s) corr log in
    match r with
    | Ok n =>
        match streamDecode unzip zip version start n (mkStream cs (x_fin x)) with
        | Ok (evs, d) =>
            (Ok evs, set_conn s' (Some (mkConn (c_id c) (concat (st_chunks (d_in d)) ++ pending x all) (c_auth c))))
        | Err e => (Err e, s')
        | Panic => (Panic, s')
        | Unspec => (Unspec, s')
        end
    | Err e => (Err e, close s')
    | Panic => (Panic, s')
    | Unspec => (Unspec, s')
    end.
  (** broker.go:370-389 requestFetchStreamingly *)
  Definition requestFetch (sasl : bool) (o : opening) (version start : Z) (x : exch) (s : bst) : res (list event) * bst :=
    match ensureOpen sasl false o s with
    | (Ret (Ok _), s1) =>
        match b_conn s1 with
        | Some c => fetchOpen version start x c s1
        | None => (Panic, s1)
        end
    | (Ret (Err e), s1) => (Err e, s1)
    | (Ret Panic, s1) => (Panic, s1)
    | (_, s1) => (Unspec, s1)
    end.

  (** *** Histories of one handle *)
  Inductive op :=
  | OReq (o : opening) (x : exch)
  | OFetch (o : opening) (version start : Z) (x : exch)
  | OClose.
  (** one operation on the handle *)
  Definition step (sasl : bool) (s : bst) (op : op) : bst :=
    match op with
    | OReq o x => snd (requestAndGet sasl o x s)
    | OFetch o v st x => snd (requestFetch sasl o v st x s)
    | OClose => close s
    end.
  (** a sequence of operations *)
  Definition run (sasl : bool) (s : bst) (l : list op) : bst := fold_left (step sasl) l s.
End Fetch.

(** broker.go:37-50 NewBroker: a handle exists only if the first opening succeeds *)
Definition b_new : bst := mkB None 0 0 [].
(** broker.go:37-50 NewBroker *)
Definition newBroker (sasl : bool) (o : opening) : option bst :=
  match createConnAndAuth sasl false o b_new with
  | (Ret (Ok _), s) => Some s
  | _ => None
  end.

(** *** Close running beside a request *)
(** broker.go:239-281, 208-213 and response.go:45-83 as seen by another goroutine that
    calls Close (broker.go:197-207), which takes closeLock but not mux: the check of
    ensureOpen, then [n] further uses of the field broker.conn, any of which may be
    separated from the others by a Close.  Calling a method through a nil field panics
    (None).  The state is whether the field is set. *)
Inductive iact := ICheck | IUse | IClose.
(** one step of another goroutine *)
Definition istep (c : bool) (a : iact) : option bool :=
  match a with
  | ICheck => Some true
  | IUse => if c then Some c else None
  | IClose => Some false
  end.
(** an interleaving of steps *)
Fixpoint irun (c : bool) (l : list iact) : option bool :=
  match l with
  | [] => Some c
  | a :: t => match istep c a with Some c' => irun c' t | None => None end
  end.
(** the uses of broker.conn of one request *)
Definition request_trace (n : nat) : list iact := ICheck :: repeat IUse n.
