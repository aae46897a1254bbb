(** Model of the time a request takes: the read deadlines of response.go and broker.go.  Times
    are milliseconds.  Left out: the time it takes to write the request (no deadline is set for
    that), and the end of the stream (Conn.v). *)
From Verif Require Import Base.

(** A connection as its owner sees it: the time now, the read deadline of the connection, and
    what will arrive when. *)
Record tconn := mkT { k_now : Z; k_dl : option Z; k_in : list (Z * bytes) }.
Inductive tres (A : Type) :=
  | TOk (a : A) (c : tconn)
  | TTimeout (at_ : Z)      (** os.ErrDeadlineExceeded, at this time *)
  | THang.                  (** never returns *)
Arguments TOk {A}. Arguments TTimeout {A}. Arguments THang {A}.

(** net.Conn.SetReadDeadline(time.Now().Add(timeout)) *)
Definition set_deadline (timeout : Z) (c : tconn) : tconn := mkT (k_now c) (Some (k_now c + timeout)) (k_in c).
(** the wait until [at_] ends before that if there is a deadline *)
Definition wait_until (at_ : Z) (c : tconn) : option Z :=
  let t := Z.max (k_now c) at_ in
  match k_dl c with
  | None => Some t
  | Some d => if t <? d then Some t else None
  end.
(** net.Conn.Read into a buffer of [n] bytes: at least one byte, when one is there; an error
    once the deadline has passed, also if bytes are there; nothing for an empty buffer *)
Definition tread (n : nat) (c : tconn) : tres bytes :=
  match n with
  | O => TOk [] c
  | _ =>
    match k_in c with
    | [] => match k_dl c with None => THang | Some d => TTimeout (Z.max (k_now c) d) end
    | (t, b) :: l =>
        match wait_until t c with
        | Some now => TOk (firstn n b) (mkT now (k_dl c) (if (length b <=? n)%nat then l else (t, skipn n b) :: l))
        | None => TTimeout (Z.max (k_now c) (match k_dl c with Some d => d | None => 0 end))
        end
    end
  end.

(** response.go:49-62 and 67-84: the deadline is set before every read, if the timeout is
    positive.  [fuel]: reads that are left; every read brings a byte at least. *)
Fixpoint fill (fuel : nat) (timeout : Z) (want : nat) (c : tconn) (acc : bytes) : tres bytes :=
  match fuel with
  | O => THang
  | S fuel' =>
      let c := if 0 <? timeout then set_deadline timeout c else c in
      match tread want c with
      | TOk b c' => if (length b =? want)%nat then TOk (acc ++ b) c' else fill fuel' timeout (want - length b) c' (acc ++ b)
      | TTimeout t => TTimeout t
      | THang => THang
      end
  end.
(** response.go:45-88 Read: the length, then that many bytes *)
Definition tRead (timeout : Z) (c : tconn) : tres bytes :=
  match fill 4 timeout 4 c [] with
  | TOk h c' => let n := Z.to_nat (unbe h) in
      match fill (S n) timeout n c' [] with
      | TOk b c'' => TOk (h ++ b) c''
      | TTimeout t => TTimeout t
      | THang => THang
      end
  | TTimeout t => TTimeout t
  | THang => THang
  end.
(** broker.go:219-225: the timeout of a request to an API *)
Definition timeout_of (general : Z) (each : list Z) (api : Z) : Z :=
  match nth_error each (Z.to_nat api) with Some t => if 0 <? t then t else general | None => general end.
(** Requests one after the other: each is sent at a time of its own, and its response arrives
    as given, in times behind the moment it was sent. *)
Definition later (t : Z) (l : list (Z * bytes)) : list (Z * bytes) := map (fun x => (t + fst x, snd x)) l.
Fixpoint calls (general : Z) (each : list Z) (l : list (Z * Z * list (Z * bytes))) (c : tconn) : list (tres bytes) :=
  match l with
  | [] => []
  | (api, pause, arr) :: l' =>
      let c := mkT (k_now c + pause) (k_dl c) (k_in c ++ later (k_now c + pause) arr) in
      let r := tRead (timeout_of general each api) c in
      r :: match r with TOk _ c' => calls general each l' c' | _ => [] end
  end.

(** broker.go:298-307 and the reads of the decoder from what requestStreamingly returns: the
    deadline is set once.  [pauses]: how long the owner is busy before each read of the rest,
    which is when messages are handed out. *)
Fixpoint drain (pauses : list Z) (want : nat) (c : tconn) (acc : bytes) : tres bytes :=
  match want, pauses with
  | O, _ => TOk acc c
  | _, [] => THang
  | _, p :: pauses' =>
      match tread want (mkT (k_now c + p) (k_dl c) (k_in c)) with
      | TOk b c' => drain pauses' (want - length b) c' (acc ++ b)
      | TTimeout t => TTimeout t
      | THang => THang
      end
  end.
(** EShort stands for the error of line 306 *)
Definition tstream (timeout : Z) (pauses : list Z) (c : tconn) : tres (res bytes) :=
  match tread 4 (if 0 <? timeout then set_deadline timeout c else c) with
  | TOk h c' =>
      if (length h =? 4)%nat then
        match drain pauses (Z.to_nat (unbe h)) c' [] with
        | TOk b c'' => TOk (Ok b) c''
        | TTimeout t => TTimeout t
        | THang => THang
        end
      else TOk (Err EShort) c'
  | TTimeout t => TTimeout t
  | THang => THang
  end.
