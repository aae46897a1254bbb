(** Producer, broker and consumer of one partition together.  Describes what the broker
    does with produce requests, and what a run of producer and consumer should give; from
    the models come the types of the observations only. *)
From Verif Require Import Base Wire RequestSpec RecordSpec RequestPrep Producer ProducerSpec Records Fetch FetchSpec Consumer ConsumerSpec.

(** the record set in a produce request (version 9) for one partition *)
Definition produce_set (topic : bytes) (part : Z) (out : bytes) : option bytes :=
  match broker_reads 0 9 S_Produce_9 out with
  | Some (_, _, (_, (_, (_, ([(t, ([(p, (Some set, _))], _))], _)))), []) =>
      if list_eq_dec Z.eq_dec t topic then if p =? part then Some set else None else None
  | _ => None
  end.
(** number of records, from the batch header *)
Definition set_count (set : bytes) : Z := unbe (firstn 4 (skipn 57 set)).
(** A broker appends a batch by writing the offset of its first record and the epoch of the
    leader into it. *)
Definition append_set (off epoch : Z) (set : bytes) : bytes :=
  be 8 off ++ firstn 4 (skipn 8 set) ++ be 4 epoch ++ skipn 16 set.
Fixpoint broker_log (topic : bytes) (part epoch off : Z) (outs : list bytes) : option (list bytes) :=
  match outs with
  | [] => Some []
  | out :: outs' =>
      match produce_set topic part out with
      | Some set => option_map (cons (append_set off epoch set)) (broker_log topic part epoch (off + set_count set) outs')
      | None => None
      end
  end.

(** the requests that reached the broker, in order *)
Definition wires (evs : list Producer.event) : list bytes :=
  flat_map (fun a => match t_wire a with Some (_, _, _, out) => [out] | None => [] end) (flushes evs).

(** A broker that checks the records of a batch numbers them from 0 (Kafka does so with
    compressed batches; uncompressed ones are kept as they are). *)
Fixpoint numbered (i : Z) (rs : list srecord) : list srecord :=
  match rs with
  | [] => []
  | r :: rs' => mkSRec (sr_attr r) (sr_ts r) i (sr_key r) (sr_value r) (sr_headers r) :: numbered (i + 1) rs'
  end.
Definition renumbered (unzip : Z -> bytes -> res bytes) (w w' : wbatch) : Prop :=
  wb_h w' = wb_h w /\ wb_recs w' = numbered 0 (wb_recs w) /\ wf_wb unzip w' /\ rejects_cuts unzip w'.

(** keys and values; a consumer does not tell absent from empty (see C05) *)
Definition sent (m : message) : option bytes * option bytes := (nz (fst m), nz (Some (snd m))).
Definition seen (m : Message) : option bytes * option bytes := (m_key m, m_value m).

(** every request is sent in version 9 with a correlation id and a time that fit *)
Definition sends9 (n : net) : Prop :=
  match n with NSend ver corr ts _ _ => ver = 9 /\ i32 corr /\ i64 ts | NFail _ => True end.
(** configuration and messages fit their fields *)
Definition sane_cfg (g : scfg) : Prop :=
  g_magic g = 2 /\ 0 <= g_codec g <= 3 /\ i16 (g_acks g) /\ i32 (g_timeout g) /\ i32 (g_part g) /\
  zlen (g_topic g) < 2 ^ 15 /\ zlen (g_client g) < 2 ^ 15 /\ g_max g < 2 ^ 31.
Definition sane_msg (m : message) : Prop := olen (fst m) + zlen (snd m) < 2 ^ 31 - 64.
Definition sane_wire (out : bytes) : Prop := zlen out < 2 ^ 31 - 1.

(** the decompressor of a codec undoes its compressor, and notices when input is missing *)
Definition codec_ok (zip unzip : Z -> bytes -> res bytes) (codec : Z) : Prop :=
  codec <> 0 -> forall b c, zip codec b = Ok c ->
    unzip codec c = Ok b /\ forall k, (k < length c)%nat -> exists e, unzip codec (firstn k c) = Err e.
