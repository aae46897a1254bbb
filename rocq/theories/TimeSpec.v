(** What C159 speaks about: the time of a message (Kafka, KIP-32 and the format of record batches). *)
From Verif Require Import Base Records Fetch.

(** bit 3 of the attributes of a batch: the broker put the time at which it appended the batch into
    its latest timestamp, and this is the time of all its records (topics with
    message.timestamp.type LogAppendTime); otherwise the time of a record is that of the batch
    plus its delta *)
Definition append_time (b : RecordBatch) : bool := Z.testbit (rb_attr b) 3.
Definition spec_time (b : RecordBatch) (r : Record) : Z :=
  if append_time b then rb_mts b else rb_bts b + r_ts r.
(** the time of what is handed out *)
Definition ev_time (e : event) : option Z := match e with EvMsg _ _ m => Some (m_ts m) | EvErr _ => None end.
