(** What a fetch asks of the broker besides records: sessions (KIP-227) and the isolation of
    transactions (KIP-98), from the side of the broker.  Specification for C153 and C154. *)
From Verif Require Import Base Wire RecordSpec Requests RequestSpec RequestPrep Calls CallsSpec Fetch FetchSpec.

(** Read from the bytes of a fetch request: isolation level, session id, session epoch. *)
Definition asks (v : Z) (out : bytes) : option (Z * (Z * Z)) :=
  match v with
  | 7 => match broker_reads 1 7 S_Fetch_7 out with
         | Some (_, _, (_, (_, (_, (_, (level, (id, (epoch, _))))))), _) => Some (level, (id, epoch))
         | None => None
         end
  | 10 => match broker_reads 1 10 S_Fetch_10 out with
          | Some (_, _, (_, (_, (_, (_, (level, (id, (epoch, _))))))), _) => Some (level, (id, epoch))
          | None => None
          end
  | _ => None
  end.

(** [out] are the bytes of a fetch of one partition, as the consumers make it, at version [v];
    its values fit in the protocol's fields *)
Definition sends (zip : Z -> bytes -> res bytes) (client : bytes) (v : Z) (out : bytes) : Prop :=
  exists t p off mw mi mb ep corr r r',
    (forall x, says (CKFetch t p off mw mi mb ep) v x -> val_wf x /\ zlen (val_bytes x) + zlen client + 15 < 2 ^ 31) /\
    i32 corr /\ zlen client < 2 ^ 15 /\
    call_request (@rev Z) client (CKFetch t p off mw mi mb ep) = Some r /\ prepare zip corr v r = Ok (out, r').

(** The sessions a broker keeps.  Epoch -1: no session is wanted, and the one named is over;
    epoch 0: the session named is over and a new one is wanted, which is made if there is a slot
    left; otherwise the session goes on.  Sessions are not evicted: Kafka keeps them for
    min.incremental.fetch.session.eviction.ms, two minutes. *)
Record cache := mkCache { slots : nat; sessions : list Z }.
Definition serve (fresh : Z) (k : cache) (id epoch : Z) : cache :=
  let others := filter (fun s => negb (s =? id)) (sessions k) in
  if epoch =? -1 then mkCache (slots k) others
  else if epoch =? 0 then mkCache (slots k) (if Nat.ltb (length others) (slots k) then fresh :: others else others)
  else k.
(** requests one after the other, each with the id a new session would get *)
Fixpoint serve_all (v : Z) (k : cache) (l : list (Z * bytes)) : cache :=
  match l with
  | [] => k
  | (fresh, out) :: l' =>
      serve_all v (match asks v out with Some (_, (id, epoch)) => serve fresh k id epoch | None => k end) l'
  end.

(** Transactions in a log.  Bit 4 of the attributes: the batch belongs to the transaction its
    producer has open; bit 5: it is the marker that ends it; the key of its record ends with
    1 (committed) or 0 (aborted). *)
Definition in_txn (w : wbatch) : bool := Z.testbit (sb_attr (wb_h w)) 4.
Definition is_marker (w : wbatch) : bool := Z.testbit (sb_attr (wb_h w)) 5.
Definition commits (w : wbatch) : bool :=
  match wb_recs w with
  | r :: _ => match sr_key r with Some [_; _; _; t] => t =? 1 | _ => false end
  | [] => false
  end.
(** how the transaction the producer has open ends *)
Fixpoint fate (pid : Z) (later : list wbatch) : option bool :=
  match later with
  | [] => None
  | w :: l => if is_marker w && (sb_pid (wb_h w) =? pid) then Some (commits w) else fate pid l
  end.
(** the batches whose records are messages for a consumer *)
Fixpoint committed (log : list wbatch) : list wbatch :=
  match log with
  | [] => []
  | w :: l =>
      (if is_marker w then []
       else if in_txn w then match fate (sb_pid (wb_h w)) l with Some true => [w] | _ => [] end
       else [w]) ++ committed l
  end.

(** two responses that differ at most in the session and the aborted transactions they name *)
Definition same_records (p q : presp) : Prop :=
  pr_topic p = pr_topic q /\ pr_pid p = pr_pid q /\ pr_records p = pr_records q.
