(** Specification of what the consumer of a fetch response should receive; and the
    layout of fetch responses.  Describes the protocol and the intended result, not the
    Go code (only the types of messages and events come from the model). *)
From Verif Require Import Base RecordSpec Records Fetch.

Definition nonempty {A} (l : list A) : bool := match l with [] => false | _ => true end.

(** what the consumer side makes of a record on the wire *)
Definition nz (o : option bytes) : option bytes := match o with Some [] => None | _ => o end.
Definition of_header (h : bytes * option bytes) : bytes * bytes := (fst h, obytes (snd h)).
Definition headers_present (s : srecord) : Prop := Forall (fun h => snd h <> None) (sr_headers s).


(** *** One batch *)
Definition exp_msg (b : sbatch) (r : srecord) : Message :=
  mkMsg (sb_base b + sr_od r) 2 (sr_attr r) ((sr_ts r + sb_bts b) mod 2 ^ 64)
        (nz (sr_key r)) (nz (sr_value r)) (map of_header (sr_headers r)).
Definition wanted (start : Z) (m : Message) : bool := start <=? m_offset m.
Definition exp_events (topic : bytes) (pid start : Z) (b : sbatch) (rs : list srecord) : list event :=
  map (EvMsg topic pid) (filter (wanted start) (map (exp_msg b) rs)).
(** the records that lie completely within the first k bytes *)
Fixpoint whole (k : nat) (rs : list srecord) : list srecord :=
  match rs with
  | [] => []
  | r :: rs' => if Nat.leb (length (enc_srecord r)) k then r :: whole (k - length (enc_srecord r)) rs' else []
  end.


(** A batch on the wire: header fields, records, and the (possibly compressed) bytes
    that carry them. *)
Record wbatch := mkWB { wb_h : sbatch; wb_recs : list srecord; wb_payload : bytes }.
Definition enc_wb (w : wbatch) : bytes := enc_sbatch (wb_h w) (zlen (wb_recs w)) (wb_payload w).
(** the compression codec: the lowest three bits of the attributes (4: zstd) *)
Definition wb_codec (w : wbatch) : Z := Z.land (sb_attr (wb_h w)) 7.
Definition wf_wb_common (w : wbatch) : Prop :=
  wf_sbatch (wb_h w) /\ Forall wf_srecord (wb_recs w) /\ Forall headers_present (wb_recs w)
  /\ Forall (fun r => i64 (sb_base (wb_h w) + sr_od r)) (wb_recs w)
  /\ zlen (wb_recs w) < 2 ^ 31 /\ (zlen (wb_payload w) < 2 ^ 31 /\ wb_codec w <= 3).
(** [unzip] undoes the producer's compression; an empty batch has no payload *)
Definition wf_wb (unzip : Z -> bytes -> res bytes) (w : wbatch) : Prop :=
  wf_wb_common w /\
  (if wb_codec w =? 0 then wb_payload w = flat_map enc_srecord (wb_recs w)
   else if nonempty (wb_recs w) then unzip (wb_codec w) (wb_payload w) = Ok (flat_map enc_srecord (wb_recs w))
   else wb_payload w = []).


Definition exp_all (topic : bytes) (pid st : Z) (ws : list wbatch) : list event :=
  flat_map (fun w => exp_events topic pid st (wb_h w) (wb_recs w)) ws.

(** the cut-off batch at the end: its first [k] bytes *)
Definition exp_cut (topic : bytes) (pid st : Z) (w : wbatch) (k : nat) : list event :=
  exp_events topic pid st (wb_h w) (whole (k - 61) (wb_recs w)).


(** *** The record set of one partition: whole batches, then possibly the beginning of
    one more (Kafka cuts the record set at the requested size). *)
Record rset := mkRS { rs_whole : list wbatch; rs_cut : option (wbatch * nat) }.
Definition enc_rset (r : rset) : bytes :=
  flat_map enc_wb (rs_whole r) ++
  match rs_cut r with None => [] | Some (w, k) => firstn k (enc_wb w) end.
Definition exp_rset (topic : bytes) (pid st : Z) (r : rset) : list event :=
  exp_all topic pid st (rs_whole r) ++
  match rs_cut r with None => [] | Some (w, k) => exp_cut topic pid st w k end.
Definition wf_rset (unzip : Z -> bytes -> res bytes) (r : rset) : Prop :=
  Forall (wf_wb unzip) (rs_whole r) /\
  match rs_cut r with
  | None => True
  | Some (w, k) => wf_wb unzip w /\ wb_recs w <> [] /\ wb_codec w = 0 /\ (k < length (enc_wb w))%nat
  end.
(** one fetch response for one topic and one partition, versions 0, 7 and 10 *)
Record presp := mkPR {
  pr_corr : Z; pr_throttle : Z; pr_session : Z; pr_topic : bytes; pr_pid : Z; pr_hw : Z; pr_lso : Z;
  pr_logstart : Z; pr_aborted : option (list (Z * Z)); pr_records : bytes }.
Definition enc_aborted (a : option (list (Z * Z))) : bytes :=
  match a with
  | None => be 4 (-1)
  | Some l => be 4 (zlen l) ++ flat_map (fun x => be 8 (fst x) ++ be 8 (snd x)) l
  end.
Definition enc_presp_head (v : Z) (p : presp) : bytes :=
  be 4 (pr_corr p) ++
  (if v =? 0 then [] else be 4 (pr_throttle p) ++ be 2 0 ++ be 4 (pr_session p)) ++
  be 4 1 ++ be 2 (zlen (pr_topic p)) ++ pr_topic p ++ be 4 1.
Definition enc_presp_part (v : Z) (code : Z) (p : presp) : bytes :=
  be 4 (pr_pid p) ++ be 2 code ++ be 8 (pr_hw p) ++
  (if v =? 0 then [] else be 8 (pr_lso p) ++ be 8 (pr_logstart p) ++ enc_aborted (pr_aborted p)) ++
  be 4 (zlen (pr_records p)).
Definition enc_presp (v : Z) (p : presp) : bytes :=
  enc_presp_head v p ++ enc_presp_part v 0 p ++ pr_records p.
(** lengths of the fields of the partition header, in order *)
Definition part_fields (v : Z) (p : presp) : list nat :=
  [4; 2; 8]%nat ++
  (if v =? 0 then [] else [8; 8; 4]%nat ++
     match pr_aborted p with None => [] | Some l => flat_map (fun _ => [8; 8]%nat) l end) ++
  [4]%nat.
Definition wf_presp (p : presp) : Prop :=
  zlen (pr_topic p) < 2 ^ 15 /\ i32 (pr_pid p) /\
  (match pr_aborted p with None => True | Some l => zlen l < 2 ^ 31 end) /\
  zlen (pr_records p) < 2 ^ 31.
(** the records wanted; or, if there is none in a non-empty record set, an error *)
Definition exp_presp (st : Z) (p : presp) (rs : rset) : list event :=
  let evs := exp_rset (pr_topic p) (pr_pid p) st rs in
  if nonempty evs then evs
  else if nonempty (enc_rset rs) then [EvErr EMaxBytesTooSmall] else [].


(** *** How the bytes arrive *)
(** The field of [len] bytes starting [pos] bytes ahead lies within one chunk. *)
Fixpoint unsplit (cs : list bytes) (pos len : nat) : Prop :=
  match cs with
  | [] => True
  | c :: cs' => if Nat.ltb pos (length c) then (pos + len <= length c)%nat else unsplit cs' (pos - length c) len
  end.
(** consecutive fields of the given lengths *)
Fixpoint fields_ok (cs : list bytes) (pos : nat) (ls : list nat) : Prop :=
  match ls with
  | [] => True
  | l :: ls' => unsplit cs pos l /\ fields_ok cs (pos + l) ls'
  end.


(** *** Connections that fail, record sets that are cut *)
Definition prefix {A} (a b : list A) : Prop := exists c, b = a ++ c.
(** the chunks that still arrive when the connection fails after [k] bytes *)
Fixpoint trunc (k : nat) (cs : list bytes) : list bytes :=
  match cs with [] => [] | c :: cs' => firstn k c :: trunc (k - length c) cs' end.
(** a decompressor notices that its input is incomplete *)
Definition rejects_cuts (unzip : Z -> bytes -> res bytes) (w : wbatch) : Prop :=
  wb_codec w = 0 \/ forall k, (k < length (wb_payload w))%nat -> exists e, unzip (wb_codec w) (firstn k (wb_payload w)) = Err e.
