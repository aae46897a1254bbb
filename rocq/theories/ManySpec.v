(** Fetch responses with any number of topics and partitions: layout and intended result.
    Describes the protocol, not the Go code. *)
From Verif Require Import Base RecordSpec Records Fetch FetchSpec.

(** one partition, without an error *)
Record ppart := mkPP {
  pp_pid : Z; pp_hw : Z; pp_lso : Z; pp_logstart : Z; pp_aborted : option (list (Z * Z)); pp_set : rset }.
Definition enc_ppart_head (v : Z) (p : ppart) : bytes :=
  be 4 (pp_pid p) ++ be 2 0 ++ be 8 (pp_hw p) ++
  (if v =? 0 then [] else be 8 (pp_lso p) ++ be 8 (pp_logstart p) ++ enc_aborted (pp_aborted p)) ++
  be 4 (zlen (enc_rset (pp_set p))).
Definition enc_ppart (v : Z) (p : ppart) : bytes := enc_ppart_head v p ++ enc_rset (pp_set p).
Definition topic_parts : Type := bytes * list ppart.
Definition enc_tparts (v : Z) (t : topic_parts) : bytes :=
  be 2 (zlen (fst t)) ++ fst t ++ be 4 (zlen (snd t)) ++ flat_map (enc_ppart v) (snd t).
(** a whole response *)
Record mresp := mkMR { mr_corr : Z; mr_throttle : Z; mr_session : Z; mr_topics : list topic_parts }.
Definition enc_mresp (v : Z) (m : mresp) : bytes :=
  be 4 (mr_corr m) ++
  (if v =? 0 then [] else be 4 (mr_throttle m) ++ be 2 0 ++ be 4 (mr_session m)) ++
  be 4 (zlen (mr_topics m)) ++ flat_map (enc_tparts v) (mr_topics m).

Definition wf_ppart (unzip : Z -> bytes -> res bytes) (p : ppart) : Prop :=
  i32 (pp_pid p) /\ (match pp_aborted p with None => True | Some l => zlen l < 2 ^ 31 end) /\
  zlen (enc_rset (pp_set p)) < 2 ^ 31 /\ wf_rset unzip (pp_set p).
Definition wf_tparts (unzip : Z -> bytes -> res bytes) (t : topic_parts) : Prop :=
  zlen (fst t) < 2 ^ 15 /\ snd t <> [] /\ zlen (snd t) < 2 ^ 31 /\ Forall (wf_ppart unzip) (snd t).
Definition wf_mresp (unzip : Z -> bytes -> res bytes) (m : mresp) : Prop :=
  zlen (mr_topics m) < 2 ^ 31 /\ Forall (wf_tparts unzip) (mr_topics m).
(** only the record set of the very last partition is cut *)
Definition cut_last (ts : list topic_parts) : Prop := forall A t a p b B,
  ts = A ++ (t, a ++ p :: b) :: B -> rs_cut (pp_set p) <> None -> b = [] /\ B = [].

(** what should be handed out: the records wanted of all partitions, in order *)
Definition exp_part (st : Z) (topic : bytes) (p : ppart) : list event := exp_rset topic (pp_pid p) st (pp_set p).
Definition exp_parts (st : Z) (t : topic_parts) : list event := flat_map (exp_part st (fst t)) (snd t).
Definition exp_many (st : Z) (m : mresp) : list event := flat_map (exp_parts st) (mr_topics m).
(** no partition at all has records, or the first that has any has a wanted one *)
Definition first_wanted (st : Z) (ts : list topic_parts) : Prop := forall A t a p b B,
  ts = A ++ (t, a ++ p :: b) :: B ->
  flat_map (fun t => flat_map (fun p => enc_rset (pp_set p)) (snd t)) A = [] -> flat_map (fun p => enc_rset (pp_set p)) a = [] ->
  enc_rset (pp_set p) <> [] -> exp_part st t p <> [].

(** how the bytes arrive: the fields of the partition headers are not split *)
Definition ppart_fields (v : Z) (p : ppart) : list nat :=
  [4; 2; 8]%nat ++
  (if v =? 0 then [] else [8; 8; 4]%nat ++
     match pp_aborted p with None => [] | Some l => flat_map (fun _ => [8; 8]%nat) l end) ++
  [4]%nat.
Fixpoint parts_unsplit (v : Z) (cs : list bytes) (pos : nat) (ps : list ppart) : Prop :=
  match ps with
  | [] => True
  | p :: ps' => fields_ok cs pos (ppart_fields v p) /\ parts_unsplit v cs (pos + length (enc_ppart v p)) ps'
  end.
Fixpoint topics_unsplit (v : Z) (cs : list bytes) (pos : nat) (ts : list topic_parts) : Prop :=
  match ts with
  | [] => True
  | t :: ts' => parts_unsplit v cs (pos + (2 + (length (fst t) + 4))) (snd t) /\ topics_unsplit v cs (pos + length (enc_tparts v t)) ts'
  end.
Definition mresp_unsplit (v : Z) (cs : list bytes) (m : mresp) : Prop :=
  topics_unsplit v cs (if v =? 0 then 8 else 18) (mr_topics m).
