(** Specification of the producers: what was accepted, what the broker received, the
    partition of a key.  Only the types of events come from the model. *)
From Verif Require Import Base Wire RequestSpec RecordSpec RequestPrep Producer.

(** messages whose AddMessage returned nil, with the buffer contents at the call *)
Definition accepted (evs : list event) : list message :=
  flat_map (fun e => match e_op e, e_ret e with OAdd _ _, None => [(e_key e, e_val e)] | _, _ => [] end) evs.
(** executed flushes *)
Definition flushes (evs : list event) : list attempt :=
  flat_map (fun e => match e_att e with Some a => [a] | None => [] end) evs.
(** messages in the requests the broker got *)
Definition reached (a : attempt) : bool := match t_wire a with Some _ => true | None => false end.
Definition received (evs : list event) : list message := flat_map t_msgs (filter reached (flushes evs)).

(** a flush that succeeds: the request reaches the broker, the answer carries no error *)
Definition succeeds (n : net) : Prop :=
  exists ver corr ts raw r, n = NSend ver corr ts true (Ok raw) /\ Responses.answer 0 ver raw = Ok r.
(** no answer without a request *)
Definition honest (n : net) : Prop :=
  match n with NSend _ _ _ got (Ok _) => got = true | _ => True end.

(** the request a broker should find on the wire for a batch of messages, version 9 *)
Definition spec_record (m : message) : srecord := mkSRec 0 0 0 (fst m) (Some (snd m)) [].
Definition spec_batch (codec ts : Z) (ms : list message) : sbatch := mkSBatch 0 (-1) codec (zlen ms - 1) ts ts (-1) 0 0.
Definition spec_request (topic : bytes) (part acks timeout : Z) (set : bytes) : den S_Produce_9 :=
  (None, (acks, (timeout, ([(topic, ([(part, (Some set, []))], []))], [])))).

(** MurmurHash2: the input as little-endian 32-bit words and a rest of up to 3 bytes,
    seed 0, arithmetic modulo 2^32 *)
Definition le_num (b : bytes) : Z := fold_right (fun x acc => x + 256 * acc) 0 b.
Definition mul32 (a b : Z) : Z := (a * b) mod 2 ^ 32.
Definition xshift (n x : Z) : Z := Z.lxor x (x / 2 ^ n).
Definition M : Z := 0x5bd1e995.
Definition murmur_spec_seed (seed : Z) (d : bytes) : Z :=
  let n := (length d / 4)%nat in
  let words := map (fun i => le_num (firstn 4 (skipn (4 * i) d))) (seq 0 n) in
  let rest := skipn (4 * n) d in
  let h1 := fold_left (fun h k => Z.lxor (mul32 h M) (mul32 (xshift 24 (mul32 k M)) M)) words (Z.lxor seed (zlen d mod 2 ^ 32)) in
  let h2 := match rest with [] => h1 | _ => mul32 (Z.lxor h1 (le_num rest)) M end in
  xshift 15 (mul32 (xshift 13 h2) M).
Definition murmur_spec : bytes -> Z := murmur_spec_seed 0.
