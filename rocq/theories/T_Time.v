(** C159: the time of a message. *)
From Verif Require Import Base BaseFacts RecordSpec Records RecordFacts Fetch FetchSpec FetchFacts DeliverFacts T_Records TimeSpec.

(** *** C159 *)
(** The times handed out, for every batch: those of the records, whatever the type of the
    timestamps. *)
Lemma delivered_times unzip zip b out v p start chunks rest fin :
  (v = 0 \/ v = 7 \/ v = 10) ->
  Z.land (rb_attr b) 7 <= 3 -> (forall x c, Z.land (rb_attr b) 7 <> 0 -> zip (Z.land (rb_attr b) 7) x = Ok c -> unzip (Z.land (rb_attr b) 7) c = Ok x) ->
  rb_magic b = 2 -> wf_sbatch (sb_of b) -> rb_records b <> [] -> zlen (rb_records b) < 2 ^ 31 ->
  Forall (fun r => key_ok r /\ wf_record r /\ i64 (rb_base b + r_od r) /\ start <= rb_base b + r_od r) (rb_records b) ->
  batch_encode zip b = Ok out -> zlen out < 2 ^ 31 ->
  wf_presp p -> pr_records p = out ->
  concat chunks = enc_presp v p ++ rest ->
  fields_ok chunks (length (enc_presp_head v p)) (part_fields v p) ->
  Forall (fun r => 0 <= rb_bts b + r_ts r) (rb_records b) ->
  Forall (fun r => rb_bts b + r_ts r < 2 ^ 63) (rb_records b) ->
  exists evs s', streamDecode unzip zip v start (zlen (enc_presp v p)) (mkStream chunks fin) = Ok (evs, s') /\
  map ev_time evs = map (fun r => Some (rb_bts b + r_ts r)) (rb_records b).
Proof.
  intros Hv Ha Hz Hm Hw Hr Hl Hf He Ho Hp Hpr Hc Hfo T0 T1.
  destruct (records_delivered unzip zip b out v p start chunks rest fin Hv Ha Hz Hm Hw Hr Hl Hf He Ho Hp Hpr Hc Hfo) as (s' & E & _).
  do 2 eexists. split; [exact E|]. rewrite map_map. apply map_ext_in. intros r Hi. cbn [ev_time m_ts].
  rewrite Forall_forall in T0, T1. specialize (T0 r Hi). specialize (T1 r Hi). cbv beta in T0, T1. f_equal. rewrite Z.add_comm. apply Z.mod_small.
  change (2 ^ 64) with (2 * 2 ^ 63). lia.
Qed.
(** C159 is false of topics whose broker sets the time: a message is handed out with the time of
    its batch only if this is what its producer wrote. *)
Theorem C159_append_time_refuted : forall unzip zip b out v p start chunks rest fin,
  append_time b = true ->
  (v = 0 \/ v = 7 \/ v = 10) ->
  Z.land (rb_attr b) 7 <= 3 -> (forall x c, Z.land (rb_attr b) 7 <> 0 -> zip (Z.land (rb_attr b) 7) x = Ok c -> unzip (Z.land (rb_attr b) 7) c = Ok x) ->
  rb_magic b = 2 -> wf_sbatch (sb_of b) -> rb_records b <> [] -> zlen (rb_records b) < 2 ^ 31 ->
  Forall (fun r => key_ok r /\ wf_record r /\ i64 (rb_base b + r_od r) /\ start <= rb_base b + r_od r) (rb_records b) ->
  batch_encode zip b = Ok out -> zlen out < 2 ^ 31 ->
  wf_presp p -> pr_records p = out ->
  concat chunks = enc_presp v p ++ rest ->
  fields_ok chunks (length (enc_presp_head v p)) (part_fields v p) ->
  Forall (fun r => 0 <= rb_bts b + r_ts r) (rb_records b) ->
  Forall (fun r => rb_bts b + r_ts r < 2 ^ 63) (rb_records b) ->
  exists evs s', streamDecode unzip zip v start (zlen (enc_presp v p)) (mkStream chunks fin) = Ok (evs, s') /\
  Forall2 (fun r e => ev_time e = Some (spec_time b r) <-> rb_bts b + r_ts r = rb_mts b) (rb_records b) evs.
Proof.
  intros unzip zip b out v p start chunks rest fin Hb Hv Ha Hz Hm Hw Hr Hl Hf He Ho Hp Hpr Hc Hfo T0 T1.
  destruct (delivered_times unzip zip b out v p start chunks rest fin Hv Ha Hz Hm Hw Hr Hl Hf He Ho Hp Hpr Hc Hfo T0 T1) as (evs & s' & E & M).
  exists evs, s'. split; [exact E|]. unfold spec_time. rewrite Hb. clear - M. revert evs M.
  induction (rb_records b) as [|r rs IH]; intros [|e evs] M; try discriminate; [constructor|].
  cbn [map] in M. pose proof (f_equal (hd None) M) as M1. pose proof (f_equal (@tl _) M) as M2. cbn [hd tl] in M1, M2.
  constructor; [|exact (IH _ M2)]. rewrite M1. split; intros H; [congruence|]. rewrite H. reflexivity.
Qed.
Print Assumptions C159_append_time_refuted.
(** What holds: if producers set the time, it is handed out. *)
Theorem C159_create_time_partial : forall unzip zip b out v p start chunks rest fin,
  append_time b = false ->
  (v = 0 \/ v = 7 \/ v = 10) ->
  Z.land (rb_attr b) 7 <= 3 -> (forall x c, Z.land (rb_attr b) 7 <> 0 -> zip (Z.land (rb_attr b) 7) x = Ok c -> unzip (Z.land (rb_attr b) 7) c = Ok x) ->
  rb_magic b = 2 -> wf_sbatch (sb_of b) -> rb_records b <> [] -> zlen (rb_records b) < 2 ^ 31 ->
  Forall (fun r => key_ok r /\ wf_record r /\ i64 (rb_base b + r_od r) /\ start <= rb_base b + r_od r) (rb_records b) ->
  batch_encode zip b = Ok out -> zlen out < 2 ^ 31 ->
  wf_presp p -> pr_records p = out ->
  concat chunks = enc_presp v p ++ rest ->
  fields_ok chunks (length (enc_presp_head v p)) (part_fields v p) ->
  Forall (fun r => 0 <= rb_bts b + r_ts r) (rb_records b) ->
  Forall (fun r => rb_bts b + r_ts r < 2 ^ 63) (rb_records b) ->
  exists evs s', streamDecode unzip zip v start (zlen (enc_presp v p)) (mkStream chunks fin) = Ok (evs, s') /\
  map ev_time evs = map (fun r => Some (spec_time b r)) (rb_records b).
Proof.
  intros unzip zip b out v p start chunks rest fin Hb Hv Ha Hz Hm Hw Hr Hl Hf He Ho Hp Hpr Hc Hfo T0 T1. unfold spec_time. rewrite Hb.
  exact (delivered_times unzip zip b out v p start chunks rest fin Hv Ha Hz Hm Hw Hr Hl Hf He Ho Hp Hpr Hc Hfo T0 T1).
Qed.
Print Assumptions C159_create_time_partial.
(** Two records written at 1005 and 1006, appended at 2000. *)
Definition time_batch (attr : Z) : RecordBatch :=
  mkRB 7 0 2 attr 1 1000 2000 (-1) 0 0 [mkRec 0 5 0 (Some [107]) (Some [118]) []; mkRec 0 6 1 None (Some [120]) []].
Example C159_ex : map (spec_time (time_batch 8)) (rb_records (time_batch 8)) = [2000; 2000] /\
  map (spec_time (time_batch 0)) (rb_records (time_batch 0)) = [1005; 1006] /\
  forall attr, attr = 0 \/ attr = 8 -> exists out, batch_encode nozip (time_batch attr) = Ok out /\
  exists evs s', streamDecode nozip nozip 10 0 (zlen (enc_presp 10 (ex_presp out))) (mkStream [enc_presp 10 (ex_presp out)] EEOF) = Ok (evs, s') /\
  map ev_time evs = [Some 1005; Some 1006].
Proof.
  split; [reflexivity|]. split; [reflexivity|].
  intros attr [-> | ->]; (eexists; split; [vm_compute; reflexivity|]; do 2 eexists; split; [vm_compute; reflexivity|reflexivity]).
Qed.
