(** C156: how large the requests of a producer get. *)
From Verif Require Import Base Prims Records Requests Responses Producer ProducerSpec ProducerFacts ProducerRefute BulkSpec BulkFacts.

(** *** C156 *)
(** C156 is false: batch.size (config.go:198, 236) is read by nothing.  However large the bytes
    may be, two messages, each of just that size, are put into one request; *)
Theorem C156_any_size_refuted : forall n, 0 <= n -> exists st evs a corr ts out,
  srun zx (gx 2) ([repeat 0 (Z.to_nat n)], sp0) [(OAdd None (Some 0%nat), good); (OAdd None (Some 0%nat), good)] = Ok (st, evs) /\
  flushes evs = [a] /\ map msg_size (t_msgs a) = [n; n] /\ t_wire a = Some (9, corr, ts, out) /\ 2 * n < zlen out.
Proof. exact any_size. Qed.
Print Assumptions C156_any_size_refuted.
(** in every run, a request without compression has at least the bytes of its messages, *)
Theorem C156_sum_refuted : forall zip g st0 ops st evs a corr ts out, srun zip g st0 ops = Ok (st, evs) -> In a (flushes evs) ->
  t_wire a = Some (9, corr, ts, out) -> Z.land (g_codec g) 3 = 0 -> 61 + total (t_msgs a) <= zlen out.
Proof. exact wire_size. Qed.
Print Assumptions C156_sum_refuted.
(** and AddMessage sends a batch when there are as many messages as configured, whatever their
    sizes are. *)
Theorem C156_count_only : forall zip g h n k v s s' e a, sadd zip g h n k v s = Ok (s', e, a) -> s_closed s = false ->
  (a <> None <-> g_max g <= zlen (s_recs s) + 1).
Proof. exact count_only. Qed.
Print Assumptions C156_count_only.
Example C156_ex : exists st evs, let h := [repeat 1 200; repeat 2 300; [3]] in
  srun zx (gx 3) (h, sp0) [(OAdd (Some 2%nat) (Some 0%nat), good); (OAdd None (Some 1%nat), good); (OAdd None (Some 2%nat), good)] = Ok (st, evs) /\
  map (fun a => (map msg_size (t_msgs a), total (t_msgs a), option_map (fun w => zlen (snd w)) (t_wire a))) (flushes evs) = [([201; 300; 1], 502, Some 624)].
Proof. do 2 eexists. split; [vm_compute; reflexivity|]. vm_compute. reflexivity. Qed.
