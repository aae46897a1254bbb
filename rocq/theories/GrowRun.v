(** The fetch loop of a partition consumer against a broker whose log starts with a batch
    larger than the fetch size. *)
From Verif Require Import Base BaseFacts Wire RecordSpec Records Responses Fetch FetchSpec RecordFacts FetchFacts DeliverFacts FetchGrow Consumer.

Section Drive.
  Variable unzip zip : Z -> bytes -> res bytes.
  Variable c : ccfg.
  Variable answers : nat -> res response * list (option leaderTry).

  (** [n] rounds of the loop: a fetch, which the broker answers from its log with as many
      bytes as the request allows, and the consumer's first step on the answer.  What else
      the environment would answer in that step is arbitrary ([answers]). *)
  Fixpoint drive (n : nat) (v : Z) (p : presp) (log : bytes) (s : cst) : res (cst * list tev) :=
    match n with
    | O => Ok (s, [])
    | S k =>
        rbind (fetch_round unzip zip v (c_off s) p log (c_max s)) (fun a =>
        rbind (crun c s [OFetch (Ok (fst a)); ONext (fst (answers k)) (snd (answers k))]) (fun r1 =>
        rbind (drive k v p log (fst r1)) (fun r2 => Ok (fst r2, snd r1 ++ snd r2))))
    end.

  Lemma drive_delivers_from v st from p w ws r rs :
    (v = 0 \/ v = 7 \/ v = 10) -> wf_resp p -> Forall (plain unzip) (w :: ws) ->
    wb_recs w = r :: rs -> st <= sb_base (wb_h w) + sr_od r -> need w r <= 2 ^ 30 ->
    forall N max, 0 < max < 2 ^ 31 -> need w r <= max * 2 ^ Z.of_nat N ->
    exists n s', drive (S n) v p (flat_map enc_wb (w :: ws)) (cinit st from max)
      = Ok (s', map (fun k => TFetch st (max * 2 ^ Z.of_nat k)) (seq 0 (S n)) ++ [TMsg (pr_topic p) (pr_pid p) (exp_msg (wb_h w) r)]).
  Proof.
    intros Hv Hp Hpl Hr Hst Hn. induction N as [|N IH]; intros max Hm HN.
    - change (2 ^ Z.of_nat 0) with 1 in HN. rewrite Z.mul_1_r in HN.
      destruct (round_large unzip zip v st p w ws r rs max Hv Hp Hpl Hr Hst Hm HN) as [evs [s' E]].
      exists O. eexists. cbn [drive]. change (c_off (cinit st from max)) with st. change (c_max (cinit st from max)) with max.
      rewrite E. cbn. change (2 ^ 0) with 1. rewrite Z.mul_1_r. reflexivity.
    - destruct (Z.le_gt_cases (need w r) max) as [H|H].
      + destruct (round_large unzip zip v st p w ws r rs max Hv Hp Hpl Hr Hst Hm H) as [evs [s' E]].
        exists O. eexists. cbn [drive]. change (c_off (cinit st from max)) with st. change (c_max (cinit st from max)) with max.
        rewrite E. cbn. change (2 ^ 0) with 1. rewrite Z.mul_1_r. reflexivity.
      + assert (P : 2 ^ 31 = 2 * 2 ^ 30) by reflexivity.
        rewrite Nat2Z.inj_succ, Z.pow_succ_r in HN by lia.
        destruct (IH (2 * max) ltac:(lia) ltac:(nia)) as [n [s' E]].
        destruct (round_small unzip zip v st p w ws r rs max Hv Hp Hpl Hr Hm H) as [d E1].
        exists (S n), s'. remember (S n) as n1. cbn [drive]. change (c_off (cinit st from max)) with st. change (c_max (cinit st from max)) with max.
        rewrite E1. cbn [rbind fst snd crun cstep cinit c_live c_pend c_stop c_adv onError set_pend set_max err_root].
        cbn [rbind fst snd crun cstep cinit c_live c_pend c_stop c_adv onError set_pend set_max err_root c_off c_from c_max c_com c_cancel c_fly].
        rewrite sint_id by (try lia; change (2 ^ (32 - 1)) with (2 ^ 31); lia).
        match goal with |- context[drive n1 v p _ ?x] => change x with (cinit st from (2 * max)) end.
        rewrite E. cbn [rbind fst snd app]. subst n1. f_equal. f_equal.
        change (seq 0 (S (S n))) with (O :: seq 1 (S n)). cbn [map app]. change (2 ^ Z.of_nat 0) with 1. rewrite Z.mul_1_r.
        f_equal. f_equal. rewrite <- (seq_shift (S n) 0), map_map. apply map_ext. intros k. rewrite Nat2Z.inj_succ, Z.pow_succ_r by lia. f_equal. ring.
  Qed.
  Theorem drive_delivers v st from p w ws r rs max :
    (v = 0 \/ v = 7 \/ v = 10) -> wf_resp p -> Forall (plain unzip) (w :: ws) ->
    wb_recs w = r :: rs -> st <= sb_base (wb_h w) + sr_od r -> 0 < max < 2 ^ 31 -> 61 + zlen (enc_srecord r) <= 2 ^ 30 ->
    exists n s', drive (S n) v p (flat_map enc_wb (w :: ws)) (cinit st from max)
      = Ok (s', map (fun k => TFetch st (max * 2 ^ Z.of_nat k)) (seq 0 (S n)) ++ [TMsg (pr_topic p) (pr_pid p) (exp_msg (wb_h w) r)]).
  Proof.
    intros Hv Hp Hpl Hr Hst Hm Hn. eapply (drive_delivers_from v st from p w ws r rs Hv Hp Hpl Hr Hst Hn 30 max Hm).
    change (2 ^ Z.of_nat 30) with (2 ^ 30). assert (need w r <= 2 ^ 30) by exact Hn. nia.
  Qed.
End Drive.
