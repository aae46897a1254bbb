(** C100, C101: one round of a group. *)
From Verif Require Import Base BaseFacts Wire Group Assign Requests RequestSpec Responses ResponseSpec ResponseFacts Consumer Gcons Lead RoundSpec RoundFacts.

(** *** C100 *)
(** A coordinator that follows the protocol ([RoundSpec]): it keeps the metadata of every
    join request, tells the leader all of them, and gives each member the entry that the
    leader's sync request has for it.  Every member then runs its part of the code, one of
    them as the leader; the metadata of the topics come after some failures.  However the
    maps are ordered: between them the members start a consumer for every partition, and
    only one; each only for its own topic; and two members of the same topic differ by one
    partition at most. *)
Theorem C100_round : forall zip client group session corr gen leader ms tops,
  round_ok client group session corr gen leader ms tops ->
  forall ordS ordT ordI ordM,
  (forall l, Permutation (ordS l) l) -> (forall l, Permutation (ordT l) l) -> (forall l, Permutation (ordI l) l) -> (forall l, Permutation (ordM l) l) ->
  forall answers, told_metadata ms tops answers ->
  forall n, (length (partitions tops) <= n)%nat ->
  exists gs, round zip ordS ordT ordI ordM client group session corr gen leader answers n ms = Ok gs /\
    Permutation (flat_map snd gs) (partitions tops) /\
    Forall2 (fun m g => fst g = fst m /\ Forall (fun p => fst p = snd m) (snd g)) ms gs /\
    forall k1 k2 m1 m2 g1 g2, nth_error ms k1 = Some m1 -> nth_error gs k1 = Some g1 -> nth_error ms k2 = Some m2 -> nth_error gs k2 = Some g2 ->
      snd m1 = snd m2 -> zlen (snd g1) <= zlen (snd g2) + 1.
Proof. exact round_correct. Qed.
Print Assumptions C100_round.
(** The members b, a and c want x, y and x; x has the partitions 2, 0, 1. *)
Definition ex_part (i : Z) : nopart := (0, (i, (1, (0, ([], ([], [])))))).
Definition ex_tops : list (Z * (bytes * (bool * list nopart))) :=
  [(0, ([121], (false, [ex_part 0]))); (0, ([120], (false, [ex_part 2; ex_part 0; ex_part 1])))].
Definition ex_ms : list (bytes * bytes) := [([98], [120]); ([97], [121]); ([99], [120])].
Example C100_ex :
  round (fun _ b => Ok b) (@rev _) (fun x => x) (fun x => x) (@rev _) [99] [103] 10000 7 3 [97]
        (fun _ => [Some ([], Some ETimeout); Some (ex_tops, None)]) 3 ex_ms
  = Ok [([98], [([120], 0); ([120], 1)]); ([97], [([121], 0)]); ([99], [([120], 2)])] /\
  partitions ex_tops = [([121], 0); ([120], 2); ([120], 0); ([120], 1)].
Proof. split; vm_compute; reflexivity. Qed.
(** the conditions of the theorem hold of it *)
Example C100_ok : round_ok [99] [103] 10000 7 3 [97] ex_ms ex_tops.
Proof.
  assert (P31 : 2 ^ 31 = 2147483648) by reflexivity. split; try (unfold i32; lia); try lia; try reflexivity.
  - cbn. auto.
  - split; [|repeat constructor; cbn; lia]. repeat constructor; cbn; intuition discriminate.
  - cbn. lia.
  - split; [|intros x; cbn; intuition]. repeat constructor; cbn; intuition discriminate.
  - split; [repeat (constructor; [unfold i32; cbn; lia|]); constructor|cbn; lia].
Qed.

(** *** C101 *)
(** The leader asks for the metadata of all topics at once, until the answer has no error. *)
Theorem C101_waits : forall ordS ordT ordI ordM ms ts, topics_of ms [] = Ok ts ->
  forall answers, Forall (fun a => exists m e, a = Some (m, Some e)) (answers (ordS ts)) -> lead ordS ordT ordI ordM ms answers = Ok None.
Proof. exact lead_waits. Qed.
Print Assumptions C101_waits.
(** "A member that asks for a topic that does not exist does not keep the others from
    their partitions": refuted.  Member a, the leader, wants x, which has a partition; b
    wants z, which does not exist.  A broker's answer says so for z and gives x; it is
    returned as an error, so that however often the leader asks, no assignment comes. *)
Theorem C101_unknown_refuted : exists md_a md_b body,
  pm_encode (mkPM 0 [[120]] None) = Ok md_a /\ pm_encode (mkPM 0 [[122]] None) = Ok md_b /\
  body = enc R_Metadata_1 ([(1, ([104], (9092, None)))], (1, [(0, ([120], (false, [(0, (0, (1, ([1], [1]))))]))); (3, ([122], (false, [])))])) /\
  answer 3 1 (response_bytes 3 1 7 [] body) = Err (EWrap (EKafka 3)) /\
  forall ordS ordT ordI ordM tops n,
    lead ordS ordT ordI ordM [([97], md_a); ([98], md_b)] (fun _ => repeat (Some (tops, Some (EWrap (EKafka 3)))) n) = Ok None.
Proof.
  do 3 eexists. split; [vm_compute; reflexivity|]. split; [vm_compute; reflexivity|]. split; [reflexivity|]. split; [vm_compute; reflexivity|].
  intros. apply (lead_waits _ _ _ _ _ [[120]; [122]]); [vm_compute; reflexivity|].
  apply Forall_forall. intros a Ha. apply repeat_spec in Ha. eauto.
Qed.
Print Assumptions C101_unknown_refuted.
