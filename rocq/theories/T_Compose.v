(** C141: a request that a user puts together asks for what was put in. *)
From Verif Require Import Base BaseFacts Wire WireFacts Records Requests RequestSpec RequestPrep RequestRefute Builders BuildersSpec Calls CallsSpec
  Compose ComposeSpec ComposeFacts.

(** Whatever is set and added, in whatever order and how often, at every version the client writes: if the
    values fit in the protocol's fields, a broker reads from the bytes sent the API, the version, the ids and
    exactly what was put in: the last value set of each field, every entry once. *)
Theorem C141_asked_partial : forall zip client rc v corr rest, recipe_limits rc v -> In v (recipe_versions rc) ->
  (forall x, composed rc v x -> val_wf x /\ zlen (val_bytes x) + zlen client + 15 < 2 ^ 31) ->
  i16 v -> i32 corr -> zlen client < 2 ^ 15 ->
  exists out r' x, prepare zip corr v (compose client rc) = Ok (out, r') /\ composed rc v x /\
    broker_reads (recipe_key rc) v (projT1 x) (out ++ rest) = Some (zlen out - 4, (recipe_key rc, v, corr, Some client), projT2 x, rest).
Proof. exact composed_sent. Qed.
Print Assumptions C141_asked_partial.
(** Configs "a" = 1, "b" = 2 and again "a" = 3 (refused) of topic "t", only to be validated, then not: *)
Example C141_ex_alter : exists out r',
  prepare noz 7 0 (compose [99] (RcAlterConfigs [FConfig (mkCA 2 [116] [97] [49]); FValidate true; FConfig (mkCA 4 [48] [97] [52]);
    FConfig (mkCA 2 [116] [98] [50]); FConfig (mkCA 2 [116] [97] [51]); FValidate false])) = Ok (out, r') /\
  broker_reads 33 0 S_AlterConfigs_0 out = Some (zlen out - 4, (33, 0, 7, Some [99]),
    ([(2, ([116], [([97], Some [49]); ([98], Some [50])])); (4, ([48], [([97], Some [52])]))], false), []).
Proof. eexists _, _. split; [vm_compute; reflexivity|]. vm_compute. reflexivity. Qed.
(** A commit whose member is set twice and whose partition 3 is said twice: *)
Example C141_ex_commit : exists out r',
  prepare noz 7 2 (compose [99] (RcCommit 2 [103] [MMember [109]; MPart [116] 3 10 []; MGen 5; MPart [116] 4 20 []; MMember [110]; MPart [116] 3 11 [120]])) = Ok (out, r') /\
  broker_reads 8 2 S_OffsetCommit_2 out = Some (zlen out - 4, (8, 2, 7, Some [99]),
    ([103], (5, ([110], (0, [([116], [(3, (11, Some [120])); (4, (20, Some []))])])))), []).
Proof. eexists _, _. split; [vm_compute; reflexivity|]. vm_compute. reflexivity. Qed.
(** Topics with their assignments; those that do not rise are refused: *)
Example C141_ex_topics : exists out r',
  prepare noz 7 0 (compose [99] (RcCreateTopics 1000 [CAddReplicas [116] 0 [1]; CAddTopic [116] (-1) (-1); CAddTopic [117] 3 1; CAddReplicas [116] 0 [1; 2];
    CAddReplicas [116] 1 [2; 3]; CAddReplicas [116] 1 [3; 1]; CAddTopic [116] 9 9])) = Ok (out, r') /\
  broker_reads 19 0 S_CreateTopics_0 out = Some (zlen out - 4, (19, 0, 7, Some [99]),
    ([([116], (-1, (-1, ([(0, [1; 2]); (1, [2; 3])], [])))); ([117], (3, (1, ([], []))))], 1000), []).
Proof. eexists _, _. split; [vm_compute; reflexivity|]. vm_compute. reflexivity. Qed.
Example C141_ex_groups : exists out r',
  prepare noz 7 5 (compose [99] (RcListGroups [GStates (Some [[68]]); GTypes (Some [[99]; [100]]); GStates (Some [[83]; [69]])])) = Ok (out, r') /\
  broker_reads 16 5 S_ListGroups_5 out = Some (zlen out - 4, (16, 5, 7, Some [99]), ([[83]; [69]], ([[99]; [100]], [])), []).
Proof. eexists _, _. split; [vm_compute; reflexivity|]. vm_compute. reflexivity. Qed.

(** Finding: a filter of groups that is set to nil is sent as a null array, which the protocol does not
    allow there; a broker cannot read the request. *)
Theorem C141_nil_refuted : exists out r', prepare noz 7 4 (compose [99] (RcListGroups [GStates None])) = Ok (out, r') /\
  forall x, wf S_ListGroups_4 x -> out <> frame (header_bytes true 16 4 7 (Some [99]) ++ enc S_ListGroups_4 x).
Proof.
  eexists _, _. split; [vm_compute; reflexivity|]. intros [s tg] [[Z _] _] H.
  assert (E : [0; 0] = uvarint (zlen s + 1) ++ (flat_map (enc TCStr) s ++ enc TTags tg)).
  { apply (f_equal (skipn 16)) in H. cbn [skipn] in H. change (skipn 16 (frame (header_bytes true 16 4 7 (Some [99]) ++ enc S_ListGroups_4 (s, tg))))
      with (enc S_ListGroups_4 (s, tg)) in H. cbn [enc S_ListGroups_4 fst snd] in H. rewrite <- app_assoc in H. exact H. }
  apply (f_equal dec_uv) in E. pose proof (zlen_nonneg s). change (zlen s < 2147483647) in Z. rewrite dec_uv_uvarint in E by (change (2 ^ 64) with 18446744073709551616; lia).
  change (dec_uv [0; 0]) with (Some (0, [0])) in E. injection E as E _. lia.
Qed.
Print Assumptions C141_nil_refuted.

(** Finding: a topic named twice to NewDescribeLogDirsRequest is in the request twice, with different partitions. *)
Theorem C141_twice_refuted : exists out r', prepare noz 7 0 (compose [99] (RcLogDirs [[116]; [116]] [([116], 5)])) = Ok (out, r') /\
  broker_reads 35 0 S_DescribeLogDirs_0 out = Some (zlen out - 4, (35, 0, 7, Some [99]), Some [([116], [5]); ([116], [])], []) /\
  ~ composed (RcLogDirs [[116]; [116]] [([116], 5)]) 0 (V S_DescribeLogDirs_0 (Some [([116], [5]); ([116], [])])).
Proof.
  eexists _, _. split; [vm_compute; reflexivity|]. split; [vm_compute; reflexivity|]. intros (ts & N & _ & _ & E).
  apply Eqdep_dec.inj_pair2_eq_dec in E; [|decide equality]. injection E as <-. cbn in N. inversion N as [|? ? H ?]. apply H. left. reflexivity.
Qed.
Print Assumptions C141_twice_refuted.
