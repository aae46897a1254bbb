(** C150: what the commands print is what the broker said. *)
From Coq Require Import String Ascii.
From Verif Require Import Base BaseFacts Prims Group Acl Responses Http HttpSpec HttpFacts HttpApi Fetch Utf8Spec Shown ShownSpec ShownFacts.

(** Two readable answers to a request that are printed alike are the same, but for what is left
    out: the tagged fields of the header before those of ACL responses, the correlation id of
    log directories, all but the groups of the responses about groups, and the raw assignment. *)
Theorem C150_printed_partial : forall r r', alike r r' -> readable r -> readable r' ->
  shown r = shown r' -> seen r = seen r'.
Proof. exact shown_seen. Qed.
Print Assumptions C150_printed_partial.
(** The same for a message printed by simple-consumer. *)
Theorem C150_message_partial : forall m m', message_readable m -> message_readable m' ->
  shown_message m = shown_message m' -> m = m'.
Proof. exact message_seen. Qed.
Print Assumptions C150_message_partial.
(** Every printed string is a text, whatever the bytes; a text is printed as it is. *)
Theorem C150_text_partial : forall s, exists t, jstr s = JStr t /\ text t /\ (text s -> t = s).
Proof.
  intros s. exists (legible_go (List.length s) s). split; [reflexivity|]. split; [apply legible_is_text|apply legible_text].
Qed.
Print Assumptions C150_text_partial.
Theorem text_lit : forall s, Forall (fun b => 0 <= b < 128) s -> text s.
Proof.
  intros s F. exists s. split.
  - eapply Forall_impl; [|exact F]. unfold scalar. lia.
  - induction F as [|b s B F IH]; [reflexivity|]. cbn [flat_map]. rewrite <- IH. unfold rune. now replace (b <? 128) with true by lia.
Qed.
Local Ltac lits := first [apply text_lit; repeat constructor; lia | repeat constructor; lia].
(** a group with a member, printed in full *)
Example C150_ex :
  let ma := mkMA 1 [([116], [0; 1])] [7] in
  let r := RDescribeGroups 5 [(0, ([103], ([115], ([99], ([114], [([109], ([99], ([104], ([], ([1; 2], Some ma)))))])))))] in
  readable r /\
  shown r = Some (JArr [jobj [("ErrorCode"%string, JInt 0); ("GroupID"%string, JStr [103]); ("State"%string, JStr [115]);
    ("ProtocolType"%string, JStr [99]); ("Protocol"%string, JStr [114]);
    ("Members"%string, JArr [jobj [("MemberID"%string, JStr [109]); ("ClientID"%string, JStr [99]); ("ClientHost"%string, JStr [104]);
       ("MemberMetadata"%string, JNull);
       ("MemberAssignment"%string, jobj [("Version"%string, JInt 1);
          ("PartitionAssignments"%string, JArr [jobj [("Topic"%string, JStr [116]); ("Partitions"%string, JArr [JInt 0; JInt 1])]]);
          ("UserData"%string, JStr (lit "Bw=="))])]])]]).
Proof.
  split; [|reflexivity]. cbn [readable]. constructor; [|constructor]. repeat (split; [lits|]).
  constructor; [|constructor]. cbn [member_ok]. repeat (split; [lits|]). intros x E. injection E as <-. split; cbn [ma_parts ma_user]; repeat constructor; cbn [fst]; try lits.
Qed.
Example C150_ex_acl :
  let r := RDescribeAcls 1 0 0 None (Some [(2, ([116], (3, ([([117], ([42], (3, (2, []))))], []))))]) [] in
  readable r /\
  shown r = Some (jobj [("CorrelationID"%string, JInt 1); ("ThrottleTimeMs"%string, JInt 0); ("ErrorCode"%string, JInt 0);
    ("ErrorMessage"%string, JNull);
    ("Resources"%string, JArr [jobj [("ResourceType"%string, JStr (lit "TOPIC")); ("ResourceName"%string, JStr [116]);
       ("PatternType"%string, JStr (lit "LITERAL"));
       ("Acls"%string, JArr [jobj [("Principal"%string, JStr [117]); ("Host"%string, JStr [42]); ("Operation"%string, JStr (lit "READ"));
          ("PermissionType"%string, JStr (lit "DENY")); ("TaggedFields"%string, JArr [])]]);
       ("TaggedFields"%string, JArr [])]]);
    ("TaggedFields"%string, JArr [])]).
Proof.
  split; [|reflexivity]. cbn [readable]. split; [discriminate|]. split; [|constructor].
  intros l E. injection E as <-. constructor; [|constructor].
  repeat (split; [first [lia|lits]|]). split; [|constructor].
  constructor; [|constructor]. repeat (split; [first [lia|lits]|]). constructor.
Qed.
Example C150_ex_text : jstr [104; 195; 169; 226; 130; 172; 240; 159; 152; 128] = JStr [104; 195; 169; 226; 130; 172; 240; 159; 152; 128]
  /\ jstr [65; 195; 40; 237; 160; 128] = JStr [65; 239; 191; 189; 40; 239; 191; 189; 239; 191; 189; 239; 191; 189].
Proof. split; reflexivity. Qed.
Example C150_ex_message : shown_message (mkMsg 7 2 0 99 None (Some [104; 105]) [([107], [0; 255])]) =
  jobj [("Offset"%string, JInt 7); ("MagicByte"%string, JInt 2); ("Attributes"%string, JInt 0); ("Timestamp"%string, JInt 99);
        ("Key"%string, JNull); ("Value"%string, JStr (lit "aGk="));
        ("Headers"%string, JArr [jobj [("Key"%string, JStr [107]); ("Value"%string, JStr (lit "AP8="))]])].
Proof. reflexivity. Qed.

(** Without these guards it is false.  Names that are no texts: different log directories are
    printed alike, and a topic cannot be told from another. *)
Theorem C150_bytes_refuted : exists r r', alike r r' /\ shown r = shown r' /\ seen r <> seen r'.
Proof.
  exists (RDescribeLogDirs 0 0 [(0, ([47; 255], []))]), (RDescribeLogDirs 0 0 [(0, ([47; 254], []))]).
  split; [exact Logic.I|]. split; [reflexivity|discriminate].
Qed.
Print Assumptions C150_bytes_refuted.
(** ACLs: what is allowed by an operation or a permission this client does not know is printed
    like any other it does not know. *)
Theorem C150_unknown_refuted : forall op op' pe,
  (op < 0 \/ 12 < op) -> (op' < 0 \/ 12 < op') -> (pe < 0 \/ 3 < pe) ->
  let acl o p := RDescribeAcls 0 0 0 None (Some [(2, ([116], (3, ([([117], ([42], (o, (p, []))))], []))))]) [] in
  shown (acl op pe) = shown (acl op' 0).
Proof.
  intros op op' pe A B C acl.
  assert (E : op_string op = "ERROR"%string /\ op_string op' = "ERROR"%string /\ perm_string pe = "UNKNOWN"%string).
  { unfold op_string, perm_string, vswitch. cbn [find fst snd].
    repeat split;
    repeat match goal with |- context [?a =? ?b] => replace (a =? b) with false by lia end; reflexivity. }
  destruct E as (E1 & E2 & E3). unfold acl, shown, jenum. unfold joarr, jarr. cbn [map]. rewrite E1, E2, E3. reflexivity.
Qed.
Print Assumptions C150_unknown_refuted.
(** What is left out is left out: every part that [seen] drops can differ without a trace. *)
Theorem C150_hidden_refuted :
  (forall corr h h' l t, shown (RCreateAcls corr h l t) = shown (RCreateAcls corr h' l t)) /\
  (forall corr h h' th l t, shown (RDeleteAcls corr h th l t) = shown (RDeleteAcls corr h' th l t)) /\
  (forall corr corr' th l, shown (RDescribeLogDirs corr th l) = shown (RDescribeLogDirs corr' th l)) /\
  (forall corr corr' h h' th th' ec ec' gs t t', shown (RListGroups corr h th ec gs t) = shown (RListGroups corr' h' th' ec' gs t')) /\
  (forall corr corr' ec id st pt pr m cl ho md raw raw' a,
     shown (RDescribeGroups corr [(ec, (id, (st, (pt, (pr, [(m, (cl, (ho, (md, (raw, a)))))])))))]) =
     shown (RDescribeGroups corr' [(ec, (id, (st, (pt, (pr, [(m, (cl, (ho, (md, (raw', a)))))])))))])).
Proof. repeat split. Qed.
Print Assumptions C150_hidden_refuted.
