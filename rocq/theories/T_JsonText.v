(** C151: what is printed is JSON, and a message is one line.  More of C150. *)
From Coq Require Import String.
From Verif Require Import Base BaseFacts Text HttpApi Responses Fetch Utf8Spec JsonSpec JsonText Shown ShownSpec ShownFacts ShownEvent JsonFacts ShownText JsonLine.

(** Whatever a response holds, the text printed for it is JSON: read by a reader of JSON it is
    the value that was to be printed, on one line and indented. *)
Theorem C151_response : forall ind r j, shown r = Some j -> read_json (write ind 0 j) = Some j.
Proof. intros ind r j H. apply write_read. exact (shown_plain r j H). Qed.
Print Assumptions C151_response.
(** Likewise messages, whatever keys, values and headers are. *)
Theorem C151_message : forall ind m, read_json (write ind 0 (shown_message m)) = Some (shown_message m).
Proof. intros ind m. apply write_read. apply message_plain. Qed.
Print Assumptions C151_message.
Theorem C151_event : forall ind e j, shown_event e = Some j -> read_json (write ind 0 j) = Some j.
Proof. intros ind e j H. apply write_read. exact (event_plain e j H). Qed.
Print Assumptions C151_event.

(** The consumers print one line for a message, whatever is in it: the text has no control
    characters, so no line ends. *)
Theorem C151_one_line : forall e j, shown_event e = Some j \/ (exists m, j = shown_message m) ->
  Forall (fun c => 32 <= c < 256) (write false 0 j).
Proof.
  intros e j [H|(m & ->)]; apply write_printing; [exact (event_plain e j H)|apply message_plain].
Qed.
Print Assumptions C151_one_line.
(** Two messages printed with the same text are the same (keys of headers that are texts). *)
Theorem C151_message_text : forall ind m m', message_readable m -> message_readable m' ->
  write ind 0 (shown_message m) = write ind 0 (shown_message m') -> m = m'.
Proof.
  intros ind m m' R R' H. apply message_seen; [exact R|exact R'|].
  pose proof (C151_message ind m) as A. pose proof (C151_message ind m') as B. rewrite H in A. congruence.
Qed.
Print Assumptions C151_message_text.

(** C150 for the texts themselves. *)
Theorem C150_same_text_partial : forall ind r r' j j', alike r r' -> readable r -> readable r' ->
  shown r = Some j -> shown r' = Some j' -> write ind 0 j = write ind 0 j' -> seen r = seen r'.
Proof.
  intros ind r r' j j' K R R' H H' E. apply (shown_seen r r' K R R').
  pose proof (C151_response ind r j H) as A. pose proof (C151_response ind r' j' H') as B. rewrite E in A. congruence.
Qed.
Print Assumptions C150_same_text_partial.
(** What group-consumer and console-consumer print for messages and for errors that are codes of
    the protocol determines them. *)
Theorem C150_event_partial : forall e e', event_readable e -> event_readable e' -> shown_event e = shown_event e' -> e = e'.
Proof. exact event_seen. Qed.
Print Assumptions C150_event_partial.
Example C150_ex_event : let m := mkMsg 3 2 0 9 (Some [1]) None [] in
  event_readable (EvMsg [116] 4 m) /\
  option_map (write false 0) (shown_event (EvMsg [116] 4 m)) =
    Some (List.concat [lit "{"; quote (lit "TopicName"); lit ":"; quote [116]; lit ","; quote (lit "PartitionID"); lit ":4,";
                       quote (lit "Error"); lit ":null,"; quote (lit "Message"); lit ":"; write false 0 (shown_message m); lit "}"]).
Proof.
  split; [|reflexivity]. cbn [event_readable]. split; [exists [116]; split; [repeat constructor; lia|reflexivity]|].
  repeat split; cbn [m_key m_value m_headers m_magic]; try discriminate; try lia; [|constructor].
  intros k E. injection E as <-. repeat constructor; lia.
Qed.
(** Errors are lost by group-consumer and console-consumer: all that are not codes of the
    protocol or of the network are printed alike. *)
Theorem C150_errors_refuted : forall e e', (forall c, e <> EKafka c) -> (forall c, e' <> EKafka c) ->
  shown_event (EvErr e) <> None -> shown_event (EvErr e') <> None -> shown_event (EvErr e) = shown_event (EvErr e').
Proof.
  intros e e' A B C D.
  assert (X : forall x, (forall c, x <> EKafka c) -> shown_event (EvErr x) <> None ->
    shown_event (EvErr x) = Some (jobj [("TopicName"%string, jstr []); ("PartitionID"%string, JInt (-1)); ("Error"%string, JObj []); ("Message"%string, JNull)])).
  { intros x N S. destruct x; try reflexivity; try (now destruct S). now destruct (N code). }
  now rewrite (X e A C), (X e' B D).
Qed.
Print Assumptions C150_errors_refuted.
Example C150_ex_errors : let text e := match shown_event (EvErr e) with Some j => write false 0 j | None => [] end in
  text EShort = text EMaxBytesTooSmall /\
  text EShort = List.concat [lit "{"; quote (lit "TopicName"); lit ":"; quote []; lit ","; quote (lit "PartitionID"); lit ":-1,";
                        quote (lit "Error"); lit ":{},"; quote (lit "Message"); lit ":null}"] /\
  text EShort <> text (EKafka 1).
Proof. split; [reflexivity|]. split; [reflexivity|discriminate]. Qed.
(** a message with a line end, quotes and markup in the key of a header *)
Example C151_ex :
  let m := mkMsg (-7) 2 0 1234567890123 None (Some [10; 0; 255]) [([10; 34; 60; 226; 128; 168; 195; 169], [])] in
  write false 0 (shown_message m) = List.concat [lit "{"; quote (lit "Offset"); lit ":-7,"; quote (lit "MagicByte"); lit ":2,";
    quote (lit "Attributes"); lit ":0,"; quote (lit "Timestamp"); lit ":1234567890123,"; quote (lit "Key"); lit ":null,";
    quote (lit "Value"); lit ":"; [34]; lit "CgD/"; [34]; lit ","; quote (lit "Headers"); lit ":[{"; quote (lit "Key"); lit ":";
    [34]; [92]; lit "n"; [92; 34; 92]; lit "u003c"; [92]; lit "u2028"; [195; 169]; [34]; lit ","; quote (lit "Value"); lit ":"; [34; 34]; lit "}]}"] /\
  write true 0 (JArr [JInt 10; JObj [([97], JNull)]; JArr []]) =
    List.concat [lit "["; [10]; lit "  10,"; [10]; lit "  {"; [10]; lit "    "; quote [97]; lit ": null"; [10]; lit "  },"; [10]; lit "  []"; [10]; lit "]"] /\
  read_json (write true 0 (shown_message m)) = Some (shown_message m).
Proof. repeat split; vm_compute; reflexivity. Qed.
(** the reader refuses what is no JSON *)
Example C151_ex_reader : read_json (lit "[1,2") = None /\ read_json (lit "[1,]") = None /\ read_json (lit "nul") = None /\
  read_json (lit "1 2") = None /\ read_json [34; 10; 34] = None /\ read_json [34; 92; 120; 34] = None /\
  read_json (lit " [ 1 , -2 ] ") = Some (JArr [JInt 1; JInt (-2)]).
Proof. repeat split. Qed.

(** The maps from brokers that list-groups and describe-logdirs print: nothing is lost, whatever
    the order in which the map is walked through, and they are JSON. *)
Theorem C150_nodes_partial : forall l l', by_node l = by_node l' -> Permutation l l'.
Proof. exact by_node_inj. Qed.
Print Assumptions C150_nodes_partial.
Theorem C151_nodes : forall ind (l : list (Z * response)) js,
  Forall2 (fun p q => fst p = fst q /\ shown (snd p) = Some (snd q)) l js -> read_json (write ind 0 (by_node js)) = Some (by_node js).
Proof.
  intros ind l js H. apply write_read. apply by_node_plain.
  induction H as [|p q l js [_ S] H IH]; [constructor|]. constructor; [exact (shown_plain _ _ S)|exact IH].
Qed.
Print Assumptions C151_nodes.
Example C151_ex_nodes : write false 0 (by_node [(2, JNull); (10, JBool true); (1, JArr [])]) =
  List.concat [lit "{"; quote [49]; lit ":[],"; quote [49; 48]; lit ":true,"; quote [50]; lit ":null}"].
Proof. reflexivity. Qed.
