(** Properties of the flags of the command line program (C125, C126) and of get-metadata (C127). *)
From Coq Require Import String Ascii.
From Verif Require Import Base Text Flags FlagsSpec FlagsFacts.
From Verif Require Tools.
Local Open Scope string_scope.
Notation lines := (map word).

(** ** C125: flags mean what the user said *)

(** For every command and every list of its flags, in any order and number and any of the ways of
    writing them - except a bool with its value as the next argument, and numbers with leading
    zeros - the command runs, and every flag has the last value given, lists all the values
    given, and the default if none was given. *)
Theorem C125_flags_partial : forall klog c l, In c commands -> given c l -> no_help l -> complete c l ->
  exists st, healer klog (word (cm_name c) :: flat_map render l) = Runs c st [] /\
    forall f, In f (all_flags c) -> get_flag st (fl_name f, fl_type f) = Some (final f (values f l)).
Proof. exact runs. Qed.
Print Assumptions C125_flags_partial.

(** reset-offset -t=topic --partitions 3,4 -ggroup --timestamp=-1 --partitions=-5 -t other *)
Definition ex_reset : command := nth 22 commands (mkCommand "" [] [] []).
Definition ex_topic := Ts "topic" "t" "".
Definition ex_parts := mkFlag "partitions" (Some "p") (FInts 32) (VNums []).
Definition ex_items : list item :=
  [(ex_topic, (ShortEq, (word "topic", VText (word "topic"))));
   (ex_parts, (LongSp, (word "3,4", VNums [3; 4])));
   (Ts "group" "g" "", (Glued, (word "group", VText (word "group"))));
   (In_ "timestamp" 64 0, (LongEq, (word "-1", VNum (-1))));
   (ex_parts, (LongEq, (word "-5", VNums [-5])));
   (ex_topic, (ShortSp, (word "other", VText (word "other"))))].
Example C125_flags_ex : In ex_reset commands /\ given ex_reset ex_items /\ no_help ex_items /\ complete ex_reset ex_items /\
  flat_map render ex_items = lines ["-t=topic"; "--partitions"; "3,4"; "-ggroup"; "--timestamp=-1"; "--partitions=-5"; "-t"; "other"] /\
  final ex_topic (values ex_topic ex_items) = VText (word "other") /\ final ex_parts (values ex_parts ex_items) = VNums [3; 4; -5] /\
  final (T "offsets.storage" "kafka") (values (T "offsets.storage" "kafka") ex_items) = VText (word "kafka").
Proof.
  split; [do 22 right; left; reflexivity|]. split.
  { assert (H : forall n, (n < 5)%nat -> In (nth n (all_flags ex_reset) ex_topic) (all_flags ex_reset)) by (intros n N; apply nth_In; vm_compute; lia).
    pose proof (H 0%nat ltac:(lia)) as H0. pose proof (H 1%nat ltac:(lia)) as H1. pose proof (H 2%nat ltac:(lia)) as H2. pose proof (H 3%nat ltac:(lia)) as H3.
    unfold given, ex_items.
    apply Forall_cons; [split; [exact H0|split; [apply M_text|split; [discriminate|discriminate]]]|].
    apply Forall_cons; [split; [exact H1|split; [|discriminate]]|].
    { apply (M_ints 32 [3; 4]); [lia|discriminate|]. repeat (apply Forall_cons; [lia|]). apply Forall_nil. }
    apply Forall_cons; [split; [exact H2|split; [apply M_text|split; [discriminate|split; [discriminate|cbn; lia]]]]|].
    apply Forall_cons; [split; [exact H3|apply (M_int 64 (-1)); lia]|].
    apply Forall_cons; [split; [exact H1|]|].
    { apply (M_ints 32 [-5]); [lia|discriminate|]. apply Forall_cons; [lia|]. apply Forall_nil. }
    apply Forall_cons; [split; [exact H0|split; [apply M_text|split; discriminate]]|]. apply Forall_nil. }
  split. { intros i Hi. cbn [ex_items In] in Hi. repeat (destruct Hi as [<-|Hi]; [discriminate|]). destruct Hi. }
  split.
  { intros n Hn. cbn in Hn. destruct Hn as [<-|[<-|[<-|[]]]]; [exists (nth 0 ex_items (nth 0 ex_items (ex_topic, (Bare, ([], VBool true)))))|exists (nth 2 ex_items (ex_topic, (Bare, ([], VBool true))))|exists (nth 3 ex_items (ex_topic, (Bare, ([], VBool true))))];
    (split; [apply nth_In; cbn; lia|reflexivity]). }
  repeat split; vm_compute; reflexivity.
Qed.

(** A required flag that is missing, an unknown flag, a number out of range and an unknown
    command end the program with status 1 before anything is asked of the cluster. *)
Theorem C125_missing : forall klog c l n, In c commands -> given c l -> no_help l ->
  In n (cm_required c) -> (forall i, In i l -> fl_name (it_flag i) <> n) ->
  healer klog (word (cm_name c) :: flat_map render l) = Exits 1.
Proof. exact missing. Qed.
Print Assumptions C125_missing.
Example C125_missing_ex : In "topic" (cm_required ex_reset) /\ healer [] (lines ["reset-offset"; "-g"; "group"; "--timestamp=-1"]) = Exits 1.
Proof. split; [left; reflexivity|vm_compute; reflexivity]. Qed.

Theorem C125_unknown : forall klog c l n x rest, In c commands -> given c l -> unknown c n -> ~ In n klog -> ~ In 61 n ->
  x = n \/ (exists v, x = (n ++ 61 :: v)%list) -> x <> [] ->
  healer klog (word (cm_name c) :: flat_map render l ++ (word "--" ++ x)%list :: rest)%list = Exits 1.
Proof. exact bad_flag. Qed.
Print Assumptions C125_unknown.
Example C125_unknown_ex : unknown ex_reset (word "offset.storage") /\
  healer [] (lines ["reset-offset"; "-t"; "topic"; "--offset.storage=zookeeper"; "-g"; "group"; "--timestamp=-1"]) = Exits 1.
Proof. split; [|vm_compute; reflexivity]. intros H. vm_compute in H. repeat (destruct H as [H|H]; [discriminate H|]). destruct H. Qed.

Theorem C125_too_big : forall klog c l f z bits rest, In c commands -> given c l -> In f (all_flags c) -> fl_type f = FInt bits -> 0 < bits ->
  - 10 ^ 20 < z < 10 ^ 20 -> ~ - 2 ^ (bits - 1) <= z < 2 ^ (bits - 1) ->
  healer klog (word (cm_name c) :: flat_map render l ++ (word "--" ++ word (fl_name f) ++ word "=" ++ decimal z)%list :: rest)%list = Exits 1.
Proof. exact too_big. Qed.
Print Assumptions C125_too_big.
Example C125_too_big_ex : healer [] (lines ["create-topic"; "--replication-factor=32768"; "-t"; "topic"]) = Exits 1 /\
  exists st, healer [] (lines ["create-topic"; "--replication-factor=32767"; "-t"; "topic"]) = Runs (nth 7 commands ex_reset) st [] /\
    get_flag st ("replication-factor", FInt 16) = Some (VNum 32767).
Proof. split; [vm_compute; reflexivity|]. eexists. split; vm_compute; reflexivity. Qed.

Theorem C125_unknown_command : forall klog a rest, ~ In a (map (fun c => word (cm_name c)) commands) -> ~ In a built_in ->
  match a with 45 :: _ :: _ => False | _ => True end -> healer klog (a :: rest) = Exits 1.
Proof.
  intros klog a rest C B N. unfold healer.
  assert (S : std_flag klog a = None).
  { destruct a as [|x a]; [reflexivity|]. destruct (Z.eq_dec x 45) as [->|X]; [destruct a; [reflexivity|destruct N]|].
    destruct x as [|p|p]; try reflexivity. do 6 (destruct p as [p|p|]; try reflexivity; try congruence). }
  rewrite S. destruct (find _ commands) as [c|] eqn:F.
  { exfalso. apply find_some in F as (F1 & F2). apply BaseFacts.beqb_true in F2. apply C. apply in_map_iff. exists c. split; assumption. }
  destruct (existsb (beqb a) built_in) eqn:E; [|reflexivity]. exfalso. apply existsb_exists in E as (x & E1 & E2). apply BaseFacts.beqb_true in E2. subst. contradiction.
Qed.
Print Assumptions C125_unknown_command.
Example C125_unknown_command_ex : healer [] (lines ["get-offset"; "-t"; "topic"]) = Exits 1.
Proof. vm_compute. reflexivity. Qed.

(** The exceptions.  A bool flag takes no value from the next argument, which is then ignored. *)
Theorem C125_bool_refuted : exists st pos, healer [] (lines ["get-pending"; "--header"; "false"; "-g"; "group"]) = Runs (nth 18 commands ex_reset) st pos /\
  get_flag st ("header", FBool) = Some (VBool true) /\ pos = [word "false"].
Proof. eexists. eexists. split; [vm_compute; reflexivity|]. split; vm_compute; reflexivity. Qed.
Print Assumptions C125_bool_refuted.
(** Numbers with a zero in front are octal. *)
Theorem C125_octal_refuted : exists st, healer [] (lines ["simple-consumer"; "--partition"; "010"; "-t"; "topic"]) = Runs (nth 23 commands ex_reset) st [] /\
  get_flag st ("partition", FInt 32) = Some (VNum 8).
Proof. eexists. split; vm_compute; reflexivity. Qed.
Print Assumptions C125_octal_refuted.
(** A value of no characters after a letter and '=' is the value "=". *)
Theorem C125_empty_refuted : exists st, healer [] (lines ["get-pending"; "-t="; "-g"; "group"]) = Runs (nth 18 commands ex_reset) st [] /\
  get_flag st ("topic", FText) = Some (VText (word "=")).
Proof. eexists. split; vm_compute; reflexivity. Qed.
Print Assumptions C125_empty_refuted.
(** The flags all commands share (root.go) cannot be given before the command: the program ends
    with status 2, whatever follows. *)
Theorem C125_before_refuted : forall klog rest, ~ In (word "brokers") klog -> ~ In (word "b") klog ->
  healer klog (word "-b" :: rest) = Exits 2 /\ healer klog (word "--brokers" :: rest) = Exits 2.
Proof.
  intros klog rest K1 K2.
  assert (X : forall w, ~ In w klog -> existsb (beqb w) klog = false).
  { intros w N. destruct (existsb (beqb w) klog) eqn:E; [|reflexivity]. exfalso. apply existsb_exists in E as (x & E1 & E2). apply BaseFacts.beqb_true in E2. subst. contradiction. }
  split.
  - unfold healer. replace (std_flag klog (word "-b")) with (Some (Exits 2)); [reflexivity|]. symmetry. unfold std_flag. cbn [word].
    change (Z.of_nat (nat_of_ascii "-")) with 45. change (Z.of_nat (nat_of_ascii "b")) with 98. cbn - [existsb beqb]. change [98] with (word "b"). rewrite X by exact K2. reflexivity.
  - unfold healer. replace (std_flag klog (word "--brokers")) with (Some (Exits 2)); [reflexivity|]. symmetry.
    change (word "--brokers") with ((45 :: 45 :: word "brokers")%list : bytes). unfold std_flag. change (45 =? 45)%Z with true. cbv iota zeta.
    replace (cut 61 (word "brokers")) with (@None (bytes * bytes)) by reflexivity. rewrite X by exact K1. reflexivity.
Qed.
Print Assumptions C125_before_refuted.

(** ** C126: every flag that is read exists, every flag that exists is read *)

(** Names and letters are different from each other and from those all commands have (pflag and
    cobra panic otherwise). *)
Theorem C126_distinct : forall c, In c commands -> NoDup (map fl_name (all_flags c)) /\
  NoDup (flat_map (fun f => match fl_short f with Some l => [l] | None => [] end) (all_flags c)).
Proof. intros c C. destruct (commands_good c C) as (A & B & _). split; assumption. Qed.
Print Assumptions C126_distinct.

(** Whatever the arguments: a command that runs gets a value of the right type, numbers in range,
    for everything it reads - with one exception. *)
Theorem C126_reads_partial : forall klog args c st pos r, healer klog args = Runs c st pos -> In r (cm_reads c) ->
  ~ (cm_name c = "reset-offset" /\ fst r = "offset.storage") ->
  exists v, get_flag st r = Some v /\ typed (snd r) v.
Proof. exact reads. Qed.
Print Assumptions C126_reads_partial.
Example C126_reads_ex : exists st, healer [] (lines ["create-partitions"; "-t"; "topic"; "--count=8"]) = Runs (nth 6 commands ex_reset) st [] /\
  map (get_flag st) (cm_reads (nth 6 commands ex_reset)) =
  map Some [VText []; VText (word "healer"); VText (word "topic"); VText []; VNum 30000; VBool true; VNum 8].
Proof. eexists. split; vm_compute; reflexivity. Qed.

(** The exception: reset-offset reads a flag that does not exist, in every run; and its error is
    dropped. *)
Theorem C126_storage_refuted : forall klog args c st pos, healer klog args = Runs c st pos -> cm_name c = "reset-offset" ->
  In ("offset.storage", FText) (cm_reads c) /\ get_flag st ("offset.storage", FText) = None.
Proof.
  intros klog args c st pos H E. split; [|eapply never_read; eassumption]. apply healer_runs in H as (C & _).
  assert (X : forallb (fun c => negb (String.eqb (cm_name c) "reset-offset") || existsb (fun r => String.eqb (fst r) "offset.storage" && ftype_eqb (snd r) FText) (cm_reads c)) commands = true) by (vm_compute; reflexivity).
  rewrite forallb_forall in X. specialize (X c C). cbv beta in X. rewrite E in X. change (String.eqb "reset-offset" "reset-offset") with true in X. cbn [negb orb] in X.
  apply existsb_exists in X as ([n t] & X1 & X2). cbn [fst snd] in X2. apply andb_prop in X2 as (X2 & X3). apply String.eqb_eq in X2. apply ftype_eq in X3. subst. exact X1.
Qed.
Print Assumptions C126_storage_refuted.
Example C126_storage_ex : exists st, healer [] (lines ["reset-offset"; "-t"; "topic"; "-g"; "group"; "--timestamp=-1"; "--offsets.storage=zookeeper"]) = Runs ex_reset st [].
Proof. eexists. vm_compute. reflexivity. Qed.

(** The two names of Tools.v (C83) are those. *)
Theorem C83_names : Tools.n_storage = word "offsets.storage" /\ Tools.n_storage_read = word "offset.storage" /\
  In (T "offsets.storage" "kafka") (cm_flags ex_reset) /\ cm_name ex_reset = "reset-offset".
Proof. repeat split; try reflexivity. do 4 right. left. reflexivity. Qed.
Print Assumptions C83_names.

(** The flags nothing reads. *)
Definition unread : list (string * string) :=
  [("console-consumer", "printoffset"); ("reset-offset", "offsets.storage"); ("alter-partition-reassignments", "client"); ("elect-leaders", "client"); ("api", "brokers");
   ("version", "brokers"); ("version", "client")].
Theorem C126_unread_refuted : forall c n, In (c, n) unread -> exists cmd f, In cmd commands /\ cm_name cmd = c /\ In f (all_flags cmd) /\ fl_name f = n /\ ~ In n (map fst (cm_reads cmd)).
Proof.
  intros c n H. assert (X : forallb (fun cn => existsb (fun cmd => String.eqb (cm_name cmd) (fst cn) && existsb (fun f => String.eqb (fl_name f) (snd cn)) (all_flags cmd) &&
    negb (existsb (String.eqb (snd cn)) (map fst (cm_reads cmd)))) commands) unread = true) by (vm_compute; reflexivity).
  rewrite forallb_forall in X. specialize (X _ H). cbn [fst snd] in X. apply existsb_exists in X as (cmd & C & X). apply andb_prop in X as (X & X3). apply andb_prop in X as (X1 & X2).
  apply existsb_exists in X2 as (f & F & E). exists cmd, f. repeat split; try assumption; try (apply String.eqb_eq; assumption).
  intros I. apply negb_true_iff in X3. assert (Y : existsb (String.eqb n) (map fst (cm_reads cmd)) = true); [|congruence].
  apply existsb_exists. exists n. split; [exact I|apply String.eqb_refl].
Qed.
Print Assumptions C126_unread_refuted.
(** All others are read, with their type. *)
Theorem C126_all_read_partial : forall c f, In c commands -> In f (all_flags c) -> fl_name f <> "help" -> ~ In (cm_name c, fl_name f) unread ->
  In (fl_name f, fl_type f) (cm_reads c).
Proof.
  intros c f C F H U. assert (X : forallb (fun c => forallb (fun f => String.eqb (fl_name f) "help" || existsb (fun u => String.eqb (fst u) (cm_name c) && String.eqb (snd u) (fl_name f)) unread ||
    existsb (fun r => String.eqb (fst r) (fl_name f) && ftype_eqb (snd r) (fl_type f)) (cm_reads c)) (all_flags c)) commands = true) by (vm_compute; reflexivity).
  rewrite forallb_forall in X. specialize (X c C). rewrite forallb_forall in X. specialize (X f F). apply orb_prop in X as [X|X]; [apply orb_prop in X as [X|X]|].
  - apply String.eqb_eq in X. contradiction.
  - exfalso. apply U. apply existsb_exists in X as ([a b] & X1 & X2). apply andb_prop in X2 as (X2 & X3). apply String.eqb_eq in X2, X3. cbn [fst snd] in *. subst. exact X1.
  - apply existsb_exists in X as ([a b] & X1 & X2). apply andb_prop in X2 as (X2 & X3). apply String.eqb_eq in X2. apply ftype_eq in X3. cbn [fst snd] in *. subst. exact X1.
Qed.
Print Assumptions C126_all_read_partial.
Example C126_all_read_ex : In ("partitions", FInts 0) (cm_reads (nth 3 commands ex_reset)) /\ In ("partitions", FInts 32) (cm_reads ex_reset).
Proof. split; [apply (C126_all_read_partial _ (mkFlag "partitions" None (FInts 0) (VNums [])))|apply (C126_all_read_partial _ ex_parts)]; try discriminate; vm_compute;
  repeat (try (left; reflexivity); right); intros H; repeat (destruct H as [H|H]; [discriminate H|]); destruct H. Qed.

(** ** C127: get-metadata shows the metadata *)

(** In the format "cat": a line for every broker and one for every partition, with the address of
    the broker that is its leader. *)
Theorem C127_cat_partial : forall json r, cluster_ok r -> exists bl pl,
  split 10 (fst (get_metadata json (word "cat") (Some r))) = ([word "brokers:"] ++ bl ++ [word "topics:"] ++ pl ++ [[]])%list /\
  Forall2 shows_broker (cl_brokers r) bl /\ Forall2 (shows_partition (cl_brokers r)) (partitions_of r) pl.
Proof. intros json r H. exact (cat_shows r H). Qed.
Print Assumptions C127_cat_partial.
Example C127_cat_ex : exists r, cluster_ok r /\ split 10 (fst (get_metadata (fun _ => []) (word "cat") (Some r))) =
  lines ["brokers:"; "1 a:9092"; "2 [::1]:9093"; "topics:"; "t 0 a:9092"; "t 1 [::1]:9093"; ""].
Proof.
  exists (mkCluster [(1, (word "a", 9092)); (2, (word "::1", 9093))] [(word "t", [(0, 1); (1, 2)])]). split; [|vm_compute; reflexivity].
  split; [repeat (apply Forall_cons; [intros H; vm_compute in H; repeat (destruct H as [H|H]; [discriminate H|]); destruct H|]); apply Forall_nil|].
  split; [repeat (apply Forall_cons; [intros H; vm_compute in H; repeat (destruct H as [H|H]; [discriminate H|]); destruct H|]); apply Forall_nil|].
  split; [repeat constructor; cbn; lia|]. repeat (apply Forall_cons; [cbn; lia|]). apply Forall_nil.
Qed.

(** A failed request looks like a cluster without brokers and topics, and the exit status is 0. *)
Theorem C127_failure_refuted : forall json format, get_metadata json format None = get_metadata json format (Some (mkCluster [] [])) /\
  snd (get_metadata json format None) = 0.
Proof. intros. split; reflexivity. Qed.
Print Assumptions C127_failure_refuted.
(** A format that does not exist prints nothing and succeeds. *)
Theorem C127_format_refuted : forall json format answer, format <> word "json" -> format <> word "cat" -> get_metadata json format answer = ([], 0).
Proof. intros json format answer A B. unfold get_metadata. rewrite (proj2 (BaseFacts.beqb_false _ _) A), (proj2 (BaseFacts.beqb_false _ _) B). reflexivity. Qed.
Print Assumptions C127_format_refuted.
Example C127_format_ex : exists st, healer [] (lines ["get-metadata"; "--format"; "yaml"]) = Runs (nth 16 commands ex_reset) st [] /\
  get_flag st ("format", FText) = Some (VText (word "yaml")).
Proof. eexists. split; vm_compute; reflexivity. Qed.

(** Numbers in base 16: 0x and digits, small or capital. *)
Definition hex_digit (d c : Z) : Prop :=
  0 <= d < 16 /\ (c = nth (Z.to_nat d) (word "0123456789abcdef") 0 \/ c = nth (Z.to_nat d) (word "0123456789ABCDEF") 0).
Lemma hex_value d c : hex_digit d c -> digit_value c = d.
Proof.
  intros [D H]. assert (C : In d [0; 1; 2; 3; 4; 5; 6; 7; 8; 9; 10; 11; 12; 13; 14; 15]) by (cbn; lia).
  repeat (destruct C as [<-|C]; [destruct H as [->| ->]; reflexivity|]). destruct C.
Qed.
Lemma hex_base : forall l t acc, Forall2 hex_digit l t -> in_base 16 t acc = Some (fold_left (fun a d => 16 * a + d) l acc).
Proof.
  intros l t acc H. revert acc. induction H as [|d c l t Hd H IH]; intros acc; cbn [in_base fold_left]; [reflexivity|].
  rewrite (hex_value _ _ Hd). destruct Hd as [Hd _]. destruct (Z.ltb_spec d 16); [|lia]. rewrite IH. f_equal. f_equal. lia.
Qed.
Lemma hex_nonneg : forall l t acc, Forall2 hex_digit l t -> 0 <= acc -> 0 <= fold_left (fun a d => 16 * a + d) l acc.
Proof. intros l t acc H. revert acc. induction H as [|d c l t [D _] H IH]; intros acc A; cbn [fold_left]; [exact A|]. apply IH. lia. Qed.
Theorem C125_hex : forall bits l t, Forall2 hex_digit l t -> l <> [] -> fold_left (fun a d => 16 * a + d) l 0 < 2 ^ (bits - 1) ->
  parse_int bits (word "0x" ++ t)%list = Some (fold_left (fun a d => 16 * a + d) l 0).
Proof.
  intros bits l t H N B. pose proof (hex_nonneg l t 0 H ltac:(lia)) as P. pose proof (hex_base l t 0 H) as I. destruct H as [|d c l t Hd H]; [congruence|].
  assert (U : parse_uint (48 :: 120 :: c :: t)%list = in_base 16 (c :: t) 0) by reflexivity. rewrite I in U.
  unfold parse_int. change (word "0x" ++ c :: t)%list with (48 :: 120 :: c :: t)%list. cbn [Z.eqb Pos.eqb]. rewrite U. clear U I.
  set (v := fold_left _ _ 0) in *.
  cbv iota. destruct (Z.leb_spec (- 2 ^ (bits - 1)) v) as [|X]; [|pose proof (Z.pow_nonneg 2 (bits - 1) ltac:(lia)); lia].
  destruct (Z.ltb_spec v (2 ^ (bits - 1))); [reflexivity|lia].
Qed.
Print Assumptions C125_hex.
Example C125_hex_ex : parse_int 32 (word "0x1aF") = Some 431 /\ Forall2 hex_digit [1; 10; 15] (word "1aF").
Proof. split; [reflexivity|]. repeat constructor; cbn; auto; lia. Qed.
