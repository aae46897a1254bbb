(** Model of the flags of the command line program: command/healer/main.go, cmd/root.go and the
    init functions and flag reads of the other files of cmd.  The parts of the libraries flag,
    pflag (v1.0.6) and cobra (v1.9.1) that handle them are modelled from their documentation
    and are part of what is trusted. *)
From Coq Require Import String Ascii.
From Verif Require Import Base Text.

(** bytes of a text of the program *)
Fixpoint word (s : string) : bytes :=
  match s with EmptyString => [] | String c s' => Z.of_nat (nat_of_ascii c) :: word s' end.

(** ** Values *)

(** the types of flags: pflag String, Bool, Int16/Int32/Int64 (bits), Int, Uint32 (bits), IntSlice
    (bits 0: read by Atoi) and Int32Slice, StringSlice, StringArray *)
Inductive ftype := FText | FBool | FInt (bits : Z) | FGoInt | FUint (bits : Z) | FInts (bits : Z) | FTexts | FArray.
(** values of flags *)
Inductive fval := VText (s : bytes) | VBool (b : bool) | VNum (n : Z) | VNums (l : list Z) | VTexts (l : list bytes).
(** a flag: name, one letter or none, type, default *)
Record flag := mkFlag { fl_name : string; fl_short : option string; fl_type : ftype; fl_default : fval }.

(** strconv.ParseBool *)
Definition parse_bool (s : bytes) : option bool :=
  if existsb (beqb s) (map word ["1"; "t"; "T"; "TRUE"; "true"; "True"]%string) then Some true
  else if existsb (beqb s) (map word ["0"; "f"; "F"; "FALSE"; "false"; "False"]%string) then Some false
  else None.
(** strconv: the value of a digit or letter *)
Definition digit_value (c : Z) : Z :=
  if (48 <=? c) && (c <=? 57) then c - 48
  else if (97 <=? c) && (c <=? 122) then c - 87
  else if (65 <=? c) && (c <=? 90) then c - 55
  else 99.
(** digits of a base; [None]: a byte that is none *)
Fixpoint in_base (base : Z) (s : bytes) (acc : Z) : option Z :=
  match s with
  | [] => Some acc
  | c :: s' => if digit_value c <? base then in_base base s' (acc * base + digit_value c) else None
  end.
(** strconv.ParseUint with base 0: 0b, 0o, 0x and 0 in front tell the base.  Simplification:
    digits with underscores between them are taken as no number. *)
Definition parse_uint (s : bytes) : option Z :=
  match s with
  | [] => None
  | 48 :: s' =>
      match s' with
      | c :: d :: _ =>
          let rest := match s' with _ :: r => r | [] => [] end in
          if (c =? 98) || (c =? 66) then in_base 2 rest 0
          else if (c =? 111) || (c =? 79) then in_base 8 rest 0
          else if (c =? 120) || (c =? 88) then in_base 16 rest 0
          else in_base 8 s' 0
      | _ => in_base 8 s' 0
      end
  | _ => in_base 10 s 0
  end.
(** strconv.ParseInt(s, 0, bits) *)
Definition parse_int (bits : Z) (s : bytes) : option Z :=
  let '(neg, s') := match s with
                    | c :: s' => if c =? 45 then (true, s') else if c =? 43 then (false, s') else (false, s)
                    | [] => (false, s)
                    end in
  match parse_uint s' with
  | None => None
  | Some n => let z := if neg : bool then - n else n in
              if (- 2 ^ (bits - 1) <=? z) && (z <? 2 ^ (bits - 1)) then Some z else None
  end.
(** all of a list, if all are good *)
Fixpoint every {A B} (f : A -> option B) (l : list A) : option (list B) :=
  match l with
  | [] => Some []
  | x :: l' => match f x, every f l' with Some y, Some ys => Some (y :: ys) | _, _ => None end
  end.
(** pflag: the value of a flag is set.  Slices are replaced the first time and grow afterwards.
    The outer [None]: not modelled (StringSlice reads a line of CSV, here without quotes and
    line ends); the inner one: an error. *)
Definition convert (t : ftype) (changed : bool) (old : fval) (s : bytes) : option (option fval) :=
  match t with
  | FText => Some (Some (VText s))
  | FBool => Some (option_map VBool (parse_bool s))
  | FInt bits => Some (option_map VNum (parse_int bits s))
  | FGoInt => Some (option_map VNum (parse_int 64 s))
  | FUint bits => Some (match parse_uint s with Some n => if n <? 2 ^ bits then Some (VNum n) else None | None => None end)
  | FInts bits =>
      let before := match changed, old with true, VNums l => l | _, _ => [] end in
      Some (option_map (fun l => VNums (before ++ l)) (every (if bits =? 0 then atoi else parse_int bits) (split 44 s)))
  | FTexts =>
      let before := match changed, old with true, VTexts l => l | _, _ => [] end in
      if existsb (fun c => (c =? 34) || (c =? 10) || (c =? 13)) s then None
      else Some (Some (VTexts (before ++ match s with [] => [] | _ => split 44 s end)))
  | FArray =>
      let before := match changed, old with true, VTexts l => l | _, _ => [] end in
      Some (Some (VTexts (before ++ [s])))
  end.

(** ** Parsing (pflag FlagSet.parseArgs) *)

(** a flag, its value, and whether it was given *)
Definition fstate := list (flag * (fval * bool)).
(** FlagSet.formal, .shorthands *)
Definition by_name (n : bytes) (st : fstate) : option (flag * (fval * bool)) :=
  find (fun x => beqb (word (fl_name (fst x))) n) st.
(** FlagSet.shorthands *)
Definition by_letter (c : Z) (st : fstate) : option (flag * (fval * bool)) :=
  find (fun x => match fl_short (fst x) with Some l => beqb (word l) [c] | None => false end) st.
(** the outcome: parsed, with the arguments that are no flags; an error; not modelled *)
Inductive parsed := PRun (st : fstate) (pos : list bytes) | PBad | PElse.
(** FlagSet.Set *)
Fixpoint put_value (n : string) (v : fval) (st : fstate) : fstate :=
  match st with
  | [] => []
  | (f, x) :: st' => if String.eqb (fl_name f) n then (f, (v, true)) :: st' else (f, x) :: put_value n v st'
  end.
(** FlagSet.Set with its errors *)
Definition set_flag (x : flag * (fval * bool)) (s : bytes) (st : fstate) : parsed :=
  match convert (fl_type (fst x)) (snd (snd x)) (fst (snd x)) s with
  | None => PElse
  | Some None => PBad
  | Some (Some v) => PRun (put_value (fl_name (fst x)) v st) []
  end.
(** NoOptDefVal: bool flags need no value *)
Definition alone (t : ftype) : bool := match t with FBool => true | _ => false end.
(** what follows a letter or a name: the argument is used up, or the next one is needed too *)
Inductive took := TDone (r : parsed) | TNext (x : flag * (fval * bool)) (st : fstate).
(** parseLongArg without the next argument; [klog]: the names of the flags of the logging
    library, which main.go:13-14 adds to all commands; what they do is left out *)
Definition long_arg (klog : list bytes) (name : bytes) (st : fstate) : took :=
  match name with
  | [] => TDone PBad
  | c :: _ =>
      if (c =? 45) || (c =? 61) then TDone PBad
      else
        let nv := cut 61 name in
        let n := match nv with Some (n, _) => n | None => name end in
        match by_name n st with
        | None => TDone (if existsb (beqb n) klog then PElse else PBad)
        | Some x =>
            match nv with
            | Some (_, v) => TDone (set_flag x v st)
            | None => if alone (fl_type (fst x)) then TDone (set_flag x (word "true") st) else TNext x st
            end
        end
  end.
(** parseShortArg without the next argument; the letters one after the other *)
Fixpoint short_arg (klog : list bytes) (letters : bytes) (st : fstate) : took :=
  match letters with
  | [] => TDone (PRun st [])
  | c :: rest =>
      match by_letter c st with
      | None => TDone (if existsb (beqb [c]) klog then PElse else PBad)
      | Some x =>
          match rest with
          | 61 :: d :: v => TDone (set_flag x (d :: v) st)
          | _ =>
              if alone (fl_type (fst x)) then
                match set_flag x (word "true") st with
                | PRun st' _ => short_arg klog rest st'
                | r => TDone r
                end
              else match rest with [] => TNext x st | _ => TDone (set_flag x rest st) end
          end
      end
  end.
(** parseArgs; arguments that are no flags are kept; after -- nothing is a flag *)
Fixpoint parse_args (klog : list bytes) (st : fstate) (args : list bytes) : parsed :=
  match args with
  | [] => PRun st []
  | s :: rest =>
      let t := match s with
               | 45 :: 45 :: name => Some (long_arg klog name st)
               | 45 :: ((_ :: _) as letters) => Some (short_arg klog letters st)
               | _ => None
               end in
      if beqb s [45; 45] then PRun st rest
      else match t with
           | None => match parse_args klog st rest with PRun st' pos => PRun st' (s :: pos) | r => r end
           | Some (TDone (PRun st' _)) => parse_args klog st' rest
           | Some (TDone r) => r
           | Some (TNext x st1) =>
               match rest with
               | [] => PBad
               | v :: rest' => match set_flag x v st1 with PRun st' _ => parse_args klog st' rest' | r => r end
               end
           end
  end.

(** ** The commands *)

Local Open Scope string_scope.
(** pflag String *)
Definition T (n : string) (d : string) : flag := mkFlag n None FText (VText (word d)).
(** pflag StringP *)
Definition Ts (n s : string) (d : string) : flag := mkFlag n (Some s) FText (VText (word d)).
(** pflag Bool *)
Definition Bo (n : string) (d : bool) : flag := mkFlag n None FBool (VBool d).
(** pflag Int16, Int32, Int64 *)
Definition In_ (n : string) (bits d : Z) : flag := mkFlag n None (FInt bits) (VNum d).
(** root.go:28-29, inherited by all commands; cobra adds help *)
Definition root_flags : list flag := [Ts "brokers" "b" ""; Ts "client" "c" "healer"; mkFlag "help" (Some "h") FBool (VBool false)].
(** a command: name, own flags, required ones, the flags its function reads and their types,
    in order of the source *)
Record command := mkCommand { cm_name : string; cm_flags : list flag; cm_required : list string; cm_reads : list (string * ftype) }.
(** brokers and client are read by most *)
Definition common : list (string * ftype) := [("brokers", FText); ("client", FText)].
(** describe-acls.go:90-96, delete-acls.go:90-96, create-acls.go:77-83 *)
Definition acl_flags : list flag :=
  [T "resourcetype" "any"; T "resource" ""; T "patterntype" "match"; T "principal" ""; T "host" ""; T "operation" "any"; T "permissiontype" "any"].
(** describe-acls.go:34-71, delete-acls.go:34-71, create-acls.go:33-58 *)
Definition acl_reads : list (string * ftype) := (common ++
  [("resourcetype", FText); ("resource", FText); ("patterntype", FText); ("principal", FText); ("host", FText); ("operation", FText); ("permissiontype", FText)])%list.
(** The init functions and the reads of the files of command/healer/cmd; math.MaxInt is that of
    64 bit machines. *)
Definition commands : list command :=
  [ (* alter-configs.go:68-71, 17-37 *)
    mkCommand "alter-configs" [T "resource-type" ""; T "resource-name" ""; T "config-name" ""; T "config-value" ""] []
      (common ++ [("resource-type", FText); ("resource-name", FText); ("config-name", FText); ("config-value", FText)])%list;
    (* alter-partition-assignments.go:65-66, 22-36 *)
    mkCommand "alter-partition-reassignments" [Ts "reassignments" "r" ""; In_ "timeout.ms" 32 30000] []
      [("reassignments", FText); ("brokers", FText); ("timeout.ms", FInt 32)];
    (* api.go:169-173, 64-88 *)
    mkCommand "api" [mkFlag "port" (Some "p") (FInt 32) (VNum 8080); Ts "address" "a" "0.0.0.0"; Bo "cors" false; T "auth" ""; Bo "get-allowed" false] []
      [("address", FText); ("port", FInt 32); ("cors", FBool); ("client", FText); ("auth", FText); ("get-allowed", FBool)];
    (* console-consumer.go:93-98, 18-49 *)
    mkCommand "console-consumer" [T "config" ""; mkFlag "partitions" None (FInts 0) (VNums []); mkFlag "max-messages" None FGoInt (VNum (2 ^ 63 - 1)); Bo "printoffset" true; Bo "json" false; Ts "topic" "t" ""] []
      (common ++ [("partitions", FInts 0); ("topic", FText); ("max-messages", FGoInt); ("json", FBool); ("config", FText)])%list;
    (* console-producer.go:69-70, 19-39 *)
    mkCommand "console-producer" [T "config" ""; Ts "topic" "t" ""] [] (common ++ [("topic", FText); ("config", FText)])%list;
    (* create-acls.go *)
    mkCommand "create-acls" acl_flags [] acl_reads;
    (* create-partitions.go:116-120, 34-58 *)
    mkCommand "create-partitions" [Ts "topic" "t" ""; T "assignments" ""; In_ "count" 32 0; mkFlag "timeout" None (FUint 32) (VNum 30000); Bo "validate-only" true] []
      (common ++ [("topic", FText); ("assignments", FText); ("timeout", FUint 32); ("validate-only", FBool); ("count", FInt 32)])%list;
    (* create-topic.go:124-128, 19-43 *)
    mkCommand "create-topic" [In_ "partitions" 32 (-1); In_ "replication-factor" 16 (-1); T "replica-assignment" ""; mkFlag "timeout" None (FUint 32) (VNum 30000); Ts "topic" "t" ""] []
      (common ++ [("topic", FText); ("partitions", FInt 32); ("replication-factor", FInt 16); ("replica-assignment", FText); ("timeout", FUint 32)])%list;
    (* delete-acls.go *)
    mkCommand "delete-acls" acl_flags [] acl_reads;
    (* delete-groups.go:60, 17-25 *)
    mkCommand "delete-groups" [mkFlag "groups" (Some "g") FTexts (VTexts [])] [] (common ++ [("groups", FTexts)])%list;
    (* delete-topics.go:51, 16-24 *)
    mkCommand "delete-topics" [mkFlag "topics" (Some "t") FTexts (VTexts [])] [] (common ++ [("topics", FTexts)])%list;
    (* describe-acls.go *)
    mkCommand "describe-acls" acl_flags [] acl_reads;
    (* describe-configs.go:59-62, 16-37 *)
    mkCommand "describe-configs" [T "resource-type" ""; T "resource-name" ""; mkFlag "keys" None FArray (VTexts [])] []
      (common ++ [("resource-type", FText); ("resource-name", FText); ("keys", FArray)])%list;
    (* describe-groups.go:66, 17-25 *)
    mkCommand "describe-groups" [Ts "group" "g" ""] [] (common ++ [("group", FText)])%list;
    (* describe-logdirs.go:51, 16-24 *)
    mkCommand "describe-logdirs" [mkFlag "topics" (Some "t") FTexts (VTexts [])] [] (common ++ [("topics", FTexts)])%list;
    (* elect-leaders.go:62-63, 21-29 *)
    mkCommand "elect-leaders" [Ts "data" "d" ""; In_ "timeout.ms" 32 30000] [] [("timeout.ms", FInt 32); ("brokers", FText); ("data", FText)];
    (* get-metadata.go:69-70, 16-19 *)
    mkCommand "get-metadata" [T "format" "json"; mkFlag "topics" (Some "t") FTexts (VTexts [])] [] (common ++ [("topics", FTexts); ("format", FText)])%list;
    (* get-offsets.go:73-74, 16-28 *)
    mkCommand "get-offsets" [In_ "timestamp" 64 (-1); Ts "topic" "t" ""] [] (common ++ [("topic", FText); ("timestamp", FInt 64)])%list;
    (* get-pending.go:295-298, 236-256 *)
    mkCommand "get-pending" [Ts "group" "g" ""; Bo "total" false; Bo "header" true; Ts "topic" "t" ""] []
      (common ++ [("topic", FText); ("group", FText); ("header", FBool); ("total", FBool)])%list;
    (* group-consumer.go:103-107, 21-57 *)
    mkCommand "group-consumer" [Ts "topic" "t" ""; Ts "group" "g" ""; T "config" ""; mkFlag "max-messages" None FGoInt (VNum (2 ^ 63 - 1)); Bo "json" false] []
      (common ++ [("topic", FText); ("group", FText); ("max-messages", FGoInt); ("json", FBool); ("config", FText)])%list;
    (* list-groups.go:16-20 *)
    mkCommand "list-groups" [] [] common;
    (* list-partition-reassignments.go:83-84, 21-48 *)
    mkCommand "list-partition-reassignments" [In_ "timeout.ms" 32 30000; Ts "data" "d" ""] [] (common ++ [("timeout.ms", FInt 32); ("data", FText)])%list;
    (* reset-offset.go:106-113, 16-22 *)
    mkCommand "reset-offset" [Ts "topic" "t" ""; mkFlag "partitions" (Some "p") (FInts 32) (VNums []); Ts "group" "g" ""; In_ "timestamp" 64 0; T "offsets.storage" "kafka"]
      ["topic"; "group"; "timestamp"]
      (common ++ [("topic", FText); ("partitions", FInts 32); ("group", FText); ("offset.storage", FText); ("timestamp", FInt 64)])%list;
    (* simple-consumer.go:111-118, 19-62 *)
    mkCommand "simple-consumer" [T "config" ""; In_ "partition" 32 0; In_ "offset" 64 (-1); In_ "max-messages" 32 (2 ^ 31 - 1); In_ "stopoffset" 64 0; Bo "printoffset" true; Bo "json" false; Ts "topic" "t" ""] []
      (common ++ [("partition", FInt 32); ("topic", FText); ("offset", FInt 64); ("max-messages", FInt 32); ("stopoffset", FInt 64); ("printoffset", FBool); ("json", FBool); ("config", FText)])%list;
    (* simple-producer.go:73-75, 20-44 *)
    mkCommand "simple-producer" [T "config" ""; In_ "partition" 32 0; Ts "topic" "t" ""] [] (common ++ [("partition", FInt 32); ("topic", FText); ("config", FText)])%list;
    (* version.go:15-28 *)
    mkCommand "version" [] [] [] ].
Local Close Scope string_scope.

(** all flags of a command: its own, then the inherited ones (cobra mergePersistentFlags) *)
Definition all_flags (c : command) : list flag := cm_flags c ++ root_flags.
(** before parsing *)
Definition fresh (l : list flag) : fstate := map (fun f => (f, (fl_default f, false))) l.

(** pflag GetString, GetBool, ...: the flag must exist and have the type *)
Definition ftype_eqb (a b : ftype) : bool :=
  match a, b with
  | FText, FText | FBool, FBool | FGoInt, FGoInt | FTexts, FTexts | FArray, FArray => true
  | FInt x, FInt y | FUint x, FUint y | FInts x, FInts y => x =? y
  | _, _ => false
  end.
(** pflag GetString, ... *)
Definition get_flag (st : fstate) (r : string * ftype) : option fval :=
  match by_name (word (fst r)) st with
  | Some (f, (v, _)) => if ftype_eqb (fl_type f) (snd r) then Some v else None
  | None => None
  end.

(** ** The program *)

(** what becomes of the arguments: the process ends with a status before any command runs; the
    root command, which does nothing (root.go:14-15); help; a command runs, with the values it
    reads; not modelled *)
Inductive outcome := Exits (status : Z) | Nothing | Help | Runs (c : command) (st : fstate) (pos : list bytes) | Elsewhere.
(** flag.Parse (main.go:15) on the first argument: it looks at flags in front of the command
    only, and knows those of the logging library only *)
Definition std_flag (klog : list bytes) (a : bytes) : option outcome :=
  match a with
  | 45 :: r =>
      match r with
      | [] => None
      | c :: r' =>
          let name := if c =? 45 then r' else r in
          match name with
          | [] => Some Elsewhere       (* "--" *)
          | d :: _ =>
              if (d =? 45) || (d =? 61) then Some (Exits 2)
              else let n := match cut 61 name with Some (n, _) => n | None => name end in
                   if existsb (beqb n) klog then Some Elsewhere
                   else if beqb n (word "help") || beqb n (word "h") then Some (Exits 0)
                   else Some (Exits 2)
          end
      end
  | _ => None
  end.
(** the commands cobra adds itself *)
Definition built_in : list bytes := map word ["help"; "completion"; "__complete"; "__completeNoDesc"]%string.
(** main.go:12-21, root.go:20-25, cobra Command.ExecuteC: [args] are os.Args[1:] *)
Definition healer (klog : list bytes) (args : list bytes) : outcome :=
  match args with
  | [] => Nothing
  | a :: rest =>
      match std_flag klog a with
      | Some o => o
      | None =>
          match find (fun c => beqb (word (cm_name c)) a) commands with
          | None => if existsb (beqb a) built_in then Elsewhere else Exits 1
          | Some c =>
              match parse_args klog (fresh (all_flags c)) rest with
              | PBad => Exits 1
              | PElse => Elsewhere
              | PRun st pos =>
                  match get_flag st ("help"%string, FBool) with
                  | Some (VBool true) => Help
                  | _ =>
                      if forallb (fun n => match by_name (word n) st with Some (_, (_, true)) => true | _ => false end) (cm_required c)
                      then Runs c st pos else Exits 1
                  end
              end
          end
      end
  end.

(** ** get-metadata *)

(** the parts of a metadata response that catResponse shows: brokers (id, host, port), topics
    (name, partitions (id, leader)) *)
Record cluster := mkCluster { cl_brokers : list (Z * (bytes * Z)); cl_topics : list (bytes * list (Z * Z)) }.
(** metadata_response.go:54-56 NetAddress: net.JoinHostPort *)
Definition net_address (host : bytes) (port : Z) : bytes :=
  (if existsb (Z.eqb 58) host then word "[" ++ host ++ word "]" else host) ++ word ":" ++ decimal port.
(** get-metadata.go:51-56, 62: the map of addresses; a later broker with the same id replaces an
    earlier one; an id that is not there has the empty address *)
Definition address_in (bs : list (Z * (bytes * Z))) (id : Z) : bytes :=
  fold_left (fun acc b => if fst b =? id then net_address (fst (snd b)) (snd (snd b)) else acc) bs [].
(** get-metadata.go:49-66 *)
Definition cat_response (r : cluster) : bytes :=
  word "brokers:" ++ [10] ++
  flat_map (fun b => decimal (fst b) ++ [32] ++ net_address (fst (snd b)) (snd (snd b)) ++ [10]) (cl_brokers r) ++
  word "topics:" ++ [10] ++
  flat_map (fun t => flat_map (fun p => fst t ++ [32] ++ decimal (fst p) ++ [32] ++ address_in (cl_brokers r) (snd p) ++ [10]) (snd t)) (cl_topics r).
(** get-metadata.go:27-46 after the brokers were found: what is printed and the exit status.
    [answer]: what RequestMetaData returned; [None]: an error, with it an empty response.
    [json]: json.MarshalIndent, not modelled. *)
Definition get_metadata (json : cluster -> bytes) (format : bytes) (answer : option cluster) : bytes * Z :=
  let r := match answer with Some r => r | None => mkCluster [] [] end in
  (if beqb format (word "json") then json r ++ [10] else if beqb format (word "cat") then cat_response r else [], 0).
