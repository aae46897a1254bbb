(** Model of more of the command line programs (command/healer/cmd): the owners shown by
    get-pending, get-pending as a whole, get-offsets, the flags of the ACL and configuration
    commands, the settings given as JSON, the printing consumers, the lines read by the
    producers, and the exit status of all commands.  The requests are in Brokers.v and
    Helper.v; a command is modelled as a function of the answers it gets. *)
From Coq Require Import String Ascii.
From Verif Require Import Base Text Consumer Assign Acl Group Tools.

(** ** get-pending.go:101-151 getSubscriptionsInGroup *)

(** topic to partition to member: map[string]map[int32]string *)
Notation subs := (list (bytes * list (Z * bytes)))%type.
(** get-pending.go:145: assignment to a key of the inner map *)
Fixpoint pput (p : Z) (m : bytes) (l : list (Z * bytes)) : list (Z * bytes) :=
  match l with
  | [] => [(p, m)]
  | (p', m') :: l' => if p' =? p then (p, m) :: l' else (p', m') :: pput p m l'
  end.
(** get-pending.go:141-143: the inner map of a topic, made if there is none, changes *)
Fixpoint tput (t : bytes) (f : list (Z * bytes) -> list (Z * bytes)) (s : subs) : subs :=
  match s with
  | [] => [(t, f [])]
  | (t', l) :: s' => if beqb t' t then (t', f l) :: s' else (t', l) :: tput t f s'
  end.
(** get-pending.go:139-147: one topic of an assignment *)
Definition add_part (m : bytes) (s : subs) (pa : bytes * list Z) : subs :=
  tput (fst pa) (fun l => fold_left (fun l p => pput p m l) (snd pa) l) s.
(** get-pending.go:129-149: the members (id, raw assignment) *)
Fixpoint owners_go (ms : list (bytes * bytes)) (s : subs) : res subs :=
  match ms with
  | [] => Ok s
  | (m, raw) :: ms' =>
      match raw with
      | [] => owners_go ms' s
      | _ => rbind (newMemberAssignment raw) (fun a => owners_go ms' (fold_left (add_part m) (ma_parts a) s))
      end
  end.
(** get-pending.go:101-151: [gs] is the answer to the request in lines 121-126, or the error
    returned in lines 108-126.  A panic is recovered from (103-107); the results are not named,
    so that (nil, nil) is returned. *)
Definition getSubscriptions (gs : res (list (list (bytes * bytes)))) : res subs :=
  match rbind gs (fun gs => owners_go (concat gs) []) with Panic => Ok [] | r => r end.
(** get-pending.go:220: reading the inner map; the empty text for a missing key *)
Fixpoint owner (p : Z) (l : list (Z * bytes)) : bytes :=
  match l with [] => [] | (p', m) :: l' => if p' =? p then m else owner p l' end.

(** ** get-pending.go:235-291, the command *)

(** What is printed for a group and a topic: the lines, with the owner of each if the topic was
    not named on the command line (219-223). *)
Record block := mkBlock { k_group : bytes; k_topic : bytes; k_rows : list (prow * option bytes) }.
(** get-pending.go:211-224 *)
Definition block_of (g t : bytes) (o : option (list (Z * bytes))) (rows : list prow) : block :=
  mkBlock g t (map (fun r => (r, match o with Some l => Some (owner (fst r) l) | None => None end)) rows).
(** get-pending.go:283-287: the topics of a group; an error is only logged *)
Fixpoint gp_topics (pend : bytes -> bytes -> res (list prow)) (g : bytes) (l : subs) : list block * res unit :=
  match l with
  | [] => ([], Ok tt)
  | (t, o) :: l' =>
      match pend g t with
      | Ok rows => let '(b, r) := gp_topics pend g l' in (block_of g t (Some o) rows :: b, r)
      | Err _ => gp_topics pend g l'
      | Panic => ([], Panic)
      | Unspec => ([], Unspec)
      end
  end.
(** get-pending.go:269-289: the groups; [order] is the order in which the map of line 283 is
    traversed *)
Fixpoint gp_groups (topic : bytes) (desc : bytes -> res (list (list (bytes * bytes)))) (pend : bytes -> bytes -> res (list prow))
    (order : subs -> subs) (l : list bytes) : list block * res unit :=
  match l with
  | [] => ([], Ok tt)
  | g :: l' =>
      match getSubscriptions (desc g) with
      | Ok s =>
          let '(b, r) := match topic with
                         | [] => gp_topics pend g (order s)
                         | _ => match pend g topic with
                                | Ok rows => ([block_of g topic None rows], Ok tt)
                                | Err _ => ([], Ok tt)
                                | Panic => ([], Panic)
                                | Unspec => ([], Unspec)
                                end
                         end in
          match r with
          | Ok _ => let '(b', r') := gp_groups topic desc pend order l' in (b ++ b', r')
          | r => (b, r)
          end
      | Err _ => gp_groups topic desc pend order l'
      | Panic => ([], Panic)
      | Unspec => ([], Unspec)
      end
  end.
(** get-pending.go:235-291: [nb] is the outcome of NewBrokers, [all] what helper.GetGroups
    returns (None: nil), [desc] the answer about a group, [pend] what getPending reads.
    The result is what is printed and what RunE returns. *)
Definition get_pending (nb : res unit) (garg topic : bytes) (all : option (list bytes))
    (desc : bytes -> res (list (list (bytes * bytes)))) (pend : bytes -> bytes -> res (list prow))
    (order : subs -> subs) : list block * res unit :=
  match nb with
  | Ok _ =>
      match getGroups garg (match all with Some l => l | None => [] end) with
      | Ok gs => gp_groups topic desc pend order gs
      | Err e => ([], Err e)
      | Panic => ([], Panic)
      | Unspec => ([], Unspec)
      end
  | Err e => ([], Err e)
  | Panic => ([], Panic)
  | Unspec => ([], Unspec)
  end.

(** ** get-offsets.go:46-66 *)

(** the partitions of all answers, sorted by partition (53-61); the order of entries of the same
    partition is not determined by sort.Slice: here it is that of the answers *)
Definition sorted_parts (rs : list (list (bytes * list poff))) : list poff :=
  isort (fun a b : poff => fst a <? fst b) (flat_map (flat_map snd) rs).
(** get-offsets.go:62-66: partition, timestamp, offset; GetOffset may panic *)
Fixpoint offset_lines (l : list poff) : res (list (Z * (Z * Z))) :=
  match l with
  | [] => Ok []
  | p :: l' => rbind (getPartitionOffset p) (fun o => rbind (offset_lines l') (fun r =>
                 Ok ((fst p, (fst (snd (snd (snd p))), o)) :: r)))
  end.
(** get-offsets.go:40-68 *)
Definition get_offsets (nb : res unit) (rs : res (list (list (bytes * list poff)))) : res (list (Z * (Z * Z))) :=
  rbind nb (fun _ => rbind rs (fun rs => offset_lines (sorted_parts rs))).

(** ** Flags of the ACL commands *)

(** a Go string of ASCII bytes as a text *)
Fixpoint text_of (s : bytes) : string :=
  match s with [] => EmptyString | c :: s' => String (ascii_of_nat (Z.to_nat c)) (text_of s') end.
(** json.Unmarshal of the flag between quotes into an enumeration (delete-acls.go:34-35, 45,
    69, 72 and likewise in describe-acls.go and create-acls.go): the text is given to
    UnmarshalText; the error is ignored and the field keeps its zero. *)
Definition acl_flag (parse : string -> option Z) (s : bytes) : res Z :=
  match json_text s with
  | Ok t => Ok (match parse (text_of t) with Some v => v | None => 0 end)
  | Err _ => Ok 0
  | Panic => Panic
  | Unspec => Unspec
  end.
(** the flags: [None] for one that is not given; the texts of the others have a default
    (delete-acls.go:90-96) *)
Record acl_args := mkArgs {
  a_rtype : bytes; a_resource : option bytes; a_ptype : bytes; a_principal : option bytes; a_host : option bytes;
  a_op : bytes; a_perm : bytes
}.
(** the filter of the request *)
Record acl_filter := mkFilter {
  f_rtype : Z; f_resource : option bytes; f_ptype : Z; f_principal : option bytes; f_host : option bytes;
  f_op : Z; f_perm : Z
}.
(** delete-acls.go:31-73, describe-acls.go:31-72 *)
Definition acl_filter_of (a : acl_args) : res acl_filter :=
  rbind (acl_flag rtype_parse (a_rtype a)) (fun rt =>
  rbind (match a_resource a with None => Ok None | Some s => acl_filter_arg s end) (fun rn =>
  rbind (acl_flag ptype_parse (a_ptype a)) (fun pt =>
  rbind (acl_flag op_parse (a_op a)) (fun op =>
  rbind (acl_flag perm_parse (a_perm a)) (fun pm =>
  Ok (mkFilter rt rn pt (a_principal a) (a_host a) op pm)))))).

(** ** Resource types of the configuration commands *)

(** describe_configs_request.go:6-17 ConvertConfigResourceType *)
Definition ConvertConfigResourceType (s : string) : Z :=
  if String.eqb s "topic" then 2 else if String.eqb s "broker" then 4 else if String.eqb s "broker_logger" then 8 else 0.
(** the broker a request goes to: the one of a number, or the controller *)
Inductive server := ToBroker (n : Z) | ToController.
(** client.go:357-381 DescribeConfigs: the type in the request and the broker asked *)
Definition describe_configs (rtype : string) (name : bytes) : res (Z * server) :=
  if String.eqb rtype "broker" then
    match atoi name with
    | Some n => Ok (ConvertConfigResourceType rtype, ToBroker (sint 32 n))
    | None => Err (EInvalid 70)
    end
  else Ok (ConvertConfigResourceType rtype, ToController).
(** alter-configs.go:47-56 *)
Definition alter_configs (rtype : string) (name : bytes) : res (Z * server) :=
  Ok (ConvertConfigResourceType rtype, ToController).

(** ** The printing consumers *)

(** a message as the commands see it *)
Record pmsg := mkPmsg { p_offset : Z; p_value : bytes }.
(** a line printed *)
Inductive line := LFull (offset : Z) (value : bytes) | LValue (value : bytes) | LJson (m : pmsg).
(** simple-consumer.go:90-103; the result of json.Marshal is not modelled further *)
Definition show (json po : bool) (m : pmsg) : line :=
  if json then LJson m else if po then LFull (p_offset m) (p_value m) else LValue (p_value m).
(** simple-consumer.go:80-104 on the messages that arrive, [n] of the loop left.  The result: the
    lines and whether the loop has ended (otherwise it waits for the next message).  Messages
    with an error do not reach the channel (simple_consumer.go:468-496). *)
Fixpoint simple_loop (n : nat) (stop : Z) (json po : bool) (ms : list pmsg) : list line * bool :=
  match n, ms with
  | O, _ => ([], true)
  | _, [] => ([], false)
  | S n', m :: ms' =>
      if (0 <? stop) && (stop <=? p_offset m) then ([], true)
      else let '(l, e) := simple_loop n' stop json po ms' in (show json po m :: l, e)
  end.
(** simple-consumer.go:80: a negative limit is none at all left *)
Definition simple_consumer (max stop : Z) (json po : bool) (ms : list pmsg) : list line * bool :=
  simple_loop (Z.to_nat max) stop json po ms.
(** console-consumer.go:79-87; the flag printoffset (96) is not read *)
Definition console_consumer (max : Z) (json po : bool) (ms : list pmsg) : list line * bool :=
  simple_loop (Z.to_nat max) 0 json true ms.
(** group-consumer.go:77-98 without the signal; the message is printed before the limit is
    looked at; topic and partition (91) are left out *)
Fixpoint group_loop (i max : Z) (json : bool) (ms : list pmsg) : list line * bool :=
  match ms with
  | [] => ([], false)
  | m :: ms' =>
      if (0 <? max) && (max <=? i + 1) then ([show json true m], true)
      else let '(l, e) := group_loop (i + 1) max json ms' in (show json true m :: l, e)
  end.
(** group-consumer.go:77-98 *)
Definition group_consumer (max : Z) (json : bool) (ms : list pmsg) : list line * bool := group_loop 0 max json ms.

(** ** The settings given as JSON (console-consumer.go:22-54, simple-consumer.go:23-66,
    group-consumer.go:25-61, simple-producer.go:24-48, console-producer.go:23-43) *)

(** encoding/json: the rest of a string after the opening quote; the bytes and what follows the
    closing quote.  Escapes other than of one byte, and bytes beyond ASCII, are [Unspec]. *)
Fixpoint jstring (s : bytes) : res (bytes * bytes) :=
  match s with
  | [] => Err (EInvalid 70)
  | c :: s' =>
      if c =? 34 then Ok ([], s')
      else if c =? 92 then Unspec
      else if c <? 32 then Err (EInvalid 70)
      else if 127 <? c then Unspec
      else rbind (jstring s') (fun x => Ok (c :: fst x, snd x))
  end.
(** encoding/json: one byte that has to come next *)
Definition jbyte (c : Z) (s : bytes) : res bytes :=
  match s with
  | d :: s' => if d =? c then Ok s' else if existsb (Z.eqb d) [32; 9; 10; 13] then Unspec else Err (EInvalid 70)
  | [] => Err (EInvalid 70)
  end.
(** encoding/json: an object whose values are strings, without white space, after its opening
    brace.  White space and other values are [Unspec]; [n] bounds the number of members. *)
Fixpoint jmembers (n : nat) (s : bytes) : res (list (bytes * bytes)) :=
  match n with
  | O => Unspec
  | S n' =>
      rbind (jbyte 34 s) (fun s => rbind (jstring s) (fun k => rbind (jbyte 58 (snd k)) (fun s =>
      match s with
      | 34 :: s =>
          rbind (jstring s) (fun v =>
          match snd v with
          | 44 :: s => rbind (jmembers n' s) (fun r => Ok ((fst k, fst v) :: r))
          | [125] => Ok [(fst k, fst v)]
          | 125 :: _ => Unspec
          | _ => rbind (jbyte 44 (snd v)) (fun _ => Unspec)
          end)
      | _ => Unspec
      end)))
  end.
(** json.Unmarshal of a text into a map *)
Definition jobject (s : bytes) : res (list (bytes * bytes)) :=
  match s with
  | [] => Err (EInvalid 70)
  | [123; 125] => Ok []
  | 123 :: s' => jmembers (List.length s') s'
  | _ => rbind (jbyte 123 s) (fun _ => Unspec)
  end.
(** assignment to a key of a map *)
Fixpoint sput (k v : bytes) (m : list (bytes * bytes)) : list (bytes * bytes) :=
  match m with
  | [] => [(k, v)]
  | (k', w) :: m' => if beqb k' k then (k, v) :: m' else (k', w) :: sput k v m'
  end.
(** the settings the program goes on with, from those it starts with; the error is ignored *)
Definition with_settings (base : list (bytes * bytes)) (arg : bytes) : res (list (bytes * bytes)) :=
  match jobject arg with
  | Ok l => Ok (fold_left (fun m x => sput (fst x) (snd x) m) l base)
  | Err _ => Ok base
  | Panic => Panic
  | Unspec => Unspec
  end.
(** "bootstrap.servers" *)
Definition n_servers : bytes := [98; 111; 111; 116; 115; 116; 114; 97; 112; 46; 115; 101; 114; 118; 101; 114; 115].
(** "client.id" *)
Definition n_client : bytes := [99; 108; 105; 101; 110; 116; 46; 105; 100].
(** the settings from the flags (simple-consumer.go:23-30 and the others) *)
Definition base_settings (brokers client : bytes) : list (bytes * bytes) :=
  (n_servers, brokers) :: match client with [] => [] | _ => [(n_client, client)] end.

(** ** The lines read by the producers (simple-producer.go:56-66, console-producer.go:52-62) *)

(** bufio.ScanLines: a carriage return before the line feed is dropped *)
Fixpoint drop_cr (l : bytes) : bytes :=
  match l with
  | [] => []
  | [c] => if c =? 13 then [] else [c]
  | c :: l' => c :: drop_cr l'
  end.
(** the complete lines in the buffer, and the rest *)
Fixpoint cut_lines (s cur : bytes) : list bytes * bytes :=
  match s with
  | [] => ([], cur)
  | c :: s' =>
      if c =? 10 then let '(ls, r) := cut_lines s' [] in (drop_cr cur :: ls, r)
      else cut_lines s' (cur ++ [c])
  end.
(** bufio.Scanner with ScanLines: [rest] has no line feed; [chunks] is what the reads return.
    A line is handed to AddMessage, which copies it (simple_producer.go:139-140), before the next
    read.  Before a read the buffer must not be full: bufio.MaxScanTokenSize.  Reads that return
    nothing and errors of reading are not modelled.  The result: the lines and whether all was
    read. *)
Fixpoint scan (max : Z) (rest : bytes) (chunks : list bytes) : list bytes * res unit :=
  if max <=? zlen rest then ([], Err (EInvalid 71))
  else
    match chunks with
    | [] => (match rest with [] => [] | _ => [drop_cr rest] end, Ok tt)
    | c :: cs =>
        let '(ls, r) := cut_lines (rest ++ c) [] in
        let '(ls', e) := scan max r cs in (ls ++ ls', e)
    end.
(** bufio.MaxScanTokenSize *)
Definition max_token : Z := 65536.
(** the messages given to AddMessage, one for each line, and the error of scanner.Err *)
Definition read_lines (chunks : list bytes) : list bytes * res unit := scan max_token [] chunks.

(** ** Exit status *)

(** What a command does with the error of a call. *)
Inductive treat := Returned | Dropped.
(** The commands; for create-topic and create-partitions with and without an assignment. *)
Inductive cmd :=
| AlterConfigs | AlterReassign | Api | ConsoleConsumer | ConsoleProducer | CreateAcls | CreatePartitions
| CreatePartitionsAssign | CreateTopic | CreateTopicAssign | DeleteAcls | DeleteGroupsCmd | DeleteTopicsCmd | DescribeAcls
| DescribeConfigsCmd | DescribeGroups | DescribeLogdirs | ElectLeaders | GetMetadata | GetOffsets | GroupConsumer
| ListGroupsCmd | ListReassign | ResetOffset | SimpleConsumerCmd | SimpleProducerCmd.
(** The calls a command makes one after the other that can fail, and what it does with the error.
    Left out: reading declared flags and json.Marshal, which do not fail; get-pending (above);
    closing at the end; the loops over messages. *)
Definition calls_of (c : cmd) : list treat :=
  match c with
  | AlterConfigs => [Returned; Returned; Returned]   (* alter-configs.go:42 NewBrokers, 47 GetBroker, 56 RequestAndGet *)
  | AlterReassign => [Returned; Returned; Returned]  (* alter-partition-assignments.go:27 Unmarshal, 43 NewBrokers, 52 the call *)
  | Api => [Returned; Dropped]                       (* api.go:98-104 the credentials, 163 Run *)
  | ConsoleConsumer => [Dropped; Returned; Returned] (* console-consumer.go:54 Unmarshal, 61/68 NewConsumer, 74 Consume *)
  | ConsoleProducer => [Dropped; Returned; Returned; Returned] (* console-producer.go:43 Unmarshal, 45 NewProducer, 55 AddMessage, 60 Err *)
  | CreateAcls => [Returned; Dropped; Dropped; Dropped; Dropped; Dropped; Returned] (* create-acls.go:26 NewClient, 35-59 Unmarshal, 61 the call *)
  | CreatePartitions => [Returned; Returned; Returned]         (* create-partitions.go:66 NewClient, 73 the call, 79 Error *)
  | CreatePartitionsAssign => [Returned; Returned; Returned; Returned] (* create-partitions.go:88, 94 genPartitionAssignments, 100, 106 *)
  | CreateTopic => [Returned; Returned]              (* create-topic.go:59, 66 *)
  | CreateTopicAssign => [Returned; Returned; Returned; Returned] (* create-topic.go:81, 86, 97 Atoi, 113 *)
  | DeleteAcls => [Returned; Dropped; Dropped; Dropped; Dropped; Dropped; Returned] (* delete-acls.go:25, 35-72 Unmarshal, 74 *)
  | DeleteGroupsCmd => [Returned; Returned]          (* delete-groups.go:31, 38 *)
  | DeleteTopicsCmd => [Returned; Returned]          (* delete-topics.go:29, 35 *)
  | DescribeAcls => [Returned; Dropped; Dropped; Dropped; Dropped; Dropped; Returned] (* describe-acls.go:25, 35-72, 74 *)
  | DescribeConfigsCmd => [Returned; Returned]       (* describe-configs.go:42, 47 *)
  | DescribeGroups => [Returned; Returned; Returned; Returned] (* describe-groups.go:30, 35, 40, 48 *)
  | DescribeLogdirs => [Returned; Returned]          (* describe-logdirs.go:29, 35 *)
  | ElectLeaders => [Returned; Returned; Returned]   (* elect-leaders.go:24, 37, 47 *)
  | GetMetadata => [Returned; Dropped]               (* get-metadata.go:21, 29/31 RequestMetaData *)
  | GetOffsets => [Returned; Returned]               (* get-offsets.go:40, 47 *)
  | GroupConsumer => [Dropped; Returned; Returned]   (* group-consumer.go:61, 63, 72 *)
  | ListGroupsCmd => [Returned; Returned]            (* list-groups.go:24, 28 *)
  | ListReassign => [Returned; Returned; Returned]   (* list-partition-reassignments.go:38, 56, 66 *)
  | ResetOffset => [Returned; Returned; Returned; Returned; Returned; Returned; Returned] (* reset-offset.go:29, 35, 43, 50, 63, 68, 97 *)
  | SimpleConsumerCmd => [Dropped; Returned; Returned]   (* simple-consumer.go:66, 68, 74 *)
  | SimpleProducerCmd => [Dropped; Returned; Returned; Returned] (* simple-producer.go:48, 50, 59, 64 *)
  end.
(** The calls are made until one fails whose error is returned; [works k] tells how call [k]
    ends.  The result: the calls made and the exit status (root.go:20-25). *)
Fixpoint crun (works : nat -> bool) (k : nat) (l : list treat) : list nat * Z :=
  match l with
  | [] => ([], 0)
  | t :: l' =>
      if works k then let '(m, x) := crun works (S k) l' in (k :: m, x)
      else match t with
           | Returned => ([k], 1)
           | Dropped => let '(m, x) := crun works (S k) l' in (k :: m, x)
           end
  end.
(** root.go:20-25 Execute *)
Definition execute (c : cmd) (works : nat -> bool) : list nat * Z := crun works 0 (calls_of c).
