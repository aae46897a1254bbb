(** Model of command line tools (command/healer/cmd): get-pending, reset-offset, create-topic,
    create-partitions, the arguments of the ACL commands, and the timeouts the tools and the
    HTTP handlers set.  The requests themselves are in Brokers.v; a tool is modelled as a
    function of the answers it gets. *)
From Verif Require Import Base Text Consumer Assign Builders Config.

(** ** Go maps from partition to offset: reading a missing key gives 0 *)
Fixpoint zget (k : Z) (m : list (Z * Z)) : Z :=
  match m with
  | [] => 0
  | (k', v) :: m' => if k' =? k then v else zget k m'
  end.
(** assignment to a key *)
Fixpoint zput (k v : Z) (m : list (Z * Z)) : list (Z * Z) :=
  match m with
  | [] => [(k, v)]
  | (k', w) :: m' => if k' =? k then (k, v) :: m' else (k', w) :: zput k v m'
  end.

(** ** get-pending.go *)

(** one partition of an offsets response, as in Responses.v: partition, error code, old style
    offsets, timestamp, offset *)
Notation poff := (Z * (Z * (list Z * (Z * Z))))%type.

(** get-pending.go:56-64, reset-offset.go:48-59: all partitions of all topics of an answer are
    put into one map *)
Fixpoint collect (ps : list poff) (m : list (Z * Z)) : res (list (Z * Z)) :=
  match ps with
  | [] => Ok m
  | p :: ps' => rbind (getPartitionOffset p) (fun o => collect ps' (zput (fst p) o m))
  end.
(** get-pending.go:56-64, reset-offset.go:48-59 *)
Definition offsets_of (rs : list (list (bytes * list poff))) : res (list (Z * Z)) :=
  collect (flat_map (flat_map snd) rs) [].

(** get-pending.go:92-98, from the topics of an offset fetch response *)
Definition committed_of (ts : list (bytes * list (Z * (Z * (bytes * Z))))) : list (Z * Z) :=
  fold_left (fun m (p : Z * (Z * (bytes * Z))) => zput (fst p) (fst (snd p)) m) (flat_map snd ts) [].

(** get-pending.go:28-44 getPartitions *)
Definition partitions_of (md : list (bytes * list Z)) : list Z := isort Z.ltb (flat_map snd md).

(** a printed line: partition, end offset, committed offset, lag *)
Notation prow := (Z * (Z * (Z * Z)))%type.
(** get-pending.go:212-215 *)
Definition pending_row (offs coms : list (Z * Z)) (p : Z) : prow :=
  let o := zget p offs in let c := zget p coms in
  (p, (o, (c, if o =? -1 then 0 else sint 64 (o - c)))).
(** get-pending.go:216-218: the three sums, in int64 *)
Definition add3 (a : Z * (Z * Z)) (r : prow) : Z * (Z * Z) :=
  (sint 64 (fst a + fst (snd r)), (sint 64 (fst (snd a) + fst (snd (snd r))), sint 64 (snd (snd a) + snd (snd (snd r))))).
(** get-pending.go:181-229 getPending, the answers given: the lines and the TOTAL line *)
Definition getPending (rs : res (list (list (bytes * list poff)))) (md : res (list (bytes * list Z)))
    (cs : res (list (bytes * list (Z * (Z * (bytes * Z)))))) : res (list prow * (Z * (Z * Z))) :=
  rbind rs (fun rs => rbind (offsets_of rs) (fun offs =>
  rbind md (fun md => rbind cs (fun cs =>
  let rows := map (pending_row offs (committed_of cs)) (partitions_of md) in
  Ok (rows, fold_left add3 rows (0, (0, 0))))))).

(** ** getGroups (get-pending.go:153-179): a pattern with * is turned into a regular expression *)

(** The regular expressions that arise from patterns of plain text, dots and stars. *)
Inductive rx := RLit (c : Z) | RMany (* .* *).
(** bytes with a meaning of their own in Go's regular expressions, other than dot, star and
    backslash *)
Definition is_meta (c : Z) : bool :=
  existsb (Z.eqb c) [43; 63; 40; 41; 91; 93; 123; 125; 124; 94; 36] (* + ? ( ) [ ] { } | ^ $ *).
(** regexp.MustCompile, where it is modelled: escaped dots, [.*], plain bytes.  Anything else
    is [Unspec], except one case known to be an error, a parenthesis that is not closed
    (an opening one, and no closing one, no backslash and no bracket in the text), where it
    panics. *)
Fixpoint rx_parse (s : bytes) : res (list rx) :=
  match s with
  | [] => Ok []
  | c :: s' =>
      if c =? 92 (* \ *) then
        match s' with
        | d :: s'' => if d =? 46 then rbind (rx_parse s'') (fun r => Ok (RLit 46 :: r)) else Unspec
        | [] => Unspec
        end
      else if c =? 46 (* . *) then
        match s' with
        | d :: s'' => if d =? 42 (* * *) then rbind (rx_parse s'') (fun r => Ok (RMany :: r)) else Unspec
        | [] => Unspec
        end
      else if (c =? 42) || is_meta c || (127 <? c) then Unspec
      else rbind (rx_parse s') (fun r => Ok (RLit c :: r))
  end.
(** regexp.MustCompile (get-pending.go:163) *)
Definition mustCompile (s : bytes) : res (list rx) :=
  if existsb (Z.eqb 40) s && negb (existsb (fun c => existsb (Z.eqb c) [41; 91; 93; 92]) s) then Panic
  else rx_parse s.
(** matching a whole text; a dot does not match a line feed *)
Fixpoint rx_match (r : list rx) (s : bytes) : bool :=
  match r with
  | [] => match s with [] => true | _ => false end
  | RLit c :: r' => match s with x :: s' => (x =? c) && rx_match r' s' | [] => false end
  | RMany :: r' =>
      (fix many (s : bytes) : bool :=
         rx_match r' s || match s with [] => false | x :: s' => negb (x =? 10) && many s' end) s
  end.
(** get-pending.go:153-179; [all] is what helper.GetGroups returns *)
Definition getGroups (g : bytes) (all : list bytes) : res (list bytes) :=
  match g with
  | [] => Ok all
  | _ =>
      if negb (existsb (Z.eqb 42) g) then Ok [g]
      else rbind (mustCompile (replace 42 [46; 42] (replace 46 [92; 46] g))) (fun r => Ok (filter (rx_match r) all))
  end.

(** ** reset-offset.go *)

(** spf13/pflag GetString: the value of a declared flag; an error and the empty text for a
    name that was not declared.  The error is overwritten (reset-offset.go:16-23). *)
Definition flag_text (flags : list (bytes * bytes)) (name : bytes) : bytes :=
  match find (fun f => beqb (fst f) name) flags with Some (_, v) => v | None => [] end.
(** the flags reset-offset.go:105-114 and root.go declare that hold text; the storage flag is
    called "offsets.storage" (110); the other names do not matter here and are one byte *)
Definition n_storage : bytes := [111; 102; 102; 115; 101; 116; 115; 46; 115; 116; 111; 114; 97; 103; 101].
(** the name asked for in line 21: "offset.storage" *)
Definition n_storage_read : bytes := [111; 102; 102; 115; 101; 116; 46; 115; 116; 111; 114; 97; 103; 101].
(** "zookeeper" (reset-offset.go:78) *)
Definition v_zookeeper : bytes := [122; 111; 111; 107; 101; 101; 112; 101; 114].
(** the flags reset-offset.go declares *)
Definition reset_flags (brokers client topic group storage : bytes) : list (bytes * bytes) :=
  [([98], brokers); ([99], client); ([116], topic); ([103], group); (n_storage, storage)].
(** reset-offset.go:75-83 *)
Definition reset_version (storage : bytes) : Z :=
  if beqb (flag_text (reset_flags [] [] [] [] storage) n_storage_read) v_zookeeper then 0 else 2.
(** reset-offset.go:28-99: [order] is the order in which the map of offsets is traversed.  The result is the
    version and the entries of the commit request, or an error before it. *)
Definition reset_offset (topic : bytes) (sel : list Z) (storage : bytes) (meta : res unit)
    (rs : res (list (list (bytes * list poff)))) (coord : res unit)
    (order : list (Z * Z) -> list (Z * Z)) : res (Z * list (bytes * list (Z * (Z * bytes)))) :=
  rbind meta (fun _ => rbind rs (fun rs => rbind (offsets_of rs) (fun offs => rbind coord (fun _ =>
  Ok (reset_version storage,
      fold_left (fun r (x : Z * Z) =>
        if match sel with [] => true | _ => existsb (Z.eqb (fst x)) sel end
        then oc_add r topic (fst x) (snd x) [] else r) (order offs) []))))).

(** ** create-topic.go:91-111, the request with a replica assignment *)

(** the node ids between colons; an error if one is not a number *)
Fixpoint ids_of (ws : list bytes) : option (list Z) :=
  match ws with
  | [] => Some []
  | w :: ws' =>
      match atoi w, ids_of ws' with
      | Some x, Some l => Some (sint 32 x :: l)
      | _, _ => None
      end
  end.
(** create-topic.go:93-103: partition number to replicas *)
Fixpoint replicas_from (pid : Z) (ws : list bytes) : option (list (Z * list Z)) :=
  match ws with
  | [] => Some []
  | w :: ws' =>
      match ids_of (split 58 w), replicas_from (pid + 1) ws' with
      | Some l, Some m => Some ((sint 32 pid, l) :: m)
      | _, _ => None
      end
  end.
(** create-topic.go:91-111: the topics of the request; [order] is the order in which the map is traversed;
    the errors of AddReplicaAssignment are ignored (110) *)
Definition create_topic (topic : bytes) (arg : bytes) (order : list (Z * list Z) -> list (Z * list Z)) : option (list ctopic) :=
  match replicas_from 0 (split 44 arg) with
  | None => None
  | Some m => Some (ct_run [] (CAddTopic topic (-1) (-1) :: map (fun x => CAddReplicas topic (fst x) (snd x)) (order m)))
  end.

(** ** create-partitions.go:12-28 genPartitionAssignments *)

(** create-partitions.go:18-24 for entry [i]: the slice [partitionAssignments[i]] is extended *)
Fixpoint extend (i : nat) (x : Z) (l : list (list Z)) : option (list (list Z)) :=
  match l, i with
  | [], _ => None
  | y :: l', O => Some ((y ++ [x]) :: l')
  | y :: l', S i' => match extend i' x l' with Some l'' => Some (y :: l'') | None => None end
  end.
(** create-partitions.go:18-24: the numbers of one entry *)
Fixpoint gen_one (i : nat) (ws : list bytes) (acc : list (list Z)) : res (list (list Z)) :=
  match ws with
  | [] => Ok acc
  | w :: ws' =>
      match atoi w with
      | None => Err (EInvalid 70)
      | Some x => match extend i (sint 32 x) acc with None => Panic | Some acc' => gen_one i ws' acc' end
      end
  end.
(** create-partitions.go:13-25: all entries *)
Fixpoint gen_all (i : nat) (es : list bytes) (acc : list (list Z)) : res (list (list Z)) :=
  match es with
  | [] => Ok acc
  | [] :: es' => gen_all (S i) es' acc
  | e :: es' => rbind (gen_one i (split 58 e) (acc ++ [[]])) (gen_all (S i) es')
  end.
(** create-partitions.go:12-27 genPartitionAssignments *)
Definition genPartitionAssignments (s : bytes) : res (list (list Z)) := gen_all 0 (split 44 s) [].

(** ** The resource argument of the ACL commands
    (delete-acls.go:37-40, describe-acls.go:37-40; create-acls.go:36-39 likewise)
    json.Unmarshal of the argument between quotes.  [Err]: not a JSON text.  \u escapes and
    bytes beyond ASCII are [Unspec]. *)
Fixpoint json_text (s : bytes) : res bytes :=
  match s with
  | [] => Ok []
  | c :: s' =>
      if c =? 34 then Err (EInvalid 70)
      else if c =? 92 then
        match s' with
        | [] => Err (EInvalid 70)
        | d :: s'' =>
            if d =? 117 then Unspec
            else match
              (if existsb (Z.eqb d) [34; 92; 47] then Some d
               else if d =? 98 then Some 8 else if d =? 102 then Some 12 else if d =? 110 then Some 10
               else if d =? 114 then Some 13 else if d =? 116 then Some 9 else None)
            with
            | None => Err (EInvalid 70)
            | Some x => rbind (json_text s'') (fun r => Ok (x :: r))
            end
        end
      else if c <? 32 then Err (EInvalid 70)
      else if 127 <? c then Unspec
      else rbind (json_text s') (fun r => Ok (c :: r))
  end.
(** the filter field set from the argument; the error is ignored: nil, which matches any *)
Definition acl_filter_arg (s : bytes) : res (option bytes) :=
  match json_text s with
  | Ok x => Ok (Some x)
  | Err _ => Ok None
  | Panic => Panic
  | Unspec => Unspec
  end.

(** ** Timeouts *)

(** The commands and HTTP handlers with a timeout argument. *)
Inductive tool :=
| CmdAlterReassign    (* alter-partition-assignments.go:36-52 *)
| CmdCreateTopicAssign (* create-topic.go:77-113, with a replica assignment *)
| CmdCreateTopic      (* create-topic.go:57-75 *)
| CmdListReassign     (* list-partition-reassignments.go:29-66 *)
| CmdElect            (* elect-leaders.go:21-47 *)
| CmdCreatePartitions (* create-partitions.go:63-100 *)
| HttpAlterReassign   (* apicontrollers/partition-reassignments.go:91-118 *)
| HttpElect           (* apicontrollers/elect-leader.go:35-59 *)
| HttpListReassign.   (* apicontrollers/partition-reassignments.go:29-65 *)
(** request.go:7-48: the API key of the request a tool sends *)
Definition tool_api (t : tool) : nat :=
  match t with
  | CmdAlterReassign | HttpAlterReassign => 45
  | CmdCreateTopicAssign | CmdCreateTopic => 19
  | CmdListReassign | HttpListReassign => 46
  | CmdElect | HttpElect => 43
  | CmdCreatePartitions => 37
  end%nat.
(** Net.TimeoutMSForEachAPI of the configuration the tool connects with: 68 zeros with one
    entry set, or nil with NewClient and NewBrokers (client.go:24, brokers.go:122), which is
    also the case where a configuration is made but not passed on (list-partition-
    reassignments.go:34-38, apicontrollers/partition-reassignments.go:43-47) *)
Definition tool_slice (t : tool) (ms : Z) : list Z :=
  match t with
  | CmdAlterReassign | HttpAlterReassign => set_nth 45 ms (repeat 0 68)
  | CmdCreateTopicAssign => set_nth 19 ms (repeat 0 68)
  | HttpElect => set_nth 45 ms (repeat 0 68)
  | CmdCreateTopic | CmdListReassign | CmdElect | CmdCreatePartitions | HttpListReassign => []
  end.
(** config.go:39-53 DefaultBrokerConfig, line 43 *)
Definition default_timeout : Z := 30000.
(** how long the client waits for the answer: broker.go:220-225 *)
Definition tool_wait (t : tool) (ms : Z) : Z :=
  request_timeout [tool_slice t ms] (mkCC default_timeout 0 0 (Some O) [] [] 0) (tool_api t).
