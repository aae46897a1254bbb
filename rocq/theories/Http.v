(** Model of the HTTP interface: command/healer/cmd/api.go and apicontrollers. *)
From Verif Require Import Base Text.

(** ** Basic authentication *)

(** encoding/base64 StdEncoding: the value of a digit *)
Definition b64val (c : Z) : option Z :=
  if (65 <=? c) && (c <=? 90) then Some (c - 65)
  else if (97 <=? c) && (c <=? 122) then Some (c - 71)
  else if (48 <=? c) && (c <=? 57) then Some (c + 4)
  else if c =? 43 then Some 62
  else if c =? 47 then Some 63
  else None.
(** encoding/base64 skips line ends *)
Definition newline (c : Z) : bool := (c =? 10) || (c =? 13).
(** encoding/base64 skips line ends *)
Fixpoint skip_newlines (s : bytes) : bytes :=
  match s with c :: s' => if newline c then skip_newlines s' else s | [] => [] end.
(** DecodeString with its error ignored (api.go:47): what was decoded before the error.  [acc]
    are the digits of the quantum being read; line breaks are skipped; after padding nothing
    more is read. *)
Fixpoint b64go (acc : list Z) (s : bytes) : bytes :=
  match s with
  | [] => []
  | c :: s' =>
      match b64val c with
      | Some d =>
          match acc with
          | [x; y; z] => [x * 4 + y / 16; y mod 16 * 16 + z / 4; z mod 4 * 64 + d] ++ b64go [] s'
          | _ => b64go (acc ++ [d]) s'
          end
      | None =>
          if newline c then b64go acc s'
          else if c =? 61 then
            match acc with
            | [x; y] => match skip_newlines s' with
                        | p :: _ => if p =? 61 then [x * 4 + y / 16] else []
                        | [] => []
                        end
            | [x; y; z] => [x * 4 + y / 16; y mod 16 * 16 + z / 4]
            | _ => []
            end
          else []
      end
  end.
(** base64.StdEncoding.DecodeString (api.go:47) *)
Definition b64decode (s : bytes) : bytes := b64go [] s.

(** "Basic" (api.go:42) *)
Definition t_basic : bytes := [66; 97; 115; 105; 99].
(** the methods of HTTP requests *)
Inductive method := GET | HEAD | OPTIONS | POST | PUT | DELETE.
(** api.go:35: the methods that may be let through *)
Definition reading (m : method) : bool := match m with GET | HEAD | OPTIONS => true | _ => false end.
(** api.go:32-57: is the request let through?  [auth] is the Authorization header, empty if
    there is none. *)
Definition BasicAuth (user pass : bytes) (getAllowed : bool) (m : method) (auth : bytes) : bool :=
  if getAllowed && reading m then true
  else match cut 32 auth with
       | None => false
       | Some (scheme, x) =>
           if negb (beqb scheme t_basic) then false
           else match cut 58 (b64decode x) with
                | None => false
                | Some (u, p) => beqb u user && beqb p pass
                end
       end.
(** api.go:96-105: [None]: the command fails; no authentication if the flag is empty *)
Definition api_auth (flag : bytes) (getAllowed : bool) : option (method -> bytes -> bool) :=
  match flag with
  | [] => Some (fun _ _ => true)
  | _ => match cut 58 flag with
         | Some (u, p) => Some (BasicAuth u p getAllowed)
         | None => None
         end
  end.

(** ** Handlers
    A handler is a list of steps, one per statement that matters here.  Calls have an outcome
    given from outside: success, an error without a value (nil), or an error with a value. *)
Inductive outcome := OOk | OErr | OErrData.
(** what is done about an error: report it with this status and return, report it and go on,
    or only log it *)
Inductive onerr := RepReturn (status : Z) | RepGoOn (status : Z) | LogOnly.
(** [v] numbers the pointers and interfaces of the handler *)
Inductive hstep :=
| HOpen (v : nat) (e : onerr)              (* NewClient, NewBrokers: nil on an error *)
| HDefer (v : nat)                         (* defer v.Close() *)
| HInput (e : onerr)                       (* BindJSON, Atoi, ParseInt *)
| HCall (u : nat) (v : option nat) (e : onerr) (* a method of u; the value, if it can be nil, is v *)
| HUse (v : nat)                           (* a field or method of v, or a type assertion *)
| HJSON                                    (* c.JSON(200, ...) *)
| HCallJSON (u : nat).                     (* if err != nil { 500 } else { c.JSON(200, ...) } *)
(** what happens: a reply is written, a connection is opened or closed, a panic (caught by
    gin.Recovery) *)
Inductive hev := EReply (status : Z) | EOpen (v : nat) | EClose (v : nat) | EPanic.

(** the variables that are nil *)
Definition is_nil (ns : list nat) (v : nat) : bool := existsb (Nat.eqb v) ns.
(** the deferred closes, last first; a nil receiver panics *)
Fixpoint closing (ns ds : list nat) : list hev :=
  match ds with [] => [] | d :: ds' => (if is_nil ns d then EPanic else EClose d) :: closing ns ds' end.
(** [o k] is the outcome of the [k]th call or input; [ns] the variables that are nil, [ds] the
    deferred closes, latest first *)
Fixpoint hrun (o : nat -> outcome) (k : nat) (ns ds : list nat) (l : list hstep) : list hev :=
  match l with
  | [] => closing ns ds
  | HOpen v e :: l' =>
      match o k with
      | OOk => EOpen v :: hrun o (S k) ns ds l'
      | _ => match e with
             | RepReturn s => EReply s :: closing ns ds
             | RepGoOn s => EReply s :: hrun o (S k) (v :: ns) ds l'
             | LogOnly => hrun o (S k) (v :: ns) ds l'
             end
      end
  | HDefer v :: l' => hrun o k ns (v :: ds) l'
  | HInput e :: l' =>
      match o k with
      | OOk => hrun o (S k) ns ds l'
      | _ => match e with
             | RepReturn s => EReply s :: closing ns ds
             | RepGoOn s => EReply s :: hrun o (S k) ns ds l'
             | LogOnly => hrun o (S k) ns ds l'
             end
      end
  | HCall u v e :: l' =>
      if is_nil ns u then EPanic :: closing ns ds
      else
        let ns' := match o k, v with OErr, Some v => v :: ns | _, _ => ns end in
        match o k with
        | OOk => hrun o (S k) ns ds l'
        | _ => match e with
               | RepReturn s => EReply s :: closing ns ds
               | RepGoOn s => EReply s :: hrun o (S k) ns' ds l'
               | LogOnly => hrun o (S k) ns' ds l'
               end
        end
  | HUse v :: l' => if is_nil ns v then EPanic :: closing ns ds else hrun o k ns ds l'
  | HJSON :: l' => EReply 200 :: hrun o k ns ds l'
  | HCallJSON u :: l' =>
      if is_nil ns u then EPanic :: closing ns ds
      else match o k with
           | OOk => EReply 200 :: hrun o (S k) ns ds l'
           | _ => EReply 500 :: hrun o (S k) ns ds l'
           end
  end.
(** a handler run with given outcomes *)
Definition handle (h : list hstep) (o : nat -> outcome) : list hev := hrun o 0 [] [] h.

(** The handlers.  Simplification: a Kafka error in GetMetadata (metadata.go:32-35), which is
    answered with 200 and the data, is left out. *)
Inductive handler :=
| ListGroups | DescribeGroups | GetPending | GetTopicConfig | AlterTopicConfig | GetTopicOffsets | GetTopicLogDirs
| DescribeAcls | DeleteAcls | CreateAcls | GetConfigs | CreatePartitions | DescribeLogdirs | GetMetadata
| ElectLeaders | ListPartitionReassignments | AlterPartitionReassignments.
(** the handlers of apicontrollers/ *)
Definition steps (h : handler) : list hstep :=
  match h with
  | ListGroups =>       (* group.go:20-36: the client is not closed *)
      [HOpen 0 (RepReturn 500); HCall 0 None (RepReturn 500); HJSON]
  | DescribeGroups =>   (* group.go:48-77 *)
      [HOpen 0 (RepGoOn 500); HCall 0 None (RepGoOn 500); HCall 0 (Some 1%nat) (RepGoOn 500); HUse 1;
       HCall 1 (Some 2%nat) (RepGoOn 500); HUse 2; HJSON]
  | GetPending =>       (* group.go:158-204; 180 is three requests, as one call *)
      [HOpen 0 (RepGoOn 500); HDefer 0; HCall 0 None LogOnly; HCall 0 None (RepReturn 500);
       HCall 0 None (RepReturn 500); HJSON]
  | GetTopicConfig | AlterTopicConfig => (* topic.go:24-55, 69-95 *)
      [HOpen 0 (RepReturn 500); HDefer 0; HCall 0 (Some 1%nat) (RepGoOn 500); HCallJSON 1]
  | GetTopicOffsets =>  (* topic.go:108-143 *)
      [HOpen 0 (RepReturn 500); HDefer 0; HInput (RepReturn 400); HCall 0 None (RepReturn 500); HJSON]
  | GetTopicLogDirs =>  (* topic.go:155-173 *)
      [HOpen 0 (RepReturn 500); HDefer 0; HCall 0 None (RepReturn 500); HJSON]
  | DescribeAcls | DeleteAcls | CreateAcls => (* acl.go:20-42, 53-75, 86-108 *)
      [HInput (RepReturn 400); HOpen 0 (RepReturn 500); HDefer 0; HCall 0 None (RepReturn 500); HJSON]
  | GetConfigs =>       (* configs.go:38-56 *)
      [HOpen 0 (RepReturn 500); HDefer 0; HCallJSON 0]
  | CreatePartitions => (* create-partitions.go:23-57 *)
      [HOpen 0 (RepReturn 500); HDefer 0; HInput (RepReturn 400); HCall 0 (Some 1%nat) (RepReturn 500);
       HCall 1 None (RepReturn 500); HJSON]
  | DescribeLogdirs =>  (* describe-logdirs.go:21-43: the client is not closed *)
      [HOpen 0 (RepGoOn 500); HInput (RepReturn 400); HCall 0 None (RepGoOn 500); HJSON]
  | GetMetadata =>      (* metadata.go:21-41 *)
      [HOpen 0 (RepReturn 500); HDefer 0; HCall 0 None (RepReturn 500); HJSON]
  | ElectLeaders =>     (* elect-leader.go:23-65 *)
      [HInput (RepReturn 400); HInput (RepReturn 400); HOpen 0 (RepReturn 500); HDefer 0;
       HCall 0 None (RepReturn 500); HJSON]
  | ListPartitionReassignments => (* partition-reassignments.go:23-72 *)
      [HInput (RepReturn 400); HOpen 0 (RepGoOn 500); HDefer 0; HInput (RepReturn 400);
       HCall 0 None (RepReturn 500); HJSON]
  | AlterPartitionReassignments => (* partition-reassignments.go:84-124 *)
      [HInput (RepReturn 400); HOpen 0 (RepReturn 500); HDefer 0; HInput (RepReturn 400);
       HCall 0 None (RepReturn 500); HJSON]
  end.
