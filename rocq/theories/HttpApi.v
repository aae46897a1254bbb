(** Model of what the HTTP interface asks the cluster for: routes, parameters and bodies of
    command/healer/cmd/api.go and apicontrollers.  Replies, connections and failures of calls
    are in Http.v. *)
From Coq Require Import String Ascii.
From Verif Require Import Base Text Http Acl Requests Builders Tools Commands Calls.

(** a text of the program *)
Fixpoint lit (s : string) : bytes :=
  match s with EmptyString => [] | String c s' => Z.of_nat (nat_of_ascii c) :: lit s' end.

(** ** net/url *)

(** net/url unhex *)
Definition unhex (c : Z) : option Z :=
  if (48 <=? c) && (c <=? 57) then Some (c - 48)
  else if (97 <=? c) && (c <=? 102) then Some (c - 87)
  else if (65 <=? c) && (c <=? 70) then Some (c - 55)
  else None.
(** net/url unescape; [plus]: in a query + stands for a space *)
Fixpoint unescape (plus : bool) (s : bytes) : option bytes :=
  match s with
  | [] => Some []
  | c :: s' =>
      if c =? 37 then
        match s' with
        | a :: b :: s'' =>
            match unhex a, unhex b with
            | Some x, Some y => option_map (cons (16 * x + y)) (unescape plus s'')
            | _, _ => None
            end
        | _ => None
        end
      else option_map (cons (if plus && (c =? 43) then 32 else c)) (unescape plus s')
  end.
(** net/url parseQuery, one piece between two &: pieces with ; or a bad escape are dropped *)
Definition query_pair (s : bytes) : list (bytes * bytes) :=
  match s with
  | [] => []
  | _ =>
      if existsb (Z.eqb 59) s then []
      else let kv := match cut 61 s with Some kv => kv | None => (s, []) end in
           match unescape true (fst kv), unescape true (snd kv) with
           | Some k, Some v => [(k, v)]
           | _, _ => []
           end
  end.
(** net/url parseQuery *)
Definition parse_query (raw : bytes) : list (bytes * bytes) := flat_map query_pair (split 38 raw).
(** gin Context.Query: the first value, empty if there is none *)
Definition query (k : bytes) (q : list (bytes * bytes)) : bytes :=
  match find (fun kv => beqb (fst kv) k) q with Some kv => snd kv | None => [] end.
(** gin Context.QueryArray: nil if there is none *)
Definition query_array (k : bytes) (q : list (bytes * bytes)) : option (list bytes) :=
  match map snd (filter (fun kv => beqb (fst kv) k) q) with [] => None | l => Some l end.

(** ** encoding/json, from values to Go structures
    Simplifications: the text is taken as parsed; the names of fields are compared up to ASCII
    case; the key TaggedFields of the ACL structures is not read. *)
Inductive json := JNull | JBool (b : bool) | JInt (z : Z) | JNum (* with fraction or exponent *) | JStr (s : bytes)
| JArr (l : list json) | JObj (l : list (bytes * json)).
(** the body of a request: none, not JSON, or JSON *)
Inductive hbody := BEmpty | BBad | BJson (j : json).

(** encoding/json foldFunc: a key is a field if it is its name up to case *)
Definition low (c : Z) : Z := if (65 <=? c) && (c <=? 90) then c + 32 else c.
(** encoding/json foldFunc *)
Definition same_key (a : bytes) (b : string) : bool := beqb (map low a) (map low (lit b)).
(** null leaves strings and numbers as they are; a value of another kind is an error *)
Definition jtext (v : json) (old : bytes) : option bytes :=
  match v with JNull => Some old | JStr s => Some s | _ => None end.
(** integers of [n] bits; out of range is an error *)
Definition jint (n : Z) (v : json) (old : Z) : option Z :=
  match v with
  | JNull => Some old
  | JInt z => if (- 2 ^ (n - 1) <=? z) && (z <? 2 ^ (n - 1)) then Some z else None
  | _ => None
  end.
(** a pointer to a string *)
Definition jptr (v : json) (old : option bytes) : option (option bytes) :=
  match v with JNull => Some None | JStr s => Some (Some s) | _ => None end.
(** a type with UnmarshalText takes strings only *)
Definition jenum (parse : string -> option Z) (v : json) (old : Z) : option Z :=
  match v with JNull => Some old | JStr s => parse (text_of s) | _ => None end.
(** all values of a list, if all are good *)
Fixpoint all_of {A} (f : json -> option A) (l : list json) : option (list A) :=
  match l with
  | [] => Some []
  | v :: l' => match f v, all_of f l' with Some x, Some xs => Some (x :: xs) | _, _ => None end
  end.
(** slices; null gives nil *)
Definition jlist {A} (f : json -> option A) (v : json) : option (list A) :=
  match v with JNull => Some [] | JArr l => all_of f l | _ => None end.
(** structures: the members one after the other *)
Fixpoint jmembers {A} (set : bytes -> json -> A -> option A) (l : list (bytes * json)) (a : A) : option A :=
  match l with
  | [] => Some a
  | (k, v) :: l' => match set k v a with Some a' => jmembers set l' a' | None => None end
  end.
(** a structure whose fields are zero before *)
Definition jstruct {A} (set : bytes -> json -> A -> option A) (zero : A) (v : json) : option A :=
  match v with JNull => Some zero | JObj l => jmembers set l zero | _ => None end.
(** gin Context.BindJSON (no validation is asked for) *)
Definition bind {A} (f : json -> option A) (b : hbody) : option A :=
  match b with BJson j => f j | _ => None end.

(** elect-leader.go:24-27, partition-reassignments.go:24-27 *)
Definition set_tp (k : bytes) (v : json) (a : bytes * Z) : option (bytes * Z) :=
  if same_key k "topic" then option_map (fun t => (t, snd a)) (jtext v (fst a))
  else if same_key k "partition" then option_map (fun p => (fst a, p)) (jint 32 v (snd a))
  else Some a.
(** partition-reassignments.go:85-89 *)
Definition set_replicas (k : bytes) (v : json) (a : bytes * (Z * list Z)) : option (bytes * (Z * list Z)) :=
  if same_key k "topic" then option_map (fun t => (t, snd a)) (jtext v (fst a))
  else if same_key k "partition" then option_map (fun p => (fst a, (p, snd (snd a)))) (jint 32 v (fst (snd a)))
  else if same_key k "replicas" then option_map (fun r => (fst a, (fst (snd a), r))) (jlist (fun x => jint 32 x 0) v)
  else Some a.
(** create-partitions.go:32-36: topic, count, timeout *)
Definition set_count (k : bytes) (v : json) (a : bytes * (Z * Z)) : option (bytes * (Z * Z)) :=
  if same_key k "topic" then option_map (fun t => (t, snd a)) (jtext v (fst a))
  else if same_key k "count" then option_map (fun n => (fst a, (n, snd (snd a)))) (jint 32 v (fst (snd a)))
  else if same_key k "timeout" then option_map (fun n => (fst a, (fst (snd a), n))) (jint 64 v (snd (snd a)))
  else Some a.
(** describe-logdirs.go:29-31 *)
Definition set_topics (k : bytes) (v : json) (a : list bytes) : option (list bytes) :=
  if same_key k "topics" then jlist (fun x => jtext x []) v else Some a.

(** describe_acls_request.go:12-21, delete_acls_request.go:8-17: a filter, as in Calls.v *)
Notation filter_t := (Z * (option bytes * (Z * (option bytes * (option bytes * (Z * Z))))))%type.
(** describe_acls_request.go:12-21, delete_acls_request.go:8-17 *)
Definition set_filter (k : bytes) (v : json) (a : filter_t) : option filter_t :=
  let '(rt, (rn, (pt, (pr, (ho, (op, pe)))))) := a in
  if same_key k "ResourceType" then option_map (fun x => (x, (rn, (pt, (pr, (ho, (op, pe))))))) (jenum rtype_parse v rt)
  else if same_key k "ResourceName" then option_map (fun x => (rt, (x, (pt, (pr, (ho, (op, pe))))))) (jptr v rn)
  else if same_key k "PatternType" then option_map (fun x => (rt, (rn, (x, (pr, (ho, (op, pe))))))) (jenum ptype_parse v pt)
  else if same_key k "Principal" then option_map (fun x => (rt, (rn, (pt, (x, (ho, (op, pe))))))) (jptr v pr)
  else if same_key k "Host" then option_map (fun x => (rt, (rn, (pt, (pr, (x, (op, pe))))))) (jptr v ho)
  else if same_key k "Operation" then option_map (fun x => (rt, (rn, (pt, (pr, (ho, (x, pe))))))) (jenum op_parse v op)
  else if same_key k "PermissionType" then option_map (fun x => (rt, (rn, (pt, (pr, (ho, (op, x))))))) (jenum perm_parse v pe)
  else Some a.
(** the zero filter *)
Definition no_filter : filter_t := (0, (None, (0, (None, (None, (0, 0)))))).
(** create_acls_request.go:14-23, as in Calls.v *)
Notation creation_t := (Z * (bytes * (Z * (bytes * (bytes * (Z * Z))))))%type.
(** create_acls_request.go:14-23 *)
Definition set_creation (k : bytes) (v : json) (a : creation_t) : option creation_t :=
  let '(rt, (rn, (pt, (pr, (ho, (op, pe)))))) := a in
  if same_key k "ResourceType" then option_map (fun x => (x, (rn, (pt, (pr, (ho, (op, pe))))))) (jenum rtype_parse v rt)
  else if same_key k "ResourceName" then option_map (fun x => (rt, (x, (pt, (pr, (ho, (op, pe))))))) (jtext v rn)
  else if same_key k "PatternType" then option_map (fun x => (rt, (rn, (x, (pr, (ho, (op, pe))))))) (jenum ptype_parse v pt)
  else if same_key k "Principal" then option_map (fun x => (rt, (rn, (pt, (x, (ho, (op, pe))))))) (jtext v pr)
  else if same_key k "Host" then option_map (fun x => (rt, (rn, (pt, (pr, (x, (op, pe))))))) (jtext v ho)
  else if same_key k "Operation" then option_map (fun x => (rt, (rn, (pt, (pr, (ho, (x, pe))))))) (jenum op_parse v op)
  else if same_key k "PermissionType" then option_map (fun x => (rt, (rn, (pt, (pr, (ho, (op, x))))))) (jenum perm_parse v pe)
  else Some a.
(** the zero creation *)
Definition no_creation : creation_t := (0, ([], (0, ([], ([], (0, 0)))))).
(** acl.go:54: a list of pointers; null is a nil pointer *)
Definition jpointer {A} (f : json -> option A) (v : json) : option (option A) :=
  match v with JNull => Some None | _ => option_map Some (f v) end.

(** ** What the handlers ask *)

(** who is asked *)
Inductive whom := AnyBroker | EveryBroker | TheController | TheCoordinator (group : bytes) | Node (n : Z).
(** a request (a call of Calls.v), or an operation of the package that makes several: the
    offsets of all partitions (brokers.go RequestOffsets, partition -1, one offset), the log
    directories of topics (client.go:72-147), the offsets of a topic and the commits of a
    group *)
Inductive ask :=
| ACall (to : whom) (c : call)
| AOffsets (topic : bytes) (time : Z)
| ALogDirs (topics : list bytes)
| APending (group topic : bytes).
(** what becomes of a request: no route (404, or gin's redirect for a path that ends with a
    slash), a fixed answer, a redirect, a panic, an error without asking, or something is
    asked of the cluster with these bootstrap servers; then [status] is that of the reply if
    all goes well *)
Inductive reply := NoRoute | Fixed (status : Z) | Goto (location : bytes) | Crashes | Refused (status : Z)
| Asks (servers : bytes) (status : Z) (a : ask).

(** the routes *)
Inductive seg := Lit (s : string) | Par (name : string).
(** the handlers behind the routes *)
Inductive target :=
| RtRoot | RtHealth | RtMetadata | RtRedirect | RtOffsets | RtLogDirs | RtConfig | RtAlter | RtTopicConfigs | RtBrokerConfigs
| RtGroups | RtGroup | RtPending | RtReassign | RtElect | RtListing | RtPartitions | RtDescribeLogdirs
| RtDescribeAcls | RtCreateAcls | RtDeleteAcls.
(** api.go:125-162, without /swagger *)
Definition routes : list (method * list seg * target) :=
  [ (GET, [Lit ""], RtRoot);
    (GET, [Lit "health"], RtHealth);
    (GET, [Lit "metadata"], RtMetadata);
    (GET, [Lit "topic"; Par "topic"; Lit "configs"], RtRedirect);
    (GET, [Lit "topic"; Par "topic"; Lit "offsets"], RtOffsets);
    (GET, [Lit "topic"; Par "topic"; Lit "logdirs"], RtLogDirs);
    (GET, [Lit "topic"; Par "topic"; Lit "config"; Par "config"], RtConfig);
    (POST, [Lit "topic"; Par "topic"; Lit "config"; Par "config"; Par "value"], RtAlter);
    (GET, [Lit "configs"; Lit "topic"; Par "topic"], RtTopicConfigs);
    (GET, [Lit "configs"; Lit "broker"; Par "broker"], RtBrokerConfigs);
    (GET, [Lit "groups"], RtGroups);
    (GET, [Lit "group"; Par "group"], RtGroup);
    (GET, [Lit "group"; Par "group"; Lit "pending"; Par "topic"], RtPending);
    (POST, [Lit "alter-partition-reassignments"], RtReassign);
    (POST, [Lit "elect-leaders"], RtElect);
    (POST, [Lit "list-partition-reassignments"], RtListing);
    (POST, [Lit "create-partitions"], RtPartitions);
    (POST, [Lit "describe-logdirs"], RtDescribeLogdirs);
    (POST, [Lit "describe-acls"], RtDescribeAcls);
    (POST, [Lit "create-acls"], RtCreateAcls);
    (DELETE, [Lit "delete-acls"], RtDeleteAcls) ].
(** gin tree.go: a parameter is one piece of the path, and not empty *)
Fixpoint match_path (pat : list seg) (ws : list bytes) : option (list (string * bytes)) :=
  match pat, ws with
  | [], [] => Some []
  | Lit s :: pat', w :: ws' => if beqb w (lit s) then match_path pat' ws' else None
  | Par n :: pat', w :: ws' =>
      match w, match_path pat' ws' with
      | _ :: _, Some ps => Some ((n, w) :: ps)
      | _, _ => None
      end
  | _, _ => None
  end.
(** methods are compared by name *)
Definition method_eqb (a b : method) : bool :=
  match a, b with
  | GET, GET | HEAD, HEAD | OPTIONS, OPTIONS | POST, POST | PUT, PUT | DELETE, DELETE => true
  | _, _ => false
  end.
(** the route of a request and the parameters *)
Fixpoint route_in (rs : list (method * list seg * target)) (m : method) (ws : list bytes) : option (target * list (string * bytes)) :=
  match rs with
  | [] => None
  | ((m', pat), t) :: rs' =>
      if method_eqb m' m then match match_path pat ws with Some ps => Some (t, ps) | None => route_in rs' m ws end
      else route_in rs' m ws
  end.
(** gin Context.Param *)
Fixpoint param (k : string) (ps : list (string * bytes)) : bytes :=
  match ps with [] => [] | (n, v) :: ps' => if String.eqb n k then v else param k ps' end.

(** net/http: the path of a request target and its query; [None]: 400 *)
Definition parse_target (s : bytes) : option (bytes * bytes) :=
  let pq := match cut 63 s with Some pq => pq | None => (s, []) end in
  option_map (fun p => (p, snd pq)) (unescape false (fst pq)).

(** configs.go:38-56 *)
Definition configs_of (rtype : string) (name : bytes) (servers : bytes) : reply :=
  match describe_configs rtype name with
  | Ok (t, ToBroker n) => Asks servers 200 (ACall (Node n) (CKDescribeConfigs t name None))
  | Ok (t, ToController) => Asks servers 200 (ACall TheController (CKDescribeConfigs t name None))
  | _ => Refused 500
  end.

(** The handlers: group.go:20-36, 48-77, 158-204, topic.go:24-55, 69-95, 108-143, 155-173,
    acl.go:20-42, 53-75, 86-108, configs.go:20-56, create-partitions.go:23-57,
    describe-logdirs.go:21-43, metadata.go:21-41, elect-leader.go:23-65,
    partition-reassignments.go:23-72, 84-124 and api.go:127-141.
    Simplification: what is wrong with the input is found before what is wrong with the
    cluster.  gin's BindJSON sends status 400 itself on an error: in
    partition-reassignments.go:54-59, where an empty body is allowed, it stays. *)
Definition handle_at (t : target) (ps : list (string * bytes)) (raw : bytes) (b : hbody) : reply :=
  let q := parse_query raw in
  let servers := query (lit "bootstrap") q in
  match t with
  | RtRoot => Goto (lit "/swagger/index.html")
  | RtHealth => Fixed 200
  | RtMetadata => Asks servers 200 (ACall AnyBroker (CKMetadata (query_array (lit "topics") q)))
  | RtRedirect => Goto (lit "/configs/topic/" ++ param "topic" ps ++ lit "?" ++ raw)
  | RtOffsets =>
      match atoi (query (lit "timestamp") q) with
      | Some ts => Asks servers 200 (AOffsets (param "topic" ps) ts)
      | None => Refused 400
      end
  | RtLogDirs => Asks servers 200 (ALogDirs [param "topic" ps])
  | RtConfig => Asks servers 200 (ACall TheController (CKDescribeConfigs (ConvertConfigResourceType "topic") (param "topic" ps) (Some [param "config" ps])))
  | RtAlter => Asks servers 200 (ACall TheController (CKAlterConfig (ConvertConfigResourceType "topic") (param "topic" ps) (param "config" ps) (param "value" ps)))
  | RtTopicConfigs => configs_of "topic" (param "topic" ps) servers
  | RtBrokerConfigs => configs_of "broker" (param "broker" ps) servers
  | RtGroups => Asks servers 200 (ACall EveryBroker CKListGroups)
  | RtGroup => Asks servers 200 (ACall (TheCoordinator (param "group" ps)) (CKDescribeGroup (param "group" ps)))
  | RtPending => Asks servers 200 (APending (param "group" ps) (param "topic" ps))
  | RtReassign =>
      match atoi (query (lit "timeout") q), bind (jlist (jstruct set_replicas ([], (0, [])))) b with
      | Some ms, Some l => Asks servers 200 (ACall TheController (CKAlterReassignments (sint 32 ms) l))
      | _, _ => Refused 400
      end
  | RtElect =>
      match bind (jlist (jstruct set_tp ([], 0))) b, atoi (query (lit "timeout") q) with
      | Some l, Some ms => Asks servers 200 (ACall TheController (CKElectLeaders (sint 32 ms) l))
      | _, _ => Refused 400
      end
  | RtListing =>
      let timeout := query (lit "timeout") q in
      match (match timeout with [] => Some 30000 | _ => atoi timeout end) with
      | None => Refused 400
      | Some ms =>
          match b with
          | BEmpty => Asks servers 400 (ACall TheController (CKListReassignments (sint 32 ms) []))
          | _ =>
              match bind (jlist (jstruct set_tp ([], 0))) b with
              | Some l => Asks servers 200 (ACall TheController (CKListReassignments (sint 32 ms) l))
              | None => Refused 400
              end
          end
      end
  | RtPartitions =>
      match bind (jstruct set_count ([], (0, 0))) b with
      | Some (topic, (count, ms)) => Asks servers 200 (ACall TheController (CKCreatePartitions topic count None (uint 32 ms) false))
      | None => Refused 400
      end
  | RtDescribeLogdirs =>
      match bind (jstruct set_topics []) b with
      | Some l => Asks servers 200 (ALogDirs l)
      | None => Refused 400
      end
  | RtDescribeAcls =>
      match bind (jstruct set_filter no_filter) b with
      | Some (rt, (rn, (pt, (pr, (ho, (op, pe)))))) => Asks servers 200 (ACall TheController (CKDescribeAcls rt rn pt pr ho op pe))
      | None => Refused 400
      end
  | RtCreateAcls =>
      match bind (jlist (jstruct set_creation no_creation)) b with
      | Some l => Asks servers 200 (ACall TheController (CKCreateAcls l))
      | None => Refused 400
      end
  | RtDeleteAcls =>
      match bind (jlist (jpointer (jstruct set_filter no_filter))) b with
      | Some l => if existsb (fun x => match x with None => true | Some _ => false end) l then Crashes
                  else Asks servers 200 (ACall TheController (CKDeleteAcls (flat_map (fun x => match x with Some f => [f] | None => [] end) l)))
      | None => Refused 400
      end
  end.

(** A request: method, request target, body. *)
Definition serve (m : method) (target : bytes) (b : hbody) : reply :=
  match parse_target target with
  | None => Refused 400
  | Some (path, raw) =>
      match split 47 path with
      | [] :: ws => match route_in routes m ws with
                    | Some (t, ps) => handle_at t ps raw b
                    | None => NoRoute
                    end
      | _ => Refused 400
      end
  end.

(** ** Answers put together by handlers *)

(** group.go:185-201, one partition: no special case for the end offset -1 *)
Definition http_row (offs coms : list (Z * Z)) (p : Z) : prow :=
  (p, (zget p offs, (zget p coms, sint 64 (zget p offs - zget p coms)))).
(** group.go:79-204 GetPending, the answers given: the offsets of the topic, its metadata and
    the commits of the group; an error of the first (RequestOffsets) is only logged (169-172)
    and leaves the map empty *)
Definition http_pending (rs : res (list (list (bytes * list poff)))) (md : res (list (bytes * list Z)))
    (cs : res (list (bytes * list (Z * (Z * (bytes * Z)))))) : res (list prow) :=
  rbind (match rs with Ok rs => offsets_of rs | Err _ => Ok [] | Panic => Panic | Unspec => Unspec end) (fun offs =>
  rbind md (fun md => rbind cs (fun cs => Ok (map (http_row offs (committed_of cs)) (flat_map snd md))))).
(** topic.go:126-142 GetTopicOffsets: all entries of all answers, sorted by partition *)
Definition http_offsets (rs : res (list (list (bytes * list poff)))) : res (list poff) :=
  rbind rs (fun rs => Ok (sorted_parts rs)).
