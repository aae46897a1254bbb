(** Model of config.go and of the timeouts broker.go takes from it. *)
From Verif Require Import Base.

(** A []int is a cell of a heap: two configurations that hold the same slice header share
    its elements.  Simplification: slices are whole cells (no sub-slices, no spare
    capacity). *)
Notation heap := (list (list Z)).
(** reading a slice *)
Definition cell (h : heap) (s : option nat) : list Z :=
  match s with None => [] | Some i => nth i h [] end.
(** a slice gets new contents *)
Fixpoint set_cell (h : heap) (i : nat) (v : list Z) : heap :=
  match h, i with
  | [], _ => []
  | _ :: h', O => v :: h'
  | x :: h', S j => x :: set_cell h' j v
  end.
(** one element of a slice is assigned *)
Fixpoint set_nth (i : nat) (v : Z) (l : list Z) : list Z :=
  match l, i with
  | [], _ => []
  | _ :: l', O => v :: l'
  | x :: l', S j => x :: set_nth j v l'
  end.

(** config.go:85-106 ConsumerConfig; only the fields used here.  [cc_api] is
    Net.TimeoutMSForEachAPI, [None] is nil. *)
Record cconf := mkCC {
  cc_timeout : Z; cc_session : Z; cc_fetchwait : Z; cc_api : option nat;
  cc_boot : bytes; cc_group : bytes; cc_storage : Z }.
(** timeoutMSForEachAPI changes *)
Definition with_api (c : cconf) (s : option nat) : cconf :=
  mkCC (cc_timeout c) (cc_session c) (cc_fetchwait c) s (cc_boot c) (cc_group c) (cc_storage c).

(** config.go:135-145 resetTimeoutMSForEachAPI; API_JoinGroup = 11, API_OffsetCommitRequest
    = 8, API_FetchRequest = 1; indexing past the end panics, line 142 is the largest index *)
Definition reset (h : heap) (c : cconf) : res (heap * cconf) :=
  let hc := match cell h (cc_api c) with
            | [] => (h ++ [repeat 0 68], with_api c (Some (length h)))
            | _ => (h, c)
            end in
  let h1 := fst hc in let c1 := snd hc in
  let l := map (fun _ => cc_timeout c) (cell h1 (cc_api c1)) in
  if Nat.leb (length l) 11 then Panic
  else
    let l := set_nth 11 (sint 64 (cc_session c + 5000)) l in
    let l := set_nth 8 (Z.quot (cc_session c) 2) l in
    let l := set_nth 1 (sint 64 (cc_timeout c + cc_fetchwait c)) l in
    match cc_api c1 with
    | Some i => Ok (set_cell h1 i l, c1)
    | None => Panic
    end.

(** What mapstructure.WeakDecode does with a map (external library): it sets the scalar
    fields the map names ([mp_set]) and, if the map has net.timeout.ms.for.eachapi,
    decodes that list into the elements of the slice already there, growing it only when
    the list is longer ([mp_api]); [mp_ok] false: it returns an error, after having done
    that. *)
Record cmap := mkMap { mp_set : cconf -> cconf; mp_api : option (list Z); mp_ok : bool }.
(** mapstructure.WeakDecode (external library) *)
Definition decode (h : heap) (c : cconf) (m : cmap) : heap * cconf :=
  let c1 := with_api (mp_set m c) (cc_api c) in
  match mp_api m with
  | None => (h, c1)
  | Some l =>
      let old := cell h (cc_api c) in
      if Nat.leb (length l) (length old)
      then (match cc_api c with Some i => set_cell h i (l ++ skipn (length l) old) | None => h end, c1)
      else (h ++ [l], with_api c1 (Some (length h)))
  end.

(** The argument of NewConsumer, NewGroupConsumer, NewSimpleConsumer. *)
Inductive cinput := INil | IMap (m : cmap) | IConf (c : cconf) | IOther.

(** The package state: the heap and the variable defaultConsumerConfig (147). *)
Record cst := mkCS { cs_heap : heap; cs_def : cconf }.

(** the zero value of ConsumerConfig *)
Definition zero_conf : cconf := mkCC 0 0 0 None [] [] 0.

(** config.go:151-170 createConsumerConfig with its deferred reset; second component:
    false if it returns an error *)
Definition createConsumerConfig (s : cst) (i : cinput) : res (cst * (cconf * bool)) :=
  let d := cs_def s in
  let pick := match i with
              | INil => (cs_heap s, (d, true))
              | IMap m => let hc := decode (cs_heap s) d m in
                          if mp_ok m then (fst hc, (snd hc, true)) else (fst hc, (d, false))
              | IConf c => (cs_heap s, (c, true))
              | IOther => (cs_heap s, (zero_conf, false))
              end in
  match reset (fst pick) (fst (snd pick)) with
  | Ok (h, c) => Ok (mkCS h d, (c, snd (snd pick)))
  | Err e => Err e | Panic => Panic | Unspec => Unspec
  end.

(** config.go:108-133 DefaultConsumerConfig, evaluated at 147 in an empty heap *)
Definition init_cst : res cst :=
  match reset [[]] (mkCC 30000 30000 500 (Some O) [] [] 1) with
  | Ok (h, c) => Ok (mkCS h c)
  | Err e => Err e | Panic => Panic | Unspec => Unspec
  end.

(** getBrokerConfigFromConsumerConfig (config.go:52-63) copies Net, slice header included;
    broker.go:219-224: the timeout of a request *)
Definition request_timeout (h : heap) (c : cconf) (api : nat) : Z :=
  let l := cell h (cc_api c) in
  if Nat.ltb api (length l)
  then (if nth api l 0 >? 0 then nth api l 0 else cc_timeout c)
  else cc_timeout c.

(** ** Validity checks *)
Inductive cferr := CFBootstrap | CFGroup | CFStorage | CFMaxCount | CFFlush | CFCompression.

(** config.go:177-188 *)
Definition consumer_checkValid (c : cconf) : option cferr :=
  match cc_boot c with
  | [] => Some CFBootstrap
  | _ => match cc_group c with
         | [] => Some CFGroup
         | _ => if negb (cc_storage c =? 0) && negb (cc_storage c =? 1) then Some CFStorage else None
         end
  end.

(** config.go:191-222 ProducerConfig; only the fields used here *)
Record pconf := mkPC { pc_boot : bytes; pc_count : Z; pc_flush : Z; pc_comp : bytes; pc_magic : Z }.
(** "none" *)
Definition c_none : bytes := [110; 111; 110; 101].
(** "gzip" *)
Definition c_gzip : bytes := [103; 122; 105; 112].
(** "snappy" *)
Definition c_snappy : bytes := [115; 110; 97; 112; 112; 121].
(** "lz4" *)
Definition c_lz4 : bytes := [108; 122; 52].

(** config.go:290-310 *)
Definition producer_checkValid (c : pconf) : option cferr :=
  match pc_boot c with
  | [] => Some CFBootstrap
  | _ =>
    if pc_count c <=? 0 then Some CFMaxCount
    else if pc_flush c <=? 0 then Some CFFlush
    else if beqb (pc_comp c) c_none then None
    else if beqb (pc_comp c) c_gzip then None
    else if beqb (pc_comp c) c_snappy then None
    else if beqb (pc_comp c) c_lz4 then None
    else Some CFCompression
  end.

(** config.go:225-251 *)
Definition default_pconf : pconf := mkPC [] 1024 200 c_none 2.
(** the argument; a map is given by what WeakDecode makes of the default, [None]: error *)
Inductive pinput := PNil | PMap (dec : pconf -> option pconf) | PConf (c : pconf) | POther.
(** config.go:259-264: an older message format becomes 2 *)
Definition fix_magic (c : pconf) : pconf :=
  if pc_magic c <? 2 then mkPC (pc_boot c) (pc_count c) (pc_flush c) (pc_comp c) 2 else c.
(** config.go:257-281; the deferred function is [fix_magic]; second component: an error is
    returned *)
Definition createProducerConfig (i : pinput) : pconf * bool :=
  let chk c := (fix_magic c, match producer_checkValid c with Some _ => true | None => false end) in
  match i with
  | PNil => (fix_magic default_pconf, false)
  | PMap dec => match dec default_pconf with
                | Some c => chk c
                | None => (fix_magic default_pconf, true)
                end
  | PConf c => chk c
  | POther => (fix_magic (mkPC [] 0 0 [] 0), true)
  end.
