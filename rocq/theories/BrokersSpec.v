(** What the broker list and the client should do, stated on what is asked of whom. *)
From Verif Require Import Base BuildersSpec Brokers.

(** Lookups and the questions on the handles they gave; not the connections opened on the
    way. *)
Definition visible (e : ev) : bool := match e with EvGet _ _ | EvAsk _ _ _ => true | _ => false end.
Definition seen (evs : list ev) : list ev := filter visible evs.

(** One try at a broker: no handle, or a question and what came back. *)
Inductive try := TNo (e : err) | TAsk (h : handle) (a : option resp * option err).
Definition shown (q : req) (x : Z * try) : list ev :=
  match snd x with
  | TNo e => [EvGet (fst x) (inr e)]
  | TAsk h a => [EvGet (fst x) (inl h); EvAsk h q a]
  end.

(** Brokers are tried one after the other, each at most once, until an answer decides:
    [last] is that answer, or None when all were tried in vain. *)
Definition failover (q : req) (decides : option resp * option err -> Prop) (order : list Z)
  (evs : list ev) (last : option (option resp * option err)) : Prop :=
  exists tried rest,
    order = map fst tried ++ rest /\
    seen evs = flat_map (shown q) tried /\
    let vain x := forall h a, snd x = TAsk h a -> ~ decides a in
    match last with
    | Some a => exists before n h, tried = before ++ [(n, TAsk h a)] /\ decides a /\ Forall vain before
    | None => rest = [] /\ Forall vain tried
    end.

(** the error, whatever is wrapped around it, is an error code of a response *)
Fixpoint reported (e : err) : bool :=
  match e with EWrap e' => reported e' | EKafka _ => true | _ => false end.
(** A metadata answer decides if it came without error or with one the broker reported. *)
Definition meta_decides (a : option resp * option err) : Prop :=
  snd a = None \/ exists e, snd a = Some e /\ reported e = true.
(** Otherwise only an answer without error does. *)
Definition no_error (a : option resp * option err) : Prop := snd a = None.

(** Connections opened, not closed, and of no handle in the cache: nobody can close them. *)
Definition opened (evs : list ev) (i : Z) : Prop := In (EvOpen i) evs.
Definition closed (evs : list ev) (i : Z) : Prop := In (EvClose i) evs.
Definition lost {W} (s : bst W) (i : Z) : Prop :=
  opened (b_tr W s) i /\ ~ closed (b_tr W s) i /\ forall n h, In (n, h) (b_cache W s) -> h_id h <> i.

(** Every cached handle carries the node id it is cached under. *)
Definition proper {W} (s : bst W) : Prop := forall n h, get n (b_cache W s) = Some h -> h_node h = n.

(** An association of lists as a list of pairs. *)
Definition pairs (l : list (Z * list Z)) : list (Z * Z) := flat_map (fun x => map (pair (fst x)) (snd x)) l.
(** A leader asked for the offsets of its partitions, and its answer. *)
Record asked := mkAsked { a_leader : Z; a_pids : list Z; a_handle : handle; a_answer : list (Z * list Z) }.
Definition asked_evs (t : bytes) (time num : Z) (x : asked) : list ev :=
  [EvGet (a_leader x) (inl (a_handle x));
   EvAsk (a_handle x) (QOffsets t (a_pids x) time num) (Some (ROffsets (a_answer x)), None)].
(** A broker asked for its groups, and its answer. *)
Record listed := mkListed { l_node : Z; l_handle : handle; l_groups : list bytes }.
Definition listed_evs (x : listed) : list ev :=
  [EvGet (l_node x) (inl (l_handle x)); EvAsk (l_handle x) QListGroups (Some (RGroups (l_groups x)), None)].
(** A broker asked for the log directories of some partitions, and what came back. *)
Record dirs := mkDirs { d_broker : Z; d_tps : list (bytes * list Z); d_handle : handle; d_out : option resp * option err }.
Definition dirs_evs (x : dirs) : list ev :=
  [EvGet (d_broker x) (inl (d_handle x)); EvAsk (d_handle x) (QLogDirs (d_tps x)) (d_out x)].
(** Directories with only the topics named *)
Definition restrict (ts : list bytes) (ds : list logdir) : list logdir :=
  map (fun d => (fst d, filter (fun t => if in_dec bytes_eq_dec (fst t) ts then true else false) (snd d))) ds.
(** A group deleted: the coordinator lookups in vain, the one that worked, the deletion. *)
Record deleted := mkDel { g_tries : list ev; g_group : bytes; g_via : handle; g_node : Z; g_handle : handle; g_results : list (bytes * Z) }.
(** tries in vain, the answer that names the coordinator, its lookup, the deletion *)
Definition deleted_evs (x : deleted) : list ev :=
  g_tries x ++ [EvAsk (g_via x) (QCoord (g_group x)) (Some (RCoord (g_node x)), None);
                EvGet (g_node x) (inl (g_handle x));
                EvAsk (g_handle x) (QDeleteGroups [g_group x]) (Some (RDeleted (g_results x)), None)].
Definition vain_ev (g : bytes) (e : ev) : Prop :=
  match e with
  | EvGet _ _ => True
  | EvAsk _ q a => q = QCoord g /\ snd a <> None
  | _ => False
  end.
(** No bootstrap address is one the cluster advertises. *)
Definition foreign {W} (exch : W -> handle -> req -> W * (err + resp * option err)) (boot : list bytes) : Prop :=
  forall w h q w' m e, exch w h q = (w', inr (RMeta m, e)) -> forall n a, In (n, a) (m_brokers m) -> ~ In a boot.
