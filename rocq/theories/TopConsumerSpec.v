(** What a consumer of whole topics should consume. *)
From Verif Require Import Base TopConsumer.

(** [last_assign topics ops]: what the last call of Subscribe or Assign asked for; before any
    such call, the topics given to NewConsumer.  Subscribing asks for all partitions ([None]). *)
Inductive wish := All (t : bytes) | These (t : bytes) (ps : list Z).
Fixpoint last_wish (w : list wish) (ops : list top_op) : list wish :=
  match ops with
  | [] => w
  | OSubscribe ts :: ops' => last_wish (map All ts) ops'
  | OAssign m :: ops' => last_wish (map (fun x => These (fst x) (snd x)) m) ops'
  | _ :: ops' => last_wish w ops'
  end.

(** [wanted ws mds t p]: partition [p] of topic [t] is to be consumed if the wishes are [ws]
    and the cluster has the topics and partitions [mds]. *)
Definition wanted (ws : list wish) (mds : list (bytes * list Z)) (t : bytes) (p : Z) : Prop :=
  (In (All t) ws /\ exists ps, In (t, ps) mds /\ In p ps) \/
  (exists ps, In (These t ps) ws /\ In p ps).

Definition wish_topic (w : wish) : bytes := match w with All t => t | These t _ => t end.

(** The metadata answer lists the asked topics, each once, and every partition once. *)
Definition answers (mds : list (bytes * list Z)) (ws : list wish) : Prop :=
  NoDup (map fst mds) /\ (forall t, In t (map fst mds) <-> In t (map wish_topic ws)) /\
  Forall (fun md => NoDup (snd md) /\ Forall i32 (snd md)) mds.
(** The wishes name partitions sensibly: lists not empty, nothing twice; a Go map has every
    key once. *)
Definition sensible (ws : list wish) : Prop :=
  ws <> [] /\
  (forall t ps, In (These t ps) ws -> ps <> [] /\ NoDup ps /\ Forall i32 ps) /\
  (forall t ps, In (These t ps) ws -> ~ In (All t) ws /\ forall qs, In (These t qs) ws -> qs = ps).

Definition starts (tr : list tev) : list ((bytes * Z) * Z) :=
  flat_map (fun e => match e with TStarted p o => [(p, o)] | _ => [] end) tr.
