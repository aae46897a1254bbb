(** What the request builders should do, stated on the history of additions. *)
From Verif Require Import Base.

(** [entry r t p v]: the request [r] holds value [v] for partition [p] of topic [t]. *)
Definition entry {V} (r : list (bytes * list (Z * V))) (t : bytes) (p : Z) (v : V) : Prop :=
  exists ps, In (t, ps) r /\ In (p, v) ps.
(** the same for requests that only name partitions *)
Definition names (r : list (bytes * list Z)) (t : bytes) (p : Z) : Prop :=
  exists ps, In (t, ps) r /\ In p ps.

(** [v] is what the last of the additions for (t,p) said. *)
Definition said_last {V} (adds : list (bytes * Z * V)) (t : bytes) (p : Z) (v : V) : Prop :=
  exists before after, adds = before ++ (t, p, v) :: after /\ forall w, ~ In (t, p, w) after.

(** one entry per topic; per topic one entry per partition; no topic without partitions *)
Definition unique_entries {V} (r : list (bytes * list (Z * V))) : Prop :=
  NoDup (map fst r) /\ Forall (fun x => snd x <> [] /\ NoDup (map fst (snd x))) r.
Definition unique_names (r : list (bytes * list Z)) : Prop :=
  NoDup (map fst r) /\ Forall (fun x => snd x <> [] /\ NoDup (snd x)) r.

(** The names a config change request holds: resource type, resource, name, value. *)
Definition cfg_entry {V} (r : list (Z * (bytes * list (bytes * V)))) (rt : Z) (rn n : bytes) (v : V) : Prop :=
  exists es, In (rt, (rn, es)) r /\ In (n, v) es.
Definition cfg_unique {V} (r : list (Z * (bytes * list (bytes * V)))) : Prop :=
  NoDup (map (fun x => (fst x, fst (snd x))) r) /\ Forall (fun x => NoDup (map fst (snd (snd x)))) r.

(** [v] is what the first of the additions for this name said. *)
Definition said_first (adds : list (Z * bytes * bytes * bytes)) (rt : Z) (rn n v : bytes) : Prop :=
  exists before after, adds = before ++ (rt, rn, n, v) :: after /\ forall w, ~ In (rt, rn, n, w) before.
