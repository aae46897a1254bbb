(** What the requests that a user puts together should ask for, as protocol values. *)
From Verif Require Import Base Wire Records RequestSpec Builders BuildersSpec Calls CallsSpec Compose.

(** the value that the last of the steps that set it set, else [d] *)
Definition set_last {A B} (f : A -> option B) (d : B) (l : list A) (x : B) : Prop :=
  (exists before y after, l = before ++ y :: after /\ f y = Some x /\ Forall (fun z => f z = None) after) \/
  (Forall (fun z => f z = None) l /\ x = d).
(** the steps by what they do *)
Definition validates (s : cfgstep) : option bool := match s with FValidate b => Some b | _ => None end.
Definition configs (l : list cfgstep) : list (Z * bytes * bytes * bytes) :=
  flat_map (fun s => match s with FConfig (mkCA rt rn n v) => [(rt, rn, n, v)] | _ => [] end) l.
Definition states (s : lgstep) : option (option (list bytes)) := match s with GStates l => Some l | _ => None end.
Definition types (s : lgstep) : option (option (list bytes)) := match s with GTypes l => Some l | _ => None end.
Definition gens (s : ocstep) : option Z := match s with MGen n => Some n | _ => None end.
Definition members (s : ocstep) : option bytes := match s with MMember m => Some m | _ => None end.
Definition retentions (s : ocstep) : option Z := match s with MRetention t => Some t | _ => None end.
Definition parts (l : list ocstep) : list (bytes * Z * (Z * bytes)) :=
  flat_map (fun s => match s with MPart t p off md => [(t, p, (off, md))] | _ => [] end) l.
(** no resource without configs *)
Definition cfg_filled {V} (rs : list (Z * (bytes * list (bytes * V)))) : Prop := Forall (fun x => snd (snd x) <> []) rs.
(** the assignments for a topic, of which those stay that rise *)
Definition assigned (t : bytes) (l : list ctop) : list (Z * list Z) :=
  flat_map (fun o => match o with CAddReplicas t' p rs => if beqb t' t then [(p, rs)] else [] | _ => [] end) l.
Fixpoint rising (top : option Z) (l : list (Z * list Z)) : list (Z * list Z) :=
  match l with
  | [] => []
  | (p, rs) :: l' => if match top with None => true | Some q => q <? p end then (p, rs) :: rising (Some p) l' else rising top l'
  end.
(** the topics to create: every one once, as it was added first *)
Definition creates (l : list ctop) (ts : list (bytes * (Z * (Z * (list (Z * list Z) * list (bytes * option bytes)))))) : Prop :=
  NoDup (map fst ts) /\ (forall t, In t (map fst ts) <-> exists n rf, In (CAddTopic t n rf) l) /\
  forall t n rf ras cs, In (t, (n, (rf, (ras, cs)))) ts -> cs = [] /\
    exists before after, l = before ++ CAddTopic t n rf :: after /\ (forall n' rf', ~ In (CAddTopic t n' rf') before) /\
      ras = rising None (assigned t after).

(** the API of a recipe *)
Definition recipe_key (rc : recipe) : Z :=
  match rc with
  | RcAlterConfigs _ => 33 | RcIncremental _ => 44 | RcListGroups _ => 16 | RcCommit _ _ _ => 8 | RcCommitted _ _ _ => 9 | RcCreateTopics _ _ => 19
  | RcCreatePartitions _ _ _ => 37 | RcLogDirs _ _ => 35 | RcDescribeConfigs _ => 32 | RcDeleteGroups _ => 42 | RcDescribeGroups _ => 15
  end.
(** the versions of that API that the client can write *)
Definition recipe_versions (rc : recipe) : list Z :=
  match rc with
  | RcListGroups _ => [0; 1; 2; 3; 4; 5] | RcCommit _ _ _ => [0; 2] | RcCommitted _ _ _ => [0; 1] | RcCreatePartitions _ _ _ => [0; 2] | _ => [0]
  end.
(** [composed rc v x]: at version [v], [x] says what was put together *)
Definition composed (rc : recipe) (v : Z) (x : val) : Prop :=
  match rc, v with
  | RcAlterConfigs l, 0 => exists rs b, set_last validates false l b /\ cfg_unique rs /\ cfg_filled rs /\
      (forall rt rn n u, cfg_entry rs rt rn n u <-> exists w, u = Some w /\ said_first (configs l) rt rn n w) /\
      x = V S_AlterConfigs_0 (rs, b)
  | RcIncremental l, 0 => exists rs b, set_last validates false l b /\ cfg_unique rs /\ cfg_filled rs /\
      (forall rt rn n u, cfg_entry rs rt rn n u <-> exists w, u = (0, Some w) /\ said_first (configs l) rt rn n w) /\
      x = V S_IncrementalAlterConfigs_0 (rs, b)
  | RcListGroups l, 0 | RcListGroups l, 1 | RcListGroups l, 2 => x = V TUnit tt
  | RcListGroups l, 3 => x = V S_ListGroups_3 []
  | RcListGroups l, 4 => exists s, set_last states (Some []) l (Some s) /\ x = V S_ListGroups_4 (s, [])
  | RcListGroups l, 5 => exists s t, set_last states (Some []) l (Some s) /\ set_last types (Some []) l (Some t) /\ x = V S_ListGroups_5 (s, (t, []))
  | RcCommit _ g l, 0 => exists ts, unique_entries ts /\
      (forall t p u, entry ts t p u <-> exists md, snd u = Some md /\ said_last (parts l) t p (fst u, md)) /\ x = V S_OffsetCommit_0 (g, ts)
  | RcCommit _ g l, 2 => exists ts n m r, set_last gens 0 l n /\ set_last members [] l m /\ set_last retentions 0 l r /\ unique_entries ts /\
      (forall t p u, entry ts t p u <-> exists md, snd u = Some md /\ said_last (parts l) t p (fst u, md)) /\
      x = V S_OffsetCommit_2 (g, (n, (m, (r, ts))))
  | RcCommitted _ g tps, 0 | RcCommitted _ g tps, 1 => exists ts, by_topic tps ts /\ x = V S_OffsetFetch_0 (g, ts)
  | RcCreateTopics to l, 0 => exists ts, creates l ts /\ x = V S_CreateTopics_0 (ts, to)
  | RcCreatePartitions to va l, 0 => x = V S_CreatePartitions_0 (l, (to, va))
  | RcCreatePartitions to va l, 2 =>
      x = V S_CreatePartitions_2 (map (fun y : bytes * (Z * option (list (list Z))) =>
        (fst y, (fst (snd y), (option_map (map (fun a => (a, []))) (snd (snd y)), [])))) l, (to, (va, [])))
  | RcLogDirs topics tps, 0 => exists ts, NoDup (map fst ts) /\ (forall t, In t (map fst ts) <-> In t topics \/ In t (map fst tps)) /\
      (forall t ps, In (t, ps) ts -> NoDup ps /\ forall p, In p ps <-> In (t, p) tps) /\ x = V S_DescribeLogDirs_0 (Some ts)
  | RcDescribeConfigs l, 0 => x = V S_DescribeConfigs_0 l
  | RcDeleteGroups gs, 0 => x = V S_DeleteGroups_0 gs
  | RcDescribeGroups gs, 0 => x = V S_DescribeGroups_0 gs
  | _, _ => False
  end.
(** what is left out: filters that are nil or have texts of 2^14 bytes, a topic whose new partitions are left to the
    broker at version 0 (C113), topics named twice *)
Definition recipe_limits (rc : recipe) (v : Z) : Prop :=
  match rc with
  | RcListGroups l => Forall (fun s => match s with GStates f | GTypes f => exists l, f = Some l /\ Forall (fun n => zlen n < 2 ^ 14 - 1) l end) l
  | RcCreatePartitions _ _ l =>
      if v =? 0 then Forall (fun y : bytes * (Z * option (list (list Z))) => snd (snd y) <> None) l
      else Forall (fun y : bytes * (Z * option (list (list Z))) => forall a, snd (snd y) = Some a -> zlen a < 2 ^ 14 - 1 /\ Forall (fun r => zlen r < 2 ^ 28 - 1) a) l
  | RcLogDirs topics _ => NoDup topics
  | _ => True
  end.
