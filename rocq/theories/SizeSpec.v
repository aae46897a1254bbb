(** How much a decoded response holds: the elements of its lists and the bytes of its
    strings.  [w] is the weight of the bytes and elements a decoder may make up: the tagged
    fields (their contents always count), the user data of an assignment and the bytes of
    SaslAuthenticate. *)
From Verif Require Import Base Prims Group Responses.

Section Size.
Variable w : Z.
Definition sum {A} (f : A -> Z) (l : list A) : Z := fold_right (fun x n => f x + n) 0 l.
(** every element counts, and what it holds *)
Definition many {A} (f : A -> Z) (l : list A) : Z := sum (fun x => 1 + f x) l.
Definition flat {A} (l : list A) : Z := many (fun _ => 0) l.
Definition opt {A} (f : A -> Z) (o : option A) : Z := match o with Some a => f a | None => 0 end.
Definition tagged (t : taggedFields) : Z := w * zlen t + sum (fun x => zlen (snd x)) t.
Definition assigned (m : MemberAssignment) : Z :=
  many (fun p => zlen (fst p) + flat (snd p)) (ma_parts m) + w * zlen (ma_user m).

Definition size (r : response) : Z :=
  match r with
  | RHeartbeat _ _ | RLeaveGroup _ _ => 0
  | RApiVersions _ _ vs => flat vs
  | RMetadata _ _ bs c _ ts =>
      many (fun b => zlen (fst (snd b)) + zlen (snd (snd (snd b)))) bs + zlen c +
      many (fun t => zlen (fst (snd t)) +
        many (fun p => let q := snd (snd (snd (snd p))) in flat (fst q) + flat (fst (snd q)) + flat (snd (snd q))) (snd (snd (snd t)))) ts
  | RFindCoordinator _ _ _ h _ => zlen h
  | RJoinGroup _ _ _ p l m ms => zlen p + zlen l + zlen m + many (fun x => zlen (fst x) + zlen (snd x)) ms
  | RSyncGroup _ _ a => zlen a
  | ROffsets _ _ ts => many (fun t => zlen (fst t) + many (fun p => flat (fst (snd (snd p)))) (snd t)) ts
  | ROffsetCommit _ ts => many (fun t => zlen (fst t) + flat (snd t)) ts
  | ROffsetFetch _ ts => many (fun t => zlen (fst t) + many (fun p => zlen (fst (snd (snd p)))) (snd t)) ts
  | RListGroups _ h _ _ gs t =>
      tagged h + opt (many (fun g => zlen (fst g) + zlen (fst (snd g)) + zlen (fst (snd (snd g))) + zlen (fst (snd (snd (snd g)))) +
                                     tagged (snd (snd (snd (snd g)))))) gs + tagged t
  | RDescribeGroups _ gs =>
      many (fun g => let h := snd g in zlen (fst h) + zlen (fst (snd h)) + zlen (fst (snd (snd h))) + zlen (fst (snd (snd (snd h)))) +
        many (fun m => zlen (fst m) + zlen (fst (snd m)) + zlen (fst (snd (snd m))) + zlen (fst (snd (snd (snd m)))) +
                       zlen (fst (snd (snd (snd (snd m))))) + opt assigned (snd (snd (snd (snd (snd m)))))) (snd (snd (snd (snd h))))) gs
  | RDeleteGroups _ _ rs | RDeleteTopics _ rs | RCreateTopics _ rs => many (fun x => zlen (fst x)) rs
  | RSaslHandshake _ _ ms => many (fun m => zlen m) ms
  | RSaslAuthenticate _ _ m a => zlen m + w * zlen a
  | RProduce _ ts =>
      many (fun t => zlen (fst t) + many (fun p => let q := snd (snd (snd (snd (snd p)))) in
        many (fun e => opt (fun m => zlen m) (snd e)) (fst q) + opt (fun m => zlen m) (snd q)) (snd t)) ts
  | RAlterConfigs _ _ rs | RIncrementalAlterConfigs _ _ rs => many (fun x => zlen (fst (snd x)) + zlen (snd (snd (snd x)))) rs
  | RCreatePartitions _ _ rs => many (fun x => zlen (fst x) + opt (fun m => zlen m) (snd (snd x))) rs
  | RDescribeConfigs _ _ rs =>
      many (fun x => let y := snd x in zlen (fst y) + zlen (fst (snd (snd y))) +
                     many (fun e => zlen (fst e) + zlen (fst (snd e))) (snd (snd (snd y)))) rs
  | RDescribeLogDirs _ _ rs => many (fun x => zlen (fst (snd x)) + many (fun t => zlen (fst t) + flat (snd t)) (snd (snd x))) rs
  | RElectLeaders _ _ rs => many (fun t => zlen (fst t) + many (fun p => zlen (snd (snd p))) (snd t)) rs
  | RListReassignments _ _ _ m ts =>
      opt (fun m => zlen m) m + many (fun t => zlen (fst t) + many (fun p => let q := snd p in flat (fst q) + flat (fst (snd q)) + flat (snd (snd q))) (snd t)) ts
  | RAlterReassignments _ h _ _ m ts t =>
      tagged h + opt (fun m => zlen m) m +
      opt (many (fun x => zlen (fst x) +
        many (fun p => opt (fun m => zlen m) (fst (snd (snd p))) + tagged (snd (snd (snd p)))) (fst (snd x)) + tagged (snd (snd x)))) ts + tagged t
  | RCreateAcls _ h rs t => tagged h + opt (many (fun x => opt (fun m => zlen m) (fst (snd x)) + tagged (snd (snd x)))) rs + tagged t
  | RDeleteAcls _ h _ rs t =>
      tagged h + many (fun x => opt (fun m => zlen m) (fst (snd x)) +
        many (fun a => opt (fun m => zlen m) (fst (snd a)) + let b := snd (snd (snd a)) in
          zlen (fst b) + let c := snd (snd b) in zlen (fst c) + zlen (fst (snd c)) + tagged (snd (snd (snd (snd c))))) (fst (snd (snd x))) +
        tagged (snd (snd (snd x)))) rs + tagged t
  | RDescribeAcls _ _ _ m rs t =>
      opt (fun m => zlen m) m + opt (many (fun x => zlen (fst (snd x)) +
        many (fun a => zlen (fst a) + zlen (fst (snd a)) + tagged (snd (snd (snd (snd a))))) (fst (snd (snd (snd x)))) +
        tagged (snd (snd (snd (snd x)))))) rs + tagged t
  end.
End Size.

(** the list the response is about *)
Definition listed (r : response) : option Z :=
  match r with
  | RApiVersions _ _ l => Some (zlen l)
  | RMetadata _ _ l _ _ _ => Some (zlen l)
  | RJoinGroup _ _ _ _ _ _ l => Some (zlen l)
  | ROffsetCommit _ l => Some (zlen l)
  | ROffsetFetch _ l => Some (zlen l)
  | RDescribeGroups _ l => Some (zlen l)
  | RDeleteGroups _ _ l | RDeleteTopics _ l | RCreateTopics _ l => Some (zlen l)
  | RSaslHandshake _ _ l => Some (zlen l)
  | RDescribeConfigs _ _ l => Some (zlen l)
  | RDescribeLogDirs _ _ l => Some (zlen l)
  | RElectLeaders _ _ l => Some (zlen l)
  | _ => None
  end.
