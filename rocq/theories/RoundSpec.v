(** One round of a group: a coordinator that follows the protocol, and the members. *)
From Verif Require Import Base Wire Group Assign RequestSpec RequestPrep Requests Responses ResponseSpec Consumer Gcons Lead.

(** ** The coordinator *)
(** what it keeps of a join request: the metadata the member gives for protocol "range" *)
Definition coord_join (out : bytes) : option bytes :=
  match broker_reads 11 0 S_JoinGroup_0 out with
  | Some (_, _, (_, (_, (_, (_, protos)))), []) =>
      match find (fun p => beqb (fst p) [114; 97; 110; 103; 101]) protos with Some p => Some (snd p) | None => None end
  | _ => None
  end.
(** its answer to member [me]: only the leader is told the members *)
Definition coord_joined (corr gen : Z) (leader me : bytes) (members : list (bytes * bytes)) : bytes :=
  response_bytes 11 0 corr [] (enc R_JoinGroup_0 (0, (gen, ([114; 97; 110; 103; 101], (leader, (me, if beqb me leader then members else [])))))).
(** the assignments in the leader's sync request *)
Definition coord_sync (out : bytes) : option (list (bytes * bytes)) :=
  match broker_reads 14 0 S_SyncGroup_0 out with
  | Some (_, _, (_, (_, (_, ga))), []) => Some ga
  | _ => None
  end.
(** the answer to the sync request of a member: its entry, nothing if there is none *)
Fixpoint entry (me : bytes) (ga : list (bytes * bytes)) : bytes :=
  match ga with [] => [] | (k, b) :: ga' => if beqb k me then b else entry me ga' end.
Definition coord_synced (corr : Z) (me : bytes) (ga : list (bytes * bytes)) : bytes :=
  response_bytes 14 0 corr [] (enc R_SyncGroup_0 (0, entry me ga)).

(** ** The round *)
Definition started (evs : list gev) : list (bytes * Z) :=
  flat_map (fun e => match e with GStarted p => [p] | _ => [] end) evs.
Definition opt {A} (o : option A) : res A := match o with Some a => Ok a | None => Err (EInvalid 900) end.
Fixpoint mapr {A B} (f : A -> res B) (l : list A) : res (list B) :=
  match l with
  | [] => Ok []
  | x :: l' => rbind (f x) (fun y => rbind (mapr f l') (fun ys => Ok (y :: ys)))
  end.

Section Round.
  Variable zip : Z -> bytes -> res bytes.
  Variable ordS : list bytes -> list bytes.
  Variable ordT : list (bytes * list (bytes * list Z)) -> list (bytes * list (bytes * list Z)).
  Variable ordI : list (bytes * list Z) -> list (bytes * list Z).
  Variable ordM : list (bytes * list (bytes * list Z)) -> list (bytes * list (bytes * list Z)).
  Variable client group : bytes.
  Variable session corr gen : Z.
  Variable leader : bytes.
  (** what RequestMetaData returns to the leader, call by call *)
  Variable answers : list bytes -> list (option (gtopics * option err)).

  (** member [(id, topic)] joins; the coordinator gives it that id *)
  Definition joins (m : bytes * bytes) : res (bytes * bytes) :=
    rbind (join_body group session [] (snd m)) (fun b =>
    rbind (prepare zip corr 0 (new_request (Some client) b)) (fun o =>
    rbind (opt (coord_join (fst o))) (fun md => Ok (fst m, md)))).
  (** the leader's sync request, as the coordinator reads it *)
  Definition leads (members : list (bytes * bytes)) : res (list (bytes * bytes)) :=
    rbind (answer 11 0 (coord_joined corr gen leader leader members)) (fun r =>
    match r with
    | RJoinGroup _ _ _ _ _ _ ms =>
        rbind (lead ordS ordT ordI ordM ms answers) (fun o => rbind (opt o) (fun ga =>
        rbind (prepare zip corr 0 (new_request (Some client) (sync_body group gen leader ga))) (fun o => opt (coord_sync (fst o)))))
    | _ => Err (EInvalid 900)
    end).
  (** a member runs from the start: it joins, syncs, and starts partition consumers; [n]
      steps are left for the latter *)
  Definition ends (n : nat) (members ga : list (bytes * bytes)) (m : bytes * bytes) : res (bytes * list (bytes * Z)) :=
    rbind (answer 11 0 (coord_joined corr gen leader (fst m) members)) (fun j =>
    match j with
    | RJoinGroup _ _ g _ l me _ =>
        rbind (answer 14 0 (coord_synced corr (fst m) ga)) (fun s =>
        match s with
        | RSyncGroup _ _ payload =>
            rbind (grun ginit ([OLook 0 (Ok tt); OJoin 0; OJoinAns 0 (Ok (g, (me, l))) false; OSet 0; OSync 0; OSyncAns 0 (Ok payload); OTakeJoined 0]
                               ++ repeat (OStartOne 0) n)) (fun r => Ok (fst m, started (snd r)))
        | _ => Err (EInvalid 900)
        end)
    | _ => Err (EInvalid 900)
    end).
  (** all of it: who starts which partition consumers, in which order *)
  Definition round (n : nat) (ms : list (bytes * bytes)) : res (list (bytes * list (bytes * Z))) :=
    rbind (mapr joins ms) (fun members =>
    rbind (leads members) (fun ga => mapr (ends n members ga) ms)).
End Round.

(** the partitions in a metadata response *)
Definition partitions (ts : gtopics) : list (bytes * Z) :=
  flat_map (fun t => map (fun p : nopart => (fst (snd t), fst (snd p))) (snd (snd (snd t)))) ts.

(** the limits: Kafka's on topic names, and a group and a cluster whose messages fit *)
Record round_ok (client group : bytes) (session corr gen : Z) (leader : bytes) (ms : list (bytes * bytes)) (tops : gtopics) : Prop := {
  ok_client : zlen client < 2 ^ 15; ok_group : zlen group < 2 ^ 15; ok_session : i32 session;
  ok_corr : 0 <= corr < 2 ^ 31; ok_gen : i32 gen; ok_leader : In leader (map fst ms);
  ok_ids : NoDup (map fst ms) /\ Forall (fun m => zlen (fst m) < 2 ^ 15 /\ zlen (snd m) <= 249) ms; ok_size : zlen ms <= 1000;
  (** the metadata name each topic once, only topics that were asked for, real numbers *)
  ok_names : NoDup (map (fun t => fst (snd t)) tops) /\ incl (map (fun t => fst (snd t)) tops) (map snd ms);
  ok_parts : Forall (fun p => i32 (snd p)) (partitions tops) /\ zlen (partitions tops) <= 1000000 }.

(** whatever list of the subscribed topics the leader asks for, it gets errors, then [tops] *)
Definition told_metadata (ms : list (bytes * bytes)) (tops : gtopics) (answers : list bytes -> list (option (gtopics * option err))) : Prop :=
  forall ts, NoDup ts -> (forall t, In t ts <-> In t (map snd ms)) ->
  exists fails rest, answers ts = fails ++ Some (tops, None) :: rest /\ Forall (fun a => exists m e, a = Some (m, Some e)) fails.
