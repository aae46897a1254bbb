(** Model of what a group consumer asks the coordinator and what the leader answers:
    group_consumer.go:97-128 getTopicPartitionInfo, 171-187 join, 226-238 sync. *)
From Verif Require Import Base Wire Group Assign Responses Requests Consumer.

(** "consumer" (group_consumer.go:174) and "range" (group_consumer.go:183) *)
Definition n_consumer : bytes := [99; 111; 110; 115; 117; 109; 101; 114].
Definition n_range : bytes := [114; 97; 110; 103; 101].

(** group_consumer.go:177-185 and broker.go:401-411 requestJoinGroup: the request a member
    sends.  The protocol added at broker.go:408 is replaced in the line after it. *)
Definition join_body (group : bytes) (session : Z) (member topic : bytes) : res rbody :=
  rbind (pm_encode (mkPM 0 [topic] None)) (fun md =>
  Ok (QJoinGroup group session 60000 member n_consumer [(n_range, md)])).

(** group_consumer.go:104-109: the keys of the map _topics, in the order of insertion *)
Definition add_topic (ts : list bytes) (t : bytes) : list bytes := if existsb (beqb t) ts then ts else ts ++ [t].
(** group_consumer.go:104-109: the loop over the members *)
Fixpoint topics_of (ms : list (bytes * bytes)) (ts : list bytes) : res (list bytes) :=
  match ms with
  | [] => Ok ts
  | m :: ms' => rbind (newProtocolMetadata (snd m)) (fun pm => topics_of ms' (fold_left add_topic (pm_subs pm) ts))
  end.

Notation gtopics := (list (Z * (bytes * (bool * list nopart)))) (only parsing).
(** group_consumer.go:115-127: the metadata loop, fed with what each call of
    RequestMetaData returns; [None]: the consumer is closed.  The topics of a response
    that came with an error stay in metaDataResponse. *)
Fixpoint meta_loop (answers : list (option (gtopics * option err))) (cur : gtopics) : looped gtopics :=
  match answers with
  | [] => Running
  | None :: _ => Halted cur
  | Some (m, None) :: _ => Done m
  | Some (m, Some _) :: rest => meta_loop rest m
  end.

(** What assign.go:57-65 reads of the metadata: the names and the partition ids *)
Definition metas_of (ts : gtopics) : list (bytes * list Z) :=
  map (fun t => (fst (snd t), map (fun p : nopart => fst (snd p)) (snd (snd (snd t))))) ts.

Section Lead.
  (** the orders in which the maps are gone through *)
  Variable ordS : list bytes -> list bytes.
  Variable ordT : list (bytes * list (bytes * list Z)) -> list (bytes * list (bytes * list Z)).
  Variable ordI : list (bytes * list Z) -> list (bytes * list Z).
  Variable ordM : list (bytes * list (bytes * list Z)) -> list (bytes * list (bytes * list Z)).

  (** group_consumer.go:229-232: the leader's part of sync.  [None]: the metadata loop has
      not ended. *)
  Definition lead (ms : list (bytes * bytes)) (answers : list bytes -> list (option (gtopics * option err)))
    : res (option (list (bytes * bytes))) :=
    rbind (topics_of ms []) (fun ts =>
    match meta_loop (answers (ordS ts)) [] with
    | Done m | Halted m => rbind (assign ordT ordI ordM ms (metas_of m)) (fun ga => Ok (Some ga))
    | Running => Ok None
    | Crashed => Panic
    end).
End Lead.

(** group_consumer.go:237-238 and broker.go:418-421: the sync request; a follower sends no
    assignment (group_consumer.go:234) *)
Definition sync_body (group : bytes) (gen : Z) (member : bytes) (ga : list (bytes * bytes)) : rbody :=
  QSyncGroup group gen member ga.
