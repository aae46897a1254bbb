(** A partition consumer while leaders move: which broker it fetches from, and the leader
    epoch it sends. *)
From Verif Require Import Base Responses Consumer FollowSpec.

(** metadata_response.go:30-44 and broker.go:239-263: a response with an error code in it
    comes with an error *)
Definition with_error (r : response) : option err :=
  match response_error r with Ok e => e | Err e => Some e | _ => None end.

(** simple_consumer.go:121-125: the first partition with the id *)
Fixpoint find_epoch (pid : Z) (ps : list nopart) : option Z :=
  match ps with
  | [] => None
  | (_, (p, (_, (epoch, _)))) :: ps' => if p =? pid then Some epoch else find_epoch pid ps'
  end.
(** simple_consumer.go:117-127: topics with another name are skipped *)
Fixpoint find_topic_epoch (topic : bytes) (pid : Z) (ts : list (Z * (bytes * (bool * list nopart)))) : option Z :=
  match ts with
  | [] => None
  | (_, (name, (_, ps))) :: ts' =>
      if beqb name topic then match find_epoch pid ps with Some e => Some e | None => find_topic_epoch topic pid ts' end
      else find_topic_epoch topic pid ts'
  end.
(** simple_consumer.go:112-129 refreshPartiton.  Of c.partition only LeaderEpoch is used
    (413).  [meta]: the response that RequestMetaData ends with, [None]: no broker answered. *)
Definition refreshPartiton (topic : bytes) (pid : Z) (meta : option response) (cur : Z) : Z :=
  match meta with
  | Some (RMetadata _ _ _ _ _ ts as r) =>
      match with_error r with
      | Some _ => cur
      | None => match find_topic_epoch topic pid ts with Some e => e | None => cur end
      end
  | _ => cur
  end.

(** brokers.go:297-311 findLeader: an error code in the response does not matter *)
Fixpoint find_leader (pid : Z) (ps : list nopart) : res Z :=
  match ps with
  | [] => Err ENoLeader
  | (_, (p, (leader, _))) :: ps' => if p =? pid then Ok leader else find_leader pid ps'
  end.
(** brokers.go:297-311 *)
Definition findLeaderIn (pid : Z) (meta : option response) : res Z :=
  match meta with
  | Some (RMetadata _ _ _ _ _ ((_, (_, (_, ps))) :: _)) => find_leader pid ps
  | Some (RMetadata _ _ _ _ _ []) => Panic
  | _ => Err EConn
  end.

(** the consumer: leaderBroker ([None]: in the loop that looks for one, simple_consumer.go:
    484-491), partition.LeaderEpoch *)
Record fol := mkF { f_leader : option Z; f_epoch : Z }.
(** simple_consumer.go:47-59: a new consumer; partition is zero until it is refreshed *)
Definition finit (topic : bytes) (pid : Z) (meta : option response) : fol := mkF None (refreshPartiton topic pid meta 0).
(** fetch_request.go:124-127: the epoch is part of version 10 *)
Definition sent (version : Z) (c : fol) : Z := if 10 <=? version then f_epoch c else -1.

(** simple_consumer.go:408-452 and 466-498, one round of consumeLoop (or of the loop that looks
    for the leader): the answer to the fetch, metadata if asked for, and who can be reached.
    Simplifications: the cached handle of line 171 exists (see C64); other errors are those
    of Consumer.v. *)
Definition fround (topic : bytes) (pid : Z) (meta : option response) (alive : Z -> bool) (a : fanswer) (c : fol) : res fol :=
  match f_leader c with
  | None =>
      match getLeaderBroker (mkLT (findLeaderIn pid meta) (match findLeaderIn pid meta with Ok id => alive id | _ => false end) true) with
      | Ok id => Ok (mkF (Some id) (f_epoch c))
      | Err _ => Ok c
      | Panic => Panic
      | Unspec => Unspec
      end
  | Some _ =>
      match a with
      | NoConn => Ok c                                                           (* 415-424 *)
      | Data => Ok c
      | Code 6 => Ok (mkF None (f_epoch c))                                      (* 481-483 *)
      | Code 74 => Ok (mkF (f_leader c) (refreshPartiton topic pid meta (f_epoch c)))  (* 492-494 *)
      | Code _ => Ok c
      end
  end.

(** what a round asks: a fetch of a node with an epoch, or for a leader *)
Inductive fask := AskFetch (node epoch : Z) | AskLeader.
(** the question of the next round *)
Definition ask_of (version : Z) (c : fol) : fask :=
  match f_leader c with Some n => AskFetch n (sent version c) | None => AskLeader end.
(** what may happen: a round with the answer to its fetch, or the tick of
    simple_consumer.go:61-73 *)
Inductive fop := FRound (a : fanswer) | FTick.
(** simple_consumer.go:61-73 and 408-452: the questions asked and the answers to them *)
Fixpoint frun (topic : bytes) (pid version : Z) (meta : option response) (alive : Z -> bool) (l : list fop) (c : fol)
  : res (fol * list (fask * fanswer)) :=
  match l with
  | [] => Ok (c, [])
  | FRound a :: l' =>
      rbind (fround topic pid meta alive a c) (fun c' =>
      rbind (frun topic pid version meta alive l' c') (fun '(c'', q) => Ok (c'', (ask_of version c, a) :: q)))
  | FTick :: l' => frun topic pid version meta alive l' (mkF (f_leader c) (refreshPartiton topic pid meta (f_epoch c)))
  end.

(** simple_consumer.go:47-90 and 130-144: the coordinator of a consumer outside of a group
    consumer is looked up when it is made, and at no other time; 296-319: its commits go
    there, whatever became of earlier ones *)
Definition sc_commits (coord : Z) (ws : list world) : list bool :=
  map (fun w => match coord_answer w coord tt with Ok _ => true | _ => false end) ws.
(** simple_consumer.go:247-258: so do its requests for the committed offset, until one is
    answered *)
Definition sc_lookup (topic : bytes) (pid coord : Z) (ws : list (world * response)) (cur : Z) : looped Z :=
  committedLoop topic pid (map (fun x => coord_answer (fst x) coord (snd x)) ws) cur.
