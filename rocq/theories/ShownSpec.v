(** Specification: which responses can be read from what is printed, and what of them. *)
From Verif Require Import Base Prims Group Responses Fetch Utf8Spec.

(** strings are texts, data are bytes, the numbers standing for words are known ones *)
Definition otext (o : option bytes) : Prop := forall s, o = Some s -> text s.
Definition tags_ok (t : taggedFields) : Prop := Forall (fun x => Forall byte_ok (snd x)) t.
Definition each {A} (P : A -> Prop) (o : option (list A)) : Prop := forall l, o = Some l -> Forall P l.
Definition ma_ok (a : MemberAssignment) : Prop := Forall (fun p => text (fst p)) (ma_parts a) /\ Forall byte_ok (ma_user a).
Definition member_ok (m : gmember) : Prop :=
  let '(id, (cl, (host, (md, (raw, a))))) := m in
  text id /\ text cl /\ text host /\ Forall byte_ok md /\ (forall x, a = Some x -> ma_ok x).
Definition readable (r : response) : Prop :=
  match r with
  | RCreateTopics _ l | RDeleteTopics _ l | RDeleteGroups _ _ l => Forall (fun t => text (fst t)) l
  | RCreatePartitions _ _ l => Forall (fun t => let '(n, (_, m)) := t in text n /\ otext m) l
  | RMetadata _ _ bs cl _ ts =>
      Forall (fun b => let '(_, (h, (_, rk))) := b in text h /\ text rk) bs /\ text cl /\
      Forall (fun t => let '(_, (n, _)) := t in text n) ts
  | RDescribeConfigs _ _ l =>
      Forall (fun x => let '(_, (m, (_, (n, es)))) := x in text m /\ text n /\
        Forall (fun e => let '(k, (v, _)) := e in text k /\ text v) es) l
  | RIncrementalAlterConfigs _ _ l => Forall (fun x => let '(_, (m, (_, n))) := x in text m /\ text n) l
  | RDescribeLogDirs _ _ l => Forall (fun x => let '(_, (d, ts)) := x in text d /\ Forall (fun t => text (fst t)) ts) l
  | RElectLeaders _ _ l =>
      Forall (fun t => text (fst t) /\ Forall (fun p => let '(_, (_, m)) := p in text m) (snd t)) l
  | RListReassignments _ _ _ m l => otext m /\ Forall (fun t => text (fst t)) l
  | RAlterReassignments _ ht _ _ m l tags =>
      tags_ok ht /\ otext m /\
      each (fun t => let '(n, (ps, tg)) := t in text n /\
        Forall (fun p => let '(_, (_, (pm, pt))) := p in otext pm /\ tags_ok pt) ps /\ tags_ok tg) l /\ tags_ok tags
  | RCreateAcls _ _ l tags => each (fun x => let '(_, (m, tg)) := x in otext m /\ tags_ok tg) l /\ tags_ok tags
  | RDeleteAcls _ _ _ l tags =>
      Forall (fun x => let '(_, (m, (ms, tg))) := x in otext m /\
        Forall (fun a => let '(_, (am, (ty, (n, (pt, (pr, (h, (op, (pe, at_))))))))) := a in
          otext am /\ 0 <= ty <= 7 /\ text n /\ 0 <= pt <= 4 /\ text pr /\ text h /\ 0 <= op <= 12 /\ 0 <= pe <= 3 /\ tags_ok at_) ms /\
        tags_ok tg) l /\ tags_ok tags
  | RDescribeAcls _ _ _ m l tags =>
      otext m /\
      each (fun x => let '(ty, (n, (pt, (acls, tg)))) := x in 0 <= ty <= 7 /\ text n /\ 0 <= pt <= 4 /\
        Forall (fun a => let '(pr, (h, (op, (pe, at_)))) := a in
          text pr /\ text h /\ 0 <= op <= 12 /\ 0 <= pe <= 3 /\ tags_ok at_) acls /\ tags_ok tg) l /\ tags_ok tags
  | RDescribeGroups _ gs =>
      Forall (fun g => let '(_, (id, (st, (pt, (pr, ms))))) := g in
        text id /\ text st /\ text pt /\ text pr /\ Forall member_ok ms) gs
  | RListGroups _ _ _ _ gs _ =>
      each (fun g => let '(id, (pt, (st, (ty, tags)))) := g in text id /\ text pt /\ text st /\ text ty /\ tags_ok tags) gs
  | _ => False
  end.

(** what is not meant to be printed: the raw assignment beside the decoded one *)
Definition without_raw (m : gmember) : gmember :=
  let '(id, (cl, (host, (md, (raw, a))))) := m in (id, (cl, (host, (md, ([], a))))).
(** two responses that differ at most in what is left out *)
Definition seen (r : response) : response :=
  match r with
  | RDescribeLogDirs _ th l => RDescribeLogDirs 0 th l
  | RCreateAcls corr _ l tags => RCreateAcls corr [] l tags
  | RDeleteAcls corr _ th l tags => RDeleteAcls corr [] th l tags
  | RDescribeGroups _ gs =>
      RDescribeGroups 0 (map (fun g => let '(ec, (id, (st, (pt, (pr, ms))))) := g in
        (ec, (id, (st, (pt, (pr, map without_raw ms)))))) gs)
  | RListGroups _ _ _ _ gs _ => RListGroups 0 [] 0 0 gs []
  | _ => r
  end.
(** answers to the same request *)
Definition alike (r r' : response) : Prop :=
  match r, r' with
  | RCreateTopics _ _, RCreateTopics _ _ | RDeleteTopics _ _, RDeleteTopics _ _ | RDeleteGroups _ _ _, RDeleteGroups _ _ _
  | RCreatePartitions _ _ _, RCreatePartitions _ _ _ | RMetadata _ _ _ _ _ _, RMetadata _ _ _ _ _ _ | RDescribeConfigs _ _ _, RDescribeConfigs _ _ _
  | RIncrementalAlterConfigs _ _ _, RIncrementalAlterConfigs _ _ _ | RDescribeLogDirs _ _ _, RDescribeLogDirs _ _ _
  | RElectLeaders _ _ _, RElectLeaders _ _ _ | RListReassignments _ _ _ _ _, RListReassignments _ _ _ _ _
  | RAlterReassignments _ _ _ _ _ _ _, RAlterReassignments _ _ _ _ _ _ _ | RCreateAcls _ _ _ _, RCreateAcls _ _ _ _
  | RDeleteAcls _ _ _ _ _, RDeleteAcls _ _ _ _ _ | RDescribeAcls _ _ _ _ _ _, RDescribeAcls _ _ _ _ _ _
  | RDescribeGroups _ _, RDescribeGroups _ _ | RListGroups _ _ _ _ _ _, RListGroups _ _ _ _ _ _ => True
  | _, _ => False
  end.
(** messages: header keys are texts, data are bytes, only messages of the new format have headers *)
Definition message_readable (m : Message) : Prop :=
  (forall k, m_key m = Some k -> Forall byte_ok k) /\ (forall v, m_value m = Some v -> Forall byte_ok v) /\
  Forall (fun h => text (fst h) /\ Forall byte_ok (snd h)) (m_headers m) /\ (m_magic m < 2 -> m_headers m = []).
(** events: messages that can be read, errors that are codes *)
Definition event_readable (e : event) : Prop :=
  match e with EvMsg t _ m => text t /\ message_readable m | EvErr x => exists c, x = EKafka c end.
