(** What the HTTP interface is meant to do. *)
From Verif Require Import Base Http.

(** ** base64, RFC 4648 section 4 *)
Definition b64digit (d : Z) : Z :=
  if d <? 26 then 65 + d else if d <? 52 then 71 + d else if d <? 62 then d - 4 else if d =? 62 then 43 else 47.
Fixpoint b64encode (s : bytes) : bytes :=
  match s with
  | [] => []
  | [a] => [b64digit (a / 4); b64digit (a mod 4 * 16); 61; 61]
  | [a; b] => [b64digit (a / 4); b64digit (a mod 4 * 16 + b / 16); b64digit (b mod 16 * 4); 61]
  | a :: b :: c :: s' =>
      [b64digit (a / 4); b64digit (a mod 4 * 16 + b / 16); b64digit (b mod 16 * 4 + c / 64); b64digit (c mod 64)] ++ b64encode s'
  end.
(** the header RFC 7617 asks for *)
Definition credentials (user pass : bytes) : bytes := [66; 97; 115; 105; 99; 32] ++ b64encode (user ++ 58 :: pass).

(** methods that only read may be let through without *)
Definition exempt (getAllowed : bool) (m : method) : Prop := getAllowed = true /\ (m = GET \/ m = HEAD \/ m = OPTIONS).

(** ** Replies *)
Fixpoint replies (l : list hev) : list Z :=
  match l with [] => [] | EReply s :: l' => s :: replies l' | _ :: l' => replies l' end.
(** every connection opened is closed, once *)
Definition all_closed (l : list hev) : Prop :=
  forall v, In (EOpen v) l -> exists b a, l = b ++ EClose v :: a /\ ~ In (EClose v) (b ++ a).
(** the calls and inputs of a handler *)
Definition is_call (s : hstep) : bool := match s with HDefer _ | HUse _ | HJSON => false | _ => true end.
Definition calls (h : handler) : nat := length (filter is_call (steps h)).
(** all calls succeed *)
Definition all_well (h : handler) (o : nat -> outcome) : Prop := forall k, (k < calls h)%nat -> o k = OOk.
(** which of these (counted from 0) look at what the caller of the interface sent: the body,
    a number in the path, the kind of election, topics *)
Definition input_checks (h : handler) : list nat :=
  match h with
  | GetTopicOffsets | CreatePartitions | DescribeLogdirs => [1%nat]
  | DescribeAcls | DeleteAcls | CreateAcls => [0%nat]
  | ElectLeaders => [0%nat; 1%nat]
  | ListPartitionReassignments | AlterPartitionReassignments => [0%nat; 2%nat]
  | _ => []
  end.
