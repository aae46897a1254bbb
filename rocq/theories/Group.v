(** Model of group.go: encoding of member assignments and subscriptions. *)
From Verif Require Import Base.

(** group.go:5-16.  A nil UserData and an empty one are not distinguished. *)
Record MemberAssignment := mkMA {
  ma_version : Z;                          (* int16 *)
  ma_parts : list (bytes * list Z);        (* PartitionAssignments: topic, partitions *)
  ma_user : bytes }.

(** group.go:18-26 *)
Definition ma_length (m : MemberAssignment) : Z :=
  fold_left (fun l p => l + (2 + zlen (fst p)) + (4 + zlen (snd p) * 4)) (ma_parts m) (2 + 4)
  + (4 + zlen (ma_user m)).

(** group.go:37-51, one iteration *)
Definition ma_part_ops (p : bytes * list Z) : list wop :=
  [Put (be 2 (uint 16 (zlen (fst p)))); Copy (fst p); Put (be 4 (uint 32 (zlen (snd p))))]
  ++ map (fun x => Put (be 4 (uint 32 x))) (snd p).

(** group.go:28-55.  Line 52 copies the user data without a length prefix. *)
Definition ma_encode (m : MemberAssignment) : res bytes :=
  wfull (ma_length m)
    ([Put (be 2 (uint 16 (ma_version m))); Put (be 4 (uint 32 (zlen (ma_parts m))))]
     ++ flat_map ma_part_ops (ma_parts m)
     ++ [Copy (ma_user m)]).

(** group.go:74-89, one iteration; the inner count is int(uint32), never negative *)
Definition rd_ma_part : parser (bytes * list Z) :=
  l <- rd_u16 ;;
  t <- rd_bytes l ;;
  n <- rd_u32 ;;
  ps <- rd_make n rd_i32 ;;
  ret (t, ps).

(** group.go:91-97: copy(make([]byte,count), payload[offset:]) pads with zeros *)
Definition rd_ma_user : parser bytes :=
  n <- rd_i32 ;;
  if n =? -1 then ret []
  else if n <? 0 then panic
  else fun s => let b := firstn (Z.to_nat n) s in
                Ok (b ++ repeat 0 (Z.to_nat n - length b), skipn (Z.to_nat n) s).

(** group.go:57-100 NewMemberAssignment *)
Definition newMemberAssignment (payload : bytes) : res MemberAssignment :=
  match payload with
  | [] => Err EEmptyPayload
  | _ =>
    match (v <- rd_i16 ;; n <- rd_i32 ;; ps <- rd_make n rd_ma_part ;;
           u <- rd_ma_user ;; ret (mkMA v ps u)) payload with
    | Ok (m, _) => Ok m
    | Err e => Err e | Panic => Panic | Unspec => Unspec
    end
  end.

(** group.go:109-113 *)
Record ProtocolMetadata := mkPM {
  pm_version : Z;            (* uint16 *)
  pm_subs : list bytes;
  pm_user : option bytes }.  (* nil after decoding length -1 *)

Definition pm_user_bytes (m : ProtocolMetadata) : bytes :=
  match pm_user m with None => [] | Some u => u end.

(** group.go:115-123 *)
Definition pm_length (m : ProtocolMetadata) : Z :=
  fold_left (fun l s => l + 2 + zlen s) (pm_subs m) (2 + 4) + (4 + zlen (pm_user_bytes m)).

(** group.go:125-146 *)
Definition pm_encode (m : ProtocolMetadata) : res bytes :=
  wfull (pm_length m)
    ([Put (be 2 (pm_version m)); Put (be 4 (uint 32 (zlen (pm_subs m))))]
     ++ flat_map (fun s => [Put (be 2 (uint 16 (zlen s))); Copy s]) (pm_subs m)
     ++ [Put (be 4 (uint 32 (zlen (pm_user_bytes m)))); Copy (pm_user_bytes m)]).

(** group.go:148-173 NewProtocolMetadata; returns no error, so it either returns a
    value or panics. *)
Definition newProtocolMetadata (payload : bytes) : res ProtocolMetadata :=
  match (v <- rd_u16 ;;
         n <- rd_u32 ;;
         subs <- rd_make n (l <- rd_u16 ;; rd_bytes l) ;;
         l <- rd_i32 ;;
         if l =? -1 then ret (mkPM v subs None)
         else (u <- rd_bytes l ;; ret (mkPM v subs (Some u)))) payload with
  | Ok (m, _) => Ok m
  | Err e => Err e | Panic => Panic | Unspec => Unspec
  end.
