(** Model of the encoders of responses (they serve the tests of the client and of whoever
    plays the broker) and of message sets.  The decoders of the same responses are in
    Responses.v and Fetch.v.  A response is the value of type [response] the decoder would
    return.  Simplification: the header of a response is one NewResponseHeader made for the
    key of the response and the version that is encoded, so that IsFlexible agrees with it. *)
From Verif Require Import Base Prims Responses RecordSpec Records Fetch.

(** buf.Write(a); buf.Write(b); ... on a bytes.Buffer *)
Fixpoint rcat (l : list (res bytes)) : res bytes :=
  match l with
  | [] => Ok []
  | a :: l' => rbind a (fun x => rbind (rcat l') (fun y => Ok (x ++ y)))
  end.
(** a placeholder of four bytes, the rest, and at last
    binary.BigEndian.PutUint32(payload, uint32(len(payload)-4)) *)
Definition rsized (l : list (res bytes)) : res bytes :=
  rbind (rcat l) (fun w => Ok (be 4 (uint 32 (zlen w)) ++ w)).
(** ranging over nil is no round *)
Definition olist {A} (o : option (list A)) : list A := match o with Some l => l | None => [] end.

(** response.go:178-185 ResponseHeader.Encode *)
Definition rh_encode (flex : bool) (corr : Z) (htags : taggedFields) : res bytes :=
  rcat [Ok (be 4 corr); if flex then tf_encode htags else Ok []].
(** response.go:170-176 ResponseHeader.length *)
Definition rh_length (flex : bool) (htags : taggedFields) : Z := 4 + (if flex then tf_length htags else 0).
(** response.go:186-193 ResponseHeader.EncodeTo; [ht]: TaggedFields.Encode() *)
Definition rh_ops (flex : bool) (corr : Z) (ht : bytes) : list wop :=
  Put (be 4 corr) :: (if flex then [CopyN ht] else []).

(** alter_partition_reassignments_response.go:86-94 *)
Definition ar_part (p : Z * (Z * (option bytes * taggedFields))) : res bytes :=
  let '(id, (ec, (m, t))) := p in
  rcat [Ok (be 4 id); Ok (be 2 ec); Ok (writeCompactNullableString m); tf_encode t].
(** alter_partition_reassignments_response.go:65-76 *)
Definition ar_topic (x : bytes * (list (Z * (Z * (option bytes * taggedFields))) * taggedFields)) : res bytes :=
  let '(n, (ps, t)) := x in
  rcat ([Ok (encodeCompactString n); Ok (encodeCompactArrayLength (zlen ps))] ++ map ar_part ps ++ [tf_encode t]).
(** alter_partition_reassignments_response.go:35-56; the header is flexible in every version *)
Definition enc_alterreassignments (r : response) : res bytes :=
  match r with
  | RAlterReassignments corr htags throttle ec msg ts tags =>
      rsized ([rh_encode true corr htags; Ok (be 4 throttle); Ok (be 2 ec); Ok (writeCompactNullableString msg);
               Ok (encodeCompactArrayLength (zlen (olist ts)))] ++ map ar_topic (olist ts) ++ [tf_encode tags])
  | _ => Unspec
  end.

(** create_acls_response.go:86-97: neither the four bytes of the size nor any tags but those
    of the header are counted *)
Definition ca_length (flex : bool) (htags : taggedFields) (rs : list (Z * (option bytes * taggedFields))) : Z :=
  rh_length flex htags + 4 +
  fold_right (fun r n => 2 + 2 + (match fst (snd r) with Some m => zlen m + 2 | None => 0 end) + n) 0 rs.
(** create_acls_response.go:118-131: the tags written with each result are those of the
    response (line 129) *)
Definition ca_result (flex : bool) (tags : taggedFields) (r : Z * (option bytes * taggedFields)) : list wop :=
  Put (be 2 (fst r)) ::
  CopyN (if flex then encodeCompactNullableString (fst (snd r)) else encodeNullableString (fst (snd r))) ::
  (if flex then tf_ops tags else []).
(** create_acls_response.go:100-138 *)
Definition enc_createacls (v : Z) (r : response) : res bytes :=
  let flex := rhv_from 2 v in
  match r with
  | RCreateAcls corr htags rs tags =>
      rbind (if flex then tf_encode htags else Ok []) (fun ht =>
      rbind (if flex then tf_encode tags else Ok []) (fun bt =>
      wpatch (ca_length flex htags (olist rs))
        (rh_ops flex corr ht ++
         (if flex then CopyN (encodeCompactArrayLength (zlen (olist rs))) else Put (be 4 (uint 32 (zlen (olist rs))))) ::
         flat_map (ca_result flex tags) (olist rs) ++
         (if flex then [CopyN bt] else []))))
  | _ => Unspec
  end.

(** delete_acls_response.go:75-104 *)
Definition da_matching (v : Z) (flex : bool)
    (x : Z * (option bytes * (Z * (bytes * (Z * (bytes * (bytes * (Z * (Z * taggedFields))))))))) : res bytes :=
  let '(ec, (m, (ty, (n, (pt, (pr, (ho, (op, (pe, t))))))))) := x in
  let str s := Ok (if flex then encodeCompactString s else encodeString s) in
  rcat [Ok (be 2 ec); Ok (if flex then encodeCompactNullableString m else encodeNullableString m); Ok (be 1 ty); str n;
        Ok (if 1 <=? v then be 1 pt else []); str pr; str ho; Ok (be 1 op); Ok (be 1 pe); if flex then tf_encode t else Ok []].
(** the length of an array, compact or not *)
Definition alen (flex : bool) (n : Z) : bytes := if flex then encodeCompactArrayLength n else be 4 (uint 32 n).
(** delete_acls_response.go:228-249 *)
Definition da_result (v : Z) (flex : bool)
    (x : Z * (option bytes * (list (Z * (option bytes * (Z * (bytes * (Z * (bytes * (bytes * (Z * (Z * taggedFields))))))))) * taggedFields))) : res bytes :=
  let '(ec, (m, (ms, t))) := x in
  rcat ([Ok (be 2 ec); Ok (if flex then encodeCompactNullableString m else encodeNullableString m); Ok (alen flex (zlen ms))] ++
        map (da_matching v flex) ms ++ [tf_encode t]).
(** delete_acls_response.go:208-251 *)
Definition enc_deleteacls (v : Z) (r : response) : res bytes :=
  let flex := rhv_from 2 v in
  match r with
  | RDeleteAcls corr htags throttle rs tags =>
      rsized ([rh_encode flex corr htags; Ok (be 4 throttle); Ok (alen flex (zlen rs))] ++
              map (da_result v flex) rs ++ [tf_encode tags])
  | _ => Unspec
  end.

(** desscribe_acls_response.go:222-239 *)
Definition ds_acl (v : Z) (x : bytes * (bytes * (Z * (Z * taggedFields)))) : res bytes :=
  let '(pr, (ho, (op, (pe, t)))) := x in
  let str s := Ok (if v <=? 1 then encodeString s else encodeCompactString s) in
  rcat [str pr; str ho; Ok (be 1 op); Ok (be 1 pe); if 2 <=? v then tf_encode t else Ok []].
(** desscribe_acls_response.go:202-243 *)
Definition ds_resource (v : Z) (x : Z * (bytes * (Z * (list (bytes * (bytes * (Z * (Z * taggedFields)))) * taggedFields)))) : res bytes :=
  let '(ty, (n, (pt, (acls, t)))) := x in
  rcat ([Ok (be 1 ty); Ok (if v <=? 1 then encodeString n else encodeCompactString n);
         Ok (if 1 <=? v then be 1 pt else []); Ok (alen (negb (v <=? 1)) (zlen acls))] ++
        map (ds_acl v) acls ++ [if 2 <=? v then tf_encode t else Ok []]).
(** desscribe_acls_response.go:173-247: from version 1 on the tags of the body are written
    into the header (line 184), and from version 2 on at the end as well *)
Definition enc_describeacls (v : Z) (r : response) : res bytes :=
  match r with
  | RDescribeAcls corr throttle ec msg rs tags =>
      rsized ([Ok (be 4 corr); if 1 <=? v then tf_encode tags else Ok []; Ok (be 4 throttle); Ok (be 2 ec);
               Ok (if v <=? 1 then encodeNullableString msg else writeCompactNullableString msg);
               Ok (alen (negb (v <=? 1)) (zlen (olist rs)))] ++
              map (ds_resource v) (olist rs) ++ [if 2 <=? v then tf_encode tags else Ok []])
  | _ => Unspec
  end.

(** list_groups_response.go:137-152 *)
Definition lg_length (flex : bool) (htags : taggedFields) (gs : list (bytes * (bytes * (bytes * (bytes * taggedFields))))) (tags : taggedFields) : Z :=
  4 + rh_length flex htags + 4 + 2 + 4 +
  fold_right (fun g n => (2 + zlen (fst g)) + (2 + zlen (fst (snd g))) + (2 + zlen (fst (snd (snd g)))) +
                         (2 + zlen (fst (snd (snd (snd g))))) + tf_length (snd (snd (snd (snd g)))) + n) 0 gs +
  tf_length tags.
(** list_groups_response.go:155-181 *)
Definition lg_group (v : Z) (flex : bool) (g : bytes * (bytes * (bytes * (bytes * taggedFields)))) : list wop :=
  let str s := CopyN (if flex then encodeCompactString s else encodeString s) in
  let '(id, (pt, (st, (ty, t)))) := g in
  [str id; str pt] ++ (if 4 <=? v then [str st] else []) ++ (if 5 <=? v then [str ty] else []) ++ (if flex then tf_ops t else []).
(** list_groups_response.go:184-227: without groups (nil) the count is -1 if the version is
    flexible and 0 otherwise *)
Definition enc_listgroups (v : Z) (r : response) : res bytes :=
  let flex := rhv_from 3 v in
  match r with
  | RListGroups corr htags throttle ec gs tags =>
      rbind (if flex then tf_encode htags else Ok []) (fun ht =>
      wpatch (lg_length flex htags (olist gs) tags)
        (rh_ops flex corr ht ++
         (if 1 <=? v then [Put (be 4 throttle)] else []) ++ Put (be 2 ec) ::
         (if flex then CopyN (encodeCompactArrayLength (match gs with None => -1 | Some l => zlen l end))
          else Put (be 4 (uint 32 (zlen (olist gs))))) ::
         flat_map (lg_group v flex) (olist gs) ++ (if flex then tf_ops tags else [])))
  | _ => Unspec
  end.

(** message.go:49-58 MessageSet.Length *)
Definition ms_length (ms : list Message) : Z :=
  fold_right (fun m n => 26 + zlen (obytes (m_key m)) + zlen (obytes (m_value m)) + (if m_magic m =? 1 then 8 else 0) + n) 0 ms.
(** message.go:69-103: what follows the CRC; a nil value is written with length 0 *)
Definition ms_body (m : Message) : bytes :=
  be 1 (m_magic m) ++ be 1 (m_attr m) ++ (if m_magic m =? 1 then be 8 (m_ts m) else []) ++
  (match m_key m with None => be 4 4294967295 | Some k => be 4 (uint 32 (zlen k)) ++ k end) ++
  be 4 (uint 32 (zlen (obytes (m_value m)))) ++ obytes (m_value m).
(** message.go:66-103: what follows the CRC *)
Definition ms_message (m : Message) : bytes :=
  be 8 (m_offset m) ++
  be 4 (uint 32 (14 + zlen (obytes (m_key m)) + zlen (obytes (m_value m)) + (if m_magic m =? 1 then 8 else 0))) ++
  be 4 (crc32 (ms_body m)) ++ ms_body m.
(** message.go:60-107 MessageSet.Encode, into a buffer of [size] bytes from its start.  Every
    write panics if it does not fit; so does payload[crcPosition+4 : offset] when a copy was
    cut short (the capacity is taken to be the length).  The CRC is that of message.go:102. *)
Definition ms_encode (size : Z) (ms : list Message) : res bytes := wfull size (map (fun m => Put (ms_message m)) ms).
