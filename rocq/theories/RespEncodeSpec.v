(** Which responses a version can carry: every number fits its field, strings and arrays fit
    their counts, and what the version has no field for is empty.  And when two responses
    are the same: a nil slice and an empty one are not told apart. *)
From Verif Require Import Base Wire Prims Responses Records Fetch.

Definition u8 (x : Z) : Prop := 0 <= x < 256.
Definition tags_in (there : bool) (t : taggedFields) : Prop := if there then wf TTags t else t = [].
Definition num_in (there : bool) (range : Z -> Prop) (x : Z) : Prop := if there then range x else x = 0.
Definition str_in (there : bool) (s : bytes) : Prop := if there then zlen s < 2 ^ 15 else s = [].
Definition nstr_in (m : option bytes) : Prop := match m with Some s => zlen s < 2 ^ 15 | None => True end.
Definition list_in {A} (P : A -> Prop) (l : list A) : Prop := zlen l < 2 ^ 31 - 1 /\ Forall P l.

Definition carried_reassigned (p : Z * (Z * (option bytes * taggedFields))) : Prop :=
  let '(id, (ec, (m, t))) := p in i32 id /\ i16 ec /\ nstr_in m /\ wf TTags t.
Definition carried_matching (v : Z) (x : Z * (option bytes * (Z * (bytes * (Z * (bytes * (bytes * (Z * (Z * taggedFields))))))))) : Prop :=
  let '(ec, (m, (ty, (n, (pt, (pr, (ho, (op, (pe, t))))))))) := x in
  i16 ec /\ nstr_in m /\ u8 ty /\ str_in true n /\ num_in (1 <=? v) u8 pt /\ str_in true pr /\ str_in true ho /\ u8 op /\ u8 pe /\ tags_in (2 <=? v) t.
Definition carried_acl (v : Z) (x : bytes * (bytes * (Z * (Z * taggedFields)))) : Prop :=
  let '(pr, (ho, (op, (pe, t)))) := x in str_in true pr /\ str_in true ho /\ u8 op /\ u8 pe /\ tags_in (2 <=? v) t.
Definition carried_group (v : Z) (x : bytes * (bytes * (bytes * (bytes * taggedFields)))) : Prop :=
  let '(id, (pt, (st, (ty, t)))) := x in
  str_in true id /\ str_in true pt /\ str_in (4 <=? v) st /\ str_in (5 <=? v) ty /\ tags_in (3 <=? v) t.

Definition elements {A} (o : option (list A)) : list A := match o with Some l => l | None => [] end.
Definition carried (v : Z) (r : response) : Prop :=
  match r with
  | RAlterReassignments corr htags throttle ec msg ts tags =>
      u32 corr /\ wf TTags htags /\ i32 throttle /\ i16 ec /\ nstr_in msg /\ wf TTags tags /\
      list_in (fun x => let '(n, (ps, t)) := x in str_in true n /\ list_in carried_reassigned ps /\ wf TTags t) (elements ts)
  | RCreateAcls corr htags rs tags =>
      u32 corr /\ tags_in (2 <=? v) htags /\ tags_in (2 <=? v) tags /\
      list_in (fun x => let '(ec, (m, t)) := x in u16 ec /\ nstr_in m /\ tags_in (2 <=? v) t) (elements rs)
  | RDeleteAcls corr htags throttle rs tags =>
      u32 corr /\ tags_in (2 <=? v) htags /\ i32 throttle /\ wf TTags tags /\
      list_in (fun x => let '(ec, (m, (ms, t))) := x in i16 ec /\ nstr_in m /\ list_in (carried_matching v) ms /\ wf TTags t) rs
  | RDescribeAcls corr throttle ec msg rs tags =>
      u32 corr /\ i32 throttle /\ i16 ec /\ nstr_in msg /\ tags_in (2 <=? v) tags /\
      list_in (fun x => let '(ty, (n, (pt, (acls, t)))) := x in
                 u8 ty /\ str_in true n /\ num_in (1 <=? v) u8 pt /\ list_in (carried_acl v) acls /\ tags_in (2 <=? v) t) (elements rs)
  | RListGroups corr htags throttle ec gs tags =>
      u32 corr /\ tags_in (3 <=? v) htags /\ num_in (1 <=? v) i32 throttle /\ u16 ec /\ tags_in (3 <=? v) tags /\
      list_in (carried_group v) (elements gs)
  | _ => True
  end.

(** the same response but for nil and empty *)
Definition same_list {A} (a b : option (list A)) : Prop := elements a = elements b.
Definition same (r r' : response) : Prop :=
  match r, r' with
  | RAlterReassignments c h t e m ts g, RAlterReassignments c' h' t' e' m' ts' g' =>
      (c, h, t, e, m, g) = (c', h', t', e', m', g') /\ same_list ts ts'
  | RCreateAcls c h rs g, RCreateAcls c' h' rs' g' => (c, h, g) = (c', h', g') /\ same_list rs rs'
  | RDescribeAcls c t e m rs g, RDescribeAcls c' t' e' m' rs' g' => (c, t, e, m, g) = (c', t', e', m', g') /\ same_list rs rs'
  | RListGroups c h t e gs g, RListGroups c' h' t' e' gs' g' => (c, h, t, e, g) = (c', h', t', e', g') /\ same_list gs gs'
  | _, _ => r = r'
  end.

(** encoding the response and decoding the result gives the response back *)
Definition read_back (enc : response -> res bytes) (dec : bytes -> res response) (r : response) : Prop :=
  exists w, enc r = Ok w /\ (zlen w < 2 ^ 31 -> exists r', dec w = Ok r' /\ same r r').

(** *** Message sets *)
(** an uncompressed message of the formats 0 and 1 *)
Definition plain_message (m : Message) : Prop :=
  i64 (m_offset m) /\ (m_magic m = 0 \/ m_magic m = 1) /\ i8 (m_attr m) /\ Z.land (m_attr m) 7 = 0 /\
  (if m_magic m =? 1 then u64 (m_ts m) else m_ts m = 0) /\ m_headers m = [] /\
  (match m_key m with None => True | Some b => zlen b < 2 ^ 31 end) /\
  (match m_value m with None => True | Some b => zlen b < 2 ^ 31 end) /\
  22 + zlen (obytes (m_key m)) + zlen (obytes (m_value m)) < 2 ^ 31.
