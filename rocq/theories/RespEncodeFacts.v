(** The response decoders read what the response encoders write. *)
From Verif Require Import Base BaseFacts Wire WireFacts Prims PrimsFacts Records Fetch Responses RespEncode RespEncodeSpec.

(** [rt e p a]: [e] gives bytes from which [p] reads [a] *)
Definition rt {A} (e : res bytes) (p : parser A) (a : A) : Prop := exists b, e = Ok b /\ forall r, p (b ++ r) = Ok (a, r).
Lemma rt_ok {A} b (p : parser A) a : (forall r, p (b ++ r) = Ok (a, r)) -> rt (Ok b) p a.
Proof. intros H. exists b. auto. Qed.
Lemma rt_nil {A} (a : A) : rt (rcat []) (ret a) a.
Proof. apply rt_ok. reflexivity. Qed.
Lemma rt_none {A} (a : A) : rt (Ok []) (ret a) a.
Proof. apply rt_ok. reflexivity. Qed.
Lemma rt_cons {A B} e l (p : parser A) (k : A -> parser B) a c :
  rt e p a -> rt (rcat l) (k a) c -> rt (rcat (e :: l)) (bind p k) c.
Proof.
  intros (b & Eb & Hb) (w & Ew & Hw). exists (b ++ w). cbn [rcat]. rewrite Eb. cbn [rbind]. rewrite Ew. split; [reflexivity|].
  intros r. rewrite <- app_assoc. erewrite bind_ok by apply Hb. apply Hw.
Qed.
Lemma rcat_app a b : rcat (a ++ b) = rbind (rcat a) (fun x => rbind (rcat b) (fun y => Ok (x ++ y))).
Proof.
  induction a as [|e a IH]; cbn [rcat app rbind].
  - destruct (rcat b); reflexivity.
  - destruct e as [x| | |]; cbn [rbind]; try reflexivity. rewrite IH. destruct (rcat a) as [y| | |]; cbn [rbind]; try reflexivity.
    destruct (rcat b) as [z| | |]; cbn [rbind]; try reflexivity. rewrite app_assoc. reflexivity.
Qed.
Lemma rt_app {A B} l1 l2 (p : parser A) (k : A -> parser B) a c :
  rt (rcat l1) p a -> rt (rcat l2) (k a) c -> rt (rcat (l1 ++ l2)) (bind p k) c.
Proof.
  intros (b & Eb & Hb) (w & Ew & Hw). exists (b ++ w). rewrite rcat_app, Eb. cbn [rbind]. rewrite Ew. split; [reflexivity|].
  intros r. rewrite <- app_assoc. erewrite bind_ok by apply Hb. apply Hw.
Qed.
Lemma rt_n {A} (f : A -> res bytes) p (l : list A) : Forall (fun x => rt (f x) p x) l -> rt (rcat (map f l)) (rd_n (length l) p) l.
Proof.
  intros H. induction H as [|x l Hx _ IH]; [apply rt_nil|].
  cbn [map length rd_n]. eapply rt_cons; [exact Hx|]. destruct IH as (b & Eb & Hb). exists b. split; [exact Eb|].
  intros r. erewrite bind_ok by apply Hb. reflexivity.
Qed.
Lemma rt_make {A} (f : A -> res bytes) p (l : list A) : Forall (fun x => rt (f x) p x) l -> rt (rcat (map f l)) (rd_make (zlen l) p) l.
Proof.
  intros H. unfold rd_make. pose proof (zlen_nonneg l). destruct (Z.ltb_spec (zlen l) 0); [lia|]. unfold zlen. rewrite Nat2Z.id. apply rt_n. exact H.
Qed.
Lemma rt_eq {A} e (p q : parser A) a : rt e p a -> (forall s, q s = p s) -> rt e q a.
Proof. intros (b & E & H) Hq. exists b. split; [exact E|]. intros r. rewrite Hq. apply H. Qed.
Lemma rt_more {A B} e (p : parser A) (g : A -> B) a : rt e p a -> rt e (bind p (fun x => ret (g x))) (g a).
Proof. intros (b & E & H). exists b. split; [exact E|]. intros r. erewrite bind_ok by apply H. reflexivity. Qed.

(** *** Leaves *)
Lemma rt_u8 x : u8 x -> rt (Ok (be 1 x)) rd_u8 x.
Proof. intros H. apply rt_ok. intros r. apply rd_u8_be. exact H. Qed.
Lemma rt_u16 x : u16 x -> rt (Ok (be 2 x)) rd_u16 x.
Proof. intros H. apply rt_ok. intros r. apply rd_u16_be. exact H. Qed.
Lemma rt_i16 x : i16 x -> rt (Ok (be 2 x)) rd_i16 x.
Proof. intros H. apply rt_ok. intros r. apply rd_i16_be. exact H. Qed.
Lemma rt_u32 x : u32 x -> rt (Ok (be 4 x)) rd_u32 x.
Proof. intros H. apply rt_ok. intros r. apply rd_u32_be. exact H. Qed.
Lemma rt_i32 x : i32 x -> rt (Ok (be 4 x)) rd_i32 x.
Proof. intros H. apply rt_ok. intros r. apply rd_i32_be. exact H. Qed.
Lemma rt_str s : zlen s < 2 ^ 15 -> rt (Ok (encodeString s)) nonnullableString s.
Proof. intros H. apply rt_ok. intros r. rewrite encodeString_wire by exact H. apply nonnullableString_wire. exact H. Qed.
Lemma rt_cstr s : zlen s < 2 ^ 15 -> rt (Ok (encodeCompactString s)) compactString s.
Proof. intros H. apply rt_ok. intros r. rewrite encodeCompactString_wire. apply compactString_wire. exact H. Qed.
Lemma rt_nstr m : nstr_in m -> rt (Ok (encodeNullableString m)) nullableString m.
Proof. intros H. apply rt_ok. intros r. rewrite encodeNullableString_wire by exact H. apply nullableString_wire. exact H. Qed.
Lemma rt_cnstr m : nstr_in m -> rt (Ok (encodeCompactNullableString m)) compactNullableString m.
Proof. intros H. apply rt_ok. intros r. rewrite encodeCompactNullableString_wire by exact H. apply compactNullableString_wire. exact H. Qed.
Lemma rt_wcnstr m : nstr_in m -> rt (Ok (writeCompactNullableString m)) compactNullableString m.
Proof. intros H. apply rt_ok. intros r. rewrite writeCompactNullableString_wire. apply compactNullableString_wire. exact H. Qed.
Lemma rt_tags t : wf TTags t -> rt (tf_encode t) decodeTaggedFields t.
Proof. intros H. exists (enc TTags t). split; [apply tf_encode_wire; exact (proj2 H)|]. intros r. apply decodeTaggedFields_wire. exact H. Qed.
Lemma rt_tags_in (c : bool) t : tags_in c t -> rt (if c then tf_encode t else Ok []) (if c then decodeTaggedFields else ret []) t.
Proof. destruct c; cbn [tags_in]; [apply rt_tags|]. intros ->. apply rt_none. Qed.
Lemma rt_alen n : 0 <= n < 2 ^ 31 - 1 -> rt (Ok (encodeCompactArrayLength n)) compactArrayLength n.
Proof. intros H. apply rt_ok. intros r. apply compactArrayLength_rt. lia. Qed.
Lemma rt_len n : 0 <= n < 2 ^ 31 - 1 -> rt (Ok (be 4 (uint 32 n))) rd_i32 n.
Proof. intros H. rewrite be4_uint. apply rt_i32. unfold i32. lia. Qed.
Lemma rt_header (flex : bool) corr ht : u32 corr -> tags_in flex ht -> rt (rh_encode flex corr ht) (rd_header flex) (corr, ht).
Proof.
  intros Hc Ht. unfold rh_encode, rd_header. eapply rt_cons; [apply rt_u32; exact Hc|]. cbv beta.
  destruct flex; cbn [tags_in] in Ht.
  - eapply rt_cons; [apply rt_tags; exact Ht|apply rt_nil].
  - subst ht. apply rt_ok. intros r. reflexivity.
Qed.
Lemma rt_if {A} (c : bool) e1 e2 (p1 p2 : parser A) a :
  (c = true -> rt (Ok e1) p1 a) -> (c = false -> rt (Ok e2) p2 a) -> rt (Ok (if c then e1 else e2)) (if c then p1 else p2) a.
Proof. destruct c; auto. Qed.
Lemma rt_num (c : bool) (P : Z -> Prop) e p x : num_in c P x -> (P x -> rt (Ok e) p x) -> rt (Ok (if c then e else [])) (if c then p else ret 0) x.
Proof. destruct c; cbn [num_in]; [auto|]. intros -> _. apply rt_none. Qed.

(** *** The frame *)
Lemma rsized_ok {A} l (p : parser A) a : rt (rcat l) p a ->
  exists w, rsized l = Ok (be 4 (zlen w) ++ w) /\ forall r, p (w ++ r) = Ok (a, r).
Proof. intros (b & E & H). exists b. unfold rsized. rewrite E. cbn [rbind]. rewrite be4_uint. auto. Qed.
Lemma framed_whole {A} w (p : parser A) a : zlen w < 2 ^ 32 -> (forall r, p (w ++ r) = Ok (a, r)) -> whole p (be 4 (zlen w) ++ w) = Ok a.
Proof.
  intros Hw H. unfold whole. pose proof (zlen_nonneg w). rewrite rd_u32_be by (unfold u32; lia). rewrite zlen_app, zlen_be.
  destruct (Z.eqb_spec (zlen w + 4) (Z.of_nat 4 + zlen w)); [|lia]. rewrite <- (app_nil_r w), H. reflexivity.
Qed.

(** *** AlterPartitionReassignments *)
Lemma rt_ar_part p : carried_reassigned p ->
  rt (ar_part p) (q <- rd_i32 ;; ec <- rd_i16 ;; m <- compactNullableString ;; t <- decodeTaggedFields ;; ret (q, (ec, (m, t)))) p.
Proof.
  destruct p as (id & ec & m & t). intros (H1 & H2 & H3 & H4). unfold ar_part.
  eapply rt_cons; [apply rt_i32; exact H1|]. eapply rt_cons; [apply rt_i16; exact H2|].
  eapply rt_cons; [apply rt_wcnstr; exact H3|]. eapply rt_cons; [apply rt_tags; exact H4|]. apply rt_nil.
Qed.
Lemma rt_ar_topic x : (let '(n, (ps, t)) := x in str_in true n /\ list_in carried_reassigned ps /\ wf TTags t) -> rt (ar_topic x) rd_ar_topic x.
Proof.
  destruct x as (n & ps & t). intros (H1 & [H2 H3] & H4). unfold ar_topic, rd_ar_topic. cbn [app].
  eapply rt_cons; [apply rt_cstr; exact H1|]. cbv beta. unfold rd_carr.
  pose proof (zlen_nonneg ps).
  eapply rt_eq with (p := c <- compactArrayLength ;; l <- rd_make c _ ;; t <- decodeTaggedFields ;; ret (n, (l, t))).
  - eapply rt_cons; [apply rt_alen; lia|]. cbv beta. eapply rt_app; [apply rt_make|].
    + eapply Forall_impl; [|exact H3]. intros p Hp. exact (rt_ar_part p Hp).
    + cbv beta. eapply rt_cons; [apply rt_tags; exact H4|]. apply rt_nil.
  - intros s. unfold bind. destruct (compactArrayLength s) as [[c s']| | |]; try reflexivity.
Qed.
Theorem alterreassignments_rt r : (exists c h t e m ts g, r = RAlterReassignments c h t e m ts g) -> carried 0 r ->
  read_back enc_alterreassignments dec_alterreassignments r.
Proof.
  intros (c & h & t & e & m & ts & g & ->) (H1 & H2 & H3 & H4 & H5 & H6 & [H7 H8]). unfold read_back, enc_alterreassignments.
  change (elements ts) with (olist ts) in *. pose proof (zlen_nonneg (olist ts)).
  assert (R : rt (rcat ([rh_encode true c h; Ok (be 4 t); Ok (be 2 e); Ok (writeCompactNullableString m); Ok (encodeCompactArrayLength (zlen (olist ts)))]
      ++ map ar_topic (olist ts) ++ [tf_encode g]))
     (h <- rd_header true ;; throttle <- rd_i32 ;; ec <- rd_i16 ;; msg <- compactNullableString ;;
               n <- compactArrayLength ;; l <- rd_make n rd_ar_topic ;; tags <- decodeTaggedFields ;;
               ret (RAlterReassignments (fst h) (snd h) throttle ec msg (Some l) tags)) (RAlterReassignments c h t e m (Some (olist ts)) g)).
  { cbn [app]. eapply rt_cons; [apply rt_header; [exact H1|exact H2]|]. eapply rt_cons; [apply rt_i32; exact H3|].
    eapply rt_cons; [apply rt_i16; exact H4|]. eapply rt_cons; [apply rt_wcnstr; exact H5|]. eapply rt_cons; [apply rt_alen; exact (conj (zlen_nonneg _) H7)|].
    eapply rt_app; [apply rt_make|].
    - eapply Forall_impl; [|exact H8]. intros x Hx. exact (rt_ar_topic x Hx).
    - eapply rt_cons; [apply rt_tags; exact H6|]. apply rt_nil. }
  destruct (rsized_ok _ _ _ R) as (w & E & P). exists (be 4 (zlen w) ++ w). split; [exact E|]. intros Hw. rewrite zlen_app, zlen_be in Hw.
  exists (RAlterReassignments c h t e m (Some (olist ts)) g). split; [|split; reflexivity].
  unfold dec_alterreassignments. pose proof (zlen_nonneg w). rewrite rd_i32_be by (unfold i32; lia). rewrite zlen_app, zlen_be.
  destruct (Z.eqb_spec (zlen w + 4) (Z.of_nat 4 + zlen w)); [|lia].
  specialize (P []). rewrite app_nil_r in P. revert P. unfold rd_opt_carr, bind.
  destruct (rd_header true w) as [[hh s1]| | |]; try discriminate. destruct (rd_i32 s1) as [[a2 s2]| | |]; try discriminate.
  destruct (rd_i16 s2) as [[a3 s3]| | |]; try discriminate. destruct (compactNullableString s3) as [[a4 s4]| | |]; try discriminate.
  destruct (compactArrayLength s4) as [[n s5]| | |]; try discriminate.
  destruct (Z.ltb_spec n 0); [unfold rd_make; destruct (Z.ltb_spec n 0); [discriminate|lia]|].
  destruct (rd_make n rd_ar_topic s5) as [[l s6]| | |]; try discriminate. cbn [ret].
  destruct (decodeTaggedFields s6) as [[tg s7]| | |]; try discriminate. unfold ret. intros P; injection P; intros; subst; reflexivity.
Qed.

(** *** DeleteAcls *)
Lemma rt_assoc {A B C} e (p : parser A) (k : A -> parser B) (f : B -> parser C) c :
  rt e (bind p (fun a => bind (k a) f)) c -> rt e (bind (bind p k) f) c.
Proof.
  intros H. eapply rt_eq; [exact H|]. intros s. unfold bind. destruct (p s) as [[a s']| | |]; reflexivity.
Qed.
Lemma rt_ret {A B} e (a : A) (f : A -> parser B) c : rt e (f a) c -> rt e (bind (ret a) f) c.
Proof. intros H. eapply rt_eq; [exact H|]. reflexivity. Qed.
Lemma rt_str_in (flex : bool) s : str_in true s ->
  rt (Ok (if flex then encodeCompactString s else encodeString s)) (if flex then compactString else nonnullableString) s.
Proof. intros H. apply rt_if; intros _; [apply rt_cstr|apply rt_str]; exact H. Qed.
Lemma rt_nstr_in (flex : bool) m : nstr_in m ->
  rt (Ok (if flex then encodeCompactNullableString m else encodeNullableString m)) (if flex then compactNullableString else nullableString) m.
Proof. intros H. apply rt_if; intros _; [apply rt_cnstr|apply rt_nstr]; exact H. Qed.
Lemma rt_matching v x : carried_matching v x -> rt (da_matching v (2 <=? v) x) (rd_matching v (2 <=? v)) x.
Proof.
  destruct x as (ec & m & ty & n & pt & pr & ho & op & pe & t). intros (H1 & H2 & H3 & H4 & H5 & H6 & H7 & H8 & H9 & H10).
  unfold da_matching, rd_matching. cbv zeta.
  eapply rt_cons; [apply rt_i16; exact H1|]. eapply rt_cons; [apply rt_nstr_in; exact H2|].
  eapply rt_cons; [apply rt_u8; exact H3|]. eapply rt_cons; [apply rt_str_in; exact H4|].
  eapply rt_cons; [eapply rt_num; [exact H5|apply rt_u8]|].
  eapply rt_cons; [apply rt_str_in; exact H6|]. eapply rt_cons; [apply rt_str_in; exact H7|].
  eapply rt_cons; [apply rt_u8; exact H8|]. eapply rt_cons; [apply rt_u8; exact H9|].
  eapply rt_cons; [apply rt_tags_in; exact H10|]. apply rt_nil.
Qed.
(** the two kinds of arrays, within a decoder *)
Lemma rt_arr {A B} (flex : bool) (f : A -> res bytes) (p : parser A) (l : list A) rest (k : list A -> parser B) c :
  zlen l < 2 ^ 31 - 1 -> Forall (fun x => rt (f x) p x) l -> rt (rcat rest) (k l) c ->
  rt (rcat (Ok (alen flex (zlen l)) :: map f l ++ rest)) (bind (if flex then rd_carr p else rd_iarr p) k) c.
Proof.
  intros Hl Hf Hk. pose proof (zlen_nonneg l).
  assert (G : rt (rcat (Ok (alen flex (zlen l)) :: map f l ++ rest)) (n <- (if flex then compactArrayLength else rd_i32) ;; (r <- rd_make n p ;; k r)) c).
  { eapply rt_cons; [|eapply rt_app; [apply rt_make; exact Hf|exact Hk]].
    unfold alen. apply rt_if; intros _; [apply rt_alen; lia|apply rt_len; lia]. }
  destruct flex; unfold rd_carr, rd_iarr; apply rt_assoc; exact G.
Qed.
Theorem deleteacls_rt v r : (exists c h t rs g, r = RDeleteAcls c h t rs g) -> carried v r ->
  exists w, enc_deleteacls v r = Ok w /\ (zlen w < 2 ^ 31 -> dec_deleteacls v w = Ok r).
Proof.
  intros (c & h & t & rs & g & ->) (H1 & H2 & H3 & H4 & [H5 H6]). unfold enc_deleteacls, rhv_from. cbv zeta.
  assert (R : rt (rcat ([rh_encode (2 <=? v) c h; Ok (be 4 t); Ok (alen (2 <=? v) (zlen rs))] ++ map (da_result v (2 <=? v)) rs ++ [tf_encode g]))
    (h <- rd_header (2 <=? v) ;; throttle <- rd_i32 ;;
     rs <- (if 2 <=? v then rd_carr (ec <- rd_i16 ;; m <- (if 2 <=? v then compactNullableString else nullableString) ;;
                          ms <- (if 2 <=? v then rd_carr (rd_matching v (2 <=? v)) else rd_iarr (rd_matching v (2 <=? v))) ;; t <- decodeTaggedFields ;; ret (ec, (m, (ms, t))))
            else rd_iarr (ec <- rd_i16 ;; m <- (if 2 <=? v then compactNullableString else nullableString) ;;
                          ms <- (if 2 <=? v then rd_carr (rd_matching v (2 <=? v)) else rd_iarr (rd_matching v (2 <=? v))) ;; t <- decodeTaggedFields ;; ret (ec, (m, (ms, t))))) ;;
     tags <- decodeTaggedFields ;; ret (RDeleteAcls (fst h) (snd h) throttle rs tags)) (RDeleteAcls c h t rs g)).
  { cbn [app]. eapply rt_cons; [apply rt_header; [exact H1|exact H2]|]. eapply rt_cons; [apply rt_i32; exact H3|]. cbv beta.
    apply rt_arr; [exact H5| |eapply rt_cons; [apply rt_tags; exact H4|apply rt_nil]].
    eapply Forall_impl; [|exact H6]. intros (ec & m & ms & tg) (G1 & G2 & [G3 G4] & G5). unfold da_result. cbn [app].
    eapply rt_cons; [apply rt_i16; exact G1|]. eapply rt_cons; [apply rt_nstr_in; exact G2|]. cbv beta.
    apply rt_arr; [exact G3| |eapply rt_cons; [apply rt_tags; exact G5|apply rt_nil]].
    eapply Forall_impl; [|exact G4]. intros x Hx. exact (rt_matching v x Hx). }
  destruct (rsized_ok _ _ _ R) as (w & E & P). exists (be 4 (zlen w) ++ w). split; [exact E|]. intros Hw. rewrite zlen_app, zlen_be in Hw.
  unfold dec_deleteacls, rhv_from. pose proof (zlen_nonneg w). rewrite rd_i32_be by (unfold i32; lia). rewrite zlen_app, zlen_be.
  rewrite !sint_id by lia. destruct (Z.eqb_spec (zlen w + 4) (Z.of_nat 4 + zlen w)); [|lia].
  specialize (P []). rewrite app_nil_r in P. cbv zeta. rewrite P. reflexivity.
Qed.

(** *** DescribeAcls *)
Lemma rt_str_le v s : str_in true s ->
  rt (Ok (if v <=? 1 then encodeString s else encodeCompactString s)) (if v <=? 1 then nonnullableString else compactString) s.
Proof. intros H. apply rt_if; intros _; [apply rt_str|apply rt_cstr]; exact H. Qed.
Lemma rt_acl v x : carried_acl v x -> rt (ds_acl v x) (rd_acl v) x.
Proof.
  destruct x as (pr & ho & op & pe & t). intros (H1 & H2 & H3 & H4 & H5). unfold ds_acl, rd_acl. cbv zeta.
  eapply rt_cons; [apply rt_str_le; exact H1|]. eapply rt_cons; [apply rt_str_le; exact H2|].
  eapply rt_cons; [apply rt_u8; exact H3|]. eapply rt_cons; [apply rt_u8; exact H4|].
  eapply rt_cons; [apply rt_tags_in; exact H5|]. apply rt_nil.
Qed.
Lemma rt_resource v x : (let '(ty, (n, (pt, (acls, t)))) := x in
    u8 ty /\ str_in true n /\ num_in (1 <=? v) u8 pt /\ list_in (carried_acl v) acls /\ tags_in (2 <=? v) t) ->
  rt (ds_resource v x) (rd_aclresource v) x.
Proof.
  destruct x as (ty & n & pt & acls & t). intros (H1 & H2 & H3 & [H4 H5] & H6). unfold ds_resource, rd_aclresource. cbn [app].
  pose proof (zlen_nonneg acls).
  eapply rt_cons; [apply rt_u8; exact H1|]. eapply rt_cons; [apply rt_str_le; exact H2|].
  eapply rt_cons; [eapply rt_num; [exact H3|apply rt_u8]|]. cbv beta.
  eapply rt_cons with (a := zlen acls).
  - unfold alen. destruct (v <=? 1); cbn [negb].
    + rewrite be4_uint. apply rt_u32. unfold u32. lia.
    + destruct (rt_alen (zlen acls) ltac:(lia)) as (b & E & Hb). injection E as <-. apply rt_ok. intros r. erewrite bind_ok by apply Hb. rewrite uint_small by lia. reflexivity.
  - eapply rt_app; [apply rt_make; eapply Forall_impl; [|exact H5]; intros a Ha; exact (rt_acl v a Ha)|].
    eapply rt_cons; [apply rt_tags_in; exact H6|]. apply rt_nil.
Qed.
(** the tags in the header are those of the body, and read back by the decoder only if
    there is a place for them at the end *)
Theorem describeacls_rt v r : (exists c t e m rs g, r = RDescribeAcls c t e m rs g) -> carried v r ->
  read_back (enc_describeacls v) (dec_describeacls v) r.
Proof.
  intros (c & t & e & m & rs & g & ->) (H1 & H2 & H3 & H4 & H5 & [H6 H7]). unfold read_back, enc_describeacls.
  change (elements rs) with (olist rs) in *. pose proof (zlen_nonneg (olist rs)).
  assert (Hg : wf TTags g).
  { destruct (2 <=? v); cbn [tags_in] in H5; [exact H5|]. subst g. split; [reflexivity|constructor]. }
  assert (R : rt (rcat ([Ok (be 4 c); (if 1 <=? v then tf_encode g else Ok []); Ok (be 4 t); Ok (be 2 e);
               Ok (if v <=? 1 then encodeNullableString m else writeCompactNullableString m);
               Ok (alen (negb (v <=? 1)) (zlen (olist rs)))] ++
              map (ds_resource v) (olist rs) ++ [if 2 <=? v then tf_encode g else Ok []]))
    (corr <- rd_u32 ;; _ <- (if 1 <=? v then decodeTaggedFields else ret []) ;;
         throttle <- rd_i32 ;; ec <- rd_i16 ;;
         msg <- (if v <=? 1 then nullableString else compactNullableString) ;;
         n <- (if v <=? 1 then rd_i32 else compactArrayLength) ;;
         rs <- (if n =? -1 then ret None else (l <- rd_make n (rd_aclresource v) ;; ret (Some l))) ;;
         tags <- (if 2 <=? v then decodeTaggedFields else ret []) ;;
         ret (RDescribeAcls corr throttle ec msg rs tags)) (RDescribeAcls c t e m (Some (olist rs)) g)).
  { cbn [app]. eapply rt_cons; [apply rt_u32; exact H1|].
    eapply rt_cons with (a := if 1 <=? v then g else []); [destruct (1 <=? v); [apply rt_tags; exact Hg|apply rt_none]|].
    eapply rt_cons; [apply rt_i32; exact H2|]. eapply rt_cons; [apply rt_i16; exact H3|].
    eapply rt_cons; [apply rt_if; intros _; [apply rt_nstr|apply rt_wcnstr]; exact H4|].
    eapply rt_cons with (a := zlen (olist rs)).
    { unfold alen. destruct (v <=? 1); cbn [negb]; [apply rt_len|apply rt_alen]; exact (conj (zlen_nonneg _) H6). }
    cbv beta. destruct (Z.eqb_spec (zlen (olist rs)) (-1)) as [E|_]; [exfalso; pose proof (zlen_nonneg (olist rs)); lia|]. apply rt_assoc.
    eapply rt_app; [apply rt_make; eapply Forall_impl; [|exact H7]; intros x Hx; exact (rt_resource v x Hx)|].
    cbv beta. apply rt_ret. eapply rt_cons; [apply rt_tags_in; exact H5|]. apply rt_nil. }
  destruct (rsized_ok _ _ _ R) as (w & E & P). exists (be 4 (zlen w) ++ w). split; [exact E|]. intros _.
  exists (RDescribeAcls c t e m (Some (olist rs)) g). split; [|split; reflexivity].
  unfold dec_describeacls. specialize (P []). rewrite app_nil_r in P.
  assert (S4 : rd_skip 4 (be 4 (zlen w) ++ w) = Ok (tt, w)) by reflexivity.
  erewrite bind_ok by exact S4. rewrite P. reflexivity.
Qed.
