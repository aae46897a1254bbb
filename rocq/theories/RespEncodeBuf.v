(** The response encoders that write into a buffer of a size worked out before. *)
From Verif Require Import Base BaseFacts Wire WireFacts Prims PrimsFacts Records Fetch Responses RespEncode RespEncodeSpec RespEncodeFacts.

Definition wt {A} (ops : list wop) (p : parser A) (a : A) : Prop := rt (Ok (wcat ops)) p a.
Lemma wt_app {A B} l1 l2 (p : parser A) (k : A -> parser B) a c : wt l1 p a -> wt l2 (k a) c -> wt (l1 ++ l2) (bind p k) c.
Proof.
  intros (b & Eb & Hb) (w & Ew & Hw). injection Eb as <-. injection Ew as <-. apply rt_ok. intros r.
  rewrite wcat_app, <- app_assoc. erewrite bind_ok by apply Hb. apply Hw.
Qed.
Lemma wt_cons {A B} o l (p : parser A) (k : A -> parser B) a c : rt (Ok (wbytes o)) p a -> wt l (k a) c -> wt (o :: l) (bind p k) c.
Proof.
  intros H1 H2. apply (wt_app [o] l p k a c); [|exact H2]. unfold wt. rewrite wcat_cons. cbn [wcat flat_map]. rewrite app_nil_r. exact H1.
Qed.
Lemma wt_nil {A} (a : A) : wt [] (ret a) a.
Proof. apply rt_ok. reflexivity. Qed.
Lemma wt_n {A} (f : A -> list wop) p (g : A -> A) (l : list A) : Forall (fun x => wt (f x) p (g x)) l -> wt (flat_map f l) (rd_n (length l) p) (map g l).
Proof.
  intros H. induction H as [|x l Hx _ IH]; [apply wt_nil|]. cbn [flat_map length rd_n map]. eapply wt_app; [exact Hx|].
  apply (rt_more _ _ (fun xs => g x :: xs)). exact IH.
Qed.
Lemma wt_make {A} (f : A -> list wop) p (g : A -> A) (l : list A) : Forall (fun x => wt (f x) p (g x)) l -> wt (flat_map f l) (rd_make (zlen l) p) (map g l).
Proof.
  intros H. unfold rd_make. pose proof (zlen_nonneg l). destruct (Z.ltb_spec (zlen l) 0); [lia|]. unfold zlen. rewrite Nat2Z.id. apply wt_n. exact H.
Qed.
Lemma wt_make_id {A} (f : A -> list wop) p (l : list A) : Forall (fun x => wt (f x) p x) l -> wt (flat_map f l) (rd_make (zlen l) p) l.
Proof. intros H. pose proof (wt_make f p (fun x => x) l H) as G. rewrite map_id in G. exact G. Qed.
Lemma wt_tags t : wf TTags t -> wt (tf_ops t) decodeTaggedFields t.
Proof. intros H. apply rt_ok. intros r. rewrite tf_ops_wire by exact (proj2 H). apply decodeTaggedFields_wire. exact H. Qed.
Lemma wt_tags_in (c : bool) t : tags_in c t -> wt (if c then tf_ops t else []) (if c then decodeTaggedFields else ret []) t.
Proof. destruct c; cbn [tags_in]; [apply wt_tags|]. intros ->. apply wt_nil. Qed.
Lemma wt_header (flex : bool) corr ht b : u32 corr -> tags_in flex ht -> (if flex then tf_encode ht else Ok []) = Ok b ->
  wt (rh_ops flex corr b) (rd_header flex) (corr, ht).
Proof.
  intros Hc Ht Hb. unfold rh_ops, rd_header. eapply wt_cons; [apply rt_u32; exact Hc|]. cbv beta. destruct flex; cbn [tags_in] in Ht.
  - destruct (rt_tags ht Ht) as (b' & E & H). rewrite Hb in E. injection E as <-. eapply wt_cons; [apply rt_ok; exact H|]. apply wt_nil.
  - subst ht. apply wt_nil.
Qed.
Lemma tags_bytes (c : bool) t : tags_in c t -> (if c then tf_encode t else Ok []) = Ok (if c then enc TTags t else []).
Proof. destruct c; cbn [tags_in]; [|reflexivity]. intros H. apply tf_encode_wire. exact (proj2 H). Qed.
Lemma wpatch_rt {A} size ops (p : parser A) a : wt ops p a -> 4 + zlen (wcat ops) <= size ->
  exists w, wpatch size ops = Ok (be 4 (zlen w) ++ w) /\ forall r, p (w ++ r) = Ok (a, r).
Proof. intros (b & E & H) Hs. injection E as <-. exists (wcat ops). split; [apply wpatch_ok; lia|exact H]. Qed.

(** room left by the estimate of the length of tags *)
Lemma enc_tags_room r : wf TTags r -> zlen (enc TTags r) + 5 <= tf_length r.
Proof.
  intros [Hl H]. rewrite tf_length_eq. cbn [enc]. rewrite zlen_app.
  assert (zlen (flat_map enc_tag r) <= fold_right (fun v l => 10 + zlen (snd v) + l) 0 r).
  { clear Hl. induction H as [|v r [Hv1 Hv2] Hr IH]; cbn [flat_map fold_right]; [cbn; lia|].
    rewrite zlen_app. unfold enc_tag at 1. rewrite !zlen_app. pose proof (uvarint_len_le5 (fst v) Hv1).
    pose proof (uvarint_len_le5 (zlen (snd v)) ltac:(pose proof (zlen_nonneg (snd v)); lia)). lia. }
  pose proof (uvarint_len_le5 (zlen r) ltac:(pose proof (zlen_nonneg r); lia)). lia.
Qed.
Lemma tags_nil_len : zlen (enc TTags []) = 1. Proof. reflexivity. Qed.
Lemma tf_length_pos r : 10 <= tf_length r.
Proof. rewrite tf_length_eq. assert (0 <= fold_right (fun (v : Z * bytes) l => 10 + zlen (snd v) + l) 0 r); [|lia]. induction r as [|v r IH]; cbn [fold_right]; [lia|]. pose proof (zlen_nonneg (snd v)). lia. Qed.
Lemma cstr_len s : zlen s < 2 ^ 15 -> zlen (encodeCompactString s) <= 3 + zlen s.
Proof.
  intros H. unfold encodeCompactString. rewrite zlen_app. pose proof (zlen_nonneg s).
  pose proof (uvarint_len_le3 (1 + zlen s) ltac:(lia)) as G. unfold zlen in *. lia.
Qed.
Lemma str_len s : zlen (encodeString s) = 2 + zlen s.
Proof. unfold encodeString. rewrite zlen_app, zlen_be. lia. Qed.
Lemma clen_len n : 0 <= n + 1 < 2 ^ 31 -> zlen (encodeCompactArrayLength n) <= 5.
Proof. intros H. unfold encodeCompactArrayLength. rewrite uint_small by (split; [lia|]; assert (2 ^ 31 < 2 ^ 64) by (apply Z.pow_lt_mono_r; lia); lia). apply uvarint_len_le5. lia. Qed.

Lemma clen_len4 n : 0 <= n < 2 ^ 28 - 1 -> zlen (encodeCompactArrayLength n) <= 4.
Proof.
  intros H. unfold encodeCompactArrayLength. rewrite uint_small by (split; [lia|]; assert (2 ^ 31 < 2 ^ 64) by (apply Z.pow_lt_mono_r; lia); lia).
  unfold uvarint, zlen. pose proof (put_uvarint_small_len 10 (1 + n) 3 ltac:(lia)) as G. specialize (G ltac:(change (2 ^ (7 * Z.of_nat 4)) with (2 ^ 28); lia)). lia.
Qed.

(** *** ListGroups *)
Lemma rt_str_in' (flex : bool) s : str_in true s ->
  rt (Ok (wbytes (CopyN (if flex then encodeCompactString s else encodeString s)))) (if flex then compactString else nonnullableString) s.
Proof. exact (rt_str_in flex s). Qed.
Lemma wt_group v g : carried_group v g -> wt (lg_group v (3 <=? v) g) (rd_group v (3 <=? v)) g.
Proof.
  destruct g as (id & pt & st & ty & t). intros (H1 & H2 & H3 & H4 & H5). unfold lg_group, rd_group. cbv zeta. cbn [app].
  eapply wt_cons; [apply rt_str_in'; exact H1|]. eapply wt_cons; [apply rt_str_in'; exact H2|]. cbv beta.
  eapply wt_app with (a := st).
  { destruct (4 <=? v); cbn [str_in] in H3; [|subst st; apply wt_nil].
    unfold wt. cbn [wcat flat_map]. rewrite app_nil_r. apply rt_str_in'. exact H3. }
  eapply wt_app with (a := ty).
  { destruct (5 <=? v); cbn [str_in] in H4; [|subst ty; apply wt_nil].
    unfold wt. cbn [wcat flat_map]. rewrite app_nil_r. apply rt_str_in'. exact H4. }
  cbv beta. apply (rt_more _ _ (fun t => (id, (pt, (st, (ty, t)))))). apply wt_tags_in. exact H5.
Qed.
Lemma str_len_in (flex : bool) s : str_in true s -> zlen (if flex then encodeCompactString s else encodeString s) <= (if flex then 3 else 2) + zlen s.
Proof. intros H. destruct flex; [apply cstr_len; exact H|rewrite str_len; lia]. Qed.
Lemma group_len v (g : bytes * (bytes * (bytes * (bytes * taggedFields)))) : carried_group v g ->
  zlen (wcat (lg_group v (3 <=? v) g)) <=
  (2 + zlen (fst g)) + (2 + zlen (fst (snd g))) + (2 + zlen (fst (snd (snd g)))) + (2 + zlen (fst (snd (snd (snd g))))) + tf_length (snd (snd (snd (snd g)))).
Proof.
  destruct g as (id & pt & st & ty & t). intros (H1 & H2 & H3 & H4 & H5). cbn [fst snd]. unfold lg_group. cbv zeta.
  rewrite !wcat_app, !zlen_app. rewrite !wcat_cons. cbn [wcat flat_map wbytes]. rewrite !app_nil_r, zlen_app.
  pose proof (str_len_in (3 <=? v) id H1). pose proof (str_len_in (3 <=? v) pt H2).
  assert (A3 : zlen (wcat (if 4 <=? v then [CopyN (if 3 <=? v then encodeCompactString st else encodeString st)] else [])) <= 3 + zlen st).
  { pose proof (zlen_nonneg st). destruct (4 <=? v); cbn [wcat flat_map wbytes str_in] in *; [|change (zlen (@nil Z)) with 0; lia]. rewrite app_nil_r.
    pose proof (str_len_in (3 <=? v) st H3). destruct (3 <=? v); lia. }
  assert (A4 : zlen (wcat (if 5 <=? v then [CopyN (if 3 <=? v then encodeCompactString ty else encodeString ty)] else [])) <= 3 + zlen ty).
  { pose proof (zlen_nonneg ty). destruct (5 <=? v); cbn [wcat flat_map wbytes str_in] in *; [|change (zlen (@nil Z)) with 0; lia]. rewrite app_nil_r.
    pose proof (str_len_in (3 <=? v) ty H4). destruct (3 <=? v); lia. }
  destruct (3 <=? v) eqn:Ef; cbn [tags_in] in H5.
  - rewrite tf_ops_wire by exact (proj2 H5). pose proof (enc_tags_room t H5).
    lia.
  - subst t. cbn [wcat flat_map]. assert (4 <=? v = false) as E4 by lia. assert (5 <=? v = false) as E5 by lia. rewrite E4, E5 in *.
    cbn [wcat flat_map] in *. pose proof (tf_length_pos []). pose proof (zlen_nonneg st). pose proof (zlen_nonneg ty). change (zlen (@nil Z)) with 0 in *. lia.
Qed.
Definition group_sizes (gs : list (bytes * (bytes * (bytes * (bytes * taggedFields))))) : Z :=
  fold_right (fun g n => (2 + zlen (fst g)) + (2 + zlen (fst (snd g))) + (2 + zlen (fst (snd (snd g)))) +
                         (2 + zlen (fst (snd (snd (snd g))))) + tf_length (snd (snd (snd (snd g)))) + n) 0 gs.
Lemma groups_len v gs : Forall (carried_group v) gs -> zlen (wcat (flat_map (lg_group v (3 <=? v)) gs)) <= group_sizes gs.
Proof.
  intros H. induction H as [|g gs Hg _ IH]; [cbn; lia|]. cbn [flat_map]. rewrite wcat_app, zlen_app. pose proof (group_len v g Hg).
  change (group_sizes (g :: gs)) with ((2 + zlen (fst g)) + (2 + zlen (fst (snd g))) + (2 + zlen (fst (snd (snd g)))) +
                         (2 + zlen (fst (snd (snd (snd g))))) + tf_length (snd (snd (snd (snd g)))) + group_sizes gs). lia.
Qed.
Lemma rh_len (flex : bool) c h b : tags_in flex h -> b = (if flex then enc TTags h else []) ->
  zlen (wcat (rh_ops flex c b)) + (if flex then 5 else 0) <= rh_length flex h.
Proof.
  intros Hh ->. unfold rh_ops, rh_length. rewrite wcat_cons, zlen_app. cbn [wbytes]. rewrite zlen_be. destruct flex; cbn [tags_in wcat flat_map wbytes] in *.
  - rewrite app_nil_r. pose proof (enc_tags_room h Hh). lia.
  - cbn. lia.
Qed.
Definition listgroups_read (v : Z) (gs : option (list (bytes * (bytes * (bytes * (bytes * taggedFields)))))) :=
  match gs with None => if 3 <=? v then None else Some [] | Some l => Some l end.
Theorem listgroups_exact v c h t e gs g : carried v (RListGroups c h t e gs g) ->
  exists w, enc_listgroups v (RListGroups c h t e gs g) = Ok w /\
  (zlen w < 2 ^ 31 -> dec_listgroups v w = Ok (RListGroups c h t e (listgroups_read v gs) g)).
Proof.
  intros (H1 & H2 & H3 & H4 & H5 & [H6 H7]). unfold enc_listgroups, rhv_from. cbv zeta.
  rewrite (tags_bytes _ _ H2). cbn [rbind]. set (ht := if 3 <=? v then enc TTags h else []).
  change (elements gs) with (olist gs) in *.
  set (ops := rh_ops (3 <=? v) c ht ++ _).
  assert (R : wt ops (h <- rd_header (3 <=? v) ;; throttle <- (if 1 <=? v then rd_i32 else ret 0) ;; ec <- rd_u16 ;;
         n <- (if 3 <=? v then compactArrayLength else rd_i32) ;;
         gs <- (if 0 <=? n then (l <- rd_make n (rd_group v (3 <=? v)) ;; ret (Some l)) else ret None) ;;
         tags <- (if 3 <=? v then decodeTaggedFields else ret []) ;;
         ret (RListGroups (fst h) (snd h) throttle ec gs tags)) (RListGroups c h t e (listgroups_read v gs) g)).
  { unfold ops. eapply wt_app; [apply wt_header; [exact H1|exact H2|apply tags_bytes; exact H2]|]. cbv beta.
    eapply wt_app with (a := t).
    { destruct (1 <=? v); cbn [num_in] in H3; [|subst t; apply wt_nil]. unfold wt. cbn [wcat flat_map wbytes]. rewrite app_nil_r. apply rt_i32. exact H3. }
    eapply wt_cons; [apply rt_u16; exact H4|]. cbv beta.
    pose proof (zlen_nonneg (olist gs)) as Hn.
    destruct gs as [l|]; cbn [olist listgroups_read] in *.
    - eapply wt_cons with (a := zlen l).
      { destruct (3 <=? v); cbn [wbytes]; [apply rt_alen|apply rt_len]; exact (conj Hn H6). }
      cbv beta. destruct (Z.leb_spec 0 (zlen l)) as [_|Hneg]; [|exfalso; apply (Z.lt_irrefl 0); eapply Z.le_lt_trans; eassumption].
      apply rt_assoc. eapply wt_app; [apply wt_make_id; eapply Forall_impl; [|exact H7]; intros x Hx; exact (wt_group v x Hx)|].
      cbv beta. apply rt_ret. apply (rt_more _ _ (fun tags => RListGroups (fst (c, h)) (snd (c, h)) t e (Some l) tags)). apply wt_tags_in. exact H5.
    - destruct (3 <=? v); cbn [flat_map app].
      + eapply wt_cons with (a := -1).
        { cbn [wbytes]. apply rt_ok. intros r. apply compactArrayLength_rt. lia. }
        cbv beta. cbn [Z.leb Z.compare]. apply rt_ret. apply (rt_more _ _ (fun tags => RListGroups (fst (c, h)) (snd (c, h)) t e None tags)).
        apply wt_tags. exact H5.
      + eapply wt_cons with (a := 0); [apply rt_len; lia|]. cbv beta. cbn [Z.leb Z.compare]. cbn [tags_in] in H5. subst g. apply rt_ok. reflexivity. }
  destruct (wpatch_rt (lg_length (3 <=? v) h (olist gs) g) ops _ _ R) as (w & E & P).
  - unfold ops, lg_length. change (fold_right _ 0 (olist gs)) with (group_sizes (olist gs)).
    rewrite !wcat_app, !wcat_cons, wcat_app, !zlen_app. cbn [wbytes]. rewrite zlen_be.
    pose proof (rh_len (3 <=? v) c h ht H2 eq_refl) as L1. pose proof (groups_len v (olist gs) H7) as L2.
    assert (L3 : zlen (wcat (if 1 <=? v then [Put (be 4 t)] else [])) <= 4) by (destruct (1 <=? v); cbn; lia).
    assert (L4 : zlen (wbytes (if 3 <=? v then CopyN (encodeCompactArrayLength match gs with Some l => zlen l | None => -1 end) else Put (be 4 (uint 32 (zlen (olist gs))))))
       <= (if 3 <=? v then 5 else 4)).
    { destruct (3 <=? v); cbn [wbytes]; [|rewrite zlen_be; lia]. apply clen_len. destruct gs as [l|]; cbn [olist] in *; [|lia]. pose proof (zlen_nonneg l). unfold zlen in *. lia. }
    assert (L5 : zlen (wcat (if 3 <=? v then tf_ops g else [])) <= tf_length g).
    { pose proof (tf_length_pos g). destruct (3 <=? v); cbn [tags_in] in H5; [|cbn; lia]. rewrite tf_ops_wire by exact (proj2 H5). apply enc_tags_len. exact (proj2 H5). }
    destruct (3 <=? v); lia.
  - exists (be 4 (zlen w) ++ w). split; [exact E|]. intros Hw. rewrite zlen_app, zlen_be in Hw. unfold dec_listgroups, rhv_from. cbv zeta.
    apply framed_whole; [lia|exact P].
Qed.
Theorem listgroups_rt v r : (exists c h t e gs g, r = RListGroups c h t e gs g) -> carried v r ->
  read_back (enc_listgroups v) (dec_listgroups v) r.
Proof.
  intros (c & h & t & e & gs & g & ->) Hc. destruct (listgroups_exact v c h t e gs g Hc) as (w & E & D).
  exists w. split; [exact E|]. intros Hw. eexists. split; [exact (D Hw)|]. split; [reflexivity|].
  destruct gs as [l|]; cbn; [reflexivity|]. destruct (3 <=? v); reflexivity.
Qed.

(** *** CreateAcls *)
Definition messages (rs : list (Z * (option bytes * taggedFields))) : Z :=
  zlen (filter (fun r => match fst (snd r) with Some _ => true | None => false end) rs).
Definition ca_sizes (rs : list (Z * (option bytes * taggedFields))) : Z :=
  fold_right (fun r n => 2 + 2 + (match fst (snd r) with Some m => zlen m + 2 | None => 0 end) + n) 0 rs.
Definition drop_tags (r : Z * (option bytes * taggedFields)) : Z * (option bytes * taggedFields) := (fst r, (fst (snd r), [])).
Definition rd_ca (flex : bool) : parser (Z * (option bytes * taggedFields)) :=
  ec <- rd_u16 ;; m <- (if flex then compactNullableString else nullableString) ;;
  t <- (if flex then decodeTaggedFields else ret []) ;; ret (ec, (m, t)).
Lemma wt_ca_result v r : (let '(ec, (m, t)) := r in u16 ec /\ nstr_in m /\ tags_in (2 <=? v) t) ->
  wt (ca_result (2 <=? v) [] r) (rd_ca (2 <=? v)) (drop_tags r).
Proof.
  destruct r as (ec & m & t). intros (H1 & H2 & _). unfold ca_result, rd_ca, drop_tags. cbn [fst snd].
  eapply wt_cons; [apply rt_u16; exact H1|]. eapply wt_cons; [exact (rt_nstr_in (2 <=? v) m H2)|]. cbv beta.
  apply (rt_more _ _ (fun t => (ec, (m, t)))). apply wt_tags_in. destruct (2 <=? v); [split; [reflexivity|constructor]|reflexivity].
Qed.
Lemma cnstr_len m : nstr_in m -> zlen (encodeCompactNullableString m) <= match m with Some s => 3 + zlen s | None => 1 end.
Proof.
  destruct m as [s|]; intros H; cbn [nstr_in] in H; [|cbn; lia]. rewrite encodeCompactNullableString_wire by exact H. cbn [enc]. rewrite zlen_app.
  pose proof (zlen_nonneg s). pose proof (uvarint_len_le3 (zlen s + 1) ltac:(lia)) as G. unfold zlen in *. lia.
Qed.
Lemma nstr_len m : zlen (encodeNullableString m) = 2 + match m with Some s => zlen s | None => 0 end.
Proof. destruct m as [s|]; cbn [encodeNullableString]; rewrite ?zlen_app, zlen_be; lia. Qed.
Lemma ca_len_flex rs : Forall (fun r : Z * (option bytes * taggedFields) => nstr_in (fst (snd r))) rs ->
  zlen (wcat (flat_map (ca_result true []) rs)) <= ca_sizes rs.
Proof.
  intros H. induction H as [|[ec [m t]] rs Hr _ IH]; [cbn; lia|]. cbn [flat_map ca_sizes fold_right fst snd] in *. rewrite wcat_app, zlen_app.
  unfold ca_result at 1. cbn [fst snd]. rewrite !wcat_cons, !zlen_app. cbn [wbytes]. rewrite zlen_be. pose proof (cnstr_len m Hr).
  rewrite (tf_ops_wire [] (Forall_nil _)), tags_nil_len. fold (ca_sizes rs). destruct m as [s|]; lia.
Qed.
Lemma ca_len_old rs : zlen (wcat (flat_map (ca_result false []) rs)) = ca_sizes rs - 2 * messages rs.
Proof.
  induction rs as [|[ec [m t]] rs IH]; [reflexivity|]. cbn [flat_map ca_sizes fold_right fst snd]. rewrite wcat_app, zlen_app, IH.
  unfold ca_result at 1. cbn [fst snd]. rewrite !wcat_cons, !zlen_app. cbn [wbytes wcat flat_map]. rewrite zlen_be, nstr_len.
  unfold messages. cbn [filter fst snd]. fold (ca_sizes rs). change (zlen (@nil Z)) with 0. destruct m as [s|]; rewrite ?zlen_cons; lia.
Qed.
Theorem createacls_fits v c h rs : carried v (RCreateAcls c h rs []) -> zlen (elements rs) < 2 ^ 28 - 1 ->
  (2 <= v \/ 2 <= messages (elements rs)) ->
  exists w, enc_createacls v (RCreateAcls c h rs []) = Ok w /\
  (zlen w < 2 ^ 31 -> dec_createacls v w = Ok (RCreateAcls c h (Some (map drop_tags (elements rs))) [])).
Proof.
  intros (H1 & H2 & _ & [H3 H4]) H28 Hv. unfold enc_createacls, rhv_from. cbv zeta.
  rewrite (tags_bytes _ _ H2). cbn [rbind]. rewrite (tags_bytes (2 <=? v) []) by (destruct (2 <=? v); [split; [reflexivity|constructor]|reflexivity]).
  cbn [rbind]. set (ht := if 2 <=? v then enc TTags h else []). set (bt := if 2 <=? v then enc TTags [] else []).
  change (elements rs) with (olist rs) in *. set (l := olist rs) in *. set (ops := rh_ops (2 <=? v) c ht ++ _).
  assert (R : wt ops (h <- rd_header (2 <=? v) ;; n <- (if 2 <=? v then compactArrayLength else rd_i32) ;;
         rs <- (if n <? 0 then ret None else (l <- rd_make n (rd_ca (2 <=? v)) ;; ret (Some l))) ;;
         tags <- (if 2 <=? v then decodeTaggedFields else ret []) ;;
         ret (RCreateAcls (fst h) (snd h) rs tags)) (RCreateAcls c h (Some (map drop_tags l)) [])).
  { unfold ops. eapply wt_app; [apply wt_header; [exact H1|exact H2|apply tags_bytes; exact H2]|]. cbv beta.
    eapply wt_cons with (a := zlen l).
    { destruct (2 <=? v); cbn [wbytes]; [apply rt_alen|apply rt_len]; exact (conj (zlen_nonneg l) H3). }
    cbv beta. destruct (Z.ltb_spec (zlen l) 0) as [Hneg|_]; [exfalso; apply (Z.lt_irrefl 0); eapply Z.le_lt_trans; [apply (zlen_nonneg l)|exact Hneg]|].
    apply rt_assoc. eapply wt_app; [apply wt_make; eapply Forall_impl; [|exact H4]; intros x Hx; exact (wt_ca_result v x Hx)|].
    cbv beta. apply rt_ret. apply (rt_more _ _ (fun tags => RCreateAcls (fst (c, h)) (snd (c, h)) (Some (map drop_tags l)) tags)).
    unfold bt. destruct (2 <=? v); [|apply wt_nil]. unfold wt. cbn [wcat flat_map wbytes]. apply rt_ok. reflexivity. }
  destruct (wpatch_rt (ca_length (2 <=? v) h l) ops _ _ R) as (w & E & P).
  - unfold ops, ca_length. change (fold_right _ 0 l) with (ca_sizes l).
    rewrite !wcat_app, !wcat_cons, wcat_app, !zlen_app.
    pose proof (rh_len (2 <=? v) c h ht H2 eq_refl) as L1.
    destruct (2 <=? v) eqn:Ef.
    + assert (L2 : zlen (wcat (flat_map (ca_result true []) l)) <= ca_sizes l).
      { apply ca_len_flex. eapply Forall_impl; [|exact H4]. intros (a & b & d) (_ & G & _). exact G. }
      cbn [wbytes]. unfold bt. cbn [wcat flat_map wbytes]. rewrite app_nil_r, tags_nil_len.
      assert (L3 : zlen (encodeCompactArrayLength (zlen l)) <= 4).
      { apply clen_len4. exact (conj (zlen_nonneg l) H28). }
      lia.
    + destruct Hv as [Hv|Hv]; [exfalso; lia|]. rewrite ca_len_old. cbn [wbytes]. rewrite zlen_be. cbn [wcat flat_map]. change (zlen (@nil Z)) with 0.
      unfold rh_ops, rh_length. rewrite wcat_cons. cbn [wbytes wcat flat_map]. rewrite app_nil_r, zlen_be. unfold zlen in *. lia.
  - exists (be 4 (zlen w) ++ w). split; [exact E|]. intros Hw. rewrite zlen_app, zlen_be in Hw. unfold dec_createacls, rhv_from. cbv zeta.
    apply framed_whole; [lia|exact P].
Qed.
Theorem createacls_rt v c h rs : carried v (RCreateAcls c h rs []) -> zlen (elements rs) < 2 ^ 28 - 1 ->
  (2 <= v \/ 2 <= messages (elements rs)) -> Forall (fun r : Z * (option bytes * taggedFields) => snd (snd r) = []) (elements rs) ->
  read_back (enc_createacls v) (dec_createacls v) (RCreateAcls c h rs []).
Proof.
  intros Hc H28 Hv Ht. destruct (createacls_fits v c h rs Hc H28 Hv) as (w & E & D). exists w. split; [exact E|]. intros Hw.
  eexists. split; [exact (D Hw)|]. split; [reflexivity|]. unfold same_list. cbn [elements].
  clear - Ht. induction Ht as [|[ec [m t]] l H _ IH]; [reflexivity|]. cbn [map]. rewrite <- IH. unfold drop_tags. cbn [fst snd] in *. subst t. reflexivity.
Qed.
(** without any message the buffer is too small in the versions before 2 *)
Lemma nils_panic rs room tags : Forall (fun r : Z * (option bytes * taggedFields) => fst (snd r) = None) rs -> rs <> [] ->
  (room + 4 = 4 * length rs)%nat -> wrun room (flat_map (ca_result false tags) rs) = Panic.
Proof.
  intros H. revert room. induction H as [|[ec [m t]] rs Hm _ IH]; intros room Hne Hr; [congruence|]. cbn [fst snd] in Hm. subst m.
  cbn [flat_map]. unfold ca_result at 1. cbn [fst snd app encodeNullableString]. cbn [length] in Hr. cbn [wrun wbytes].
  change (length (be 2 ec)) with 2%nat. change (length (be 2 65535)) with 2%nat.
  destruct rs as [|r rs']; [destruct room as [|n]; [reflexivity|cbn [length] in Hr; lia]|].
  destruct (Nat.leb_spec 2 room); [|reflexivity]. cbn [length] in *.
  destruct (Nat.leb_spec 2 (room - 2)); [|cbn [length] in *; lia].
  rewrite (IH (room - 2 - 2)%nat); [reflexivity|discriminate|cbn [length]; lia].
Qed.
Theorem createacls_old_panics v c h rs tags : v < 2 -> Forall (fun r : Z * (option bytes * taggedFields) => fst (snd r) = None) (elements rs) ->
  enc_createacls v (RCreateAcls c h rs tags) = Panic.
Proof.
  intros Hv H. unfold enc_createacls, rhv_from. cbv zeta. destruct (Z.leb_spec 2 v); [lia|]. cbn [rbind].
  change (elements rs) with (olist rs) in *. unfold ca_length, rh_length, wpatch. change (fold_right _ 0 (olist rs)) with (ca_sizes (olist rs)).
  assert (S : ca_sizes (olist rs) = 4 * Z.of_nat (length (olist rs))).
  { induction H as [|[ec [m t]] l Hm _ IH]; [reflexivity|]. cbn [ca_sizes fold_right fst snd length] in *. subst m. fold (ca_sizes l). lia. }
  rewrite S. destruct (Z.ltb_spec (4 + 0 + 4 + 4 * Z.of_nat (length (olist rs))) 4); [lia|].
  unfold rh_ops. cbn [app]. cbn [wrun wbytes]. change (length (be 4 c)) with 4%nat. change (length (be 4 (uint 32 (zlen (olist rs))))) with 4%nat.
  rewrite app_nil_r. set (n := length (olist rs)) in *.
  destruct (Nat.leb_spec 4 (Z.to_nat (4 + 0 + 4 + 4 * Z.of_nat n - 4))); [|lia].
  destruct (Nat.leb_spec 4 (Z.to_nat (4 + 0 + 4 + 4 * Z.of_nat n - 4) - 4)) as [Hn|Hn]; [|reflexivity].
  rewrite nils_panic; [reflexivity|exact H| |unfold n in *; lia]. intros E. unfold n in Hn. rewrite E in Hn. cbn in Hn. lia.
Qed.
