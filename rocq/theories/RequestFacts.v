(** Facts about the request encoders. *)
From Verif Require Import Base BaseFacts Wire WireFacts Prims PrimsFacts Records Requests RequestSpec.

(** ** Sums *)
Lemma sumz_ext {A} (f g : A -> Z) l : (forall x, In x l -> f x = g x) -> sumz f l = sumz g l.
Proof. induction l as [|x l IH]; intros H; cbn [sumz]; [reflexivity|]. rewrite (H x), IH; [reflexivity|intros; apply H; right; assumption|left; reflexivity]. Qed.
Lemma sumz_le {A} (f g : A -> Z) l : (forall x, In x l -> f x <= g x) -> sumz f l <= sumz g l.
Proof. induction l as [|x l IH]; intros H; cbn [sumz]; [lia|]. specialize (H x (or_introl eq_refl)) as Hx. specialize (IH (fun y Hy => H y (or_intror Hy))). lia. Qed.
Lemma sumz_map {A B} (f : B -> Z) (g : A -> B) l : sumz f (map g l) = sumz (fun x => f (g x)) l.
Proof. induction l; cbn [map sumz]; [reflexivity|]. rewrite IHl. reflexivity. Qed.
Lemma sumz_const {A} (c : Z) (l : list A) : sumz (fun _ => c) l = c * zlen l.
Proof. induction l; cbn [sumz]; [unfold zlen; cbn; lia|]. rewrite IHl, zlen_cons. lia. Qed.
Lemma sumz_nonneg {A} (f : A -> Z) l : (forall x, In x l -> 0 <= f x) -> 0 <= sumz f l.
Proof. intros H. induction l as [|x l IH]; cbn [sumz]; [lia|]. specialize (H x (or_introl eq_refl)) as Hx. specialize (IH (fun y Hy => H y (or_intror Hy))). lia. Qed.
Lemma zlen_flat_map {A} (f : A -> bytes) l : zlen (flat_map f l) = sumz (fun x => zlen (f x)) l.
Proof. induction l; cbn [flat_map sumz]; [reflexivity|]. rewrite zlen_app, IHl. reflexivity. Qed.
Lemma flat_map_map {A B C} (f : B -> list C) (g : A -> B) l : flat_map f (map g l) = flat_map (fun x => f (g x)) l.
Proof. induction l; cbn [map flat_map]; [reflexivity|]. rewrite IHl. reflexivity. Qed.
Lemma flat_map_ext_in {A B} (f g : A -> list B) l : (forall x, In x l -> f x = g x) -> flat_map f l = flat_map g l.
Proof. induction l as [|x l IH]; intros H; cbn [flat_map]; [reflexivity|]. rewrite (H x), IH; [reflexivity|intros; apply H; right; assumption|left; reflexivity]. Qed.

Lemma zlen_map {A B} (f : A -> B) l : zlen (map f l) = zlen l.
Proof. unfold zlen. rewrite map_length. reflexivity. Qed.

(** ** Writer operations against layouts *)
Definition W (ops : list wop) (t : ty) (v : den t) : Prop := wcat ops = enc t v.

Lemma W_app a b t1 t2 v1 v2 : W a t1 v1 -> W b t2 v2 -> W (a ++ b) (TPair t1 t2) (v1, v2).
Proof. unfold W. intros H1 H2. rewrite wcat_app, H1, H2. reflexivity. Qed.
Lemma W_cons o b t1 t2 v1 v2 : W [o] t1 v1 -> W b t2 v2 -> W (o :: b) (TPair t1 t2) (v1, v2).
Proof. apply (W_app [o]). Qed.
Lemma wcat1 b : wcat [Put b] = b /\ wcat [CopyN b] = b /\ wcat [Copy b] = b.
Proof. cbn. rewrite app_nil_r. auto. Qed.
Lemma W_p8 v : W [p8 v] TI8 v.
Proof. unfold W, p8. rewrite (proj1 (wcat1 _)). cbn [enc]. apply be1_uint. Qed.
Lemma W_p16 v : W [p16 v] TI16 v.
Proof. unfold W, p16. rewrite (proj1 (wcat1 _)). cbn [enc]. apply be2_uint. Qed.
Lemma W_p32 v : W [p32 v] TI32 v.
Proof. unfold W, p32. rewrite (proj1 (wcat1 _)). cbn [enc]. apply be4_uint. Qed.
Lemma W_p64 v : W [p64 v] TI64 v.
Proof. unfold W, p64. rewrite (proj1 (wcat1 _)). cbn [enc]. apply be8_uint. Qed.
Lemma W_pbool v : W [pbool v] TBool v.
Proof. reflexivity. Qed.
Lemma W_str s : W (pstr s) TStr s.
Proof. unfold W, pstr. rewrite wcat_cons. rewrite (proj1 (proj2 (wcat1 _))). cbn [enc wbytes p16]. rewrite be2_uint. reflexivity. Qed.
Lemma W_str_copy s : W [p16 (zlen s); Copy s] TStr s.
Proof. unfold W. rewrite wcat_cons. rewrite (proj2 (proj2 (wcat1 _))). cbn [enc wbytes p16]. rewrite be2_uint. reflexivity. Qed.
Lemma W_str_put s : W [p16 (zlen s); Put s] TStr s.
Proof. unfold W. rewrite wcat_cons. rewrite (proj1 (wcat1 _)). cbn [enc wbytes p16]. rewrite be2_uint. reflexivity. Qed.
Lemma W_nstr s : W (pstr s) TNStr (Some s).
Proof. exact (W_str s). Qed.
Lemma W_bytes s : W (pbytes s) TBytes s.
Proof. unfold W, pbytes. rewrite wcat_cons. rewrite (proj1 (proj2 (wcat1 _))). cbn [enc wbytes p32]. rewrite be4_uint. reflexivity. Qed.
Lemma W_bytes_copy s : W [p32 (zlen s); Copy s] TBytes s.
Proof. unfold W. rewrite wcat_cons. rewrite (proj2 (proj2 (wcat1 _))). cbn [enc wbytes p32]. rewrite be4_uint. reflexivity. Qed.
Lemma W_arr {A} (f : A -> list wop) t (g : A -> den t) l :
  (forall x, In x l -> W (f x) t (g x)) -> W (parr f l) (TArr t) (map g l).
Proof.
  unfold W, parr. intros H. rewrite wcat_cons, wcat_flat_map. cbn [enc wbytes p32]. rewrite be4_uint, zlen_map, flat_map_map.
  f_equal. apply flat_map_ext_in. exact H.
Qed.
Lemma W_arr_id (t : ty) (f : den t -> list wop) l : (forall x, In x l -> W (f x) t x) -> W (parr f l) (TArr t) l.
Proof. intros H. rewrite <- (map_id l) at 2. apply W_arr. exact H. Qed.
Lemma W_narr {A} (f : A -> list wop) t (g : A -> den t) l :
  (forall x, In x l -> W (f x) t (g x)) -> W (parr f l) (TNArr t) (Some (map g l)).
Proof. exact (W_arr f t g l). Qed.
Lemma W_narr_id (t : ty) (f : den t -> list wop) l : (forall x, In x l -> W (f x) t x) -> W (parr f l) (TNArr t) (Some l).
Proof. exact (W_arr_id t f l). Qed.
Lemma W_ext ops ops' t v : ops = ops' -> W ops' t v -> W ops t v.
Proof. intros ->. auto. Qed.
Lemma W_nil : W [] TUnit tt.
Proof. reflexivity. Qed.
Lemma W_pair_strs c : W (pair_strs c) (TPair TStr TNStr) (fst c, Some (snd c)).
Proof. apply W_app; [apply W_str|apply W_nstr]. Qed.
Lemma W_topic_pids t : W (topic_pids t) (TPair TStr (TArr TI32)) t.
Proof. destruct t as [a b]. apply W_app; [apply W_str|apply (W_arr_id TI32); intros; apply W_p32]. Qed.
(** optional arrays of strings: count or -1, then the strings *)
Lemma W_nstrs (l : option (list bytes)) (o : wop) :
  wbytes o = wbytes (match l with None => p32 (-1) | Some l => p32 (zlen l) end) ->
  W ([o] ++ flat_map pstr (olist l)) (TNArr TStr) l.
Proof.
  intros H. unfold W. rewrite wcat_app, wcat_flat_map. unfold wcat at 1. cbn [flat_map]. rewrite H, app_nil_r. destruct l as [l|]; cbn [olist flat_map enc wbytes p32].
  - rewrite be4_uint. f_equal. apply flat_map_ext_in. intros; apply W_str.
  - rewrite be4_uint, app_nil_r. reflexivity.
Qed.
Lemma W_cstr s : W [CopyN (encodeCompactString s)] TCStr s.
Proof. unfold W. rewrite (proj1 (proj2 (wcat1 _))). apply encodeCompactString_wire. Qed.
Lemma W_uvstr s : W [puv (1 + zlen s); CopyN s] TCStr s.
Proof. unfold W. rewrite wcat_cons. rewrite (proj1 (proj2 (wcat1 _))). cbn [enc wbytes puv]. rewrite Z.add_comm. reflexivity. Qed.
Lemma W_tags : W [ptags] TTags [].
Proof. reflexivity. Qed.
Lemma W_tags_uv : W [puv 0] TTags [].
Proof. reflexivity. Qed.
Lemma cal_uvarint n : -1 <= n < 2 ^ 63 -> encodeCompactArrayLength n = uvarint (n + 1).
Proof. intros H. unfold encodeCompactArrayLength. rewrite uint_small; [f_equal; lia|]. assert (2 ^ 63 < 2 ^ 64) by reflexivity. lia. Qed.
Lemma W_carr {A} (f : A -> list wop) t (g : A -> den t) l : zlen l < 2 ^ 63 ->
  (forall x, In x l -> W (f x) t (g x)) -> W ([CopyN (encodeCompactArrayLength (zlen l))] ++ flat_map f l) (TCArr t) (map g l).
Proof.
  unfold W. intros Hl H. pose proof (zlen_nonneg l). rewrite wcat_app, wcat_flat_map. cbn [enc wcat wbytes flat_map].
  rewrite cal_uvarint by lia. rewrite app_nil_r, zlen_map, flat_map_map. f_equal. apply flat_map_ext_in. exact H.
Qed.
Lemma W_carr_uv {A} (f : A -> list wop) t (g : A -> den t) l :
  (forall x, In x l -> W (f x) t (g x)) -> W ([puv (1 + zlen l)] ++ flat_map f l) (TCArr t) (map g l).
Proof.
  unfold W. intros H. rewrite wcat_app, wcat_flat_map. cbn [enc wcat wbytes flat_map puv].
  rewrite app_nil_r, zlen_map, flat_map_map, Z.add_comm. f_equal. apply flat_map_ext_in. exact H.
Qed.

(** ** The header *)
Lemma encodeNullableString_enc s : encodeNullableString s = enc TNStr s.
Proof. destruct s as [s|]; [|reflexivity]. unfold encodeNullableString. cbn [enc]. rewrite be2_uint. reflexivity. Qed.
Lemma hops_bytes (flex : bool) h : wcat (hops (if flex then 2 else 1) h) = header_bytes flex (h_key h) (h_ver h) (h_corr h) (h_client h).
Proof.
  unfold hops, header_bytes, flexible, Header1, Header2. destruct flex; cbn [Z.leb Z.compare Pos.compare Pos.compare_cont app];
    rewrite !wcat_cons; cbn [wbytes p16 p32 wcat flat_map enc fst snd]; rewrite !be2_uint, be4_uint, encodeNullableString_enc;
    cbn [enc]; rewrite ?app_nil_r; reflexivity.
Qed.
Lemma hlen_bytes (flex : bool) h : hlen (if flex then 2 else 1) h = zlen (header_bytes flex (h_key h) (h_ver h) (h_corr h) (h_client h)).
Proof.
  unfold hlen, header_bytes, flexible, Header1, Header2.
  set (c := h_client h). assert (Hn : zlen (enc TNStr c) = 2 + olen c).
  { destruct c; cbn [enc olen]; rewrite ?zlen_app, ?zlen_be; lia. }
  destruct flex; cbn [Z.leb Z.compare Pos.compare Pos.compare_cont].
  - change (enc (TPair TI16 (TPair TI16 (TPair TI32 (TPair TNStr TTags)))) (h_key h, (h_ver h, (h_corr h, (c, [])))))
      with (be 2 (h_key h) ++ be 2 (h_ver h) ++ be 4 (h_corr h) ++ enc TNStr c ++ [0]).
    rewrite !zlen_app, !zlen_be, Hn. change (zlen [0]) with 1. lia.
  - change (enc (TPair TI16 (TPair TI16 (TPair TI32 TNStr))) (h_key h, (h_ver h, (h_corr h, c))))
      with (be 2 (h_key h) ++ be 2 (h_ver h) ++ be 4 (h_corr h) ++ enc TNStr c).
    rewrite !zlen_app, !zlen_be, Hn. lia.
Qed.

(** ** Buffers *)
Lemma wframe_W size (flex : bool) h ops t v : W ops t v ->
  size = hlen (if flex then 2 else 1) h + zlen (enc t v) ->
  wframe size (hops (if flex then 2 else 1) h ++ ops) =
  Ok (frame (header_bytes flex (h_key h) (h_ver h) (h_corr h) (h_client h) ++ enc t v)).
Proof.
  intros Hw Hs. assert (Hc : wcat (hops (if flex then 2 else 1) h ++ ops) =
    header_bytes flex (h_key h) (h_ver h) (h_corr h) (h_client h) ++ enc t v) by (rewrite wcat_app, hops_bytes, Hw; reflexivity).
  rewrite wframe_ok; rewrite Hc; [reflexivity|]. rewrite zlen_app, <- hlen_bytes. lia.
Qed.
Lemma wpatch_W size (flex : bool) h ops t v : W ops t v ->
  4 + hlen (if flex then 2 else 1) h + zlen (enc t v) <= size ->
  wpatch size (hops (if flex then 2 else 1) h ++ ops) =
  Ok (frame (header_bytes flex (h_key h) (h_ver h) (h_corr h) (h_client h) ++ enc t v)).
Proof.
  intros Hw Hs. assert (Hc : wcat (hops (if flex then 2 else 1) h ++ ops) =
    header_bytes flex (h_key h) (h_ver h) (h_corr h) (h_client h) ++ enc t v) by (rewrite wcat_app, hops_bytes, Hw; reflexivity).
  rewrite wpatch_ok; rewrite Hc; [reflexivity|]. rewrite zlen_app, <- hlen_bytes. lia.
Qed.

(** ** Sizes of layouts *)
Lemma zs_pair a b x y : zlen (enc (TPair a b) (x, y)) = zlen (enc a x) + zlen (enc b y).
Proof. cbn [enc fst snd]. apply zlen_app. Qed.
Lemma zs_i8 v : zlen (enc TI8 v) = 1. Proof. apply zlen_be. Qed.
Lemma zs_i16 v : zlen (enc TI16 v) = 2. Proof. apply zlen_be. Qed.
Lemma zs_i32 v : zlen (enc TI32 v) = 4. Proof. apply zlen_be. Qed.
Lemma zs_i64 v : zlen (enc TI64 v) = 8. Proof. apply zlen_be. Qed.
Lemma zs_bool v : zlen (enc TBool v) = 1. Proof. reflexivity. Qed.
Lemma zs_str (v : bytes) : zlen (enc TStr v) = 2 + zlen v. Proof. cbn [enc]. rewrite zlen_app, zlen_be. lia. Qed.
Lemma zs_nstr (v : option bytes) : zlen (enc TNStr v) = 2 + olen v.
Proof. destruct v; cbn [enc olen]; rewrite ?zlen_app, zlen_be; lia. Qed.
Lemma zs_bytes (v : bytes) : zlen (enc TBytes v) = 4 + zlen v. Proof. cbn [enc]. rewrite zlen_app, zlen_be. lia. Qed.
Lemma zs_arr t (v : list (den t)) : zlen (enc (TArr t) v) = 4 + sumz (fun x => zlen (enc t x)) v.
Proof. cbn [enc]. rewrite zlen_app, zlen_be, zlen_flat_map. lia. Qed.
Lemma zs_narr t (v : option (list (den t))) : zlen (enc (TNArr t) v) = 4 + sumz (fun x => zlen (enc t x)) (olist v).
Proof. destruct v; cbn [enc olist sumz]; rewrite ?zlen_app, zlen_be, ?zlen_flat_map; lia. Qed.
Lemma zs_unit v : zlen (enc TUnit v) = 0. Proof. reflexivity. Qed.
Lemma zs_tags : zlen (enc TTags []) = 1. Proof. reflexivity. Qed.
Lemma uvarint_pos x : 1 <= zlen (uvarint x).
Proof. unfold uvarint, zlen. cbn [put_uvarint]. destruct (x <? 128); cbn [length]; lia. Qed.
Lemma uv_len n x : 0 <= x < 2 ^ (7 * Z.of_nat n) -> (0 < n <= 10)%nat -> zlen (uvarint x) <= Z.of_nat n.
Proof.
  unfold uvarint. assert (G : forall f n x, 0 <= x < 2 ^ (7 * Z.of_nat n) -> (0 < n <= f)%nat -> zlen (put_uvarint f x) <= Z.of_nat n).
  { clear. induction f as [|f IH]; intros n x Hx Hn; [lia|]. cbn [put_uvarint]. destruct (Z.ltb_spec x 128); [unfold zlen; cbn [length]; lia|].
    rewrite zlen_cons. destruct n as [|[|n]]; [lia| |].
    - change (2 ^ (7 * Z.of_nat 1)) with 128 in Hx. lia.
    - enough (zlen (put_uvarint f (x / 128)) <= Z.of_nat (S n)) by lia. apply IH; [|lia].
      replace (7 * Z.of_nat (S (S n))) with (7 + 7 * Z.of_nat (S n)) in Hx by lia. rewrite Z.pow_add_r in Hx by lia. change (2 ^ 7) with 128 in Hx.
      split; [apply Z.div_pos; lia|apply Z.div_lt_upper_bound; lia]. }
  intros Hx Hn. apply G; [exact Hx|lia].
Qed.
Lemma zs_carr t (v : list (den t)) : zlen (enc (TCArr t) v) = zlen (uvarint (zlen v + 1)) + sumz (fun x => zlen (enc t x)) v.
Proof. cbn [enc]. rewrite zlen_app, zlen_flat_map. lia. Qed.
Lemma zs_cnarr t (v : option (list (den t))) : zlen (enc (TCNArr t) v) =
  match v with None => 1 | Some l => zlen (uvarint (zlen l + 1)) + sumz (fun x => zlen (enc t x)) l end.
Proof. destruct v; cbn [enc]; rewrite ?zlen_app, ?zlen_flat_map; reflexivity. Qed.
Lemma zs_cstr (v : bytes) : zlen (enc TCStr v) = zlen (uvarint (zlen v + 1)) + zlen v.
Proof. cbn [enc]. rewrite zlen_app. lia. Qed.
Lemma zs_cnstr (v : bytes) : zlen v < 2 ^ 15 -> zlen (enc TCNStr (Some v)) <= 3 + zlen v.
Proof.
  intros H. cbn [enc]. rewrite zlen_app. pose proof (zlen_nonneg v). pose proof (uv_len 3 (zlen v + 1)) as G.
  change (2 ^ (7 * Z.of_nat 3)) with (2 ^ 21) in G. assert (2 ^ 15 < 2 ^ 21) by reflexivity. specialize (G ltac:(lia) ltac:(lia)). lia.
Qed.

Lemma sum_i32 (l : list Z) : sumz (fun x => zlen (enc TI32 x)) l = 4 * zlen l.
Proof. rewrite <- sumz_const. apply sumz_ext. intros; apply zs_i32. Qed.
Ltac zs := cbv beta; cbn [den]; repeat first
  [ rewrite zs_pair | rewrite zs_i8 | rewrite zs_i16 | rewrite zs_i32 | rewrite zs_i64 | rewrite zs_bool | rewrite zs_str
  | rewrite zs_nstr | rewrite zs_bytes | rewrite zs_arr | rewrite zs_narr | rewrite zs_unit | rewrite zs_tags
  | rewrite zs_carr | rewrite sum_i32 | rewrite zs_cstr | rewrite sumz_map | rewrite sumz_const | rewrite zlen_map | progress cbv beta
  | progress cbn [olen fst snd den] ].
(** equal sums, term by term *)
Ltac sumeq := repeat match goal with
  | |- context [sumz ?f ?l] => match goal with
      | |- context [sumz ?g l] => tryif constr_eq f g then fail else replace (sumz g l) with (sumz f l);
          [| apply sumz_ext; let x := fresh "x" in intros x _; repeat match goal with y : (_ * _)%type |- _ => destruct y end; cbn [fst snd]; zs; sumeq; lia]
      end end.
Ltac size := unfold len_strs, len_topic_pids; zs; cbn [den]; sumeq; try lia.
