(** The encoders that allocate a buffer first and patch the length afterwards, and the
    ones that use compact fields, against their layouts. *)
From Verif Require Import Base BaseFacts Wire WireFacts Prims PrimsFacts Records Requests RequestSpec RequestFacts RequestBodies.

Lemma sumz_all {A} (c : Z) (f : A -> Z) l : (forall x, In x l -> f x <= c) -> sumz f l <= c * zlen l.
Proof. intros H. rewrite <- (sumz_const c l). apply sumz_le. exact H. Qed.
Ltac bound c := match goal with |- ?L <= ?R => match L with context [sumz ?f ?l] =>
  let H := fresh in assert (H : sumz f l <= c * zlen l) by (apply sumz_all; let x := fresh "x" in intros x _; split_pairs; zs; cbn [fst snd]; lia); revert H end end.
Ltac cmp := match goal with |- ?L <= ?R => match L with context [sumz ?f ?l] => match R with context [sumz ?g l] =>
  let G := fresh "G" in assert (G : sumz f l <= sumz g l);
  [apply sumz_le; let x := fresh "x" in let Hx := fresh "Hx" in intros x Hx; split_pairs; zs | try lia] end end end.
Ltac sumle := repeat match goal with
  | |- ?L <= ?R => match L with context [sumz ?f ?l] => match R with context [sumz ?g l] =>
      lazymatch goal with H : sumz f l <= sumz g l |- _ => fail | _ =>
      assert (sumz f l <= sumz g l) by (apply sumz_le; let x := fresh "x" in intros x ?; split_pairs; zs; cbn [fst snd]; sumle; try lia) end
      end end end.

(** compact arrays whose count is written by encodeCompactArrayLength *)
Lemma W_carr_id (t : ty) (f : den t -> list wop) l : @zlen (den t) l < 2 ^ 63 -> (forall x, In x l -> W (f x) t x) ->
  W (CopyN (encodeCompactArrayLength (zlen l)) :: flat_map f l) (TCArr t) l.
Proof. intros Hl H. rewrite <- (map_id l) at 3. apply W_carr; assumption. Qed.
Lemma W_cnarr {A} (f : A -> list wop) t (g : A -> den t) l : zlen l < 2 ^ 63 ->
  (forall x, In x l -> W (f x) t (g x)) -> W (CopyN (encodeCompactArrayLength (zlen l)) :: flat_map f l) (TCNArr t) (Some (map g l)).
Proof. intros Hl H. exact (W_carr f t g l Hl H). Qed.
Lemma W_cnarr_id (t : ty) (f : den t -> list wop) l : @zlen (den t) l < 2 ^ 63 -> (forall x, In x l -> W (f x) t x) ->
  W (CopyN (encodeCompactArrayLength (zlen l)) :: flat_map f l) (TCNArr t) (Some l).
Proof. exact (W_carr_id t f l). Qed.
Lemma W_carr_uv_id (t : ty) (f : den t -> list wop) l : (forall x, In x l -> W (f x) t x) ->
  W (puv (1 + zlen l) :: flat_map f l) (TCArr t) l.
Proof. intros H. rewrite <- (map_id l) at 3. apply W_carr_uv; assumption. Qed.
Lemma W_cnarr_uv {A} (f : A -> list wop) t (g : A -> den t) l :
  (forall x, In x l -> W (f x) t (g x)) -> W (puv (1 + zlen l) :: flat_map f l) (TCNArr t) (Some (map g l)).
Proof. intros H. exact (W_carr_uv f t g l H). Qed.
Lemma W_cnarr_null t : W [puv 0] (TCNArr t) None.
Proof. reflexivity. Qed.
Lemma W_app2 o a b t1 t2 v1 v2 : W (o :: a) t1 v1 -> W b t2 v2 -> W (o :: a ++ b) (TPair t1 t2) (v1, v2).
Proof. apply (W_app (o :: a)). Qed.
Lemma W_app3 o p a b t1 t2 v1 v2 : W (o :: p :: a) t1 v1 -> W b t2 v2 -> W (o :: p :: a ++ b) (TPair t1 t2) (v1, v2).
Proof. apply (W_app (o :: p :: a)). Qed.

(** lengths of uvarints *)
Lemma uv1 x : 0 <= x < 2 ^ 7 -> zlen (uvarint x) = 1.
Proof. intros H. pose proof (uvarint_pos x). pose proof (uv_len 1 x H ltac:(lia)). lia. Qed.
Lemma uv2 x : 0 <= x < 2 ^ 14 -> zlen (uvarint x) <= 2.
Proof. intros H. exact (uv_len 2 x H ltac:(lia)). Qed.
Lemma uv3 x : 0 <= x < 2 ^ 21 -> zlen (uvarint x) <= 3.
Proof. intros H. exact (uv_len 3 x H ltac:(lia)). Qed.
Lemma uv4 x : 0 <= x < 2 ^ 28 -> zlen (uvarint x) <= 4.
Proof. intros H. exact (uv_len 4 x H ltac:(lia)). Qed.
Lemma uv5 x : 0 <= x < 2 ^ 35 -> zlen (uvarint x) <= 5.
Proof. intros H. exact (uv_len 5 x H ltac:(lia)). Qed.
Lemma flexible_if (flex : bool) : flexible (if flex then 2 else 1) = flex.
Proof. destruct flex; reflexivity. Qed.

Section Flex.
Variables (flex : bool) (h : rhdr).
Notation hv := (if flex then 2 else 1).
Notation hb := (header_bytes flex (h_key h) (h_ver h) (h_corr h) (h_client h)).

Lemma hlen_client c : h_client h = Some c -> flex = false -> hlen hv h = 10 + zlen c.
Proof. intros Hc ->. unfold hlen. rewrite Hc. cbn [olen]. change (flexible _) with false. cbn [olen]. lia. Qed.
Lemma enc_listoffsets_0 c r ts : h_client h = Some c -> flex = false ->
  enc_listoffsets hv h 0 r ts = Ok (frame (hb ++ enc S_ListOffsets_0 (r, ts))).
Proof.
  intros Hc Hf. pose proof (hlen_client c Hc Hf) as Hl. unfold enc_listoffsets.
  match goal with |- _ = ?b => remember b as R eqn:HR end. rewrite Hc. subst R.
  unfold S_ListOffsets_0. apply wpatch_W; [cbn [Z.eqb Pos.eqb app]; wgo|rewrite Hl; zs].
  cmp. bound 16. lia.
Qed.
Lemma enc_listoffsets_1 c r ts : h_client h = Some c -> flex = false ->
  enc_listoffsets hv h 1 r ts = Ok (frame (hb ++ enc S_ListOffsets_1
    (r, map (fun t => (fst t, map (fun p => (fst p, fst (snd p))) (snd t))) ts))).
Proof.
  intros Hc Hf. pose proof (hlen_client c Hc Hf) as Hl. unfold enc_listoffsets.
  match goal with |- _ = ?b => remember b as R eqn:HR end. rewrite Hc. subst R.
  unfold S_ListOffsets_1. apply wpatch_W; [cbn [Z.eqb Pos.eqb app]; wgo|rewrite Hl; zs].
  cmp. bound 16. lia.
Qed.

(** ListGroups *)
Lemma W_lg_filter (l : list bytes) : zlen l < 2 ^ 63 -> W (lg_filter true (Some l)) (TCArr TCStr) l.
Proof. intros Hl. apply (W_carr_id TCStr (fun s => [CopyN (encodeCompactString s)])); [exact Hl|]. intros x _. apply W_cstr. Qed.
Lemma lg_size (l : list bytes) : Forall (fun s => zlen s < 2 ^ 14 - 1) l ->
  sumz (fun x : bytes => zlen (enc TCStr x)) l <= sumz (fun s => 2 + zlen s) l.
Proof.
  intros H. apply sumz_le. intros x Hx. rewrite Forall_forall in H. specialize (H x Hx). zs. pose proof (zlen_nonneg x).
  pose proof (uv2 (zlen x + 1)). lia.
Qed.
Lemma enc_listgroups_0 s t : 0 <= h_ver h <= 2 -> flex = false -> enc_listgroups hv h s t = Ok (frame (hb ++ enc TUnit tt)).
Proof.
  intros Hv Hf. unfold enc_listgroups. rewrite flexible_if.
  replace (4 <=? h_ver h) with false by lia. replace (5 <=? h_ver h) with false by lia.
  replace (if flex then [puv 0] else []) with (@nil wop) by (rewrite Hf; reflexivity). cbn [app]. apply wpatch_W; [apply W_nil|].
  unfold len_strs, tags_len. pose proof (sumz_nonneg (fun s => 2 + zlen s) (olist s)). pose proof (sumz_nonneg (fun s => 2 + zlen s) (olist t)).
  assert (N : forall l, (forall x : bytes, In x l -> 0 <= 2 + zlen x)) by (intros l x _; pose proof (zlen_nonneg x); lia).
  specialize (H (N _)). specialize (H0 (N _)). zs. lia.
Qed.
Lemma enc_listgroups_3 s t : h_ver h = 3 -> flex = true -> enc_listgroups hv h s t = Ok (frame (hb ++ enc S_ListGroups_3 [])).
Proof.
  intros Hv Hf. unfold enc_listgroups. rewrite flexible_if.
  replace (4 <=? h_ver h) with false by lia. replace (5 <=? h_ver h) with false by lia.
  replace (if flex then [puv 0] else []) with [puv 0] by (rewrite Hf; reflexivity). cbn [app]. apply wpatch_W; [exact W_tags_uv|].
  unfold len_strs, tags_len, S_ListGroups_3. pose proof (sumz_nonneg (fun s => 2 + zlen s) (olist s)). pose proof (sumz_nonneg (fun s => 2 + zlen s) (olist t)).
  assert (N : forall l, (forall x : bytes, In x l -> 0 <= 2 + zlen x)) by (intros l x _; pose proof (zlen_nonneg x); lia).
  specialize (H (N _)). specialize (H0 (N _)). zs. lia.
Qed.
Lemma enc_listgroups_4 s t : h_ver h = 4 -> flex = true -> zlen s < 2 ^ 31 - 1 -> Forall (fun s => zlen s < 2 ^ 14 - 1) s ->
  enc_listgroups hv h (Some s) t = Ok (frame (hb ++ enc S_ListGroups_4 (s, []))).
Proof.
  intros Hv Hf Hl Hs. unfold enc_listgroups. rewrite flexible_if.
  replace (4 <=? h_ver h) with true by lia. replace (5 <=? h_ver h) with false by lia.
  replace (if flex then [puv 0] else []) with [puv 0] by (rewrite Hf; reflexivity). replace (lg_filter flex) with (lg_filter true) by (rewrite Hf; reflexivity).
  cbn [app]. assert (2 ^ 31 < 2 ^ 35) by reflexivity. assert (2 ^ 31 < 2 ^ 63) by reflexivity.
  apply wpatch_W; [apply W_app; [apply W_lg_filter; lia|exact W_tags_uv]|].
  unfold len_strs, tags_len, S_ListGroups_4. pose proof (sumz_nonneg (fun s => 2 + zlen s) (olist t)) as Ht.
  specialize (Ht ltac:(intros x _; pose proof (zlen_nonneg x); lia)). pose proof (lg_size s Hs). zs. cbn [olist].
  pose proof (zlen_nonneg s). pose proof (uv5 (zlen s + 1)).
 lia.
Qed.
Lemma enc_listgroups_5 s t : h_ver h = 5 -> flex = true -> zlen s < 2 ^ 31 - 1 -> Forall (fun s => zlen s < 2 ^ 14 - 1) s ->
  zlen t < 2 ^ 31 - 1 -> Forall (fun s => zlen s < 2 ^ 14 - 1) t ->
  enc_listgroups hv h (Some s) (Some t) = Ok (frame (hb ++ enc S_ListGroups_5 (s, (t, [])))).
Proof.
  intros Hv Hf Hl Hs Hl' Hs'. unfold enc_listgroups. rewrite flexible_if.
  replace (4 <=? h_ver h) with true by lia. replace (5 <=? h_ver h) with true by lia.
  replace (if flex then [puv 0] else []) with [puv 0] by (rewrite Hf; reflexivity). replace (lg_filter flex) with (lg_filter true) by (rewrite Hf; reflexivity).
  assert (2 ^ 31 < 2 ^ 35) by reflexivity. assert (2 ^ 31 < 2 ^ 63) by reflexivity.
  apply wpatch_W; [apply W_app; [apply W_lg_filter; lia|apply W_app; [apply W_lg_filter; lia|exact W_tags_uv]]|].
  unfold len_strs, tags_len, S_ListGroups_5. pose proof (lg_size s Hs). pose proof (lg_size t Hs'). zs. cbn [olist].
  pose proof (zlen_nonneg s). pose proof (uv5 (zlen s + 1)). pose proof (zlen_nonneg t). pose proof (uv5 (zlen t + 1)). lia.
Qed.

(** DescribeLogDirs *)
Lemma enc_describelogdirs_0 ts : enc_describelogdirs hv h ts = Ok (frame (hb ++ enc S_DescribeLogDirs_0 (Some ts))).
Proof.
  unfold enc_describelogdirs. set (n := hlen hv h + 4 + sumz len_topic_pids ts).
  assert (Hw : W (parr topic_pids ts) S_DescribeLogDirs_0 (Some ts)) by (unfold S_DescribeLogDirs_0; wgo).
  assert (Hn : n = hlen hv h + zlen (enc S_DescribeLogDirs_0 (Some ts))).
  { unfold n, S_DescribeLogDirs_0. size. cbn [olist]. sumeq. lia. }
  assert (Hc : wcat (p32 n :: hops hv h ++ parr topic_pids ts) = frame (hb ++ enc S_DescribeLogDirs_0 (Some ts))).
  { rewrite wcat_cons, wcat_app, hops_bytes, Hw. unfold frame. f_equal. cbn [wbytes p32]. rewrite be4_uint. f_equal.
    rewrite zlen_app, <- hlen_bytes. lia. }
  rewrite wcut_ok; [f_equal; exact Hc|]. rewrite Hc. unfold frame. rewrite zlen_app, zlen_be, zlen_app, <- hlen_bytes. lia.
Qed.

(** ElectLeaders *)
Lemma enc_electleaders_0 ts t : enc_electleaders hv h ts t = Ok (frame (hb ++ enc S_ElectLeaders_0 (Some ts, t))).
Proof. unfold S_ElectLeaders_0. apply wpatch_W; [wgo|]. unfold len_topic_pids. zs. cbn [olist]. sumle. lia. Qed.

(** CreatePartitions *)
Lemma W_parr {A} (f f' : A -> list wop) t (g : A -> den t) l : (forall x, In x l -> f x = f' x) ->
  (forall x, In x l -> W (f' x) t (g x)) -> W (parr f l) (TArr t) (map g l).
Proof. intros H1 H2. apply W_arr. intros x Hx. rewrite (H1 x Hx). exact (H2 x Hx). Qed.
Lemma cp_topic_0 name count asg : cp_topic 0 (name, (count, Some asg)) =
  pstr name ++ p32 count :: parr (fun a => parr (fun b => [p32 b]) a) asg.
Proof.
  unfold cp_topic, parr, pstr. cbn [Z.eqb app olist]. do 4 f_equal. rewrite app_nil_r.
  apply flat_map_ext_in. intros x _. unfold cp_assign. cbn [Z.eqb Pos.eqb app]. rewrite app_nil_r. reflexivity.
Qed.
Lemma enc_createpartitions_0 ts t b : Forall (fun x : bytes * (Z * option (list (list Z))) => snd (snd x) <> None) ts ->
  enc_createpartitions hv h 0 ts t b = Ok (frame (hb ++ enc S_CreatePartitions_0 (ts, (t, b)))).
Proof.
  intros Hs. rewrite Forall_forall in Hs. unfold enc_createpartitions, S_CreatePartitions_0. cbn [Z.eqb Pos.eqb].
  apply wpatch_W.
  - rewrite (app_assoc [p32 (zlen ts)]). apply W_app; [|cbn [app]; wgo].
    apply (W_arr_id (TPair TStr (TPair TI32 (TNArr (TArr TI32))))). intros x Hx. specialize (Hs x Hx). cbn [den] in x.
    destruct x as [name [count [asg|]]]; [|contradiction Hs; reflexivity]. rewrite cp_topic_0. wgo.
  - zs. cmp. destruct o as [asg|]; [|contradiction (Hs _ Hx); reflexivity]. cbn [cp_len olist]. cmp. lia.
Qed.
Lemma W_cp_assign a : W (cp_assign 2 a) (TPair (TCArr TI32) TTags) (a, []).
Proof.
  unfold cp_assign. cbn [Z.eqb Pos.eqb app]. apply W_app2; [|exact W_tags]. apply (W_carr_uv_id TI32 (fun b => [p32 b])). intros; apply W_p32.
Qed.
Lemma W_cp_topic name count asg : W (cp_topic 2 (name, (count, asg)))
  (TPair TCStr (TPair TI32 (TPair (TCNArr (TPair (TCArr TI32) TTags)) TTags)))
  (name, (count, (option_map (map (fun a => (a, []))) asg, []))).
Proof.
  unfold cp_topic. cbn [Z.eqb Pos.eqb app]. apply (W_app [puv (1 + zlen name); CopyN name]); [apply W_uvstr|]. apply W_cons; [apply W_p32|].
  destruct asg as [l|]; cbn [option_map olist flat_map app].
  - apply W_app2; [|exact W_tags]. apply (W_cnarr_uv (cp_assign 2)). intros; apply W_cp_assign.
  - apply (W_cons (puv 0)); [apply W_cnarr_null|exact W_tags].
Qed.
(** what the length computed in advance has room for *)
Definition cp_fits (x : bytes * (Z * option (list (list Z)))) : Prop :=
  zlen (fst x) < 2 ^ 15 /\ zlen (olist (snd (snd x))) < 2 ^ 14 - 1 /\ Forall (fun a => zlen a < 2 ^ 28 - 1) (olist (snd (snd x))).
Lemma enc_createpartitions_2 ts t b : zlen ts < 2 ^ 31 - 1 -> Forall cp_fits ts ->
  enc_createpartitions hv h 2 ts t b = Ok (frame (hb ++ enc S_CreatePartitions_2
        (map (fun x : bytes * (Z * option (list (list Z))) => let '(name, (count, asg)) := x in
              (name, (count, (option_map (map (fun a => (a, []))) asg, [])))) ts, (t, (b, []))))).
Proof.
  intros Hl Hs. rewrite Forall_forall in Hs. unfold enc_createpartitions, S_CreatePartitions_2. cbn [Z.eqb Pos.eqb].
  apply wpatch_W.
  - rewrite (app_assoc [puv (1 + zlen ts)]). apply W_app; [|cbn [app]; wgo].
    apply W_carr_uv. intros [name [count asg]] _. apply W_cp_topic.
  - zs. assert (2 ^ 31 < 2 ^ 35) by reflexivity. pose proof (zlen_nonneg ts). pose proof (uv5 (zlen ts + 1)). cmp.
    destruct (Hs _ Hx) as (J1 & J2 & J3). cbn [fst snd] in J1, J2, J3. pose proof (zlen_nonneg l). pose proof (uv3 (zlen l + 1)). assert (2 ^ 15 < 2 ^ 21) by reflexivity.
    destruct o as [asg|]; cbn [cp_len olist option_map] in *.
    + rewrite zs_cnarr, zlen_map, sumz_map. pose proof (zlen_nonneg asg). pose proof (uv2 (zlen asg + 1)). rewrite Forall_forall in J3.
      cmp. specialize (J3 _ Hx0). pose proof (zlen_nonneg x). pose proof (uv4 (zlen x + 1)). lia.
    + cbn [sumz]. change (zlen (enc (TCNArr (TPair (TCArr TI32) TTags)) None)) with 1. lia.
Qed.

(** Fetch *)
Notation fpart := (Z * (Z * (Z * (Z * Z))))%type.
Lemma one_part {A} (f : A -> Z) (l : list A) : zlen l <= 1 -> (forall p, f p <= 28) -> sumz f l <= 28.
Proof.
  intros Hl Hg. destruct l as [|p [|q l]]; cbn [sumz]; [lia|specialize (Hg p); lia|]. rewrite !zlen_cons in Hl. pose proof (zlen_nonneg l). lia.
Qed.
Lemma sumz_double {A} (f : A -> Z) l : sumz (fun x => 2 * f x) l = 2 * sumz f l.
Proof. induction l as [|x l IH]; cbn [sumz]; lia. Qed.
Lemma sumz_half {A} (f g : A -> Z) l : (forall x, In x l -> f x <= 2 * g x) -> sumz f l <= 2 * sumz g l.
Proof. intros H. rewrite <- sumz_double. apply sumz_le. exact H. Qed.
Ltac fesize ts fs Hs :=
  zs; assert (0 <= hlen hv h) by (rewrite hlen_bytes; apply zlen_nonneg);
  assert (0 <= sumz (fun t : bytes * list Z => 2 + zlen (fst t) + 4 + zlen (snd t) * 4) fs)
      by (apply sumz_nonneg; intros [? ?] _; cbn [fst snd]; match goal with |- context [2 + zlen ?x + 4 + zlen ?y * 4] => pose proof (zlen_nonneg x); pose proof (zlen_nonneg y) end; lia);
  match goal with |- ?L <= ?R => match L with context [sumz ?g ts] => match R with context [sumz ?g' ts] =>
      assert (sumz g ts <= 2 * sumz g' ts) end end end;
  [apply sumz_half; let n := fresh in let l := fresh in let Hx := fresh in intros [n l] Hx; specialize (Hs _ Hx); cbn [fst snd] in *; zs; pose proof (zlen_nonneg n);
    match goal with |- context [sumz ?s l] => enough (sumz s l <= 28) by lia end;
    apply one_part; [exact Hs|]; intros [? [? [? [? ?]]]]; zs; lia
  |].
Lemma enc_fetch_0 a b c d e f g ts fs : Forall (fun t : bytes * list fpart => zlen (snd t) <= 1) ts ->
  enc_fetch hv h 0 a b c d e f g ts fs = Ok (frame (hb ++ enc S_Fetch_0
    (a, (b, (c, map (fun t => (fst t, map (fun p : fpart => let '(pid, (ep, (off, (st, mx)))) := p in (pid, (off, mx))) (snd t))) ts))))).
Proof.
  intros Hs. rewrite Forall_forall in Hs. unfold enc_fetch, S_Fetch_0. cbn [Z.leb Z.compare app]. rewrite app_nil_r.
  apply wpatch_W.
  - wgo. cbn [fe_part Z.leb Z.compare app]. wgo.
  - fesize ts fs Hs. lia.
Qed.
Lemma enc_fetch_7 v a b c d e f g ts fs : 7 <= v < 10 -> Forall (fun t : bytes * list fpart => zlen (snd t) <= 1) ts ->
  enc_fetch hv h v a b c d e f g ts fs = Ok (frame (hb ++ enc S_Fetch_7
    (a, (b, (c, (d, (e, (f, (g, (map (fun t => (fst t, map (fun p : fpart => let '(pid, (ep, (off, (st, mx)))) := p in (pid, (off, (st, mx)))) (snd t))) ts, fs)))))))))).
Proof.
  intros Hv Hs. rewrite Forall_forall in Hs. unfold enc_fetch, S_Fetch_7. replace (7 <=? v) with true by lia. cbn [app].
  apply wpatch_W.
  - wgo. unfold fe_part. replace (7 <=? v) with true by lia. replace (10 <=? v) with false by lia. wgo.
  - fesize ts fs Hs. sumle. lia.
Qed.
Lemma enc_fetch_10 v a b c d e f g ts fs : 10 <= v -> Forall (fun t : bytes * list fpart => zlen (snd t) <= 1) ts ->
  enc_fetch hv h v a b c d e f g ts fs = Ok (frame (hb ++ enc S_Fetch_10 (a, (b, (c, (d, (e, (f, (g, (ts, fs)))))))))).
Proof.
  intros Hv Hs. rewrite Forall_forall in Hs. unfold enc_fetch, S_Fetch_10. replace (7 <=? v) with true by lia. cbn [app].
  apply wpatch_W.
  - wgo. unfold fe_part. replace (7 <=? v) with true by lia. replace (10 <=? v) with true by lia. wgo.
  - fesize ts fs Hs. sumle. lia.
Qed.

(** Partition reassignments *)
Lemma p31_35 : 2 ^ 31 < 2 ^ 35 /\ 2 ^ 31 < 2 ^ 63 /\ 2 ^ 15 < 2 ^ 21 /\ 2 ^ 15 < 2 ^ 63. Proof. repeat split; reflexivity. Qed.
Lemma enc_alterreassign_0 t ts : wf S_AlterReassign_0 (t, (map (fun x : bytes * list (Z * list Z) =>
        (fst x, (map (fun p : Z * list Z => (fst p, (Some (snd p), []))) (snd x), []))) ts, [])) ->
  enc_alterreassign hv h t ts = Ok (frame (hb ++ enc S_AlterReassign_0 (t, (map (fun x : bytes * list (Z * list Z) =>
        (fst x, (map (fun p : Z * list Z => (fst p, (Some (snd p), []))) (snd x), []))) ts, [])))).
Proof.
  intros Hwf. destruct p31_35 as (P1 & P2 & P3 & P4).
  cbn [wf S_AlterReassign_0 fst snd] in Hwf. destruct Hwf as (_ & (Hl & Hts) & _). rewrite zlen_map in Hl.
  assert (Hts' : forall x, In x ts -> zlen (fst x) < 2 ^ 15 /\ zlen (snd x) < 2 ^ 31 - 1 /\
            forall p, In p (snd x) -> zlen (snd p) < 2 ^ 31 - 1).
  { intros x Hx. rewrite Forall_forall in Hts. specialize (Hts _ (in_map _ _ _ Hx)). cbn [fst snd] in Hts.
    destruct Hts as (H1 & (H2 & H3) & _). rewrite zlen_map in H2. split; [exact H1|]. split; [exact H2|].
    intros p Hp. rewrite Forall_forall in H3. specialize (H3 _ (in_map _ _ _ Hp)). cbn [fst snd] in H3. tauto. }
  clear Hts. unfold enc_alterreassign, S_AlterReassign_0. apply wpatch_W.
  - cbn [app]. apply W_cons; [apply W_p32|]. apply W_app2; [|exact W_tags]. apply W_carr; [lia|].
    intros [n ps] Hx. destruct (Hts' _ Hx) as (H1 & H2 & H3). cbn [fst snd] in *. unfold apr_topic. cbn [fst snd app].
    apply W_cons; [apply W_cstr|]. apply W_app2; [|exact W_tags]. apply W_carr; [lia|].
    intros [p rs] Hp. specialize (H3 _ Hp). cbn [fst snd] in *. unfold apr_part. cbn [fst snd app].
    apply W_cons; [apply W_p32|]. apply W_app2; [|exact W_tags]. apply (W_cnarr_id TI32); [cbn [den]; lia|]. intros; apply W_p32.
  - unfold apr_len, tags_len. zs. pose proof (zlen_nonneg ts). pose proof (uv5 (zlen ts + 1)). cmp.
    destruct (Hts' _ Hx) as (J1 & J2 & J3). cbn [fst snd] in *. pose proof (zlen_nonneg l). pose proof (uv3 (zlen l + 1)).
    pose proof (zlen_nonneg l0). pose proof (uv5 (zlen l0 + 1)). cmp. specialize (J3 _ Hx0). cbn [snd] in J3.
    rewrite zs_cnarr. zs. pose proof (zlen_nonneg l1). pose proof (uv5 (zlen l1 + 1)). lia.
Qed.
Definition lr_fits (x : bytes * list Z) : Prop := zlen (fst x) < 2 ^ 15 /\ zlen (snd x) < 2 ^ 21 - 1.
Lemma enc_listreassign_0 t ts : zlen (olist ts) < 2 ^ 28 - 1 -> Forall lr_fits (olist ts) ->
  enc_listreassign hv h t ts = Ok (frame (hb ++ enc S_ListReassign_0
    (t, (option_map (map (fun x : bytes * list Z => (fst x, (snd x, [])))) ts, [])))).
Proof.
  intros Hl Hs. rewrite Forall_forall in Hs. unfold enc_listreassign, S_ListReassign_0. apply wpatch_W.
  - cbn [app]. apply W_cons; [apply W_p32|]. destruct ts as [ts|]; cbn [olist option_map flat_map app].
    + apply W_app2; [|exact W_tags]. apply (W_cnarr_uv lpr_topic). intros [n ps] _. unfold lpr_topic. cbn [fst snd app].
      apply (W_app [puv (1 + zlen n); CopyN n]); [apply W_uvstr|]. apply W_app2; [|exact W_tags].
      apply (W_carr_uv_id TI32 (fun p => [p32 p])). intros; apply W_p32.
    + apply (W_cons (puv 0)); [apply W_cnarr_null|exact W_tags].
  - zs. destruct ts as [ts|]; cbn [olist option_map] in *.
    + rewrite zs_cnarr. zs. pose proof (zlen_nonneg ts). pose proof (uv4 (zlen ts + 1)). cmp.
      destruct (Hs _ Hx) as (J1 & J2). cbn [fst snd] in *. pose proof (zlen_nonneg l). pose proof (uv3 (zlen l + 1)).
      assert (2 ^ 15 < 2 ^ 21) by reflexivity. pose proof (zlen_nonneg l0). pose proof (uv3 (zlen l0 + 1)). lia.
    + match goal with |- context [zlen (enc ?t None)] => change (zlen (enc t None)) with 1 end. cbn [sumz]. lia.
Qed.

(** ACLs *)
Lemma W_str_enc s : W [CopyN (encodeString s)] TStr s.
Proof. unfold W. rewrite (proj1 (proj2 (wcat1 _))). unfold encodeString. cbn [enc]. rewrite be2_uint. reflexivity. Qed.
Lemma W_nstr_enc s : W [CopyN (encodeNullableString s)] TNStr s.
Proof. unfold W. rewrite (proj1 (proj2 (wcat1 _))). apply encodeNullableString_enc. Qed.
Lemma W_cnstr_enc s : wf TCNStr s -> W [CopyN (encodeCompactNullableString s)] TCNStr s.
Proof. intros H. unfold W. rewrite (proj1 (proj2 (wcat1 _))). apply encodeCompactNullableString_wire. exact H. Qed.
Lemma enc_describeacls_2 rt rn pt pr ho op pe : enc_describeacls hv h 2 rt rn pt pr ho op pe =
  Ok (frame (hb ++ enc S_DescribeAcls_2 (rt, (rn, (pt, (pr, (ho, (op, (pe, [])))))))) ).
Proof.
  unfold enc_describeacls. rewrite wcut_ok by (rewrite hops_bytes, <- hlen_bytes; lia). rewrite hops_bytes. cbn [rbind Z.ltb Z.leb Z.compare Pos.compare Pos.compare_cont].
  rewrite !writeCompactNullableString_wire, !be1_uint, be4_uint. unfold frame. reflexivity.
Qed.
Notation acl := (Z * (bytes * (Z * (bytes * (bytes * (Z * Z))))))%type.
Lemma enc_createacls_2 l : flex = true -> 1 <= h_ver h ->
  wf S_CreateAcls_2 (map (fun a : acl => let '(rt, (rn, (pt, (pr, (ho, (op, pe)))))) := a in (rt, (rn, (pt, (pr, (ho, (op, (pe, [])))))))) l, []) ->
  enc_createacls hv h l = Ok (frame (hb ++ enc S_CreateAcls_2
    (map (fun a : acl => let '(rt, (rn, (pt, (pr, (ho, (op, pe)))))) := a in (rt, (rn, (pt, (pr, (ho, (op, (pe, [])))))))) l, []))).
Proof.
  intros Hf Hv ((Hl & Hs) & _). cbn [fst snd] in Hl, Hs. rewrite zlen_map in Hl. destruct p31_35 as (P1 & P2 & P3 & P4). rewrite Forall_forall in Hs.
  assert (Hs' : forall rt rn pt pr ho op pe, In (rt, (rn, (pt, (pr, (ho, (op, pe)))))) l -> zlen rn < 2 ^ 15 /\ zlen pr < 2 ^ 15 /\ zlen ho < 2 ^ 15).
  { intros. specialize (Hs _ (in_map _ _ _ H)). cbn [wf fst snd] in Hs. tauto. }
  clear Hs. unfold enc_createacls, S_CreateAcls_2. replace (hv <? 2) with false by (rewrite Hf; reflexivity). apply wpatch_W.
  - cbn [app]. apply W_app2; [|exact W_tags]. apply W_carr; [lia|]. intros [rt [rn [pt [pr [ho [op pe]]]]]] _. unfold ca_ops.
    replace (hv <? 2) with false by (rewrite Hf; reflexivity). replace (1 <=? h_ver h) with true by lia. cbn [app]. wgo.
  - unfold ca_len, tags_len. zs. pose proof (zlen_nonneg l). pose proof (uv5 (zlen l + 1)). cmp.
    destruct (Hs' _ _ _ _ _ _ _ Hx) as (J1 & J2 & J3).
    pose proof (zlen_nonneg l0); pose proof (uv3 (zlen l0 + 1)); pose proof (zlen_nonneg l1); pose proof (uv3 (zlen l1 + 1));
    pose proof (zlen_nonneg l2); pose proof (uv3 (zlen l2 + 1)). lia.
Qed.
Notation aclf := (Z * (option bytes * (Z * (option bytes * (option bytes * (Z * Z))))))%type.
Lemma zs_cnstr_le s : wf TCNStr s -> zlen (enc TCNStr s) <= 3 + olen s.
Proof. destruct s as [s|]; intros H; [exact (zs_cnstr s H)|]. change (1 <= 3 + 0). lia. Qed.
Lemma enc_deleteacls_0 l : flex = false -> h_ver h = 0 -> enc_deleteacls hv h l = Ok (frame (hb ++ enc S_DeleteAcls_0
   (map (fun a : aclf => let '(rt, (rn, (pt, (pr, (ho, (op, pe)))))) := a in (rt, (rn, (pr, (ho, (op, pe)))))) l))).
Proof.
  intros Hf Hv. unfold enc_deleteacls, S_DeleteAcls_0. rewrite flexible_if.
  replace (if flex then [ptags] else []) with (@nil wop) by (rewrite Hf; reflexivity). rewrite app_nil_r.
  replace (if flex then [CopyN (encodeCompactArrayLength (zlen l))] else [p32 (zlen l)]) with [p32 (zlen l)] by (rewrite Hf; reflexivity).
  apply wpatch_W.
  - apply (W_arr (da_ops flex (h_ver h))). intros [rt [rn [pt [pr [ho [op pe]]]]]] _. unfold da_ops. replace (1 <=? h_ver h) with false by lia.
    replace (if flex then encodeCompactNullableString else encodeNullableString) with encodeNullableString by (rewrite Hf; reflexivity).
    replace (if flex then [ptags] else []) with (@nil wop) by (rewrite Hf; reflexivity). cbn [app].
    repeat (apply W_cons; [first [apply W_p8|apply W_nstr_enc]|]). apply W_p8.
  - unfold da_len, tags_len. zs. cmp. lia.
Qed.
Lemma enc_deleteacls_1 l : flex = false -> 1 <= h_ver h -> enc_deleteacls hv h l = Ok (frame (hb ++ enc S_DeleteAcls_1 l)).
Proof.
  intros Hf Hv. unfold enc_deleteacls, S_DeleteAcls_1. rewrite flexible_if.
  replace (if flex then [ptags] else []) with (@nil wop) by (rewrite Hf; reflexivity). rewrite app_nil_r.
  replace (if flex then [CopyN (encodeCompactArrayLength (zlen l))] else [p32 (zlen l)]) with [p32 (zlen l)] by (rewrite Hf; reflexivity).
  apply wpatch_W.
  - apply (W_arr_id (TPair TI8 (TPair TNStr (TPair TI8 (TPair TNStr (TPair TNStr (TPair TI8 TI8)))))) (da_ops flex (h_ver h))).
    intros [rt [rn [pt [pr [ho [op pe]]]]]] _. unfold da_ops. replace (1 <=? h_ver h) with true by lia.
    replace (if flex then encodeCompactNullableString else encodeNullableString) with encodeNullableString by (rewrite Hf; reflexivity).
    replace (if flex then [ptags] else []) with (@nil wop) by (rewrite Hf; reflexivity). cbn [app].
    repeat (apply W_cons; [first [apply W_p8|apply W_nstr_enc]|]). apply W_p8.
  - unfold da_len, tags_len. zs. cmp. lia.
Qed.
Lemma enc_deleteacls_2 l : flex = true -> 1 <= h_ver h ->
  wf S_DeleteAcls_2 (map (fun a : aclf => let '(rt, (rn, (pt, (pr, (ho, (op, pe)))))) := a in (rt, (rn, (pt, (pr, (ho, (op, (pe, [])))))))) l, []) ->
  enc_deleteacls hv h l = Ok (frame (hb ++ enc S_DeleteAcls_2
   (map (fun a : aclf => let '(rt, (rn, (pt, (pr, (ho, (op, pe)))))) := a in (rt, (rn, (pt, (pr, (ho, (op, (pe, [])))))))) l, []))).
Proof.
  intros Hf Hv ((Hl & Hs) & _). cbn [fst snd] in Hl, Hs. rewrite zlen_map in Hl. destruct p31_35 as (P1 & P2 & P3 & P4). rewrite Forall_forall in Hs.
  assert (Hs' : forall rt rn pt pr ho op pe, In (rt, (rn, (pt, (pr, (ho, (op, pe)))))) l -> wf TCNStr rn /\ wf TCNStr pr /\ wf TCNStr ho).
  { intros. specialize (Hs _ (in_map _ _ _ H)). cbn [wf fst snd] in Hs. tauto. }
  clear Hs. unfold enc_deleteacls, S_DeleteAcls_2. rewrite flexible_if.
  replace (if flex then [ptags] else []) with [ptags] by (rewrite Hf; reflexivity).
  replace (if flex then [CopyN (encodeCompactArrayLength (zlen l))] else [p32 (zlen l)]) with [CopyN (encodeCompactArrayLength (zlen l))] by (rewrite Hf; reflexivity).
  apply wpatch_W.
  - cbn [app]. apply W_app2; [|exact W_tags]. apply W_carr; [lia|]. intros [rt [rn [pt [pr [ho [op pe]]]]]] Hx. unfold da_ops.
    destruct (Hs' _ _ _ _ _ _ _ Hx) as (J1 & J2 & J3). replace (1 <=? h_ver h) with true by lia.
    replace (if flex then encodeCompactNullableString else encodeNullableString) with encodeCompactNullableString by (rewrite Hf; reflexivity).
    replace (if flex then [ptags] else []) with [ptags] by (rewrite Hf; reflexivity). cbn [app].
    repeat (apply W_cons; [first [apply W_p8|apply W_cnstr_enc; assumption]|]). exact W_tags.
  - unfold da_len, tags_len. zs. pose proof (zlen_nonneg l). assert (Hu : zlen (uvarint (zlen l + 1)) <= 3 + zlen l /\ zlen (uvarint (zlen l + 1)) <= 5).
    { split; [|apply uv5; lia]. destruct (Z.ltb_spec (zlen l) 2); [rewrite uv1 by lia; lia|]. pose proof (uv5 (zlen l + 1)). lia. }
    match goal with |- ?L <= ?R => match L with context [sumz ?f l] => match R with context [sumz ?g l] =>
       assert (sumz f l <= sumz g l - zlen l); [|lia] end end end.
    assert (E : forall (f g : aclf -> Z), (forall x, In x l -> f x + 1 <= g x) -> sumz f l <= sumz g l - zlen l).
    { intros f g Hfg. enough (sumz f l + 1 * zlen l <= sumz g l) by lia. rewrite <- (sumz_const 1 l).
      clear - Hfg. induction l as [|x l IH]; cbn [sumz]; [lia|]. pose proof (Hfg x (or_introl eq_refl)).
      specialize (IH (fun y Hy => Hfg y (or_intror Hy))). lia. }
    apply E. intros [rt [rn [pt [pr [ho [op pe]]]]]] Hx. destruct (Hs' _ _ _ _ _ _ _ Hx) as (J1 & J2 & J3). zs.
    pose proof (zs_cnstr_le rn J1). pose proof (zs_cnstr_le pr J2). pose proof (zs_cnstr_le ho J3). lia.
Qed.
End Flex.
