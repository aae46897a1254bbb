(** The request decoders read what the encoders write. *)
From Verif Require Import Base BaseFacts Wire WireFacts Prims PrimsFacts Group Records Requests RequestSpec RequestFacts RequestBodies RequestFlex RequestPrep
  Responses ResponseSpec ResponseFacts ResponseDecode ReqDecode.
Local Open Scope ty_scope.

(** ** Leaves *)
Lemma i8_e x r : wf TI8 x -> rd_i8 (enc TI8 x ++ r) = Ok (x, r).
Proof. exact (rd_i8_be x r). Qed.
Lemma one_e x r : rd_one (enc TBool x ++ r) = Ok (x, r).
Proof. destruct x; reflexivity. Qed.
Lemma n_e {B} t (p : parser B) (g : den t -> B) (l : list (den t)) r :
  (forall x r, In x l -> p (enc t x ++ r) = Ok (g x, r)) ->
  rd_n (Z.to_nat (zlen l)) p (flat_map (enc t) l ++ r) = Ok (map g l, r).
Proof. intros H. unfold zlen. rewrite Nat2Z.id. apply (rd_n_map p (enc t) g l r). exact H. Qed.
Definition TArrF (flex : bool) (t : ty) : ty := if flex then TCArr t else TArr t.
Definition arr_enc (flex : bool) (t : ty) (l : list (den t)) : bytes :=
  if flex then enc (TCArr t) l else enc (TArr t) l.
Definition arr_wf (t : ty) (l : list (den t)) : Prop := @zlen (den t) l < 2 ^ 31 - 1 /\ Forall (wf t) l.
Lemma oarr_e {B} (flex : bool) t (p : parser B) (g : den t -> B) (l : list (den t)) r :
  (forall x r, wf t x -> p (enc t x ++ r) = Ok (g x, r)) -> arr_wf t l ->
  rd_oarr flex p (arr_enc flex t l ++ r) = Ok (Some (map g l), r).
Proof.
  intros H [Hl Hw]. pose proof (zlen_nonneg l). rewrite Forall_forall in Hw. unfold rd_oarr, arr_enc. destruct flex; cbn [enc]; rewrite <- app_assoc.
  - erewrite bind_ok by (apply compactArrayLength_wire; lia). unfold rd_opt. destruct (Z.ltb_spec (zlen l) 0); [lia|].
    erewrite bind_ok by (apply n_e; auto). reflexivity.
  - erewrite bind_ok by (apply rd_i32_be; unfold i32; lia). unfold rd_opt. destruct (Z.ltb_spec (zlen l) 0); [lia|].
    erewrite bind_ok by (apply n_e; auto). reflexivity.
Qed.
Lemma marr_e {B} (flex : bool) t (p : parser B) (g : den t -> B) (l : list (den t)) r :
  (forall x r, wf t x -> p (enc t x ++ r) = Ok (g x, r)) -> arr_wf t l ->
  rd_marr flex p (arr_enc flex t l ++ r) = Ok (map g l, r).
Proof.
  intros H [Hl Hw]. pose proof (zlen_nonneg l). rewrite Forall_forall in Hw. unfold rd_marr, arr_enc. destruct flex; cbn [enc]; rewrite <- app_assoc.
  - erewrite bind_ok by (apply compactArrayLength_wire; lia). unfold rd_make. destruct (Z.ltb_spec (zlen l) 0); [lia|]. apply n_e; auto.
  - erewrite bind_ok by (apply rd_i32_be; unfold i32; lia). unfold rd_make. destruct (Z.ltb_spec (zlen l) 0); [lia|]. apply n_e; auto.
Qed.
Lemma oarr_true {B} t (p : parser B) (g : den t -> B) (l : list (den t)) r :
  (forall x r, wf t x -> p (enc t x ++ r) = Ok (g x, r)) -> wf (TCArr t) l ->
  rd_oarr true p (enc (TCArr t) l ++ r) = Ok (Some (map g l), r).
Proof. exact (oarr_e true t p g l r). Qed.
(** null arrays *)
Lemma oarr_null {B} t (p : parser B) (g : den t -> B) (o : option (list (den t))) r :
  (forall x r, wf t x -> p (enc t x ++ r) = Ok (g x, r)) -> wf (TCNArr t) o ->
  rd_oarr true p (enc (TCNArr t) o ++ r) = Ok (option_map (map g) o, r).
Proof. destruct o as [l|]; intros H Hw; [exact (oarr_e true t p g l r H Hw)|reflexivity]. Qed.

(** ** Header *)
Definition hdr (flex : bool) (key ver corr : Z) (client : option bytes) (ht : taggedFields) : bytes :=
  if flex then enc Header2 (key, (ver, (corr, (client, ht)))) else enc Header1 (key, (ver, (corr, client))).
Lemma hdr_nil flex key ver corr client : hdr flex key ver corr client [] = header_bytes flex key ver corr client.
Proof. reflexivity. Qed.
Lemma header_read (flex : bool) key ver corr client ht r :
  hv_switch key ver = Some (if flex then 2 else 1) -> u16 key -> u16 ver -> u32 corr -> wf_client client ->
  wf TTags ht -> (flex = false -> ht = []) ->
  decodeRequestHeader (hdr flex key ver corr client ht ++ r) =
  Ok ((mkH (Some (if flex then 2 else 1)) key ver corr client, ht), r).
Proof.
  intros Hs Hk Hv Hc Hcl Ht Hf. unfold decodeRequestHeader, hdr, Header1, Header2.
  assert (Hcl' : wf TNStr client) by (destruct client; exact Hcl).
  destruct flex; spread; cbn [enc]; change (match client with Some s => be 2 (zlen s) ++ s | None => be 2 (-1) end) with (enc TNStr client).
  - erewrite bind_ok by (apply rd_u16_be; exact Hk). erewrite bind_ok by (apply rd_u16_be; exact Hv). erewrite bind_ok by (apply rd_u32_be; exact Hc).
    rewrite Hs. cbn [Z.leb Z.compare Pos.compare Pos.compare_cont]. erewrite bind_ok by (apply nullableString_wire; exact Hcl').
    erewrite bind_ok by (exact (decodeTaggedFields_wire ht r Ht)). reflexivity.
  - erewrite bind_ok by (apply rd_u16_be; exact Hk). erewrite bind_ok by (apply rd_u16_be; exact Hv). erewrite bind_ok by (apply rd_u32_be; exact Hc).
    rewrite Hs. cbn [Z.leb Z.compare Pos.compare Pos.compare_cont]. erewrite bind_ok by (apply nullableString_wire; exact Hcl').
    rewrite (Hf eq_refl). reflexivity.
Qed.

(** ** Frames *)
Lemma whole32_ok {A} (p : parser A) s a r : zlen s < 2 ^ 32 -> p s = Ok (a, r) -> whole32 p (frame s) = Ok a.
Proof.
  intros H E. unfold whole32. rewrite zlen_frame. unfold frame. pose proof (zlen_nonneg s).
  rewrite rd_u32_be by (unfold u32; lia). rewrite Z.eqb_refl, E. reflexivity.
Qed.
Lemma any_length_ok {A} (p : parser A) s a r : zlen s < 2 ^ 32 -> p s = Ok (a, r) -> any_length p (frame s) = Ok a.
Proof.
  intros H E. unfold any_length, frame. pose proof (zlen_nonneg s). rewrite rd_u32_be by (unfold u32; lia). rewrite E. reflexivity.
Qed.

(** ** Bodies, with any tagged fields *)
Ltac leaf2 := lazymatch goal with
  | |- rd_i8 _ = _ => apply i8_e; eassumption
  | |- rd_one _ = _ => apply one_e
  | |- _ => leaf
  end.
Ltac st := erewrite bind_ok by leaf2.
Definition sent (flex : bool) (key ver corr : Z) (client : option bytes) (ht : taggedFields) (body : bytes) : bytes :=
  frame (hdr flex key ver corr client ht ++ body).
Definition read_header (flex : bool) (key ver corr : Z) (client : option bytes) : rhdr :=
  mkH (Some (if flex then 2 else 1)) key ver corr client.
(** what is asked of the header fields *)
Definition hdr_ok (flex : bool) (key ver corr : Z) (client : option bytes) (ht : taggedFields) : Prop :=
  hv_switch key ver = Some (if flex then 2 else 1) /\ u16 key /\ u16 ver /\ u32 corr /\ wf_client client /\
  wf TTags ht /\ (flex = false -> ht = []).
Lemma hdr_step {B} flex key ver corr client ht body (k : rhdr * taggedFields -> parser B) : hdr_ok flex key ver corr client ht ->
  bind decodeRequestHeader k (hdr flex key ver corr client ht ++ body) = k (read_header flex key ver corr client, ht) body.
Proof. intros (H1 & H2 & H3 & H4 & H5 & H6 & H7). erewrite bind_ok by (apply header_read; eassumption). reflexivity. Qed.

Lemma pid (A : Type) (l : list A) : map (fun x => x) l = l.
Proof. apply map_id. Qed.
Definition P_apart : ty := TI32 *** TCNArr TI32 *** TTags.
Definition P_atopic : ty := TCStr *** TCNArr P_apart *** TTags.
Definition P_alter : ty := TI32 *** TCNArr P_atopic *** TTags.
Lemma omap_id {A} (o : option (list A)) : option_map (map (fun x => x)) o = o.
Proof. destruct o; cbn; [rewrite map_id|]; reflexivity. Qed.
Lemma apart_read x r : wf P_apart x -> rd_apr_part (enc P_apart x ++ r) = Ok (x, r).
Proof.
  intros H. destruct x as [pid [rs t]]. destruct H as (H1 & H2 & H3). cbn [fst snd] in *. unfold rd_apr_part, P_apart. spread. st.
  erewrite bind_ok by (apply (oarr_null TI32 rd_i32 (fun x => x)); [intros; apply i32_e; assumption|exact H2]). rewrite omap_id. st. reflexivity.
Qed.
Lemma atopic_read x r : wf P_atopic x -> rd_apr_topic (enc P_atopic x ++ r) = Ok (x, r).
Proof.
  intros H. destruct x as [name [ps t]]. destruct H as (H1 & H2 & H3). cbn [fst snd] in *. unfold rd_apr_topic, P_atopic. spread. st.
  erewrite bind_ok by (apply (oarr_null P_apart rd_apr_part (fun x => x)); [intros; apply apart_read; assumption|exact H2]). rewrite omap_id. st. reflexivity.
Qed.
Lemma alter_read key ver corr client ht (x : den P_alter) : hdr_ok true key ver corr client ht -> wf P_alter x ->
  zlen (sent true key ver corr client ht (enc P_alter x)) < 2 ^ 31 ->
  decodeAlterReassign (sent true key ver corr client ht (enc P_alter x)) = Ok ((read_header true key ver corr client, ht), x).
Proof.
  intros Hh H Hl. destruct x as [timeout [ts t]]. destruct H as (H1 & H2 & H3). cbn [fst snd] in *. unfold decodeAlterReassign, sent.
  eapply (whole32_ok _ _ _ []); [apply size_of; exact Hl|]. rewrite hdr_step by exact Hh. rewrite <- (app_nil_r (enc P_alter _)). unfold P_alter. spread. st.
  erewrite bind_ok by (apply (oarr_null P_atopic rd_apr_topic (fun x => x)); [intros; apply atopic_read; assumption|exact H2]). rewrite omap_id. st. reflexivity.
Qed.

(** CreateAcls: what the encoder writes at version 0, 1 and from 2 on *)
Definition P_acl_0 : ty := TI8 *** TStr *** TStr *** TStr *** TI8 *** TI8 *** TTags.
Definition P_acl_1 : ty := TI8 *** TStr *** TI8 *** TStr *** TStr *** TI8 *** TI8 *** TTags.
Definition P_acl_2 : ty := TI8 *** TCStr *** TI8 *** TCStr *** TCStr *** TI8 *** TI8 *** TTags.
Definition got_0 (x : den P_acl_0) : acl * taggedFields :=
  let '(rt, (rn, (pr, (ho, (op, (pe, t)))))) := x in ((rt, (rn, (0, (pr, (ho, (op, pe)))))), t).
Definition got_1 (x : Z * (bytes * (Z * (bytes * (bytes * (Z * (Z * taggedFields))))))) : acl * taggedFields :=
  let '(rt, (rn, (pt, (pr, (ho, (op, (pe, t))))))) := x in ((rt, (rn, (pt, (pr, (ho, (op, pe)))))), t).
Ltac many H := repeat match type of H with _ /\ _ => let J := fresh "J" in destruct H as [J H] end.
Lemma creation_0 x r : wf P_acl_0 x -> rd_creation 1 0 (enc P_acl_0 x ++ r) = Ok (got_0 x, r).
Proof.
  destruct x as [rt [rn [pr [ho [op [pe t]]]]]]. intros (H1 & H2 & H3 & H4 & H5 & H6 & H7). cbn [fst snd] in *. unfold rd_creation, P_acl_0.
  cbn [Z.ltb Z.leb Z.compare Pos.compare Pos.compare_cont]. spread. do 2 st. erewrite bind_ok by reflexivity. do 5 st. reflexivity.
Qed.
Lemma creation_1 ver x r : 1 <= ver -> wf P_acl_1 x -> rd_creation 1 ver (enc P_acl_1 x ++ r) = Ok (got_1 x, r).
Proof.
  destruct x as [rt [rn [pt [pr [ho [op [pe t]]]]]]]. intros Hv (H1 & H2 & H3 & H4 & H5 & H6 & H7 & H8). cbn [fst snd] in *. unfold rd_creation, P_acl_1.
  cbn [Z.ltb Z.compare Pos.compare Pos.compare_cont]. replace (1 <=? ver) with true by lia. spread. do 8 st. reflexivity.
Qed.
Lemma creation_2 ver x r : 1 <= ver -> wf P_acl_2 x -> rd_creation 2 ver (enc P_acl_2 x ++ r) = Ok (got_1 x, r).
Proof.
  destruct x as [rt [rn [pt [pr [ho [op [pe t]]]]]]]. intros Hv (H1 & H2 & H3 & H4 & H5 & H6 & H7 & H8). cbn [fst snd] in *. unfold rd_creation, P_acl_2.
  cbn [Z.ltb Z.compare Pos.compare Pos.compare_cont]. replace (1 <=? ver) with true by lia. spread. do 8 st. reflexivity.
Qed.
Section CreateAcls.
Variables (key ver corr : Z) (client : option bytes) (ht : taggedFields).
Lemma createacls_read (flex : bool) t (g : den t -> acl * taggedFields) (l : list (den t)) tags :
  (forall x r, wf t x -> rd_creation (if flex then 2 else 1) ver (enc t x ++ r) = Ok (g x, r)) ->
  hdr_ok flex key ver corr client ht -> arr_wf t l -> wf TTags tags ->
  zlen (sent flex key ver corr client ht (arr_enc flex t l ++ enc TTags tags)) < 2 ^ 31 ->
  decodeCreateAcls (sent flex key ver corr client ht (arr_enc flex t l ++ enc TTags tags)) =
  Ok ((read_header flex key ver corr client, ht), (map g l, tags)).
Proof.
  intros He Hh Hl Ht Hz. unfold decodeCreateAcls, sent. eapply (whole32_ok _ _ _ []); [apply size_of; exact Hz|].
  rewrite hdr_step by exact Hh. cbv beta iota. rewrite <- (app_nil_r (enc TTags tags)).
  unfold h_version, read_header. cbn [h_hv h_ver]. replace (negb ((if flex then 2 else 1) <? 2)) with flex by (destruct flex; reflexivity).
  erewrite bind_ok by (apply marr_e; [exact He|exact Hl]). st. reflexivity.
Qed.
End CreateAcls.

(** DeleteAcls: the layout the decoder understands has tagged fields at every version *)
Definition P_aclf_0 : ty := TI8 *** TNStr *** TNStr *** TNStr *** TI8 *** TI8 *** TTags.
Definition P_aclf_1 : ty := TI8 *** TNStr *** TI8 *** TNStr *** TNStr *** TI8 *** TI8 *** TTags.
Definition P_aclf_2 : ty := TI8 *** TCNStr *** TI8 *** TCNStr *** TCNStr *** TI8 *** TI8 *** TTags.
Definition gotf_1 (x : Z * (option bytes * (Z * (option bytes * (option bytes * (Z * (Z * taggedFields))))))) : aclf * taggedFields :=
  let '(rt, (rn, (pt, (pr, (ho, (op, (pe, t))))))) := x in ((rt, (rn, (pt, (pr, (ho, (op, pe)))))), t).
Lemma filter_2 ver x r : 1 <= ver -> wf P_aclf_2 x -> rd_filter true ver (enc P_aclf_2 x ++ r) = Ok (gotf_1 x, r).
Proof.
  destruct x as [rt [rn [pt [pr [ho [op [pe t]]]]]]]. intros Hv (H1 & H2 & H3 & H4 & H5 & H6 & H7 & H8). cbn [fst snd] in *. unfold rd_filter, P_aclf_2.
  replace (1 <=? ver) with true by lia. spread. do 8 st. reflexivity.
Qed.
Lemma deleteacls_read key ver corr client ht (l : list (den P_aclf_2)) rest : 1 <= ver ->
  hdr_ok true key ver corr client ht -> wf (TCArr P_aclf_2) l ->
  zlen (sent true key ver corr client ht (enc (TCArr P_aclf_2) l ++ rest)) < 2 ^ 31 ->
  decodeDeleteAcls (sent true key ver corr client ht (enc (TCArr P_aclf_2) l ++ rest)) =
  Ok ((read_header true key ver corr client, ht), Some (map gotf_1 l)).
Proof.
  intros Hv Hh Hl Hz. unfold decodeDeleteAcls, sent. eapply (whole32_ok _ _ _ rest); [apply size_of; exact Hz|].
  rewrite hdr_step by exact Hh. cbv beta iota. unfold h_version, read_header. cbn [h_hv h_ver].
  change (flexible 2) with true. erewrite bind_ok by (apply oarr_true; [intros x r; apply filter_2; exact Hv|exact Hl]). reflexivity.
Qed.

(** DescribeAcls *)
Lemma describeacls_read_0 key ver corr client ht (x : den S_DescribeAcls_0) rest (flex : bool) :
  hdr_ok flex key ver corr client ht -> wf S_DescribeAcls_0 x ->
  zlen (sent flex key ver corr client ht (enc S_DescribeAcls_0 x ++ rest)) < 2 ^ 31 ->
  decodeDescribeAcls 0 (sent flex key ver corr client ht (enc S_DescribeAcls_0 x ++ rest)) =
  Ok ((read_header flex key ver corr client, ht),
      let '(rt, (rn, (pr, (ho, (op, pe))))) := x in (rt, (rn, (0, (pr, (ho, (op, pe))))))).
Proof.
  destruct x as [rt [rn [pr [ho [op pe]]]]]. intros Hh (H1 & H2 & H3 & H4 & H5 & H6) Hz. cbn [fst snd] in *. unfold decodeDescribeAcls, sent, S_DescribeAcls_0.
  eapply (any_length_ok _ _ _ rest); [apply size_of; exact Hz|]. rewrite hdr_step by exact Hh. cbn [Z.ltb Z.leb Z.compare Pos.compare Pos.compare_cont].
  spread. do 2 st. erewrite bind_ok by reflexivity. do 4 st. reflexivity.
Qed.
Lemma describeacls_read_1 key ver corr client ht (x : den S_DescribeAcls_1) rest (flex : bool) :
  hdr_ok flex key ver corr client ht -> wf S_DescribeAcls_1 x ->
  zlen (sent flex key ver corr client ht (enc S_DescribeAcls_1 x ++ rest)) < 2 ^ 31 ->
  decodeDescribeAcls 1 (sent flex key ver corr client ht (enc S_DescribeAcls_1 x ++ rest)) = Ok ((read_header flex key ver corr client, ht), x).
Proof.
  destruct x as [rt [rn [pt [pr [ho [op pe]]]]]]. intros Hh (H1 & H2 & H3 & H4 & H5 & H6 & H7) Hz. cbn [fst snd] in *. unfold decodeDescribeAcls, sent, S_DescribeAcls_1.
  eapply (any_length_ok _ _ _ rest); [apply size_of; exact Hz|]. rewrite hdr_step by exact Hh. cbn [Z.ltb Z.leb Z.compare Pos.compare Pos.compare_cont].
  spread. do 7 st. reflexivity.
Qed.
Definition P_DescribeAcls_2 : ty := TI8 *** TCNStr *** TI8 *** TCNStr *** TCNStr *** TI8 *** TI8.
Lemma describeacls_read_2 key ver corr client ht (x : den P_DescribeAcls_2) rest (flex : bool) v : 2 <= v ->
  hdr_ok flex key ver corr client ht -> wf P_DescribeAcls_2 x ->
  zlen (sent flex key ver corr client ht (enc P_DescribeAcls_2 x ++ rest)) < 2 ^ 31 ->
  decodeDescribeAcls v (sent flex key ver corr client ht (enc P_DescribeAcls_2 x ++ rest)) = Ok ((read_header flex key ver corr client, ht), x).
Proof.
  destruct x as [rt [rn [pt [pr [ho [op pe]]]]]]. intros Hv Hh (H1 & H2 & H3 & H4 & H5 & H6 & H7) Hz. cbn [fst snd] in *. unfold decodeDescribeAcls, sent, P_DescribeAcls_2.
  eapply (any_length_ok _ _ _ rest); [apply size_of; exact Hz|]. rewrite hdr_step by exact Hh. replace (v <? 2) with false by lia. replace (1 <=? v) with true by lia.
  spread. do 7 st. reflexivity.
Qed.

(** IncrementalAlterConfigs *)
Lemma some_str s : enc TNStr (Some s) = enc TStr s.
Proof. reflexivity. Qed.
Definition P_icfg : ty := TStr *** TI8 *** TStr.
Definition P_ires : ty := TI8 *** TStr *** TArr P_icfg.
Lemma icfg_read x r : wf P_icfg x ->
  (name <- rd_str ;; op <- rd_i8 ;; value <- rd_str ;; ret (name, (op, value))) (enc P_icfg x ++ r) = Ok (x, r).
Proof. destruct x as [a [b c]]. intros (H1 & H2 & H3). cbn [fst snd] in *. unfold P_icfg. spread. do 3 st. reflexivity. Qed.
Lemma arr_in {B} t (p : parser B) (g : den t -> B) (l : list (den t)) r : @zlen (den t) l < 2 ^ 31 ->
  (forall x r, In x l -> p (enc t x ++ r) = Ok (g x, r)) -> rd_arr p (enc (TArr t) l ++ r) = Ok (map g l, r).
Proof.
  intros Hl H. pose proof (zlen_nonneg l). unfold rd_arr. cbn [enc]. rewrite <- app_assoc.
  erewrite bind_ok by (apply rd_u32_be; unfold u32; lia). unfold rd_make. destruct (Z.ltb_spec (zlen l) 0); [lia|]. apply n_e; auto.
Qed.
Lemma skip_app a b : rd_skip (length a) (a ++ b) = Ok (tt, b).
Proof. unfold rd_skip. rewrite app_length, skipn_app, skipn_all, Nat.sub_diag. destruct (Nat.leb_spec (length a) (length a + length b)); [reflexivity|lia]. Qed.
Definition ires_ok (x : den P_ires) : Prop := 0 <= fst x < 256 /\ wf TStr (fst (snd x)) /\ wf (TArr P_icfg) (snd (snd x)).
Lemma incremental_read key ver corr client ht (flex : bool) (x : list (den P_ires)) (b : bool) rest :
  hdr_ok flex key ver corr client ht -> @zlen (den P_ires) x < 2 ^ 31 -> Forall ires_ok x ->
  decodeIncremental (sent flex key ver corr client ht (enc (TArr P_ires *** TBool) (x, b) ++ rest)) =
  Ok ((read_header flex key ver corr client, ht), (x, b)).
Proof.
  intros Hh Hx Hp. unfold decodeIncremental, sent, frame. rewrite Forall_forall in Hp.
  match goal with |- context [be 4 ?n ++ ?s] => set (m := n); set (body := s) end.
  erewrite bind_ok by (exact (skip_app (be 4 m) body)). unfold body. rewrite hdr_step by exact Hh. cbv beta iota. spread.
  erewrite bind_ok.
  2:{ apply (arr_in P_ires _ (fun x => x)); [exact Hx|]. intros [rt [rn es]] r Hin. destruct (Hp _ Hin) as (H1 & H2 & H3). cbn [fst snd] in *. unfold P_ires. spread.
      erewrite bind_ok by (apply u8_e). replace (as_u 8 rt) with rt by (symmetry; apply Z.mod_small; exact H1).
      st. erewrite bind_ok by (apply (arr_e P_icfg _ (fun x => x)); [intros; apply icfg_read; assumption|exact H3]). rewrite map_id. reflexivity. }
  rewrite map_id. st. reflexivity.
Qed.

(** ListGroups *)
Lemma listgroups_read key ver corr client ht (states types : option (list bytes)) tags : 0 <= ver ->
  hdr_ok (3 <=? ver) key ver corr client ht -> wf (TCNArr TCStr) states -> wf (TCNArr TCStr) types -> wf TTags tags ->
  let body := if 5 <=? ver then enc (TCNArr TCStr *** TCNArr TCStr *** TTags) (states, (types, tags))
              else if 4 <=? ver then enc (TCNArr TCStr *** TTags) (states, tags)
              else if 3 <=? ver then enc TTags tags else [] in
  zlen (sent (3 <=? ver) key ver corr client ht body) < 2 ^ 31 ->
  decodeListGroups (sent (3 <=? ver) key ver corr client ht body) =
  Ok ((read_header (3 <=? ver) key ver corr client, ht),
      (if 4 <=? ver then states else None, (if 5 <=? ver then types else None, if 3 <=? ver then tags else []))).
Proof.
  intros Hv Hh Hs Ht Htg body Hz. unfold decodeListGroups, sent. eapply (whole_ok _ _ _ []); [apply size_of; exact Hz|].
  rewrite hdr_step by exact Hh. cbv beta iota. unfold h_version, read_header. cbn [h_hv h_ver].
  assert (F : forall o r, wf (TCNArr TCStr) o -> rd_lg_filter true (enc (TCNArr TCStr) o ++ r) = Ok (o, r)).
  { intros o r Ho. unfold rd_lg_filter. erewrite (oarr_null TCStr compactString (fun x => x)); [rewrite omap_id; reflexivity| |exact Ho].
    intros; apply compactString_wire; assumption. }
  unfold body. rewrite <- (app_nil_r (if 5 <=? ver then _ else _)).
  destruct (Z.leb_spec 5 ver); [|destruct (Z.leb_spec 4 ver); [|destruct (Z.leb_spec 3 ver)]].
  - replace (4 <=? ver) with true by lia. replace (3 <=? ver) with true by lia. change (flexible 2) with true. cbv beta iota zeta.
    spread. erewrite bind_ok by (apply F; exact Hs). erewrite bind_ok by (apply F; exact Ht). st. reflexivity.
  - replace (3 <=? ver) with true by lia. change (flexible 2) with true. cbv beta iota zeta.
    spread. erewrite bind_ok by (apply F; exact Hs). erewrite bind_ok by reflexivity. st. reflexivity.
  - change (flexible 2) with true. cbv beta iota zeta. erewrite bind_ok by reflexivity. erewrite bind_ok by reflexivity. st. reflexivity.
  - reflexivity.
Qed.

(** Metadata *)
Lemma metadata_read key ver corr client ht (flex : bool) (ts : list bytes) (b : bool) rest :
  hdr_ok flex key ver corr client ht -> wf (TArr TStr) ts ->
  zlen (sent flex key ver corr client ht (enc (TArr TStr) ts ++ (if 4 <=? ver then enc TBool b else []) ++ rest)) < 2 ^ 31 ->
  decodeMetadata (sent flex key ver corr client ht (enc (TArr TStr) ts ++ (if 4 <=? ver then enc TBool b else []) ++ rest)) =
  Ok ((read_header flex key ver corr client, ht), (ts, if 4 <=? ver then b else false)).
Proof.
  intros Hh Hx Hz. unfold decodeMetadata, sent. eapply (any_length_ok _ _ _ rest); [apply size_of; exact Hz|].
  rewrite hdr_step by exact Hh. cbv beta iota. erewrite bind_ok by (apply (arr_e TStr rd_str (fun x => x)); [intros; apply str_e; assumption|exact Hx]).
  rewrite map_id. unfold read_header. cbn [h_ver]. destruct (4 <=? ver); [st|]; reflexivity.
Qed.
