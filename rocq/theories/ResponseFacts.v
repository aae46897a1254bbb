(** The response decoders read what the protocol's layouts write. *)
From Verif Require Import Base BaseFacts Wire WireFacts Prims PrimsFacts Group GroupFacts Assign SortFacts RequestSpec Responses ResponseSpec.

(** ** Leaves *)
Lemma enc_pair a b (x : den a) (y : den b) : enc (TPair a b) (x, y) = enc a x ++ enc b y.
Proof. reflexivity. Qed.
Lemma i16_e x r : wf TI16 x -> rd_i16 (enc TI16 x ++ r) = Ok (x, r).
Proof. exact (rd_i16_be x r). Qed.
Lemma i32_e x r : wf TI32 x -> rd_i32 (enc TI32 x ++ r) = Ok (x, r).
Proof. exact (rd_i32_be x r). Qed.
Lemma i64_e x r : wf TI64 x -> rd_i64 (enc TI64 x ++ r) = Ok (x, r).
Proof. exact (rd_i64_be x r). Qed.
Lemma u8_e x r : rd_u8 (enc TI8 x ++ r) = Ok (as_u 8 x, r).
Proof. exact (rd_u_be 1 x r). Qed.
Lemma u16_e x r : rd_u16 (enc TI16 x ++ r) = Ok (as_u 16 x, r).
Proof. exact (rd_u_be 2 x r). Qed.
Lemma u32_e x r : rd_u32 (enc TI32 x ++ r) = Ok (as_u 32 x, r).
Proof. exact (rd_u_be 4 x r). Qed.
Lemma bool_e x r : rd_bool (enc TBool x ++ r) = Ok (x, r).
Proof. destruct x; reflexivity. Qed.
Lemma p15_16 : 2 ^ 15 < 2 ^ 16. Proof. reflexivity. Qed.
Lemma p31_32 : 2 ^ 31 < 2 ^ 32. Proof. reflexivity. Qed.
Lemma str_e x r : wf TStr x -> rd_str (enc TStr x ++ r) = Ok (x, r).
Proof. exact (nonnullableString_wire x r). Qed.
Lemma istr_e x r : wf TStr x -> rd_istr (enc TStr x ++ r) = Ok (x, r).
Proof.
  cbn [wf enc]. intros H. unfold rd_istr. rewrite <- app_assoc. pose proof (zlen_nonneg x).
  erewrite bind_ok by (apply rd_i16_be; unfold i16; lia). apply rd_bytes_app.
Qed.
Lemma ostr_str x r : wf TStr x -> rd_ostr (enc TStr x ++ r) = Ok (x, r).
Proof.
  cbn [wf enc]. intros H. unfold rd_ostr. rewrite <- app_assoc. pose proof (zlen_nonneg x).
  erewrite bind_ok by (apply rd_i16_be; unfold i16; lia).
  destruct (Z.ltb_spec 0 (zlen x)); [apply rd_bytes_app|].
  destruct x; [reflexivity|]. rewrite zlen_cons in *. pose proof (zlen_nonneg x). lia.
Qed.
Lemma ostr_e x r : wf TNStr x -> rd_ostr (enc TNStr x ++ r) = Ok (or_empty x, r).
Proof.
  destruct x as [s|]; [exact (ostr_str s r)|]. intros _. reflexivity.
Qed.
Lemma str_some x r : wf TNStr x -> x <> None -> rd_str (enc TNStr x ++ r) = Ok (or_empty x, r).
Proof. destruct x as [s|]; [|congruence]. intros H _. exact (str_e s r H). Qed.
Lemma blob_e x r : wf TBytes x -> rd_blob (enc TBytes x ++ r) = Ok (x, r).
Proof.
  cbn [wf enc]. intros H. unfold rd_blob. rewrite <- app_assoc. pose proof (zlen_nonneg x). pose proof p31_32.
  erewrite bind_ok by (apply rd_u32_be; unfold u32; lia). apply rd_bytes_app.
Qed.

(** ** Arrays *)
Lemma make_e {B} t (p : parser B) (g : den t -> B) (Q : den t -> Prop) (l : list (den t)) r :
  (forall x r, wf t x -> Q x -> p (enc t x ++ r) = Ok (g x, r)) -> Forall (wf t) l -> Forall Q l ->
  rd_make (zlen l) p (flat_map (enc t) l ++ r) = Ok (map g l, r).
Proof.
  intros H Hw HQ. apply rd_make_map. intros x r' Hx. rewrite Forall_forall in Hw, HQ. apply H; auto.
Qed.
Lemma arr_q {B} t (p : parser B) (g : den t -> B) (Q : den t -> Prop) (l : list (den t)) r :
  (forall x r, wf t x -> Q x -> p (enc t x ++ r) = Ok (g x, r)) -> wf (TArr t) l -> Forall Q l ->
  rd_arr p (enc (TArr t) l ++ r) = Ok (map g l, r).
Proof.
  cbn [wf enc]. intros H [Hl Hw] HQ. unfold rd_arr. rewrite <- app_assoc. pose proof (zlen_nonneg l). pose proof p31_32.
  erewrite bind_ok by (apply rd_u32_be; unfold u32; lia). eapply make_e; eauto.
Qed.
Lemma iarr_q {B} t (p : parser B) (g : den t -> B) (Q : den t -> Prop) (l : list (den t)) r :
  (forall x r, wf t x -> Q x -> p (enc t x ++ r) = Ok (g x, r)) -> wf (TArr t) l -> Forall Q l ->
  rd_iarr p (enc (TArr t) l ++ r) = Ok (map g l, r).
Proof.
  cbn [wf enc]. intros H [Hl Hw] HQ. unfold rd_iarr. rewrite <- app_assoc. pose proof (zlen_nonneg l).
  erewrite bind_ok by (apply rd_i32_be; unfold i32; lia). eapply make_e; eauto.
Qed.
Lemma carr_q {B} t (p : parser B) (g : den t -> B) (Q : den t -> Prop) (l : list (den t)) r :
  (forall x r, wf t x -> Q x -> p (enc t x ++ r) = Ok (g x, r)) -> wf (TCArr t) l -> Forall Q l ->
  rd_carr p (enc (TCArr t) l ++ r) = Ok (map g l, r).
Proof.
  cbn [wf enc]. intros H [Hl Hw] HQ. unfold rd_carr. rewrite <- app_assoc. pose proof (zlen_nonneg l).
  erewrite bind_ok by (apply compactArrayLength_wire; lia). eapply make_e; eauto.
Qed.
Lemma opt_carr_q {B} t (p : parser B) (g : den t -> B) (Q : den t -> Prop) (l : list (den t)) r :
  (forall x r, wf t x -> Q x -> p (enc t x ++ r) = Ok (g x, r)) -> wf (TCArr t) l -> Forall Q l ->
  rd_opt_carr p (enc (TCArr t) l ++ r) = Ok (Some (map g l), r).
Proof.
  cbn [wf enc]. intros H [Hl Hw] HQ. unfold rd_opt_carr. rewrite <- app_assoc. pose proof (zlen_nonneg l).
  erewrite bind_ok by (apply compactArrayLength_wire; lia).
  destruct (Z.ltb_spec (zlen l) 0); [lia|]. erewrite bind_ok by (eapply make_e; eauto). reflexivity.
Qed.
Lemma carr_pos_q {B} t (p : parser B) (g : den t -> B) (Q : den t -> Prop) (l : list (den t)) r :
  (forall x r, wf t x -> Q x -> p (enc t x ++ r) = Ok (g x, r)) -> wf (TCArr t) l -> Forall Q l ->
  rd_carr_pos p (enc (TCArr t) l ++ r) = Ok (map g l, r).
Proof.
  cbn [wf enc]. intros H [Hl Hw] HQ. unfold rd_carr_pos. rewrite <- app_assoc. pose proof (zlen_nonneg l).
  erewrite bind_ok by (apply compactArrayLength_wire; lia).
  destruct (Z.ltb_spec 0 (zlen l)); [eapply make_e; eauto|].
  destruct l; [reflexivity|]. rewrite zlen_cons in *. pose proof (zlen_nonneg l). lia.
Qed.
Lemma all_true {A} (l : list A) : Forall (fun _ => True) l.
Proof. apply Forall_forall. trivial. Qed.
Lemma arr_e {B} t (p : parser B) (g : den t -> B) (l : list (den t)) r :
  (forall x r, wf t x -> p (enc t x ++ r) = Ok (g x, r)) -> wf (TArr t) l -> rd_arr p (enc (TArr t) l ++ r) = Ok (map g l, r).
Proof. intros H Hw. apply (arr_q t p g (fun _ => True)); auto using all_true. Qed.
Lemma iarr_e {B} t (p : parser B) (g : den t -> B) (l : list (den t)) r :
  (forall x r, wf t x -> p (enc t x ++ r) = Ok (g x, r)) -> wf (TArr t) l -> rd_iarr p (enc (TArr t) l ++ r) = Ok (map g l, r).
Proof. intros H Hw. apply (iarr_q t p g (fun _ => True)); auto using all_true. Qed.
Lemma carr_e {B} t (p : parser B) (g : den t -> B) (l : list (den t)) r :
  (forall x r, wf t x -> p (enc t x ++ r) = Ok (g x, r)) -> wf (TCArr t) l -> rd_carr p (enc (TCArr t) l ++ r) = Ok (map g l, r).
Proof. intros H Hw. apply (carr_q t p g (fun _ => True)); auto using all_true. Qed.
Lemma arr_i32 (l : list Z) r : wf (TArr TI32) l -> rd_arr rd_i32 (enc (TArr TI32) l ++ r) = Ok (l, r).
Proof. intros H. rewrite (arr_e TI32 rd_i32 (fun x => x)) by (auto using i32_e). rewrite map_id. reflexivity. Qed.
Lemma arr_i64 (l : list Z) r : wf (TArr TI64) l -> rd_arr rd_i64 (enc (TArr TI64) l ++ r) = Ok (l, r).
Proof. intros H. rewrite (arr_e TI64 rd_i64 (fun x => x)) by (auto using i64_e). rewrite map_id. reflexivity. Qed.
Lemma carr_i32 (l : list Z) r : wf (TCArr TI32) l -> rd_carr_pos rd_i32 (enc (TCArr TI32) l ++ r) = Ok (l, r).
Proof.
  intros H. rewrite (carr_pos_q TI32 rd_i32 (fun x => x) (fun _ => True)) by (auto using i32_e, all_true). rewrite map_id. reflexivity.
Qed.
Lemma arr_id {B} t (p : parser B) (e : den t -> B) (l : list (den t)) r :
  (forall x r, wf t x -> p (enc t x ++ r) = Ok (e x, r)) -> wf (TArr t) l -> rd_arr p (enc (TArr t) l ++ r) = Ok (map e l, r).
Proof. exact (arr_e t p e l r). Qed.

(** ** Whole responses *)
Lemma zlen_frame s : zlen (frame s) = zlen s + 4.
Proof. unfold frame. rewrite zlen_app, zlen_be. lia. Qed.
Lemma whole_eq {A} (p : parser A) s : zlen s < 2 ^ 32 ->
  whole p (frame s) = match p s with Ok (a, _) => Ok a | Err e => Err e | Panic => Panic | Unspec => Unspec end.
Proof.
  intros H. unfold whole. rewrite zlen_frame. unfold frame. pose proof (zlen_nonneg s).
  rewrite rd_u32_be by (unfold u32; lia). rewrite Z.eqb_refl. reflexivity.
Qed.
Lemma whole_ok {A} (p : parser A) s a r : zlen s < 2 ^ 32 -> p s = Ok (a, r) -> whole p (frame s) = Ok a.
Proof. intros H E. rewrite whole_eq, E by exact H. reflexivity. Qed.

(** ** Errors *)
Definition zeros (cs : list Z) : Prop := Forall (fun c => c = 0) cs.
Definition nonzero (cs : list Z) : Prop := Exists (fun c => c <> 0) cs.
Definition reports (cs : list Z) (o : option err) : Prop :=
  (zeros cs -> o = None) /\ (nonzero cs -> exists e c, o = Some e /\ err_code e = Some c /\ In c cs /\ c <> 0).
Lemma find_zeros cs : zeros cs -> find (fun c => negb (c =? 0)) cs = None.
Proof. induction 1; [reflexivity|]. subst. cbn. assumption. Qed.
Lemma find_nonzero cs : nonzero cs -> exists c, find (fun c => negb (c =? 0)) cs = Some c /\ In c cs /\ c <> 0.
Proof.
  intros H. destruct (find (fun c => negb (c =? 0)) cs) eqn:E.
  - apply find_some in E. destruct E as [E1 E2]. exists z. repeat split; auto. destruct (Z.eqb_spec z 0); [discriminate|auto].
  - apply Exists_exists in H. destruct H as [x [Hx Hn]]. pose proof (find_none _ _ E x Hx) as F. cbn in F.
    destruct (Z.eqb_spec x 0); [congruence|discriminate].
Qed.
Lemma reports_first_code cs : reports cs (first_code cs).
Proof.
  unfold first_code. split; intros H; [rewrite find_zeros by exact H; reflexivity|].
  destruct (find_nonzero cs H) as [c [E [Hi Hc]]]. rewrite E. exists (EKafka c), c. auto.
Qed.
Lemma reports_first_wrapped cs : reports cs (first_wrapped cs).
Proof.
  unfold first_wrapped. split; intros H; [rewrite find_zeros by exact H; reflexivity|].
  destruct (find_nonzero cs H) as [c [E [Hi Hc]]]. rewrite E. exists (EWrap (EKafka c)), c. auto.
Qed.
Lemma reports_first_text cs : reports cs (first_text cs).
Proof.
  unfold first_text. split; intros H; [rewrite find_zeros by exact H; reflexivity|].
  destruct (find_nonzero cs H) as [c [E [Hi Hc]]]. rewrite E. exists (EUnknownCode c), c. auto.
Qed.
Lemma reports_code_error c : reports [c] (code_error c).
Proof.
  unfold code_error. split; intros H.
  - inversion H; subst. reflexivity.
  - assert (c <> 0) by (inversion H as [? ? H1|? ? H1]; subst; [exact H1|inversion H1]).
    destruct (Z.eqb_spec c 0); [congruence|]. destruct (known_code c); eexists _, c; cbn; auto.
Qed.
Lemma reports_kafka_error c : reports [c] (kafka_error c).
Proof.
  unfold kafka_error. split; intros H.
  - inversion H; subst. reflexivity.
  - assert (c <> 0) by (inversion H as [? ? H1|? ? H1]; subst; [exact H1|inversion H1]).
    destruct (Z.eqb_spec c 0); [congruence|]. eexists _, c; cbn; auto.
Qed.
Lemma first_message_told cs : Forall (fun p => told (fst p) (snd p)) cs ->
  exists o, first_message cs = Ok o /\ reports (map fst cs) o.
Proof.
  induction 1 as [|[c m] t H Ht IH]; cbn [first_message map fst snd] in *.
  - exists None. split; [reflexivity|]. split; [auto|]. intros H. inversion H.
  - destruct (Z.eqb_spec c 0) as [->|Hc].
    + destruct IH as [o [E [Hz Hn]]]. exists o. split; [exact E|]. split.
      * intros Z0. inversion Z0; auto.
      * intros N. inversion N as [? ? B|? ? B]; subst; [congruence|]. destruct (Hn B) as [e [c [? [? [? ?]]]]].
        exists e, c. repeat split; auto. right; assumption.
    + destruct m as [m|]; [|destruct (H Hc); reflexivity]. exists (Some (EWrap (EKafka c))). split; [reflexivity|]. split.
      * intros Z0. inversion Z0; congruence.
      * intros _. exists (EWrap (EKafka c)), c. cbn; auto.
Qed.
Lemma with_err_eq {A} o (a : A) r : with_err o a r = match o with None => Ok (a, r) | Some e => Err e end.
Proof. destruct o; reflexivity. Qed.

(** What is to be proved of an API and version *)
Definition handled (key v : Z) (sp : rspec) : Prop :=
  forall corr ht x, u32 corr -> wf TTags ht -> (rflexible key v = false -> ht = []) -> wf (s_ty sp) x -> s_ok sp ht x ->
  zlen (response_bytes key v corr ht (enc (s_ty sp) x)) < 2 ^ 31 ->
  let a := answer key v (response_bytes key v corr ht (enc (s_ty sp) x)) in
  (zeros (s_codes sp x) -> exists r, a = Ok r /\ s_shown sp corr ht x r) /\
  (nonzero (s_codes sp x) -> exists e c, a = Err e /\ err_code e = Some c /\ In c (s_codes sp x) /\ c <> 0).

Lemma answer_value key v data r cs o (P : response -> Prop) : parse key v data = Ok r -> P r ->
  response_error r = Ok o -> reports cs o ->
  (zeros cs -> exists r, answer key v data = Ok r /\ P r) /\
  (nonzero cs -> exists e c, answer key v data = Err e /\ err_code e = Some c /\ In c cs /\ c <> 0).
Proof.
  intros E HP Eo [Hz Hn]. unfold answer. rewrite E, Eo. split; intros H.
  - rewrite (Hz H). eauto.
  - destruct (Hn H) as [e [c [-> ?]]]. eauto.
Qed.
Lemma answer_checked key v data r cs o o' (P : response -> Prop) :
  parse key v data = match o with None => Ok r | Some e => Err e end -> P r -> reports cs o ->
  response_error r = Ok o' -> reports cs o' ->
  (zeros cs -> exists r, answer key v data = Ok r /\ P r) /\
  (nonzero cs -> exists e c, answer key v data = Err e /\ err_code e = Some c /\ In c cs /\ c <> 0).
Proof.
  intros E HP [Hz Hn] Eo [Hz' Hn']. unfold answer. rewrite E. split; intros H.
  - rewrite (Hz H), Eo, (Hz' H). eauto.
  - destruct (Hn H) as [e [c [-> [? [? ?]]]]]. exists (EWrap e), c. auto.
Qed.

(** ** Tactics *)
Ltac ifs := repeat match goal with
  | |- context [if ?b then _ else _] =>
      let b' := eval vm_compute in b in
      match b' with true => change b with true | false => change b with false end; cbv iota
  end.
Ltac wfs := match goal with H : wf _ _ |- _ => exact H | _ => idtac end.
Ltac leaf := lazymatch goal with
  | |- rd_u32 (be 4 _ ++ _) = _ => apply rd_u32_be; eassumption
  | |- rd_i16 _ = _ => apply i16_e; eassumption
  | |- rd_i32 (enc TI32 _ ++ _) = _ => apply i32_e; eassumption
  | |- rd_i64 _ = _ => apply i64_e; eassumption
  | |- rd_u8 _ = _ => apply u8_e
  | |- rd_u16 _ = _ => apply u16_e
  | |- rd_u32 (enc TI32 _ ++ _) = _ => apply u32_e
  | |- rd_bool _ = _ => apply bool_e
  | |- rd_str _ = _ => apply str_e; eassumption
  | |- rd_istr _ = _ => apply istr_e; eassumption
  | |- rd_ostr _ = _ => first [apply ostr_e; eassumption | apply ostr_str; eassumption]
  | |- rd_blob _ = _ => apply blob_e; eassumption
  | |- rd_arr rd_i32 _ = _ => apply arr_i32; eassumption
  | |- rd_arr rd_i64 _ = _ => apply arr_i64; eassumption
  | |- rd_carr_pos rd_i32 _ = _ => apply carr_i32; eassumption
  | |- nonnullableString _ = _ => apply nonnullableString_wire; eassumption
  | |- compactString _ = _ => apply compactString_wire; eassumption
  | |- nullableString _ = _ => apply nullableString_wire; eassumption
  | |- compactNullableString _ = _ => apply compactNullableString_wire; eassumption
  | |- decodeTaggedFields _ = _ => apply decodeTaggedFields_wire; eassumption
  | |- ret _ _ = _ => reflexivity
  end.
Ltac step1 := erewrite bind_ok by leaf.
Ltac open_pairs := repeat match goal with
  | x : den ?T |- _ => is_const T; unfold T in *
  | x : den (TPair _ _) |- _ => destruct x
  | x : (_ * _)%type |- _ => destruct x
  | H : wf (TPair _ _) _ |- _ => destruct H
  | H : _ /\ _ |- _ => destruct H
  end; cbn [fst snd] in *.
Ltac spread := repeat rewrite enc_pair; rewrite <- ?app_assoc.
