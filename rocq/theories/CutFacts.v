(** Decoders do not look behind what they read. *)
From Verif Require Import Base BaseFacts Wire WireFacts Prims PrimsFacts Group Assign RequestSpec Responses ResponseSpec ResponseFacts CutSpec.

(** What is decided by s stays decided when more follows. *)
Definition stable {A} (p : parser A) : Prop := forall s t,
  match p s with
  | Ok (a, r) => p (s ++ t) = Ok (a, r ++ t)
  | Err e => p (s ++ t) = Err e
  | Panic => True
  | Unspec => p (s ++ t) = Unspec
  end.

Lemma st_ret {A} (a : A) : stable (ret a).
Proof. intros s t. reflexivity. Qed.
Lemma st_fail {A} e : stable (@fail A e).
Proof. intros s t. reflexivity. Qed.
Lemma st_panic {A} : stable (@panic A).
Proof. intros s t. exact Logic.I. Qed.
Lemma st_unspec {A} : stable (fun _ => @Unspec (A * bytes)).
Proof. intros s t. reflexivity. Qed.
Lemma st_bind {A B} (p : parser A) (k : A -> parser B) : stable p -> (forall a, stable (k a)) -> stable (bind p k).
Proof.
  intros Hp Hk s t. unfold bind. specialize (Hp s t). destruct (p s) as [[a r]|e| |]; try exact Logic.I; rewrite Hp; try reflexivity.
  apply Hk.
Qed.
Lemma st_u n : stable (rd_u n).
Proof.
  intros s t. unfold rd_u. destruct (Nat.leb_spec n (length s)) as [L|L]; [|exact Logic.I].
  rewrite app_length. destruct (Nat.leb_spec n (length s + length t)) as [L'|L']; [|lia].
  rewrite firstn_app, skipn_app. replace (n - length s)%nat with O by lia. cbn [firstn skipn]. rewrite app_nil_r. reflexivity.
Qed.
Lemma st_i n : stable (rd_i n).
Proof.
  intros s t. unfold rd_i. pose proof (st_u n s t) as H. destruct (rd_u n s) as [[a r]|e| |]; try exact Logic.I; rewrite H; reflexivity.
Qed.
Lemma st_peek n : stable (rd_peek n).
Proof.
  intros s t. unfold rd_peek. pose proof (st_u n s t) as H. destruct (rd_u n s) as [[a r]|e| |]; try exact Logic.I; rewrite H; reflexivity.
Qed.
Lemma st_stay {A} (p : parser A) : stable p -> stable (rd_stay p).
Proof.
  intros Hp s t. unfold rd_stay. pose proof (Hp s t) as H. destruct (p s) as [[a r]|e| |]; try exact Logic.I; rewrite H; reflexivity.
Qed.
Lemma st_skip n : stable (rd_skip n).
Proof.
  intros s t. unfold rd_skip. destruct (Nat.leb_spec n (length s)) as [L|L]; [|exact Logic.I].
  rewrite app_length. destruct (Nat.leb_spec n (length s + length t)) as [L'|L']; [|lia].
  rewrite skipn_app. replace (n - length s)%nat with O by lia. reflexivity.
Qed.
Lemma st_bytes n : stable (rd_bytes n).
Proof.
  intros s t. unfold rd_bytes. destruct ((n <? 0) || (zlen s <? n)) eqn:E; [exact Logic.I|].
  apply orb_false_iff in E. destruct E as [E1 E2]. rewrite Z.ltb_ge in E1, E2. unfold zlen in *.
  replace ((n <? 0) || (Z.of_nat (length (s ++ t)) <? n)) with false.
  - rewrite firstn_app, skipn_app. replace (Z.to_nat n - length s)%nat with O by lia. cbn [firstn skipn]. rewrite app_nil_r. reflexivity.
  - symmetry. apply orb_false_iff. rewrite !Z.ltb_ge, app_length. lia.
Qed.
Lemma st_n {A} n (p : parser A) : stable p -> stable (rd_n n p).
Proof. intros H. induction n as [|n IH]; [apply st_ret|]. cbn [rd_n]. apply st_bind; [exact H|]. intros a. apply st_bind; [exact IH|]. intros b. apply st_ret. Qed.
Lemma st_make {A} n (p : parser A) : stable p -> stable (rd_make n p).
Proof. intros H. unfold rd_make. destruct (n <? 0); [apply st_panic|apply st_n, H]. Qed.
Lemma st_if {A} (b : bool) (p q : parser A) : stable p -> stable q -> stable (if b then p else q).
Proof. destruct b; auto. Qed.
Lemma st_with {A} o (a : A) : stable (with_err o a).
Proof. destruct o; [apply st_fail|apply st_ret]. Qed.
Lemma st_cluster : stable rd_cluster.
Proof.
  intros s t. unfold rd_cluster, rd_u16. pose proof (st_u 2 s t) as H. destruct (rd_u 2 s) as [[l r]|e| |]; try exact Logic.I; rewrite H; try reflexivity.
  pose proof (st_bytes l s t) as H1. destruct (rd_bytes l s) as [[c r1]|e| |]; try exact Logic.I; rewrite H1; try reflexivity.
  pose proof (st_skip (2 + Z.to_nat l) s t) as H2. destruct (rd_skip (2 + Z.to_nat l) s) as [[c2 r2]|e| |]; try exact Logic.I; rewrite H2; reflexivity.
Qed.

Ltac st1 := lazymatch goal with
  | |- forall _, _ => intro
  | |- stable (bind _ _) => apply st_bind
  | |- stable (ret _) => apply st_ret
  | |- stable (fail _) => apply st_fail
  | |- stable panic => apply st_panic
  | |- stable (fun _ => Unspec) => apply st_unspec
  | |- stable (with_err _ _) => apply st_with
  | |- stable rd_cluster => apply st_cluster
  | |- stable rd_u8 => apply st_u
  | |- stable rd_u16 => apply st_u
  | |- stable rd_u32 => apply st_u
  | |- stable rd_i16 => apply st_i
  | |- stable rd_i32 => apply st_i
  | |- stable rd_i64 => apply st_i
  | |- stable (rd_peek _) => apply st_peek
  | |- stable (rd_skip _) => apply st_skip
  | |- stable (rd_bytes _) => apply st_bytes
  | |- stable (rd_stay _) => apply st_stay
  | |- stable (rd_make _ _) => apply st_make
  | |- stable (rd_n _ _) => apply st_n
  | |- stable (if _ then _ else _) => apply st_if
  end.
Ltac st := repeat st1.

Lemma st_bool : stable rd_bool. Proof. unfold rd_bool. st. Qed.
Lemma st_str : stable rd_str. Proof. unfold rd_str. st. Qed.
Lemma st_istr : stable rd_istr. Proof. unfold rd_istr. st. Qed.
Lemma st_ostr : stable rd_ostr. Proof. unfold rd_ostr. st. Qed.
Lemma st_blob : stable rd_blob. Proof. unfold rd_blob. st. Qed.
Lemma st_arr {A} (p : parser A) : stable p -> stable (rd_arr p). Proof. unfold rd_arr. st. assumption. Qed.
Lemma st_iarr {A} (p : parser A) : stable p -> stable (rd_iarr p). Proof. unfold rd_iarr. st. assumption. Qed.
Lemma st_nstr : stable nonnullableString. Proof. unfold nonnullableString. st. Qed.
Lemma st_nustr : stable nullableString. Proof. unfold nullableString. st. Qed.
Ltac sts := repeat (first [ st1 | lazymatch goal with
  | |- stable rd_bool => apply st_bool
  | |- stable rd_str => apply st_str
  | |- stable rd_istr => apply st_istr
  | |- stable rd_ostr => apply st_ostr
  | |- stable rd_blob => apply st_blob
  | |- stable (rd_arr _) => apply st_arr
  | |- stable (rd_iarr _) => apply st_iarr
  | |- stable nonnullableString => apply st_nstr
  | |- stable nullableString => apply st_nustr
  end ]).

Lemma st_broker : stable rd_broker. Proof. unfold rd_broker. sts. Qed.
Lemma st_partition v : stable (rd_partition v). Proof. unfold rd_partition. sts. Qed.
Lemma st_topicmeta v : stable (rd_topicmeta v). Proof. unfold rd_topicmeta. sts; try apply st_partition. Qed.
Lemma st_offset v : stable (rd_offset v). Proof. unfold rd_offset. sts. Qed.
Lemma st_member : stable rd_member.
Proof. unfold rd_member. sts. match goal with |- context [newMemberAssignment ?b] => destruct (newMemberAssignment b) end; st. Qed.
Lemma st_members n : forall e, stable (rd_members n e).
Proof. induction n as [|n IH]; intros e; cbn [rd_members]; st; [apply st_member|apply IH]. Qed.
Lemma st_gdetail e : stable (rd_gdetail e). Proof. unfold rd_gdetail. sts; try apply st_members. Qed.
Lemma st_gdetails n : forall e, stable (rd_gdetails n e).
Proof. induction n as [|n IH]; intros e; cbn [rd_gdetails]; st; [apply st_gdetail|apply IH]. Qed.
Lemma st_result : stable rd_result. Proof. unfold rd_result. sts. Qed.
Lemma st_centry : stable rd_centry. Proof. unfold rd_centry. sts. Qed.
Lemma st_cresource : stable rd_cresource. Proof. unfold rd_cresource. sts; try apply st_centry. Qed.

(** [f] decodes the rest of a framed response with a stable decoder. *)
Definition framed_by {A} (f : bytes -> res A) : Prop := exists p, stable p /\
  forall s, zlen s < 2 ^ 32 -> f (frame s) = match p s with Ok (a, _) => Ok a | Err e => Err e | Panic => Panic | Unspec => Unspec end.
Lemma fb_whole {A} (p : parser A) : stable p -> framed_by (whole p).
Proof. intros H. exists p. split; [exact H|]. intros s. apply whole_eq. Qed.

Lemma fb_heartbeat : framed_by dec_heartbeat. Proof. unfold dec_heartbeat. apply fb_whole. sts. Qed.
Lemma fb_leavegroup : framed_by dec_leavegroup. Proof. unfold dec_leavegroup. apply fb_whole. sts. Qed.
Lemma fb_apiversions : framed_by dec_apiversions. Proof. unfold dec_apiversions. apply fb_whole. sts. Qed.
Lemma fb_metadata v : framed_by (dec_metadata v). Proof. unfold dec_metadata. apply fb_whole. sts; first [apply st_broker|apply st_topicmeta]. Qed.
Lemma fb_findcoordinator : framed_by dec_findcoordinator. Proof. unfold dec_findcoordinator. apply fb_whole. sts. Qed.
Lemma fb_joingroup : framed_by dec_joingroup. Proof. unfold dec_joingroup. apply fb_whole. sts. Qed.
Lemma fb_syncgroup : framed_by dec_syncgroup. Proof. unfold dec_syncgroup. apply fb_whole. sts. Qed.
Lemma fb_offsets v : framed_by (dec_offsets v). Proof. unfold dec_offsets. apply fb_whole. sts; apply st_offset. Qed.
Lemma fb_offsetcommit : framed_by dec_offsetcommit. Proof. unfold dec_offsetcommit. apply fb_whole. sts. Qed.
Lemma fb_offsetfetch : framed_by dec_offsetfetch. Proof. unfold dec_offsetfetch. apply fb_whole. sts. Qed.
Lemma fb_describegroups : framed_by dec_describegroups. Proof. unfold dec_describegroups. apply fb_whole. sts; apply st_gdetails. Qed.
Lemma fb_deletegroups : framed_by dec_deletegroups. Proof. unfold dec_deletegroups. apply fb_whole. sts; apply st_result. Qed.
Lemma fb_deletetopics : framed_by dec_deletetopics. Proof. unfold dec_deletetopics. apply fb_whole. sts; apply st_result. Qed.
Lemma fb_saslhandshake : framed_by dec_saslhandshake. Proof. unfold dec_saslhandshake. apply fb_whole. sts. Qed.
Lemma fb_alterconfigs : framed_by dec_alterconfigs. Proof. unfold dec_alterconfigs. apply fb_whole. sts. Qed.
Lemma fb_incremental : framed_by dec_incremental. Proof. unfold dec_incremental. apply fb_whole. sts. Qed.
Lemma fb_createtopics : framed_by dec_createtopics. Proof. unfold dec_createtopics. apply fb_whole. sts. Qed.
Lemma fb_describeconfigs : framed_by dec_describeconfigs. Proof. unfold dec_describeconfigs. apply fb_whole. sts; apply st_cresource. Qed.
Lemma fb_electleaders : framed_by dec_electleaders. Proof. unfold dec_electleaders. apply fb_whole. sts. Qed.
Lemma st_group v : stable (rd_group v false). Proof. unfold rd_group. sts. Qed.
Lemma fb_listgroups v : (v <? 3) = true -> framed_by (dec_listgroups v).
Proof.
  intros H. unfold dec_listgroups, rhv_from. replace (3 <=? v) with false by (symmetry; apply Z.leb_gt, Z.ltb_lt, H).
  apply fb_whole. unfold rd_header. sts; apply st_group.
Qed.
Lemma fb_createacls v : (v <? 2) = true -> framed_by (dec_createacls v).
Proof.
  intros H. unfold dec_createacls, rhv_from. replace (2 <=? v) with false by (symmetry; apply Z.leb_gt, Z.ltb_lt, H).
  apply fb_whole. unfold rd_header. sts.
Qed.
Lemma st_cpresult v : (v <? 2) = true -> stable (rd_cpresult v).
Proof. intros H. unfold rd_cpresult. replace (2 <=? v) with false by (symmetry; apply Z.leb_gt, Z.ltb_lt, H). sts. Qed.
Lemma fb_createpartitions v : (v <? 2) = true -> framed_by (dec_createpartitions v).
Proof.
  intros H. unfold dec_createpartitions. pose proof (st_cpresult v H) as K. replace (2 <=? v) with false by (symmetry; apply Z.leb_gt, Z.ltb_lt, H).
  apply fb_whole. sts. unfold rd_cpresults. match goal with |- context [Z.to_nat ?n] => destruct (Z.to_nat n) end; sts; exact K.
Qed.
Lemma fb_parse key v : plain_counts key v = true -> framed_by (parse key v).
Proof.
  intros H. unfold plain_counts in H.
  destruct key as [|key|key]; [discriminate| |discriminate].
  do 6 (try (destruct key as [key|key|]; try discriminate H)); first
    [ exact fb_heartbeat | exact fb_leavegroup | exact fb_apiversions | exact (fb_metadata v) | exact fb_findcoordinator | exact fb_joingroup | exact fb_syncgroup | exact (fb_offsets v) | exact fb_offsetcommit | exact fb_offsetfetch | exact fb_describegroups | exact fb_deletegroups | exact fb_deletetopics | exact fb_saslhandshake | exact fb_alterconfigs | exact fb_incremental | exact fb_createtopics | exact fb_describeconfigs | exact fb_electleaders | exact (fb_listgroups v H) | exact (fb_createacls v H) | exact (fb_createpartitions v H) ].
Qed.

(** ** The bytes that decide *)
Lemma firstn_split {A} (s : list A) m n : (m <= n)%nat -> firstn n s = firstn m s ++ firstn (n - m) (skipn m s).
Proof.
  intros H. rewrite <- (firstn_skipn m (firstn n s)) at 1. rewrite firstn_firstn, Nat.min_l by exact H. f_equal.
  rewrite skipn_firstn_comm. reflexivity.
Qed.
Definition outcome {A} (x : res (A * bytes)) : res A := match x with Ok (a, _) => Ok a | Err e => Err e | Panic => Panic | Unspec => Unspec end.
Lemma stable_outcome {A} (p : parser A) s t : stable p -> outcome (p s) <> Panic -> outcome (p (s ++ t)) = outcome (p s).
Proof. intros H N. specialize (H s t). destruct (p s) as [[a r]|e| |]; cbn in *; try congruence; rewrite H; reflexivity. Qed.
Lemma panic_dec {A} (x : res A) : {x = Panic} + {x <> Panic}.
Proof. destruct x; [right|right|left|right]; congruence. Qed.
Lemma least_prefix {A} (p : parser A) s : stable p -> outcome (p s) <> Panic ->
  exists n, (n <= length s)%nat /\ (forall t, outcome (p (firstn n s ++ t)) = outcome (p s)) /\ forall m, (m < n)%nat -> outcome (p (firstn m s)) = Panic.
Proof.
  intros H N.
  assert (G : forall k, (k <= length s)%nat -> outcome (p (firstn k s)) <> Panic ->
    exists n, (n <= k)%nat /\ outcome (p (firstn n s)) <> Panic /\ forall m, (m < n)%nat -> outcome (p (firstn m s)) = Panic).
  { induction k as [|k IH]; intros L K.
    - exists O. split; [lia|]. split; [exact K|]. intros m. lia.
    - destruct (panic_dec (outcome (p (firstn k s)))) as [P|P].
      + exists (S k). split; [lia|]. split; [exact K|]. intros m Hm. destruct (panic_dec (outcome (p (firstn m s)))) as [|Q]; [assumption|].
        exfalso. apply Q. rewrite <- P. rewrite (firstn_split s m k) by lia. symmetry. apply stable_outcome; assumption.
      + destruct (IH ltac:(lia) P) as [n [L1 [L2 L3]]]. exists n. split; [lia|]. split; assumption. }
  destruct (G (length s) (le_n _) ltac:(rewrite firstn_all; exact N)) as [n [L1 [L2 L3]]].
  exists n. split; [exact L1|]. split; [|exact L3]. intros t. rewrite stable_outcome by assumption.
  symmetry. rewrite <- (firstn_skipn n s) at 1. apply stable_outcome; assumption.
Qed.
Lemma zlen_firstn_le (s : bytes) m : zlen (firstn m s) <= zlen s.
Proof. unfold zlen. rewrite firstn_length. lia. Qed.

Lemma decided_by key v s : plain_counts key v = true -> zlen s < 2 ^ 32 -> parse key v (frame s) <> Panic ->
  exists n, decided (parse key v) s n (parse key v (frame s)).
Proof.
  intros H L N. destruct (fb_parse key v H) as [p [Hp E]]. rewrite (E s L) in *.
  destruct (least_prefix p s Hp N) as [n [L1 [L2 L3]]]. exists n. split; [exact L1|]. split.
  - intros t Lt. rewrite E by exact Lt. apply L2.
  - intros m Hm. rewrite E by (pose proof (zlen_firstn_le s m); lia). apply L3, Hm.
Qed.

(** ** Answers of the protocol, cut *)
Lemma cut_whole {A} (p : parser A) s a m : stable p -> p s = Ok (a, []) -> zlen s < 2 ^ 32 -> (m < length s)%nat -> whole p (frame (firstn m s)) = Panic.
Proof.
  intros H E L Hm. rewrite whole_eq by (pose proof (zlen_firstn_le s m); lia).
  pose proof (H (firstn m s) (skipn m s)) as K. rewrite firstn_skipn, E in K.
  destruct (p (firstn m s)) as [[b r]|e| |]; try discriminate K; try reflexivity.
  injection K as _ K. symmetry in K. apply app_eq_nil in K. destruct K as [_ K]. exfalso.
  assert (length (skipn m s) = 0)%nat as Z by (rewrite K; reflexivity). rewrite skipn_length in Z. lia.
Qed.
