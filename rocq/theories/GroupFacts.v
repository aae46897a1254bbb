From Verif Require Import Base BaseFacts Wire Prims PrimsFacts Group.

(** The protocol's layouts (consumer embedded protocol): assignment and subscription. *)
Definition Assignment_ty : ty := (TI16 *** TArr (TStr *** TArr TI32) *** TNBytes)%ty.

Lemma flat_map_put_be (l : list Z) :
  Forall (fun x => i32 x) l ->
  flat_map wbytes (map (fun x => Put (be 4 (uint 32 x))) l) = flat_map (be 4) l.
Proof.
  induction 1 as [|x l Hx Hl IH]; cbn [map flat_map]; [reflexivity|].
  rewrite IH. f_equal. cbn [wbytes]. unfold uint. exact (be_mod 4 x).
Qed.

Definition ok_part (p : bytes * list Z) : Prop :=
  zlen (fst p) < 2 ^ 16 /\ zlen (snd p) < 2 ^ 32 /\ Forall i32 (snd p).
Definition ok_ma (m : MemberAssignment) : Prop :=
  i16 (ma_version m) /\ zlen (ma_parts m) < 2 ^ 31 /\ Forall ok_part (ma_parts m).

Definition enc_part (p : bytes * list Z) : bytes :=
  be 2 (zlen (fst p)) ++ fst p ++ be 4 (zlen (snd p)) ++ flat_map (be 4) (snd p).

Lemma ma_part_ops_cat p : ok_part p -> wcat (ma_part_ops p) = enc_part p.
Proof.
  intros [H1 [H2 H3]]. unfold ma_part_ops, enc_part. rewrite wcat_app, !wcat_cons.
  cbn [wbytes wcat]. unfold wcat at 1; cbn [flat_map]. rewrite app_nil_r.
  pose proof (zlen_nonneg (fst p)). pose proof (zlen_nonneg (snd p)).
  rewrite !uint_small by lia. unfold wcat. rewrite flat_map_put_be by exact H3.
  rewrite <- !app_assoc. reflexivity.
Qed.

Lemma flat_map_be4_len l : zlen (flat_map (be 4) l) = zlen l * 4.
Proof. induction l as [|x l IH]; cbn [flat_map]; [reflexivity|].
  rewrite zlen_app, zlen_be, zlen_cons, IH. lia. Qed.
Lemma enc_part_len p : zlen (enc_part p) = 2 + zlen (fst p) + (4 + zlen (snd p) * 4).
Proof. unfold enc_part. rewrite !zlen_app, !zlen_be, flat_map_be4_len. lia. Qed.

Lemma ma_fold_len ps a :
  fold_left (fun l p => l + (2 + zlen (fst p)) + (4 + zlen (snd p) * 4)) ps a
  = a + zlen (flat_map enc_part ps).
Proof.
  revert a; induction ps as [|p ps IH]; intros a; cbn [fold_left flat_map]; [cbn; lia|].
  rewrite IH, zlen_app, enc_part_len. lia.
Qed.

Lemma flat_map_ext_Forall {A B} (f g : A -> list B) (P : A -> Prop) l :
  Forall P l -> (forall x, P x -> f x = g x) -> flat_map f l = flat_map g l.
Proof. intros H E; induction H as [|x l Hx Hl IH]; cbn [flat_map]; [reflexivity|]. rewrite IH, E by exact Hx; reflexivity. Qed.

Lemma ma_encode_bytes m : ok_ma m ->
  ma_encode m = Ok (be 2 (ma_version m) ++ be 4 (zlen (ma_parts m)) ++ flat_map enc_part (ma_parts m)
                    ++ ma_user m ++ [0; 0; 0; 0]).
Proof.
  intros [Hv [Hl Hp]]. unfold ma_encode. pose proof (zlen_nonneg (ma_parts m)).
  set (ops := _ ++ _ ++ _).
  assert (E : wcat ops = be 2 (ma_version m) ++ be 4 (zlen (ma_parts m)) ++ flat_map enc_part (ma_parts m) ++ ma_user m).
  { unfold ops. rewrite !wcat_app, wcat_flat_map, !wcat_cons. cbn [wbytes].
    rewrite (flat_map_ext_Forall (fun x => wcat (ma_part_ops x)) enc_part ok_part) by (auto using ma_part_ops_cat).
    unfold wcat; cbn [flat_map]. rewrite !app_nil_r, <- !app_assoc. f_equal.
    - unfold uint. exact (be_mod 2 (ma_version m)).
    - rewrite uint_small by (assert (2^31 < 2^32) by (cbn; lia); lia). reflexivity. }
  rewrite wfull_ok.
  - rewrite E. rewrite <- !app_assoc.
    assert (ma_length m - zlen (be 2 (ma_version m) ++ be 4 (zlen (ma_parts m)) ++ flat_map enc_part (ma_parts m) ++ ma_user m) = 4) as ->.
    { unfold ma_length. rewrite ma_fold_len, !zlen_app, !zlen_be. lia. }
    reflexivity.
  - rewrite E. unfold ma_length. rewrite ma_fold_len, !zlen_app, !zlen_be. lia.
Qed.

Lemma rd_ma_part_enc p r : ok_part p -> rd_ma_part (enc_part p ++ r) = Ok (p, r).
Proof.
  intros [H1 [H2 H3]]. unfold rd_ma_part, enc_part. rewrite <- !app_assoc.
  pose proof (zlen_nonneg (fst p)). pose proof (zlen_nonneg (snd p)).
  erewrite bind_ok by (apply rd_u16_be; unfold u16; lia).
  erewrite bind_ok by apply rd_bytes_app.
  erewrite bind_ok by (apply rd_u32_be; unfold u32; lia).
  erewrite bind_ok.
  2:{ apply (rd_make_map rd_i32 (be 4) (fun x => x)). intros x r' Hx.
      rewrite Forall_forall in H3. apply rd_i32_be, H3, Hx. }
  rewrite map_id. destruct p; reflexivity.
Qed.

Lemma newMemberAssignment_enc v ps u r : i16 v -> zlen ps < 2 ^ 31 -> Forall ok_part ps ->
  zlen u < 2 ^ 31 ->
  newMemberAssignment (be 2 v ++ be 4 (zlen ps) ++ flat_map enc_part ps ++ be 4 (zlen u) ++ u ++ r)
  = Ok (mkMA v ps u).
Proof.
  intros Hv Hl Hp Hu. unfold newMemberAssignment.
  set (pl := be 2 v ++ _).
  assert (exists x y, pl = x :: y) as [x [y Ec]] by (unfold pl; cbn [be]; eexists; eexists; reflexivity).
  rewrite Ec at 1. clear Ec x y. unfold pl.
  pose proof (zlen_nonneg ps). pose proof (zlen_nonneg u).
  erewrite bind_ok by (apply rd_i16_be; exact Hv).
  erewrite bind_ok by (apply rd_i32_be; unfold i32; lia).
  erewrite bind_ok.
  2:{ apply (rd_make_map rd_ma_part enc_part (fun x => x)). intros x r' Hx.
      rewrite Forall_forall in Hp. apply rd_ma_part_enc, Hp, Hx. }
  unfold rd_ma_user.
  erewrite bind_ok.
  2:{ erewrite bind_ok by (apply rd_i32_be; unfold i32; lia).
      destruct (Z.eqb_spec (zlen u) (-1)); [lia|].
      destruct (Z.ltb_spec (zlen u) 0); [lia|].
      unfold zlen. rewrite Nat2Z.id, firstn_app_exact, skipn_app_exact, Nat.sub_diag by reflexivity.
      cbn [repeat]. rewrite app_nil_r. reflexivity. }
  rewrite map_id. reflexivity.
Qed.

Lemma ma_roundtrip m : ok_ma m -> ma_user m = [] ->
  exists b, ma_encode m = Ok b /\ newMemberAssignment b = Ok m.
Proof.
  intros H Hu. eexists; split; [apply ma_encode_bytes; exact H|].
  destruct H as [Hv [Hl Hp]]. rewrite Hu. cbn [app].
  pose proof (newMemberAssignment_enc (ma_version m) (ma_parts m) [] [] Hv Hl Hp ltac:(cbn; lia)) as G.
  cbn [app] in G. rewrite ?app_nil_r in G. change (be 4 (zlen (@nil Z))) with [0;0;0;0] in G.
  rewrite G. destruct m; cbn in *; subst; reflexivity.
Qed.

(** Subscriptions *)
Definition ok_pm (m : ProtocolMetadata) : Prop :=
  u16 (pm_version m) /\ zlen (pm_subs m) < 2 ^ 32 /\ Forall (fun s => zlen s < 2 ^ 16) (pm_subs m)
  /\ zlen (pm_user_bytes m) < 2 ^ 31.

Definition enc_sub (s : bytes) : bytes := be 2 (zlen s) ++ s.
Lemma pm_fold_len l a : fold_left (fun l s => l + 2 + zlen s) l a = a + zlen (flat_map enc_sub l).
Proof.
  revert a; induction l as [|p ps IH]; intros a; cbn [fold_left flat_map]; [cbn; lia|].
  rewrite IH, zlen_app. unfold enc_sub at 2. rewrite zlen_app, zlen_be. lia.
Qed.
Lemma pm_encode_bytes m : ok_pm m ->
  pm_encode m = Ok (be 2 (pm_version m) ++ be 4 (zlen (pm_subs m)) ++ flat_map enc_sub (pm_subs m)
                    ++ be 4 (zlen (pm_user_bytes m)) ++ pm_user_bytes m).
Proof.
  intros [Hv [Hl [Hs Hu]]]. unfold pm_encode.
  pose proof (zlen_nonneg (pm_subs m)). pose proof (zlen_nonneg (pm_user_bytes m)).
  set (ops := _ ++ _ ++ _).
  assert (E : wcat ops = be 2 (pm_version m) ++ be 4 (zlen (pm_subs m)) ++ flat_map enc_sub (pm_subs m)
                    ++ be 4 (zlen (pm_user_bytes m)) ++ pm_user_bytes m).
  { unfold ops. rewrite !wcat_app, wcat_flat_map, !wcat_cons. cbn [wbytes].
    rewrite (flat_map_ext_Forall _ enc_sub (fun s => zlen s < 2 ^ 16)).
    - unfold wcat; cbn [flat_map]. rewrite !app_nil_r, <- !app_assoc.
      rewrite !uint_small by (assert (2^31 < 2^32) by (cbn; lia); lia). reflexivity.
    - exact Hs.
    - intros s Hx. rewrite !wcat_cons. unfold wcat; cbn [flat_map wbytes]. rewrite app_nil_r.
      pose proof (zlen_nonneg s). rewrite uint_small by lia. reflexivity. }
  rewrite wfull_exact; rewrite E; [reflexivity|].
  unfold pm_length. rewrite pm_fold_len, !zlen_app, !zlen_be. lia.
Qed.
Lemma pm_roundtrip m : ok_pm m ->
  exists b, pm_encode m = Ok b /\
    newProtocolMetadata b = Ok (mkPM (pm_version m) (pm_subs m) (Some (pm_user_bytes m))).
Proof.
  intros H. eexists; split; [apply pm_encode_bytes; exact H|].
  destruct H as [Hv [Hl [Hs Hu]]]. unfold newProtocolMetadata.
  pose proof (zlen_nonneg (pm_subs m)). pose proof (zlen_nonneg (pm_user_bytes m)).
  erewrite bind_ok by (apply rd_u16_be; exact Hv).
  erewrite bind_ok by (apply rd_u32_be; unfold u32; lia).
  erewrite bind_ok.
  2:{ apply (rd_make_map _ enc_sub (fun x => x)). intros x r' Hx.
      rewrite Forall_forall in Hs. specialize (Hs x Hx). pose proof (zlen_nonneg x).
      unfold enc_sub. rewrite <- app_assoc.
      erewrite bind_ok by (apply rd_u16_be; unfold u16; lia). apply rd_bytes_app. }
  rewrite map_id.
  erewrite bind_ok by (apply rd_i32_be; unfold i32; lia).
  destruct (Z.eqb_spec (zlen (pm_user_bytes m)) (-1)); [lia|].
  rewrite <- (app_nil_r (pm_user_bytes m)) at 2.
  erewrite bind_ok by apply rd_bytes_app. reflexivity.
Qed.

(** *** Conformance to the consumer embedded protocol *)
Definition Subscription_ty : ty := (TI16 *** TArr TStr *** TNBytes)%ty.

Lemma ma_encode_wire m : ok_ma m -> ma_user m = [] ->
  ma_encode m = Ok (enc Assignment_ty (ma_version m, (ma_parts m, Some []))).
Proof.
  intros H Hu. rewrite (ma_encode_bytes m H), Hu. cbn [Assignment_ty enc fst snd].
  rewrite !app_nil_r, <- !app_assoc. reflexivity.
Qed.
Lemma newMemberAssignment_wire v ps u : i16 v -> zlen ps < 2 ^ 31 -> Forall ok_part ps ->
  (match u with None => True | Some b => zlen b < 2 ^ 31 end) ->
  newMemberAssignment (enc Assignment_ty (v, (ps, u)))
  = Ok (mkMA v ps (match u with None => [] | Some b => b end)).
Proof.
  intros Hv Hl Hp Hu. cbn [Assignment_ty enc fst snd]. destruct u as [b|].
  - pose proof (newMemberAssignment_enc v ps b [] Hv Hl Hp Hu) as G. rewrite app_nil_r in G.
    rewrite <- app_assoc. exact G.
  - unfold newMemberAssignment.
    set (pl := be 2 v ++ _).
    assert (exists x y, pl = x :: y) as [x [y Ec]] by (unfold pl; cbn [be]; eexists; eexists; reflexivity).
    rewrite Ec at 1. clear Ec x y. unfold pl. rewrite <- app_assoc. cbn [den].
    erewrite bind_ok by (apply rd_i16_be; exact Hv).
    pose proof (zlen_nonneg ps).
    erewrite bind_ok by (apply rd_i32_be; unfold i32; lia).
    erewrite bind_ok.
    2:{ apply (rd_make_map _ enc_part (fun x => x)). intros x r' Hx. rewrite Forall_forall in Hp.
        apply rd_ma_part_enc, Hp, Hx. }
    rewrite map_id. erewrite bind_ok; [reflexivity|]. reflexivity.
Qed.
Lemma pm_encode_wire m : ok_pm m ->
  pm_encode m = Ok (enc Subscription_ty (pm_version m, (pm_subs m, Some (pm_user_bytes m)))).
Proof.
  intros H. rewrite (pm_encode_bytes m H). cbn [Subscription_ty enc fst snd].
  rewrite <- !app_assoc. reflexivity.
Qed.
Lemma newProtocolMetadata_wire v subs u : u16 v -> zlen subs < 2 ^ 32 ->
  Forall (fun s => zlen s < 2 ^ 16) subs ->
  (match u with None => True | Some b => zlen b < 2 ^ 31 end) ->
  newProtocolMetadata (enc Subscription_ty (v, (subs, u))) = Ok (mkPM v subs u).
Proof.
  intros Hv Hl Hs Hu. cbn [Subscription_ty enc den fst snd]. unfold newProtocolMetadata.
  pose proof (zlen_nonneg subs). rewrite <- app_assoc.
  erewrite bind_ok by (apply rd_u16_be; exact Hv).
  erewrite bind_ok by (apply rd_u32_be; unfold u32; lia).
  erewrite bind_ok.
  2:{ apply (rd_make_map _ enc_sub (fun x => x)). intros x r' Hx.
      rewrite Forall_forall in Hs. specialize (Hs x Hx). pose proof (zlen_nonneg x).
      unfold enc_sub. rewrite <- app_assoc.
      erewrite bind_ok by (apply rd_u16_be; unfold u16; lia). apply rd_bytes_app. }
  rewrite map_id. destruct u as [b|].
  - pose proof (zlen_nonneg b).
    erewrite bind_ok by (apply rd_i32_be; unfold i32; lia).
    destruct (Z.eqb_spec (zlen b) (-1)); [lia|].
    rewrite <- (app_nil_r b) at 2.
    erewrite bind_ok by apply rd_bytes_app. reflexivity.
  - reflexivity.
Qed.

Lemma ma_bytes m : ok_ma m -> ma_user m = [] ->
  exists b, ma_encode m = Ok b /\ b = enc Assignment_ty (ma_version m, (ma_parts m, Some [])) /\
    newMemberAssignment b = Ok m.
Proof.
  intros H Hu. destruct (ma_roundtrip m H Hu) as [b [E D]].
  pose proof (ma_encode_wire m H Hu) as W. rewrite E in W. injection W as ->. eauto.
Qed.
Lemma pm_bytes m : ok_pm m ->
  exists b, pm_encode m = Ok b /\
    b = enc Subscription_ty (pm_version m, (pm_subs m, Some (pm_user_bytes m))) /\
    newProtocolMetadata b = Ok (mkPM (pm_version m) (pm_subs m) (Some (pm_user_bytes m))).
Proof.
  intros H. destruct (pm_roundtrip m H) as [b [E D]].
  pose proof (pm_encode_wire m H) as W. rewrite E in W. injection W as ->. eauto.
Qed.
