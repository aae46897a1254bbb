(** Proofs about names. *)
From Verif Require Import Base BaseFacts Wire WireFacts Requests RequestSpec RequestFacts RequestPrep Config ConfigSpec ConfigFacts Names.

(** Kafka's codes, names and algorithms. *)
Definition kafka_codecs : list (Z * (bytes * lib)) :=
  [(0, ([110; 111; 110; 101], LNone)); (1, ([103; 122; 105; 112], LGzip)); (2, ([115; 110; 97; 112; 112; 121], LSnappy)); (3, ([108; 122; 52], LLz4))].

(** [s] is [n] but for the case of its letters; [n] has small letters only *)
Definition spelled (s n : bytes) : Prop := Forall2 (fun a b => (a = b /\ ~ 65 <= a <= 90) \/ (65 <= a <= 90 /\ b = a + 32)) s n.
Lemma spelled_lower s n : spelled s n <-> lower s = n.
Proof.
  split.
  - intro H. induction H as [|a b s n [[-> N]|[H1 ->]] F IH]; [reflexivity| |].
    + cbn [lower map]. fold (lower s). rewrite IH. f_equal. destruct (65 <=? b) eqn:A; destruct (b <=? 90) eqn:B; cbn [andb]; try reflexivity. lia.
    + cbn [lower map]. fold (lower s). rewrite IH. f_equal. replace (65 <=? a) with true by (symmetry; apply Z.leb_le; lia). replace (a <=? 90) with true by (symmetry; apply Z.leb_le; lia). reflexivity.
  - intros <-. induction s as [|a s IH]; [constructor|]. cbn [lower map]. constructor; [|exact IH].
    destruct (65 <=? a) eqn:A; destruct (a <=? 90) eqn:B; cbn [andb]; lia.
Qed.

Lemma codec_names c n l : In (c, (n, l)) kafka_codecs ->
  ctype_string c = n /\ parseCompressType n = (c, true) /\ newCompressor n = Some l /\ producer_codec n = Some c /\
  forall hi, 0 <= hi -> batch_lib (c + 8 * hi) = Some l /\ uncompress_lib (c + 8 * hi) = Some l.
Proof.
  assert (L : forall c hi, 0 <= c <= 3 -> Z.land (c + 8 * hi) 3 = c).
  { intros c' hi H. change 3 with (Z.ones 2) at 1. rewrite Z.land_ones by lia. change (2 ^ 2) with 4. lia. }
  intros [H|[H|[H|[H|[]]]]]; injection H as <- <- <-; (split; [reflexivity|]); (split; [reflexivity|]); (split; [reflexivity|]); (split; [reflexivity|]);
    intros hi Hh; unfold batch_lib, uncompress_lib; rewrite L by lia; split; reflexivity.
Qed.
Lemma accepted_codec c : producer_checkValid c = None -> exists k l, In (k, (pc_comp c, l)) kafka_codecs /\ producer_codec (pc_comp c) = Some k.
Proof.
  unfold producer_checkValid. destruct (pc_boot c); [discriminate|]. destruct (pc_count c <=? 0); [discriminate|]. destruct (pc_flush c <=? 0); [discriminate|].
  unfold beqb.
  destruct (bytes_eq_dec (pc_comp c) c_none) as [->|]; [intros _; exists 0, LNone; split; [cbn; auto|reflexivity]|].
  destruct (bytes_eq_dec (pc_comp c) c_gzip) as [->|]; [intros _; exists 1, LGzip; split; [cbn; auto|reflexivity]|].
  destruct (bytes_eq_dec (pc_comp c) c_snappy) as [->|]; [intros _; exists 2, LSnappy; split; [cbn; auto|reflexivity]|].
  destruct (bytes_eq_dec (pc_comp c) c_lz4) as [->|]; [intros _; exists 3, LLz4; split; [cbn; auto|reflexivity]|discriminate].
Qed.
Lemma parse_known s c : parseCompressType s = (c, true) -> exists l, In (c, (lower s, l)) kafka_codecs.
Proof.
  unfold parseCompressType, beqb. cbv zeta.
  destruct (bytes_eq_dec (lower s) c_none) as [->|]; [intros H; injection H as <-; exists LNone; cbn; auto|].
  destruct (bytes_eq_dec (lower s) c_gzip) as [->|]; [intros H; injection H as <-; exists LGzip; cbn; auto|].
  destruct (bytes_eq_dec (lower s) c_snappy) as [->|]; [intros H; injection H as <-; exists LSnappy; cbn; auto|].
  destruct (bytes_eq_dec (lower s) c_lz4) as [->|]; [intros H; injection H as <-; exists LLz4; cbn; auto|discriminate].
Qed.

(** RFC 4616: authorization identity, authentication identity, password, with zero bytes
    between them and none in them. *)
Definition no_zero (s : bytes) : Prop := ~ In 0 s.
Definition plain_token (authz user password b : bytes) : Prop :=
  no_zero authz /\ no_zero user /\ no_zero password /\ b = authz ++ 0 :: user ++ 0 :: password.

Lemma plain_bytes u p : plain_encode u p = 0 :: u ++ 0 :: p.
Proof.
  unfold plain_encode. cbv zeta. rewrite firstn_app.
  assert (L : length ([0] ++ u ++ [0] ++ p) = (2 + length u + length p)%nat) by (cbn [app length]; rewrite app_length; cbn [app length]; lia).
  rewrite <- L, firstn_all, Nat.sub_diag, firstn_O, app_nil_r. reflexivity.
Qed.
Lemma split_zero a b a' b' : no_zero a -> no_zero a' -> a ++ 0 :: b = a' ++ 0 :: b' -> a = a' /\ b = b'.
Proof.
  revert a'. induction a as [|x a IH]; intros [|y a'] Ha Ha' E; cbn [app] in E.
  - injection E as ->. auto.
  - injection E as <- _. exfalso. apply Ha'. left; reflexivity.
  - injection E as -> _. exfalso. apply Ha. left; reflexivity.
  - injection E as -> E. destruct (IH a') as [-> ->]; [intros H; apply Ha; right; exact H|intros H; apply Ha'; right; exact H|exact E|auto].
Qed.
Lemma plain_unique z u p z' u' p' b : plain_token z u p b -> plain_token z' u' p' b -> z = z' /\ u = u' /\ p = p'.
Proof.
  intros (A1 & A2 & A3 & ->) (B1 & B2 & B3 & E). destruct (split_zero _ _ _ _ A1 B1 E) as [-> E2].
  destruct (split_zero _ _ _ _ A2 B2 E2) as [-> ->]. auto.
Qed.

Lemma sasl_read zip corr client user password mechanism rest : lower mechanism = [112; 108; 97; 105; 110] ->
  no_zero user -> no_zero password -> i32 corr -> wf_client client -> zlen user + zlen password < 2 ^ 30 ->
  exists out token, sasl_request zip corr 0 client user password mechanism = Ok out /\
    broker_reads 36 0 S_SaslAuthenticate_0 (out ++ rest) = Some (zlen out - 4, (36, 0, corr, client), token, rest) /\
    plain_token [] user password token.
Proof.
  intros Hm Hu Hp Hc Hcl Hl. unfold sasl_request, newSaslAuthenticate. unfold beqb. rewrite Hm. destruct (bytes_eq_dec _ _) as [_|N]; [|congruence].
  set (tok := plain_encode user password). assert (Ht : zlen tok = 2 + zlen user + zlen password).
  { unfold tok. rewrite plain_bytes, zlen_cons, zlen_app, zlen_cons. lia. }
  assert (Hw : val_wf (V S_SaslAuthenticate_0 tok)).
  { unfold val_wf. cbn [V projT1 projT2 wf S_SaslAuthenticate_0]. change (zlen tok < 2 ^ 31 - 1). assert (2 ^ 31 - 1 = 2 * 2 ^ 30 - 1) by reflexivity. assert (2 < 2 ^ 30) by reflexivity. lia. }
  pose proof (prepare_value zip corr client (QSaslAuthenticate tok) 0 (V S_SaslAuthenticate_0 tok) eq_refl Hw I) as E. rewrite E. cbn [rbind fst].
  eexists _, tok. split; [reflexivity|]. split.
  - pose proof (broker_reads_request (QSaslAuthenticate tok) 0 corr client (V S_SaslAuthenticate_0 tok) rest Hw ltac:(unfold i16; lia) Hc Hcl) as R.
    apply R. clear R E. unfold request_bytes, frame. rewrite zlen_app, zlen_be, zlen_app. change (flexibleb (kafka_key (QSaslAuthenticate tok)) 0) with false.
    unfold val_bytes. cbn [V projT1 projT2 enc S_SaslAuthenticate_0]. rewrite zlen_app, zlen_be.
    assert (Hh : zlen (header_bytes false (kafka_key (QSaslAuthenticate tok)) 0 corr client) <= 10 + 2 ^ 15).
    { unfold header_bytes. cbn [enc Header1 fst snd]. rewrite !zlen_app, !zlen_be. destruct client as [cl|]; cbn [wf_client] in Hcl; rewrite ?zlen_app, ?zlen_be; lia. }
    assert (2 ^ 31 = 2 * 2 ^ 30) by reflexivity. assert (2 ^ 15 + 64 < 2 ^ 30) by reflexivity. lia.
  - unfold plain_token. split; [intros []|]. split; [exact Hu|]. split; [exact Hp|]. unfold tok. rewrite plain_bytes. reflexivity.
Qed.

(** What follows a handshake of version 0 has to be the token itself, which a request never
    is: its second field would be the one byte 36, and the third starts with a zero. *)
Lemma not_a_token zip corr client user password mechanism out z u p : zlen user + zlen password < 2 ^ 30 ->
  sasl_request zip corr 0 client user password mechanism = Ok out -> ~ plain_token z u p (skipn 4 out).
Proof.
  intros Hl. unfold sasl_request, newSaslAuthenticate. destruct (beqb _ _); [|discriminate].
  set (tok := plain_encode user password). assert (Ht : zlen tok = 2 + zlen user + zlen password).
  { unfold tok. rewrite plain_bytes, zlen_cons, zlen_app, zlen_cons. lia. }
  assert (Hw : val_wf (V S_SaslAuthenticate_0 tok)).
  { unfold val_wf. cbn [V projT1 projT2 wf S_SaslAuthenticate_0]. change (zlen tok < 2 ^ 31 - 1). assert (2 ^ 31 - 1 = 2 * 2 ^ 30 - 1) by reflexivity. assert (2 < 2 ^ 30) by reflexivity. lia. }
  rewrite (prepare_value zip corr client (QSaslAuthenticate tok) 0 (V S_SaslAuthenticate_0 tok) eq_refl Hw I). cbn [rbind fst].
  intros H. apply Ok_inj in H. subst out. intros (A1 & A2 & A3 & E). unfold request_bytes, frame in E.
  change (flexibleb (kafka_key (QSaslAuthenticate tok)) 0) with false in E. unfold header_bytes in E. cbn [enc Header1 fst snd kafka_key] in E.
  rewrite skipn_app in E. rewrite skipn_all2 in E by (rewrite be_length; lia). rewrite be_length in E. change (4 - 4)%nat with 0%nat in E.
  change (be 2 36) with [0; 36] in E. change (be 2 0) with [0; 0] in E. cbn [skipn app] in E.
  destruct z as [|z0 z]; [|exfalso; cbn [app] in E; injection E as <- _; apply A1; left; reflexivity].
  cbn [app] in E. injection E as E. destruct u as [|u0 u]; cbn [app] in E; [discriminate|]. injection E as <- E.
  destruct u as [|u1 u]; cbn [app] in E; [|injection E as <- _; apply A2; right; left; reflexivity].
  injection E as E. apply A3. rewrite <- E. left; reflexivity.
Qed.
