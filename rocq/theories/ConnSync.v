From Verif Require Import Base BaseFacts Fetch FetchKeep DeliverFacts Conn ConnFacts.

Lemma concat_cut : forall sizes b, concat (cut sizes b) = firstn (list_sum sizes) b.
Proof.
  induction sizes as [|n ns IH]; intros b; [reflexivity|]. cbn [cut concat list_sum fold_right].
  change (fold_right Nat.add 0%nat ns) with (list_sum ns). rewrite IH.
  revert n. induction b as [|x b IHb]; intros n.
  - rewrite skipn_nil, !firstn_nil. reflexivity.
  - destruct n as [|n]; [reflexivity|]. cbn [firstn skipn Nat.add app]. f_equal. apply IHb.
Qed.
Lemma pending_eq x b : pending x b = skipn (list_sum (x_arr x)) b.
Proof.
  unfold pending. rewrite concat_cut, firstn_length. destruct (Nat.le_gt_cases (list_sum (x_arr x)) (length b)) as [H|H].
  - rewrite Nat.min_l by exact H. reflexivity.
  - rewrite Nat.min_r by lia. rewrite !skipn_all2 by lia. reflexivity.
Qed.

(** all of a response of [n] bytes arrives *)
Definition covers (x : exch) (n : Z) : Prop := (Z.to_nat n <= list_sum (x_arr x))%nat.
Definition small (x : exch) : Prop := zlen (x_body x) < 2 ^ 32 - 4.

Lemma frame_len corr b : zlen (frame corr b) = 8 + zlen b.
Proof. unfold frame. rewrite !zlen_app, !zlen_be. lia. Qed.
Lemma frame_shape corr b : frame corr b = be 4 (zlen (be 4 corr ++ b)) ++ (be 4 corr ++ b).
Proof. unfold frame. rewrite zlen_app, zlen_be. reflexivity. Qed.

Lemma exchange_sync k x c s : small x -> c_unread c = [] ->
  let corr := (b_corr s + 1) mod 2 ^ 32 in
  exists c' r, exchange k x c s = (r, mkB (Some c') (b_next s) corr (b_log s ++ [mkW (c_id c) k corr (c_auth c)])) /\
    c_id c' = c_id c /\ c_auth c' = c_auth c /\
    ((r = Ok (frame corr (x_body x)) /\ c_unread c' = [] /\ x_write x = None) \/
     (exists e, r = Err (EWrap e) /\ x_write x = Some e /\ c_unread c' = []) \/
     (r = Err (EWrap (x_fin x)) /\ ~ covers x (8 + zlen (x_body x)) /\ x_write x = None)).
Proof.
  intros Hs Hc corr. unfold exchange. cbv zeta. fold corr. destruct (x_write x) as [e|].
  - exists c, (Err (EWrap e)). split; [reflexivity|]. split; [reflexivity|]. split; [reflexivity|]. right; left.
    exists e. repeat split; assumption.
  - rewrite Hc. cbn [app]. unfold arrived. pose proof (frame_len corr (x_body x)) as Hl. pose proof (zlen_nonneg (x_body x)) as Hb0.
    set (F := frame corr (x_body x)) in *.
    destruct (Nat.le_gt_cases (Z.to_nat (8 + zlen (x_body x))) (list_sum (x_arr x))) as [Hcov|Hcov].
    + assert (Hf : concat (cut (x_arr x) F) = F) by (rewrite concat_cut; apply firstn_all2; unfold zlen in *; lia).
      destruct (read_response_ok (cut (x_arr x) F) (x_fin x) (be 4 corr ++ x_body x) []) as [cs [E H]].
      * rewrite Hf. unfold F. rewrite frame_shape, app_nil_r. reflexivity.
      * rewrite zlen_app, zlen_be. unfold small in Hs. change (2 ^ 32 - 4) with (2 ^ 32 - 4) in Hs. lia.
      * rewrite E. eexists (mkConn _ _ _), _. split; [reflexivity|]. split; [reflexivity|]. split; [reflexivity|]. left.
        split; [unfold F; rewrite frame_shape; reflexivity|]. split; [|reflexivity].
        cbn [c_unread]. rewrite H, pending_eq. cbn [app]. apply skipn_all2. unfold zlen in *; lia.
    + rewrite (read_response_short _ _ (be 4 corr ++ x_body x) (skipn (list_sum (x_arr x)) F)).
      * eexists (mkConn _ _ _), _. split; [reflexivity|]. split; [reflexivity|]. split; [reflexivity|]. right; right.
        split; [reflexivity|]. split; [unfold covers; lia|reflexivity].
      * rewrite concat_cut, firstn_skipn. unfold F. rewrite frame_shape. reflexivity.
      * intros H. apply (f_equal (@length Z)) in H. rewrite skipn_length in H. cbn [length] in H. unfold zlen in *; lia.
      * rewrite zlen_app, zlen_be. unfold small in Hs. lia.
Qed.

(** *** C13 *)
Definition sync (s : bst) : Prop := match b_conn s with Some c => c_unread c = [] | None => True end.
(** the whole answer arrives, or the end of the stream or a broken pipe is reported *)
Definition clean_x (x : exch) : Prop :=
  small x /\ (x_write x <> None \/ covers x (8 + zlen (x_body x)) \/ x_fin x = EEOF \/ x_fin x = EPipe).

Lemma requestOpen_ok k x c s raw s' : small x -> c_unread c = [] -> requestOpen k x c s = (Ok raw, s') ->
  raw = frame (b_corr s') (x_body x) /\ exists c', b_conn s' = Some c' /\ c_unread c' = [] /\ c_auth c' = c_auth c.
Proof.
  intros Hs Hc H. unfold requestOpen in H. destruct (exchange_sync k x c s Hs Hc) as [c' [r [E [H1 [H2 Hr]]]]].
  rewrite E in H. cbv zeta in H. destruct Hr as [[-> [Hu Hw]]|[[e [-> [Hw Hu]]]|[-> [Hn Hw]]]]; cbn [judge] in H; try discriminate.
  destruct (x_verdict x); [discriminate|]. cbn [close_on] in H. injection H as <- <-. cbn [b_corr b_conn].
  split; [reflexivity|]. exists c'. split; [reflexivity|]. split; assumption.
Qed.
Lemma requestOpen_sync k x c s r s' : clean_x x -> c_unread c = [] -> requestOpen k x c s = (r, s') -> sync s'.
Proof.
  intros [Hs Hcl] Hc H. unfold requestOpen in H. destruct (exchange_sync k x c s Hs Hc) as [c' [r0 [E [H1 [H2 Hr]]]]].
  rewrite E in H. cbv zeta in H. injection H as <- <-.
  assert (Hgen : forall r, c_unread c' = [] -> sync (close_on r (mkB (Some c') (b_next s) ((b_corr s + 1) mod 2 ^ 32) (b_log s ++ [mkW (c_id c) k ((b_corr s + 1) mod 2 ^ 32) (c_auth c)])))).
  { intros r Hu. unfold close_on. destruct r; try exact Hu. destruct (closing e); [exact I|exact Hu]. }
  destruct Hr as [[-> [Hu Hw]]|[[e [-> [Hw Hu]]]|[-> [Hn Hw]]]]; [apply Hgen; exact Hu..|].
  cbn [judge close_on]. destruct Hcl as [Hw'|[Hcov|Hx]].
  - contradiction.
  - contradiction.
  - destruct Hx as [-> | ->]; exact I.
Qed.

Lemma create_sync sasl held o s b s' : small (o_ver o) -> small (o_hs o) -> small (o_au o) ->
  createConnAndAuth sasl held o s = (Ret (Ok b), s') ->
  exists c, b_conn s' = Some c /\ c_unread c = [] /\ c_auth c = true.
Proof.
  intros S1 S2 S3 H. unfold createConnAndAuth in H. destruct (o_dial o); [discriminate|]. cbv zeta in H.
  set (c0 := mkConn (b_next s) [] (negb sasl)) in *.
  destruct (exchange_sync KVersions (o_ver o) c0 (mkB (Some c0) (S (b_next s)) (b_corr s) (b_log s)) S1 eq_refl) as [c1 [r [E [_ [Ha Hr]]]]].
  rewrite E in H. destruct (judge (o_ver o) r) eqn:Ej; try discriminate. cbn [b_conn] in H.
  assert (Hu : c_unread c1 = []).
  { destruct Hr as [[-> [Hu Hw]]|[[e [-> [Hw Hu]]]|[-> [Hn Hw]]]]; cbn in Ej; try discriminate. exact Hu. }
  destruct sasl; cbn [negb] in *; [|injection H as <- <-; exists c1; cbn [b_conn]; repeat split; assumption].
  destruct held; [discriminate|].
  destruct (requestOpen KSasl (o_hs o) c1 _) as [r2 s2] eqn:E2. destruct r2; try discriminate.
  destruct (requestOpen_ok _ _ _ _ _ _ S2 Hu E2) as [_ [c2 [Hc2 [Hu2 _]]]]. rewrite Hc2 in H.
  destruct (requestOpen KSasl (o_au o) c2 s2) as [r3 s3] eqn:E3. destruct r3; try discriminate.
  destruct (requestOpen_ok _ _ _ _ _ _ S3 Hu2 E3) as [_ [c3 [Hc3 [Hu3 _]]]]. rewrite Hc3 in H.
  injection H as <- <-. eexists. cbn [b_conn set_conn]. split; [reflexivity|]. split; [exact Hu3|reflexivity].
Qed.

Definition small_o (o : opening) : Prop := small (o_ver o) /\ small (o_hs o) /\ small (o_au o).
(** an attempt to open that fails leaves no open connection behind *)
Definition open_fine (sasl held : bool) (o : opening) (s : bst) : Prop :=
  match ensureOpen sasl held o s with (Ret (Ok _), _) => True | (_, s') => b_conn s' = None end.

Lemma ensure_sync sasl held o s r s' : small_o o -> sync s -> open_fine sasl held o s ->
  ensureOpen sasl held o s = (r, s') -> sync s' /\ (forall b, r = Ret (Ok b) -> exists c, b_conn s' = Some c /\ c_unread c = []).
Proof.
  intros [S1 [S2 S3]] Hs Hf E. unfold open_fine in Hf. rewrite E in Hf.
  destruct r as [[b| | |]|]; try (split; [unfold sync; rewrite Hf; exact I|intros; discriminate]).
  unfold ensureOpen in E. destruct (b_conn s) as [c|] eqn:Ec.
  - injection E as <- <-. split; [exact Hs|]. intros _ _. exists c. split; [exact Ec|]. unfold sync in Hs. rewrite Ec in Hs. exact Hs.
  - destruct (create_sync _ _ _ _ _ _ S1 S2 S3 E) as [c [Hc [Hu _]]]. split; [unfold sync; rewrite Hc; exact Hu|].
    intros _ _. exists c; split; assumption.
Qed.

Section Fetch.
  Variable unzip zip : Z -> bytes -> res bytes.

  Definition clean (sasl : bool) (s : bst) (op : op) : Prop :=
    match op with
    | OReq o x => small_o o /\ open_fine sasl true o s /\ clean_x x
    | OFetch o v st x => small_o o /\ open_fine sasl false o s /\ small x /\ covers x (8 + zlen (x_body x))
    | OClose => True
    end.
  Inductive clean_reach (sasl : bool) : bst -> Prop :=
  | cr_new o s : newBroker sasl o = Some s -> small_o o -> clean_reach sasl s
  | cr_step s op : clean_reach sasl s -> clean sasl s op -> clean_reach sasl (step unzip zip sasl s op).

  Lemma fetch_length_ok cs fin n body : concat cs = be 4 n ++ body -> 0 <= n < 2 ^ 32 ->
    forall r cs', read_fetch_length (mkStream cs fin) = (r, cs') -> (r = Ok n /\ concat cs' = body) \/ exists e, r = Err e.
  Proof.
    intros Hc Hn r cs' H. unfold read_fetch_length in H. cbn [st_chunks st_fin] in H.
    destruct (read1_some 4 cs) as [b [cs1 [E [Hb Hl]]]]; [lia|rewrite Hc; discriminate|]. rewrite E in H.
    destruct (Z.eqb_spec (zlen b) 4) as [H4|H4]; injection H as <- <-; [left|right; eexists; reflexivity].
    assert (Hbl : length b = 4%nat) by (unfold zlen in H4; lia).
    rewrite <- Hb in Hc.
    assert (b = be 4 n) as ->.
    { assert (F : firstn 4 (b ++ concat cs1) = firstn 4 (be 4 n ++ body)) by (rewrite Hc; reflexivity).
      rewrite firstn_app_exact in F by exact Hbl. rewrite firstn_app_exact in F by (rewrite be_length; reflexivity). exact F. }
    apply app_inv_head in Hc. split; [|exact Hc]. rewrite unbe_be. change (256 ^ Z.of_nat 4) with (2 ^ 32). rewrite Z.mod_small by lia. reflexivity.
  Qed.

  Lemma fetchOpen_own v st x c s r s' : small x -> c_unread c = [] -> fetchOpen unzip zip v st x c s = (r, s') ->
    (covers x (8 + zlen (x_body x)) -> sync s') /\
    (forall evs, r = Ok evs -> exists cs d n,
       concat cs = firstn n (be 4 (b_corr s') ++ x_body x) /\
       (covers x (8 + zlen (x_body x)) -> concat cs = be 4 (b_corr s') ++ x_body x) /\
       streamDecode unzip zip v st (4 + zlen (x_body x)) (mkStream cs (x_fin x)) = Ok (evs, d)).
  Proof.
    intros Hs Hc H. unfold fetchOpen in H. cbv zeta in H. rewrite Hc in H. cbn [app] in H.
    set (corr := (b_corr s + 1) mod 2 ^ 32) in *. pose proof (frame_len corr (x_body x)) as Hl.
    pose proof (zlen_nonneg (x_body x)) as H0. unfold small in Hs.
    destruct (x_write x) as [e|].
    - unfold arrived in H. assert (Hcut : concat (cut (x_arr x) []) = []) by (rewrite concat_cut, firstn_nil; reflexivity).
      unfold read_fetch_length in H. cbn [st_chunks] in H. rewrite read1_none in H by exact Hcut.
      injection H as <- <-. split; [intros _; exact I|intros; discriminate].
    - set (F := frame corr (x_body x)) in *. unfold arrived in H.
      assert (Hcc : concat (cut (x_arr x) F) = firstn (list_sum (x_arr x)) F) by apply concat_cut.
      destruct (read_fetch_length (mkStream (cut (x_arr x) F) (x_fin x))) as [r0 cs] eqn:Er.
      assert (Hr : (r0 = Ok (4 + zlen (x_body x)) /\ concat cs = firstn (list_sum (x_arr x) - 4) (be 4 corr ++ x_body x)) \/ exists e, r0 = Err e).
      { destruct (Nat.lt_ge_cases (list_sum (x_arr x)) 4) as [Hlt|Hge].
        - right. unfold read_fetch_length in Er. cbn [st_chunks st_fin] in Er.
          destruct (list_eq_dec Z.eq_dec (concat (cut (x_arr x) F)) []) as [He|He].
          + rewrite read1_none in Er by exact He. injection Er as <- _. eexists; reflexivity.
          + destruct (read1_some 4 (cut (x_arr x) F)) as [b [cs1 [E [Hb Hbl]]]]; [lia|exact He|]. rewrite E in Er.
            assert (length (b ++ concat cs1) <= 3)%nat by (rewrite Hb, Hcc, firstn_length; lia). rewrite app_length in H1.
            destruct (Z.eqb_spec (zlen b) 4) as [H4|H4]; [unfold zlen in H4; lia|]. injection Er as <- _. eexists; reflexivity.
        - apply (fetch_length_ok _ _ (4 + zlen (x_body x)) (firstn (list_sum (x_arr x) - 4) (be 4 corr ++ x_body x))) in Er; [exact Er| |lia].
          rewrite Hcc. unfold F, frame. rewrite firstn_app, be_length. f_equal. apply firstn_all2. rewrite be_length. lia. }
      destruct Hr as [[-> Hcs]|[e ->]].
      + assert (Hcov : covers x (8 + zlen (x_body x)) -> concat cs = be 4 corr ++ x_body x).
        { intros Hcov. rewrite Hcs. apply firstn_all2. rewrite app_length, be_length. unfold covers, zlen in *. lia. }
        destruct (streamDecode unzip zip v st (4 + zlen (x_body x)) (mkStream cs (x_fin x))) as [[evs d]| | |] eqn:Ed;
          injection H as <- <-; (split; [|intros evs0 Hev; try discriminate]).
        * intros Hco. unfold sync. cbn [set_conn b_conn c_unread]. rewrite pending_eq.
          rewrite (skipn_all2 F) by (unfold covers, zlen in *; lia). rewrite app_nil_r.
          replace (4 + zlen (x_body x)) with (zlen (be 4 corr ++ x_body x)) in Ed by (rewrite zlen_app, zlen_be; reflexivity).
          eapply stream_consumes_response; [|exact Ed]. rewrite app_nil_r. apply Hcov; exact Hco.
        * injection Hev as <-. exists cs, d, (list_sum (x_arr x) - 4)%nat. cbn [set_conn b_corr]. split; [exact Hcs|]. split; [exact Hcov|exact Ed].
        * intros _. exact Hc.
        * intros _. exact Hc.
        * intros _. exact Hc.
      + injection H as <- <-. split; [intros _; exact I|intros; discriminate].
  Qed.

  Lemma step_sync sasl s op : sync s -> clean sasl s op -> sync (step unzip zip sasl s op).
  Proof.
    intros Hs Hc. destruct op as [o x|o v st x|]; cbn [step clean] in *.
    - destruct Hc as [So [Hf Hx]]. unfold requestAndGet. destruct (ensureOpen sasl true o s) as [r s1] eqn:E.
      destruct (ensure_sync _ _ _ _ _ _ So Hs Hf E) as [H1 H2]. destruct r as [[b| | |]|]; try exact H1.
      destruct (H2 b eq_refl) as [c [Ec Hu]]. rewrite Ec. destruct (requestOpen KUser x c s1) as [r2 s2] eqn:E2. cbn [snd].
      eapply requestOpen_sync; eassumption.
    - destruct Hc as [So [Hf [Hx Hcov]]]. unfold requestFetch. destruct (ensureOpen sasl false o s) as [r s1] eqn:E.
      destruct (ensure_sync _ _ _ _ _ _ So Hs Hf E) as [H1 H2]. destruct r as [[b| | |]|]; try exact H1.
      destruct (H2 b eq_refl) as [c [Ec Hu]]. rewrite Ec. destruct (fetchOpen unzip zip v st x c s1) as [r2 s2] eqn:E2. cbn [snd].
      destruct (fetchOpen_own _ _ _ _ _ _ _ Hx Hu E2) as [Hsy _]. apply Hsy; exact Hcov.
    - exact I.
  Qed.
  Lemma reach_sync sasl s : clean_reach sasl s -> sync s.
  Proof.
    induction 1 as [o s H [S1 [S2 S3]]|s op H IH Hc].
    - unfold newBroker in H. destruct (createConnAndAuth sasl false o b_new) as [r s0] eqn:E. destruct r as [[b| | |]|]; try discriminate.
      injection H as <-. destruct (create_sync _ _ _ _ _ _ S1 S2 S3 E) as [c [Hc [Hu _]]]. unfold sync. rewrite Hc. exact Hu.
    - apply step_sync; assumption.
  Qed.

  Theorem own_answer sasl s o x raw s' : clean_reach sasl s -> small_o o -> small x ->
    requestAndGet sasl o x s = (Ret (Ok raw), s') -> raw = frame (b_corr s') (x_body x).
  Proof.
    intros Hr So Sx H. apply reach_sync in Hr. unfold requestAndGet in H.
    destruct (ensureOpen sasl true o s) as [r s1] eqn:E. destruct r as [[b| | |]|]; try discriminate.
    assert (Hf : open_fine sasl true o s) by (unfold open_fine; rewrite E; exact I).
    destruct (ensure_sync _ _ _ _ _ _ So Hr Hf E) as [_ H2]. destruct (H2 b eq_refl) as [c [Ec Hu]]. rewrite Ec in H.
    destruct (requestOpen KUser x c s1) as [r2 s2] eqn:E2. injection H as -> ->.
    apply (requestOpen_ok _ _ _ _ _ _ Sx Hu E2).
  Qed.
  Theorem own_fetch sasl s o v st x evs s' : clean_reach sasl s -> small_o o -> small x ->
    requestFetch unzip zip sasl o v st x s = (Ok evs, s') -> exists cs d n,
       concat cs = firstn n (be 4 (b_corr s') ++ x_body x) /\
       (covers x (8 + zlen (x_body x)) -> concat cs = be 4 (b_corr s') ++ x_body x) /\
       streamDecode unzip zip v st (4 + zlen (x_body x)) (mkStream cs (x_fin x)) = Ok (evs, d).
  Proof.
    intros Hr So Sx H. apply reach_sync in Hr. unfold requestFetch in H.
    destruct (ensureOpen sasl false o s) as [r s1] eqn:E. destruct r as [[b| | |]|]; try discriminate.
    assert (Hf : open_fine sasl false o s) by (unfold open_fine; rewrite E; exact I).
    destruct (ensure_sync _ _ _ _ _ _ So Hr Hf E) as [_ H2]. destruct (H2 b eq_refl) as [c [Ec Hu]]. rewrite Ec in H.
    destruct (fetchOpen_own _ _ _ _ _ _ _ Sx Hu H) as [_ Hev]. apply Hev; reflexivity.
  Qed.

  (** *** C16 *)
  Definition authI (s : bst) : Prop :=
    match b_conn s with Some c => c_auth c = true | None => True end /\
    Forall (fun w => w_kind w = KUser -> w_auth w = true) (b_log s).
  Definition log_ok (s : bst) : Prop := Forall (fun w => w_kind w = KUser -> w_auth w = true) (b_log s).
  Lemma exchange_auth k x c s r s' : log_ok s -> (k = KUser -> c_auth c = true) -> exchange k x c s = (r, s') ->
    log_ok s' /\ exists c', b_conn s' = Some c' /\ c_auth c' = c_auth c.
  Proof.
    intros Hl Hk E. unfold exchange in E. cbv zeta in E.
    assert (Hl' : Forall (fun w => w_kind w = KUser -> w_auth w = true) (b_log s ++ [mkW (c_id c) k ((b_corr s + 1) mod 2 ^ 32) (c_auth c)]))
      by (apply Forall_app; split; [exact Hl|constructor; [exact Hk|constructor]]).
    destruct (x_write x); [|destruct (read_response _) as [r0 cs]]; injection E as <- <-; (split; [exact Hl'|]); eexists; split; reflexivity.
  Qed.
  Lemma requestOpen_auth k x c s r s' : log_ok s -> (k = KUser -> c_auth c = true) -> requestOpen k x c s = (r, s') ->
    log_ok s' /\ forall c', b_conn s' = Some c' -> c_auth c' = c_auth c.
  Proof.
    intros Hl Hk E. unfold requestOpen in E. destruct (exchange k x c s) as [r0 s0] eqn:E0. injection E as <- <-.
    destruct (exchange_auth _ _ _ _ _ _ Hl Hk E0) as [H1 [c' [H2 H3]]].
    unfold close_on. destruct (judge x r0); try (split; [exact H1|intros c'' Hc; rewrite H2 in Hc; injection Hc as <-; exact H3]).
    destruct (closing e); (split; [exact H1|]); [intros; discriminate|intros c'' Hc; rewrite H2 in Hc; injection Hc as <-; exact H3].
  Qed.
  Lemma create_auth sasl held o s r s' : log_ok s -> createConnAndAuth sasl held o s = (r, s') ->
    log_ok s' /\ (forall b, r = Ret (Ok b) -> forall c, b_conn s' = Some c -> c_auth c = true).
  Proof.
    intros Hl E. unfold createConnAndAuth in E. destruct (o_dial o); [injection E as <- <-; split; [exact Hl|intros; discriminate]|]. cbv zeta in E.
    destruct (exchange KVersions _ _ _) as [r1 s1] eqn:E1.
    destruct (exchange_auth KVersions (o_ver o) _ (mkB _ (S (b_next s)) (b_corr s) (b_log s)) _ _ Hl ltac:(discriminate) E1) as [H1 [c1 [Hc1 Ha1]]].
    cbn [c_auth] in Ha1.
    destruct (judge (o_ver o) r1); try (injection E as <- <-; split; [exact H1|intros; discriminate]).
    rewrite Hc1 in E. destruct sasl; cbn [negb] in *.
    2:{ injection E as <- <-. split; [exact H1|]. intros _ _ c Hc. rewrite Hc1 in Hc. injection Hc as <-. exact Ha1. }
    destruct held; [injection E as <- <-; split; [exact H1|intros; discriminate]|].
    destruct (requestOpen KSasl (o_hs o) c1 s1) as [r2 s2] eqn:E2.
    destruct (requestOpen_auth KSasl _ _ _ _ _ H1 ltac:(discriminate) E2) as [H2 _].
    destruct r2; try (injection E as <- <-; split; [exact H2|intros; discriminate]).
    destruct (b_conn s2) as [c2|] eqn:Hc2.
    2:{ injection E as <- <-. split; [exact H2|]. intros _ _ c Hc. rewrite Hc2 in Hc. discriminate. }
    destruct (requestOpen KSasl (o_au o) c2 s2) as [r3 s3] eqn:E3.
    destruct (requestOpen_auth KSasl _ _ _ _ _ H2 ltac:(discriminate) E3) as [H3 _].
    destruct r3; try (injection E as <- <-; split; [exact H3|intros; discriminate]).
    destruct (b_conn s3) as [c3|] eqn:Hc3; injection E as <- <-; (split; [exact H3|]).
    - intros _ _ c Hc. cbn in Hc. injection Hc as <-. reflexivity.
    - intros _ _ c Hc. rewrite Hc3 in Hc. discriminate.
  Qed.
  Lemma ensure_auth sasl held o s r s' : authI s -> open_fine sasl held o s -> ensureOpen sasl held o s = (r, s') -> authI s'.
  Proof.
    intros [H1 H2] Hf E. unfold open_fine in Hf. rewrite E in Hf. unfold ensureOpen in E. destruct (b_conn s) as [c|] eqn:Ec.
    - injection E as <- <-. split; [rewrite Ec; exact H1|exact H2].
    - destruct (create_auth _ _ _ _ _ _ H2 E) as [HL HA]. split; [|exact HL].
      destruct r as [[b| | |]|]; try (rewrite Hf; exact I).
      destruct (b_conn s') as [c|] eqn:Ec'; [|exact I]. apply (HA b eq_refl c eq_refl).
  Qed.

  Definition opens_fine (sasl : bool) (s : bst) (op : op) : Prop :=
    match op with
    | OReq o _ => open_fine sasl true o s
    | OFetch o _ _ _ => open_fine sasl false o s
    | OClose => True
    end.
  Inductive fine_reach (sasl : bool) : bst -> Prop :=
  | fr_new o s : newBroker sasl o = Some s -> fine_reach sasl s
  | fr_step s op : fine_reach sasl s -> opens_fine sasl s op -> fine_reach sasl (step unzip zip sasl s op).

  Lemma step_auth sasl s op : authI s -> opens_fine sasl s op -> authI (step unzip zip sasl s op).
  Proof.
    intros Hs Hc. destruct op as [o x|o v st x|]; cbn [step opens_fine] in *.
    - unfold requestAndGet. destruct (ensureOpen sasl true o s) as [r s1] eqn:E.
      pose proof (ensure_auth _ _ _ _ _ _ Hs Hc E) as H1. destruct r as [[b| | |]|]; try exact H1.
      destruct (b_conn s1) as [c|] eqn:Ec; [|exact H1]. destruct (requestOpen KUser x c s1) as [r2 s2] eqn:E2. cbn [snd].
      destruct H1 as [Ha Hl]. rewrite Ec in Ha. destruct (requestOpen_auth _ _ _ _ _ _ Hl (fun _ => Ha) E2) as [L2 A2].
      split; [|exact L2]. destruct (b_conn s2) as [c2|]; [|exact I]. rewrite (A2 c2 eq_refl). exact Ha.
    - unfold requestFetch. destruct (ensureOpen sasl false o s) as [r s1] eqn:E.
      pose proof (ensure_auth _ _ _ _ _ _ Hs Hc E) as H1. destruct r as [[b| | |]|]; try exact H1.
      destruct (b_conn s1) as [c|] eqn:Ec; [|exact H1]. destruct H1 as [Ha Hl]. rewrite Ec in Ha. unfold fetchOpen. cbv zeta.
      assert (L : forall co, Forall (fun w => w_kind w = KUser -> w_auth w = true)
         (b_log (mkB co (b_next s1) ((b_corr s1 + 1) mod 2 ^ 32) (b_log s1 ++ [mkW (c_id c) KUser ((b_corr s1 + 1) mod 2 ^ 32) (c_auth c)])))).
      { intros co. apply Forall_app. split; [exact Hl|]. constructor; [intros _; exact Ha|constructor]. }
      destruct (read_fetch_length _) as [r0 cs].
      destruct r0; [|split; [exact I|apply (L None)]|split; [exact Ha|apply (L (Some c))]|split; [exact Ha|apply (L (Some c))]].
      destruct (streamDecode _ _ _ _ _ _) as [[evs d]| | |]; split; try exact Ha; apply (L (Some c)).
    - destruct Hs as [_ Hl]. split; [exact I|exact Hl].
  Qed.
  Theorem authenticated sasl s : fine_reach sasl s -> Forall (fun w => w_kind w = KUser -> w_auth w = true) (b_log s).
  Proof.
    intros H. assert (A : authI s); [|apply A]. induction H as [o s H|s op H IH Hc].
    - unfold newBroker in H. destruct (createConnAndAuth sasl false o b_new) as [r s0] eqn:E. destruct r as [[b| | |]|]; try discriminate.
      injection H as <-. destruct (create_auth _ _ _ b_new _ _ (Forall_nil _) E) as [L A]. split; [|exact L].
      destruct (b_conn s0) as [c|]; [|exact I]. apply (A b eq_refl c eq_refl).
    - apply step_auth; assumption.
  Qed.

  (** *** C17 *)
  Theorem no_sasl_no_deadlock o x s : fst (requestAndGet false o x s) <> Blocked.
  Proof.
    unfold requestAndGet, ensureOpen. destruct (b_conn s) as [c|] eqn:Ec.
    - rewrite Ec. destruct (requestOpen KUser x c s). discriminate.
    - unfold createConnAndAuth. destruct (o_dial o); [discriminate|]. cbv zeta.
      destruct (exchange _ _ _ _) as [r1 s1]. destruct (judge (o_ver o) r1); try discriminate. destruct (b_conn s1) eqn:E1; cbn [negb].
      + rewrite E1. destruct (requestOpen KUser x c s1). discriminate.
      + rewrite E1. discriminate.
  Qed.
  Theorem fetch_no_deadlock sasl o s : fst (ensureOpen sasl false o s) <> Blocked.
  Proof.
    unfold ensureOpen. destruct (b_conn s); [discriminate|]. unfold createConnAndAuth. destruct (o_dial o); [discriminate|]. cbv zeta.
    destruct (exchange _ _ _ _) as [r1 s1]. destruct (judge (o_ver o) r1); try discriminate. destruct (b_conn s1) as [c1|]; [|discriminate].
    destruct (negb sasl); [discriminate|]. destruct (requestOpen KSasl (o_hs o) c1 s1) as [r2 s2]. destruct r2; try discriminate.
    destruct (b_conn s2) as [c2|]; [|discriminate]. destruct (requestOpen KSasl (o_au o) c2 s2) as [r3 s3]. destruct r3; try discriminate.
    destruct (b_conn s3); discriminate.
  Qed.
  (** reopening without SASL: the request is answered on the new connection *)
  Theorem reopens s o x : b_conn s = None -> o_dial o = None -> small (o_ver o) -> small x ->
    x_write (o_ver o) = None -> covers (o_ver o) (8 + zlen (x_body (o_ver o))) -> x_verdict (o_ver o) = None ->
    x_write x = None -> covers x (8 + zlen (x_body x)) -> x_verdict x = None ->
    exists s' c, requestAndGet false o x s = (Ret (Ok (frame (b_corr s') (x_body x))), s') /\
      b_conn s' = Some c /\ c_id c = b_next s /\ c_unread c = [].
  Proof.
    intros Hc Hd S1 S2 W1 C1 V1 W2 C2 V2. unfold requestAndGet, ensureOpen. rewrite Hc. unfold createConnAndAuth. rewrite Hd. cbv zeta.
    set (c0 := mkConn (b_next s) [] (negb false)).
    destruct (exchange_sync KVersions (o_ver o) c0 (mkB (Some c0) (S (b_next s)) (b_corr s) (b_log s)) S1 eq_refl) as [c1 [r [E [Hi [Ha Hr]]]]].
    rewrite E. destruct Hr as [[-> [Hu Hw]]|[[e [-> [Hw Hu]]]|[-> [Hn Hw]]]]; [|congruence|contradiction].
    cbn [judge]. rewrite V1. cbn [b_conn negb].
    set (s1 := mkB (Some c1) _ _ _).
    destruct (exchange_sync KUser x c1 s1 S2 Hu) as [c2 [r2 [E2 [Hi2 [Ha2 Hr2]]]]]. unfold requestOpen. rewrite E2.
    destruct Hr2 as [[-> [Hu2 Hw2]]|[[e [-> [Hw2 Hu2]]]|[-> [Hn2 Hw2]]]]; [|congruence|contradiction].
    cbn [judge]. rewrite V2. cbn [close_on].
    exists (mkB (Some c2) (b_next s1) ((b_corr s1 + 1) mod 2 ^ 32) (b_log s1 ++ [mkW (c_id c1) KUser ((b_corr s1 + 1) mod 2 ^ 32) (c_auth c1)])), c2.
    split; [reflexivity|]. split; [reflexivity|].
    split; [rewrite Hi2, Hi; reflexivity|exact Hu2].
  Qed.
  (** with SASL: the goroutine waits for a lock it holds itself *)
  Theorem sasl_deadlock s o x : b_conn s = None -> o_dial o = None -> small (o_ver o) ->
    x_write (o_ver o) = None -> covers (o_ver o) (8 + zlen (x_body (o_ver o))) -> x_verdict (o_ver o) = None ->
    fst (requestAndGet true o x s) = Blocked.
  Proof.
    intros Hc Hd S1 W1 C1 V1. unfold requestAndGet, ensureOpen. rewrite Hc. unfold createConnAndAuth. rewrite Hd. cbv zeta.
    set (c0 := mkConn (b_next s) [] (negb true)).
    destruct (exchange_sync KVersions (o_ver o) c0 (mkB (Some c0) (S (b_next s)) (b_corr s) (b_log s)) S1 eq_refl) as [c1 [r [E [Hi [Ha Hr]]]]].
    rewrite E. destruct Hr as [[-> [Hu Hw]]|[[e [-> [Hw Hu]]]|[-> [Hn Hw]]]]; [|congruence|contradiction].
    cbn [judge]. rewrite V1. reflexivity.
  Qed.
End Fetch.
