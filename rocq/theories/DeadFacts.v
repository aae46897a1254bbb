From Verif Require Import Base BaseFacts Fetch FetchKeep Conn ConnFacts ConnSync DeadSpec.

Lemma nothing_arrives : forall sizes b, list_sum sizes = 0%nat -> concat (cut sizes b) = [].
Proof. intros sizes b H. rewrite concat_cut, H. reflexivity. Qed.
Lemma read_nothing cs fin : concat cs = [] -> read_response (mkStream cs fin) = (Err fin, []).
Proof. intros H. unfold read_response. cbn [st_chunks st_fin]. rewrite read_loop_short; [reflexivity|]. rewrite H. cbn. lia. Qed.
Lemma closing_root e : closing (EWrap e) = true <-> ended e.
Proof.
  unfold closing, ended. cbn [err_root orb]. destruct (err_root e); split; intros H;
    first [reflexivity | discriminate H | left; reflexivity | right; reflexivity | destruct H as [H|H]; discriminate H].
Qed.

(** a request that fails *)
Lemma exchange_fails k x c s e : fails x e -> let corr := (b_corr s + 1) mod 2 ^ 32 in
  exists c', exchange k x c s = (Err (EWrap e), mkB (Some c') (b_next s) corr (b_log s ++ [mkW (c_id c) k corr (c_auth c)])) /\
    c_id c' = c_id c /\ (x_write x = None -> c_unread c' = c_unread c ++ frame corr (x_body x)).
Proof.
  intros H. unfold exchange. cbv zeta. destruct H as [H|[H1 [H2 H3]]].
  - rewrite H. exists c. split; [reflexivity|]. split; [reflexivity|]. discriminate.
  - rewrite H1. unfold arrived. rewrite read_nothing by (apply nothing_arrives; exact H2). rewrite H3.
    eexists (mkConn _ _ _). split; [reflexivity|]. split; [reflexivity|]. intros _. cbn [c_unread concat app].
    rewrite pending_eq, H2. reflexivity.
Qed.
Lemma request_open sasl o x s c : b_conn s = Some c ->
  requestAndGet sasl o x s = let '(r, s') := requestOpen KUser x c s in (Ret r, s').
Proof. intros H. unfold requestAndGet, ensureOpen. rewrite !H. reflexivity. Qed.

Lemma kept_step sasl o x s c e : b_conn s = Some c -> fails x e -> ~ ended e ->
  exists c' corr, requestAndGet sasl o x s =
    (Ret (Err (EWrap e)), mkB (Some c') (b_next s) corr (b_log s ++ [mkW (c_id c) KUser corr (c_auth c)])) /\
    c_id c' = c_id c /\ corr = (b_corr s + 1) mod 2 ^ 32 /\ (x_write x = None -> c_unread c' = c_unread c ++ frame corr (x_body x)).
Proof.
  intros Hc Hf He. rewrite (request_open _ _ _ _ _ Hc). unfold requestOpen.
  destruct (exchange_fails KUser x c s e Hf) as [c' [E [Hi Hu]]]. rewrite E. cbn [judge close_on].
  assert (N : closing (EWrap e) = false).
  { destruct (closing (EWrap e)) eqn:C; [|reflexivity]. apply closing_root in C. contradiction. }
  rewrite N. exists c', ((b_corr s + 1) mod 2 ^ 32). split; [reflexivity|]. split; [exact Hi|]. split; [reflexivity|exact Hu].
Qed.
Lemma kept unzip zip sasl : forall l s c, b_conn s = Some c ->
  Forall (fun r : opening * exch => exists e, fails (snd r) e /\ ~ ended e) l ->
  let s' := run unzip zip sasl s (map (fun r => OReq (fst r) (snd r)) l) in
  exists c', b_conn s' = Some c' /\ c_id c' = c_id c /\
    map w_conn (b_log s') = map w_conn (b_log s) ++ repeat (c_id c) (length l).
Proof.
  induction l as [|[o x] l IH]; intros s c Hc Hf; cbv zeta; cbn [map run fold_left repeat length].
  - exists c. split; [exact Hc|]. split; [reflexivity|]. rewrite app_nil_r. reflexivity.
  - inversion Hf as [|? ? [e [He Hn]] Hf']; subst. cbn [fst snd step] in *.
    destruct (kept_step sasl o x s c e Hc He Hn) as [c1 [corr [E [Hi _]]]]. rewrite E. cbn [snd].
    destruct (IH (mkB (Some c1) (b_next s) corr (b_log s ++ [mkW (c_id c) KUser corr (c_auth c)])) c1 eq_refl Hf') as [c' [H1 [H2 H3]]].
    exists c'. split; [exact H1|]. split; [rewrite H2; exact Hi|].
    unfold run in H3. rewrite H3. cbn [b_log]. rewrite map_app. cbn [map w_conn]. rewrite <- app_assoc, Hi. reflexivity.
Qed.
Lemma given_up sasl o x s c e : b_conn s = Some c -> fails x e -> ended e ->
  fst (requestAndGet sasl o x s) = Ret (Err (EWrap e)) /\ b_conn (snd (requestAndGet sasl o x s)) = None.
Proof.
  intros Hc Hf He. rewrite (request_open _ _ _ _ _ Hc). unfold requestOpen.
  destruct (exchange_fails KUser x c s e Hf) as [c' [E _]]. rewrite E. cbn [judge close_on].
  apply closing_root in He. rewrite He. split; reflexivity.
Qed.
Lemma fetch_given_up unzip zip sasl o v st x s c : b_conn s = Some c ->
  (list_sum (x_arr x) = 0%nat \/ (c_unread c = [] /\ x_write x <> None)) ->
  fst (requestFetch unzip zip sasl o v st x s) = Err (x_fin x) /\ b_conn (snd (requestFetch unzip zip sasl o v st x s)) = None.
Proof.
  intros Hc H. unfold requestFetch, ensureOpen. rewrite !Hc. unfold fetchOpen. cbv zeta.
  set (all := match x_write x with Some _ => _ | None => _ end).
  assert (E : concat (cut (x_arr x) all) = []).
  { destruct H as [H|[H1 H2]]; [apply nothing_arrives; exact H|]. rewrite concat_cut. unfold all.
    destruct (x_write x); [|congruence]. rewrite H1. apply firstn_nil. }
  unfold arrived, read_fetch_length. cbn [st_chunks st_fin]. rewrite read1_none by exact E. split; reflexivity.
Qed.

(** reading from a connection on which answers wait *)
Lemma exchange_queue k x c s corr0 b0 rest : zlen b0 < 2 ^ 32 - 4 -> x_write x = None -> covers x (8 + zlen b0) ->
  let corr := (b_corr s + 1) mod 2 ^ 32 in
  c_unread c ++ frame corr (x_body x) = frame corr0 b0 ++ rest ->
  exists c', exchange k x c s = (Ok (frame corr0 b0), mkB (Some c') (b_next s) corr (b_log s ++ [mkW (c_id c) k corr (c_auth c)])) /\
    c_id c' = c_id c /\ c_unread c' = rest.
Proof.
  intros Hs Hw Hc corr Hq. unfold exchange. cbv zeta. fold corr. rewrite Hw, Hq. unfold arrived.
  pose proof (frame_len corr0 b0) as Hl. unfold covers in Hc. pose proof (zlen_nonneg b0) as Hb0.
  set (N := list_sum (x_arr x)) in *. set (F := frame corr0 b0) in *.
  assert (HN : (length F <= N)%nat) by (unfold zlen in *; lia).
  assert (E : concat (cut (x_arr x) (F ++ rest)) = F ++ firstn (N - length F) rest).
  { rewrite concat_cut, firstn_app. fold N. rewrite (firstn_all2 F) by exact HN. reflexivity. }
  destruct (read_response_ok (cut (x_arr x) (F ++ rest)) (x_fin x) (be 4 corr0 ++ b0) (firstn (N - length F) rest)) as [cs [E1 H1]].
  - rewrite E. unfold F at 1. rewrite frame_shape, <- !app_assoc. reflexivity.
  - rewrite zlen_app, zlen_be. lia.
  - rewrite <- frame_shape in E1. fold F in E1. rewrite E1. eexists (mkConn _ _ _). split; [reflexivity|]. split; [reflexivity|].
    cbn [c_unread]. rewrite H1, pending_eq. fold F. rewrite skipn_app. fold N. rewrite (skipn_all2 F) by exact HN.
    cbn [app]. apply firstn_skipn.
Qed.

Lemma silent_fails x : silent x -> fails x ETimeout.
Proof. intros H. right. exact H. Qed.
Lemma timeout_goes_on : ~ ended ETimeout.
Proof. intros [H|H]; discriminate. Qed.

(** [q]: the answers that wait *)
Lemma behind_good sasl : forall good s c q, b_conn s = Some c -> c_unread c = concat (map (fun p : Z * bytes => frame (fst p) (snd p)) q) ->
  Forall (fun p => zlen (snd p) < 2 ^ 32 - 4) q ->
  Forall (fun r : opening * exch => small (snd r) /\ x_write (snd r) = None /\ x_verdict (snd r) = None /\
    Forall (fun p => covers (snd r) (8 + zlen (snd p))) q /\ Forall (fun r' : opening * exch => covers (snd r) (8 + zlen (x_body (snd r')))) good) good ->
  answers sasl s good = map (fun f => Ret (Ok f))
    (firstn (length good) (map (fun p => frame (fst p) (snd p)) q ++ sent (b_corr s) (map snd good))).
Proof.
  intros good. 
  enough (G : forall all good s c q, (forall r, In r good -> In r all) -> b_conn s = Some c -> c_unread c = concat (map (fun p : Z * bytes => frame (fst p) (snd p)) q) ->
    Forall (fun p => zlen (snd p) < 2 ^ 32 - 4) q ->
    Forall (fun r : opening * exch => small (snd r) /\ x_write (snd r) = None /\ x_verdict (snd r) = None /\
      Forall (fun p => covers (snd r) (8 + zlen (snd p))) q /\ Forall (fun r' : opening * exch => covers (snd r) (8 + zlen (x_body (snd r')))) all) good ->
    answers sasl s good = map (fun f => Ret (Ok f))
      (firstn (length good) (map (fun p => frame (fst p) (snd p)) q ++ sent (b_corr s) (map snd good)))).
  { intros s c q H1 H2 H3 H4. eapply G; try eassumption. exact (fun r H => H). }
  clear good. intros all. induction good as [|[o x] good IH]; intros s c q Hin Hc Hu Hq Hg; [reflexivity|].
  inversion Hg as [|? ? [Hs [Hw [Hv [Hcq Hca]]]] Hg']; subst. cbn [fst snd] in *.
  cbn [answers length map sent firstn]. cbv zeta. rewrite (request_open _ _ _ _ _ Hc). unfold requestOpen.
  set (corr := (b_corr s + 1) mod 2 ^ 32).
  destruct q as [|[k0 b0] q]; cbn [map app fst snd concat] in *.
  - destruct (exchange_queue KUser x c s corr (x_body x) [] Hs Hw) as [c' [E [Hi Hr]]].
    + rewrite Forall_forall in Hca. apply (Hca (o, x)). apply Hin. left; reflexivity.
    + cbv zeta. fold corr. rewrite Hu, app_nil_r. reflexivity.
    + rewrite E. cbn [judge]. rewrite Hv. cbn [close_on]. fold corr. f_equal.
      rewrite (IH (mkB (Some c') (b_next s) corr (b_log s ++ [mkW (c_id c) KUser corr (c_auth c)])) c' []); [reflexivity| | | | |].
      * intros r Hr'. apply Hin. right. exact Hr'.
      * reflexivity.
      * exact Hr.
      * constructor.
      * exact Hg'.
  - inversion Hq as [|? ? Hq0 Hq']; subst. inversion Hcq as [|? ? Hc0 Hcq']; subst. cbn [fst snd] in *.
    destruct (exchange_queue KUser x c s k0 b0 (concat (map (fun p : Z * bytes => frame (fst p) (snd p)) (q ++ [(corr, x_body x)]))) Hq0 Hw Hc0) as [c' [E [Hi Hr]]].
    + cbv zeta. fold corr. rewrite Hu, map_app, concat_app. cbn [map concat fst snd]. rewrite app_nil_r, <- app_assoc. reflexivity.
    + rewrite E. cbn [judge]. rewrite Hv. cbn [close_on]. fold corr. f_equal.
      rewrite (IH (mkB (Some c') (b_next s) corr (b_log s ++ [mkW (c_id c) KUser corr (c_auth c)])) c' (q ++ [(corr, x_body x)])).
      * cbn [b_corr]. rewrite map_app, <- app_assoc. reflexivity.
      * intros r Hr'. apply Hin. right. exact Hr'.
      * reflexivity.
      * exact Hr.
      * apply Forall_app. split; [exact Hq'|constructor; [exact Hs|constructor]].
      * rewrite Forall_forall in Hg' |- *. intros r Hr'. destruct (Hg' r Hr') as [A [B [C [D F]]]].
        split; [exact A|]. split; [exact B|]. split; [exact C|]. split; [|exact F].
        inversion D; subst. apply Forall_app. split; [assumption|]. constructor; [|constructor]. cbn [snd].
        rewrite Forall_forall in F. apply (F (o, x)). apply Hin. left; reflexivity.
Qed.

(** silent requests, then requests to which everything arrives *)
Lemma behind sasl : forall late good s c, b_conn s = Some c -> c_unread c = [] ->
  Forall (fun r : opening * exch => small (snd r) /\ silent (snd r)) late ->
  Forall (fun r : opening * exch => small (snd r) /\ x_write (snd r) = None /\ x_verdict (snd r) = None /\
    Forall (fun r' : opening * exch => covers (snd r) (8 + zlen (x_body (snd r')))) (late ++ good)) good ->
  answers sasl s (late ++ good) = repeat (Ret (Err (EWrap ETimeout))) (length late) ++
    map (fun f => Ret (Ok f)) (firstn (length good) (sent (b_corr s) (map snd (late ++ good)))).
Proof.
  intros late good s c Hc Hu Hl Hg.
  assert (G : forall l2 s c q, b_conn s = Some c -> c_unread c = concat (map (fun p : Z * bytes => frame (fst p) (snd p)) q) ->
     (forall p, In p q -> exists r, In r late /\ snd p = x_body (snd r)) -> (forall r, In r l2 -> In r late) ->
     answers sasl s (l2 ++ good) = repeat (Ret (Err (EWrap ETimeout))) (length l2) ++
       map (fun f => Ret (Ok f)) (firstn (length good) (map (fun p => frame (fst p) (snd p)) q ++ sent (b_corr s) (map snd (l2 ++ good))))).
  { clear s c Hc Hu. induction l2 as [|[o x] l2 IH]; intros s c q Hc Hu Hq Hin.
    - cbn [app length repeat]. apply (behind_good sasl good s c q Hc Hu).
      + rewrite Forall_forall in Hl |- *. intros p Hp. destruct (Hq p Hp) as [r [Hr E]]. rewrite E. apply (Hl r Hr).
      + rewrite Forall_forall in Hg |- *. intros r Hr. destruct (Hg r Hr) as [A [B [C D]]]. split; [exact A|]. split; [exact B|]. split; [exact C|].
        rewrite Forall_forall in D. split; apply Forall_forall.
        * intros p Hp. destruct (Hq p Hp) as [r' [Hr' E]]. rewrite E. apply D. apply in_or_app. left; exact Hr'.
        * intros r' Hr'. apply D. apply in_or_app. right; exact Hr'.
    - rewrite Forall_forall in Hl. destruct (Hl (o, x) (Hin (o, x) (or_introl eq_refl))) as [Hs Hsil]. cbn [snd] in *.
      cbn [app answers length repeat].
      destruct (kept_step sasl o x s c ETimeout Hc (silent_fails x Hsil) timeout_goes_on) as [c1 [corr [E [Hi [Hcorr Hun]]]]].
      rewrite E. f_equal.
      rewrite (IH (mkB (Some c1) (b_next s) corr (b_log s ++ [mkW (c_id c) KUser corr (c_auth c)])) c1 (q ++ [(corr, x_body x)])).
      + cbn [b_corr map snd sent]. cbv zeta. rewrite <- Hcorr, map_app, <- app_assoc. reflexivity.
      + reflexivity.
      + destruct Hsil as [Hw _]. rewrite (Hun Hw), Hu, map_app, concat_app. cbn [map concat fst snd]. rewrite app_nil_r. reflexivity.
      + intros p Hp. apply in_app_or in Hp. destruct Hp as [Hp|[<-|[]]]; [apply Hq; exact Hp|]. exists (o, x). split; [apply Hin; left|]; reflexivity.
      + intros r Hr. apply Hin. right; exact Hr. }
  rewrite (G late s c [] Hc Hu); [reflexivity|intros p []|exact (fun r H => H)].
Qed.
