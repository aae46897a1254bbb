From Coq Require Import Permutation.
From Verif Require Import Base BaseFacts Wire WireFacts RecordSpec Records Requests RequestSpec RequestPrep BuildersSpec Calls CallsSpec CallsFacts
  Fetch FetchSpec FetchFacts FetchRefute AsksSpec.

(** the bytes of a fetch *)
Lemma fetch_asks zip client v t p off mw mi mb ep corr r out r' : v = 7 \/ v = 10 ->
  (forall x, says (CKFetch t p off mw mi mb ep) v x -> val_wf x /\ zlen (val_bytes x) + zlen client + 15 < 2 ^ 31) ->
  i32 corr -> zlen client < 2 ^ 15 ->
  call_request (@rev Z) client (CKFetch t p off mw mi mb ep) = Some r -> prepare zip corr v r = Ok (out, r') ->
  asks v out = Some (0, (0, 0)).
Proof.
  intros Hv W Hc Hcl E P.
  assert (S : exists x, says (CKFetch t p off mw mi mb ep) v x) by (destruct Hv as [-> | ->]; eexists; reflexivity).
  assert (Hi : i16 v) by (unfold i16; destruct Hv as [-> | ->]; lia).
  pose proof (call_sent zip (@rev Z) client (CKFetch t p off mw mi mb ep) v corr [] (fun l => Permutation_sym (Permutation_rev l)) Logic.I S W Hi Hc Hcl) as H.
  destruct H as [r0 [out0 [r1 [x [E0 [P0 [Sx B]]]]]]]. rewrite E in E0. injection E0 as <-. rewrite P in P0. injection P0 as <- <-.
  rewrite app_nil_r in B. unfold asks. cbn [call_key] in B. destruct Hv as [-> | ->]; cbn [says] in Sx; subst x; cbn [projT1 projT2 V] in B; rewrite B; reflexivity.
Qed.

Lemma sends_asks zip client v out : v = 7 \/ v = 10 -> sends zip client v out -> asks v out = Some (0, (0, 0)).
Proof. intros Hv [t [p [off [mw [mi [mb [ep [corr [r [r' [W [Hc [Hl [E P]]]]]]]]]]]]]]. eapply fetch_asks; eassumption. Qed.

Lemma no_zero : forall l : list Z, ~ In 0 l -> filter (fun s => negb (s =? 0)) l = l.
Proof.
  induction l as [|x l IH]; intros H; [reflexivity|]. cbn [filter]. destruct (Z.eqb_spec x 0) as [->|N]; [exfalso; apply H; left; reflexivity|].
  cbn [negb]. f_equal. apply IH. intros Hx. apply H. right; exact Hx.
Qed.
Lemma sessions_grow zip client v : (v = 7 \/ v = 10) -> forall l k,
  Forall (fun x : Z * bytes => fst x <> 0 /\ sends zip client v (snd x)) l -> ~ In 0 (sessions k) -> (length (sessions k) <= slots k)%nat ->
  length (sessions (serve_all v k l)) = Nat.min (slots k) (length (sessions k) + length l).
Proof.
  intros Hv. induction l as [|[fresh out] l IH]; intros k Hl H0 Hs.
  - cbn [serve_all length]. lia.
  - inversion Hl as [|? ? [Hf Ho] Hl']; subst. cbn [fst snd] in *. cbn [serve_all]. rewrite (sends_asks zip client v out Hv Ho).
    unfold serve. rewrite no_zero by exact H0. change (0 =? -1) with false. change (0 =? 0) with true. cbv iota.
    destruct (Nat.ltb_spec (length (sessions k)) (slots k)) as [L|L].
    + rewrite IH; cbn [slots sessions length]; [lia|exact Hl'| |lia]. intros [E|E]; [congruence|contradiction].
    + rewrite IH; cbn [slots sessions length]; [lia|exact Hl'|exact H0|exact Hs].
Qed.

(** every batch is delivered *)
Lemma exp_in st p ws w r : In w ws -> In r (wb_recs w) -> st <= sb_base (wb_h w) + sr_od r ->
  In (EvMsg (pr_topic p) (pr_pid p) (exp_msg (wb_h w) r)) (exp_presp st p (mkRS ws None)).
Proof.
  intros Hw Hr Hst.
  assert (H : In (EvMsg (pr_topic p) (pr_pid p) (exp_msg (wb_h w) r)) (exp_rset (pr_topic p) (pr_pid p) st (mkRS ws None))).
  { unfold exp_rset, exp_all. cbn [rs_whole rs_cut]. rewrite app_nil_r. apply in_flat_map. exists w. split; [exact Hw|].
    unfold exp_events. apply in_map. apply filter_In. split; [apply in_map; exact Hr|]. unfold wanted, exp_msg. cbn. apply Z.leb_le. exact Hst. }
  unfold exp_presp. cbv zeta. destruct (exp_rset _ _ _ _) eqn:E; [destruct H|]. exact H.
Qed.
Lemma plain_committed : forall ws, Forall (fun w => in_txn w = false /\ is_marker w = false) ws -> committed ws = ws.
Proof.
  induction ws as [|w ws IH]; intros H; [reflexivity|]. inversion H as [|? ? [H1 H2] H']; subst. cbn [committed]. rewrite H1, H2, IH by exact H'. reflexivity.
Qed.
Lemma one_read unzip zip v st p ws fin : (v = 0 \/ v = 7 \/ v = 10) -> wf_presp p -> Forall (wf_wb unzip) ws -> pr_records p = flat_map enc_wb ws ->
  exists s', streamDecode unzip zip v st (zlen (enc_presp v p)) (mkStream [enc_presp v p] fin) = Ok (exp_presp st p (mkRS ws None), s').
Proof.
  intros Hv Hp Hw Hr.
  destruct (stream_first_read unzip zip v st p (mkRS ws None) [] (enc_presp v p) [] fin Hv Hp) as [s' [E _]].
  - split; [exact Hw|exact Logic.I].
  - unfold enc_rset. cbn [rs_whole rs_cut]. rewrite app_nil_r. exact Hr.
  - reflexivity.
  - pose proof (zlen_nonneg (pr_records p)). lia.
  - exists s'. exact E.
Qed.
Lemma records_only st p q rs : same_records p q -> exp_presp st p rs = exp_presp st q rs.
Proof. intros [H1 [H2 H3]]. unfold exp_presp. rewrite H1, H2. reflexivity. Qed.
