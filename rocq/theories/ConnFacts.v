From Verif Require Import Base BaseFacts Fetch FetchKeep Conn.

(** *** Reading *)
Lemma read1_some : forall n cs, (0 < n)%nat -> concat cs <> [] ->
  exists b cs', read1 n cs = Some (b, cs') /\ b ++ concat cs' = concat cs /\ (0 < length b <= n)%nat.
Proof.
  intros n cs Hn. induction cs as [|c cs IH]; cbn [concat read1]; intros H; [congruence|].
  destruct c as [|x c]; [apply IH; exact H|].
  exists (firstn n (x :: c)), (skipn n (x :: c) :: cs). split; [reflexivity|]. split.
  - cbn [concat]. rewrite app_assoc, firstn_skipn. reflexivity.
  - rewrite firstn_length. cbn [length]. lia.
Qed.
Lemma read1_none : forall n cs, concat cs = [] -> read1 n cs = None.
Proof.
  intros n cs. induction cs as [|c cs IH]; cbn [concat read1]; intros H; [reflexivity|].
  destruct c as [|x c]; [apply IH; exact H|discriminate].
Qed.
Lemma read_loop_ok : forall f n cs acc, (n <= f)%nat -> (n <= length (concat cs))%nat ->
  exists cs', read_loop f n cs acc = Some (acc ++ firstn n (concat cs), cs') /\ concat cs' = skipn n (concat cs).
Proof.
  induction f as [|f IH]; intros n cs acc Hf Hn.
  - assert (n = O) by lia. subst. exists cs. cbn. rewrite app_nil_r. split; reflexivity.
  - destruct n as [|n]; [exists cs; cbn; rewrite app_nil_r; split; reflexivity|].
    cbn [read_loop]. destruct (read1_some (S n) cs) as [b [cs1 [E [Hb Hl]]]]; [lia|intros H; rewrite H in Hn; cbn in Hn; lia|].
    rewrite E. rewrite <- Hb in Hn |- *. rewrite app_length in Hn.
    destruct (IH (S n - length b)%nat cs1 (acc ++ b)) as [cs2 [E2 H2]]; [lia|lia|].
    exists cs2. rewrite E2. split.
    + rewrite <- app_assoc. do 3 f_equal. rewrite firstn_app. assert (Ef : firstn (S n) b = b) by (apply firstn_all2; lia).
      rewrite Ef. reflexivity.
    + rewrite H2. rewrite skipn_app. assert (Es : skipn (S n) b = []) by (apply skipn_all2; lia). rewrite Es. reflexivity.
Qed.
Lemma read_loop_short : forall f n cs acc, (length (concat cs) < n)%nat -> read_loop f n cs acc = None.
Proof.
  induction f as [|f IH]; intros n cs acc Hn; destruct n as [|n]; try lia; [reflexivity|].
  cbn [read_loop]. destruct (list_eq_dec Z.eq_dec (concat cs) []) as [H|H].
  - rewrite read1_none by exact H. reflexivity.
  - destruct (read1_some (S n) cs) as [b [cs1 [E [Hb Hl]]]]; [lia|exact H|]. rewrite E. apply IH.
    rewrite <- Hb, app_length in Hn. lia.
Qed.

Lemma read_response_ok cs fin body rest : concat cs = be 4 (zlen body) ++ body ++ rest -> 4 <= zlen body < 2 ^ 32 ->
  exists cs', read_response (mkStream cs fin) = (Ok (be 4 (zlen body) ++ body), cs') /\ concat cs' = rest.
Proof.
  intros Hc Hb. unfold read_response. cbn [st_chunks st_fin].
  destruct (read_loop_ok 4 4 cs []) as [cs1 [E1 H1]]; [lia|rewrite Hc, app_length, be_length; lia|].
  rewrite E1. rewrite Hc. rewrite firstn_app_exact by (rewrite be_length; reflexivity).
  rewrite Hc, skipn_app_exact in H1 by (rewrite be_length; reflexivity). cbn [app].
  rewrite unbe_be. change (256 ^ Z.of_nat 4) with (2 ^ 32). rewrite Z.mod_small by lia.
  assert (Hn : Z.to_nat (zlen body) = length body) by (unfold zlen; lia). cbv zeta. rewrite Hn.
  destruct (read_loop_ok (length body) (length body) cs1 []) as [cs2 [E2 H2]]; [lia|rewrite H1, app_length; lia|].
  rewrite E2, H1, firstn_app_exact by reflexivity. rewrite H1, skipn_app_exact in H2 by reflexivity.
  destruct (Z.ltb_spec (zlen body) 4); [lia|]. exists cs2. split; [reflexivity|exact H2].
Qed.
Lemma read_response_short cs fin body rest : be 4 (zlen body) ++ body = concat cs ++ rest -> rest <> [] -> zlen body < 2 ^ 32 ->
  read_response (mkStream cs fin) = (Err fin, []).
Proof.
  intros Hc Hr Hb. unfold read_response. cbn [st_chunks st_fin].
  assert (Hl : (length (concat cs) < 4 + length body)%nat).
  { assert (length (be 4 (zlen body) ++ body) = length (concat cs ++ rest)) by (rewrite Hc; reflexivity).
    rewrite !app_length, be_length in H. destruct rest; [congruence|cbn [length] in H; lia]. }
  destruct (Nat.lt_ge_cases (length (concat cs)) 4) as [H4|H4]; [rewrite read_loop_short by exact H4; reflexivity|].
  destruct (read_loop_ok 4 4 cs []) as [cs1 [E1 H1]]; [lia|lia|]. rewrite E1. cbn [app].
  assert (Hf : firstn 4 (concat cs) = be 4 (zlen body)).
  { assert (F : firstn 4 (be 4 (zlen body) ++ body) = firstn 4 (concat cs ++ rest)) by (rewrite Hc; reflexivity).
    rewrite firstn_app_exact in F by (rewrite be_length; reflexivity). rewrite F, firstn_app.
    replace (4 - length (concat cs))%nat with O by lia. rewrite firstn_O, app_nil_r. reflexivity. }
  rewrite Hf, unbe_be. change (256 ^ Z.of_nat 4) with (2 ^ 32). pose proof (zlen_nonneg body). rewrite Z.mod_small by lia.
  cbv zeta. rewrite read_loop_short; [reflexivity|]. rewrite H1, skipn_length. unfold zlen. lia.
Qed.

(** a sequence of responses read one after the other *)
Fixpoint read_many (n : nat) (s : stream) : list (res bytes) * list bytes :=
  match n with
  | O => ([], st_chunks s)
  | S k => let '(r, cs) := read_response s in
           let '(rs, cs') := read_many k (mkStream cs (st_fin s)) in (r :: rs, cs')
  end.
Lemma read_many_ok : forall bodies cs fin rest,
  concat cs = flat_map (fun b => be 4 (zlen b) ++ b) bodies ++ rest -> Forall (fun b => 4 <= zlen b < 2 ^ 32) bodies ->
  exists cs', read_many (length bodies) (mkStream cs fin) = (map (fun b => Ok (be 4 (zlen b) ++ b)) bodies, cs') /\ concat cs' = rest.
Proof.
  induction bodies as [|b bodies IH]; intros cs fin rest Hc Hf; cbn [length read_many map flat_map] in *.
  - exists cs. split; [reflexivity|exact Hc].
  - inversion Hf as [|? ? Hb Hf']; subst. rewrite <- !app_assoc in Hc.
    destruct (read_response_ok cs fin b _ Hc Hb) as [cs1 [E1 H1]]. rewrite E1.
    destruct (IH cs1 fin rest H1 Hf') as [cs2 [E2 H2]]. cbn [st_fin]. rewrite E2. exists cs2. split; [reflexivity|exact H2].
Qed.

(** *** Versions *)
Lemma find_first {A} (f : A -> bool) l v : find f l = Some v ->
  exists a b, l = a ++ v :: b /\ f v = true /\ forall x, In x a -> f x = false.
Proof.
  induction l as [|x l IH]; [discriminate|]. cbn [find]. destruct (f x) eqn:E.
  - intros H; injection H as ->. exists [], l. split; [reflexivity|]. split; [exact E|intros ? []].
  - intros H. destruct (IH H) as [a [b [-> [Hv Ha]]]]. exists (x :: a), b. split; [reflexivity|]. split; [exact Hv|].
    intros y [<-|Hy]; [exact E|apply Ha; exact Hy].
Qed.
Fixpoint desc (l : list Z) : bool :=
  match l with a :: (b :: _) as t => (b <? a) && desc t | _ => true end.
Lemma desc_app : forall a v b x, desc (a ++ v :: b) = true -> In x b -> x < v.
Proof.
  induction a as [|y a IH]; intros v b x Hd Hx.
  - revert v Hd x Hx. induction b as [|z b IHb]; intros v Hd x Hx; [destruct Hx|]. destruct Hx as [<-|Hx]; cbn in Hd; apply andb_prop in Hd; destruct Hd as [H1 H2]; [lia|].
    assert (x < z) by (apply (IHb z H2 x Hx)). lia.
  - apply (IH v b x); [|exact Hx]. cbn [app] in Hd. destruct (a ++ v :: b) eqn:E; [destruct a; discriminate|].
    cbn in Hd. apply andb_prop in Hd. apply Hd.
Qed.
Lemma available_cases k (P : list Z -> Prop) :
  P [9; 0] -> P [10; 7; 0] -> P [1; 0] -> P [7; 4; 1] -> P [2; 0] -> P [5; 4; 3; 2; 1; 0] -> P [2; 1; 0] -> P [3; 2; 1; 0] -> P [] ->
  P (availableVersions k).
Proof.
  intros. unfold availableVersions.
  repeat match goal with |- P (match ?x with _ => _ end) => destruct x; try assumption end.
Qed.
Lemma available_desc k : desc (availableVersions k) = true.
Proof. apply available_cases; reflexivity. Qed.

(** what "announced" means *)
Definition announced (avs : list (Z * Z * Z)) (k v : Z) : Prop :=
  exists mn mx, In (k, mn, mx) avs /\ mn <= v <= mx.
Lemma announced_iff avs k v :
  existsb (fun a => (fst (fst a) =? k) && (snd (fst a) <=? v) && (v <=? snd a)) avs = true <-> announced avs k v.
Proof.
  rewrite existsb_exists. unfold announced. split.
  - intros [[[a b] c] [Hi H]]. cbn in H. exists b, c. split; [assert (a = k) as <- by lia; exact Hi|lia].
  - intros [mn [mx [Hi H]]]. exists (k, mn, mx). split; [exact Hi|]. cbn. lia.
Qed.
Lemma version_chosen avs k v0 : In v0 (availableVersions k) -> announced avs k v0 ->
  let v := getHighestAvailableAPIVersion avs k in
  In v (availableVersions k) /\ announced avs k v /\
  forall v', In v' (availableVersions k) -> announced avs k v' -> v' <= v.
Proof.
  intros Hi Ha. unfold getHighestAvailableAPIVersion.
  destruct (find _ (availableVersions k)) as [v|] eqn:E.
  - cbv zeta. pose proof (find_some _ _ E) as [H1 H2]. split; [exact H1|]. split; [apply announced_iff; exact H2|].
    intros v' Hv' Ha'. apply find_first in E. destruct E as [a [b [El [_ Hn]]]].
    rewrite El in Hv'. apply in_app_or in Hv'. destruct Hv' as [Hv'|[<-|Hv']]; [|lia|].
    + apply Hn in Hv'. apply announced_iff in Ha'. rewrite Ha' in Hv'. discriminate.
    + pose proof (available_desc k) as Hd. rewrite El in Hd. apply (desc_app _ _ _ _ Hd) in Hv'. lia.
  - pose proof (find_none _ _ E v0 Hi) as Hn. apply announced_iff in Ha. cbv beta in Hn. rewrite Ha in Hn. discriminate.
Qed.
Lemma version_none avs k : (forall v, In v (availableVersions k) -> ~ announced avs k v) ->
  getHighestAvailableAPIVersion avs k = 0.
Proof.
  intros H. unfold getHighestAvailableAPIVersion. destruct (find _ (availableVersions k)) as [v|] eqn:E; [|reflexivity].
  pose proof (find_some _ _ E) as [H1 H2]. exfalso. apply (H v H1). apply announced_iff; exact H2.
Qed.

(** *** Correlation ids *)
Definition ids (n : nat) : list Z := map (fun k => Z.of_nat k mod 2 ^ 32) (seq 1 n).
Definition corr_ok (s : bst) : Prop :=
  map w_corr (b_log s) = ids (length (b_log s)) /\ b_corr s = Z.of_nat (length (b_log s)) mod 2 ^ 32.
Lemma corr_new : corr_ok b_new. Proof. split; reflexivity. Qed.
Lemma corr_add s c n w : corr_ok s -> w_corr w = (b_corr s + 1) mod 2 ^ 32 ->
  corr_ok (mkB c n ((b_corr s + 1) mod 2 ^ 32) (b_log s ++ [w])).
Proof.
  intros [H1 H2] Hw. unfold corr_ok. cbn [b_log b_corr]. rewrite app_length. cbn [length].
  assert (E : (b_corr s + 1) mod 2 ^ 32 = Z.of_nat (length (b_log s) + 1) mod 2 ^ 32).
  { rewrite H2, Zplus_mod_idemp_l. f_equal. lia. }
  split; [|exact E]. rewrite map_app, H1. cbn [map]. unfold ids. rewrite seq_app, map_app. cbn [map seq]. rewrite Hw, E.
  replace (1 + length (b_log s))%nat with (length (b_log s) + 1)%nat by lia. reflexivity.
Qed.
Lemma corr_conn s c : corr_ok s -> corr_ok (set_conn s c). Proof. exact (fun H => H). Qed.
Lemma corr_exchange k x c s r s' : corr_ok s -> exchange k x c s = (r, s') -> corr_ok s'.
Proof.
  intros H E. unfold exchange in E. cbv zeta in E. destruct (x_write x).
  - injection E as <- <-. apply corr_add; [exact H|reflexivity].
  - destruct (read_response _) as [r0 cs]. injection E as <- <-. apply corr_add; [exact H|reflexivity].
Qed.
Lemma corr_close_on r s : corr_ok s -> corr_ok (close_on r s).
Proof. intros H. unfold close_on. destruct r; try exact H. destruct (closing e); [apply corr_conn|]; exact H. Qed.
Lemma corr_requestOpen k x c s r s' : corr_ok s -> requestOpen k x c s = (r, s') -> corr_ok s'.
Proof.
  intros H E. unfold requestOpen in E. destruct (exchange k x c s) as [r0 s0] eqn:E0. injection E as <- <-.
  apply corr_close_on. eapply corr_exchange; eassumption.
Qed.
Lemma corr_create sasl held o s r s' : corr_ok s -> createConnAndAuth sasl held o s = (r, s') -> corr_ok s'.
Proof.
  intros H E. unfold createConnAndAuth in E. destruct (o_dial o); [injection E as <- <-; exact H|]. cbv zeta in E.
  destruct (exchange KVersions _ _ _) as [r1 s1] eqn:E1.
  assert (H1 : corr_ok s1) by (eapply corr_exchange; [|exact E1]; exact H).
  destruct (judge (o_ver o) r1); try (injection E as <- <-; exact H1).
  destruct (b_conn s1) as [c1|]; [|injection E as <- <-; exact H1].
  destruct (negb sasl); [injection E as <- <-; exact H1|]. destruct held; [injection E as <- <-; exact H1|].
  destruct (requestOpen KSasl (o_hs o) c1 s1) as [r2 s2] eqn:E2. assert (H2 : corr_ok s2) by (eapply corr_requestOpen; eassumption).
  destruct r2; try (injection E as <- <-; exact H2). destruct (b_conn s2) as [c2|]; [|injection E as <- <-; exact H2].
  destruct (requestOpen KSasl (o_au o) c2 s2) as [r3 s3] eqn:E3. assert (H3 : corr_ok s3) by (eapply corr_requestOpen; eassumption).
  destruct r3; try (injection E as <- <-; exact H3). destruct (b_conn s3); injection E as <- <-; [apply corr_conn|]; exact H3.
Qed.
Lemma corr_ensure sasl held o s r s' : corr_ok s -> ensureOpen sasl held o s = (r, s') -> corr_ok s'.
Proof.
  intros H E. unfold ensureOpen in E. destruct (b_conn s); [injection E as <- <-; exact H|]. eapply corr_create; eassumption.
Qed.
Lemma corr_requestAndGet sasl o x s : corr_ok s -> corr_ok (snd (requestAndGet sasl o x s)).
Proof.
  intros H. unfold requestAndGet. destruct (ensureOpen sasl true o s) as [r s1] eqn:E. pose proof (corr_ensure _ _ _ _ _ _ H E) as H1.
  destruct r as [[b| | |]|]; try exact H1. destruct (b_conn s1) as [c|]; [|exact H1].
  destruct (requestOpen KUser x c s1) as [r2 s2] eqn:E2. cbn [snd]. eapply corr_requestOpen; eassumption.
Qed.
Section Fetch.
  Variable unzip zip : Z -> bytes -> res bytes.
  Lemma corr_fetchOpen v st x c s : corr_ok s -> corr_ok (snd (fetchOpen unzip zip v st x c s)).
  Proof.
    intros H. unfold fetchOpen. cbv zeta. destruct (read_fetch_length _) as [r cs].
    assert (H1 : corr_ok (mkB (Some c) (b_next s) ((b_corr s + 1) mod 2 ^ 32) (b_log s ++ [mkW (c_id c) KUser ((b_corr s + 1) mod 2 ^ 32) (c_auth c)])))
      by (apply corr_add; [exact H|reflexivity]).
    destruct r; try exact H1. destruct (streamDecode _ _ _ _ _ _) as [[evs d]| | |]; try exact H1.
  Qed.
  Lemma corr_requestFetch sasl o v st x s : corr_ok s -> corr_ok (snd (requestFetch unzip zip sasl o v st x s)).
  Proof.
    intros H. unfold requestFetch. destruct (ensureOpen sasl false o s) as [r s1] eqn:E. pose proof (corr_ensure _ _ _ _ _ _ H E) as H1.
    destruct r as [[b| | |]|]; try exact H1. destruct (b_conn s1) as [c|]; [|exact H1]. apply corr_fetchOpen; exact H1.
  Qed.
  Lemma corr_step sasl s op : corr_ok s -> corr_ok (step unzip zip sasl s op).
  Proof.
    intros H. destruct op; cbn [step]; [apply corr_requestAndGet|apply corr_requestFetch|apply corr_conn]; exact H.
  Qed.
  Lemma corr_run sasl : forall l s, corr_ok s -> corr_ok (run unzip zip sasl s l).
  Proof. induction l as [|op l IH]; intros s H; [exact H|]. cbn. apply IH. apply corr_step; exact H. Qed.

  Theorem corr_consecutive sasl o l s : newBroker sasl o = Some s ->
    let log := b_log (run unzip zip sasl s l) in
    map w_corr log = map (fun k => Z.of_nat k mod 2 ^ 32) (seq 1 (length log)).
  Proof.
    intros H. unfold newBroker in H. destruct (createConnAndAuth sasl false o b_new) as [r s0] eqn:E.
    pose proof (corr_create _ _ _ _ _ _ corr_new E) as H0. destruct r as [[b| | |]|]; try discriminate. injection H as <-.
    apply (corr_run sasl l s0 H0).
  Qed.
  Theorem corr_distinct sasl o l s i j wi wj : newBroker sasl o = Some s ->
    let log := b_log (run unzip zip sasl s l) in
    nth_error log i = Some wi -> nth_error log j = Some wj -> (i < j)%nat -> Z.of_nat j - Z.of_nat i < 2 ^ 32 ->
    w_corr wi <> w_corr wj.
  Proof.
    intros H log Hi Hj Hij Hd. pose proof (corr_consecutive sasl o l s H) as HC. fold log in HC. cbv zeta in HC.
    assert (forall n w, nth_error log n = Some w -> w_corr w = Z.of_nat (S n) mod 2 ^ 32).
    { intros n w Hn. apply (map_nth_error w_corr) in Hn. rewrite HC in Hn.
      assert (Hl : (n < length log)%nat).
      { assert (nth_error (map (fun k => Z.of_nat k mod 2 ^ 32) (seq 1 (length log))) n <> None) by congruence.
        apply nth_error_Some in H0. rewrite map_length, seq_length in H0. exact H0. }
      assert (Hs : nth_error (seq 1 (length log)) n = Some (S n)).
      { rewrite (nth_error_nth' _ O) by (rewrite seq_length; lia). rewrite seq_nth by lia. reflexivity. }
      rewrite (map_nth_error (fun k => Z.of_nat k mod 2 ^ 32) _ _ Hs) in Hn. congruence. }
    rewrite (H0 _ _ Hi), (H0 _ _ Hj). intros E.
    assert (Hm : (Z.of_nat (S j) - Z.of_nat (S i)) mod 2 ^ 32 = 0) by (rewrite Zminus_mod, E, Z.sub_diag; reflexivity).
    rewrite Z.mod_small in Hm by lia. lia.
  Qed.
End Fetch.
