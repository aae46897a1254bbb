(** The fetch decoder leaves the connection exactly behind the response, whatever the
    response contains and however it is cut into reads. *)
From Verif Require Import Base BaseFacts RecordSpec Records RecordFacts Fetch FetchSpec FetchFacts.

(** [lim] bytes of the response are left, followed by [rest] *)
Definition inv (rest : bytes) (s : dst) : Prop :=
  exists data, flat s = data ++ rest /\ d_lim s = zlen data.
Definition keeps {A} (p : dec A) : Prop := forall rest s, inv rest s ->
  match p s with DOk _ s' => inv rest s' | DErr _ s' => inv rest s' | _ => True end.

Lemma keeps_ret {A} (a : A) : keeps (dret a).
Proof. intros rest s H; exact H. Qed.
Lemma keeps_fail {A} e : keeps (@dfail A e).
Proof. intros rest s H; exact H. Qed.
Lemma keeps_bind {A B} (p : dec A) (k : A -> dec B) : keeps p -> (forall a, keeps (k a)) -> keeps (dbind p k).
Proof.
  intros Hp Hk rest s H. unfold dbind. pose proof (Hp rest s H) as G. destruct (p s); try exact I.
  - apply Hk; exact G.
  - exact G.
Qed.
Lemma keeps_panic {A} : keeps (fun _ => @DPanic A).
Proof. intros rest s H; exact I. Qed.
Lemma keeps_unspec {A} : keeps (fun _ => @DUnspec A).
Proof. intros rest s H; exact I. Qed.

Lemma inv_take rest s n : inv rest s -> (0 <= n) ->
  let k := Z.min (Z.min n (Z.max 0 (d_lim s))) (avail s) in
  let r := take_full (Z.to_nat k) (st_chunks (d_in s)) in
  inv rest (with_in s (snd r) (zlen (fst r))) /\ zlen (fst r) = Z.min n (Z.max 0 (d_lim s)).
Proof.
  intros [data [Hf Hl]] Hn k r. pose proof (zlen_nonneg data). pose proof (zlen_nonneg rest).
  assert (Hav : avail s = zlen data + zlen rest) by (unfold avail; fold (flat s); rewrite Hf, zlen_app; reflexivity).
  assert (Hk : k = Z.min n (zlen data)) by (unfold k; lia).
  assert (Hle : (Z.to_nat k <= length data)%nat) by (unfold zlen in *; lia).
  assert (Hle' : (Z.to_nat k <= length (concat (st_chunks (d_in s))))%nat) by (fold (flat s); rewrite Hf, app_length; lia).
  destruct (take_full_spec (st_chunks (d_in s)) (Z.to_nat k) Hle') as [E1 E2]. fold (flat s) in E1, E2.
  rewrite Hf in E1, E2. unfold r. rewrite E1.
  rewrite firstn_app, skipn_app in *. replace (Z.to_nat k - length data)%nat with O in * by lia.
  cbn [firstn skipn] in *. rewrite app_nil_r in *.
  assert (Hlen : zlen (firstn (Z.to_nat k) data) = k) by (unfold zlen; rewrite firstn_length; lia).
  split; [|rewrite Hlen; lia].
  exists (skipn (Z.to_nat k) data). unfold with_in, flat; cbn. split; [exact E2|].
  rewrite Hlen. rewrite Hl. unfold zlen. rewrite skipn_length. unfold zlen in *. lia.
Qed.

Lemma keeps_try_read n : keeps (try_read n).
Proof.
  intros rest s H. unfold try_read. destruct (Z.leb_spec n 0); [exact H|].
  destruct (inv_take rest s n H ltac:(lia)) as [G _]. cbv zeta in G.
  destruct (take_full _ _) as [b cs]. cbn [fst snd] in G.
  destruct (zlen b =? n); [exact G|]. destruct (_ || _); exact G.
Qed.
Lemma keeps_read n : keeps (read n).
Proof. apply keeps_bind; [apply keeps_try_read|]. intros [b [e|]]; [apply keeps_fail|apply keeps_ret]. Qed.
Lemma keeps_read_limit k : keeps (read_limit k).
Proof.
  intros rest s H. unfold read_limit.
  destruct (inv_take rest s (Z.max 0 k) H ltac:(lia)) as [G _]. cbv zeta in G.
  destruct (take_full _ _) as [b cs]. cbn [fst snd] in G.
  destruct (zlen b =? _); [exact G|]. destruct (st_fin (d_in s)); exact G.
Qed.
Lemma read1_any : forall cs n, True ->
  match read1 n cs with
  | None => concat cs = []
  | Some (b, r) => concat cs = b ++ concat r /\ (length b <= n)%nat
  end.
Proof.
  induction cs as [|c cs IH]; intros n Hn; cbn [read1 concat]; [reflexivity|].
  destruct c as [|x c]; [exact (IH n Hn)|].
  cbn [concat]. rewrite app_assoc, firstn_skipn. split; [reflexivity|]. rewrite firstn_length. lia.
Qed.
Lemma keeps_read_some n : keeps (read_some n).
Proof.
  intros rest s H. unfold read_some. destruct (Z.leb_spec (d_lim s) 0); [exact H|].
  pose proof (read1_any (st_chunks (d_in s)) (Z.to_nat (Z.min n (d_lim s))) I) as G.
  destruct (read1 _ _) as [[b cs]|]; [|exact H].
  destruct G as [G1 G2]. destruct H as [data [Hf Hl]]. fold (flat s) in G1. rewrite Hf in G1.
  assert (Hb : (length b <= length data)%nat) by (unfold zlen in *; lia).
  exists (skipn (length b) data). unfold with_in, flat; cbn.
  assert (E : firstn (length b) (data ++ rest) = firstn (length b) (b ++ concat cs)) by (rewrite G1; reflexivity).
  assert (E' : skipn (length b) (data ++ rest) = skipn (length b) (b ++ concat cs)) by (rewrite G1; reflexivity).
  rewrite skipn_app in E'. replace (length b - length data)%nat with O in E' by lia. cbn [skipn] in E'.
  rewrite skipn_app_exact in E' by reflexivity. split; [symmetry; exact E'|].
  rewrite Hl. unfold zlen. rewrite skipn_length. lia.
Qed.
Lemma keeps_put t p m : keeps (put t p m).
Proof. intros rest s H. unfold put. destruct (_ <=? _); exact H. Qed.

Section Codec.
  Variable unzip zip : Z -> bytes -> res bytes.
  Lemma keeps_put_records : forall n t p b bts raw, keeps (put_records n t p b bts raw).
  Proof. 
    induction n as [|n IH]; intros; cbn [put_records]; [apply keeps_ret|].
    destruct (decodeToRecord raw) as [[r rest]| | |]; try apply keeps_ret; try apply keeps_panic; try apply keeps_unspec.
    apply keeps_bind; [apply keeps_put|intros; apply IH].
  Qed.
  Lemma keeps_magic2 t p h : keeps (decodeRecordsMagic2 unzip t p h).
  Proof. 
    apply keeps_bind; [apply keeps_try_read|]. intros [x [e|]]; cbn [fst snd].
    - destruct e; first [apply keeps_ret|apply keeps_fail].
    - destruct (_ <=? 0); [apply keeps_ret|]. apply keeps_bind; [apply keeps_read_limit|].
      intros [y oe]; cbn [fst snd].
      destruct (match oe with Some e => Err e | None => _ end) as [raw| | |].
      + apply keeps_bind; [apply keeps_put_records|intros; apply keeps_ret].
      + intros rest s H. destruct (_ && _); exact H.
      + apply keeps_panic.
      + apply keeps_unspec.
  Qed.
  Lemma keeps_put_all t p ms : keeps (put_all t p ms).
  Proof. induction ms as [|m ms IH]; cbn [put_all]; [apply keeps_ret|]. apply keeps_bind; [apply keeps_put|intros; exact IH]. Qed.
  Lemma keeps_put_message t p v : keeps (put_message zip t p v).
  Proof. 
    unfold put_message. destruct (decodeToMessageSet _ _ _) as [[|m ms]| | |];
      try apply keeps_ret; try apply keeps_fail; try apply keeps_panic; try apply keeps_unspec.
    apply keeps_bind; [apply keeps_put_all|intros; apply keeps_ret].
  Qed.
  Lemma keeps_magic01_rest : forall f t p acc, keeps (decodeMagic01_rest zip f t p acc).
  Proof. 
    induction f as [|f IH]; intros; cbn [decodeMagic01_rest]; [apply keeps_unspec|].
    apply keeps_bind; [apply keeps_read|]. intros buf. apply keeps_bind.
    - destruct (_ =? 0); [|apply keeps_read_some]. intros rest s H. destruct (_ <=? 0); exact H.
    - intros body. destruct (_ <? _); [apply keeps_ret|]. apply keeps_bind; [apply keeps_put_message|].
      intros []; [apply IH|apply keeps_ret].
  Qed.
  Lemma keeps_magic01 f t p h : keeps (decodeMagic01 zip f t p h).
  Proof. 
    unfold decodeMagic01. destruct (_ <? 6); [apply keeps_ret|]. apply keeps_bind; [apply keeps_read_some|].
    intros body. destruct (_ <? _); [apply keeps_ret|]. apply keeps_bind; [apply keeps_put_message|].
    intros []; [apply keeps_magic01_rest|apply keeps_ret].
  Qed.
  Lemma keeps_sets : forall f t p size offset, keeps (decodeSets unzip zip f t p size offset).
  Proof. 
    induction f as [|f IH]; intros; cbn [decodeSets]; [apply keeps_unspec|].
    destruct (_ <=? _); [apply keeps_ret|]. apply keeps_bind; [apply keeps_try_read|].
    intros [x [e|]]; cbn [fst snd].
    - destruct e; first [apply keeps_ret|apply keeps_fail].
    - apply keeps_bind; [|intros; apply IH]. destruct (_ <? 2); [apply keeps_magic01|apply keeps_magic2].
  Qed.
  Lemma keeps_message_set t p size : keeps (decodeMessageSet unzip zip t p size).
  Proof. 
    intros rest s H. unfold decodeMessageSet.
    pose proof (keeps_sets (S (Z.to_nat (avail s))) t p size 0 rest s H) as G.
    destruct (decodeSets _ _ _ _ _ _ _ _) as [u s'|e s'| |]; try exact I.
    - destruct (d_has s'); exact G.
    - destruct (is_eofs e && d_has s'); [destruct (d_has s'); exact G|exact G].
  Qed.
  Lemma keeps_read_buf n b : keeps (read_buf n b).
  Proof. apply keeps_bind; [apply keeps_read_some|intros; apply keeps_ret]. Qed.
  Lemma keeps_skip_aborted : forall n b, keeps (skip_aborted n b).
  Proof. 
    induction n as [|n IH]; intros; cbn [skip_aborted]; [apply keeps_ret|].
    apply keeps_bind; [apply keeps_read_buf|intros]. apply keeps_bind; [apply keeps_read_buf|intros]. apply IH.
  Qed.
  Lemma keeps_partition t v : keeps (decodePartition unzip zip t v).
  Proof. 
    unfold decodePartition. apply keeps_bind; [apply keeps_read_buf|intros b1].
    apply keeps_bind; [apply keeps_read_buf|intros b2]. destruct (negb _); [apply keeps_fail|].
    apply keeps_bind; [apply keeps_read_buf|intros b3]. apply keeps_bind.
    - destruct (_ || _); [|apply keeps_ret]. repeat (apply keeps_bind; [apply keeps_read_buf|intros]). apply keeps_skip_aborted.
    - intros b4. apply keeps_bind; [apply keeps_read_buf|intros b5]. destruct (_ <=? 0); [apply keeps_ret|apply keeps_message_set].
  Qed.
  Lemma keeps_partition_response t v : keeps (decodePartitionResponse unzip zip t v).
  Proof. 
    intros rest s H. unfold decodePartitionResponse. pose proof (keeps_partition t v rest s H) as G.
    destruct (decodePartition _ _ _ _ _); exact G.
  Qed.
  Lemma keeps_n n p : keeps p -> keeps (dec_n n p).
  Proof. intros Hp. induction n as [|n IH]; cbn [dec_n]; [apply keeps_ret|]. apply keeps_bind; [exact Hp|intros; exact IH]. Qed.
  Lemma keeps_responses v : keeps (decodeResponses unzip zip v).
  Proof. 
    apply keeps_bind; [apply keeps_read|intros a]. apply keeps_bind; [apply keeps_read|intros t].
    apply keeps_bind; [apply keeps_read|intros b]. destruct (_ =? 0); [apply keeps_fail|].
    apply keeps_n. apply keeps_partition_response.
  Qed.
  Lemma drain_inv rest s : inv rest s -> concat (st_chunks (d_in (drain s))) = rest.
  Proof. 
    intros H. pose proof H as [data [Hf Hl]]. unfold drain. pose proof (zlen_nonneg data).
    pose proof (inv_take rest s (Z.max 0 (d_lim s)) H ltac:(lia)) as G. cbv zeta in G.
    replace (Z.min (Z.max 0 (d_lim s)) (Z.max 0 (d_lim s))) with (Z.max 0 (d_lim s)) in G by lia.
    destruct (take_full _ _) as [b cs]. cbn [fst snd] in *. destruct G as [[d' [G1 G2]] G3].
    cbn in G2. assert (d' = []) as -> by (destruct d' as [|x d']; [reflexivity|]; rewrite zlen_cons in G2; pose proof (zlen_nonneg d'); lia).
    exact G1.
  Qed.
  Lemma header_err v s e s' rest : inv rest s -> decodeHeader v s = DErr e s' -> concat (st_chunks (d_in s')) = rest.
  Proof. 
    intros H E. unfold decodeHeader in E.
    assert (G : forall n cnt, 0 < n -> (b <~ read n ;; dret (unbe (firstn 4 (skipn cnt b)))) s = DErr e s' -> concat (st_chunks (d_in s')) = rest).
    { intros n cnt Hn F. unfold dbind, read, dbind, try_read in F. destruct (Z.leb_spec n 0); [lia|].
      destruct (inv_take rest s n H ltac:(lia)) as [I1 I2]. cbv zeta in I1, I2.
      destruct (take_full _ _) as [b cs]. cbn [fst snd] in *.
      destruct (Z.eqb_spec (zlen b) n) as [Hb|Hb]; [cbn in F; discriminate|].
      rewrite I2, Z.eqb_refl in F. cbn [orb snd dfail] in F. injection F as _ <-.
      destruct I1 as [d' [G1 G2]]. cbn in G2.
      assert (d' = []) as -> by (destruct d' as [|x d']; [reflexivity|]; rewrite zlen_cons in G2; pose proof (zlen_nonneg d'); lia).
      exact G1. }
    destruct (v =? 0); [apply (G 8 4%nat)|apply (G 18 14%nat)]; try lia; exact E.
  Qed.

  Theorem stream_consumes_response v st body rest chunks fin evs s' :
    concat chunks = body ++ rest ->
    streamDecode unzip zip v st (zlen body) (mkStream chunks fin) = Ok (evs, s') ->
    concat (st_chunks (d_in s')) = rest.
  Proof. 
    intros Hc H. unfold streamDecode in H. set (s0 := mkD _ _ _ _ _ _ _) in H.
    assert (I0 : inv rest s0) by (exists body; split; [exact Hc|reflexivity]).
    assert (K : keeps (decodeHeader v)) by (unfold decodeHeader; destruct (v =? 0); (apply keeps_bind; [apply keeps_read|intros; apply keeps_ret])).
    pose proof (K rest s0 I0) as I1. pose proof (header_err v s0) as HE.
    destruct (decodeHeader v s0) as [n s1|e s1| |]; try discriminate.
    - pose proof (keeps_n (Z.to_nat n) _ (keeps_responses v) rest s1 I1) as I2.
      destruct (dec_n _ _ s1) as [u s2|e s2| |]; try discriminate; injection H as _ <-; apply drain_inv; exact I2.
    - injection H as _ <-. apply (HE e s1 rest I0 eq_refl).
  Qed.
End Codec.
