(** Facts about the HTTP interface. *)
From Verif Require Import Base BaseFacts Text TextFacts BuildersFacts Http HttpSpec.

Lemma b64_digit : forall d, 0 <= d < 64 -> b64val (b64digit d) = Some d.
Proof.
  intros d H. unfold b64digit, b64val.
  destruct (d <? 26) eqn:A; [|destruct (d <? 52) eqn:B; [|destruct (d <? 62) eqn:C; [|destruct (d =? 62) eqn:D]]].
  - replace ((65 <=? 65 + d) && (65 + d <=? 90)) with true by lia. f_equal. lia.
  - replace ((65 <=? 71 + d) && (71 + d <=? 90)) with false by lia.
    replace ((97 <=? 71 + d) && (71 + d <=? 122)) with true by lia. f_equal. lia.
  - replace ((65 <=? d - 4) && (d - 4 <=? 90)) with false by lia.
    replace ((97 <=? d - 4) && (d - 4 <=? 122)) with false by lia.
    replace ((48 <=? d - 4) && (d - 4 <=? 57)) with true by lia. f_equal. lia.
  - assert (d = 62) by lia. subst. reflexivity.
  - assert (d = 63) by lia. subst. reflexivity.
Qed.

Lemma list3_ind : forall (P : bytes -> Prop), P [] -> (forall a, P [a]) -> (forall a b, P [a; b]) ->
  (forall a b c s, P s -> P (a :: b :: c :: s)) -> forall s, P s.
Proof.
  intros P H0 H1 H2 H3 s. enough (G : P s /\ (forall a, P (a :: s)) /\ (forall a b, P (a :: b :: s))) by tauto.
  induction s as [|c s (I0 & I1 & I2)]; auto.
Qed.

Lemma b64_roundtrip : forall s, Forall byte_ok s -> b64decode (b64encode s) = s.
Proof.
  unfold b64decode. induction s as [|a|a b|a b c s IH] using list3_ind; intros F.
  - reflexivity.
  - inversion F; subst. unfold byte_ok in *. cbn [b64encode b64go app].
    rewrite !b64_digit by lia. cbn [b64go app]. change (b64val 61) with (@None Z). cbn.
    f_equal. lia.
  - inversion F as [|? ? H1 F1]; subst. inversion F1; subst. unfold byte_ok in *. cbn [b64encode b64go app].
    rewrite !b64_digit by lia. cbn [b64go app]. change (b64val 61) with (@None Z). cbn.
    f_equal; [|f_equal]; lia.
  - inversion F as [|? ? H1 F1]; subst. inversion F1 as [|? ? H2 F2]; subst. inversion F2 as [|? ? H3 F3]; subst.
    unfold byte_ok in *. cbn [b64encode b64go app]. rewrite !b64_digit by lia. cbn [b64go app]. rewrite (IH F3).
    f_equal; [|f_equal; [|f_equal]]; lia.
Qed.

Lemma cut_here : forall sep a b, ~ In sep a -> cut sep (a ++ sep :: b) = Some (a, b).
Proof. intros sep a b H. apply cut_spec. auto. Qed.

Lemma auth_admits : forall u p g m, Forall byte_ok u -> Forall byte_ok p -> ~ In 58 u -> BasicAuth u p g m (credentials u p) = true.
Proof.
  intros u p g m Fu Fp N. unfold BasicAuth. destruct (g && reading m); [reflexivity|].
  unfold credentials. change ([66; 97; 115; 105; 99; 32] ++ b64encode (u ++ 58 :: p)) with (t_basic ++ 32 :: b64encode (u ++ 58 :: p)).
  rewrite cut_here by (cbn; lia). rewrite beqb_refl. cbn [negb].
  rewrite b64_roundtrip.
  2:{ apply Forall_app. split; [assumption|]. constructor; [unfold byte_ok; lia|assumption]. }
  rewrite cut_here by assumption. now rewrite !beqb_refl.
Qed.
Lemma not_exempt : forall g m, ~ exempt g m -> g && reading m = false.
Proof. intros [] m H; [|reflexivity]. destruct m; try reflexivity; exfalso; apply H; split; auto. Qed.
Lemma auth_shape : forall u p g m auth, g && reading m = false -> BasicAuth u p g m auth = true ->
  exists x, auth = t_basic ++ 32 :: x /\ b64decode x = u ++ 58 :: p /\ ~ In 58 u.
Proof.
  intros u p g m auth E H. unfold BasicAuth in H. rewrite E in H.
  destruct (cut 32 auth) as [[sch x]|] eqn:C; [|discriminate]. apply cut_spec in C as (-> & N).
  destruct (beqb sch t_basic) eqn:B; [|discriminate]. apply beqb_iff in B as ->. cbn [negb] in H.
  destruct (cut 58 (b64decode x)) as [[u' p']|] eqn:D; [|discriminate]. apply cut_spec in D as (D & N').
  apply andb_prop in H as (H1 & H2). apply beqb_iff in H1 as ->. apply beqb_iff in H2 as ->.
  exists x. auto.
Qed.
Lemma auth_unique : forall u p g m u' p' g' m' auth,
  g && reading m = false -> g' && reading m' = false ->
  BasicAuth u p g m auth = true -> BasicAuth u' p' g' m' auth = true -> u = u' /\ p = p'.
Proof.
  intros u p g m u' p' g' m' auth E E' H H'.
  apply auth_shape in H as (x & -> & D & N); [|assumption].
  apply auth_shape in H' as (x' & A & D' & N'); [|assumption].
  apply app_inv_head in A. injection A as <-. rewrite D in D'.
  assert (C : cut 58 (u ++ 58 :: p) = Some (u, p)) by (apply cut_here; assumption).
  rewrite D' in C. rewrite cut_here in C by assumption. injection C as -> ->. auto.
Qed.

(** ** handlers *)
Definition sound (h : handler) : bool :=
  match h with
  | DescribeGroups | GetPending | GetTopicConfig | AlterTopicConfig | DescribeLogdirs | ListPartitionReassignments => false
  | _ => true
  end.
Lemma well_dec : forall h o, all_well h o \/ ~ all_well h o.
Proof.
  intros h o. unfold all_well. generalize (calls h). induction n as [|n IH]; [left; lia|].
  destruct IH as [IH|IH].
  - destruct (o n) eqn:E.
    + left. intros k Hk. assert (k = n \/ (k < n)%nat) as [->|L] by lia; auto.
    + right. intros C. rewrite C in E by lia. discriminate.
    + right. intros C. rewrite C in E by lia. discriminate.
  - right. intros C. apply IH. intros k Hk. apply C. lia.
Qed.
Lemma sound_answer : forall h o, sound h = true ->
  exists s, replies (handle (steps h) o) = [s] /\ ~ In EPanic (handle (steps h) o) /\ (s = 200 <-> all_well h o).
Proof.
  intros h o S. unfold handle, all_well.
  destruct h; try discriminate; unfold steps; cbn [hrun is_nil existsb closing replies app];
    destruct (o 0%nat) eqn:E0; cbn [hrun is_nil existsb closing replies app];
    try (destruct (o 1%nat) eqn:E1; cbn [hrun is_nil existsb closing replies app]);
    try (destruct (o 2%nat) eqn:E2; cbn [hrun is_nil existsb closing replies app Nat.eqb]);
    try (destruct (o 3%nat) eqn:E3; cbn [hrun is_nil existsb closing replies app Nat.eqb]);
    eexists; (split; [reflexivity|split; [cbn; intuition discriminate|]]);
    (split; [intros Q; try discriminate Q; intros k Hk; cbn in Hk; do 4 (destruct k as [|k]; [first [assumption|lia]|]); lia|]);
    intros W; try reflexivity; exfalso;
    (rewrite (W 0%nat) in * by (cbn; lia)); try discriminate;
    (rewrite (W 1%nat) in * by (cbn; lia)); try discriminate;
    (rewrite (W 2%nat) in * by (cbn; lia)); try discriminate;
    (rewrite (W 3%nat) in * by (cbn; lia)); discriminate.
Qed.

Lemma well_answer : forall h o, all_well h o -> replies (handle (steps h) o) = [200] /\ ~ In EPanic (handle (steps h) o).
Proof.
  intros h o W. unfold all_well in W.
  destruct h; unfold handle, steps; cbn [hrun is_nil existsb closing Nat.eqb orb];
    repeat match goal with |- context [o ?k] => rewrite (W k) by (cbn; lia); cbn [hrun is_nil existsb closing Nat.eqb orb] end;
    (split; [reflexivity|cbn; intuition discriminate]).
Qed.

Definition closes (h : handler) : bool := match h with ListGroups | DescribeGroups | DescribeLogdirs => false | _ => true end.
Definition closed_b (l : list hev) : bool :=
  forallb (fun e => match e with
    | EOpen v => Nat.eqb (length (filter (fun e' => match e' with EClose w => Nat.eqb w v | _ => false end) l)) 1
    | _ => true end) l.
Lemma closed_ok : forall l, closed_b l = true -> all_closed l.
Proof.
  intros l H v I. unfold closed_b in H. rewrite forallb_forall in H. specialize (H _ I). cbn in H.
  clear I. revert H. induction l as [|e l IH]; intros H; [discriminate|]. cbn [filter] in H.
  assert (Z : forall w, Nat.eqb w v = true <-> w = v) by (intros; apply Nat.eqb_eq).
  destruct (match e with EClose w => Nat.eqb w v | _ => false end) eqn:E.
  - destruct e as [| |w|]; try discriminate. apply Z in E as ->. exists [], l. split; [reflexivity|].
    cbn [app]. intros C. cbn in H. apply Nat.eqb_eq in H.
    assert (I : In (EClose v) (filter (fun e' => match e' with EClose w => Nat.eqb w v | _ => false end) l)).
    { apply filter_In. split; [assumption|]. apply Nat.eqb_refl. }
    destruct (filter _ l); [destruct I|discriminate].
  - destruct IH as (b & a & -> & N); [exact H|]. exists (e :: b), a. split; [reflexivity|].
    cbn. intros [->|C]; [|auto]. rewrite Nat.eqb_refl in E. discriminate.
Qed.
Lemma closes_ok : forall h o, closes h = true -> all_closed (handle (steps h) o).
Proof.
  intros h o C. apply closed_ok. unfold handle.
  destruct h; try discriminate; unfold steps; cbn [hrun is_nil existsb closing Nat.eqb orb];
    repeat (match goal with |- context [o ?k] => destruct (o k) end; cbn [hrun is_nil existsb closing Nat.eqb orb]); reflexivity.
Qed.

Lemma codes_ok : forall h o s, In s (replies (handle (steps h) o)) ->
  s = 200 \/ (s = 400 /\ exists k, In k (input_checks h) /\ o k <> OOk) \/
  (s = 500 /\ exists k, ~ In k (input_checks h) /\ o k <> OOk).
Proof.
  intros h o s H. unfold handle in H.
  destruct h; cbn [steps hrun is_nil existsb closing Nat.eqb orb input_checks] in *;
  repeat match type of H with context [o ?k] => destruct (o k) eqn:?; cbn [hrun is_nil existsb closing Nat.eqb orb] in H end;
  cbn in H;
  repeat (destruct H as [<-|H]; [first [left; reflexivity
    | right; left; split; [reflexivity|]; match goal with E : o ?k = OErr |- _ => exists k; split; [cbn; tauto|congruence] | E : o ?k = OErrData |- _ => exists k; split; [cbn; tauto|congruence] end
    | right; right; split; [reflexivity|]; match goal with E : o ?k = OErr |- _ => exists k; split; [cbn; intuition discriminate|congruence] | E : o ?k = OErrData |- _ => exists k; split; [cbn; intuition discriminate|congruence] end]|]);
  destruct H.
Qed.
