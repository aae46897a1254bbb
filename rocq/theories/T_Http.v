(** Properties of the HTTP interface (C88 to C90). *)
From Verif Require Import Base Text TextFacts Http HttpSpec HttpFacts.

(** C88: the credentials are let through, *)
Theorem C88_admits : forall u p g m, Forall byte_ok u -> Forall byte_ok p -> ~ In 58 u ->
  BasicAuth u p g m (credentials u p) = true.
Proof. exact auth_admits. Qed.
Print Assumptions C88_admits.
(** a header is let through for one user name and password at most, unless the method is
    exempt, *)
Theorem C88_only_one : forall u p g m u' p' g' m' auth,
  ~ exempt g m -> ~ exempt g' m' ->
  BasicAuth u p g m auth = true -> BasicAuth u' p' g' m' auth = true -> u = u' /\ p = p'.
Proof. intros u p g m u' p' g' m' auth E E'. apply auth_unique; apply not_exempt; assumption. Qed.
Print Assumptions C88_only_one.
(** without a header of the right form nothing is let through, *)
Theorem C88_form : forall u p g m auth, ~ exempt g m ->
  (forall x, auth <> [66; 97; 115; 105; 99; 32] ++ x) -> BasicAuth u p g m auth = false.
Proof.
  intros u p g m auth E N. destruct (BasicAuth u p g m auth) eqn:B; [|reflexivity].
  apply auth_shape in B as (x & -> & _); [|apply not_exempt; exact E]. exfalso. exact (N x eq_refl).
Qed.
Print Assumptions C88_form.
(** exempt methods are let through, *)
Theorem C88_exempt : forall u p g m auth, exempt g m -> BasicAuth u p g m auth = true.
Proof. intros u p g m auth [-> [-> | [-> | ->]]]; reflexivity. Qed.
Print Assumptions C88_exempt.
(** and what the tool is started with is what it asks for: user name up to the first colon. *)
Theorem C88_flag : forall u p g, ~ In 58 u -> api_auth (u ++ 58 :: p) g = Some (BasicAuth u p g).
Proof.
  intros u p g N. unfold api_auth. rewrite cut_here by exact N. destruct u; reflexivity.
Qed.
Print Assumptions C88_flag.
(** Without the flag everything is let through; a flag without a colon is refused. *)
Theorem C88_off : (forall g m auth, exists f, api_auth [] g = Some f /\ f m auth = true) /\
  (forall u g, u <> [] -> ~ In 58 u -> api_auth u g = None).
Proof.
  split; [intros g m auth; eexists; split; reflexivity|]. intros u g N I. unfold api_auth. destruct u as [|x u]; [congruence|].
  destruct (cut 58 (x :: u)) as [[a b]|] eqn:C; [|reflexivity]. apply cut_spec in C as [E _]. destruct I. rewrite E. apply in_or_app. right. left. reflexivity.
Qed.
Print Assumptions C88_off.
(** Line ends within the encoded part make no difference. *)
Theorem C88_line_ends : forall u p g m a n b, n = 10 \/ n = 13 ->
  BasicAuth u p g m ([66; 97; 115; 105; 99; 32] ++ a ++ n :: b) = BasicAuth u p g m ([66; 97; 115; 105; 99; 32] ++ a ++ b).
Proof.
  intros u p g m a n b N.
  assert (L : b64val n = None /\ newline n = true) by (destruct N as [-> | ->]; split; reflexivity). destruct L as [L1 L2].
  assert (S : forall a, skip_newlines (a ++ n :: b) = skip_newlines (a ++ b) \/ exists c a', newline c = false /\ skip_newlines (a ++ n :: b) = c :: a' ++ n :: b /\ skip_newlines (a ++ b) = c :: a' ++ b).
  { induction a0 as [|c a0 IH]; cbn [app skip_newlines].
    - left. rewrite L2. reflexivity.
    - destruct (newline c) eqn:E; [exact IH|]. right. exists c, a0. repeat split; assumption. }
  assert (E : forall a acc, b64go acc (a ++ n :: b) = b64go acc (a ++ b)).
  { induction a0 as [|c a0 IH]; intros acc; cbn [app b64go].
    - rewrite L1, L2. reflexivity.
    - destruct (b64val c); [destruct acc as [|? [|? [|? [|? ?]]]]; rewrite ?IH; reflexivity|].
      destruct (newline c); [apply IH|]. destruct (c =? 61); [|reflexivity].
      destruct acc as [|? [|? [|? [|? ?]]]]; try reflexivity.
      destruct (S a0) as [-> | (c' & a' & _ & -> & ->)]; reflexivity. }
  unfold BasicAuth. change ([66; 97; 115; 105; 99; 32] ++ a ++ n :: b) with ([66; 97; 115; 105; 99] ++ 32 :: a ++ n :: b).
  change ([66; 97; 115; 105; 99; 32] ++ a ++ b) with ([66; 97; 115; 105; 99] ++ 32 :: a ++ b).
  rewrite !cut_here by (cbn; intuition discriminate). unfold b64decode. rewrite E. reflexivity.
Qed.
Print Assumptions C88_line_ends.
Example C88_off_ex : api_auth [109; 101] true = None /\ api_auth [109; 58] true = Some (BasicAuth [109] [] true).
Proof. split; reflexivity. Qed.
(** user "me", password "a:b" ("Basic bWU6YTpi"); garbage at the end is not looked at *)
Example C88_ex :
  credentials [109; 101] [97; 58; 98] = [66; 97; 115; 105; 99; 32; 98; 87; 85; 54; 89; 84; 112; 105] /\
  BasicAuth [109; 101] [97; 58; 98] false POST (credentials [109; 101] [97; 58; 98]) = true /\
  BasicAuth [109; 101] [97] false POST (credentials [109; 101] [98]) = false /\
  BasicAuth [109; 101] [97] true GET [] = true /\ BasicAuth [109; 101] [97] true POST [] = false /\
  BasicAuth [109; 101] [97] false GET (credentials [109; 101] [97] ++ [33; 33]) = true.
Proof. vm_compute. auto 10. Qed.

(** C89: these handlers answer every request once, with 200 exactly if all went well; *)
Theorem C89_answer_partial : forall h o,
  ~ In h [DescribeGroups; GetPending; GetTopicConfig; AlterTopicConfig; DescribeLogdirs; ListPartitionReassignments] ->
  exists s, replies (handle (steps h) o) = [s] /\ ~ In EPanic (handle (steps h) o) /\ (s = 200 <-> all_well h o).
Proof. intros h o N. apply sound_answer. destruct h; cbn in *; tauto. Qed.
Print Assumptions C89_answer_partial.
(** every answer of every handler is 200, or 400 because of the input, or 500 because of the
    cluster. *)
Theorem C89_codes_partial : forall h o s, In s (replies (handle (steps h) o)) ->
  (s = 200) \/ (s = 400 /\ exists k, In k (input_checks h) /\ o k <> OOk) \/
  (s = 500 /\ exists k, ~ In k (input_checks h) /\ o k <> OOk).
Proof. exact codes_ok. Qed.
Print Assumptions C89_codes_partial.
Example C89_codes_ex : replies (handle (steps AlterPartitionReassignments) (fun k => match k with 2%nat => OErr | _ => OOk end)) = [400] /\
  replies (handle (steps AlterPartitionReassignments) (fun k => match k with 3%nat => OErr | _ => OOk end)) = [500].
Proof. split; reflexivity. Qed.
(** all do so if nothing fails. *)
Theorem C89_well_partial : forall h o, all_well h o -> replies (handle (steps h) o) = [200] /\ ~ In EPanic (handle (steps h) o).
Proof. exact well_answer. Qed.
Print Assumptions C89_well_partial.
Example C89_ex : replies (handle (steps CreatePartitions) (fun k => match k with 1%nat => OErr | _ => OOk end)) = [400] /\
  replies (handle (steps ElectLeaders) (fun _ => OOk)) = [200].
Proof. split; reflexivity. Qed.
(** C89 is false for each of the six others: if the cluster cannot be reached, or a broker,
    they go on with a nil pointer or answer again, *)
Theorem C89_goes_on_refuted : forall h, In h [DescribeGroups; GetTopicConfig; AlterTopicConfig; DescribeLogdirs; ListPartitionReassignments; GetPending] ->
  exists o, In EPanic (handle (steps h) o).
Proof.
  intros h H. repeat (destruct H as [<-|H]; [try (exists (fun _ => OErr); cbn; tauto)|]); try destruct H.
  - exists (fun k => match k with 1%nat => OErr | _ => OOk end). cbn. tauto.
  - exists (fun k => match k with 1%nat => OErr | _ => OOk end). cbn. tauto.
  - exists (fun k => match k with O => OErr | _ => OOk end). cbn. tauto.
  - exists (fun k => match k with 1%nat => OErr | _ => OOk end). cbn. tauto.
Qed.
Print Assumptions C89_goes_on_refuted.
Theorem C89_twice_refuted : exists o o', replies (handle (steps DescribeLogdirs) o) = [500; 200] /\
  replies (handle (steps DescribeGroups) o') = [500; 200].
Proof.
  exists (fun k => match k with 2%nat => OErr | _ => OOk end), (fun k => match k with 3%nat => OErrData | _ => OOk end).
  split; reflexivity.
Qed.
Print Assumptions C89_twice_refuted.
(** and the pending handler answers 200 although the offsets could not be had. *)
Theorem C89_pending_refuted : exists o, replies (handle (steps GetPending) o) = [200] /\ ~ all_well GetPending o.
Proof.
  exists (fun k => match k with 1%nat => OErr | _ => OOk end). split; [reflexivity|].
  intros W. specialize (W 1%nat). cbn in W. discriminate W. lia.
Qed.
Print Assumptions C89_pending_refuted.

(** C90: these handlers close what they opened, whatever fails; *)
Theorem C90_closed_partial : forall h o, ~ In h [ListGroups; DescribeGroups; DescribeLogdirs] ->
  all_closed (handle (steps h) o).
Proof. intros h o N. apply closes_ok. destruct h; cbn in *; tauto. Qed.
Print Assumptions C90_closed_partial.
Example C90_ex : handle (steps GetTopicOffsets) (fun k => match k with 2%nat => OErr | _ => OOk end) = [EOpen 0; EReply 500; EClose 0].
Proof. reflexivity. Qed.
(** C90 is false for the three others, which never close: every request leaks connections. *)
Theorem C90_leak_refuted : forall h, In h [ListGroups; DescribeGroups; DescribeLogdirs] ->
  forall o, all_well h o -> ~ all_closed (handle (steps h) o).
Proof.
  intros h H o W C.
  assert (E : handle (steps h) o = [EOpen 0; EReply 200]).
  { unfold handle. repeat (destruct H as [<-|H]); try destruct H; unfold steps; cbn [hrun is_nil existsb closing Nat.eqb orb];
    repeat match goal with |- context [o ?k] => rewrite (W k) by (cbn; lia); cbn [hrun is_nil existsb closing Nat.eqb orb] end; reflexivity. }
  rewrite E in C. destruct (C 0%nat) as (b & a & Q & _); [left; reflexivity|].
  destruct b as [|? [|? [|]]]; discriminate.
Qed.
Print Assumptions C90_leak_refuted.
