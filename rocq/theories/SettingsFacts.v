(** Proofs about Settings.v. *)
From Coq Require Import String Ascii.
From Verif Require Import Base BaseFacts Text TextFacts SettingsSpec Settings.

(** *** tags *)
Lemma tag_text : forall n, i64 n -> tag_version (txt "minVersion:" ++ decimal n) = Some (n mod 65536).
Proof.
  intros n H. unfold tag_version.
  assert (E : split 58 (txt "minVersion:" ++ decimal n) = [txt "minVersion"; decimal n]).
  { change (txt "minVersion:") with (txt "minVersion" ++ [58]). rewrite <- app_assoc. cbn [app].
    rewrite split_word by (vm_compute; intuition discriminate). f_equal. apply split_last. apply decimal_no; [reflexivity|discriminate]. }
  rewrite E. destruct (txt "minVersion:" ++ decimal n) eqn:N; [discriminate|].
  destruct (beqb (decimal n) []) eqn:B; [apply beqb_true in B; destruct (decimal_ne n B)|].
  rewrite beqb_refl. cbn [negb andb]. rewrite atoi_decimal by exact H. reflexivity.
Qed.
Lemma tget_tput : forall k k' v m, tget k (tput k' v m) = if beqb k' k then v else tget k m.
Proof.
  induction m as [|[a b] m IH]; cbn [tput tget]; [reflexivity|].
  destruct (beqb a k') eqn:A; cbn [tget].
  - apply beqb_true in A. subst a. destruct (beqb k' k); reflexivity.
  - rewrite IH. destruct (beqb a k) eqn:B; [|reflexivity].
    destruct (beqb k' k) eqn:C; [|reflexivity]. apply beqb_true in B, C. subst. rewrite beqb_refl in A. discriminate.
Qed.
Definition tagged (tag : bytes) : Z := match tag_version tag with Some v => v | None => 0 end.
Definition put1 (m : list (bytes * Z)) (f : bytes * bytes) := match tag_version (snd f) with Some v => tput (fst f) v m | None => m end.
Lemma tags_skip : forall fields name m, ~ In name (map fst fields) -> tget name (fold_left put1 fields m) = tget name m.
Proof.
  induction fields as [|f fields IH]; intros name m H; cbn [fold_left]; [reflexivity|].
  rewrite IH by (intro; apply H; right; assumption). unfold put1. destruct (tag_version (snd f)); [|reflexivity].
  rewrite tget_tput. destruct (beqb (fst f) name) eqn:B; [|reflexivity]. apply beqb_true in B. destruct H. left. exact B.
Qed.
Lemma tags_in : forall fields name tag m, NoDup (map fst fields) -> In (name, tag) fields -> tget name m = 0 ->
  tget name (fold_left put1 fields m) = tagged tag.
Proof.
  induction fields as [|f fields IH]; intros name tag m D I Z; [destruct I|]. cbn [fold_left]. inversion D as [|? ? D1 D2]; subst. destruct I as [->|I].
  - rewrite tags_skip by exact D1. unfold put1, tagged. cbn [fst snd]. destruct (tag_version tag); [rewrite tget_tput, beqb_refl; reflexivity|exact Z].
  - apply IH; [exact D2|exact I|]. unfold put1. destruct (tag_version (snd f)); [|exact Z]. rewrite tget_tput.
    destruct (beqb (fst f) name) eqn:B; [|exact Z]. apply beqb_true in B. destruct D1. rewrite B. apply (in_map fst) in I. exact I.
Qed.
Lemma tags_ok : forall fields name, NoDup (map fst fields) ->
  (forall n, i64 n -> In (name, txt "minVersion:" ++ decimal n) fields -> tget name (healerTags fields) = n mod 65536) /\
  (In (name, []) fields \/ ~ In name (map fst fields) -> tget name (healerTags fields) = 0).
Proof.
  intros fields name D. unfold healerTags. fold put1. split.
  - intros n H I. change (fun m f => _) with put1. rewrite (tags_in _ _ _ _ D I) by reflexivity. unfold tagged. rewrite tag_text by exact H. reflexivity.
  - change (fun m f => _) with put1. intros [I|I]; [exact (tags_in _ _ _ [] D I eq_refl)|exact (tags_skip _ _ [] I)].
Qed.
Lemma present_ok : forall f v, f <> VTransactionalId -> f <> VLogAppendTime -> present f v = (first_version f <=? v).
Proof. intros [] v A B; try congruence; reflexivity. Qed.

(** *** names *)
Lemma names_ok : forall k n, In (k, n) kafka_apis -> quorum_api k = false -> api_string k = txt n.
Proof.
  intros k n H Q.
  assert (F : forallb (fun x => quorum_api (fst x) || beqb (api_string (fst x)) (txt (snd x))) kafka_apis = true) by (vm_compute; reflexivity).
  rewrite forallb_forall in F. specialize (F _ H). cbn [fst snd] in F. rewrite Q in F. apply beqb_true. exact F.
Qed.
Lemma api_known : forall k, api_string k = txt "Unknown" \/ exists n, In (k, n) kafka_apis /\ quorum_api k = false.
Proof.
  intro k. unfold api_string. destruct (find (fun x => fst x =? k) api_cases) as [[k' n]|] eqn:F; [|left; reflexivity].
  apply find_some in F. destruct F as [I E]. cbn [fst] in E. apply Z.eqb_eq in E. subst k'. right. exists n.
  assert (K : forallb (fun x => existsb (fun y => (fst x =? fst y) && String.eqb (snd x) (snd y)) kafka_apis && negb (quorum_api (fst x))) api_cases = true)
    by (vm_compute; reflexivity).
  rewrite forallb_forall in K. specialize (K _ I). apply andb_prop in K. destruct K as [K Q]. split; [|cbn [fst] in Q; destruct (quorum_api k); [discriminate|reflexivity]].
  apply existsb_exists in K. destruct K as [[a b] [Ia Ea]]. cbn [fst snd] in Ea. apply andb_prop in Ea. destruct Ea as [E1 E2].
  apply Z.eqb_eq in E1. apply String.eqb_eq in E2. subst. exact Ia.
Qed.
Lemma unknown_ok : forall k, (forall n, ~ In (k, n) kafka_apis) -> api_string k = txt "Unknown".
Proof. intros k H. destruct (api_known k) as [E|[n [I _]]]; [exact E|destruct (H n I)]. Qed.
Lemma distinct_ok : forall k k', api_string k = api_string k' -> api_string k <> txt "Unknown" -> k = k'.
Proof.
  assert (N : forallb (fun x => forallb (fun y => (fst x =? fst y) || negb (beqb (txt (snd x)) (txt (snd y)))) kafka_apis) kafka_apis = true) by (vm_compute; reflexivity).
  intros k k' E U. destruct (api_known k) as [|[n [I Q]]]; [contradiction|]. destruct (api_known k') as [E'|[n' [I' Q']]]; [rewrite E in U; contradiction|].
  rewrite (names_ok _ _ I Q), (names_ok _ _ I' Q') in E.
  rewrite forallb_forall in N. specialize (N _ I). rewrite forallb_forall in N. specialize (N _ I'). cbn [fst snd] in N.
  rewrite E, beqb_refl in N. cbn [negb] in N. rewrite orb_false_r in N. apply Z.eqb_eq. exact N.
Qed.
Lemma versions_text_join : forall l i n, n = (i + length l)%nat -> versions_text i n l = join 44 (map version_text l).
Proof.
  induction l as [|v l IH]; intros i n E; [reflexivity|]. cbn [versions_text map]. rewrite (IH (S i) n) by (cbn [length] in E; lia).
  destruct l as [|w l].
  - cbn [length] in E. replace (Nat.eqb (S i) n) with true by (symmetry; apply Nat.eqb_eq; lia). apply app_nil_r.
  - cbn [length] in E. replace (Nat.eqb (S i) n) with false by (symmetry; apply Nat.eqb_neq; lia). rewrite <- app_assoc. reflexivity.
Qed.

(** *** connections *)
Lemma before_last_spec : forall c h p, ~ In c p -> before_last c (h ++ c :: p) = Some h.
Proof.
  intros c h p N. induction h as [|x h IH]; cbn [app before_last].
  - replace (before_last c p) with (@None bytes); [rewrite Z.eqb_refl; reflexivity|].
    induction p as [|y p IH]; [reflexivity|]. cbn [before_last]. rewrite <- IH by (intro; apply N; right; assumption).
    destruct (y =? c) eqn:E; [apply Z.eqb_eq in E; destruct N; left; exact E|reflexivity].
  - rewrite IH. reflexivity.
Qed.
Lemma millis_ok : forall x, - 9223372036854 <= x <= 9223372036854 -> millis x = x * 1000000.
Proof. intros x H. unfold millis. rewrite sint_id; lia. Qed.

(** *** tickers *)
Lemma newTicker_ok : forall x, 0 < x <= 9223372036854 -> newTicker (millis x) = Ok (x * 1000000).
Proof. intros x H. rewrite millis_ok by lia. unfold newTicker. replace (0 <? x * 1000000) with true by (symmetry; apply Z.ltb_lt; lia). reflexivity. Qed.
Lemma heartbeat_ok : forall c, 0 < i_session c < 2 ^ 31 -> heartbeat_ticker c = Ok (i_session c * 100000).
Proof.
  intros c H. unfold heartbeat_ticker. rewrite millis_ok by lia.
  replace (i_session c * 1000000) with (i_session c * 100000 * 10) by lia. rewrite Z.quot_mul by lia.
  unfold newTicker. replace (0 <? i_session c * 100000) with true by (symmetry; apply Z.ltb_lt; lia). reflexivity.
Qed.
