(** Facts about what the HTTP interface asks the cluster for. *)
From Coq Require Import String Ascii.
From Verif Require Import Base BaseFacts SortFacts Text TextFacts Http Acl MoreSpec MoreFacts Tools ToolsSpec ToolsFacts Calls Commands CommandsFacts HttpApi HttpApiSpec.

(** ** URLs *)
Lemma unhex_hexdigit d : 0 <= d < 16 -> unhex (hexdigit d) = Some d.
Proof.
  intros H. assert (E : forallb (fun n => match unhex (hexdigit (Z.of_nat n)) with Some x => x =? Z.of_nat n | None => false end) (seq 0 16) = true) by (vm_compute; reflexivity).
  rewrite forallb_forall in E. specialize (E (Z.to_nat d)). rewrite Z2Nat.id in E by lia.
  assert (I : In (Z.to_nat d) (seq 0 16)) by (apply in_seq; lia). specialize (E I).
  destruct (unhex (hexdigit d)) as [x|]; [|discriminate]. apply Z.eqb_eq in E. congruence.
Qed.
Lemma hexdigit_plain d : 0 <= d < 16 -> unreserved (hexdigit d) = true.
Proof.
  intros H. assert (E : forallb (fun n => unreserved (hexdigit (Z.of_nat n))) (seq 0 16) = true) by (vm_compute; reflexivity).
  rewrite forallb_forall in E. specialize (E (Z.to_nat d)). rewrite Z2Nat.id in E by lia. apply E. apply in_seq. lia.
Qed.
Lemma esc_plain s c : bytes_ok s -> In c (esc s) -> unreserved c = true \/ c = 37.
Proof.
  intros B H. unfold esc in H. apply in_flat_map in H as (d & H1 & H2). unfold bytes_ok in B. rewrite Forall_forall in B. specialize (B d H1). unfold byte_ok in B.
  destruct (unreserved d) eqn:U.
  - destruct H2 as [<-|[]]. left. exact U.
  - destruct H2 as [<-|[<-|[<-|[]]]]; [right; reflexivity|left|left]; apply hexdigit_plain; [|apply Z.mod_pos_bound; lia].
    split; [apply Z.div_pos; lia|apply Z.div_lt_upper_bound; lia].
Qed.
Lemma esc_no c s : bytes_ok s -> unreserved c = false -> c <> 37 -> ~ In c (esc s).
Proof. intros B U N H. destruct (esc_plain s c B H); congruence. Qed.
Lemma unescape_esc_app plus s r : bytes_ok s -> unescape plus (esc s ++ r) = option_map (app s) (unescape plus r).
Proof.
  induction 1 as [|c s B _ IH]; [cbn; destruct (unescape plus r); reflexivity|].
  unfold esc. cbn [flat_map]. change (flat_map _ s) with (esc s). rewrite <- app_assoc. unfold byte_ok in B.
  destruct (unreserved c) eqn:U; cbn [app unescape].
  - assert (N : c =? 37 = false /\ c =? 43 = false).
    { split; apply Z.eqb_neq; intros ->; discriminate. }
    destruct N as [-> ->]. rewrite andb_false_r, IH. destruct (unescape plus r); reflexivity.
  - rewrite (unhex_hexdigit (c / 16)) by (split; [apply Z.div_pos; lia|apply Z.div_lt_upper_bound; lia]).
    rewrite (unhex_hexdigit (c mod 16)) by (apply Z.mod_pos_bound; lia).
    rewrite <- Z.div_mod by lia. rewrite IH. destruct (unescape plus r); reflexivity.
Qed.
Lemma unescape_esc plus s : bytes_ok s -> unescape plus (esc s) = Some s.
Proof. intros B. rewrite <- (app_nil_r (esc s)), unescape_esc_app by exact B. cbn. rewrite app_nil_r. reflexivity. Qed.
Lemma unescape_path ws : Forall bytes_ok ws -> unescape false (join 47 (map esc ws)) = Some (join 47 ws).
Proof.
  induction 1 as [|w ws B F IH]; [reflexivity|]. destruct ws as [|w' ws]; [exact (unescape_esc false w B)|].
  cbn [map join] in *. rewrite unescape_esc_app by exact B. cbn [unescape]. change (47 =? 37) with false. cbn [andb].
  rewrite IH. reflexivity.
Qed.
Lemma in_join sep l c : In c (join sep l) -> c = sep \/ exists w, In w l /\ In c w.
Proof.
  induction l as [|w l IH]; [intros []|]. destruct l as [|w' l]; [intros H; right; exists w; cbn; auto|].
  cbn [join] in *. intros H. apply in_app_or in H as [H|[H|H]]; [right; exists w; cbn; auto|left; auto|].
  destruct (IH H) as [E|(x & X1 & X2)]; [left; exact E|right; exists x; split; [right; exact X1|exact X2]].
Qed.
Lemma parse_url ws q : Forall bytes_ok ws -> parse_target (url ws q) =
  Some (47 :: join 47 ws, join 38 (map (fun kv => esc (fst kv) ++ 61 :: esc (snd kv)) q)).
Proof.
  intros B. unfold parse_target, url.
  assert (C : forall raw, cut 63 ((47 :: join 47 (map esc ws)) ++ 63 :: raw) = Some (47 :: join 47 (map esc ws), raw)).
  { intros raw. apply cut_spec. split; [reflexivity|]. intros [H|H]; [discriminate|]. apply in_join in H as [H|(w & H1 & H2)]; [discriminate|].
    apply in_map_iff in H1 as (w' & <- & H1). rewrite Forall_forall in B. revert H2. apply esc_no; [exact (B w' H1)|reflexivity|discriminate]. }
  rewrite C. cbn [fst snd unescape]. change (47 =? 37) with false. cbn [andb]. rewrite unescape_path by exact B. reflexivity.
Qed.
Lemma query_pair_esc kv : bytes_ok (fst kv) -> bytes_ok (snd kv) -> query_pair (esc (fst kv) ++ 61 :: esc (snd kv)) = [kv].
Proof.
  intros B1 B2. unfold query_pair. assert (N : existsb (Z.eqb 59) (esc (fst kv) ++ 61 :: esc (snd kv)) = false).
  { destruct (existsb _ _) eqn:E; [|reflexivity]. apply existsb_exists in E as (x & H & E). apply Z.eqb_eq in E. subst x.
    apply in_app_or in H as [H|[H|H]]; [|discriminate|]; exfalso; revert H; apply esc_no; auto; discriminate. }
  rewrite N. assert (C : cut 61 (esc (fst kv) ++ 61 :: esc (snd kv)) = Some (esc (fst kv), esc (snd kv))).
  { apply cut_spec. split; [reflexivity|]. apply esc_no; auto. discriminate. }
  rewrite C. cbn [fst snd]. rewrite !unescape_esc by assumption. destruct (esc (fst kv) ++ 61 :: esc (snd kv)) as [|] eqn:E; [destruct (esc (fst kv)); discriminate|].
  destruct kv. reflexivity.
Qed.
Definition query_ok (q : list (bytes * bytes)) : Prop := Forall (fun kv => bytes_ok (fst kv) /\ bytes_ok (snd kv)) q.
Lemma parse_query_url q : query_ok q -> parse_query (join 38 (map (fun kv => esc (fst kv) ++ 61 :: esc (snd kv)) q)) = q.
Proof.
  intros B. unfold parse_query. destruct q as [|kv q]; [reflexivity|]. rewrite split_join; [|discriminate|].
  - induction B as [|x l [B1 B2] _ IH]; [reflexivity|]. cbn [map flat_map]. rewrite query_pair_esc, IH by assumption. reflexivity.
  - apply Forall_forall. intros w H. apply in_map_iff in H as (x & <- & H). unfold query_ok in B. rewrite Forall_forall in B. destruct (B x H) as [B1 B2].
    intros I. apply in_app_or in I as [I|[I|I]]; [|discriminate|]; revert I; apply esc_no; auto; discriminate.
Qed.

Lemma given_one q k v : given q k [v] -> query (lit k) q = v.
Proof.
  unfold given, query. revert v. induction q as [|kv q IH]; intros v H; [discriminate|]. cbn [filter find] in *.
  destruct (beqb (fst kv) (lit k)); [injection H as H _; rewrite H; reflexivity|]. exact (IH v H).
Qed.
Lemma given_none q k : given q k [] -> query (lit k) q = [].
Proof.
  unfold given, query. induction q as [|kv q IH]; intros H; [reflexivity|]. cbn [filter find] in *.
  destruct (beqb (fst kv) (lit k)); [discriminate|exact (IH H)].
Qed.
Lemma given_array q k vs : given q k vs -> query_array (lit k) q = match vs with [] => None | _ => Some vs end.
Proof. unfold given, query_array. intros ->. rewrite map_map. cbn [snd]. rewrite map_id. destruct vs; reflexivity. Qed.

(** ** routes *)
Lemma served m ws q b t ps : ws <> [] -> Forall bytes_ok ws -> Forall (fun w => ~ In 47 w) ws ->
  route_in routes m ws = Some (t, ps) ->
  serve m (url ws q) b = handle_at t ps (join 38 (map (fun kv => esc (fst kv) ++ 61 :: esc (snd kv)) q)) b.
Proof.
  intros N B S R. unfold serve. rewrite parse_url by exact B.
  replace (47 :: join 47 ws) with (join 47 ([] :: ws)) by (destruct ws; [congruence|reflexivity]).
  rewrite split_join; [|discriminate|constructor; [intros []|exact S]]. rewrite R. reflexivity.
Qed.

(** ** JSON *)
Lemma case_low c : case_of (low c) = case_of c.
Proof.
  unfold case_of, low.
  destruct (65 <=? c) eqn:A; destruct (c <=? 90) eqn:B; cbn [andb]; try reflexivity. apply Z.leb_le in A, B.
  assert (E : (97 <=? c + 32) = true /\ (c + 32 <=? 122) = true /\ (97 <=? c) = false) by (split; [|split]; [apply Z.leb_le|apply Z.leb_le|apply Z.leb_gt]; lia).
  destruct E as (-> & -> & ->). cbn [andb]. lia.
Qed.
Lemma other_key a b : map case_of a <> map case_of (lit b) -> same_key a b = false.
Proof.
  intros N. unfold same_key. apply beqb_false. intros E. apply N.
  assert (G : forall l, map case_of l = map case_of (map low l)) by (intros l; rewrite map_map; apply map_ext; intros c; symmetry; apply case_low).
  rewrite (G a), E, <- G. reflexivity.
Qed.
(** two members of an object can change places *)
Definition commute {A} (set : bytes -> json -> A -> option A) (x y : bytes * json) : Prop := forall a,
  match set (fst x) (snd x) a with Some b => set (fst y) (snd y) b | None => None end =
  match set (fst y) (snd y) a with Some b => set (fst x) (snd x) b | None => None end.
Lemma members_perm {A} (set : bytes -> json -> A -> option A) l l' : Permutation l l' ->
  (forall x y, In x l -> In y l -> commute set x y) -> forall a, jmembers set l a = jmembers set l' a.
Proof.
  induction 1 as [|[k v] l l' P IH|[k v] [k' v'] l|l1 l2 l3 P1 IH1 P2 IH2]; intros C a.
  - reflexivity.
  - cbn [jmembers]. destruct (set k v a); [|reflexivity]. apply IH. intros x y X Y. apply C; right; assumption.
  - cbn [jmembers]. assert (K := C (k, v) (k', v') (or_intror (or_introl eq_refl)) (or_introl eq_refl) a). cbn [fst snd] in K.
    destruct (set k' v' a) as [b|], (set k v a) as [d|]; rewrite ?K; try reflexivity; rewrite <- ?K; reflexivity.
  - rewrite IH1 by exact C. apply IH2. intros x y X Y. apply C; (eapply Permutation_in; [apply Permutation_sym; exact P1|assumption]).
Qed.
Lemma jmembers_app {A} (set : bytes -> json -> A -> option A) l1 l2 : forall a,
  jmembers set (l1 ++ l2) a = match jmembers set l1 a with Some b => jmembers set l2 b | None => None end.
Proof. induction l1 as [|[k v] l1 IH]; intros a; [reflexivity|]. cbn [app jmembers]. destruct (set k v a); [apply IH|reflexivity]. Qed.

Definition fields_of (fields : list (string * json)) : list (bytes * json) := map (fun f => (lit (fst f), snd f)) fields.
Lemma object_decodes {A} (set : bytes -> json -> A -> option A) fields (zero r : A) j : object fields j ->
  (forall k v a, Forall (fun f => same_key k (fst f) = false) fields -> set k v a = Some a) ->
  (forall x y, In x (fields_of fields) -> In y (fields_of fields) -> commute set x y) ->
  jmembers set (fields_of fields) zero = Some r -> jstruct set zero j = Some r.
Proof.
  intros (l & extra & -> & P & X) I C R. cbn [jstruct].
  assert (S : forall kv a, In kv extra -> set (fst kv) (snd kv) a = Some a).
  { intros kv a H. apply I. rewrite Forall_forall in X. specialize (X kv H). rewrite Forall_forall in *. intros f F. apply other_key. exact (X f F). }
  rewrite <- (members_perm set _ l P).
  - rewrite jmembers_app. change (map _ fields) with (fields_of fields). rewrite R. clear -S. revert r.
    induction extra as [|[k v] extra IH]; intros r; [reflexivity|]. cbn [jmembers]. pose proof (S (k, v) r (or_introl eq_refl)) as E. cbn [fst snd] in E. rewrite E.
    apply IH. intros kv a H. apply S. right. exact H.
  - intros x y X1 Y1. apply in_app_or in X1 as [X1|X1], Y1 as [Y1|Y1].
    + apply C; assumption.
    + intros a. rewrite (S y a Y1). destruct (set (fst x) (snd x) a); [apply S; exact Y1|reflexivity].
    + intros a. rewrite (S x a X1). destruct (set (fst y) (snd y) a); [symmetry; apply S; exact X1|reflexivity].
    + intros a. rewrite (S x a X1), (S y a Y1), (S x a X1). reflexivity.
Qed.
Lemma array_decodes {A} (R : A -> json -> Prop) (f : json -> option A) l j : array R l j -> (forall x v, In x l -> R x v -> f v = Some x) -> jlist f j = Some l.
Proof.
  intros (js & -> & F) H. cbn [jlist]. induction F as [|x v l js X F IH]; [reflexivity|]. cbn [all_of]. rewrite (H x v (or_introl eq_refl) X).
  rewrite IH; [reflexivity|]. intros y w Y. apply H. right. exact Y.
Qed.
Lemma jint32 z o : int32 z -> jint 32 (JInt z) o = Some z.
Proof.
  unfold int32, jint. intros H. change (32 - 1) with 31.
  replace ((- 2 ^ 31 <=? z) && (z <? 2 ^ 31)) with true; [reflexivity|]. symmetry. apply andb_true_intro. split; [apply Z.leb_le|apply Z.ltb_lt]; lia.
Qed.

(** decides what a key with a known name is *)
Ltac keys := repeat match goal with |- context [same_key (lit ?a) ?b] => let r := eval vm_compute in (same_key (lit a) b) in change (same_key (lit a) b) with r end; cbv iota.
Ltac others X := repeat match type of X with Forall _ (_ :: _) => let a := fresh in inversion X as [|? ? a X']; subst; clear X; rename X' into X; cbn [fst] in a; rewrite a end; reflexivity.

Lemma tp_decodes tp j : int32 (snd tp) -> tp_object tp j -> jstruct set_tp ([], 0) j = Some tp.
Proof.
  intros I O. eapply object_decodes; [exact O| | |].
  - intros k v a X. unfold set_tp. others X.
  - intros x y X Y a. cbn [fields_of map fst snd] in X, Y.
    destruct X as [<-|[<-|[]]], Y as [<-|[<-|[]]]; cbn [fst snd]; unfold set_tp; keys;
      repeat (cbn [option_map jtext fst snd]; rewrite ?jint32 by exact I); reflexivity.
  - cbn [fields_of map fst snd jmembers]. unfold set_tp. keys. cbn [option_map jtext fst snd]. keys. rewrite jint32 by exact I. destruct tp. reflexivity.
Qed.
Lemma all_ints l : Forall int32 l -> all_of (fun x => jint 32 x 0) (map JInt l) = Some l.
Proof. induction 1 as [|z l H _ IH]; [reflexivity|]. cbn [map all_of]. rewrite jint32, IH by exact H. reflexivity. Qed.
Lemma all_texts l : all_of (fun x => jtext x []) (map JStr l) = Some l.
Proof. induction l as [|s l IH]; [reflexivity|]. cbn [map all_of jtext]. rewrite IH. reflexivity. Qed.
Lemma reassign_decodes a j : int32 (fst (snd a)) -> Forall int32 (snd (snd a)) -> reassign_object a j ->
  jstruct set_replicas ([], (0, [])) j = Some a.
Proof.
  intros I1 I2 O. eapply object_decodes; [exact O| | |].
  - intros k v x X. unfold set_replicas. others X.
  - intros x y X Y z. cbn [fields_of map fst snd] in X, Y.
    destruct X as [<-|[<-|[<-|[]]]], Y as [<-|[<-|[<-|[]]]]; cbn [fst snd]; unfold set_replicas; keys;
      repeat (cbn [option_map jtext jlist fst snd]; rewrite ?jint32, ?all_ints by assumption); reflexivity.
  - cbn [fields_of map fst snd jmembers]. unfold set_replicas. keys. cbn [option_map jtext jlist fst snd]. keys. rewrite jint32 by exact I1.
    cbn [option_map fst snd]. keys. rewrite all_ints by exact I2. destruct a as [t [p r]]. reflexivity.
Qed.
Lemma jint64 z o : - 2 ^ 63 <= z < 2 ^ 63 -> jint 64 (JInt z) o = Some z.
Proof.
  unfold jint. intros H. change (64 - 1) with 63.
  replace ((- 2 ^ 63 <=? z) && (z <? 2 ^ 63)) with true; [reflexivity|]. symmetry. apply andb_true_intro. split; [apply Z.leb_le|apply Z.ltb_lt]; lia.
Qed.
Lemma count_decodes t n ms j : int32 n -> - 2 ^ 63 <= ms < 2 ^ 63 ->
  object [("topic"%string, JStr t); ("count"%string, JInt n); ("timeout"%string, JInt ms)] j -> jstruct set_count ([], (0, 0)) j = Some (t, (n, ms)).
Proof.
  intros I1 I2 O. eapply object_decodes; [exact O| | |].
  - intros k v x X. unfold set_count. others X.
  - intros x y X Y z. cbn [fields_of map fst snd] in X, Y.
    destruct X as [<-|[<-|[<-|[]]]], Y as [<-|[<-|[<-|[]]]]; cbn [fst snd]; unfold set_count; keys;
      repeat (cbn [option_map jtext jlist fst snd]; rewrite ?jint32, ?jint64 by assumption); reflexivity.
  - cbn [fields_of map fst snd jmembers]. unfold set_count. keys. cbn [option_map jtext fst snd]. keys. rewrite jint32 by exact I1.
    cbn [option_map fst snd]. keys. rewrite jint64 by exact I2. reflexivity.
Qed.
Lemma topics_decodes ts j : object [("topics"%string, JArr (map JStr ts))] j -> jstruct set_topics [] j = Some ts.
Proof.
  intros O. eapply object_decodes; [exact O| | |].
  - intros k v x X. unfold set_topics. others X.
  - intros x y X Y z. cbn [fields_of map fst snd] in X, Y. destruct X as [<-|[]], Y as [<-|[]]. reflexivity.
  - cbn [fields_of map fst snd jmembers]. unfold set_topics. keys. cbn [jlist]. rewrite all_texts. reflexivity.
Qed.

Lemma op_said s v : says operation_texts s v -> op_parse s = Some v.
Proof. intros (t & H1 & H2). unfold op_parse. cbn [In operation_texts] in H1.
  repeat (destruct H1 as [H1|H1]; [injection H1 as <- <-; rewrite (upper_same _ _ H2); vm_compute; reflexivity|]). destruct H1. Qed.
Lemma perm_said s v : says permission_texts s v -> perm_parse s = Some v.
Proof. intros (t & H1 & H2). unfold perm_parse. cbn [In permission_texts] in H1.
  repeat (destruct H1 as [H1|H1]; [injection H1 as <- <-; rewrite (upper_same _ _ H2); vm_compute; reflexivity|]). destruct H1. Qed.
Lemma jenum_said parse s v o : parse (text_of s) = Some v -> jenum parse (JStr s) o = Some v.
Proof. intros H. exact H. Qed.
Lemma jptr_text o x : jptr (text_or_null o) x = Some o.
Proof. destruct o; reflexivity. Qed.

Lemma filter_decodes f j : filter_object f j -> jstruct set_filter no_filter j = Some f.
Proof.
  destruct f as (rt & rn & pt & pr & ho & op & pe). intros (a & b & c & d & A & B & C & D & O).
  apply resource_says in A. apply pattern_says in B. apply op_said in C. apply perm_said in D.
  eapply object_decodes; [exact O| | |].
  - intros k v x X. unfold set_filter. destruct x as (x1 & x2 & x3 & x4 & x5 & x6 & x7). others X.
  - intros x y X Y (z1 & z2 & z3 & z4 & z5 & z6 & z7). cbn [fields_of map fst snd] in X, Y.
    destruct X as [<-|[<-|[<-|[<-|[<-|[<-|[<-|[]]]]]]]]; cbn [fst snd]; unfold set_filter at 1 4; keys;
      rewrite ?(jenum_said _ _ _ _ A), ?(jenum_said _ _ _ _ B), ?(jenum_said _ _ _ _ C), ?(jenum_said _ _ _ _ D), ?jptr_text; cbn [option_map];
      destruct Y as [<-|[<-|[<-|[<-|[<-|[<-|[<-|[]]]]]]]]; cbn [fst snd]; unfold set_filter; keys;
      rewrite ?(jenum_said _ _ _ _ A), ?(jenum_said _ _ _ _ B), ?(jenum_said _ _ _ _ C), ?(jenum_said _ _ _ _ D), ?jptr_text; cbn [option_map]; keys;
      rewrite ?(jenum_said _ _ _ _ A), ?(jenum_said _ _ _ _ B), ?(jenum_said _ _ _ _ C), ?(jenum_said _ _ _ _ D), ?jptr_text; reflexivity.
  - cbn [fields_of map fst snd jmembers]. unfold no_filter.
    unfold set_filter at 1. keys. rewrite (jenum_said _ _ _ _ A). cbn [option_map].
    unfold set_filter at 1. keys. rewrite jptr_text. cbn [option_map].
    unfold set_filter at 1. keys. rewrite (jenum_said _ _ _ _ B). cbn [option_map].
    unfold set_filter at 1. keys. rewrite jptr_text. cbn [option_map].
    unfold set_filter at 1. keys. rewrite jptr_text. cbn [option_map].
    unfold set_filter at 1. keys. rewrite (jenum_said _ _ _ _ C). cbn [option_map].
    unfold set_filter at 1. keys. rewrite (jenum_said _ _ _ _ D). reflexivity.
Qed.
Lemma creation_decodes f j : creation_object f j -> jstruct set_creation no_creation j = Some f.
Proof.
  destruct f as (rt & rn & pt & pr & ho & op & pe). intros (a & b & c & d & A & B & C & D & O).
  apply resource_says in A. apply pattern_says in B. apply op_said in C. apply perm_said in D.
  eapply object_decodes; [exact O| | |].
  - intros k v x X. unfold set_creation. destruct x as (x1 & x2 & x3 & x4 & x5 & x6 & x7). others X.
  - intros x y X Y (z1 & z2 & z3 & z4 & z5 & z6 & z7). cbn [fields_of map fst snd] in X, Y.
    destruct X as [<-|[<-|[<-|[<-|[<-|[<-|[<-|[]]]]]]]]; cbn [fst snd]; unfold set_creation at 1 4; keys;
      rewrite ?(jenum_said _ _ _ _ A), ?(jenum_said _ _ _ _ B), ?(jenum_said _ _ _ _ C), ?(jenum_said _ _ _ _ D); cbn [option_map jtext];
      destruct Y as [<-|[<-|[<-|[<-|[<-|[<-|[<-|[]]]]]]]]; cbn [fst snd]; unfold set_creation; keys;
      rewrite ?(jenum_said _ _ _ _ A), ?(jenum_said _ _ _ _ B), ?(jenum_said _ _ _ _ C), ?(jenum_said _ _ _ _ D); cbn [option_map jtext]; keys;
      rewrite ?(jenum_said _ _ _ _ A), ?(jenum_said _ _ _ _ B), ?(jenum_said _ _ _ _ C), ?(jenum_said _ _ _ _ D); reflexivity.
  - cbn [fields_of map fst snd jmembers]. unfold no_creation.
    unfold set_creation at 1. keys. rewrite (jenum_said _ _ _ _ A). cbn [option_map].
    unfold set_creation at 1. keys. cbn [option_map jtext].
    unfold set_creation at 1. keys. rewrite (jenum_said _ _ _ _ B). cbn [option_map].
    unfold set_creation at 1. keys. cbn [option_map jtext].
    unfold set_creation at 1. keys. cbn [option_map jtext].
    unfold set_creation at 1. keys. rewrite (jenum_said _ _ _ _ C). cbn [option_map].
    unfold set_creation at 1. keys. rewrite (jenum_said _ _ _ _ D). reflexivity.
Qed.
Lemma filters_pointed l j : array filter_object l j -> jlist (jpointer (jstruct set_filter no_filter)) j = Some (map Some l).
Proof.
  intros (js & -> & F). cbn [jlist]. induction F as [|x v l js X F IH]; [reflexivity|]. cbn [all_of map].
  pose proof (filter_decodes x v X) as D. destruct x as (rt & rn & pt & pr & ho & op & pe). destruct X as (a & b & c & d & _ & _ & _ & _ & (m & extra & -> & _)).
  cbn [jpointer]. rewrite D, IH. reflexivity.
Qed.

(** ** operations *)
Lemma sint32 z : int32 z -> sint 32 z = z.
Proof. unfold int32. intros H. apply sint_id; [lia|]. change (2 ^ (32 - 1)) with (2 ^ 31). lia. Qed.
Lemma decimal_byte x : bytes_ok (decimal x).
Proof.
  assert (U : forall f y acc, bytes_ok acc -> bytes_ok (udec f y acc)).
  { induction f as [|f IH]; intros y acc B; [exact B|]. cbn [udec]. assert (B' : bytes_ok ((48 + y mod 10) :: acc)).
    { constructor; [|exact B]. unfold byte_ok. pose proof (Z.mod_pos_bound y 10). lia. }
    destruct (y <? 10); [exact B'|apply IH; exact B']. }
  unfold decimal. destruct (x <? 0); [constructor; [unfold byte_ok; lia|]|]; apply U; constructor.
Qed.
Lemma op_served_asks o servers q b : op_typed o -> op_served o b -> query_ok q -> given q "bootstrap" [servers] -> op_query o q -> op_body o b ->
  serve (op_method o) (url (op_path o) q) b = Asks servers 200 (op_wants o).
Proof.
  intros [TB T] [SP S] Q G OQ OB.
  assert (N47 : Forall (fun w => ~ In 47 w) (op_path o)) by (eapply Forall_impl; [|exact SP]; intros w [_ H]; exact H).
  assert (R : forall t ps, route_in routes (op_method o) (op_path o) = Some (t, ps) ->
    serve (op_method o) (url (op_path o) q) b = handle_at t ps (join 38 (map (fun kv => esc (fst kv) ++ 61 :: esc (snd kv)) q)) b).
  { intros t ps H. apply served; auto. destruct o; discriminate. }
  destruct o; cbn [op_path op_method op_query op_body op_wants] in *;
    repeat match goal with H : Forall (fun w => w <> [] /\ _) (_ :: _) |- _ => let a := fresh in inversion H as [|? ? [a _] H']; subst; clear H; rename H' into H; cbv beta in a end.
  - (* metadata *) rewrite (R RtMetadata []) by reflexivity. unfold handle_at. rewrite parse_query_url, (given_one _ _ _ G), (given_array _ _ _ OQ) by exact Q. reflexivity.
  - (* offsets *) destruct topic as [|c topic]; [congruence|]. destruct time as [t|]; [|destruct S].
    rewrite (R RtOffsets [("topic"%string, c :: topic)]) by reflexivity. unfold handle_at.
    rewrite parse_query_url, (given_one _ _ _ G), (given_one _ _ _ OQ), atoi_decimal by (exact Q || exact T). reflexivity.
  - destruct topic as [|c topic]; [congruence|]. rewrite (R RtLogDirs [("topic"%string, c :: topic)]) by reflexivity. unfold handle_at.
    rewrite parse_query_url, (given_one _ _ _ G) by exact Q. reflexivity.
  - destruct topic as [|c topic]; [congruence|]. destruct name as [|d name]; [congruence|].
    rewrite (R RtConfig [("topic"%string, c :: topic); ("config"%string, d :: name)]) by reflexivity. unfold handle_at.
    rewrite parse_query_url, (given_one _ _ _ G) by exact Q. reflexivity.
  - destruct topic as [|c topic]; [congruence|]. destruct name as [|d name]; [congruence|]. destruct value as [|e value]; [congruence|].
    rewrite (R RtAlter [("topic"%string, c :: topic); ("config"%string, d :: name); ("value"%string, e :: value)]) by reflexivity. unfold handle_at.
    rewrite parse_query_url, (given_one _ _ _ G) by exact Q. reflexivity.
  - destruct topic as [|c topic]; [congruence|]. rewrite (R RtTopicConfigs [("topic"%string, c :: topic)]) by reflexivity. unfold handle_at.
    rewrite parse_query_url, (given_one _ _ _ G) by exact Q. reflexivity.
  - rewrite (R RtBrokerConfigs [("broker"%string, decimal id)]).
    + unfold handle_at, configs_of. rewrite parse_query_url, (given_one _ _ _ G) by exact Q. cbn [param]. change (String.eqb "broker" "broker") with true. cbv iota.
      unfold describe_configs. change (String.eqb "broker" "broker") with true. cbv iota. rewrite atoi_decimal by (red; lia).
      rewrite sint32 by (red; lia). reflexivity.
    + destruct (decimal id) as [|c w] eqn:E; [congruence|]. reflexivity.
  - rewrite (R RtGroups []) by reflexivity. unfold handle_at. rewrite parse_query_url, (given_one _ _ _ G) by exact Q. reflexivity.
  - destruct group as [|c group]; [congruence|]. rewrite (R RtGroup [("group"%string, c :: group)]) by reflexivity. unfold handle_at.
    rewrite parse_query_url, (given_one _ _ _ G) by exact Q. reflexivity.
  - destruct group as [|c group]; [congruence|]. destruct topic as [|d topic]; [congruence|].
    rewrite (R RtPending [("group"%string, c :: group); ("topic"%string, d :: topic)]) by reflexivity. unfold handle_at.
    rewrite parse_query_url, (given_one _ _ _ G) by exact Q. reflexivity.
  - destruct OB as (j & -> & A). destruct T as [T1 T2]. rewrite (R RtReassign []) by reflexivity. unfold handle_at.
    rewrite parse_query_url, (given_one _ _ _ G), (given_one _ _ _ OQ), atoi_decimal by (exact Q || (red in T1; red; lia)). cbn [bind].
    rewrite (array_decodes reassign_object _ l j A), sint32; [reflexivity|exact T1|].
    intros x v I X. rewrite Forall_forall in T2. destruct (T2 x I) as [I1 I2]. exact (reassign_decodes x v I1 I2 X).
  - destruct OB as (j & -> & A). destruct T as [T1 T2]. rewrite (R RtElect []) by reflexivity. unfold handle_at.
    rewrite parse_query_url, (given_one _ _ _ G), (given_one _ _ _ OQ), atoi_decimal by (exact Q || (red in T1; red; lia)). cbn [bind].
    rewrite (array_decodes tp_object _ l j A), sint32; [reflexivity|exact T1|].
    intros x v I X. rewrite Forall_forall in T2. exact (tp_decodes x v (T2 x I) X).
  - destruct OB as [[_ ->]|(j & -> & A)]; [congruence|]. destruct T as [T1 T2]. rewrite (R RtListing []) by reflexivity. unfold handle_at.
    rewrite parse_query_url, (given_one _ _ _ G) by exact Q. cbn [bind].
    rewrite (array_decodes tp_object _ l j A); [|intros x v I X; rewrite Forall_forall in T2; exact (tp_decodes x v (T2 x I) X)].
    destruct timeout as [ms|].
    + rewrite (given_one _ _ _ OQ). assert (D : decimal ms <> []) by apply decimal_ne.
      cbv zeta. replace (match decimal ms with [] => Some 30000 | _ :: _ => atoi (decimal ms) end) with (Some ms); [rewrite sint32 by exact T1; reflexivity|].
      destruct (decimal ms) as [|c w] eqn:E; [congruence|]. rewrite <- E, atoi_decimal; [reflexivity|red in T1; red; lia].
    + rewrite (given_none _ _ OQ). reflexivity.
  - destruct OB as (j & -> & A). destruct T as [T1 T2]. rewrite (R RtPartitions []) by reflexivity. unfold handle_at.
    rewrite parse_query_url, (given_one _ _ _ G) by exact Q. cbn [bind]. rewrite (count_decodes topic count timeout j T1) by (exact A || lia).
    rewrite uint_small by lia. reflexivity.
  - destruct OB as (j & -> & A). rewrite (R RtDescribeLogdirs []) by reflexivity. unfold handle_at.
    rewrite parse_query_url, (given_one _ _ _ G) by exact Q. cbn [bind]. rewrite (topics_decodes topics j A). reflexivity.
  - destruct OB as (j & -> & A). rewrite (R RtDescribeAcls []) by reflexivity. unfold handle_at.
    rewrite parse_query_url, (given_one _ _ _ G) by exact Q. cbn [bind]. rewrite (filter_decodes f j A).
    destruct f as (rt & rn & pt & pr & ho & op & pe). reflexivity.
  - destruct OB as (j & -> & A). rewrite (R RtCreateAcls []) by reflexivity. unfold handle_at.
    rewrite parse_query_url, (given_one _ _ _ G) by exact Q. cbn [bind]. rewrite (array_decodes creation_object _ l j A) by (intros; apply creation_decodes; assumption). reflexivity.
  - destruct OB as (j & -> & A). rewrite (R RtDeleteAcls []) by reflexivity. unfold handle_at.
    rewrite parse_query_url, (given_one _ _ _ G) by exact Q. cbn [bind]. rewrite (filters_pointed l j A).
    replace (existsb _ (map Some l)) with false by (clear; induction l; [reflexivity|assumption]).
    replace (flat_map _ (map Some l)) with l by (clear; induction l as [|x l IH]; [reflexivity|]; cbn; f_equal; exact IH). reflexivity.
Qed.

(** ** reading *)
Lemma route_is rs m ws t ps : route_in rs m ws = Some (t, ps) -> exists pat, In ((m, pat), t) rs /\ match_path pat ws = Some ps.
Proof.
  induction rs as [|[[m' pat] t'] rs IH]; cbn [route_in]; [discriminate|].
  destruct (method_eqb m' m) eqn:E.
  - destruct (match_path pat ws) as [ps'|] eqn:M.
    + intros H. injection H as <- <-. exists pat. split; [left; destruct m', m; (discriminate || reflexivity)|exact M].
    + intros H. destruct (IH H) as (p & I & P). exists p. split; [right; exact I|exact P].
  - intros H. destruct (IH H) as (p & I & P). exists p. split; [right; exact I|exact P].
Qed.
Lemma serve_route m target b r : serve m target b = r -> r <> NoRoute -> r <> Refused 400 ->
  exists t ps raw, r = handle_at t ps raw b /\ exists pat, In ((m, pat), t) routes.
Proof.
  unfold serve. intros H N1 N2. destruct (parse_target target) as [[path raw]|]; [|congruence].
  destruct (split 47 path) as [|[|] ws]; try congruence. destruct (route_in routes m ws) as [[t ps]|] eqn:R; [|congruence].
  exists t, ps, raw. split; [auto|]. destruct (route_is _ _ _ _ _ R) as (pat & I & _). eauto.
Qed.
(** what only reads *)
Definition reads (a : ask) : Prop := match a with ACall _ c => ~ changes c | _ => True end.
Lemma get_reads m target b s st a : serve m target b = Asks s st a -> reading m = true -> reads a.
Proof.
  intros H R. destruct (serve_route _ _ _ _ H) as (t & ps & raw & E & pat & I); try discriminate.
  destruct m; try discriminate.
  - cbn [routes In] in I.
    repeat (destruct I as [I|I]; [try discriminate I; injection I as <- <-; unfold handle_at, configs_of in E; cbv zeta in E;
      repeat match type of E with context [match ?x with _ => _ end] => destruct x; try discriminate end;
      try discriminate; injection E as _ _ ->; cbn; tauto|]). destruct I.
  - cbn [routes In] in I. repeat (destruct I as [I|I]; [discriminate I|]). destruct I.
  - cbn [routes In] in I. repeat (destruct I as [I|I]; [discriminate I|]). destruct I.
Qed.
Lemma crash_delete m target b : serve m target b = Crashes -> m = DELETE.
Proof.
  intros H. destruct (serve_route _ _ _ _ H) as (t & ps & raw & E & pat & I); try discriminate.
  destruct m; try reflexivity; exfalso; cbn [routes In] in I;
    repeat (destruct I as [I|I]; [try discriminate I; injection I as <- <-; unfold handle_at, configs_of in E; cbv zeta in E;
      repeat match type of E with context [match ?x with _ => _ end] => destruct x; try discriminate end; discriminate|]); destruct I.
Qed.

(** ** the redirect *)
Lemma lit_ok s : bytes_ok (lit s).
Proof.
  induction s as [|c s IH]; constructor; [|exact IH]. unfold byte_ok. pose proof (nat_ascii_bounded c). lia.
Qed.
Lemma plain_lit s : existsb (fun x => x =? 47) (lit s) = false -> ~ In 47 (lit s).
Proof. intros E I. assert (H : existsb (fun x => x =? 47) (lit s) = true) by (apply existsb_exists; exists 47; auto). congruence. Qed.
Lemma esc_same s : Forall (fun c => unreserved c = true) s -> esc s = s.
Proof. induction 1 as [|c s U _ IH]; [reflexivity|]. unfold esc. cbn [flat_map]. rewrite U. cbn [app]. f_equal. exact IH. Qed.
Lemma unreserved_byte c : unreserved c = true -> byte_ok c /\ c <> 47.
Proof.
  unfold unreserved, byte_ok. intros H.
  repeat (apply orb_prop in H as [H|H]); try (apply andb_true_iff in H as [H1 H2]; apply Z.leb_le in H1, H2; lia); apply Z.eqb_eq in H; lia.
Qed.
Lemma redirect_configs topic q b servers : topic <> [] -> Forall (fun c => unreserved c = true) topic -> query_ok q -> given q "bootstrap" [servers] ->
  exists loc, serve GET (url [lit "topic"; topic; lit "configs"] q) b = Goto loc /\ serve GET loc b = Asks servers 200 (op_wants (OpTopicConfigs topic)).
Proof.
  intros N U Q G. assert (BO : bytes_ok topic) by (eapply Forall_impl; [|exact U]; intros c H; apply unreserved_byte; exact H).
  assert (N47 : ~ In 47 topic) by (rewrite Forall_forall in U; intros H; destruct (unreserved_byte 47 (U 47 H)); congruence).
  exists (url [lit "configs"; lit "topic"; topic] q). split.
  - rewrite (served GET [lit "topic"; topic; lit "configs"] q b RtRedirect [("topic"%string, topic)]).
    + unfold handle_at. cbv zeta. cbn [param]. change (String.eqb "topic" "topic") with true. cbv iota. unfold url. cbn [map join].
      rewrite (esc_same topic U). change (esc (lit "configs")) with (lit "configs"). change (esc (lit "topic")) with (lit "topic").
      rewrite app_comm_cons. change (lit "/configs/topic/") with (47 :: lit "configs" ++ 47 :: lit "topic" ++ [47]).
      change (lit "?") with [63]. rewrite <- !app_comm_cons, <- !app_assoc. cbn [app]. rewrite <- !app_assoc. reflexivity.
    + discriminate.
    + constructor; [apply lit_ok|]. constructor; [exact BO|]. constructor; [apply lit_ok|constructor].
    + constructor; [apply plain_lit; reflexivity|]. constructor; [exact N47|]. constructor; [apply plain_lit; reflexivity|constructor].
    + destruct topic; [congruence|]. reflexivity.
  - refine (op_served_asks (OpTopicConfigs topic) servers q b _ _ Q G I I).
    + split; [|exact I]. constructor; [apply lit_ok|]. constructor; [apply lit_ok|]. constructor; [exact BO|constructor].
    + split; [|exact I]. constructor; [split; [discriminate|apply plain_lit; reflexivity]|]. constructor; [split; [discriminate|apply plain_lit; reflexivity]|]. constructor; [split; assumption|constructor].
Qed.

(** ** lag *)
Lemma http_lines rs md cs rows : http_pending (Ok rs) (Ok md) (Ok cs) = Ok rows ->
  map fst rows = flat_map snd md /\
  forall p o c l v last com mt, In (p, (o, (c, l))) rows ->
    told (flat_map (flat_map snd) rs) p v -> reports v last -> 0 <= last < 2 ^ 63 ->
    told (flat_map snd cs) p (com, mt) -> 0 <= com < 2 ^ 63 ->
    o = last /\ c = com /\ l = backlog last com.
Proof.
  unfold http_pending. cbn [rbind]. destruct (offsets_of rs) as [offs| | |] eqn:O; try discriminate. cbn [rbind]. intros H. injection H as <-.
  split; [rewrite map_map; cbn; apply map_id|].
  intros p o c l v last com mt I T R L TC C.
  apply in_map_iff in I as (q & E & _). unfold http_row in E. injection E as -> Eo Ec El.
  rewrite (offsets_get _ _ _ _ _ O T R) in *. rewrite (committed_get _ _ _ _ TC) in *.
  subst. split; [reflexivity|]. split; [reflexivity|]. unfold backlog. replace (c <? 0) with false by lia. apply sint64_id. lia.
Qed.
Lemma http_offsets_ok rs es : http_offsets (Ok rs) = Ok es -> StronglySorted (fun a b : poff => fst a <= fst b) es /\ Permutation es (flat_map (flat_map snd) rs).
Proof. cbn. intros H. injection H as <-. split; [apply sorted_parts_sorted|apply SortFacts.isort_perm]. Qed.
