(** What the decoders make of a response is bounded by its bytes, but for what they make up. *)
From Coq Require Import Permutation.
From Verif Require Import Base BaseFacts Prims Group Assign SortFacts Responses SizeSpec.

(** What is decoded, and twice what is left, is at most twice what there was. *)
Definition sz {A} (p : parser A) (f : A -> Z) : Prop := forall s a r, p s = Ok (a, r) -> f a + 2 * zlen r <= 2 * zlen s.

Lemma sz_le {A} (p : parser A) f g : sz p f -> (forall a, g a <= f a) -> sz p g.
Proof. intros H L s a r E. specialize (H s a r E). specialize (L a). lia. Qed.
Lemma sz_ret {A} (a : A) h : h a <= 0 -> sz (ret a) h.
Proof. intros H s b r E. injection E as <- <-. lia. Qed.
Lemma sz_fail {A} e h : sz (@fail A e) h. Proof. intros s a r E. discriminate E. Qed.
Lemma sz_panic {A} h : sz (@panic A) h. Proof. intros s a r E. discriminate E. Qed.
Lemma sz_bind {A B} (p : parser A) (k : A -> parser B) f h : sz p f -> (forall a, sz (k a) (fun b => h b - f a)) -> sz (bind p k) h.
Proof.
  intros Hp Hk s b r E. unfold bind in E. destruct (p s) as [[a s']| | |] eqn:Ep; try discriminate E.
  specialize (Hp s a s' Ep). specialize (Hk a s' b r E). cbv beta in Hk. lia.
Qed.
Lemma sz_if {A} (b : bool) (p q : parser A) h : sz p h -> sz q h -> sz (if b then p else q) h.
Proof. destruct b; auto. Qed.
Lemma sz_with {A} o (a : A) h : h a <= 0 -> sz (with_err o a) h.
Proof. destruct o; [intros _; apply sz_fail|apply sz_ret]. Qed.
Lemma sz_u n : sz (rd_u n) (fun _ => 2 * Z.of_nat n).
Proof.
  intros s a r E. unfold rd_u in E. destruct (Nat.leb_spec n (length s)) as [L|L]; [|discriminate E]. injection E as <- <-.
  unfold zlen. rewrite skipn_length. lia.
Qed.
Lemma sz_i n : sz (rd_i n) (fun _ => 2 * Z.of_nat n).
Proof.
  intros s a r E. unfold rd_i in E. destruct (rd_u n s) as [[v s']| | |] eqn:Eu; try discriminate E. injection E as _ <-.
  exact (sz_u n s v s' Eu).
Qed.
Lemma sz_peek n : sz (rd_peek n) (fun _ => 0).
Proof. intros s a r E. unfold rd_peek in E. destruct (rd_u n s) as [[v s']| | |]; try discriminate E. injection E as _ <-. lia. Qed.
Lemma sz_skip n : sz (rd_skip n) (fun _ => 2 * Z.of_nat n).
Proof.
  intros s a r E. unfold rd_skip in E. destruct (Nat.leb_spec n (length s)) as [L|L]; [|discriminate E]. injection E as _ <-.
  unfold zlen. rewrite skipn_length. lia.
Qed.
Lemma sz_bytes2 n : sz (rd_bytes n) (fun b => 2 * zlen b).
Proof.
  intros s a r E. unfold rd_bytes in E. destruct ((n <? 0) || (zlen s <? n)) eqn:D; [discriminate E|]. injection E as <- <-.
  apply orb_false_iff in D. destruct D as [D1 D2]. rewrite Z.ltb_ge in D1, D2. unfold zlen in *. rewrite firstn_length, skipn_length. lia.
Qed.
Lemma sz_bytes n : sz (rd_bytes n) (fun b => zlen b).
Proof. eapply sz_le; [apply sz_bytes2|]. intros b. cbv beta. pose proof (zlen_nonneg b). lia. Qed.
Lemma sz_n {A} n (p : parser A) g : sz p g -> sz (rd_n n p) (sum g).
Proof.
  intros H. induction n as [|n IH]; [apply sz_ret; cbn; lia|]. cbn [rd_n].
  eapply sz_bind; [exact H|]. intros a. eapply sz_bind; [exact IH|]. intros b. apply sz_ret. cbn [sum fold_right]. fold (sum g b). lia.
Qed.
Lemma sz_make {A} n (p : parser A) g : sz p g -> sz (rd_make n p) (sum g).
Proof. intros H. unfold rd_make. apply sz_if; [apply sz_panic|apply sz_n, H]. Qed.

Lemma uvarint_at_read i s acc v n : get_uvarint_at i s acc = Some (v, n) -> v = 0 /\ n = O \/ (i < n <= i + length s)%nat.
Proof.
  revert i acc. induction s as [|b t IH]; intros i acc; cbn [get_uvarint_at length].
  - intros E. injection E as <- <-. left. auto.
  - destruct (Nat.eqb i 10); [discriminate|]. destruct (b <? 128).
    + destruct (Nat.eqb i 9 && (1 <? b)); [discriminate|]. intros E. injection E as _ <-. right. lia.
    + intros E. apply IH in E. lia.
Qed.
Lemma sz_uvarint : sz rd_uvarint (fun v => if v =? 0 then 0 else 2).
Proof.
  intros s a r E. unfold rd_uvarint in E. destruct (get_uvarint s) as [[v n]|] eqn:G; [|discriminate E]. injection E as <- <-.
  apply uvarint_at_read in G. unfold zlen. rewrite skipn_length. destruct G as [[-> ->]|G]; [change (0 =? 0) with true; cbv iota; lia|]. destruct (v =? 0); lia.
Qed.
Lemma sz_uvarint0 : sz rd_uvarint (fun _ => 0).
Proof. eapply sz_le; [apply sz_uvarint|]. intros a. cbv beta. destruct (a =? 0); lia. Qed.

Ltac sz1 := lazymatch goal with
  | |- sz (ret _) _ => apply sz_ret
  | |- sz (fail _) _ => apply sz_fail
  | |- sz panic _ => apply sz_panic
  | |- sz (with_err _ _) _ => apply sz_with
  | |- sz (if _ then _ else _) _ => apply sz_if
  | |- sz (fun _ => Unspec) _ => let E := fresh in intros ? ? ? E; discriminate E
  end.
Ltac pick p := lazymatch p with
  | rd_u8 => eapply sz_bind; [apply (sz_u 1)|intro]
  | rd_u16 => eapply sz_bind; [apply (sz_u 2)|intro]
  | rd_u32 => eapply sz_bind; [apply (sz_u 4)|intro]
  | rd_i16 => eapply sz_bind; [apply (sz_i 2)|intro]
  | rd_i32 => eapply sz_bind; [apply (sz_i 4)|intro]
  | rd_i64 => eapply sz_bind; [apply (sz_i 8)|intro]
  | rd_peek _ => eapply sz_bind; [apply sz_peek|intro]
  | rd_skip _ => eapply sz_bind; [apply sz_skip|intro]
  | rd_bytes _ => eapply sz_bind; [apply sz_bytes|intro]
  | _ => fail
  end.
Ltac fin := cbv beta; cbn [size opt fst snd length]; repeat match goal with |- context [many _ []] => change (many _ []) with 0 | |- context [tagged 0 []] => change (tagged 0 []) with 0 end; unfold zlen; cbn [length]; lia.
Ltac sz := repeat (first [ sz1 | lazymatch goal with |- sz (bind ?p _) _ => pick p end ]).

Lemma sz_end {A} (p : parser A) f : sz p f -> forall h, (forall a, h a <= f a) -> sz p h.
Proof. intros H h L. eapply sz_le; eassumption. Qed.

Lemma sz_bool : sz rd_bool (fun _ => 2). Proof. unfold rd_bool. sz. fin. Qed.
Lemma sz_str : sz rd_str (fun b => 4 + zlen b). Proof. unfold rd_str. sz. eapply sz_end; [apply sz_bytes|]. intros b. fin. Qed.
Lemma sz_istr : sz rd_istr (fun b => 4 + zlen b). Proof. unfold rd_istr. sz. eapply sz_end; [apply sz_bytes|]. intros b. fin. Qed.
Lemma sz_ostr : sz rd_ostr (fun b => 4 + zlen b).
Proof. unfold rd_ostr. sz; [eapply sz_end; [apply sz_bytes|]; intros b; fin|fin]. Qed.
Lemma sz_blob : sz rd_blob (fun b => 8 + 2 * zlen b).
Proof. unfold rd_blob. sz. eapply sz_end; [apply sz_bytes2|]. intros b. fin. Qed.
Lemma sz_nstr : sz nonnullableString (fun b => 4 + zlen b).
Proof. unfold nonnullableString. sz. eapply sz_end; [apply sz_bytes|]. intros b. fin. Qed.
Lemma sz_cstr : sz compactString (fun b => 2 + zlen b).
Proof.
  unfold compactString. eapply sz_bind; [apply sz_uvarint|]. intros l. cbv beta. destruct (Z.eqb_spec l 0) as [->|N].
  - intros s a r E. unfold rd_bytes in E. change (sint 64 (0 - 1)) with (-1) in E. cbn in E. discriminate E.
  - eapply sz_end; [apply sz_bytes|]. intros b. cbv beta. lia.
Qed.
Lemma sz_nustr : sz nullableString (fun o => 4 + opt (fun b => zlen b) o).
Proof. unfold nullableString. sz; fin. Qed.
Lemma sz_cnstr : sz compactNullableString (fun o => opt (fun b => zlen b) o).
Proof.
  unfold compactNullableString. eapply sz_bind; [apply sz_uvarint0|]. intros l. sz; fin.
Qed.
Lemma sz_calen : sz compactArrayLength (fun _ => 0).
Proof. unfold compactArrayLength. eapply sz_bind; [apply sz_uvarint0|]. intros l. sz. lia. Qed.
Lemma sz_tagcount : sz rd_tagcount (fun _ => 0).
Proof. unfold rd_tagcount. eapply sz_bind; [apply sz_uvarint0|]. intros l. sz. lia. Qed.
Lemma sz_tags : sz decodeTaggedFields (tagged 0).
Proof.
  unfold decodeTaggedFields. eapply sz_bind; [apply sz_uvarint0|]. intros n. eapply sz_end.
  - apply (sz_n _ decodeTaggedField (fun x => zlen (snd x))). unfold decodeTaggedField.
    eapply sz_bind; [apply sz_uvarint0|]. intros t. eapply sz_bind; [apply sz_uvarint0|]. intros l. sz. fin.
  - intros l. unfold tagged. lia.
Qed.
Lemma sz_header flex : sz (rd_header flex) (fun h => 8 + tagged 0 (snd h)).
Proof.
  unfold rd_header. sz; [|fin]. eapply sz_bind; [apply sz_tags|]. intros t. sz. fin.
Qed.
(** where there are no tagged fields their weight does not matter *)
Lemma tagged_nil w : tagged w [] = 0.
Proof. unfold tagged. change (zlen []) with 0. rewrite Z.mul_0_r. reflexivity. Qed.
Lemma sz_tagsw w (b : bool) : (b = true -> w = 0) -> sz (if b then decodeTaggedFields else ret []) (tagged w).
Proof. intros H. destruct b; [rewrite (H eq_refl); apply sz_tags|]. apply sz_ret. rewrite tagged_nil. lia. Qed.
Lemma sz_headerw w flex : (flex = true -> w = 0) -> sz (rd_header flex) (fun h => 8 + tagged w (snd h)).
Proof.
  intros H. destruct flex; [rewrite (H eq_refl); apply sz_header|]. unfold rd_header. sz. cbn [snd]. rewrite tagged_nil. lia.
Qed.
Lemma sz_arr {A} (p : parser A) g : sz p (fun x => 1 + g x) -> sz (rd_arr p) (fun l => 8 + many g l).
Proof. intros H. unfold rd_arr. sz. eapply sz_end; [apply sz_make, H|]. intros l. unfold many; fin. Qed.
Lemma sz_iarr {A} (p : parser A) g : sz p (fun x => 1 + g x) -> sz (rd_iarr p) (fun l => 8 + many g l).
Proof. intros H. unfold rd_iarr. sz. eapply sz_end; [apply sz_make, H|]. intros l. unfold many; fin. Qed.
Lemma sz_carr {A} (p : parser A) g : sz p (fun x => 1 + g x) -> sz (rd_carr p) (fun l => many g l).
Proof. intros H. unfold rd_carr. eapply sz_bind; [apply sz_calen|]. intros n. eapply sz_end; [apply sz_make, H|]. intros l. unfold many. lia. Qed.
Lemma sz_carr_pos {A} (p : parser A) g : sz p (fun x => 1 + g x) -> sz (rd_carr_pos p) (fun l => many g l).
Proof.
  intros H. unfold rd_carr_pos. eapply sz_bind; [apply sz_calen|]. intros n. sz; [|fin]. eapply sz_end; [apply sz_make, H|]. intros l. unfold many. lia.
Qed.
Lemma sz_nums n : (1 <= n)%nat -> sz (rd_i n) (fun _ => 1 + 0).
Proof. intros L. eapply sz_end; [apply sz_i|]. intros a. cbv beta. lia. Qed.
(** anything of an alternative that may be missing *)
Lemma sz_alt {A} (b : bool) (p : parser A) a f : sz p f -> (forall x, 0 <= f x) -> f a <= 0 -> sz (if b then p else ret a) f.
Proof. intros H L K. apply sz_if; [exact H|]. apply sz_ret, K. Qed.

Ltac by1 L := eapply sz_bind; [apply L|intro].
Ltac pick2 p := lazymatch p with
  | rd_bool => by1 sz_bool
  | rd_str => by1 sz_str
  | rd_istr => by1 sz_istr
  | rd_ostr => by1 sz_ostr
  | rd_blob => by1 sz_blob
  | nonnullableString => by1 sz_nstr
  | compactString => by1 sz_cstr
  | nullableString => by1 sz_nustr
  | compactNullableString => by1 sz_cnstr
  | compactArrayLength => by1 sz_calen
  | rd_tagcount => by1 sz_tagcount
  | decodeTaggedFields => by1 sz_tags
  | rd_header _ => by1 sz_header
  | rd_arr rd_i32 => eapply sz_bind; [apply (sz_arr _ (fun _ => 0)), (sz_nums 4); lia|intro]
  | rd_arr rd_i64 => eapply sz_bind; [apply (sz_arr _ (fun _ => 0)), (sz_nums 8); lia|intro]
  | rd_carr_pos rd_i32 => eapply sz_bind; [apply (sz_carr_pos _ (fun _ => 0)), (sz_nums 4); lia|intro]
  | if _ then decodeTaggedFields else ret [] => eapply sz_bind; [apply sz_if; [apply sz_tags|apply sz_ret; apply Z.le_refl]|intro]
  | _ => first [ pick p ]
  end.
Ltac szs := repeat (first [ sz1 | lazymatch goal with |- sz (bind ?p _) _ => pick2 p end ]).
Ltac arr g := eapply sz_bind; [first [apply (sz_arr _ g)|apply (sz_iarr _ g)|apply (sz_carr _ g)|apply (sz_carr_pos _ g)]; szs; try solve [fin]|intro].

Lemma sz_whole {A} (p : parser A) f d a : sz p f -> whole p d = Ok a -> f a <= 2 * zlen d.
Proof.
  intros H. unfold whole. destruct (rd_u32 d) as [[n s]| | |] eqn:E; try discriminate. destruct (n + 4 =? zlen d); [|discriminate].
  destruct (p s) as [[b r]| | |] eqn:P; try discriminate. intros K. injection K as <-. specialize (H s b r P).
  pose proof (sz_u 4 d n s E). pose proof (zlen_nonneg r). cbv beta in *. lia.
Qed.

Lemma z_heartbeat w d r : dec_heartbeat d = Ok r -> size w r <= 2 * zlen d.
Proof. apply sz_whole. szs. fin. Qed.
Lemma z_leavegroup w d r : dec_leavegroup d = Ok r -> size w r <= 2 * zlen d.
Proof. apply sz_whole. szs. fin. Qed.
Lemma z_apiversions w d r : dec_apiversions d = Ok r -> size w r <= 2 * zlen d.
Proof. apply sz_whole. szs. arr (fun _ : Z * (Z * Z) => 0). szs. cbn [size]. unfold flat. fin. Qed.
Lemma sz_broker : sz rd_broker (fun b => 1 + (zlen (fst (snd b)) + zlen (snd (snd (snd b))))).
Proof. unfold rd_broker. szs. fin. Qed.
Lemma sz_partition v : sz (rd_partition v) (fun p => 1 + let q := snd (snd (snd (snd p))) in flat (fst q) + flat (fst (snd q)) + flat (snd (snd q))).
Proof.
  unfold rd_partition. szs. eapply sz_bind; [apply (sz_if _ _ _ (fun _ => 0)); [eapply sz_end; [apply (sz_i 4)|intro; cbv beta; lia]|apply sz_ret; cbv beta; lia]|intro].
  szs. eapply sz_bind; [apply (sz_if _ _ _ (fun l => many (fun _ => 0) l));
    [eapply sz_end; [apply (sz_arr _ (fun _ => 0)), (sz_nums 4); lia|intro; cbv beta; lia]|apply sz_ret; apply Z.le_refl]|intro].
  szs. cbv zeta. unfold flat. fin.
Qed.
Lemma sz_topicmeta v : sz (rd_topicmeta v) (fun t => 1 + (zlen (fst (snd t)) +
        many (fun p : nopart => let q := snd (snd (snd (snd p))) in flat (fst q) + flat (fst (snd q)) + flat (snd (snd q))) (snd (snd (snd t))))).
Proof. unfold rd_topicmeta. szs. eapply sz_bind; [apply sz_arr, sz_partition|intro]. szs. fin. Qed.
Lemma sum_perm {A} (f : A -> Z) l m : Permutation l m -> sum f l = sum f m.
Proof. induction 1; cbn [sum fold_right]; fold (@sum A); unfold sum in *; lia. Qed.
Lemma sum_map {A B} (f : B -> Z) (g : A -> B) l : sum f (map g l) = sum (fun x => f (g x)) l.
Proof. induction l as [|x l IH]; [reflexivity|]. cbn [map sum fold_right]. unfold sum in IH. rewrite IH. reflexivity. Qed.
Lemma sum_ext {A} (f g : A -> Z) l : (forall x, f x = g x) -> sum f l = sum g l.
Proof. intros H. induction l as [|x l IH]; [reflexivity|]. cbn [sum fold_right]. unfold sum in IH. rewrite IH, H. reflexivity. Qed.
Lemma sz_cluster : sz rd_cluster (fun c => zlen c).
Proof.
  intros s a r E. unfold rd_cluster in E. destruct (rd_u16 s) as [[l s1]| | |] eqn:E1; try discriminate E.
  destruct (rd_bytes l s) as [[c s2]| | |] eqn:E2; try discriminate E. destruct (rd_skip (2 + Z.to_nat l) s) as [[u s3]| | |] eqn:E3; try discriminate E.
  injection E as <- <-. pose proof (sz_skip _ s u s3 E3) as K. cbv beta in K. unfold rd_bytes in E2.
  destruct ((l <? 0) || (zlen s <? l)) eqn:D; [discriminate E2|]. injection E2 as <- _. apply orb_false_iff in D. destruct D as [D1 D2].
  rewrite Z.ltb_ge in D1, D2. unfold zlen in *. rewrite firstn_length. lia.
Qed.
Lemma z_metadata w v d r : dec_metadata v d = Ok r -> size w r <= 2 * zlen d.
Proof.
  apply sz_whole. szs. eapply sz_bind; [apply (sz_if _ _ _ (fun _ => 0)); [eapply sz_end; [apply (sz_i 4)|intro; cbv beta; lia]|apply sz_ret; cbv beta; lia]|intro].
  eapply sz_bind; [apply sz_arr, sz_broker|intro].
  eapply sz_bind; [apply sz_if; [apply sz_cluster|apply sz_ret; apply Z.le_refl]|intro].
  szs. eapply sz_bind; [apply sz_arr, sz_topicmeta|intro]. szs. cbn [size].
  unfold many at 2. rewrite sum_map. rewrite (sum_perm _ _ _ (isort_perm name_lt a4)).
  erewrite sum_ext with (l := a4).
  2:{ intros x. cbn [fst snd]. unfold many at 1. rewrite (sum_perm _ _ _ (isort_perm id_lt _)). reflexivity. }
  unfold many, nopart. fin.
Qed.
Lemma z_findcoordinator w d r : dec_findcoordinator d = Ok r -> size w r <= 2 * zlen d.
Proof. apply sz_whole. szs. fin. Qed.
Lemma z_joingroup w d r : dec_joingroup d = Ok r -> size w r <= 2 * zlen d.
Proof. apply sz_whole. szs. arr (fun x : bytes * bytes => zlen (fst x) + zlen (snd x)). szs. fin. Qed.
Lemma z_syncgroup w d r : dec_syncgroup d = Ok r -> size w r <= 2 * zlen d.
Proof. apply sz_whole. szs. fin. Qed.
Lemma sz_offset v : sz (rd_offset v) (fun p => 1 + flat (fst (snd (snd p)))).
Proof. unfold rd_offset. szs; unfold flat; fin. Qed.
Lemma many_nonneg {A} (f : A -> Z) l : (forall x, 0 <= f x) -> 0 <= many f l.
Proof. intros H. induction l as [|x l IH]; cbn [many sum fold_right]; [lia|]. specialize (H x). unfold many, sum in IH. lia. Qed.
Lemma many_mset {V} (f : bytes * V -> Z) k v m : (forall x, 0 <= f x) -> many f (mset k v m) <= 1 + f (k, v) + many f m.
Proof.
  intros H. induction m as [|[k' v'] m IH]; cbn [mset]; [cbn; lia|]. destruct (beqb k k'); cbn [many sum fold_right] in *; unfold many, sum in *; [specialize (H (k', v')); lia|lia].
Qed.
Lemma many_map {V} (f : bytes * V -> Z) ts : (forall x, 0 <= f x) -> forall m, many f (fold_left (fun m t => mset (fst t) (snd t) m) ts m) <= many f ts + many f m.
Proof.
  intros H. induction ts as [|t ts IH]; intros m; cbn [fold_left]; [cbn; lia|]. etransitivity; [apply IH|].
  pose proof (many_mset f (fst t) (snd t) m H) as K. rewrite <- surjective_pairing in K. cbn [many sum fold_right]. unfold many, sum in *. lia.
Qed.
Lemma z_offsets w v d r : dec_offsets v d = Ok r -> size w r <= 2 * zlen d.
Proof.
  apply sz_whole. szs. eapply sz_bind; [apply (sz_if _ _ _ (fun _ => 0)); [szs; lia|apply sz_ret; cbv beta; lia]|intro].
  eapply sz_bind. { apply (sz_arr _ (fun t : bytes * list (Z * (Z * (list Z * (Z * Z)))) => zlen (fst t) + many (fun p => flat (fst (snd (snd p)))) (snd t))).
    szs. eapply sz_bind; [apply sz_arr, sz_offset|intro]. szs. fin. }
  intro. szs. cbn [size]. match goal with |- context [many ?f (fold_left _ ?l [])] => pose proof (many_map f l) as K end.
  specialize (K ltac:(intros x; apply Z.add_nonneg_nonneg; [apply zlen_nonneg|apply many_nonneg; intros; apply many_nonneg; intros; lia]) []).
  change (many _ []) with 0 in K. lia.
Qed.
Lemma z_offsetcommit w d r : dec_offsetcommit d = Ok r -> size w r <= 2 * zlen d.
Proof.
  apply sz_whole. szs. eapply sz_bind. { apply (sz_arr _ (fun t : bytes * list (Z * Z) => zlen (fst t) + flat (snd t))). szs. arr (fun _ : Z * Z => 0). szs. unfold flat. fin. }
  intro. szs. fin.
Qed.
Lemma z_offsetfetch w d r : dec_offsetfetch d = Ok r -> size w r <= 2 * zlen d.
Proof.
  apply sz_whole. szs. eapply sz_bind. { apply (sz_arr _ (fun t : bytes * list (Z * (Z * (bytes * Z))) => zlen (fst t) + many (fun p => zlen (fst (snd (snd p)))) (snd t))).
    szs. arr (fun p : Z * (Z * (bytes * Z)) => zlen (fst (snd (snd p)))). szs. fin. }
  intro. szs. fin.
Qed.
Lemma sz_cs (flex : bool) : sz (if flex then compactString else nonnullableString) (fun b => 2 + zlen b).
Proof. apply sz_if; [apply sz_cstr|eapply sz_end; [apply sz_nstr|intro; cbv beta; lia]]. Qed.
Lemma sz_cns (flex : bool) : sz (if flex then compactNullableString else nullableString) (fun o => opt (fun b => zlen b) o).
Proof. apply sz_if; [apply sz_cnstr|eapply sz_end; [apply sz_nustr|intro; cbv beta; lia]]. Qed.
Lemma sz_alen (flex : bool) (q : parser Z) : q = rd_i32 \/ q = rd_u32 -> sz (if flex then compactArrayLength else q) (fun _ => 0).
Proof. intros [-> | ->]; (apply sz_if; [apply sz_calen|]); (eapply sz_end; [first [apply (sz_i 4)|apply (sz_u 4)]|intro; cbv beta; lia]). Qed.
Lemma sz_group w v flex : (flex = true -> w = 0) -> sz (rd_group v flex) (fun g => 1 + (zlen (fst g) + zlen (fst (snd g)) + zlen (fst (snd (snd g))) + zlen (fst (snd (snd (snd g)))) +
                                     tagged w (snd (snd (snd (snd g)))))).
Proof.
  intros Hw. unfold rd_group. cbv zeta. by1 sz_cs. by1 sz_cs.
  eapply sz_bind; [apply (sz_if _ _ _ (fun b => zlen b)); [eapply sz_end; [apply sz_cs|intro; cbv beta; lia]|apply sz_ret; apply Z.le_refl]|intro].
  eapply sz_bind; [apply (sz_if _ _ _ (fun b => zlen b)); [eapply sz_end; [apply sz_cs|intro; cbv beta; lia]|apply sz_ret; apply Z.le_refl]|intro].
  eapply sz_bind; [apply (sz_tagsw w _ Hw)|intro]. szs. fin.
Qed.
Lemma sz_throttle (b : bool) : sz (if b then rd_i32 else ret 0) (fun _ => 0).
Proof. apply sz_if; [eapply sz_end; [apply (sz_i 4)|intro; cbv beta; lia]|apply sz_ret; cbv beta; lia]. Qed.
Lemma z_listgroups w v d r : (3 <= v -> w = 0) -> dec_listgroups v d = Ok r -> size w r <= 2 * zlen d.
Proof.
  intros Hw. unfold dec_listgroups. cbv zeta. assert (Hf : rhv_from 3 v = true -> w = 0) by (unfold rhv_from; intros E; apply Z.leb_le in E; auto).
  apply sz_whole. eapply sz_bind; [apply (sz_headerw w _ Hf)|intro]. by1 sz_throttle. szs. eapply sz_bind; [apply sz_alen; auto|intro].
  eapply sz_bind.
  { apply (sz_if _ _ _ (opt (many (fun g => zlen (fst g) + zlen (fst (snd g)) + zlen (fst (snd (snd g))) + zlen (fst (snd (snd (snd g)))) +
                                     tagged w (snd (snd (snd (snd g)))))))); [|apply sz_ret; apply Z.le_refl].
    eapply sz_bind; [apply sz_make, (sz_group w _ _ Hf)|intro]. szs. unfold many. fin. }
  intro. eapply sz_bind; [apply (sz_tagsw w _ Hf)|intro]. szs. fin.
Qed.
Lemma sum_twice {A} (f : A -> Z) l : sum (fun x => 2 * f x) l = 2 * sum f l.
Proof. induction l as [|x l IH]; [reflexivity|]. cbn [sum fold_right]. unfold sum in IH. lia. Qed.
Lemma sz_ma_part : sz rd_ma_part (fun p => 2 * (1 + (zlen (fst p) + flat (snd p)))).
Proof.
  unfold rd_ma_part. eapply sz_bind; [apply (sz_u 2)|intro]. by1 sz_bytes2. szs.
  eapply sz_bind; [apply (sz_make _ _ (fun _ => 2 * (1 + 0))); eapply sz_end; [apply (sz_i 4)|intro; cbv beta; lia]|intro]. szs.
  rewrite (sum_twice (fun _ => 1 + 0)). unfold flat, many. fin.
Qed.
Lemma sz_ma_user : sz rd_ma_user (fun _ => 0).
Proof.
  unfold rd_ma_user. szs; [cbv beta; lia|]. intros s u r E. injection E as _ <-. unfold zlen. rewrite skipn_length. lia.
Qed.
Lemma z_assignment raw m : newMemberAssignment raw = Ok m -> assigned 0 m <= zlen raw.
Proof.
  unfold newMemberAssignment. destruct raw as [|b t]; [discriminate|]. set (s := b :: t) in *.
  match goal with |- match ?p s with _ => _ end = _ -> _ => assert (H : sz p (fun m => 2 * assigned 0 m)); [|destruct (p s) as [[x r]| | |] eqn:E; try discriminate] end.
  - szs. eapply sz_bind; [apply sz_make, sz_ma_part|intro]. eapply sz_bind; [apply sz_ma_user|intro]. szs.
    rewrite sum_twice. unfold assigned, many. cbn [ma_parts ma_user]. fin.
  - intros K. injection K as <-. specialize (H _ _ _ E). pose proof (zlen_nonneg r). cbv beta in H. lia.
Qed.

Definition member_size (m : gmember) : Z :=
  zlen (fst m) + zlen (fst (snd m)) + zlen (fst (snd (snd m))) + zlen (fst (snd (snd (snd m)))) +
  zlen (fst (snd (snd (snd (snd m))))) + opt (assigned 0) (snd (snd (snd (snd (snd m))))).
Lemma sz_member : sz rd_member (fun m => 1 + member_size (fst m)).
Proof.
  unfold rd_member, member_size. szs. destruct (newMemberAssignment _) as [m| | |] eqn:E; szs; try fin.
  apply z_assignment in E. cbn [fst snd opt]. revert E. fin.
Qed.
Lemma sz_members n : forall e, sz (rd_members n e) (fun ms => many member_size (fst ms)).
Proof.
  induction n as [|n IH]; intros e; cbn [rd_members]; [szs; fin|]. by1 sz_member. by1 IH. szs.
  cbn [fst many sum fold_right]. unfold many, sum. lia.
Qed.
Definition group_size (g : Z * (bytes * (bytes * (bytes * (bytes * list gmember))))) : Z :=
  let h := snd g in zlen (fst h) + zlen (fst (snd h)) + zlen (fst (snd (snd h))) + zlen (fst (snd (snd (snd h)))) +
  many member_size (snd (snd (snd (snd h)))).
Lemma sz_gdetail e : sz (rd_gdetail e) (fun g => 1 + group_size (fst g)).
Proof. unfold rd_gdetail, group_size. cbv zeta. szs. by1 sz_members. szs. fin. Qed.
Lemma sz_gdetails n : forall e, sz (rd_gdetails n e) (fun gs => many group_size (fst gs)).
Proof.
  induction n as [|n IH]; intros e; cbn [rd_gdetails]; [szs; fin|]. by1 sz_gdetail. by1 IH. szs.
  cbn [fst many sum fold_right]. unfold many, sum. lia.
Qed.
Lemma z_describegroups d r : dec_describegroups d = Ok r -> size 0 r <= 2 * zlen d.
Proof. apply sz_whole. szs. by1 sz_gdetails. szs. cbn [size]. fold group_size. match goal with |- many ?f ?l - _ - _ - many ?g ?l <= 0 => change (many f l) with (many g l) end. lia. Qed.
Lemma sz_result : sz rd_result (fun x => 1 + zlen (fst x)).
Proof. unfold rd_result. szs. fin. Qed.
Lemma z_deletegroups w d r : dec_deletegroups d = Ok r -> size w r <= 2 * zlen d.
Proof. apply sz_whole. szs. eapply sz_bind; [apply (sz_arr _ (fun x : bytes * Z => zlen (fst x))), sz_result|intro]. szs. fin. Qed.
Lemma z_deletetopics w d r : dec_deletetopics d = Ok r -> size w r <= 2 * zlen d.
Proof. apply sz_whole. szs. eapply sz_bind; [apply (sz_arr _ (fun x : bytes * Z => zlen (fst x))), sz_result|intro]. szs. fin. Qed.
Lemma z_saslhandshake w d r : dec_saslhandshake d = Ok r -> size w r <= 2 * zlen d.
Proof.
  apply sz_whole. szs. eapply sz_bind; [apply (sz_arr _ (fun x => zlen x)); eapply sz_end; [apply sz_str|intro; cbv beta; lia]|intro]. szs. fin.
Qed.
Lemma z_saslauthenticate d r : dec_saslauthenticate d = Ok r -> size 0 r <= 2 * zlen d.
Proof.
  apply sz_whole. szs. eapply sz_bind with (f := fun _ => 0).
  { intros s u t E. injection E as _ <-. unfold zlen. rewrite skipn_length. lia. }
  intro. szs. fin.
Qed.
Lemma sz_cpresult v : sz (rd_cpresult v) (fun x => 1 + (zlen (fst x) + opt (fun m => zlen m) (snd (snd x)))).
Proof.
  unfold rd_cpresult. eapply sz_bind; [apply (sz_if _ _ _ (fun b => 2 + zlen b)); [apply sz_cstr|eapply sz_end; [apply sz_str|intro; cbv beta; lia]]|intro].
  szs. by1 sz_cns. szs. fin.
Qed.
Lemma sz_cpresults v n : sz (rd_cpresults v n) (many (fun x => zlen (fst x) + opt (fun m => zlen m) (snd (snd x)))).
Proof.
  unfold rd_cpresults. destruct n as [|n]; [szs; fin|]. by1 sz_cpresult.
  eapply sz_bind; [apply (sz_n _ _ (fun x => 1 + (zlen (fst x) + opt (fun m => zlen m) (snd (snd x))))); szs; eapply sz_end; [apply sz_cpresult|intro; cbv beta; lia]|intro].
  szs. cbn [many sum fold_right]. unfold many, sum. lia.
Qed.
Lemma z_createpartitions w v d r : dec_createpartitions v d = Ok r -> size w r <= 2 * zlen d.
Proof.
  apply sz_whole. szs. eapply sz_bind; [apply (sz_if _ _ _ (fun _ => 0)); [eapply sz_end; [apply (sz_skip 1)|intro; cbv beta; lia]|apply sz_ret; cbv beta; lia]|intro].
  szs. eapply sz_bind; [apply sz_alen; auto|intro]. eapply sz_bind; [apply sz_if; [apply sz_panic|apply sz_cpresults]|intro]. szs. fin.
Qed.
Lemma z_createtopics w d r : dec_createtopics d = Ok r -> size w r <= 2 * zlen d.
Proof. apply sz_whole. szs. arr (fun x : bytes * Z => zlen (fst x)). szs. fin. Qed.
Lemma sz_centry : sz rd_centry (fun e => 1 + (zlen (fst e) + zlen (fst (snd e)))).
Proof. unfold rd_centry. szs. fin. Qed.
Lemma sz_cresource : sz rd_cresource (fun x => 1 + let y := snd x in zlen (fst y) + zlen (fst (snd (snd y))) +
                     many (fun e : bytes * (bytes * (bool * (bool * bool))) => zlen (fst e) + zlen (fst (snd e))) (snd (snd (snd y)))).
Proof.
  unfold rd_cresource. cbv zeta. szs. eapply sz_bind; [apply (sz_if _ _ _ (fun b => zlen b)); [szs; fin|eapply sz_end; [apply sz_ostr|intro; cbv beta; lia]]|intro].
  szs. eapply sz_bind; [apply (sz_if _ _ _ (fun b => zlen b)); [apply sz_bytes|apply sz_ret; apply Z.le_refl]|intro].
  eapply sz_bind; [apply sz_arr, sz_centry|intro]. szs. fin.
Qed.
Lemma z_describeconfigs w d r : dec_describeconfigs d = Ok r -> size w r <= 2 * zlen d.
Proof. apply sz_whole. szs. eapply sz_bind; [apply sz_arr, sz_cresource|intro]. szs. fin. Qed.
Lemma sz_logdir_topic : sz rd_logdir_topic (fun t => 1 + (zlen (fst t) + flat (snd t))).
Proof. unfold rd_logdir_topic. szs. arr (fun _ : Z * (Z * (Z * bool)) => 0). szs. unfold flat. fin. Qed.
Lemma z_describelogdirs w d r : dec_describelogdirs d = Ok r -> size w r <= 2 * zlen d.
Proof.
  unfold dec_describelogdirs. destruct (rd_u32 d) as [[n s]| | |]; try discriminate. apply sz_whole. szs.
  eapply sz_bind. { apply (sz_arr _ (fun x : Z * (bytes * list (bytes * list (Z * (Z * (Z * bool))))) => zlen (fst (snd x)) + many (fun t => zlen (fst t) + flat (snd t)) (snd (snd x)))).
    szs. eapply sz_bind; [apply sz_arr, sz_logdir_topic|intro]. szs. fin. }
  intro. szs. fin.
Qed.
Lemma z_electleaders w d r : dec_electleaders d = Ok r -> size w r <= 2 * zlen d.
Proof.
  apply sz_whole. szs. eapply sz_bind. { apply (sz_arr _ (fun t : bytes * list (Z * (Z * bytes)) => zlen (fst t) + many (fun p => zlen (snd (snd p))) (snd t))).
    szs. arr (fun p : Z * (Z * bytes) => zlen (snd (snd p))). szs. fin. }
  intro. szs. fin.
Qed.
Lemma sz_lr_partition : sz rd_lr_partition (fun p => 1 + let q := snd p in flat (fst q) + flat (fst (snd q)) + flat (snd (snd q))).
Proof. unfold rd_lr_partition. cbv zeta. szs. unfold flat. fin. Qed.
Lemma sz_lr_topic : sz rd_lr_topic (fun t => 1 + (zlen (fst t) + many (fun p : Z * (list Z * (list Z * list Z)) => let q := snd p in flat (fst q) + flat (fst (snd q)) + flat (snd (snd q))) (snd t))).
Proof. unfold rd_lr_topic. szs. eapply sz_bind; [apply sz_carr_pos, sz_lr_partition|intro]. szs. fin. Qed.
Lemma z_listreassignments w d r : dec_listreassignments d = Ok r -> size w r <= 2 * zlen d.
Proof. apply sz_whole. szs. eapply sz_bind; [apply sz_carr_pos, sz_lr_topic|intro]. szs. fin. Qed.
Lemma sz_ar_topic : sz rd_ar_topic (fun x => 1 + (zlen (fst x) +
        many (fun p : Z * (Z * (option bytes * taggedFields)) => opt (fun m => zlen m) (fst (snd (snd p))) + tagged 0 (snd (snd (snd p)))) (fst (snd x)) + tagged 0 (snd (snd x)))).
Proof.
  unfold rd_ar_topic. szs. arr (fun p : Z * (Z * (option bytes * taggedFields)) => opt (fun m => zlen m) (fst (snd (snd p))) + tagged 0 (snd (snd (snd p)))). szs. fin.
Qed.
Lemma sz_opt_carr {A} (p : parser A) g : sz p (fun x => 1 + g x) -> sz (rd_opt_carr p) (opt (many g)).
Proof.
  intros H. unfold rd_opt_carr. szs; [cbn [opt]; lia|]. eapply sz_bind; [apply sz_make, H|intro]. szs. unfold many. fin.
Qed.
Lemma z_alterreassignments d r : dec_alterreassignments d = Ok r -> size 0 r <= 2 * zlen d.
Proof.
  unfold dec_alterreassignments. destruct (rd_i32 d) as [[n s]| | |] eqn:E0; try discriminate. pose proof (sz_i 4 d n s E0) as K0. cbv beta in K0.
  destruct (n + 4 =? zlen d); [|discriminate].
  match goal with |- match ?p s with _ => _ end = _ -> _ => assert (H : sz p (size 0)); [|destruct (p s) as [[x t]| | |] eqn:E; try discriminate] end.
  - szs. eapply sz_bind; [apply sz_opt_carr, sz_ar_topic|intro]. szs. fin.
  - intros K. injection K as <-. specialize (H _ _ _ E). pose proof (zlen_nonneg t). lia.
Qed.
Lemma z_createacls w v d r : (2 <= v -> w = 0) -> dec_createacls v d = Ok r -> size w r <= 2 * zlen d.
Proof.
  intros Hw. unfold dec_createacls. cbv zeta. assert (Hf : rhv_from 2 v = true -> w = 0) by (unfold rhv_from; intros E; apply Z.leb_le in E; auto).
  apply sz_whole. eapply sz_bind; [apply (sz_headerw w _ Hf)|intro]. eapply sz_bind; [apply sz_alen; auto|intro].
  eapply sz_bind.
  { apply (sz_if _ _ _ (opt (many (fun x : Z * (option bytes * taggedFields) => opt (fun m => zlen m) (fst (snd x)) + tagged w (snd (snd x)))))); [apply sz_ret; apply Z.le_refl|].
    eapply sz_bind. { apply (sz_make _ _ (fun x : Z * (option bytes * taggedFields) => 1 + (opt (fun m => zlen m) (fst (snd x)) + tagged w (snd (snd x))))).
      szs. by1 sz_cns. eapply sz_bind; [apply (sz_tagsw w _ Hf)|intro]. szs. fin. }
    intro. szs. unfold many. fin. }
  intro. eapply sz_bind; [apply (sz_tagsw w _ Hf)|intro]. szs. fin.
Qed.
Definition matching_size (a : Z * (option bytes * (Z * (bytes * (Z * (bytes * (bytes * (Z * (Z * taggedFields))))))))) : Z :=
  opt (fun m => zlen m) (fst (snd a)) + let b := snd (snd (snd a)) in
  zlen (fst b) + let c := snd (snd b) in zlen (fst c) + zlen (fst (snd c)) + tagged 0 (snd (snd (snd (snd c)))).
Lemma sz_u8 (b : bool) : sz (if b then rd_u8 else ret 0) (fun _ => 0).
Proof. apply sz_if; [eapply sz_end; [apply (sz_u 1)|intro; cbv beta; lia]|apply sz_ret; cbv beta; lia]. Qed.
Lemma sz_matching v flex : sz (rd_matching v flex) (fun a => 1 + matching_size a).
Proof.
  unfold rd_matching, matching_size. cbv zeta. szs. by1 sz_cns. szs. by1 sz_cs. by1 sz_u8. by1 sz_cs. by1 sz_cs. szs. fin.
Qed.
Lemma sz_arrs {A} (flex : bool) (p : parser A) g : sz p (fun x => 1 + g x) -> sz (if flex then rd_carr p else rd_iarr p) (many g).
Proof. intros H. apply sz_if; [apply sz_carr, H|eapply sz_end; [apply sz_iarr, H|intro; cbv beta; lia]]. Qed.
Lemma z_deleteacls v d r : dec_deleteacls v d = Ok r -> size 0 r <= 2 * zlen d.
Proof.
  unfold dec_deleteacls. cbv zeta. destruct (rd_i32 d) as [[n s]| | |] eqn:E0; try discriminate. pose proof (sz_i 4 d n s E0) as K0. cbv beta in K0.
  destruct (_ =? _); [|discriminate].
  match goal with |- match ?p s with _ => _ end = _ -> _ => assert (H : sz p (size 0)); [|destruct (p s) as [[x t]| | |] eqn:E; try discriminate] end.
  - szs. eapply sz_bind.
    { apply (sz_arrs _ _ (fun x : Z * (option bytes * (list _ * taggedFields)) => opt (fun m => zlen m) (fst (snd x)) + many matching_size (fst (snd (snd x))) + tagged 0 (snd (snd (snd x))))).
      szs. by1 sz_cns. eapply sz_bind; [apply sz_arrs, sz_matching|intro]. szs. fin. }
    intro. szs. cbn [size]. match goal with |- _ + many ?f ?l + _ - _ - _ - many ?g ?l - _ <= 0 => change (many f l) with (many g l) end. fin.
  - intros K. injection K as <-. specialize (H _ _ _ E). pose proof (zlen_nonneg t). lia.
Qed.
Lemma sz_cs' (b : bool) : sz (if b then nonnullableString else compactString) (fun b => 2 + zlen b).
Proof. apply sz_if; [eapply sz_end; [apply sz_nstr|intro; cbv beta; lia]|apply sz_cstr]. Qed.
Lemma sz_cns' (b : bool) : sz (if b then nullableString else compactNullableString) (fun o => opt (fun b => zlen b) o).
Proof. apply sz_if; [eapply sz_end; [apply sz_nustr|intro; cbv beta; lia]|apply sz_cnstr]. Qed.
Lemma sz_acl w v : (2 <= v -> w = 0) -> sz (rd_acl v) (fun a => 1 + (zlen (fst a) + zlen (fst (snd a)) + tagged w (snd (snd (snd (snd a)))))).
Proof.
  intros Hw. assert (Hf : (2 <=? v) = true -> w = 0) by (intros E; apply Z.leb_le in E; auto).
  unfold rd_acl. cbv zeta. by1 sz_cs'. by1 sz_cs'. do 2 (eapply sz_bind; [apply (sz_u 1)|intro]). eapply sz_bind; [apply (sz_tagsw w _ Hf)|intro]. szs. fin.
Qed.
Lemma sz_aclresource w v : (2 <= v -> w = 0) -> sz (rd_aclresource v) (fun x => 1 + (zlen (fst (snd x)) +
        many (fun a : bytes * (bytes * (Z * (Z * taggedFields))) => zlen (fst a) + zlen (fst (snd a)) + tagged w (snd (snd (snd (snd a))))) (fst (snd (snd (snd x)))) +
        tagged w (snd (snd (snd (snd x)))))).
Proof.
  intros Hw. assert (Hf : (2 <=? v) = true -> w = 0) by (intros E; apply Z.leb_le in E; auto).
  unfold rd_aclresource. szs. by1 sz_cs'. by1 sz_u8.
  eapply sz_bind; [apply (sz_if _ _ _ (fun _ => 0)); [eapply sz_end; [apply (sz_u 4)|intro; cbv beta; lia]|szs; cbv beta; lia]|intro].
  eapply sz_bind; [apply sz_make, (sz_acl w _ Hw)|intro]. eapply sz_bind; [apply (sz_tagsw w _ Hf)|intro]. szs. unfold many. fin.
Qed.
Lemma tagged_nonneg t : 0 <= tagged 0 t.
Proof. unfold tagged. induction t as [|x t IH]; cbn [sum fold_right]; [lia|]. unfold sum in IH. pose proof (zlen_nonneg (snd x)). lia. Qed.
(** the tags of the header are read and not kept *)
Lemma z_describeacls w v d r : (2 <= v -> w = 0) -> dec_describeacls v d = Ok r -> size w r <= 2 * zlen d.
Proof.
  intros Hw. assert (Hf : (2 <=? v) = true -> w = 0) by (intros E; apply Z.leb_le in E; auto). unfold dec_describeacls.
  match goal with |- match ?p d with _ => _ end = _ -> _ => assert (H : sz p (size w)); [|destruct (p d) as [[x t]| | |] eqn:E; try discriminate] end.
  - szs. by1 sz_cns'.
    eapply sz_bind; [apply (sz_if _ _ _ (fun _ => 0)); [eapply sz_end; [apply (sz_i 4)|intro; cbv beta; lia]|apply sz_calen]|intro].
    eapply sz_bind.
    { apply (sz_if _ _ _ (opt (many (fun x : Z * (bytes * (Z * (list (bytes * (bytes * (Z * (Z * taggedFields)))) * taggedFields))) => zlen (fst (snd x)) +
        many (fun a => zlen (fst a) + zlen (fst (snd a)) + tagged w (snd (snd (snd (snd a))))) (fst (snd (snd (snd x)))) +
        tagged w (snd (snd (snd (snd x)))))))); [apply sz_ret; apply Z.le_refl|].
      eapply sz_bind; [apply sz_make, (sz_aclresource w _ Hw)|intro]. szs. unfold many. fin. }
    intro. eapply sz_bind; [apply (sz_tagsw w _ Hf)|intro]. szs.
    match goal with |- context [_ - tagged 0 ?t - 2 * Z.of_nat 4] => pose proof (tagged_nonneg t) end. fin.
  - intros K. injection K as <-. specialize (H _ _ _ E). pose proof (zlen_nonneg t). lia.
Qed.

(** ** All of them *)
(** APIs whose decoders never read tagged fields nor make up bytes *)
Definition plain (key v : Z) : bool :=
  existsb (Z.eqb key) [12; 3; 18; 17; 2; 9; 10; 11; 13; 8; 14; 32; 46; 19; 20; 42; 37; 35; 43] ||
  ((key =? 16) && (v <? 3)) || ((key =? 30) && (v <? 2)) || ((key =? 29) && (v <? 2)).
(** APIs whose decoders read every element at the place of the first *)
Definition copying (key : Z) : bool := existsb (Z.eqb key) [0; 33; 44].

Lemma z_parse w key v d r : copying key = false -> w = 0 \/ plain key v = true -> parse key v d = Ok r -> size w r <= 2 * zlen d.
Proof.
  intros Hc Hw.
  assert (K : forall n : Z, plain key v = (v <? n) -> n <= v -> w = 0).
  { intros n P L. destruct Hw as [->|Hw]; [reflexivity|]. rewrite P in Hw. apply Z.ltb_lt in Hw. lia. }
  assert (K0 : plain key v = false -> w = 0).
  { intros P. destruct Hw as [->|Hw]; [reflexivity|]. congruence. }
  clear Hw. unfold copying in Hc.
  destruct key as [|key|key]; [discriminate Hc| |discriminate].
  do 6 (try (destruct key as [key|key|]; try discriminate; try discriminate Hc)); cbn [parse]; try discriminate; first
    [ apply z_heartbeat | apply z_leavegroup | apply z_apiversions | apply z_metadata | apply z_findcoordinator | apply z_joingroup | apply z_syncgroup
    | apply z_offsets | apply z_offsetcommit | apply z_offsetfetch | apply z_deletegroups | apply z_deletetopics | apply z_saslhandshake | apply z_createtopics
    | apply z_describeconfigs | apply z_describelogdirs | apply z_electleaders | apply z_listreassignments | apply z_createpartitions
    | apply z_listgroups; apply K; unfold plain; cbn; destruct (v <? 3); reflexivity
    | apply z_createacls; apply K; unfold plain; cbn; destruct (v <? 2); reflexivity
    | apply z_describeacls; apply K; unfold plain; cbn; destruct (v <? 2); reflexivity
    | rewrite (K0 ltac:(reflexivity)); first [ apply z_describegroups | apply z_saslauthenticate | apply z_alterreassignments | apply z_deleteacls ] ].
Qed.
