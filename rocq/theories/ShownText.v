(** The JSON of every response can be written and read back. *)
From Coq Require Import String Ascii.
From Verif Require Import Base Text TextFacts Http HttpSpec HttpApi Acl Responses Fetch Prims Group Utf8Spec JsonSpec JsonText Shown ShownSpec ShownFacts JsonFacts.

Lemma rune_bytes : forall c, scalar c -> Forall byte_ok (rune c).
Proof.
  intros c H. unfold scalar in H. unfold rune, byte_ok.
  assert (M : forall x, 0 <= 128 + x mod 64 < 256) by (intros x; pose proof (Z.mod_pos_bound x 64 ltac:(lia)); lia).
  destruct (c <? 128) eqn:A; [repeat constructor; lia|].
  destruct (c <? 2048) eqn:B.
  { assert (0 <= c / 64 < 64) by (split; [apply Z.div_pos; lia|apply Z.div_lt_upper_bound; lia]).
    repeat (apply Forall_cons; [first [apply M|lia]|]). constructor. }
  destruct (c <? 65536) eqn:D.
  { assert (0 <= c / 4096 < 16) by (split; [apply Z.div_pos; lia|apply Z.div_lt_upper_bound; lia]).
    repeat (apply Forall_cons; [first [apply M|lia]|]). constructor. }
  assert (0 <= c / 262144 < 5) by (split; [apply Z.div_pos; lia|apply Z.div_lt_upper_bound; lia]).
  repeat (apply Forall_cons; [first [apply M|lia]|]). constructor.
Qed.
Lemma text_bytes : forall s, text s -> Forall byte_ok s.
Proof.
  intros s (cs & F & ->). induction F as [|c cs C F IH]; [constructor|]. cbn [flat_map]. apply Forall_app. split; [now apply rune_bytes|exact IH].
Qed.
Lemma b64digit_byte : forall d, 0 <= d < 64 -> byte_ok (b64digit d).
Proof.
  intros d H. unfold byte_ok, b64digit. destruct (d <? 26) eqn:A; [lia|]. destruct (d <? 52) eqn:B; [lia|].
  destruct (d <? 62) eqn:C; [lia|]. destruct (d =? 62) eqn:D; lia.
Qed.
Lemma b64_bytes : forall n s, (List.length s <= n)%nat -> Forall byte_ok s -> Forall byte_ok (b64encode s).
Proof.
  assert (D : forall a k m, 0 <= a < 256 -> 0 < k -> 0 < m -> 256 = k * m -> 0 <= a / k < m).
  { intros a k m A K M E. split; [apply Z.div_pos; lia|apply Z.div_lt_upper_bound; lia]. }
  assert (Q : byte_ok 61) by (unfold byte_ok; lia).
  induction n as [|n IH]; intros s L F.
  { destruct s; [constructor|cbn in L; lia]. }
  destruct s as [|a [|b [|c s]]].
  - constructor.
  - inversion F; subst. unfold byte_ok in *. pose proof (D a 4 64 ltac:(assumption) ltac:(lia) ltac:(lia) ltac:(lia)).
    pose proof (Z.mod_pos_bound a 4 ltac:(lia)). cbn [b64encode].
    repeat (apply Forall_cons; [first [exact Q|apply b64digit_byte; lia]|]). constructor.
  - inversion F as [|? ? A F1]; subst. inversion F1 as [|? ? B F2]; subst. unfold byte_ok in *. pose proof (D a 4 64 A ltac:(lia) ltac:(lia) ltac:(lia)).
    pose proof (D b 16 16 B ltac:(lia) ltac:(lia) ltac:(lia)).
    pose proof (Z.mod_pos_bound a 4 ltac:(lia)). pose proof (Z.mod_pos_bound b 16 ltac:(lia)). cbn [b64encode].
    repeat (apply Forall_cons; [first [exact Q|apply b64digit_byte; lia]|]). constructor.
  - inversion F as [|? ? A F1]; subst. inversion F1 as [|? ? B F2]; subst. inversion F2 as [|? ? C F3]; subst. unfold byte_ok in A, B, C.
    pose proof (D a 4 64 A ltac:(lia) ltac:(lia) ltac:(lia)).
    pose proof (D b 16 16 B ltac:(lia) ltac:(lia) ltac:(lia)). pose proof (D c 64 4 C ltac:(lia) ltac:(lia) ltac:(lia)).
    pose proof (Z.mod_pos_bound a 4 ltac:(lia)). pose proof (Z.mod_pos_bound b 16 ltac:(lia)). pose proof (Z.mod_pos_bound c 64 ltac:(lia)).
    cbn [b64encode app]. repeat (apply Forall_cons; [apply b64digit_byte; lia|]). apply IH; [cbn [List.length] in L; lia|exact F3].
Qed.
Lemma lit_bytes : forall s, Forall byte_ok (lit s).
Proof.
  induction s as [|c s IH]; [constructor|]. cbn [lit]. constructor; [|exact IH].
  unfold byte_ok. pose proof (nat_ascii_bounded c). lia.
Qed.
Lemma p_str : forall s, plain (jstr s).
Proof. intros s. cbn [plain jstr]. apply text_bytes, legible_is_text. Qed.
Lemma p_opt : forall o, plain (jopt o).
Proof. intros [s|]; [apply p_str|exact Logic.I]. Qed.
Lemma p_bytes : forall b, plain (jbytes b).
Proof.
  intros b. cbn [plain jbytes]. apply (b64_bytes _ _ (le_n _)). apply Forall_forall. intros x H. apply in_map_iff in H as (y & <- & _).
  unfold byte_ok. apply Z.mod_pos_bound. lia.
Qed.
Lemma p_bytes0 : forall b, plain (jbytes0 b).
Proof. intros [|x b]; [exact Logic.I|apply p_bytes]. Qed.
Lemma p_obytes : forall o, plain (jobytes o).
Proof. intros [b|]; [apply p_bytes|exact Logic.I]. Qed.
Lemma p_enum : forall f z, plain (jenum f z).
Proof. intros f z. cbn [plain jenum]. apply lit_bytes. Qed.
Lemma p_arr : forall {A} (f : A -> json) l, (forall x, plain (f x)) -> plain (jarr f l).
Proof. intros A f l H. unfold jarr. apply plain_arr. apply Forall_forall. intros x I. apply in_map_iff in I as (y & <- & _). apply H. Qed.
Lemma p_oarr : forall {A} (f : A -> json) l, (forall x, plain (f x)) -> plain (joarr f l).
Proof. intros A f [l|] H; [now apply p_arr|exact Logic.I]. Qed.
Lemma p_obj : forall l, Forall (fun p => plain (snd p)) l -> plain (jobj l).
Proof.
  intros l H. unfold jobj. apply plain_obj. induction H as [|p l P H IH]; [constructor|]. cbn [map]. constructor; [|exact IH].
  split; [apply lit_bytes|exact P].
Qed.
Lemma p_int : forall z, plain (JInt z).
Proof. exact (fun _ => Logic.I). Qed.
Lemma p_bool : forall b, plain (JBool b).
Proof. exact (fun _ => Logic.I). Qed.
Ltac pl := repeat match goal with
  | |- plain (jstr _) => apply p_str
  | |- plain (jopt _) => apply p_opt
  | |- plain (jbytes _) => apply p_bytes
  | |- plain (jbytes0 _) => apply p_bytes0
  | |- plain (jobytes _) => apply p_obytes
  | |- plain (jenum _ _) => apply p_enum
  | |- plain (JInt _) => apply p_int
  | |- plain (JBool _) => apply p_bool
  | |- plain JNull => exact Logic.I
  | |- plain (jtags _) => apply p_arr; intros
  | |- plain (jtag _) => unfold jtag
  | |- plain (jarr _ _) => apply p_arr; intros
  | |- plain (joarr _ _) => apply p_oarr; intros
  | |- plain (jobj _) => apply p_obj
  | |- Forall _ (_ :: _) => apply Forall_cons; cbn [snd]
  | |- Forall _ [] => constructor
  | |- plain (let '(_, _) := ?x in _) => destruct x
  | x : nopart |- _ => unfold nopart in x
  | |- plain (if ?b then _ else _) => destruct b
  end.
Lemma p_assignment : forall a, plain (jassignment a).
Proof. intros a. unfold jassignment. pl. Qed.
Lemma p_member : forall m, plain (jmember m).
Proof. intros (a & b & c & d & e & [x|]); unfold jmember; pl; apply p_assignment. Qed.
Lemma p_group : forall g, plain (jgroup g).
Proof. intros (a & b & c & d & [|t l]); unfold jgroup; cbn [app]; pl. Qed.
Lemma shown_plain : forall r j, shown r = Some j -> plain j.
Proof.
  intros r j H. destruct r; try discriminate; unfold shown in H; apply some_inj in H; subst j; pl; try apply p_member; try apply p_group.
Qed.
Lemma message_plain : forall m, plain (shown_message m).
Proof. intros m. unfold shown_message. pl. Qed.
