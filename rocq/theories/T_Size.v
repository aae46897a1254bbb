(** C147: what a response is decoded to, and the memory asked for it, is bounded by its bytes. *)
From Verif Require Import Base BaseFacts Wire Prims Group Responses ResponseFacts SizeSpec SizeFacts Reserve SizeRefute.

(** But for tagged fields, user data and the bytes of SaslAuthenticate, and for the three
    decoders that do not move on, a response holds at most two elements or bytes per byte. *)
Theorem C147_bounded_partial : forall key v d r, copying key = false -> parse key v d = Ok r -> size 0 r <= 2 * zlen d.
Proof. intros key v d r H. apply z_parse; auto. Qed.
Print Assumptions C147_bounded_partial.

(** Where there are no such things everything counts. *)
Theorem C147_plain_partial : forall key v d r, plain key v = true -> parse key v d = Ok r -> size 1 r <= 2 * zlen d.
Proof.
  intros key v d r H. apply z_parse; auto. destruct (copying key) eqn:E; [|reflexivity]. unfold copying in E.
  apply existsb_exists in E. destruct E as [k [I E]]. apply Z.eqb_eq in E. subst k.
  destruct I as [<-|[<-|[<-|[]]]]; discriminate H.
Qed.
Print Assumptions C147_plain_partial.
Definition ex_md : bytes := frame (be 4 7 ++ be 4 1 ++ be 4 1 ++ [0; 1; 104] ++ be 4 9092 ++ [0; 0] ++ be 4 1 ++
  be 4 1 ++ be 2 0 ++ [0; 1; 116] ++ [0] ++ be 4 1 ++ be 2 0 ++ be 4 0 ++ be 4 1 ++ be 4 2 ++ be 4 1 ++ be 4 2 ++ be 4 1 ++ be 4 1).
Example C147_ex : plain 3 1 = true /\ zlen ex_md = 73 /\
  exists r, parse 3 1 ex_md = Ok r /\ size 1 r = 8 /\ listed r = Some 1 /\
    exists p, first_make 3 1 = Some p /\ exists t, p (skipn 4 ex_md) = Ok (1, t).
Proof.
  split; [reflexivity|]. split; [vm_compute; reflexivity|]. eexists. split; [vm_compute; reflexivity|]. split; [vm_compute; reflexivity|].
  split; [vm_compute; reflexivity|]. eexists. split; [reflexivity|]. eexists. vm_compute. reflexivity.
Qed.

(** When decoding succeeds, what was asked for first was what was there. *)
Theorem C147_asked_partial : forall key v p s n t r, first_make key v = Some p -> zlen s < 2 ^ 32 -> p s = Ok (n, t) -> 0 <= n ->
  parse key v (frame s) = Ok r -> listed r = Some n /\ n <= 2 * zlen (frame s).
Proof.
  intros key v p s n t r F L P N E. pose proof (asked_for key v p s n t r F L P N E) as K. split; [exact K|].
  apply listed_size in K. etransitivity; [exact K|]. apply (C147_bounded_partial key v); [|exact E].
  destruct (copying key) eqn:C; [|reflexivity]. unfold copying in C. apply existsb_exists in C. destruct C as [k [I C]]. apply Z.eqb_eq in C. subst k.
  destruct I as [<-|[<-|[<-|[]]]]; discriminate F.
Qed.
Print Assumptions C147_asked_partial.
Theorem C147_read_partial : forall A (p : parser A) d a, whole p d = Ok a -> read_make (firstn 4 d) = zlen d.
Proof.
  intros A p d a. unfold whole, read_make, rd_u32, rd_u. destruct (Nat.leb_spec 4 (length d)); [|discriminate].
  destruct (Z.eqb_spec (unbe (firstn 4 d) + 4) (zlen d)); [|discriminate]. intros _. lia.
Qed.
Print Assumptions C147_read_partial.

(** Sixteen bytes become four gigabytes. *)
Theorem C147_padding_refuted : exists d r, zlen d = 16 /\ parse 36 0 d = Ok r /\ size 1 r = 2 ^ 32 - 1.
Proof.
  exists (padded (2 ^ 32 - 1)). eexists. split; [vm_compute; reflexivity|]. split; [apply padded_decoded; unfold u32; lia|].
  cbn [size]. rewrite zlen_repeat by lia. reflexivity.
Qed.
Print Assumptions C147_padding_refuted.
(** A member can make the answer to DescribeGroups as large as it wants. *)
Theorem C147_user_data_refuted : exists d r, zlen d = 52 /\ parse 15 0 d = Ok r /\ 2 ^ 31 - 1 <= size 1 r.
Proof.
  exists (idle (2 ^ 31 - 1)). eexists. split; [vm_compute; reflexivity|]. split; [apply idle_decoded; [unfold i32|]; lia|].
  cbn [size]. unfold many at 1, sum. cbn [fold_right fst snd]. unfold many at 1, sum. cbn [fold_right fst snd opt]. unfold assigned at 1. cbn [ma_user ma_parts].
  rewrite zlen_repeat by lia. change (many _ []) with 0. unfold zlen. lia.
Qed.
Print Assumptions C147_user_data_refuted.
(** One resource is decoded four thousand million times. *)
Theorem C147_copies_refuted : exists d r, zlen d = 23 /\ parse 33 0 d = Ok r /\ size 0 r = 2 ^ 32 - 1.
Proof.
  exists (copied (2 ^ 32 - 1)). eexists. split; [vm_compute; reflexivity|]. split; [apply copied_decoded; unfold u32; lia|].
  cbn [size]. assert (G : forall n, many (fun x : Z * (bytes * (Z * bytes)) => zlen (fst (snd x)) + zlen (snd (snd (snd x)))) (repeat (0, ([], (2, []))) n) = Z.of_nat n).
  { induction n as [|n IH]; [reflexivity|]. cbn [repeat]. unfold many, sum in *. cbn [fold_right fst snd]. rewrite IH. unfold zlen. cbn [length]. lia. }
  rewrite G. lia.
Qed.
Print Assumptions C147_copies_refuted.
(** A tag section that ends early is read on for ever. *)
Theorem C147_tags_refuted : exists d r, zlen d = 26 /\ parse 16 3 d = Ok r /\ 2 ^ 64 - 1 <= size 1 r.
Proof.
  exists (tagging (2 ^ 64 - 1)). eexists. split; [vm_compute; reflexivity|]. split; [apply tagging_decoded; unfold u64; lia|].
  cbn [size opt]. assert (G : forall n, tagged 1 (repeat (0, []) n) = Z.of_nat n).
  { intros n. unfold tagged. unfold zlen at 1. rewrite repeat_length.
    assert (K : sum (fun x : Z * bytes => zlen (snd x)) (repeat (0, []) n) = 0) by (induction n as [|n IH]; [reflexivity|cbn [repeat sum fold_right]; unfold sum in IH; rewrite IH; reflexivity]).
    rewrite K. lia. }
  rewrite G. change (tagged 1 []) with 0. change (many _ []) with 0. lia.
Qed.
Print Assumptions C147_tags_refuted.
(** Every decoder followed asks for two thousand million elements on behalf of some twenty bytes. *)
Theorem C147_asked_refuted : forall key v p, first_make key v = Some p ->
  exists s, zlen s <= 22 /\ p s = Ok (2 ^ 31 - 1, []) /\ forall r, parse key v (frame s) <> Ok r.
Proof.
  intros key v p F.
  assert (G : exists s, zlen s <= 22 /\ p s = Ok (2 ^ 31 - 1, [])).
  { unfold first_make in F. destruct key as [|key|key]; [discriminate F| |discriminate F].
    do 6 (try (destruct key as [key|key|]; try discriminate F)); injection F as <-.
    all: try (destruct (4 <=? v)).
    all: first [ exists (be 4 0 ++ be 4 (2 ^ 31 - 1)); split; [vm_compute; congruence|vm_compute; reflexivity]
               | exists (be 4 0 ++ be 2 0 ++ be 4 (2 ^ 31 - 1)); split; [vm_compute; congruence|vm_compute; reflexivity]
               | exists (be 4 0 ++ be 4 0 ++ be 4 (2 ^ 31 - 1)); split; [vm_compute; congruence|vm_compute; reflexivity]
               | exists (be 4 0 ++ be 4 0 ++ be 4 0 ++ be 4 0 ++ be 2 (2 ^ 15 - 1) ++ be 4 (2 ^ 31 - 1)); split; [vm_compute; congruence|vm_compute; reflexivity]
               | exists (be 4 0 ++ be 2 0 ++ be 4 0 ++ be 2 0 ++ be 2 0 ++ be 2 0 ++ be 4 (2 ^ 31 - 1)); split; [vm_compute; congruence|vm_compute; reflexivity] ]. }
  destruct G as [s [L P]]. exists s. split; [exact L|]. split; [exact P|]. intros r E.
  destruct (C147_asked_partial key v p s (2 ^ 31 - 1) [] r F ltac:(lia) P ltac:(lia) E) as [_ K]. rewrite zlen_frame in K. lia.
Qed.
Print Assumptions C147_asked_refuted.
(** Four bytes are enough to ask for four gigabytes. *)
Theorem C147_read_refuted : exists b, zlen b = 4 /\ read_make b = 2 ^ 32 + 3.
Proof. exists [255; 255; 255; 255]. split; vm_compute; reflexivity. Qed.
Print Assumptions C147_read_refuted.
