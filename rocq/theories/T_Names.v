(** C98, C99: names of compression types, credentials. *)
From Verif Require Import Base Wire Requests RequestSpec RequestFacts RequestPrep Config ConfigSpec Conn Names NamesFacts.

(** *** C98 *)
(** [kafka_codecs]: Kafka's codes, names and algorithms.  Every function that translates
    between them follows this table; the other bits of the attributes (from 8 up; 4 belongs
    to the code of zstd, see C09) make no difference. *)
Theorem C98_codecs : forall code name alg, In (code, (name, alg)) kafka_codecs ->
  ctype_string code = name /\ parseCompressType name = (code, true) /\ newCompressor name = Some alg /\ producer_codec name = Some code /\
  forall hi, 0 <= hi -> batch_lib (code + 8 * hi) = Some alg /\ uncompress_lib (code + 8 * hi) = Some alg.
Proof. exact codec_names. Qed.
Print Assumptions C98_codecs.
(** Every name a valid configuration of a producer has is in the table, and the producer
    knows its code. *)
Theorem C98_accepted : forall c, producer_checkValid c = None ->
  exists code alg, In (code, (pc_comp c, alg)) kafka_codecs /\ producer_codec (pc_comp c) = Some code.
Proof. exact accepted_codec. Qed.
Print Assumptions C98_accepted.
(** Names are parsed in any case of letters, and nothing else is. *)
Theorem C98_case : forall s code name alg, In (code, (name, alg)) kafka_codecs -> spelled s name -> parseCompressType s = (code, true).
Proof.
  intros s code name alg I S. apply spelled_lower in S. destruct (codec_names _ _ _ I) as (_ & P & _). rewrite <- P.
  unfold parseCompressType. rewrite S. destruct I as [I|[I|[I|[I|[]]]]]; injection I as <- <- <-; reflexivity.
Qed.
Print Assumptions C98_case.
Theorem C98_parsed : forall s code, parseCompressType s = (code, true) -> exists name alg, In (code, (name, alg)) kafka_codecs /\ spelled s name.
Proof. intros s code H. destruct (parse_known s code H) as [alg I]. exists (lower s), alg. split; [exact I|]. apply spelled_lower. reflexivity. Qed.
Print Assumptions C98_parsed.
(** Any other code is called "unknown", a name that no function takes for an algorithm. *)
Theorem C98_unknown : forall code, ~ (exists name alg, In (code, (name, alg)) kafka_codecs) ->
  ctype_string code = [117; 110; 107; 110; 111; 119; 110] /\ parseCompressType (ctype_string code) = (0, false) /\
  newCompressor (ctype_string code) = None /\ producer_codec (ctype_string code) = None.
Proof.
  intros code H. assert (E : ctype_string code = [117; 110; 107; 110; 111; 119; 110]); [|rewrite E; split; [reflexivity|]; split; [|split]; vm_compute; reflexivity].
  unfold ctype_string. destruct (code =? 0) eqn:E0; [exfalso; apply H; apply Z.eqb_eq in E0; subst; do 2 eexists; left; reflexivity|].
  destruct (code =? 1) eqn:E1; [exfalso; apply H; apply Z.eqb_eq in E1; subst; do 2 eexists; right; left; reflexivity|].
  destruct (code =? 2) eqn:E2; [exfalso; apply H; apply Z.eqb_eq in E2; subst; do 2 eexists; right; right; left; reflexivity|].
  destruct (code =? 3) eqn:E3; [exfalso; apply H; apply Z.eqb_eq in E3; subst; do 2 eexists; right; right; right; left; reflexivity|]. reflexivity.
Qed.
Print Assumptions C98_unknown.
Example C98_ex : parseCompressType [83; 110; 65; 112; 112; 121] = (2, true) /\ parseCompressType [122; 115; 116; 100] = (0, false) /\
  producer_codec [115; 110; 97; 112; 112; 121] = Some 2 /\ batch_lib 18 = Some LSnappy /\ uncompress_lib 18 = Some LSnappy.
Proof. vm_compute. auto. Qed.

(** *** C99 *)
(** For the mechanism PLAIN (in any case): a broker reads a SaslAuthenticate request whose
    token, by RFC 4616, names no authorization identity, the user and the password. *)
Theorem C99_plain_partial : forall zip corr client user password mechanism rest, spelled mechanism [112; 108; 97; 105; 110] ->
  no_zero user -> no_zero password -> i32 corr -> wf_client client -> zlen user + zlen password < 2 ^ 30 ->
  exists out token, sasl_request zip corr 0 client user password mechanism = Ok out /\
    broker_reads 36 0 S_SaslAuthenticate_0 (out ++ rest) = Some (zlen out - 4, (36, 0, corr, client), token, rest) /\
    plain_token [] user password token.
Proof. intros zip corr client user password mechanism rest S. apply spelled_lower in S. apply sasl_read. exact S. Qed.
Print Assumptions C99_plain_partial.
(** A token names one user and one password only. *)
Theorem C99_token_unique : forall z u p z' u' p' b, plain_token z u p b -> plain_token z' u' p' b -> z = z' /\ u = u' /\ p = p'.
Proof. exact plain_unique. Qed.
Print Assumptions C99_token_unique.
Example C99_ex : sasl_request (fun _ _ => Panic) 3 0 (Some [99]) [117] [112; 119] [80; 76; 65; 73; 78] =
  Ok [0; 0; 0; 20; 0; 36; 0; 0; 0; 0; 0; 3; 0; 1; 99; 0; 0; 0; 5; 0; 117; 0; 112; 119].
Proof. reflexivity. Qed.
(** Finding: any other mechanism, say SCRAM-SHA-256 accepted by the broker in the handshake,
    crashes the client. *)
Theorem C99_mechanism_refuted : forall zip corr v client user password mechanism, ~ spelled mechanism [112; 108; 97; 105; 110] ->
  sasl_request zip corr v client user password mechanism = Panic.
Proof.
  intros zip corr v client user password mechanism H. rewrite spelled_lower in H. unfold sasl_request, newSaslAuthenticate, beqb. destruct (bytes_eq_dec _ _); [congruence|reflexivity].
Qed.
Print Assumptions C99_mechanism_refuted.
Example C99_ex_scram : ~ spelled [83; 67; 82; 65; 77; 45; 83; 72; 65; 45; 50; 53; 54] [112; 108; 97; 105; 110].
Proof. rewrite spelled_lower. discriminate. Qed.
(** Finding: with a broker that knows only version 0 of the handshake, the token has to
    follow as it is (KIP-43); the client sends a request, in which the broker finds no token
    of any user. *)
Theorem C99_handshake_0_refuted : getHighestAvailableAPIVersion [(17, 0, 0); (18, 0, 0)] 17 = 0 /\
  forall zip corr client user password mechanism out, zlen user + zlen password < 2 ^ 30 ->
  sasl_request zip corr 0 client user password mechanism = Ok out ->
  forall authz u p, ~ plain_token authz u p (skipn 4 out).
Proof. split; [reflexivity|]. intros. eapply not_a_token; eassumption. Qed.
Print Assumptions C99_handshake_0_refuted.
