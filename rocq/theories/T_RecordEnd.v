(** C149: a record ends where its length says. *)
From Verif Require Import Base BaseFacts RecordSpec Records RecordFacts Fetch FetchSpec FetchFacts FetchGrow FetchRefute RecordEnd.

(** Full statement: whenever DecodeToRecord returns a record, the bytes it has taken are the
    length and as many bytes as the length says; everything else is an error.
    Vocabulary: RecordEnd.v ([says_length raw l body]: [raw] is the varint [l], then [body];
    [content r]: the bytes of key, value and headers). *)

(** Of a record in the format, with whatever behind it, exactly its bytes are taken. *)
Theorem C149_format_partial : forall s rest, wf_srecord s -> headers_present s ->
  exists r body, says_length (enc_srecord s ++ rest) (zlen body) (body ++ rest) /\
    decodeToRecord (enc_srecord s ++ rest) = Ok (r, rest).
Proof.
  intros s rest Hw Hp. exists (of_spec s), (enc_sbody s). split; [|exact (decodeToRecord_enc s rest Hw Hp)].
  split; [unfold enc_srecord; rewrite <- app_assoc; reflexivity|].
  destruct Hw as [_ [_ [_ [_ [_ [_ [_ Hb]]]]]]]. unfold i64. pose proof (zlen_nonneg (enc_sbody s)).
  assert (2 ^ 31 < 2 ^ 63) by reflexivity. lia.
Qed.
Print Assumptions C149_format_partial.

(** Of any bytes whatever: what is taken is taken from the front, at least two bytes of it,
    and key, value and headers together are shorter than it. *)
Theorem C149_front_partial : forall raw r rest, decodeToRecord raw = Ok (r, rest) ->
  exists used, raw = used ++ rest /\ 2 + content r <= zlen used.
Proof. exact record_taken. Qed.
Print Assumptions C149_front_partial.
Example C149_ex : let s := rec 1 [107] [118; 119] in
  says_length (enc_srecord s ++ [9; 9]) 9 (enc_sbody s ++ [9; 9]) /\
  decodeToRecord (enc_srecord s ++ [9; 9]) = Ok (mkRec 0 0 1 (Some [107]) (Some [118; 119]) [], [9; 9]) /\
  content (mkRec 0 0 1 (Some [107]) (Some [118; 119]) []) = 3.
Proof. repeat split; vm_compute; reflexivity || (split; discriminate) || discriminate. Qed.

(** Findings.  The fields may reach beyond the length: the key of the first record is made of
    the second one, which is not delivered. *)
Definition in_batch (n : Z) (raw : bytes) (evs : list event) : Prop :=
  exists s', let p := resp (enc_sbatch (hdr 7 0 n) n raw) in
  streamDecode err0 err0 10 0 (zlen (enc_presp 10 p)) (mkStream [enc_presp 10 p] ETimeout) = Ok (evs, s').
Theorem C149_beyond_refuted : exists raw l body r rest, says_length raw l body /\ decodeToRecord raw = Ok (r, rest) /\
  0 < l < zlen body - zlen rest /\
  exists own s, skipn (Z.to_nat l) body = enc_srecord s /\ wf_srecord s /\ r_key r = Some (own ++ firstn 8 (enc_srecord s)) /\
  in_batch 2 raw [EvMsg [116] 3 (mkMsg 7 2 0 1000 (r_key r) None [])].
Proof.
  exists ([12; 0; 0; 0; 20; 65; 66] ++ enc_srecord (rec 1 [107] [118])), 6, ([0; 0; 0; 20; 65; 66] ++ enc_srecord (rec 1 [107] [118])),
    (mkRec 0 0 0 (Some ([65; 66] ++ firstn 8 (enc_srecord (rec 1 [107] [118])))) None []), [].
  split; [split; [vm_compute; reflexivity|unfold i64; lia]|]. split; [vm_compute; reflexivity|]. split; [vm_compute; split; reflexivity|].
  exists [65; 66], (rec 1 [107] [118]). split; [vm_compute; reflexivity|]. split; [wf|]. split; [reflexivity|].
  eexists. vm_compute. reflexivity.
Qed.
Print Assumptions C149_beyond_refuted.

(** They may end before the length: the bytes left over are delivered as a record of their
    own, in the place of the next one. *)
Theorem C149_before_refuted : exists s s' s2 raw, wf_srecord s /\ wf_srecord s' /\ wf_srecord s2 /\
  says_length raw (zlen (enc_sbody s ++ enc_srecord s')) ((enc_sbody s ++ enc_srecord s') ++ enc_srecord s2) /\
  in_batch 2 raw [EvMsg [116] 3 (exp_msg (hdr 7 0 2) s); EvMsg [116] 3 (exp_msg (hdr 7 0 2) s')].
Proof.
  exists (rec 0 [107] [118]), (rec 1 [120] [121]), (rec 1 [109] [110]),
    (varint (zlen (enc_sbody (rec 0 [107] [118]) ++ enc_srecord (rec 1 [120] [121]))) ++
     (enc_sbody (rec 0 [107] [118]) ++ enc_srecord (rec 1 [120] [121])) ++ enc_srecord (rec 1 [109] [110])).
  split; [wf|]. split; [wf|]. split; [wf|]. split; [split; [reflexivity|vm_compute; split; [discriminate|reflexivity]]|].
  eexists. vm_compute. reflexivity.
Qed.
Print Assumptions C149_before_refuted.

(** The length may be negative. *)
Theorem C149_negative_refuted : exists raw l body r, l < 0 /\ says_length raw l body /\ decodeToRecord raw = Ok (r, []) /\
  in_batch 1 raw [EvMsg [116] 3 (mkMsg 7 2 0 1000 (Some [107]) (Some [118]) [])].
Proof.
  exists (varint (-5) ++ enc_sbody (rec 0 [107] [118])), (-5), (enc_sbody (rec 0 [107] [118])), (mkRec 0 0 0 (Some [107]) (Some [118]) []).
  split; [lia|]. split; [split; [reflexivity|unfold i64; lia]|]. split; [vm_compute; reflexivity|]. eexists. vm_compute. reflexivity.
Qed.
Print Assumptions C149_negative_refuted.

(** A record of at most sixteen bytes is decoded to any number of empty headers. *)
Theorem C149_headers_refuted : forall n, 0 <= n < 2 ^ 63 -> exists raw, zlen raw <= 16 /\
  decodeToRecord raw = Ok (mkRec 0 0 0 None None (repeat ([], []) (Z.to_nat n)), []).
Proof. exact empty_headers. Qed.
Print Assumptions C149_headers_refuted.
