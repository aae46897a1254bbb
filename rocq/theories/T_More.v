(** Further theorems about configurations, texts and additions to requests (C54, C56, C57, C68, C69). *)
From Coq Require Import String.
From Verif Require Import Base Acl Builders Config ConfigSpec ErrorCode MoreSpec MoreFacts.

(** C54: arguments of other types are rejected; the default with bootstrap servers is valid. *)
Theorem C54_producer_other_partial : snd (createProducerConfig POther) = true.
Proof. exact producer_other. Qed.
Print Assumptions C54_producer_other_partial.
Theorem C54_producer_default_partial : forall boot, boot <> [] ->
  let c := mkPC boot (pc_count default_pconf) (pc_flush default_pconf) (pc_comp default_pconf) (pc_magic default_pconf) in
  createProducerConfig (PMap (fun d => Some (mkPC boot (pc_count d) (pc_flush d) (pc_comp d) (pc_magic d)))) = (c, false) /\
  forall e, ~ producer_violates c e.
Proof. exact producer_default. Qed.
Print Assumptions C54_producer_default_partial.

(** C56: a text is read as a value exactly if it is, up to case, one of its texts: its name
    or its number. *)
Theorem C56_resource_texts_partial : forall s v, rtype_parse s = Some v <-> says resource_texts s v.
Proof. exact resource_says. Qed.
Print Assumptions C56_resource_texts_partial.
Theorem C56_pattern_texts_partial : forall s v, ptype_parse s = Some v <-> says pattern_texts s v.
Proof. exact pattern_says. Qed.
Print Assumptions C56_pattern_texts_partial.
Theorem C56_operation_texts_partial : forall s v, ~ (same_text s "UNKNOWN" \/ same_text s "0") -> op_parse s = Some v <-> says operation_texts s v.
Proof. exact operation_says. Qed.
Print Assumptions C56_operation_texts_partial.
Theorem C56_permission_texts_partial : forall s v, ~ (same_text s "UNKNOWN" \/ same_text s "0") -> perm_parse s = Some v <-> says permission_texts s v.
Proof. exact permission_says. Qed.
Print Assumptions C56_permission_texts_partial.
Example C56_ex_texts : says operation_texts "Describe_Configs" 10 /\ same_text "tOpIc" "TOPIC" /\ ~ same_text "TOPIC" "TOPICS".
Proof. split; [exists "DESCRIBE_CONFIGS"%string; split; [cbn; tauto|cbn; unfold same_letter; cbn; intuition (auto; lia)]|]. split; cbn; unfold same_letter; cbn; intuition (auto; lia). Qed.

(** C57: code 0 and only code 0 has no text. *)
Theorem C57_zero_text_partial : err_text 0 = TNone /\ forall c, c <> 0 -> err_text c <> TNone.
Proof. exact no_text. Qed.
Print Assumptions C57_zero_text_partial.

(** C68: a request for more partitions holds the additions in their order. *)
Theorem C68_create_partitions : forall adds, fold_left (fun ts a => cp_add ts (fst a) (fst (snd a)) (snd (snd a))) adds [] = adds.
Proof. exact create_partitions. Qed.
Print Assumptions C68_create_partitions.
Example C68_ex_create : cp_add (cp_add [] [97] 3 None) [98] 2 (Some [[1]; [2]]) = [([97], (3, None)); ([98], (2, Some [[1]; [2]]))].
Proof. reflexivity. Qed.

(** C69: a timeout given per api counts if positive, otherwise the general one. *)
Theorem C69_lookup_partial : forall h c api,
  (forall t, nth_error (cell h (cc_api c)) api = Some t -> 0 < t -> request_timeout h c api = t) /\
  ((forall t, nth_error (cell h (cc_api c)) api = Some t -> t <= 0) -> request_timeout h c api = cc_timeout c).
Proof. exact timeout_lookup. Qed.
Print Assumptions C69_lookup_partial.

