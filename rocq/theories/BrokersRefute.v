(** Clusters to try things on, and the claims about brokers.go and client.go that are
    false. *)
From Verif Require Import Base BaseFacts Builders BuildersSpec Brokers BrokersSpec BrokersFacts BrokersMore BrokersLost.

(** A cluster that always can be reached: [ms] gives the metadata over time, every broker
    answers in a way that shows its address, and [bad] tells which requests fail. *)
Record cluster := mkC { c_meta : nat -> meta; c_bad : nat -> bytes -> req -> option err }.
Definition c_dial (w : nat) (a : bytes) : nat * dres := (S w, DialOk).
Definition c_answer (c : cluster) (w : nat) (a : bytes) (q : req) : resp :=
  match q with
  | QMeta _ => RMeta (c_meta c w)
  | QOffsets _ ps _ _ => ROffsets (map (fun p => (p, [p + 100])) ps)
  | QCoord _ => RCoord 2
  | QListGroups => RGroups [a]
  | QLogDirs tps => RLogDirs [(a, map (fun t => (fst t, a)) tps)]
  | QDeleteGroups gs => RDeleted (map (fun g => (g, 0)) gs)
  | QLeave _ _ => RLeave 0
  | QAdmin k => RAdmin k a
  end.
Definition c_exch (c : cluster) (w : nat) (h : handle) (q : req) : nat * (err + resp * option err) :=
  (S w, match c_bad c w (h_addr h) q with
        | Some e => inl e
        | None => inr (c_answer c w (h_addr h) q, None)
        end).
Definition c_ord (A : Type) (w : nat) (l : list A) : nat * list A := (w, l).
Lemma c_perm : forall A w l, Permutation (snd (c_ord A w l)) l.
Proof. intros. cbn. apply Permutation_refl. Qed.
Lemma c_fits : forall c w h q w' r e, c_exch c w h q = (w', inr (r, e)) -> fits q r.
Proof.
  intros c w h q w' r e. unfold c_exch. destruct (c_bad c w (h_addr h) q); intro H; inversion H; subst.
  destruct q; cbn; auto.
Qed.
Definition never (w : nat) (a : bytes) (q : req) : option err := None.
Notation c_new c boot := (NewBrokers nat c_dial (c_exch c) 0%nat boot).
Notation c_get c := (GetBroker nat c_dial (c_exch c) c_ord).
Notation c_calls c := (calls nat c_dial (c_exch c) c_ord).

(** Three brokers at "a", "b", "c"; the topic "t" with three partitions. *)
Definition meta1 : meta := mkMeta [(1, [97]); (2, [98]); (3, [99])] 1
  [([116], [(0, (1, [1; 2])); (1, (2, [2; 3])); (2, (1, [1; 3]))])].
(** The same, later: broker 2 has moved to "d", and is the controller. *)
Definition meta2 : meta := mkMeta [(1, [97]); (2, [100]); (3, [99]); (4, [101])] 2 (m_topics meta1).
Definition steady : cluster := mkC (fun _ => meta1) never.
Definition moved (n : nat) : cluster := mkC (fun w => if (w <? n)%nat then meta1 else meta2) never.

(** ** C49 *)
Definition moved_s0 := fst (c_new (moved 5) [[97]]).
Definition moved_s := c_calls (moved 5) moved_s0 [OGet 2; OGet 3; OGet 4].
Lemma handle_refuted : exists W dial exch ord,
  (forall A w l, Permutation (snd (ord A w l)) l) /\
  (forall w h q w' r e, exch w h q = (w', inr (r, e)) -> fits q r) /\
  exists w boot s l n s' h, NewBrokers W dial exch w boot = (s, None) /\
    GetBroker W dial exch ord (calls W dial exch ord s l) n = (s', inl h) /\
    exists a, get n (b_info W s') = Some a /\ h_addr h <> a.
Proof.
  exists nat, c_dial, (c_exch (moved 5)), c_ord. split; [apply c_perm|]. split; [apply c_fits|].
  exists 0%nat, [[97]], moved_s0, [OGet 2; OGet 3; OGet 4], 2, (fst (c_get (moved 5) moved_s 2)), (mkH 1 2 [98]).
  split; [vm_compute; reflexivity|]. split; [vm_compute; reflexivity|].
  exists [100]. split; [vm_compute; reflexivity|discriminate].
Qed.

(** ** C50: the groups of broker 1, the bootstrap broker, are listed under -1 *)
Lemma groups_refuted : exists W dial exch ord,
  (forall A w l, Permutation (snd (ord A w l)) l) /\
  (forall w h q w' r e, exch w h q = (w', inr (r, e)) -> fits q r) /\
  exists w boot s s' out, NewBrokers W dial exch w boot = (s, None) /\
    ListGroups W dial exch ord s = (s', Ok (out, None)) /\
    exists n g, (exists h, In (EvGet n (inl h)) (b_tr W s') /\ In (EvAsk h QListGroups (Some (RGroups [g]), None)) (b_tr W s')) /\
                get n out = None /\ get (-1) out = Some [g] /\ get (-1) (b_info W s') = None.
Proof.
  exists nat, c_dial, (c_exch steady), c_ord. split; [apply c_perm|]. split; [apply c_fits|].
  exists 0%nat, [[97]], (fst (c_new steady [[97]])).
  exists (fst (ListGroups nat c_dial (c_exch steady) c_ord (fst (c_new steady [[97]])))), [(-1, [[97]]); (2, [[98]]); (3, [[99]])].
  split; [vm_compute; reflexivity|]. split; [vm_compute; reflexivity|].
  exists 1, [97]. split; [|split; [reflexivity|split; [reflexivity|vm_compute; reflexivity]]].
  exists (mkH 0 (-1) [97]). vm_compute. split; tauto.
Qed.

(** ** C51: a request that times out *)
Definition slow (w : nat) (a : bytes) (q : req) : option err :=
  match q with QMeta _ => None | _ => Some ETimeout end.
Definition slow_c : cluster := mkC (fun _ => meta1) slow.
Lemma deltopics_refuted : exists W dial exch ord,
  (forall A w l, Permutation (snd (ord A w l)) l) /\
  (forall w h q w' r e, exch w h q = (w', inr (r, e)) -> fits q r) /\
  exists w boot s s', NewBrokers W dial exch w boot = (s, None) /\ DeleteTopics W dial exch ord s = (s', Panic).
Proof.
  exists nat, c_dial, (c_exch slow_c), c_ord. split; [apply c_perm|]. split; [apply c_fits|].
  exists 0%nat, [[97]], (fst (c_new slow_c [[97]])).
  exists (fst (DeleteTopics nat c_dial (c_exch slow_c) c_ord (fst (c_new slow_c [[97]])))).
  split; vm_compute; reflexivity.
Qed.
Lemma leave_refuted : exists W dial exch,
  (forall w h q w' r e, exch w h q = (w', inr (r, e)) -> fits q r) /\
  exists w boot s s' h, NewBrokers W dial exch w boot = (s, None) /\ In (1, h) (b_cache W s) /\
    requestLeaveGroup W exch s h [103] [109] = (s', Panic).
Proof.
  exists nat, c_dial, (c_exch slow_c). split; [apply c_fits|].
  exists 0%nat, [[97]], (fst (c_new slow_c [[97]])).
  exists (fst (requestLeaveGroup nat (c_exch slow_c) (fst (c_new slow_c [[97]])) (mkH 0 (-1) [97]) [103] [109])), (mkH 0 (-1) [97]).
  split; [vm_compute; reflexivity|]. split; [left; reflexivity|vm_compute; reflexivity].
Qed.

(** ** C70: reconnecting is refused (SASL authentication, code 58) *)
Definition refused (w : nat) (a : bytes) (q : req) : option err :=
  match q with QMeta (_ :: _) => Some (EWrap (EKafka 58)) | _ => None end.
Definition refused_c : cluster := mkC (fun _ => meta1) refused.
(** an answer without topics *)
Definition bare_c : cluster := mkC (fun _ => mkMeta [(1, [97])] 1 []) never.
Lemma leader_refuted : exists W dial exch ord,
  (forall A w l, Permutation (snd (ord A w l)) l) /\
  (forall w h q w' r e, exch w h q = (w', inr (r, e)) -> fits q r) /\
  (forall w h q w' m e, exch w h q = (w', inr (RMeta m, e)) -> m_topics m <> []) /\
  exists w boot s s', NewBrokers W dial exch w boot = (s, None) /\ findLeader W dial exch ord s [116] 0 = (s', Panic).
Proof.
  exists nat, c_dial, (c_exch refused_c), c_ord. split; [apply c_perm|]. split; [apply c_fits|]. split.
  { intros w h q w' m e. unfold c_exch. cbn. destruct (refused w (h_addr h) q); [discriminate|].
    destruct q; intro H; inversion H; subst. discriminate. }
  exists 0%nat, [[97]], (fst (c_new refused_c [[97]])).
  exists (fst (findLeader nat c_dial (c_exch refused_c) c_ord (fst (c_new refused_c [[97]])) [116] 0)).
  split; vm_compute; reflexivity.
Qed.
Lemma leader_empty_refuted : exists W dial exch ord,
  (forall A w l, Permutation (snd (ord A w l)) l) /\
  (forall w h q w' r e, exch w h q = (w', inr (r, e)) -> fits q r) /\
  exists w boot s s', NewBrokers W dial exch w boot = (s, None) /\ findLeader W dial exch ord s [116] 0 = (s', Panic) /\
    exists s'', RequestOffsets W dial exch ord s [116] 0 0 1 = (s'', Panic).
Proof.
  exists nat, c_dial, (c_exch bare_c), c_ord. split; [apply c_perm|]. split; [apply c_fits|].
  exists 0%nat, [[97]], (fst (c_new bare_c [[97]])).
  exists (fst (findLeader nat c_dial (c_exch bare_c) c_ord (fst (c_new bare_c [[97]])) [116] 0)).
  split; [vm_compute; reflexivity|]. split; [vm_compute; reflexivity|].
  exists (fst (RequestOffsets nat c_dial (c_exch bare_c) c_ord (fst (c_new bare_c [[97]])) [116] 0 0 1)).
  vm_compute. reflexivity.
Qed.

(** ** C72: the controller of the first metadata is asked for ever.  The last answer the
    client got names broker 2. *)
Lemma controller_refuted : exists W dial exch ord,
  (forall A w l, Permutation (snd (ord A w l)) l) /\
  (forall w h q w' r e, exch w h q = (w', inr (r, e)) -> fits q r) /\
  exists w boot s l s1 h m s' b, NewBrokers W dial exch w boot = (s, None) /\
    s1 = calls W dial exch ord s l /\
    (exists before, b_tr W s1 = before ++ [EvAsk h (QMeta []) (Some (RMeta m), None)]) /\
    controller_call W dial exch ord s1 19 = (s', Ok b) /\
    exists h', In (EvAsk h' (QAdmin 19) (Some (RAdmin 19 b), None)) (b_tr W s') /\
               get (m_ctl m) (m_brokers m) <> Some (h_addr h').
Proof.
  exists nat, c_dial, (c_exch (moved 2)), c_ord. split; [apply c_perm|]. split; [apply c_fits|].
  exists 0%nat, [[97]], (fst (c_new (moved 2) [[97]])), [OMeta []].
  set (s1 := c_calls (moved 2) (fst (c_new (moved 2) [[97]])) [OMeta []]).
  exists s1, (mkH 0 (-1) [97]), meta2, (fst (controller_call nat c_dial (c_exch (moved 2)) c_ord s1 19)), [97].
  split; [vm_compute; reflexivity|]. split; [reflexivity|]. split.
  { exists [EvOpen 0; EvProbe (mkH 0 (-1) [97]); EvGet 1 (inl (mkH 0 (-1) [97]))]. vm_compute. reflexivity. }
  split; [vm_compute; reflexivity|]. exists (mkH 0 (-1) [97]). split; [vm_compute; tauto|discriminate].
Qed.

(** ** C73 *)
Definition leaks_s := c_calls steady (fst (c_new steady [[97]])) [OGet 9].
Lemma leak_refuted : exists W dial exch ord,
  (forall A w l, Permutation (snd (ord A w l)) l) /\
  (forall w h q w' r e, exch w h q = (w', inr (r, e)) -> fits q r) /\
  exists w boot s l i j, NewBrokers W dial exch w boot = (s, None) /\
    i <> j /\ lost (CloseAll W (calls W dial exch ord s l)) i /\ lost (CloseAll W (calls W dial exch ord s l)) j.
Proof.
  exists nat, c_dial, (c_exch steady), c_ord. split; [apply c_perm|]. split; [apply c_fits|].
  exists 0%nat, [[97]], (fst (c_new steady [[97]])), [OGet 9], 1, 2.
  split; [vm_compute; reflexivity|]. split; [lia|].
  split; (split; [vm_compute; tauto|split; [vm_compute; intuition discriminate|]]);
    intros n h; vm_compute; intros [H|[]]; injection H as _ <-; discriminate.
Qed.
(** a bootstrap address the cluster does not advertise is lost at once *)
Lemma leak_boot_refuted : exists W dial exch (ord : forall A : Type, W -> list A -> W * list A),
  (forall A w l, Permutation (snd (ord A w l)) l) /\
  (forall w h q w' r e, exch w h q = (w', inr (r, e)) -> fits q r) /\
  exists w boot s i, NewBrokers W dial exch w boot = (s, None) /\ lost (CloseAll W s) i.
Proof.
  exists nat, c_dial, (c_exch steady), c_ord. split; [apply c_perm|]. split; [apply c_fits|].
  exists 0%nat, [[122]], (fst (c_new steady [[122]])), 0. split; [vm_compute; reflexivity|].
  split; [vm_compute; tauto|split; [vm_compute; intuition discriminate|intros n h; vm_compute; intros []]].
Qed.

(** ** C74: broker 2 does not answer and is missing without an error *)
Definition mute (w : nat) (a : bytes) (q : req) : option err :=
  match q with QLogDirs _ => if bytes_eq_dec a [98] then Some ETimeout else None | _ => None end.
Definition mute_c : cluster := mkC (fun _ => meta1) mute.
Lemma logdirs_refuted : exists W dial exch ord,
  (forall A w l, Permutation (snd (ord A w l)) l) /\
  (forall w h q w' r e, exch w h q = (w', inr (r, e)) -> fits q r) /\
  exists w boot s s' out b h q e, NewBrokers W dial exch w boot = (s, None) /\
    DescribeLogDirs W dial exch ord s [[116]] = (s', Ok out) /\
    In (EvGet b (inl h)) (b_tr W s') /\ In (EvAsk h (QLogDirs q) (None, Some e)) (b_tr W s') /\ get b out = None.
Proof.
  exists nat, c_dial, (c_exch mute_c), c_ord. split; [apply c_perm|]. split; [apply c_fits|].
  exists 0%nat, [[97]], (fst (c_new mute_c [[97]])).
  exists (fst (DescribeLogDirs nat c_dial (c_exch mute_c) c_ord (fst (c_new mute_c [[97]])) [[116]])).
  exists [(1, [([97], [([116], [97])])]); (3, [([99], [([116], [99])])])], 2, (mkH 1 2 [98]), [([116], [0; 1])], ETimeout.
  split; [vm_compute; reflexivity|]. split; [vm_compute; reflexivity|].
  split; [vm_compute; tauto|]. split; [vm_compute; tauto|reflexivity].
Qed.
(** asking for all topics (none named) gives directories without topics *)
Lemma logdirs_all_refuted : exists W dial exch ord,
  (forall A w l, Permutation (snd (ord A w l)) l) /\
  (forall w h q w' r e, exch w h q = (w', inr (r, e)) -> fits q r) /\
  exists w boot s s' out h q rs, NewBrokers W dial exch w boot = (s, None) /\
    DescribeLogDirs W dial exch ord s [] = (s', Ok out) /\
    In (EvAsk h (QLogDirs q) (Some (RLogDirs rs), None)) (b_tr W s') /\ (exists d t, In d rs /\ In t (snd d)) /\
    forall b ds d, get b out = Some ds -> In d ds -> snd d = [].
Proof.
  exists nat, c_dial, (c_exch steady), c_ord. split; [apply c_perm|]. split; [apply c_fits|].
  exists 0%nat, [[97]], (fst (c_new steady [[97]])).
  exists (fst (DescribeLogDirs nat c_dial (c_exch steady) c_ord (fst (c_new steady [[97]])) [])).
  exists [(1, [([97], [])]); (2, [([98], [])]); (3, [([99], [])])], (mkH 1 2 [98]), [([116], [0; 1])], [([98], [([116], [98])])].
  split; [vm_compute; reflexivity|]. split; [vm_compute; reflexivity|]. split; [vm_compute; tauto|].
  split; [exists ([98], [([116], [98])]), ([116], [98]); cbn; auto|].
  intros b ds d G I. apply get_in in G. cbn in G.
  destruct G as [G|[G|[G|[]]]]; injection G as <- <-; destruct I as [<-|[]]; reflexivity.
Qed.

(** ** C75: the first group is deleted, the second request fails: the call reports an error
    and not that the first group is gone *)
Definition second (w : nat) (a : bytes) (q : req) : option err :=
  match q with QDeleteGroups [g] => if bytes_eq_dec g [104] then Some ETimeout else None | _ => None end.
Definition second_c : cluster := mkC (fun _ => meta1) second.
Lemma delgroups_refuted : exists W dial exch ord,
  (forall A w l, Permutation (snd (ord A w l)) l) /\
  (forall w h q w' r e, exch w h q = (w', inr (r, e)) -> fits q r) /\
  exists w boot s s' e h, NewBrokers W dial exch w boot = (s, None) /\
    DeleteGroups W dial exch ord s [[103]; [104]] = (s', Err e) /\
    In (EvAsk h (QDeleteGroups [[103]]) (Some (RDeleted [([103], 0)]), None)) (b_tr W s').
Proof.
  exists nat, c_dial, (c_exch second_c), c_ord. split; [apply c_perm|]. split; [apply c_fits|].
  exists 0%nat, [[97]], (fst (c_new second_c [[97]])).
  exists (fst (DeleteGroups nat c_dial (c_exch second_c) c_ord (fst (c_new second_c [[97]])) [[103]; [104]])).
  exists (EWrap ETimeout), (mkH 1 2 [98]). split; [vm_compute; reflexivity|]. split; [vm_compute; reflexivity|].
  vm_compute. tauto.
Qed.

(** ** C76 *)
Lemma configs_refuted : exists W dial exch ord,
  (forall A w l, Permutation (snd (ord A w l)) l) /\
  (forall w h q w' r e, exch w h q = (w', inr (r, e)) -> fits q r) /\
  exists w boot s n s' b h, NewBrokers W dial exch w boot = (s, None) /\ get n (b_info W s) = None /\
    DescribeConfigs W dial exch ord s true (Some n) = (s', Ok b) /\ In (EvGet 1 (inl h)) (b_tr W s') /\
    In (EvAsk h (QAdmin 32) (Some (RAdmin 32 b), None)) (b_tr W s').
Proof.
  exists nat, c_dial, (c_exch steady), c_ord. split; [apply c_perm|]. split; [apply c_fits|].
  exists 0%nat, [[97]], (fst (c_new steady [[97]])), 4294967297.
  exists (fst (DescribeConfigs nat c_dial (c_exch steady) c_ord (fst (c_new steady [[97]])) true (Some 4294967297))).
  exists [97], (mkH 0 (-1) [97]).
  split; [vm_compute; reflexivity|]. split; [vm_compute; reflexivity|]. split; [vm_compute; reflexivity|].
  split; vm_compute; tauto.
Qed.
