From Verif Require Import Base BaseFacts DeliverFacts Prims Records Requests Responses Producer ProducerSpec ProducerFacts AcksSpec.

Lemma sflush_no_answer zip g h n recs a : no_answer n -> sflush zip g h n recs = Ok a -> exists e, t_err a = Some e.
Proof.
  intros Hn. unfold sflush. destruct (negb (g_leader g)); [discriminate|]. destruct n as [e|ver corr ts got reply].
  - intros H. apply Ok_inj in H. subst a. exists e. reflexivity.
  - destruct Hn as [e ->]. destruct (prepare _ _ _ _); cbn [rbind]; try discriminate.
    intros H. apply Ok_inj in H. subst a. exists e. reflexivity.
Qed.
Lemma all_fail zip g st0 ops st evs a : srun zip g st0 ops = Ok (st, evs) -> g_acks g = 0 ->
  Forall (fun o => obeys (g_acks g) (snd o)) ops -> In a (flushes evs) -> exists e, t_err a = Some e.
Proof.
  intros H Ha Ho Hi. destruct (run_flushes _ _ _ _ _ _ _ H Hi) as (o & h & recs & Io & Hr).
  rewrite Forall_forall in Ho. exact (sflush_no_answer _ _ _ _ _ _ (Ho _ Io Ha) Hr).
Qed.
Lemma flush_says zip g : forall ops st0 st evs e a, srun zip g st0 ops = Ok (st, evs) -> In e evs -> e_op e = OFlush ->
  e_att e = Some a -> e_ret e = t_err a.
Proof.
  induction ops as [|[o n] ops IH]; intros st0 st evs e a H Hi Ho Ha; cbn [srun] in H.
  - apply Ok_inj in H. inversion H; subst. destruct Hi.
  - rb H x Hx. rb H y Hy. apply Ok_inj in H. inversion H; subst st evs. destruct x as [s1 e1], y as [s2 l]. cbn [fst snd] in *.
    destruct Hi as [->|Hi]; [|exact (IH _ _ _ _ _ Hy Hi Ho Ha)].
    destruct st0 as [h s]. destruct o; cbn [sstep] in Hx; try (rb Hx z Hz); apply Ok_inj in Hx; inversion Hx; subst e; cbn [e_op e_ret e_att] in *; try discriminate.
    unfold sflushop in Hz. destruct (s_recs s); [apply Ok_inj in Hz; subst z; discriminate|].
    rb Hz b Hb. apply Ok_inj in Hz. subst z. cbn [fst snd] in *. congruence.
Qed.
Lemma same_error zip g h ver corr ts e recs a : sflush zip g h (NSend ver corr ts true (Err e)) recs = Ok a ->
  exists b, sflush zip g h (NSend ver corr ts false (Err e)) recs = Ok b /\
  t_err a = Some e /\ t_err b = Some e /\ t_msgs a = t_msgs b /\ reached a = true /\ reached b = false.
Proof.
  unfold sflush. destruct (negb (g_leader g)); [discriminate|]. destruct (prepare _ _ _ _); cbn [rbind]; try discriminate.
  intros H. apply Ok_inj in H. subst a. eexists. split; [reflexivity|]. repeat split.
Qed.

Definition alike {A} (f : A -> bytes) (x y : res A) : Prop :=
  match x, y with
  | Ok a, Ok b => length (f a) = length (f b)
  | Err a, Err b => a = b
  | Panic, Panic | Unspec, Unspec => True
  | _, _ => False
  end.
Lemma prepare_acks zip corr ver g k ts ms :
  alike fst (prepare zip corr ver (new_request (Some (g_client g)) (produce_body g ts ms)))
            (prepare zip corr ver (new_request (Some (g_client g)) (produce_body (with_acks g k) ts ms))).
Proof.
  unfold prepare, new_request, produce_body, encode. cbn [with_acks g_topic g_part g_acks g_timeout g_magic g_codec].
  cbn [api_key]. destruct (headerVersion _) as [hv| | |]; cbn [rbind alike]; try exact Logic.I; try reflexivity.
  cbn [encode_body]. unfold enc_produce. destruct (rcat _ _); cbn [rbind alike]; try exact Logic.I; try reflexivity.
  cbn [fst]. rewrite !app_length, !be_length. lia.
Qed.
Lemma acks_ignored zip g k h n recs : 
  match sflush zip g h n recs, sflush zip (with_acks g k) h n recs with
  | Ok a, Ok b => t_msgs a = t_msgs b /\ t_err a = t_err b /\ as_long (t_wire a) (t_wire b)
  | Err a, Err b => a = b
  | Panic, Panic | Unspec, Unspec => True
  | _, _ => False
  end.
Proof.
  unfold sflush. cbn [with_acks g_leader g_client]. destruct (negb (g_leader g)); [exact Logic.I|].
  destruct n as [e|ver corr ts got reply]; [repeat split|].
  pose proof (prepare_acks zip corr ver g k ts (map (deref h) recs)) as P.
  destruct (prepare _ _ _ (new_request _ (produce_body g _ _))) as [w| | |];
  destruct (prepare _ _ _ (new_request _ (produce_body (with_acks g k) _ _))) as [w'| | |]; cbn [alike rbind] in *; try contradiction; try exact P.
  cbv beta zeta. destruct reply as [raw|e| |]; try exact Logic.I.
  - destruct (answer 0 ver raw); try exact Logic.I; (split; [reflexivity|split; [reflexivity|]]); destruct got; cbn; auto.
  - (split; [reflexivity|split; [reflexivity|]]); destruct got; cbn; auto.
Qed.
