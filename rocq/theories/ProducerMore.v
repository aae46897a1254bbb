(** The timer ends after Close; the first message with a key goes to the leader the
    metadata name. *)
From Verif Require Import Base BaseFacts Prims Responses Producer ProducerSpec ProducerFacts ProducerWire ProducerMulti.

Section Timer.
  Variable zip : Z -> bytes -> res bytes.
  Variable g : scfg.
  Definition ended (st : sstate) : Prop := s_closed (snd st) = true /\ s_timer (snd st) = false.

  Lemma sclosed_flag st o st' e : sstep zip g st o = Ok (st', e) -> s_closed (snd st) = true -> s_closed (snd st') = true.
  Proof.
    destruct st as [h s], o as [o n]. intros H C. cbn [snd] in C. destruct o; cbn [sstep] in H.
    - unfold sadd in H. rewrite C in H. cbn in H. injection H as <- _. exact C.
    - unfold sflushop in H. destruct (s_recs s) eqn:E.
      + cbn in H. injection H as <- _. exact C.
      + rb H x Ex. rb Ex a Ea. injection Ex as <-. injection H as <- _. exact C.
    - unfold stick in H. destruct (s_timer s).
      + rb H x Ex. rb Ex y Ey. injection Ex as <-. injection H as <- _. cbn [fst snd]. unfold sflushop in Ey. destruct (s_recs s).
        * injection Ey as <-. exact C.
        * rb Ey a Ea. injection Ey as <-. exact C.
      + cbn in H. injection H as <- _. exact C.
    - injection H as <- _. exact C.
    - unfold sclose in H. rewrite C in H. cbn in H. injection H as <- _. exact C.
    - injection H as <- _. exact C.
  Qed.
  Lemma sclosed_run ops : forall st st' evs, srun zip g st ops = Ok (st', evs) -> s_closed (snd st) = true -> s_closed (snd st') = true.
  Proof.
    induction ops as [|o ops IH]; intros st st' evs H C; cbn [srun] in H; [injection H as <- _; exact C|].
    rb H x E. rb H y E2. injection H as <- _. destruct x as [st1 e1], y as [st2 es]. cbn [fst snd] in *.
    eapply IH; [exact E2|]. eapply sclosed_flag; eassumption.
  Qed.
  Lemma ended_step st o st' e : sstep zip g st o = Ok (st', e) -> ended st -> fst o <> OFlush ->
    ended st' /\ e_att e = None /\ (forall k v, e_op e = OAdd k v -> e_ret e = Some EClosed).
  Proof.
    destruct st as [h s], o as [o n]. intros H [C T] N. cbn [fst snd] in *. unfold ended. destruct o; cbn [sstep] in H; try congruence.
    - unfold sadd in H. rewrite C in H. cbn in H. injection H as <- <-. cbn. repeat split; try assumption.
    - unfold stick in H. rewrite T in H. cbn in H. injection H as <- <-. cbn. repeat split; try assumption. discriminate.
    - injection H as <- <-. cbn. rewrite C, T. repeat split; discriminate.
    - unfold sclose in H. rewrite C in H. cbn in H. injection H as <- <-. cbn. repeat split; try assumption. discriminate.
    - injection H as <- <-. cbn. repeat split; try assumption. discriminate.
  Qed.
  Lemma ended_run ops : forall st st' evs, srun zip g st ops = Ok (st', evs) -> ended st -> ~ In OFlush (map fst ops) ->
    flushes evs = [] /\ accepted evs = [].
  Proof.
    induction ops as [|o ops IH]; intros st st' evs H E0 N; cbn [srun] in H; [injection H as _ <-; split; reflexivity|].
    rb H x E. rb H y E2. injection H as _ <-. destruct x as [st1 e1], y as [st2 es]. cbn [fst snd map In] in *.
    destruct (ended_step _ _ _ _ E E0) as [E1 [A R]]; [intros X; apply N; left; exact X|].
    destruct (IH _ _ _ E2 E1) as [F1 F2]; [intros X; apply N; right; exact X|].
    rewrite flushes_cons, accepted_cons, F1, F2, !app_nil_r. unfold flushes, accepted. cbn [flat_map]. rewrite A. split; [reflexivity|].
    destruct (e_op e1) eqn:Eo; try reflexivity. rewrite (R _ _ eq_refl). reflexivity.
  Qed.
End Timer.
Lemma timer_ends zip g h ops1 n ops2 m ops3 st evs :
  srun zip g (h, sp0) (ops1 ++ (OClose, n) :: ops2 ++ (OExit, m) :: ops3) = Ok (st, evs) -> ~ In OFlush (map fst ops3) ->
  exists e1 e2, evs = e1 ++ e2 /\ length e2 = length ops3 /\ flushes e2 = [] /\ accepted e2 = [].
Proof.
  intros H N. destruct (srun_app _ _ _ _ _ _ H) as (st1 & e1 & e2 & H1 & H2 & H3). cbn [fst snd] in *.
  cbn [srun] in H2. rb H2 x E. rb H2 y E2. injection H2 as <- <-. destruct x as [st2 ec], y as [st3 es]. cbn [fst snd] in *.
  assert (C : s_closed (snd st2) = true).
  { destruct st1 as [h1 s1]. unfold sstep in E. rb E z HZ. destruct z as [[s' er] a]. injection E as <- <-.
    destruct (sclose_inv _ _ _ _ _ _ _ _ HZ) as (Q & R & _). exact Q. }
  destruct (srun_app _ _ _ _ _ _ E2) as (st4 & e4 & e5 & H4 & H5 & H6). cbn [fst snd] in *.
  pose proof (sclosed_run _ _ _ _ _ _ H4 C) as C4. cbn [srun] in H5. rb H5 x E5. rb H5 y E6. injection H5 as <- <-. destruct x as [st6 e6], y as [st7 e7]. cbn [fst snd] in *.
  assert (E0 : ended st6).
  { destruct st4 as [h4 s4]. cbn [sstep] in E5. injection E5 as <- <-. cbn [fst snd] in *. split; cbn; [exact C4|]. rewrite C4. apply andb_false_r. }
  destruct (ended_run _ _ _ _ _ _ E6 E0 N) as [F1 F2].
  exists (e1 ++ ec :: e4 ++ [e6]), e7. split; [rewrite H3, H6, <- app_assoc; cbn [app]; rewrite <- app_assoc; reflexivity|].
  split; [|split; assumption]. clear -E6. revert st6 st7 e7 E6. induction ops3 as [|o ops IH]; intros st6 st7 e7 E; cbn [srun] in E.
  - injection E as <- <-. reflexivity.
  - rb E x E1. rb E y E2. injection E as <- <-. destruct y as [st8 e8]. cbn [fst snd length] in *. f_equal. eapply IH. exact E2.
Qed.

(** ** The first message with a key *)
Lemma assoc_in {A} (l : list (Z * A)) k v : NoDup (map fst l) -> In (k, v) l -> assoc l k = Some v.
Proof.
  intros Hn Hi. unfold assoc. induction l as [|[k' v'] l IH]; [contradiction|]. cbn [map fst] in Hn. inversion Hn as [|? ? H1 H2]; subst. cbn [find fst].
  destruct (k' =? k) eqn:E.
  - destruct Hi as [[= -> ->]|Hi]; [reflexivity|]. exfalso. apply H1. replace k' with k by lia. apply (in_map fst) in Hi. exact Hi.
  - destruct Hi as [[= -> ->]|Hi]; [lia|]. apply IH; assumption.
Qed.
Lemma first_keyed zip g m r key v r1 r2 r3 ec leader :
  let pid := murmur_spec key mod zlen (m_meta m) in
  0 < zlen (m_meta m) < 2 ^ 31 -> bytes_ok key -> buf (m_heap m) r = key -> NoDup (map fst (m_meta m)) -> In (pid, (ec, leader)) (m_meta m) ->
  (forall i, ~ In (pid, i) (m_pids m)) -> a_before r1 = [] -> a_between r1 = [] -> a_conn r1 = None ->
  (ec <> 0 -> addMessage zip g m (Some r) v r1 r2 r3 = Ok (m, code_error ec, None)) /\
  (ec = 0 -> forall m' e t, addMessage zip g m (Some r) v r1 r2 r3 = Ok (m', e, t) -> e = None /\ t = Some (mkTaken (length (m_sps m)) pid leader)).
Proof.
  intros pid Hn Hk Hb Hd Hin Hp Rb Rt Rc.
  assert (Hpid : sint 32 (MurmurHash2 (buf (m_heap m) r) 0 mod uint 32 (zlen (m_meta m))) = pid).
  { pose proof (part_spec zip (zlen (m_meta m)) m r eq_refl Hn ltac:(rewrite Hb; exact Hk)) as [P _]. unfold part_of in P. rewrite P, Hb. reflexivity. }
  assert (Hm : assoc (m_meta m) pid = Some (ec, leader)) by (apply assoc_in; assumption).
  assert (Hq : assoc (m_pids m) pid = None).
  { unfold assoc. destruct (find _ (m_pids m)) as [[k i]|] eqn:E; [|reflexivity]. apply find_some in E. destruct E as [E1 E2]. cbn [fst] in E2.
    exfalso. apply (Hp i). replace pid with k by lia. exact E1. }
  unfold addMessage. cbn [add_loop]. rewrite Rb. cbn [mrun rbind]. unfold getSimpleProducer. rewrite Hpid.
  replace (zlen (m_meta m) =? 0) with false by lia. rewrite Hq. unfold getLeaderID. rewrite Hm, Rc. split.
  - intros He. replace (ec =? 0) with false by lia. destruct (code_error ec) eqn:Ce; [reflexivity|].
    exfalso. apply He. unfold code_error in Ce. destruct (ec =? 0) eqn:E0; [lia|]. repeat (destruct (_ : bool) in Ce; try discriminate).
  - intros -> m' e t H. cbn [Z.eqb] in H. destruct (existsb (Z.eqb leader) (m_lead m)); cbv zeta iota beta in H; rewrite Rt in H; cbn [mrun rbind] in H; rb H x Ex;
      unfold on_sp in Ex; cbn [m_sps] in Ex; rewrite nth_error_app2 in Ex by lia; rewrite Nat.sub_diag in Ex; cbn [nth_error x_sp] in Ex; rb Ex y Ey; injection Ex as <-; cbn [fst snd] in H;
      unfold sadd in Ey; cbn [sp0 s_closed s_recs app] in Ey;
      (match type of Ey with (if ?c then _ else _) = _ => destruct c end; [rb Ey a Ea|]); injection Ey as <-; cbn [fst snd] in H;
      cbn [m_sps] in H; rewrite nth_error_app2 in H by lia; rewrite Nat.sub_diag in H; cbn [nth_error option_map x_part x_leader] in H; injection H as _ <- <-; split; reflexivity.
Qed.
