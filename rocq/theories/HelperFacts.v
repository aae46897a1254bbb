From Verif Require Import Base BaseFacts Brokers BrokersSpec BrokersFacts BrokersMore BrokersRefute Helper.

Section HelperFacts.
  Variable W : Type.
  Variable dial : W -> bytes -> W * dres.
  Variable exch : W -> handle -> req -> W * (err + resp * option err).
  Variable ord : forall A : Type, W -> list A -> W * list A.
  Hypothesis ord_perm : forall A w l, Permutation (snd (ord A w l)) l.
  Hypothesis exch_fits : forall w h q w' r e, exch w h q = (w', inr (r, e)) -> fits q r.
  Notation GetBroker := (GetBroker W dial exch ord).
  Notation rag := (rag W exch).

  Lemma gg_ok : forall l s acc s' r, gg W dial exch ord s l acc = (s', r) ->
    exists evs done rest, b_tr W s' = b_tr W s ++ evs /\ map fst l = map l_node done ++ rest /\
      match r with
      | Ok (Some gs) => rest = [] /\ seen evs = flat_map listed_evs done /\ gs = acc ++ flat_map l_groups done
      | Ok None => rest <> [] /\ exists last, seen evs = flat_map listed_evs done ++ last /\
          ((exists n e, last = [EvGet n (inr e)]) \/ exists n h o e, last = [EvGet n (inl h); EvAsk h QListGroups o] /\ snd o = Some e)
      | _ => False
      end.
  Proof using ord_perm exch_fits.
    induction l as [|[n a] l IH]; intros s acc s' r; cbn [gg].
    - intro H. injection H as <- <-. exists [], [], []. rewrite !app_nil_r. cbn. auto 10.
    - destruct (GetBroker s n) as [s1 g] eqn:EG. apply (GetBroker_ok W dial exch ord ord_perm) in EG. destruct EG as [G1 [[e1 [T1 S1]] M]].
      destruct g as [h|e].
      2:{ intro H. injection H as <- <-. exists e1, [], (map fst ((n, a) :: l)).
          split; [exact T1|]. split; [reflexivity|]. split; [discriminate|].
          exists [EvGet n (inr e)]. split; [exact S1|]. left. eauto. }
      destruct (rag s1 h QListGroups) as [s2 o] eqn:ER.
      pose proof (rag_fits W exch exch_fits _ _ _ _ _ (match fst o with Some r => r | None => RCoord 0 end) ER) as FF.
      apply rag_ok in ER. destruct ER as [G2 [T2 [_ [_ N]]]]. destruct o as [r1 e2]. cbn [fst snd] in *.
      destruct e2 as [e2|].
      + intro H. injection H as <- <-. exists (e1 ++ [EvAsk h QListGroups (r1, Some e2)]), [], (map fst ((n, a) :: l)).
        split; [rewrite T2, T1, app_assoc; reflexivity|]. split; [reflexivity|]. split; [discriminate|].
        exists [EvGet n (inl h); EvAsk h QListGroups (r1, Some e2)].
        split; [rewrite seen_app, S1; reflexivity|]. right. exists n, h, (r1, Some e2), e2. auto.
      + destruct r1 as [r1|]; [|exfalso; apply N; reflexivity]. specialize (FF eq_refl).
        destruct r1; cbn in FF; try contradiction. intro H.
        apply IH in H. destruct H as [evs [done [rest [T3 [M3 X]]]]].
        exists ((e1 ++ [EvAsk h QListGroups (Some (RGroups gs), None)]) ++ evs), (mkListed n h gs :: done), rest.
        split; [rewrite T3, T2, T1, !app_assoc; reflexivity|]. split; [cbn; rewrite M3; reflexivity|].
        assert (SS : seen ((e1 ++ [EvAsk h QListGroups (Some (RGroups gs), None)]) ++ evs) =
                     listed_evs (mkListed n h gs) ++ seen evs) by (rewrite !seen_app, S1; reflexivity).
        destruct r as [[gs'|]| | |]; try contradiction.
        * destruct X as [-> [Sx ->]]. split; [reflexivity|]. split; [rewrite SS, Sx; reflexivity|]. cbn. rewrite app_assoc. reflexivity.
        * destruct X as [R [last [Sx L]]]. split; [exact R|]. exists last. rewrite SS, Sx. split; [reflexivity|exact L].
  Qed.
  Lemma getgroups_ok : forall s s' r, GetGroups W dial exch ord s = (s', r) ->
    exists s1 m e, RequestMetaData W dial exch ord s [] = (s1, (m, e)) /\
      match e with
      | Some _ => s' = s1 /\ r = Ok None
      | None =>
          exists evs done rest, b_tr W s' = b_tr W s1 ++ evs /\ map fst (m_brokers m) = map l_node done ++ rest /\
          match r with
          | Ok (Some gs) => rest = [] /\ seen evs = flat_map listed_evs done /\ gs = flat_map l_groups done
          | Ok None => rest <> [] /\ exists last, seen evs = flat_map listed_evs done ++ last /\
              ((exists n e, last = [EvGet n (inr e)]) \/ exists n h o e, last = [EvGet n (inl h); EvAsk h QListGroups o] /\ snd o = Some e)
          | _ => False
          end
      end.
  Proof using ord_perm exch_fits.
    intros s s' r. unfold GetGroups. destruct (RequestMetaData W dial exch ord s []) as [s1 [m e]] eqn:EM.
    intro H. exists s1, m, e. split; [reflexivity|]. destruct e as [e|].
    - injection H as <- <-. auto.
    - apply gg_ok in H. exact H.
  Qed.
End HelperFacts.
