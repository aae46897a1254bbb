(** Properties of the broker list and the administrative client: C47-C51, C70-C76.

    [W], [dial], [exch], [ord]: the network, the brokers and Go's map iteration (Brokers.v);
    assumed of them is only that a range over a map visits its entries, and, where said, that
    a response is decoded by the decoder of the request's api. *)
From Verif Require Import Base BaseFacts Builders BuildersSpec Brokers BrokersSpec BrokersFacts BrokersMore BrokersLost BrokersRefute.

Definition visits {W} (ord : forall A : Type, W -> list A -> W * list A) : Prop :=
  forall A w l, Permutation (snd (ord A w l)) l.
Definition typed {W} (exch : W -> handle -> req -> W * (err + resp * option err)) : Prop :=
  forall w h q w' r e, exch w h q = (w', inr (r, e)) -> fits q r.


(** ** C47.  Metadata requests fail over.
    [failover]: the brokers of the list are tried one after the other in some order, each
    once, until an answer decides; [last] is that answer. *)
Theorem C47_metadata : forall (W : Type) (dial : W -> bytes -> W * dres) (exch : W -> handle -> req -> W * (err + resp * option err)) (ord : forall A : Type, W -> list A -> W * list A),
  visits ord ->
  forall s ts s' r e, RequestMetaData W dial exch ord s ts = (s', (r, e)) ->
  exists order evs last,
  Permutation order (map fst (b_info W s)) /\ b_tr W s' = b_tr W s ++ evs /\
  failover (QMeta ts) meta_decides order evs last /\
  match last with
  | Some a => match fst a with Some (RMeta m) => r = m | _ => r = meta0 end /\ e = snd a
  | None => e = Some ENoBroker
  end.
Proof. exact meta_failover. Qed.
Print Assumptions C47_metadata.
Theorem C47_coordinator : forall (W : Type) (dial : W -> bytes -> W * dres) (exch : W -> handle -> req -> W * (err + resp * option err)) (ord : forall A : Type, W -> list A -> W * list A),
  visits ord ->
  forall s g s' r, FindCoordinator W dial exch ord s g = (s', r) ->
  exists order evs last,
  Permutation order (map fst (b_info W s)) /\ b_tr W s' = b_tr W s ++ evs /\
  failover (QCoord g) no_error order evs last /\
  match last with
  | Some a => r = Ok (match fst a with Some (RCoord n) => n | _ => 0 end)
  | None => r = Err E_no_coordinator
  end.
Proof. exact coord_failover. Qed.
Print Assumptions C47_coordinator.
Theorem C47_request : forall (W : Type) (dial : W -> bytes -> W * dres) (exch : W -> handle -> req -> W * (err + resp * option err)) (ord : forall A : Type, W -> list A -> W * list A),
  visits ord ->
  forall s q s' r, Request W dial exch ord s q = (s', r) ->
  exists order evs last,
  Permutation order (map fst (b_info W s)) /\ b_tr W s' = b_tr W s ++ evs /\
  failover q no_error order evs last /\
  match last with
  | Some a => r = Ok (fst a)
  | None => r = Err E_all_failed
  end.
Proof. exact request_failover. Qed.
Print Assumptions C47_request.
(** The first broker times out, the second answers. *)
Definition late (w : nat) (a : bytes) (q : req) : option err :=
  match q with QMeta (_ :: _) => if bytes_eq_dec a [97] then Some ETimeout else None | _ => None end.
Definition late_c : cluster := mkC (fun _ => meta1) late.
Example C47_ex : let s := fst (c_new late_c [[97]]) in
  let r := RequestMetaData nat c_dial (c_exch late_c) c_ord s [[116]] in
  snd r = (meta1, None) /\
  b_tr nat (fst r) = b_tr nat s ++ [EvGet 1 (inl (mkH 0 (-1) [97])); EvAsk (mkH 0 (-1) [97]) (QMeta [[116]]) (None, Some ETimeout);
                     EvOpen 1; EvGet 2 (inl (mkH 1 2 [98])); EvAsk (mkH 1 2 [98]) (QMeta [[116]]) (Some (RMeta meta1), None)].
Proof. vm_compute. split; reflexivity. Qed.
(** All time out, or a broker reports an error: that is the error. *)
Example C47_ex2 :
  snd (snd (RequestMetaData nat c_dial (c_exch (mkC (fun _ => meta1) (fun w a q => match q with QMeta (_ :: _) => Some ETimeout | _ => None end)))
    c_ord (fst (c_new steady [[97]])) [[116]])) = Some ENoBroker /\
  snd (snd (RequestMetaData nat c_dial (c_exch refused_c) c_ord (fst (c_new refused_c [[97]])) [[116]])) = Some (EWrap (EKafka 58)).
Proof. vm_compute. split; reflexivity. Qed.

(** ** C48.  Offset queries ask each partition's leader exactly once. *)
Theorem C48_all : forall (W : Type) (dial : W -> bytes -> W * dres) (exch : W -> handle -> req -> W * (err + resp * option err)) (ord : forall A : Type, W -> list A -> W * list A),
  visits ord -> typed exch ->
  forall s t pid time num s1 m t0 ps ts s' rs,
  pid < 0 -> RequestMetaData W dial exch ord s [t] = (s1, (m, None)) -> m_topics m = (t0, ps) :: ts -> NoDup (map fst ps) ->
  RequestOffsets W dial exch ord s t pid time num = (s', Ok rs) ->
  exists evs done, b_tr W s' = b_tr W s1 ++ evs /\ seen evs = flat_map (asked_evs t time num) done /\
  rs = map a_answer done /\ NoDup (map a_leader done) /\
  Permutation (pairs (map (fun x => (a_leader x, a_pids x)) done)) (map (fun p => (fst (snd p), fst p)) ps).
Proof. exact offsets_all. Qed.
Print Assumptions C48_all.
Theorem C48_all_error : forall (W : Type) (dial : W -> bytes -> W * dres) (exch : W -> handle -> req -> W * (err + resp * option err)) (ord : forall A : Type, W -> list A -> W * list A),
  visits ord -> typed exch ->
  forall s t pid time num s1 m t0 ps ts s' e,
  pid < 0 -> RequestMetaData W dial exch ord s [t] = (s1, (m, None)) -> m_topics m = (t0, ps) :: ts -> NoDup (map fst ps) ->
  RequestOffsets W dial exch ord s t pid time num = (s', Err e) ->
  exists evs done last rest, b_tr W s' = b_tr W s1 ++ evs /\
  seen evs = flat_map (asked_evs t time num) done ++ last /\
  ((exists n e, last = [EvGet n (inr e)]) \/
  (exists n h pids o l', last = [EvGet n (inl h); EvAsk h (QOffsets t pids time num) o] /\ snd o <> None /\
  rest = (n, pids) :: l')) /\
  Permutation (pairs (map (fun x => (a_leader x, a_pids x)) done ++ rest)) (map (fun p => (fst (snd p), fst p)) ps).
Proof. exact offsets_all_err. Qed.
Print Assumptions C48_all_error.
Theorem C48_one : forall (W : Type) (dial : W -> bytes -> W * dres) (exch : W -> handle -> req -> W * (err + resp * option err)) (ord : forall A : Type, W -> list A -> W * list A),
  visits ord -> typed exch ->
  forall s t pid time num s1 m t0 ps ts s' r,
  0 <= pid -> RequestMetaData W dial exch ord s [t] = (s1, (m, None)) -> m_topics m = (t0, ps) :: ts ->
  RequestOffsets W dial exch ord s t pid time num = (s', r) ->
  (r = Err E_no_partition /\ ~ In pid (map fst ps) /\ s' = s1) \/
  exists leader rs evs, In (pid, (leader, rs)) ps /\ b_tr W s' = b_tr W s1 ++ evs /\
  ((exists e, seen evs = [EvGet leader (inr e)] /\ r = Err (EWrap e)) \/
  (exists h o, seen evs = [EvGet leader (inl h); EvAsk h (QOffsets t [pid] time num) o] /\
  match snd o with
  | Some e => r = Err e
  | None => exists a, fst o = Some (ROffsets a) /\ r = Ok [a]
  end)).
Proof. exact offsets_one. Qed.
Print Assumptions C48_one.
Example C48_ex : let s := fst (c_new steady [[97]]) in
  snd (RequestOffsets nat c_dial (c_exch steady) c_ord s [116] (-1) (-1) 1) = Ok [[(0, [100]); (2, [102])]; [(1, [101])]] /\
  snd (RequestOffsets nat c_dial (c_exch steady) c_ord s [116] 1 (-1) 1) = Ok [[(1, [101])]] /\
  snd (RequestOffsets nat c_dial (c_exch steady) c_ord s [116] 3 (-1) 1) = Err E_no_partition.
Proof. vm_compute. repeat split; reflexivity. Qed.

(** ** C49.  Broker handles follow the cluster metadata: false once an address changes, the
    cached handle is never replaced. *)
Theorem C49_refuted : exists W dial exch (ord : forall A : Type, W -> list A -> W * list A),
  visits ord /\
  typed exch /\
  exists w boot s l n s' h, NewBrokers W dial exch w boot = (s, None) /\
    GetBroker W dial exch ord (calls W dial exch ord s l) n = (s', inl h) /\
    exists a, get n (b_info W s') = Some a /\ h_addr h <> a.
Proof. exact handle_refuted. Qed.
Print Assumptions C49_refuted.
(** It holds for the first lookup of a node ... *)
Theorem C49_first_lookup_partial : forall (W : Type) (dial : W -> bytes -> W * dres) (exch : W -> handle -> req -> W * (err + resp * option err)) (ord : forall A : Type, W -> list A -> W * list A),
  visits ord ->
  forall s n s1 h, GetBroker W dial exch ord s n = (s1, inl h) -> get n (b_cache W s) = None ->
  h_node h = n /\ get n (b_info W s1) = Some (h_addr h).
Proof. exact fresh_handle. Qed.
Print Assumptions C49_first_lookup_partial.
(** ... and for all if the cluster never changes addresses. *)
Theorem C49_stable_partial : forall (W : Type) (dial : W -> bytes -> W * dres) (exch : W -> handle -> req -> W * (err + resp * option err)) (ord : forall A : Type, W -> list A -> W * list A),
  visits ord -> forall addr : Z -> bytes,
  (forall w h q w' m e, exch w h q = (w', inr (RMeta m, e)) -> forall n a, In (n, a) (m_brokers m) -> a = addr n) ->
  forall w boot s l n s' h, NewBrokers W dial exch w boot = (s, None) ->
  GetBroker W dial exch ord (calls W dial exch ord s l) n = (s', inl h) -> h_addr h = addr n.
Proof. exact right_handle. Qed.
Print Assumptions C49_stable_partial.
Example C49_ex : snd (c_get steady (c_calls steady (fst (c_new steady [[97]])) [OGet 3; OGet 9]) 2) = inl (mkH 4 2 [98]).
Proof. vm_compute. reflexivity. Qed.

(** ** C50.  Group listings are attributed to the right broker: false, those of the
    bootstrap broker are listed under -1. *)
Theorem C50_refuted : exists W dial exch (ord : forall A : Type, W -> list A -> W * list A),
  visits ord /\
  typed exch /\
  exists w boot s s' out, NewBrokers W dial exch w boot = (s, None) /\
    ListGroups W dial exch ord s = (s', Ok (out, None)) /\
    exists n g, (exists h, In (EvGet n (inl h)) (b_tr W s') /\ In (EvAsk h QListGroups (Some (RGroups [g]), None)) (b_tr W s')) /\
                get n out = None /\ get (-1) out = Some [g] /\ get (-1) (b_info W s') = None.
Proof. exact groups_refuted. Qed.
Print Assumptions C50_refuted.
(** With [proper] handles the listing has exactly the groups of every broker. *)
Theorem C50_proper_partial : forall (W : Type) (dial : W -> bytes -> W * dres) (exch : W -> handle -> req -> W * (err + resp * option err)) (ord : forall A : Type, W -> list A -> W * list A),
  visits ord -> typed exch ->
  forall s s' out, proper s -> NoDup (map fst (b_info W s)) -> ListGroups W dial exch ord s = (s', Ok (out, None)) ->
  exists evs done, b_tr W s' = b_tr W s ++ evs /\ seen evs = flat_map listed_evs done /\
  Permutation (map l_node done) (map fst (b_info W s)) /\
  forall n gs, get n out = Some gs <-> gs <> [] /\ exists h, In (mkListed n h gs) done.
Proof. exact groups_ok. Qed.
Print Assumptions C50_proper_partial.
(** Handles are proper, and every node is listed once, in any history of a client whose
    bootstrap addresses are not the ones the cluster advertises. *)
Theorem C50_foreign_partial : forall (W : Type) (dial : W -> bytes -> W * dres) (exch : W -> handle -> req -> W * (err + resp * option err)) (ord : forall A : Type, W -> list A -> W * list A),
  visits ord ->
  forall w boot s e l, foreign exch boot -> NewBrokers W dial exch w boot = (s, e) -> proper (calls W dial exch ord s l).
Proof. exact proper_always. Qed.
Print Assumptions C50_foreign_partial.
Theorem C50_once_partial : forall (W : Type) (dial : W -> bytes -> W * dres) (exch : W -> handle -> req -> W * (err + resp * option err)) (ord : forall A : Type, W -> list A -> W * list A),
  visits ord ->
  forall w boot s e l, NewBrokers W dial exch w boot = (s, e) -> NoDup (map fst (b_info W (calls W dial exch ord s l))).
Proof. exact once_always. Qed.
Print Assumptions C50_once_partial.
Example C50_ex : snd (ListGroups nat c_dial (c_exch steady) c_ord (fst (c_new steady [[122]]))) =
  Ok ([(1, [[97]]); (2, [[98]]); (3, [[99]])], None).
Proof. vm_compute. reflexivity. Qed.

(** ** C51.  Failed administrative calls report errors: false for deleting topics and
    leaving groups. *)
Theorem C51_delete_topics_refuted : exists W dial exch (ord : forall A : Type, W -> list A -> W * list A),
  visits ord /\
  typed exch /\
  exists w boot s s', NewBrokers W dial exch w boot = (s, None) /\ DeleteTopics W dial exch ord s = (s', Panic).
Proof. exact deltopics_refuted. Qed.
Print Assumptions C51_delete_topics_refuted.
Theorem C51_leave_refuted : exists (W : Type) dial exch,
  typed exch /\
  exists w boot s s' h, NewBrokers W dial exch w boot = (s, None) /\ In (1, h) (b_cache W s) /\
    requestLeaveGroup W exch s h [103] [109] = (s', Panic).
Proof. exact leave_refuted. Qed.
Print Assumptions C51_leave_refuted.
(** They crash exactly if no response came. *)
Theorem C51_delete_topics_partial : forall (W : Type) (dial : W -> bytes -> W * dres) (exch : W -> handle -> req -> W * (err + resp * option err)) (ord : forall A : Type, W -> list A -> W * list A),
  visits ord -> typed exch ->
  forall s s' r, DeleteTopics W dial exch ord s = (s', r) ->
  r = Panic <-> exists evs h e, b_tr W s' = b_tr W s ++ evs /\
  seen evs = [EvGet (b_ctl W s) (inl h); EvAsk h (QAdmin 20) (None, Some e)].
Proof. exact deltopics_ok. Qed.
Print Assumptions C51_delete_topics_partial.
Theorem C51_delete_topics_result_partial : forall (W : Type) (dial : W -> bytes -> W * dres) (exch : W -> handle -> req -> W * (err + resp * option err)) (ord : forall A : Type, W -> list A -> W * list A),
  visits ord -> typed exch ->
  forall s s' b e, DeleteTopics W dial exch ord s = (s', Ok (b, e)) ->
  exists evs, b_tr W s' = b_tr W s ++ evs /\
  ((exists e0, seen evs = [EvGet (b_ctl W s) (inr e0)] /\ e = Some e0) \/
  exists h, seen evs = [EvGet (b_ctl W s) (inl h); EvAsk h (QAdmin 20) (Some (RAdmin 20 b), e)]).
Proof. exact deltopics_result. Qed.
Print Assumptions C51_delete_topics_result_partial.
Theorem C51_leave_partial : forall (W : Type) (exch : W -> handle -> req -> W * (err + resp * option err)),
  typed exch ->
  forall s h g m s' r, requestLeaveGroup W exch s h g m = (s', r) ->
  exists o, b_tr W s' = b_tr W s ++ [EvAsk h (QLeave g m) o] /\
  match o with
  | (Some (RLeave c), e) => r = Ok (c, e)
  | (None, Some _) => r = Panic
  | _ => False
  end.
Proof. exact leave_ok. Qed.
Print Assumptions C51_leave_partial.
(** The other calls to the controller never do. *)
Theorem C51_controller_partial : forall (W : Type) (dial : W -> bytes -> W * dres) (exch : W -> handle -> req -> W * (err + resp * option err)) (ord : forall A : Type, W -> list A -> W * list A),
  visits ord -> typed exch ->
  forall s k s' r, controller_call W dial exch ord s k = (s', r) ->
  r <> Panic /\ r <> Unspec /\
  exists evs, b_tr W s' = b_tr W s ++ evs /\
  ((exists e, seen evs = [EvGet (b_ctl W s) (inr e)] /\ r = Err e) \/
  exists h o, seen evs = [EvGet (b_ctl W s) (inl h); EvAsk h (QAdmin k) o] /\
  match o with
  | (Some (RAdmin _ b), None) => r = Ok b
  | (_, Some e) => r = Err e
  | _ => False
  end).
Proof. exact controller_ok. Qed.
Print Assumptions C51_controller_partial.
Example C51_ex : snd (DeleteTopics nat c_dial (c_exch steady) c_ord (fst (c_new steady [[97]]))) = Ok ([97], None) /\
  snd (controller_call nat c_dial (c_exch slow_c) c_ord (fst (c_new slow_c [[97]])) 19) = Err ETimeout.
Proof. vm_compute. split; reflexivity. Qed.

(** ** C70.  Looking up a leader never crashes: false. *)
Theorem C70_refuted : exists W dial exch (ord : forall A : Type, W -> list A -> W * list A),
  visits ord /\
  typed exch /\
  (forall w h q w' m e, exch w h q = (w', inr (RMeta m, e)) -> m_topics m <> []) /\
  exists w boot s s', NewBrokers W dial exch w boot = (s, None) /\ findLeader W dial exch ord s [116] 0 = (s', Panic).
Proof. exact leader_refuted. Qed.
Print Assumptions C70_refuted.
Theorem C70_empty_refuted : exists W dial exch (ord : forall A : Type, W -> list A -> W * list A),
  visits ord /\
  typed exch /\
  exists w boot s s', NewBrokers W dial exch w boot = (s, None) /\ findLeader W dial exch ord s [116] 0 = (s', Panic) /\
    exists s'', RequestOffsets W dial exch ord s [116] 0 0 1 = (s'', Panic).
Proof. exact leader_empty_refuted. Qed.
Print Assumptions C70_empty_refuted.
(** It crashes exactly if there is no topic in the response it has; what it finds is what
    the response says. *)
Theorem C70_leader_partial : forall (W : Type) (dial : W -> bytes -> W * dres) (exch : W -> handle -> req -> W * (err + resp * option err)) (ord : forall A : Type, W -> list A -> W * list A),
  forall s t p s' r, findLeader W dial exch ord s t p = (s', r) ->
  exists m e, RequestMetaData W dial exch ord s [t] = (s', (m, e)) /\
  match e with
  | Some e' => if reported e' then True else r = Err (EWrap e')
  | None => True
  end /\
  (forall l, r = Ok l -> exists t0 ps ts rs, m_topics m = (t0, ps) :: ts /\ In (p, (l, rs)) ps) /\
  (r = Panic <-> m_topics m = [] /\ match e with Some e' => reported e' = true | None => True end).
Proof. exact leader_ok. Qed.
Print Assumptions C70_leader_partial.
Theorem C70_safe_partial : forall (W : Type) (dial : W -> bytes -> W * dres) (exch : W -> handle -> req -> W * (err + resp * option err)) (ord : forall A : Type, W -> list A -> W * list A),
  typed exch ->
  forall s t p s' r,
  (forall w h q w' m e, exch w h q = (w', inr (RMeta m, e)) -> q = QMeta [t] -> m_topics m <> []) ->
  (forall w h q w' e, exch w h q = (w', inl e) -> reported e = false) ->
  findLeader W dial exch ord s t p = (s', r) -> r <> Panic /\ r <> Unspec.
Proof. exact leader_safe. Qed.
Print Assumptions C70_safe_partial.
Example C70_ex : snd (findLeader nat c_dial (c_exch steady) c_ord (fst (c_new steady [[97]])) [116] 1) = Ok 2 /\
  snd (findLeader nat c_dial (c_exch steady) c_ord (fst (c_new steady [[97]])) [116] 7) = Err E_no_leader.
Proof. vm_compute. split; reflexivity. Qed.

(** ** C71.  One connection per broker: once looked up, every later lookup of the node gives
    the same handle and opens nothing, whatever is called in between. *)
Theorem C71_same_handle : forall (W : Type) (dial : W -> bytes -> W * dres) (exch : W -> handle -> req -> W * (err + resp * option err)) (ord : forall A : Type, W -> list A -> W * list A),
  visits ord ->
  forall s n s1 h l, GetBroker W dial exch ord s n = (s1, inl h) ->
  let s2 := calls W dial exch ord s1 l in
  snd (GetBroker W dial exch ord s2 n) = inl h /\ b_tr W (fst (GetBroker W dial exch ord s2 n)) = b_tr W s2 ++ [EvGet n (inl h)].
Proof. exact same_handle. Qed.
Print Assumptions C71_same_handle.
Example C71_ex : let s := c_calls (moved 5) (fst (c_new (moved 5) [[97]])) [OGet 2] in
  snd (c_get (moved 5) s 2) = inl (mkH 1 2 [98]) /\
  snd (c_get (moved 5) (c_calls (moved 5) s [OGet 3; OGet 4; OGroups; OLogDirs [[116]]]) 2) = inl (mkH 1 2 [98]).
Proof. vm_compute. split; reflexivity. Qed.

(** ** C72.  Administrative requests go to the current controller: false, it is never
    updated. *)
Theorem C72_refuted : exists W dial exch (ord : forall A : Type, W -> list A -> W * list A),
  visits ord /\
  typed exch /\
  exists w boot s l s1 h m s' b, NewBrokers W dial exch w boot = (s, None) /\
    s1 = calls W dial exch ord s l /\
    (exists before, b_tr W s1 = before ++ [EvAsk h (QMeta []) (Some (RMeta m), None)]) /\
    controller_call W dial exch ord s1 19 = (s', Ok b) /\
    exists h', In (EvAsk h' (QAdmin 19) (Some (RAdmin 19 b), None)) (b_tr W s') /\
               get (m_ctl m) (m_brokers m) <> Some (h_addr h').
Proof. exact controller_refuted. Qed.
Print Assumptions C72_refuted.
Theorem C72_constant : forall (W : Type) (dial : W -> bytes -> W * dres) (exch : W -> handle -> req -> W * (err + resp * option err)) (ord : forall A : Type, W -> list A -> W * list A),
  visits ord ->
  forall s l, b_ctl W (calls W dial exch ord s l) = b_ctl W s.
Proof. exact ctl_const. Qed.
Print Assumptions C72_constant.
(** The controller named by the metadata the client started with is asked: [C51_controller_partial]
    together with the above. *)
Theorem C72_first_controller_partial : forall (W : Type) (dial : W -> bytes -> W * dres) (exch : W -> handle -> req -> W * (err + resp * option err)) (ord : forall A : Type, W -> list A -> W * list A),
  visits ord -> typed exch -> forall s l k s' r, controller_call W dial exch ord (calls W dial exch ord s l) k = (s', r) ->
  exists evs, b_tr W s' = b_tr W (calls W dial exch ord s l) ++ evs /\
    ((exists e, seen evs = [EvGet (b_ctl W s) (inr e)] /\ r = Err e) \/
     exists h o, seen evs = [EvGet (b_ctl W s) (inl h); EvAsk h (QAdmin k) o] /\
       match o with
       | (Some (RAdmin _ b), None) => r = Ok b
       | (_, Some e) => r = Err e
       | _ => False
       end).
Proof. exact controller_first. Qed.
Print Assumptions C72_first_controller_partial.
Example C72_ex : b_ctl nat (c_calls steady (fst (c_new steady [[97]])) [OGet 9; OMeta []]) = 1.
Proof. vm_compute. reflexivity. Qed.

(** ** C73.  Connections a client opens are closed when it is closed: false. *)
Theorem C73_refuted : exists W dial exch (ord : forall A : Type, W -> list A -> W * list A),
  visits ord /\
  typed exch /\
  exists w boot s l i j, NewBrokers W dial exch w boot = (s, None) /\
    i <> j /\ lost (CloseAll W (calls W dial exch ord s l)) i /\ lost (CloseAll W (calls W dial exch ord s l)) j.
Proof. exact leak_refuted. Qed.
Print Assumptions C73_refuted.
Theorem C73_bootstrap_refuted : exists W dial exch (ord : forall A : Type, W -> list A -> W * list A),
  visits ord /\
  typed exch /\
  exists w boot s i, NewBrokers W dial exch w boot = (s, None) /\ lost (CloseAll W s) i.
Proof. exact leak_boot_refuted. Qed.
Print Assumptions C73_bootstrap_refuted.
(** Every refresh that works loses a connection for good. *)
Theorem C73_every_refresh : forall (W : Type) (dial : W -> bytes -> W * dres) (exch : W -> handle -> req -> W * (err + resp * option err)) (ord : forall A : Type, W -> list A -> W * list A),
  visits ord ->
  forall w boot s0 e l s s' l', NewBrokers W dial exch w boot = (s0, e) ->
  s = calls W dial exch ord s0 l -> refresh W dial exch ord s = (s', true) ->
  exists i, ~ opened (b_tr W s) i /\ lost s' i /\ lost (CloseAll W (calls W dial exch ord s' l')) i.
Proof. exact refresh_loses. Qed.
Print Assumptions C73_every_refresh.
(** Cached handles are closed, and a lookup of a known node that succeeds loses nothing. *)
Theorem C73_cached_partial : forall (W : Type),
  forall s n h, In (n, h) (b_cache W s) -> closed (b_tr W (CloseAll W s)) (h_id h).
Proof. exact close_all_closes. Qed.
Print Assumptions C73_cached_partial.
Theorem C73_lookup_partial : forall (W : Type) (dial : W -> bytes -> W * dres) (exch : W -> handle -> req -> W * (err + resp * option err)) (ord : forall A : Type, W -> list A -> W * list A),
  forall s n s' h i, get n (b_info W s) <> None -> GetBroker W dial exch ord s n = (s', inl h) ->
  lost s' i -> lost s i.
Proof. exact get_loses_nothing. Qed.
Print Assumptions C73_lookup_partial.
Example C73_ex : let s := CloseAll nat (c_calls steady (fst (c_new steady [[97]])) [OGet 2; OGet 3]) in
  filter (fun e => match e with EvOpen _ | EvClose _ => true | _ => false end) (b_tr nat s) =
  [EvOpen 0; EvOpen 1; EvOpen 2; EvClose 0; EvClose 1; EvClose 2].
Proof. vm_compute. reflexivity. Qed.

(** ** C74.  Log directory descriptions cover all replicas: false, brokers that do not answer
    are left out, and naming no topic hides them all. *)
Theorem C74_missing_refuted : exists W dial exch (ord : forall A : Type, W -> list A -> W * list A),
  visits ord /\
  typed exch /\
  exists w boot s s' out b h q e, NewBrokers W dial exch w boot = (s, None) /\
    DescribeLogDirs W dial exch ord s [[116]] = (s', Ok out) /\
    In (EvGet b (inl h)) (b_tr W s') /\ In (EvAsk h (QLogDirs q) (None, Some e)) (b_tr W s') /\ get b out = None.
Proof. exact logdirs_refuted. Qed.
Print Assumptions C74_missing_refuted.
Theorem C74_all_topics_refuted : exists W dial exch (ord : forall A : Type, W -> list A -> W * list A),
  visits ord /\
  typed exch /\
  exists w boot s s' out h q rs, NewBrokers W dial exch w boot = (s, None) /\
    DescribeLogDirs W dial exch ord s [] = (s', Ok out) /\
    In (EvAsk h (QLogDirs q) (Some (RLogDirs rs), None)) (b_tr W s') /\ (exists d t, In d rs /\ In t (snd d)) /\
    forall b ds d, get b out = Some ds -> In d ds -> snd d = [].
Proof. exact logdirs_all_refuted. Qed.
Print Assumptions C74_all_topics_refuted.
(** Exactly the brokers with replicas are asked, once, about exactly their partitions; the
    result is what they answered for the topics named. *)
Theorem C74_log_dirs_partial : forall (W : Type) (dial : W -> bytes -> W * dres) (exch : W -> handle -> req -> W * (err + resp * option err)) (ord : forall A : Type, W -> list A -> W * list A),
  visits ord -> typed exch ->
  forall s ts s' out, DescribeLogDirs W dial exch ord s ts = (s', Ok out) ->
  exists s1 m evs done, RequestMetaData W dial exch ord s ts = (s1, (m, None)) /\
  b_tr W s' = b_tr W s1 ++ evs /\ seen evs = flat_map dirs_evs done /\
  NoDup (map d_broker done) /\
  (forall x, In x done -> unique_names (d_tps x)) /\
  (forall b t p, (exists ps l rs, In (t, ps) (m_topics m) /\ In (p, (l, rs)) ps /\ In b rs) <->
  exists x, In x done /\ d_broker x = b /\ names (d_tps x) t p) /\
  (forall b ds, get b out = Some ds <->
  exists x rs, In x done /\ d_broker x = b /\ d_out x = (Some (RLogDirs rs), None) /\ ds = restrict ts rs).
Proof. exact logdirs_ok. Qed.
Print Assumptions C74_log_dirs_partial.
Example C74_ex : snd (DescribeLogDirs nat c_dial (c_exch steady) c_ord (fst (c_new steady [[97]])) [[116]]) =
  Ok [(1, [([97], [([116], [97])])]); (2, [([98], [([116], [98])])]); (3, [([99], [([116], [99])])])].
Proof. vm_compute. reflexivity. Qed.

(** ** C75.  Deleting groups reports every group: false when one of the requests fails. *)
Theorem C75_refuted : exists W dial exch (ord : forall A : Type, W -> list A -> W * list A),
  visits ord /\
  typed exch /\
  exists w boot s s' e h, NewBrokers W dial exch w boot = (s, None) /\
    DeleteGroups W dial exch ord s [[103]; [104]] = (s', Err e) /\
    In (EvAsk h (QDeleteGroups [[103]]) (Some (RDeleted [([103], 0)]), None)) (b_tr W s').
Proof. exact delgroups_refuted. Qed.
Print Assumptions C75_refuted.
(** When it succeeds, every group was deleted at the broker its coordinator lookup named. *)
Theorem C75_success_partial : forall (W : Type) (dial : W -> bytes -> W * dres) (exch : W -> handle -> req -> W * (err + resp * option err)) (ord : forall A : Type, W -> list A -> W * list A),
  visits ord -> typed exch ->
  forall gs s s' out, DeleteGroups W dial exch ord s gs = (s', Ok out) ->
  exists evs done, b_tr W s' = b_tr W s ++ evs /\ seen evs = flat_map deleted_evs done /\
  map g_group done = gs /\ Forall (fun x => Forall (vain_ev (g_group x)) (g_tries x)) done /\
  out = flat_map g_results done.
Proof. exact delgroups_ok. Qed.
Print Assumptions C75_success_partial.
Example C75_ex : snd (DeleteGroups nat c_dial (c_exch steady) c_ord (fst (c_new steady [[97]])) [[103]; [104]]) =
  Ok [([103], 0); ([104], 0)].
Proof. vm_compute. reflexivity. Qed.

(** ** C76.  Broker configurations are asked of the broker named: false for numbers beyond
    32 bits. *)
Theorem C76_refuted : exists W dial exch (ord : forall A : Type, W -> list A -> W * list A),
  visits ord /\
  typed exch /\
  exists w boot s n s' b h, NewBrokers W dial exch w boot = (s, None) /\ get n (b_info W s) = None /\
    DescribeConfigs W dial exch ord s true (Some n) = (s', Ok b) /\ In (EvGet 1 (inl h)) (b_tr W s') /\
    In (EvAsk h (QAdmin 32) (Some (RAdmin 32 b), None)) (b_tr W s').
Proof. exact configs_refuted. Qed.
Print Assumptions C76_refuted.
Theorem C76_configs_partial : forall (W : Type) (dial : W -> bytes -> W * dres) (exch : W -> handle -> req -> W * (err + resp * option err)) (ord : forall A : Type, W -> list A -> W * list A),
  visits ord -> typed exch ->
  forall s n s' r, i32 n -> DescribeConfigs W dial exch ord s true (Some n) = (s', r) ->
  r <> Panic /\
  exists evs, b_tr W s' = b_tr W s ++ evs /\
  ((exists e, seen evs = [EvGet n (inr e)] /\ r = Err e) \/
  exists h o, seen evs = [EvGet n (inl h); EvAsk h (QAdmin 32) o] /\
  match o with
  | (Some (RAdmin _ b), None) => r = Ok b
  | (_, Some e) => r = Err e
  | _ => False
  end).
Proof. exact configs_ok. Qed.
Print Assumptions C76_configs_partial.
Example C76_ex : snd (DescribeConfigs nat c_dial (c_exch steady) c_ord (fst (c_new steady [[97]])) true (Some 3)) = Ok [99] /\
  snd (DescribeConfigs nat c_dial (c_exch steady) c_ord (fst (c_new steady [[97]])) true None) = Err E_not_number /\
  snd (DescribeConfigs nat c_dial (c_exch steady) c_ord (fst (c_new steady [[97]])) false None) = Ok [97].
Proof. vm_compute. repeat split; reflexivity. Qed.
