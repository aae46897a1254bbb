(** Model of helper.go: the groups of all brokers, as get-pending needs them.  Builds on the
    broker list of Brokers.v. *)
From Verif Require Import Base Brokers.

Section Helper.
  Variable W : Type.
  Variable dial : W -> bytes -> W * dres.
  Variable exch : W -> handle -> req -> W * (err + resp * option err).
  Variable ord : forall A : Type, W -> list A -> W * list A.

  (** helper.go:62-77: the loop over the brokers of the metadata.  [None]: nil is returned, the
      error is only logged.  The addresses in the metadata are not used.  broker.go:339-347
      RequestListGroups: [response.Groups] of anything but a ListGroupsResponse panics. *)
  Fixpoint gg (s : bst W) (l : list (Z * bytes)) (acc : list bytes) : bst W * res (option (list bytes)) :=
    match l with
    | [] => (s, Ok (Some acc))
    | (node, _) :: l' =>
        let '(s, g) := GetBroker W dial exch ord s node in
        match g with
        | inr _ => (s, Ok None)
        | inl h =>
            let '(s, (r, e)) := rag W exch s h QListGroups in
            match e with
            | Some _ => (s, Ok None)
            | None =>
                match r with
                | Some (RGroups gs) => gg s l' (acc ++ gs)
                | _ => (s, Panic)
                end
            end
        end
    end.
  (** helper.go:42-53 UpdateMeta, 55-80 GetGroups *)
  Definition GetGroups (s : bst W) : bst W * res (option (list bytes)) :=
    let '(s, (m, e)) := RequestMetaData W dial exch ord s [] in
    match e with
    | Some _ => (s, Ok None)
    | None => gg s (m_brokers m) []
    end.
End Helper.
