(** What the properties about connections say. *)
From Verif Require Import Base Brokers.

(** the connections made, closed, made and not closed *)
Definition made (tr : list ev) : list Z := flat_map (fun e => match e with EvOpen i => [i] | _ => [] end) tr.
Definition gone (tr : list ev) : list Z := flat_map (fun e => match e with EvClose i => [i] | _ => [] end) tr.
Definition open_now (tr : list ev) : list Z := filter (fun i => negb (existsb (Z.eqb i) (gone tr))) (made tr).
(** how many are open, of several traces *)
Definition open_count (trs : list (list ev)) : nat := length (flat_map open_now trs).
(** connections only used to ask for the brokers, when starting and when a node is not known *)
Definition probed (tr : list ev) : list Z := flat_map (fun e => match e with EvProbe h => [h_id h] | _ => [] end) tr.
