(** What a command line says, independently of the parser. *)
From Coq Require Import String Ascii.
From Verif Require Import Base Text Flags.

(** ** A value as text.  Numbers in decimal notation without superfluous zeros, lists with
    commas between their elements. *)
Inductive means : ftype -> bytes -> fval -> Prop :=
| M_text s : means FText s (VText s)
| M_true s : In s (map word ["1"; "t"; "T"; "TRUE"; "true"; "True"]%string) -> means FBool s (VBool true)
| M_false s : In s (map word ["0"; "f"; "F"; "FALSE"; "false"; "False"]%string) -> means FBool s (VBool false)
| M_int bits z : 0 < bits <= 64 -> - 2 ^ (bits - 1) <= z < 2 ^ (bits - 1) -> means (FInt bits) (decimal z) (VNum z)
| M_goint z : - 2 ^ 63 <= z < 2 ^ 63 -> means FGoInt (decimal z) (VNum z)
| M_uint bits z : 0 <= bits < 64 -> 0 <= z < 2 ^ bits -> means (FUint bits) (decimal z) (VNum z)
| M_goints l : l <> [] -> Forall (fun z => - 2 ^ 63 <= z < 2 ^ 63) l -> means (FInts 0) (join 44 (map decimal l)) (VNums l)
| M_ints bits l : 0 < bits <= 64 -> l <> [] -> Forall (fun z => - 2 ^ (bits - 1) <= z < 2 ^ (bits - 1)) l ->
    means (FInts bits) (join 44 (map decimal l)) (VNums l)
| M_texts l : Forall (fun w => ~ In 44 w /\ ~ In 34 w /\ ~ In 10 w /\ ~ In 13 w) l -> l <> [[]] -> means FTexts (join 44 l) (VTexts l)
| M_array s : means FArray s (VTexts [s]).

(** ** The ways to write a flag: --name=value, --name value, -n=value, -n value, -nvalue, --name, -n *)
Inductive style := LongEq | LongSp | ShortEq | ShortSp | Glued | Bare | BareShort.
(** a flag as given by the user: the way it is written, the text, the value it stands for *)
Definition item := (flag * (style * (bytes * fval)))%type.
Definition it_flag (i : item) : flag := fst i.
Definition it_value (i : item) : fval := snd (snd (snd i)).
Definition letter (f : flag) : bytes := match fl_short f with Some l => word l | None => [] end.
Definition render (i : item) : list bytes :=
  let '(f, (sty, (s, _))) := i in
  let long := word "--" ++ word (fl_name f) in
  let short := word "-" ++ letter f in
  match sty with
  | LongEq => [long ++ word "=" ++ s]
  | LongSp => [long; s]
  | ShortEq => [short ++ word "=" ++ s]
  | ShortSp => [short; s]
  | Glued => [short ++ s]
  | Bare => [long]
  | BareShort => [short]
  end.
Definition has_letter (f : flag) : Prop := fl_short f <> None.
Definition item_ok (i : item) : Prop :=
  let '(f, (sty, (s, v))) := i in
  match sty with
  | LongEq => means (fl_type f) s v
  | LongSp => means (fl_type f) s v /\ fl_type f <> FBool
  | ShortEq => means (fl_type f) s v /\ has_letter f /\ s <> []
  | ShortSp => means (fl_type f) s v /\ has_letter f /\ fl_type f <> FBool
  | Glued => means (fl_type f) s v /\ has_letter f /\ fl_type f <> FBool /\ match s with [] => False | c :: _ => c <> 61 end
  | Bare => fl_type f = FBool /\ v = VBool true
  | BareShort => fl_type f = FBool /\ v = VBool true /\ has_letter f
  end.

(** ** What the flags are then: the last value given, or the default; lists grow *)
Definition values (f : flag) (l : list item) : list fval :=
  map it_value (filter (fun i => String.eqb (fl_name (it_flag i)) (fl_name f)) l).
Definition nums (v : fval) : list Z := match v with VNums l => l | _ => [] end.
Definition texts (v : fval) : list bytes := match v with VTexts l => l | _ => [] end.
Definition final (f : flag) (vs : list fval) : fval :=
  match vs with
  | [] => fl_default f
  | _ =>
      match fl_type f with
      | FInts _ => VNums (flat_map nums vs)
      | FTexts | FArray => VTexts (flat_map texts vs)
      | _ => last vs (fl_default f)
      end
  end.

(** ** Values of a type: numbers fit *)
Definition typed (t : ftype) (v : fval) : Prop :=
  match t, v with
  | FText, VText _ | FBool, VBool _ | FTexts, VTexts _ | FArray, VTexts _ => True
  | FInt bits, VNum n => - 2 ^ (bits - 1) <= n < 2 ^ (bits - 1)
  | FGoInt, VNum n => - 2 ^ 63 <= n < 2 ^ 63
  | FUint bits, VNum n => 0 <= n < 2 ^ bits
  | FInts 0, VNums l => Forall (fun n => - 2 ^ 63 <= n < 2 ^ 63) l
  | FInts bits, VNums l => Forall (fun n => - 2 ^ (bits - 1) <= n < 2 ^ (bits - 1)) l
  | _, _ => False
  end.
(** no flag is named so *)
Definition unknown (c : command) (n : bytes) : Prop := ~ In n (map (fun f => word (fl_name f)) (all_flags c)).

(** all flags are ones of the command, each well written *)
Definition given (c : command) (l : list item) : Prop := Forall (fun i => In (it_flag i) (all_flags c) /\ item_ok i) l.
(** help is not asked for *)
Definition no_help (l : list item) : Prop := forall i, In i l -> fl_name (it_flag i) <> "help"%string.
(** the required flags are given *)
Definition complete (c : command) (l : list item) : Prop := forall n, In n (cm_required c) -> exists i, In i l /\ fl_name (it_flag i) = n.

(** ** The lines get-metadata prints: a line for every broker and one for every partition, with the
    address of the broker that is its leader *)
Definition shows_broker (b : Z * (bytes * Z)) (line : bytes) : Prop :=
  let '(id, (host, port)) := b in
  exists addr, line = join 32 [decimal id; addr] /\
    (~ In 58 host /\ addr = join 58 [host; decimal port] \/ In 58 host /\ addr = word "[" ++ host ++ word "]:" ++ decimal port).
Definition shows_partition (bs : list (Z * (bytes * Z))) (p : bytes * (Z * Z)) (line : bytes) : Prop :=
  let '(topic, (id, leader)) := p in
  exists b addr, In b bs /\ fst b = leader /\ shows_broker b (join 32 [decimal leader; addr]) /\ line = join 32 [topic; decimal id; addr].
(** all partitions, in order *)
Definition partitions_of (r : cluster) : list (bytes * (Z * Z)) := flat_map (fun t => map (fun p => (fst t, p)) (snd t)) (cl_topics r).
(** hosts and topics are one-line texts, brokers have different ids, leaders are among the brokers *)
Definition cluster_ok (r : cluster) : Prop :=
  Forall (fun b => ~ In 10 (fst (snd b))) (cl_brokers r) /\ Forall (fun t => ~ In 10 (fst t)) (cl_topics r) /\
  NoDup (map fst (cl_brokers r)) /\ Forall (fun p => In (snd (snd p)) (map fst (cl_brokers r))) (partitions_of r).
