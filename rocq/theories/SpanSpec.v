(** Specification for the spans. *)
From Verif Require Import Base MemUtilModel SpanModel.

(** a window of a block: position of the first element and number of elements *)
Definition win := (Z * Z)%type.
(** what an operation selects, and when it may be called; [room] is the capacity *)
Definition picks (w : win) (o : sop) : win :=
  let '(o0, n0) := w in
  match o with
  | OSub f n => (o0 + f, n) | OSub1 f => (o0 + f, n0 - f)
  | ORange f l => (o0 + f, l - f) | ORange1 f => (o0 + f, n0 - f)
  | OFirst n => (o0, n) | OLast n => (o0 + n0 - n, n)
  | OResize z => (o0, z) | ORtrim n => (o0, n0 - n) | OLtrim n => (o0 + n, n0 - n)
  | OClear => (o0, 0)
  end.
Definition legal (room : Z) (w : win) (o : sop) : Prop :=
  let '(_, n0) := w in
  match o with
  | OSub f n => 0 <= f /\ 0 <= n /\ f + n <= n0
  | OSub1 f | ORange1 f => 0 <= f <= n0
  | ORange f l => 0 <= f /\ f <= l <= n0
  | OFirst n | OLast n => 0 <= n <= n0
  | OResize z => 0 <= z <= room
  | ORtrim n | OLtrim n => 0 <= n < n0
  | OClear => True
  end.
(** capacity left: up to the end of the block, except for a plain span *)
Definition room (k : skind) (total : Z) (w : win) : Z := match k with KSpan => snd w | _ => total - fst w end.
(** the arguments are values of the size type *)
Definition op_args (o : sop) : list Z :=
  match o with
  | OSub f n => [f; n] | ORange f l => [f; l]
  | OSub1 f | ORange1 f => [f] | OFirst n | OLast n => [n] | OResize z => [z] | ORtrim n | OLtrim n => [n] | OClear => []
  end.
Definition args_in (t : ity) (o : sop) : Prop := Forall (in_range t) (op_args o).
(** what the assertions do not check: negative counts, and an end that wraps around *)
Definition sane (t : ity) (o : sop) : Prop :=
  match o with
  | OSub f n => 0 <= n /\ f + n <= imax (promote t)
  | OResize z => 0 <= z
  | _ => True
  end.
(** [s] is the window [w] of the block of [total] elements at [base] *)
Definition stands (k : skind) (base total : Z) (w : win) (s : span) : Prop :=
  sp s = base + fst w /\ ssz s = snd w /\ scap s = room k total w /\ soff s = match k with KRsl => fst w | _ => 0 end.
Definition inside (total : Z) (w : win) : Prop := 0 <= fst w /\ 0 <= snd w /\ fst w + snd w <= total.

(** the elements, and that they are all in memory *)
Definition elements (m : list Z) (s : span) : list Z := slice m (sp s) (ssz s).
Definition sin (m : list Z) (s : span) : Prop := 0 <= sp s /\ 0 <= ssz s /\ sp s + ssz s <= len m.
(** dictionary order *)
Inductive lexlt : list Z -> list Z -> Prop :=
| lex_nil y b : lexlt [] (y :: b)
| lex_lt x a y b : x < y -> lexlt (x :: a) (y :: b)
| lex_eq x a b : lexlt a b -> lexlt (x :: a) (x :: b).
