(** Specification of dumping, independent of the model's functions. *)
From Verif Require Import Base FormatModel FormatSpec.

(** the buffer space an argument needs: strings are passed on without the buffer *)
Definition vsize (a : arg) (t : list Z) : Z := match a with AStr _ => 0 | _ => len t end.
Definition sizes (al : list arg) (ts : list (list Z)) : list Z := map (fun p => vsize (fst p) (snd p)) (combine al ts).
(** [n] is the largest of [l], 0 if there is none *)
Definition largest (n : Z) (l : list Z) : Prop := l = [] /\ n = 0 \/ In n l /\ Forall (fun x => x <= n) l.
(** an argument can be dumped with a buffer of length [n]; no string is dumped with an empty buffer *)
Definition fits (n : Z) (a : arg) (t : list Z) : Prop := match a with AStr _ => 0 < n | _ => len t <= n end.

(** the texts before the first argument that does not fit *)
Inductive fit_prefix (n : Z) : list arg -> list (list Z) -> list (list Z) -> Prop :=
| fx_nil : fit_prefix n [] [] []
| fx_stop a t al ts : ~ fits n a t -> fit_prefix n (a :: al) (t :: ts) []
| fx_go a t al ts r : fits n a t -> fit_prefix n al ts r -> fit_prefix n (a :: al) (t :: ts) (t :: r).
(** the texts of all arguments that fit *)
Inductive fit_some (n : Z) : list arg -> list (list Z) -> list (list Z) -> Prop :=
| fo_nil : fit_some n [] [] []
| fo_skip a t al ts r : ~ fits n a t -> fit_some n al ts r -> fit_some n (a :: al) (t :: ts) r
| fo_go a t al ts r : fits n a t -> fit_some n al ts r -> fit_some n (a :: al) (t :: ts) (t :: r).

(** the pieces of a format, empty literals left out *)
Definition lit (f : list Z) : list arg := match f with [] => [] | _ => [AStr f] end.
Inductive fmt_chunks : list Z -> list arg -> list arg -> Prop :=
| fc_noargs f : fmt_chunks f [] (lit f)
| fc_nohole f al : ~ has_placeholder f -> fmt_chunks f al (lit f)
| fc_hole f pre post a al out : first_placeholder f pre post -> fmt_chunks post al out ->
    fmt_chunks f (a :: al) (lit pre ++ a :: out).

(** an argument converted into the buffer, with a non-empty text *)
Definition solid (a : arg) (t : list Z) : Prop := 0 < vsize a t.
(** a buffer of length [n] is enough for every single argument *)
Definition enough_for (n : Z) (al : list arg) (ts : list (list Z)) : Prop := Forall2 (fun a t => vsize a t <= n) al ts.
