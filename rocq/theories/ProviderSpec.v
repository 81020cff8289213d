(** Independent notions for the memory resource providers and the counts. *)
From Verif Require Import Base MemResModel ProviderModel.

Definition got (r a : Z) (e : aevent) : bool := match e with GotFrom r' a' => (r =? r') && (a =? a') | _ => false end.
Definition gave (r a : Z) (e : aevent) : bool := match e with GaveTo r' a' => (r =? r') && (a =? a') | _ => false end.
Definition number (f : aevent -> bool) (es : list aevent) : Z := len (filter f es).
(** at every time, no resource has been given back an address more often than it handed it out *)
Definition accounted (es : list aevent) : Prop :=
  forall es1 es2 r a, es = es1 ++ es2 -> number (gave r a) es1 <= number (got r a) es1.

Definition per_allocator (o : aop) : Prop := match o with ADefault KGlobal | AFrom KGlobal _ => False | _ => True end.
Definition keeps_global (o : aop) : Prop := match o with ASetGlobal _ => False | _ => True end.

(** one history out of two *)
Inductive merge {A} : list A -> list A -> list A -> Prop :=
| merge_nil : merge [] [] []
| merge_l x a b c : merge a b c -> merge (x :: a) b (x :: c)
| merge_r x a b c : merge a b c -> merge a (x :: b) (x :: c).
Definition in_item (x : item) : Prop := in_range i64 (ia x) /\ in_range i64 (isz x).
Definition in_counts (c : counts) : Prop := in_item (ccurr c) /\ in_item (ctotal c) /\ in_item (cmax c).
Definition item_le (x y : item) : Prop := ia x <= ia y /\ isz x <= isz y.
