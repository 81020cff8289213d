(** Specification for null views: the text of a view, and views that are in their memory. *)
From Verif Require Import Base NullModel.

(** the characters of a view; a null view has none *)
Definition text (m : list Z) (v : pview) : list Z :=
  match pp v with None => [] | Some o => slice m o (pn v) end.
(** the view is null and empty, or it lies in the memory *)
Definition valid (m : list Z) (v : pview) : Prop :=
  match pp v with None => pn v = 0 | Some o => 0 <= o /\ 0 <= pn v /\ o + pn v <= len m end.
(** neither view reaches into the other *)
Definition apart (v w : pview) : Prop :=
  match pp v, pp w with Some a, Some b => a + pn v <= b \/ b + pn w <= a | _, _ => True end.
(** the memory with [l] written [k] characters after the beginning of the view *)
Definition put (m : list Z) (v : pview) (k : Z) (l : list Z) : list Z :=
  match pp v with None => m | Some o => blit m (o + k) l end.
