(** Independent notions for tight_pair. *)
From Verif Require Import Base TightModel.

(** what holds of every type of the language *)
Definition valid (d : ty) : Prop :=
  (exists k, 0 <= k /\ talign d = 2 ^ k) /\ (talign d | tsize d) /\ 0 < tsize d /\ 0 <= tnv d <= tsize d /\
  (forall q t, In (q, t) (tsubs d) -> 0 <= q < tsize d) /\
  (forall v, tctor d = Some v -> len v = vbytes d).
(** [tid] tells types apart *)
Definition named (f s : ty) : Prop := tid f = tid s -> f = s.

(** the least multiple of a that is at least n *)
Definition least_multiple (n a k : Z) : Prop := (a | k) /\ n <= k < n + a.
(** the size z of a struct with the members f and s *)
Definition struct_size (f s : ty) (z : Z) : Prop :=
  exists o, least_multiple (tsize f) (talign s) o /\ least_multiple (o + tsize s) (Z.max (talign f) (talign s)) z.
Definition apart (o1 n1 o2 n2 : Z) : Prop := n1 = 0 \/ n2 = 0 \/ o1 + n1 <= o2 \/ o2 + n2 <= o1.
Definition unrelated (f s : ty) : Prop := forall q r t, In (q, t) (tsubs f) -> In (r, t) (tsubs s) -> False.
(** the value of [T()]: what the constructor makes, zeros if it is trivial *)
Definition value_of (d : ty) (v : list Z) : Prop :=
  tctor d = Some v \/ tctor d = None /\ len v = vbytes d /\ Forall (eq 0) v.
(** the classes a tight_pair derives from: the class itself if there is only one, else the empty ones *)
Definition derives (f s d : ty) : Prop :=
  (tid f = tid s /\ d = f) \/ (tid f <> tid s /\ tempty d = true /\ (d = f \/ d = s)).
