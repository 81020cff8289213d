(** Specification of reading several values; it does not use the model. *)
From Verif Require Import Base SubstrSpec FormatSpec.

(** the reader finds the value [v] in the text [t] if a text of the kind [P] follows, and says
    how much it has read *)
Definition reads (g : list Z -> Z -> res (option Z * Z)) (t : list Z) (v : Z) (P : list Z -> Prop) : Prop :=
  forall r v0, P r -> bytes (t ++ r) -> small (t ++ r) -> g (t ++ r) v0 = Ok (Some (len t), v).
(** ... in each of the texts, one after the other *)
Inductive reads_all : list (list Z -> Z -> res (option Z * Z)) -> list (list Z) -> list Z -> Prop :=
| ra_nil : reads_all [] [] []
| ra_cons : forall g t v P gs ts vs, reads g t v P -> P (concat ts) -> reads_all gs ts vs ->
    reads_all (g :: gs) (t :: ts) (v :: vs).
(** ... with a separator before each *)
Inductive reads_sep (sg : list Z -> Z -> res (option Z * Z)) (st : list Z) (sv : Z) :
  list (list Z -> Z -> res (option Z * Z)) -> list (list Z) -> list Z -> Prop :=
| rs_nil : reads_sep sg st sv [] [] []
| rs_cons : forall g t v P Q gs ts vs, reads sg st sv Q -> Q (t ++ concat (map (fun u => st ++ u) ts)) ->
    reads g t v P -> P (concat (map (fun u => st ++ u) ts)) -> reads_sep sg st sv gs ts vs ->
    reads_sep sg st sv (g :: gs) (t :: ts) (v :: vs).
(** ... at the places of the placeholders of a format; [out] is the whole text *)
Inductive reads_format : list Z -> list (list Z -> Z -> res (option Z * Z)) -> list (list Z) -> list Z -> list Z -> Prop :=
| rf_end : forall f, reads_format f [] [] [] f
| rf_hole : forall f pre post g t v P gs ts vs out, first_placeholder f pre post -> reads_format post gs ts vs out ->
    reads g t v P -> P out -> reads_format f (g :: gs) (t :: ts) (v :: vs) (pre ++ t ++ out).
