(** std::from_chars for floating point numbers in the format general (C++17 [charconv.from.chars]):
    the longest number at the begin of the text, as in strtod but without plus sign and prefix 0x,
    rounded to nearest. A value out of range is not written. [under]: whether a number that is rounded to zero is
    out of range, on which libraries differ. The formats are those of `FloatSpec.v`. *)
From Verif Require Import Base FloatSpec FloatModel StdModel.
Open Scope Z_scope.
Definition out_of_range (under : bool) (mb eb m w : Z) : Prop :=
  b_infinite mb eb w \/ under = true /\ 0 < m /\ b_zero mb eb w.
Inductive std_from_chars (under : bool) (mb eb : Z) : list Z -> std_res -> Prop :=
| std_number : forall t rest neg m e w, decimal_text t neg m e -> longest t rest -> nearest mb eb neg (decimal m e) w ->
    ~ out_of_range under mb eb m w -> std_from_chars under mb eb (t ++ rest) (StdRes rest EOk (Some w))
| std_range : forall t rest neg m e w, decimal_text t neg m e -> longest t rest -> nearest mb eb neg (decimal m e) w ->
    out_of_range under mb eb m w -> std_from_chars under mb eb (t ++ rest) (StdRes rest ERange None)
| std_special : forall t rest neg nan w, special_text t neg nan -> longest_special t rest ->
    (if nan then b_nan mb eb w else b_infinite mb eb w /\ b_neg mb eb w = neg) ->
    std_from_chars under mb eb (t ++ rest) (StdRes rest EOk (Some w))
| std_invalid : forall s, no_number s -> no_special s -> std_from_chars under mb eb s (StdRes s EInvalid None).
(** the prefix of hexadecimal numbers *)
Definition hex_start (s : list Z) : Prop :=
  exists sg p r, In sg [[]; s2z "-"; s2z "+"] /\ In p (s2z "xX") /\ s = sg ++ ch "0" :: p :: r.
