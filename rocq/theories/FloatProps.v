(** Properties C96-C99: the conversion of text to float and double by fast_float. *)
From Verif Require Import Base BaseLemmas FloatTable FloatModel FloatSpec.
From Verif Require Import FloatProofs1 FloatProofs2 FloatProofs5 FloatProofs6 FloatProofs7 FloatProofs8 FloatProofs15 FloatProofs16 FloatProofs17 FloatProofs18.
From Coq Require Import Lia.
Open Scope Z_scope.

(** the types: the model of the type and the two widths of the specification *)
Definition format (f : fmt) (mb eb : Z) : Prop := (f = f64 /\ mb = 52 /\ eb = 11) \/ (f = f32 /\ mb = 23 /\ eb = 8).
Lemma format_fok f mb eb : format f mb eb -> fok f eb /\ mb = f_mb f.
Proof. intros [[-> [-> ->]]|[-> [-> ->]]]; (split; [|reflexivity]); [left|right]; split; reflexivity. Qed.

(** ** C96: compute_float rounds w * 10^q correctly, for every 64-bit w and every q *)
Theorem C96_compute_float f mb eb neg q w : format f mb eb -> 0 <= w < 2 ^ 64 ->
  nearest mb eb neg (decimal w q) (to_float f neg (compute_float f q w)).
Proof.
  intros H W. destruct (format_fok f mb eb H) as [F ->]. apply (good_nearest f eb neg _ _ F); [apply decimal_nonneg; lia|].
  now apply compute_float_good.
Qed.
Print Assumptions C96_compute_float.
(** the correctly rounded number is unique *)
Theorem C96_unique mb eb neg x w w' : 1 <= mb -> 2 <= eb -> (0 <= x)%Q ->
  nearest mb eb neg x w -> nearest mb eb neg x w' -> w = w'.
Proof. intros M E. exact (nearest_unique mb eb M E neg x w w'). Qed.
Print Assumptions C96_unique.
Example C96_ex1 : to_float f64 false (compute_float f64 (-2) 314) = 0x40091EB851EB851F /\ to_float f32 true (compute_float f32 (-2) 314) = 0xC048F5C3.
Proof. split; vm_compute; reflexivity. Qed.
(** ties, the smallest number, the largest one and infinity *)
Example C96_ex2 : to_float f64 false (compute_float f64 0 9007199254740993) = 0x4340000000000000 /\
  to_float f64 false (compute_float f64 (-324) 5) = 1 /\ to_float f64 false (compute_float f64 (-324) 2) = 0 /\
  to_float f64 false (compute_float f64 292 17976931348623157) = 0x7FEFFFFFFFFFFFFF /\ to_float f64 false (compute_float f64 292 17976931348623159) = 0x7FF0000000000000.
Proof. repeat split; vm_compute; reflexivity. Qed.

(** ** C97: from_chars reads the longest number and rounds it correctly, in either rounding mode of the caller *)
(** [rn]: the rounding mode of the processor is to nearest. The number is infinite or zero
    without being written so: result_out_of_range. *)
Theorem C97_rounds_partial rn f mb eb t rest neg m e : format f mb eb -> bytes (t ++ rest) ->
  decimal_text t neg m e -> longest t rest -> len t + 400 <= 2 ^ 28 ->
  exists w ec, from_chars_float rn f (t ++ rest) = Ok (FFRes rest ec (Some w)) /\ nearest mb eb neg (decimal m e) w /\
  (b_infinite mb eb w \/ 0 < m /\ b_zero mb eb w -> ec = ERange) /\
  (~ b_infinite mb eb w -> ~ (0 < m /\ b_zero mb eb w) -> ec = EOk).
Proof. intros H. destruct (format_fok f mb eb H) as [F ->]. exact (from_chars_number rn f eb t rest neg m e F). Qed.
Print Assumptions C97_rounds_partial.
(** a text of a binary number itself gives that number *)
Theorem C97_exact_partial rn f mb eb t rest neg m e w : format f mb eb -> bytes (t ++ rest) ->
  decimal_text t neg m e -> longest t rest -> len t + 400 <= 2 ^ 28 ->
  b_finite mb eb w -> b_neg mb eb w = neg -> (signed neg (decimal m e) == b_value mb eb w)%Q ->
  from_chars_float rn f (t ++ rest) = Ok (FFRes rest EOk (Some w)).
Proof. intros H. destruct (format_fok f mb eb H) as [F ->]. exact (from_chars_exact rn f eb t rest neg m e w F). Qed.
Print Assumptions C97_exact_partial.
(** without the bound on the length it is false: the exponent is cut off at 2^28 before the
    digits of the fraction are subtracted *)
Theorem C97_length_refuted : exists t, decimal_text t false 1 0 /\ (forall rn, from_chars_float rn f64 t = Ok (FFRes [] ERange (Some 0))) /\
  ~ nearest 52 11 false (decimal 1 0) 0.
Proof.
  exists huge_text. split; [exact huge_decimal|]. split; [exact huge_result|]. intros N.
  assert (H : nearest 52 11 false (decimal 1 0) 0x3FF0000000000000).
  { apply nearest_exact; [lia|lia|split; [split; [discriminate|reflexivity]|reflexivity]|reflexivity|reflexivity]. }
  assert (X := nearest_unique 52 11 ltac:(lia) ltac:(lia) false (decimal 1 0) 0 0x3FF0000000000000 ltac:(discriminate) N H). discriminate.
Qed.
Print Assumptions C97_length_refuted.
(** the bound cannot be raised by more than a few hundred characters: the text of 10^2415919104
    is read as 1 *)
Theorem C97_bound_refuted : exists t, len t = 2 ^ 28 + 13 /\ decimal_text t false 1 2415919104 /\
  (forall rn, exists ec, from_chars_float rn f64 t = Ok (FFRes [] ec (Some 0x3FF0000000000000))) /\
  ~ nearest 52 11 false (decimal 1 2415919104) 0x3FF0000000000000.
Proof.
  exists long_text. split; [exact long_len|]. split; [exact long_decimal|]. split; [|exact long_value].
  intros rn. destruct (long_result rn) as [w [ec [H N]]]. exists ec. now rewrite <- (one_finite w N).
Qed.
Print Assumptions C97_bound_refuted.
Example C97_ex1 : from_chars_float true f64 (s2z "3.14,") = Ok (FFRes (s2z ",") EOk (Some 0x40091EB851EB851F)) /\
  from_chars_float false f64 (s2z "3.14,") = Ok (FFRes (s2z ",") EOk (Some 0x40091EB851EB851F)) /\
  from_chars_float true f32 (s2z "-314e-2e") = Ok (FFRes (s2z "e") EOk (Some 0xC048F5C3)).
Proof. repeat split; vm_compute; reflexivity. Qed.
(** many digits: just above and exactly on the middle between two numbers *)
Example C97_ex2 : from_chars_float true f64 (s2z "9007199254740993.00000000000000000000000000000001") = Ok (FFRes [] EOk (Some 0x4340000000000001)) /\
  from_chars_float true f64 (s2z "9007199254740993.00000000000000000000000000000000") = Ok (FFRes [] EOk (Some 0x4340000000000000)) /\
  from_chars_float true f32 (s2z "1.00000005960464477539062500000000000000000000000001") = Ok (FFRes [] EOk (Some 0x3F800001)).
Proof. repeat split; vm_compute; reflexivity. Qed.
Example C97_ex3 : from_chars_float true f64 (s2z "1e400") = Ok (FFRes [] ERange (Some 0x7FF0000000000000)) /\
  from_chars_float true f64 (s2z "-1e-400") = Ok (FFRes [] ERange (Some 0x8000000000000000)) /\
  from_chars_float true f64 (s2z "-0e999999999999") = Ok (FFRes [] EOk (Some 0x8000000000000000)) /\
  from_chars_float true f32 (s2z "3.4028235677973367e38") = Ok (FFRes [] ERange (Some 0x7F800000)).
Proof. repeat split; vm_compute; reflexivity. Qed.
Example C97_ex4 : decimal_text (s2z "3.14") false 314 (-2).
Proof. apply (decimal_text_intro false (s2z "3") (s2z ".14") (s2z "14") [] 0); [repeat constructor; discriminate|apply (fr_some (s2z "14")); repeat constructor; discriminate|constructor|discriminate]. Qed.

(** ** C98: from_chars reads infinity and NaN in letters of either case, and rejects every other text without a number *)
Theorem C98_special rn f mb eb t rest neg nan : format f mb eb -> bytes (t ++ rest) -> special_text t neg nan -> longest_special t rest ->
  exists w, from_chars_float rn f (t ++ rest) = Ok (FFRes rest EOk (Some w)) /\ b_neg mb eb w = neg /\
  (if nan then b_nan mb eb w else b_infinite mb eb w).
Proof. intros H. destruct (format_fok f mb eb H) as [F ->]. exact (from_chars_special rn f eb t rest neg nan F). Qed.
Print Assumptions C98_special.
(** the value is not written and the position is the begin *)
Theorem C98_rejects rn f s : bytes s -> no_number s -> no_special s -> from_chars_float rn f s = Ok (FFRes s EInvalid None).
Proof. exact (from_chars_invalid rn f s). Qed.
Print Assumptions C98_rejects.
(** a text does not begin with both *)
Theorem C98_disjoint t neg nan rest : special_text t neg nan -> no_number (t ++ rest).
Proof. exact (special_no_number t neg nan rest). Qed.
Print Assumptions C98_disjoint.
Example C98_ex1 : from_chars_float true f64 (s2z "-iNfInItyx") = Ok (FFRes (s2z "x") EOk (Some 0xFFF0000000000000)) /\
  from_chars_float true f32 (s2z "infinit") = Ok (FFRes (s2z "init") EOk (Some 0x7F800000)) /\
  from_chars_float true f64 (s2z "NaN(a_9)(") = Ok (FFRes (s2z "(") EOk (Some 0x7FF8000000000000)) /\
  from_chars_float true f64 (s2z "nan(a-9)") = Ok (FFRes (s2z "(a-9)") EOk (Some 0x7FF8000000000000)).
Proof. repeat split; vm_compute; reflexivity. Qed.
Example C98_ex2 : from_chars_float true f64 (s2z "+1") = Ok (FFRes (s2z "+1") EInvalid None) /\ from_chars_float true f64 (s2z "-.e5") = Ok (FFRes (s2z "-.e5") EInvalid None) /\
  from_chars_float true f64 (s2z " 1") = Ok (FFRes (s2z " 1") EInvalid None) /\ from_chars_float true f64 [] = Ok (FFRes [] EInvalid None).
Proof. repeat split; vm_compute; reflexivity. Qed.

(** ** C99: from_chars is defined for every text: no access out of bounds, no overflow of the big integers, and the returned position is inside the text *)
Theorem C99_total rn f mb eb s : format f mb eb -> bytes s -> exists r k, from_chars_float rn f s = Ok r /\ s = k ++ r_rest r.
Proof. intros H. destruct (format_fok f mb eb H) as [F _]. exact (from_chars_total rn f eb s F). Qed.
Print Assumptions C99_total.
Example C99_ex1 : exists w, from_chars_float true f64 (s2z "0." ++ repeat (ch "0") 300 ++ repeat (ch "7") 900 ++ s2z "e") = Ok (FFRes (s2z "e") EOk (Some w)).
Proof. eexists. vm_compute. reflexivity. Qed.
