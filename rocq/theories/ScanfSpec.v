(** Specification of the numbers sscanf reads; it does not use the model. *)
From Verif Require Import Base CharconvSpec SpanNumSpec FloatSpec.
Open Scope Z_scope.

(** ** The subject sequence of strtod (ISO C 7.22.1.3) *)
Inductive subject_body : list Z -> Prop :=
| sb_dec : forall m x, mantissa 10 m -> exponent (s2z "eE") true x -> subject_body (m ++ x)
| sb_hex : forall p m x, In p (s2z "xX") -> mantissa 16 m -> exponent (s2z "pP") true x -> subject_body (ch "0" :: p :: m ++ x)
| sb_inf : forall s, letters s (s2z "inf") -> subject_body s
| sb_infinity : forall s, letters s (s2z "infinity") -> subject_body s
| sb_nan : forall s, letters s (s2z "nan") -> subject_body s
| sb_nan_code : forall s p, letters s (s2z "nan") -> Forall word_char p -> subject_body (s ++ [ch "("] ++ p ++ [ch ")"]).
Definition subject (w : list Z) : Prop := exists sg u, w = sg ++ u /\ sign_opt true sg /\ subject_body u.
(** the begin of a number *)
Definition viable (t : list Z) : Prop := exists w, subject (t ++ w).
(** the input item at the begin of [s] *)
Definition item (s t : list Z) : Prop :=
  (exists r, s = t ++ r) /\ viable t /\ forall u r, s = u ++ r -> viable u -> len u <= len t.
(** white space of the C library *)
Definition white (c : Z) : Prop := In c [32; 9; 10; 11; 12; 13].
