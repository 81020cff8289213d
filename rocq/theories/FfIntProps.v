(** fast_float reading integers: C123. *)
From Verif Require Import Base CharconvSpec FloatModel FfIntModel FfIntSpec FfIntProofs2.
From Coq Require Import Lia.
Open Scope Z_scope.

(** ** C123: fast_float::from_chars for integers *)

(** A number of the type is read right, in every base from 2 to 36, with leading zeros, and
    the answer points behind its last digit. *)
Theorem C123_reads : forall t b s v r, 2 <= b <= 36 -> bytes s -> number_at t b s v r -> in_range t v ->
  from_chars_int t s b = Ok (FFRes r EOk (Some v)).
Proof. exact reads. Qed.
Print Assumptions C123_reads.

(** A number outside the type is reported: always for types narrower than 64 bits, and for the
    64-bit types when the base is 2, 4 or 16 or the number has less than 65 bits. *)
Theorem C123_range_partial : forall t b s v r, 2 <= b <= 36 -> bytes s -> number_at t b s v r -> ~ in_range t v ->
  bits (iw t) < 64 \/ b = 2 \/ b = 4 \/ b = 16 \/ Z.abs v < 2 ^ 64 ->
  from_chars_int t s b = Ok (FFRes r ERange None).
Proof. exact ranges. Qed.
Print Assumptions C123_range_partial.

(** What happens past 2^64, with [m] the number of digits of 2^64 - 1. *)
Theorem C123_wraps : forall t b s v r m, 2 <= b <= 36 -> bytes s -> number_at t b s v r ->
  digit_count b (2 ^ 64 - 1) m -> 2 ^ 64 <= Z.abs v ->
  from_chars_int t s b =
    Ok (if (Z.abs v <? b ^ m) && (b ^ (m - 1) <=? Z.abs v mod 2 ^ 64) && in_rangeb t (Z.sgn v * (Z.abs v mod 2 ^ 64))
        then FFRes r EOk (Some (Z.sgn v * (Z.abs v mod 2 ^ 64)))
        else FFRes r ERange None).
Proof. exact wraps. Qed.
Print Assumptions C123_wraps.

(** In every base but 2, 4 and 16 there is a number past 2^64 that is read as another one. *)
Theorem C123_range_refuted : forall b, 2 <= b <= 36 -> b <> 2 -> b <> 4 -> b <> 16 ->
  exists s n v, bytes s /\ number_at u64t b s n [] /\ ~ in_range u64t n /\
    from_chars_int u64t s b = Ok (FFRes [] EOk (Some v)).
Proof. exact missed. Qed.
Print Assumptions C123_range_refuted.

(** A text without a number, and a wrong base: refused, pointing at the start, nothing stored. *)
Theorem C123_rejects : forall t b s, bytes s -> ~ (2 <= b <= 36 /\ exists v r, number_at t b s v r) ->
  from_chars_int t s b = Ok (FFRes s EInvalid None).
Proof. exact rejects. Qed.
Print Assumptions C123_rejects.

(** It always answers, and what each answer says about the text. *)
Theorem C123_total : forall t b s, bytes s -> exists x, from_chars_int t s b = Ok x /\
  match x with
  | FFRes r EOk (Some v) => in_range t v /\ 2 <= b <= 36 /\ exists n, number_at t b s n r /\ (v - n) mod 2 ^ 64 = 0
  | FFRes r ERange None => exists n, number_at t b s n r /\ ~ in_range t n
  | FFRes r EInvalid None => r = s
  | _ => False
  end.
Proof. exact total. Qed.
Print Assumptions C123_total.

Example C123_ex1 :
  from_chars_int i8 (s2z "-0080g") 16 = Ok (FFRes (s2z "g") EOk (Some (-128))) /\
  from_chars_int i8 (s2z "-0081g") 16 = Ok (FFRes (s2z "g") ERange None) /\
  from_chars_int i64 (s2z "-9223372036854775808") 10 = Ok (FFRes [] EOk (Some (- 2 ^ 63))) /\
  from_chars_int u64t (s2z "3w5e11264sgsf.") 36 = Ok (FFRes (s2z ".") EOk (Some (2 ^ 64 - 1))) /\
  from_chars_int u8t (s2z "-1") 10 = Ok (FFRes (s2z "-1") EInvalid None) /\
  from_chars_int u8t (s2z "1") 37 = Ok (FFRes (s2z "1") EInvalid None) /\
  from_chars_int i32 (s2z "-000x") 10 = Ok (FFRes (s2z "x") EOk (Some 0)).
Proof. vm_compute. repeat split. Qed.
(** 2^64 is reported and 3 * 10^19 is not *)
Example C123_ex2 :
  from_chars_int u64t (s2z "18446744073709551616") 10 = Ok (FFRes [] ERange None) /\
  from_chars_int u64t (s2z "30000000000000000000") 10 = Ok (FFRes [] EOk (Some 11553255926290448384)) /\
  from_chars_int u32t (s2z "30000000000000000000") 10 = Ok (FFRes [] ERange None).
Proof. vm_compute. repeat split. Qed.
Example C123_ex3 : number_at i8 16 (s2z "-0080g") (-128) (s2z "g").
Proof.
  change (s2z "-0080g") with (ch "-" :: s2z "0080" ++ s2z "g"). apply (na_neg i8 16 (s2z "0080") 128 (s2z "g")); [reflexivity| |cbn; intros x E; injection E as <-; lia].
  split; [discriminate|]. exists [0; 0; 8; 0]. split; [|reflexivity]. repeat constructor.
Qed.
