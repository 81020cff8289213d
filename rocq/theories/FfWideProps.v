(** fast_float with other character types: C128. *)
From Verif Require Import Base BaseLemmas FloatTable FloatModel FloatSpec CharconvSpec FfOptModel FfOptSpec FfIntModel FfIntSpec FfWideModel FfWideSpec.
From Verif Require Import FloatProofs10 FloatProps FfWideProofs FfWideProofs2 FfWideProofs3 FfWideProofs4 FfWideProofs5 FfWideProofs6.
From Coq Require Import Lia.
Open Scope Z_scope.

(** ** C128: texts of char16_t, char32_t and wchar_t *)

(** The longest number at the start of a text is rounded right and the answer points behind it,
    with every character type and with the vector instructions; characters that are not ASCII
    are not taken for others. The bound on the length is the one of C97. *)
Theorem C128_rounds_partial : forall u rn f mb eb o t rest neg i d x e, format f mb eb -> point_char (o_dot o) -> o_fixed o || o_sci o || negb (o_fortran o) = true ->
  Forall (ufits u) (t ++ rest) -> number_text (o_dot o) (o_sci o) (o_fortran o) t neg i d x e -> longest_number (o_dot o) (o_sci o) (o_fortran o) t rest ->
  admitted (o_json o) (o_sci o && negb (o_fixed o)) i d x -> len t + 400 <= 2 ^ 28 ->
  let m := dec (i ++ fraction_digits d) in let k := e - len (fraction_digits d) in
  exists w ec, from_chars_w u rn f o (t ++ rest) = Ok (FFRes rest ec (Some w)) /\ nearest mb eb neg (decimal m k) w /\
  (b_infinite mb eb w \/ 0 < m /\ b_zero mb eb w -> ec = ERange) /\
  (~ b_infinite mb eb w -> ~ (0 < m /\ b_zero mb eb w) -> ec = EOk).
Proof.
  intros u rn f mb eb o t rest neg i d x e H. destruct (format_fok f mb eb H) as [F ->].
  exact (wide_number u rn f eb o t rest neg i d x e F).
Qed.
Print Assumptions C128_rounds_partial.

(** A text of the same characters in bytes, with any bytes above 127 for those that are not
    ASCII, gets the same answer; the decimal point may be such a character. *)
Theorem C128_same : forall u rn f o dot' s s', Forall (ufits u) s -> twins (o_dot o) dot' s s' -> o_noinf o = true \/ no_lookalikes s ->
  same_answer s s' (from_chars_w u rn f o s) (from_chars_opt rn f (Opts (o_sci o) (o_fixed o) (o_noinf o) (o_json o) (o_fortran o) dot') s').
Proof. exact float_twins. Qed.
Print Assumptions C128_same.

(** Every text has such a twin. *)
Theorem C128_twin : forall dot s, exists dot' s', twins dot dot' s s' /\ (ascii dot -> dot' = dot).
Proof.
  intros dot s. exists (narrow_dot dot), (map (narrow dot) s). split; [apply twins_narrow|].
  intros [A B]. unfold narrow_dot. replace ((0 <=? dot) && (dot <? 128)) with true by lia. reflexivity.
Qed.
Print Assumptions C128_twin.

(** Texts without a number are refused. *)
Theorem C128_rejects_partial : forall u rn f o s, point_char (o_dot o) -> Forall (ufits u) s ->
  no_number_text (o_dot o) (o_sci o) (o_fortran o) s \/
  (exists t rest neg i d x e, s = t ++ rest /\ number_text (o_dot o) (o_sci o) (o_fortran o) t neg i d x e /\
     longest_number (o_dot o) (o_sci o) (o_fortran o) t rest /\ ~ admitted (o_json o) (o_sci o && negb (o_fixed o)) i d x) ->
  o_noinf o = true \/ no_special s /\ no_lookalikes s ->
  from_chars_w u rn f o s = Ok (FFRes s EInvalid None).
Proof. exact wide_rejects. Qed.
Print Assumptions C128_rejects_partial.

(** But letters of "inf" and "nan" are compared after a conversion to char: a text without one
    ASCII character can be an infinity. *)
Theorem C128_infinity_refuted : forall u rn f mb eb, format f mb eb -> exists s w, Forall (ufits u) s /\ Forall (fun c => ~ is_byte c) s /\ no_special s /\
  from_chars_w u rn f general s = Ok (FFRes [] EOk (Some w)) /\ b_infinite mb eb w.
Proof.
  intros u rn f mb eb H. exists [0x169; 0x16E; 0x166], (word f false 0 (f_inf f)). split; [destruct u; repeat constructor; discriminate|].
  split; [repeat constructor; intros [_ A]; cbn in A; discriminate|]. split.
  { intros a b neg nan E S. apply special_ascii in S as A. destruct a as [|c a].
    - remember [] as t eqn:T. destruct S as [[] l L|[] l L|[] l L|[] l p L W]; try discriminate; destruct l; try discriminate; inversion L.
    - injection E as <- _. apply Forall_inv in A. unfold ascii in A. lia. }
  destruct (format_fok f mb eb H) as [F ->]. destruct F as [[-> ->]|[-> ->]]; (split; [destruct u as [[]| | |]; reflexivity|repeat split; discriminate]).
Qed.
Print Assumptions C128_infinity_refuted.

(** Every text has an answer, which points into the text. *)
Theorem C128_total : forall u rn f mb eb o s, format f mb eb -> point_char (o_dot o) -> Forall (ufits u) s ->
  exists r k, from_chars_w u rn f o s = Ok r /\ s = k ++ r_rest r.
Proof. intros u rn f mb eb o s H. destruct (format_fok f mb eb H) as [F ->]. exact (wide_total u rn f eb o s F). Qed.
Print Assumptions C128_total.

(** Integers, in a text without characters whose lowest byte is a letter or a digit *)
Theorem C128_int_reads_partial : forall u t b s v r, 2 <= b <= 36 -> Forall (ufits u) s -> no_lookalikes s -> number_at t b s v r -> in_range t v ->
  from_chars_int_w u t s b = Ok (FFRes r EOk (Some v)).
Proof. exact wide_int_reads. Qed.
Print Assumptions C128_int_reads_partial.
Theorem C128_int_same_partial : forall u t b s s', Forall (ufits u) s -> twins (ch ".") (ch ".") s s' -> no_lookalikes s ->
  same_answer s s' (from_chars_int_w u t s b) (from_chars_int t s' b).
Proof. intros u t b s s' F T. exact (int_twins (ch ".") (ch ".") u t s s' b F T). Qed.
Print Assumptions C128_int_same_partial.

(** But the table of digits is looked up with the lowest byte: in every base a text without one
    ASCII character is a number. *)
Theorem C128_int_refuted : forall u t b, 2 <= b <= 36 -> exists s, Forall (ufits u) s /\ Forall (fun c => ~ is_byte c) s /\
  (forall v r, ~ number_at t b s v r) /\ from_chars_int_w u t s b = Ok (FFRes [] EOk (Some 1)).
Proof.
  intros u t b B. exists [0x131]. split; [destruct u; repeat constructor; discriminate|]. split; [repeat constructor; intros [_ A]; discriminate|]. split.
  - intros v r N. inversion N as [d w q D E K|d w q G D E K]; subst.
    + destruct D as [NE [ds [H _]]]. destruct d as [|c d]; [contradiction|]. injection K as -> _. inversion H as [|c x d' ds' [X _]]; subst. discriminate.
  - assert (L : from_chars_int_w u t [0x131] b = parse_int_string_w u t [0x131] b).
    { unfold from_chars_int_w. replace ((b <? 2) || (36 <? b)) with false by lia. reflexivity. }
    rewrite L. unfold parse_int_string_w. change (0x131 =? ch "-") with false. rewrite andb_false_r. cbn [skip_char0]. change (0x131 =? ch "0") with false.
    cbv iota zeta. assert (E : (if b =? 10 then loop8_w u [0x131] 0 else ([0x131], 0)) = ([0x131], 0)) by (destruct (b =? 10); reflexivity). rewrite E.
    cbn [int_loop_w]. change (ch_to_digit_w 0x131) with 1. replace (b <=? 1) with false by lia. replace (b * 0 + 1) with 1 by lia. change (u64 1) with 1.
    change (len [0x131] - len []) with 1. change (1 =? 0) with false. cbv iota.
    assert (M : 13 <= max_digits_u64 b).
    { assert (Q : forallb (fun n => 13 <=? max_digits_u64 (Z.of_nat n)) (seq 2 35) = true) by (vm_compute; reflexivity).
      rewrite forallb_forall in Q. specialize (Q (Z.to_nat b)). rewrite Z2Nat.id in Q by lia. apply Z.leb_le, Q, in_seq. lia. }
    replace (max_digits_u64 b <? 1) with false by lia. replace (1 =? max_digits_u64 b) with false by lia. cbn [andb].
    destruct t as [[] []]; reflexivity.
Qed.
Print Assumptions C128_int_refuted.

(** The vector instructions take eight characters at once exactly if they are digits. *)
Theorem C128_simd : forall s l i, s <> NoSimd -> length l = 8%nat -> Forall (fun c => 0 <= c < 2 ^ 16) l ->
  (digs l -> simd_parse_if_eight_digits (C16 s) l i = Some ((i * 100000000 + dec l) mod 2 ^ 64)) /\
  (~ digs l -> simd_parse_if_eight_digits (C16 s) l i = None).
Proof.
  intros s l i S L F. destruct l as [|c0 [|c1 [|c2 [|c3 [|c4 [|c5 [|c6 [|c7 [|]]]]]]]]]; try discriminate.
  rewrite (simd_parse_is s c0 c1 c2 c3 c4 c5 c6 c7 i S F). split; intros D.
  - apply integers_digs in D. rewrite D. reflexivity.
  - destruct (forallb is_integer _) eqn:E; [|reflexivity]. apply integers_digs in E. contradiction.
Qed.
Print Assumptions C128_simd.
(** Zeros are skipped and found a word at a time as they would be one by one. *)
Theorem C128_zeros : forall u z s, Forall (ufits u) (z ++ s) -> Forall (fun c => c = ch "0") z -> match s with [] => True | c :: _ => c <> ch "0" end ->
  skip_zeros_w u (z ++ s) = s /\ (is_truncated_w u (z ++ s) = false <-> s = []).
Proof.
  intros u z s F Z N. rewrite skip_w_is by exact F. rewrite truncated_w_spec by exact F. split; [now apply FloatProofs12.skip1_spec|].
  split.
  - intros H. apply FloatProofs11.zeros_app in H. destruct H as [_ H]. destruct s as [|c s]; [reflexivity|]. apply Forall_inv in H. contradiction.
  - intros ->. rewrite app_nil_r. exact Z.
Qed.
Print Assumptions C128_zeros.

Example C128_ex1 : from_chars_w (C16 Sse2) true f64 general (s2z "-12345678.123456789e+2" ++ [0x20AC]) = Ok (FFRes [0x20AC] EOk (Some 0xC1D26580A1161F9A)) /\
  from_chars_w W32 true f64 general (s2z "-12345678.123456789e+2" ++ [-1]) = Ok (FFRes [-1] EOk (Some 0xC1D26580A1161F9A)).
Proof. split; vm_compute; reflexivity. Qed.
Example C128_ex2 : from_chars_w C32 true f64 (Opts true true false false false 0x066B) (s2z "0" ++ [0x066B] ++ s2z "5,") = Ok (FFRes (s2z ",") EOk (Some 0x3FE0000000000000)) /\
  from_chars_w C32 true f64 general (s2z "0" ++ [0x066B] ++ s2z "5,") = Ok (FFRes ([0x066B] ++ s2z "5,") EOk (Some 0)).
Proof. split; vm_compute; reflexivity. Qed.
(** the digits behind the first 19 decide; zeros are passed four characters at a time *)
Example C128_ex3 : from_chars_w (C16 Neon) true f64 general (s2z "9007199254740993" ++ s2z "." ++ repeat (ch "0") 30 ++ s2z "1") = Ok (FFRes [] EOk (Some 0x4340000000000001)) /\
  from_chars_w (C16 Neon) true f64 general (s2z "9007199254740993" ++ s2z "." ++ repeat (ch "0") 30) = Ok (FFRes [] EOk (Some 0x4340000000000000)).
Proof. split; vm_compute; reflexivity. Qed.
(** a fullwidth digit, U+FF11, is no digit; U+0131 is no digit of a float but one of an integer *)
Example C128_ex4 : from_chars_w (C16 Sse2) true f64 general [0xFF11] = Ok (FFRes [0xFF11] EInvalid None) /\
  from_chars_int_w (C16 Sse2) i32 [0xFF11] 10 = Ok (FFRes [0xFF11] EInvalid None) /\
  from_chars_w (C16 Sse2) true f64 general [0x131] = Ok (FFRes [0x131] EInvalid None) /\
  from_chars_int_w (C16 Sse2) i32 (s2z "-4" ++ [0x132]) 10 = Ok (FFRes [] EOk (Some (-42))) /\
  from_chars_int_w (C16 Sse2) i32 (s2z "1234567" ++ [0x138]) 10 = Ok (FFRes [] EOk (Some 12345678)).
Proof. repeat split; vm_compute; reflexivity. Qed.
Example C128_ex5 : simd_parse_if_eight_digits (C16 Sse2) (s2z "20240229") 7 = Some 720240229 /\
  simd_parse_if_eight_digits (C16 Neon) (s2z "20240229") 7 = Some 720240229 /\
  simd_parse_if_eight_digits (C16 Sse2) (s2z "2024022" ++ [0x8039]) 7 = None /\ simd_parse_if_eight_digits (C16 Neon) (0x130 :: s2z "0240229") 7 = None.
Proof. repeat split; vm_compute; reflexivity. Qed.
