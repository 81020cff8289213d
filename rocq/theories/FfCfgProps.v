(** fast_float with its macros: C130. *)
From Verif Require Import Base BaseLemmas FloatTable FloatModel FloatSpec FfOptModel FfOptSpec FfIntModel FfIntSpec CharconvSpec FloatProofs2 FloatProofs10 FloatProofs14 FloatProofs17 FloatProps FfOptProofs2 FfOptProofs3 FfOptProofs4
  FfOptProofs5 FfOptProps FfIntProofs FfIntProofs2 FfCfgModel FfCfgSpec FfCfgProofs FfCfgProofs2.
From Coq Require Import Lia.
Open Scope Z_scope.

(** ** C130: FASTFLOAT_ALLOWS_LEADING_PLUS, FASTFLOAT_SKIP_WHITE_SPACE and the byte order *)

(** Without the macros these are the functions of C97, C123 and C124. *)
Theorem C130_off : forall rn f o t s b,
  from_chars_cfg false false rn f o s = from_chars_opt rn f o s /\ from_chars_cfg false false rn f general s = from_chars_float rn f s /\
  from_chars_int_cfg false false t s b = from_chars_int t s b.
Proof. intros. rewrite !cfg_off, int_cfg_off, opt_general. auto. Qed.
Print Assumptions C130_off.

(** A number without a sign is read alike behind a plus sign. *)
Theorem C130_plus_rounds : forall rn f mb eb o t rest i d x e, format f mb eb -> point_char (o_dot o) -> o_fixed o || o_sci o || negb (o_fortran o) = true ->
  o_json o = false -> bytes (t ++ rest) -> number_text (o_dot o) (o_sci o) (o_fortran o) t false i d x e -> longest_number (o_dot o) (o_sci o) (o_fortran o) t rest ->
  admitted false (o_sci o && negb (o_fixed o)) i d x -> len t + 400 <= 2 ^ 28 ->
  let m := dec (i ++ fraction_digits d) in let k := e - len (fraction_digits d) in
  exists w ec, from_chars_cfg true false rn f o (ch "+" :: t ++ rest) = Ok (FFRes rest ec (Some w)) /\ nearest mb eb false (decimal m k) w /\
  (b_infinite mb eb w \/ 0 < m /\ b_zero mb eb w -> ec = ERange) /\
  (~ b_infinite mb eb w -> ~ (0 < m /\ b_zero mb eb w) -> ec = EOk).
Proof.
  intros rn f mb eb o t rest i d x e H PC FS J B T L A N m k. rewrite <- J in A.
  destruct (C124_rounds_partial rn f mb eb o t rest false i d x e H PC FS B T L A N) as [w [ec [E R]]].
  exists w, ec. split; [|exact R]. rewrite (cfg_plus_ok rn f o (t ++ rest) rest ec (Some w) J PC); [|intros [q X]|exact E].
  - destruct R as [_ [R1 R2]]. fold m in R1, R2. destruct ec; try reflexivity. exfalso.
    assert (NI : ~ b_infinite mb eb w) by (intro I; specialize (R1 (or_introl I)); discriminate).
    assert (NZ : ~ (0 < m /\ b_zero mb eb w)) by (intro I; specialize (R1 (or_intror I)); discriminate).
    specialize (R2 NI NZ). discriminate.
  - inversion T as [neg i' d' x' e' DI DF EX NE E1 E2 E3 E4 E5 E6]; subst. cbn [app] in X. destruct i as [|c i].
    + destruct d as [d|]; [|contradiction]. cbn in X. inversion X as [[X1 X2]]. apply (proj2 PC). rewrite X1. cbn. auto.
    + cbn [app] in X. inversion X as [[X1 X2]]. subst c. inversion DI as [|? ? D _]. rewrite dig_range in D. change (ch "-") with 45 in D. lia.
Qed.
Print Assumptions C130_plus_rounds.

(** In general a text is read behind a plus sign as it is without, if it has no minus sign; a
    refused one is refused whole. *)
Theorem C130_plus : forall rn f o s r ec x, o_json o = false -> point_char (o_dot o) -> ~ starts_with (ch "-") s -> from_chars_opt rn f o s = Ok (FFRes r ec x) ->
  from_chars_cfg true false rn f o (ch "+" :: s) = Ok (FFRes (match ec with EInvalid => ch "+" :: s | _ => r end) ec x).
Proof. exact cfg_plus_ok. Qed.
Print Assumptions C130_plus.

(** A minus sign behind the plus sign is refused; so is any number behind a plus sign when the
    format is JSON. *)
Theorem C130_plus_rejects : forall rn f o s, point_char (o_dot o) ->
  starts_with (ch "-") s \/ o_json o = true /\ (o_noinf o = true \/ no_special s) ->
  from_chars_cfg true false rn f o (ch "+" :: s) = Ok (FFRes (ch "+" :: s) EInvalid None).
Proof.
  intros rn f o s P [[r ->]|[J H]]; [exact (cfg_plus_minus rn f o r P)|]. rewrite cfg_plus_json by exact J.
  destruct (o_noinf o) eqn:N; [reflexivity|]. destruct H as [H|H]; [discriminate|].
  destruct s as [|c s]; [reflexivity|]. destruct (Z.eq_dec c (ch "-")) as [->|C]; [apply infnan_sign; auto|].
  rewrite infnan_body_eq by auto. cbn [FloatProofs11.minus app]. rewrite FfOptProofs3.infnan_invalid by (auto; discriminate). reflexivity.
Qed.
Print Assumptions C130_plus_rejects.

(** Infinity and NaN are read behind a plus sign, in every format that has them. *)
Theorem C130_plus_special : forall rn f mb eb o t rest nan, format f mb eb -> point_char (o_dot o) -> o_noinf o = false -> bytes (t ++ rest) ->
  special_text t false nan -> longest_special t rest ->
  exists w, from_chars_cfg true false rn f o (ch "+" :: t ++ rest) = Ok (FFRes rest EOk (Some w)) /\ b_neg mb eb w = false /\
  (if nan then b_nan mb eb w else b_infinite mb eb w).
Proof. intros rn f mb eb o t rest nan H. destruct (format_fok f mb eb H) as [F ->]. exact (cfg_special rn f eb o t rest nan F). Qed.
Print Assumptions C130_plus_special.

(** Every text that begins neither with a plus sign nor with a minus and a plus sign is read as
    without the macro, with one exception. *)
Theorem C130_same_partial : forall rn f o s, ~ starts_with (ch "+") s -> s <> [ch "-"] -> (forall q, s <> ch "-" :: ch "+" :: q) ->
  from_chars_cfg true false rn f o s = from_chars_opt rn f o s.
Proof. exact cfg_same. Qed.
Print Assumptions C130_same_partial.

(** The exception: a minus sign alone. A character behind the end is read. *)
Theorem C130_minus_refuted : forall rn f o, o_noinf o = false ->
  from_chars_cfg true false rn f o (s2z "-") = Ub /\ from_chars_opt rn f o (s2z "-") = Ok (FFRes (s2z "-") EInvalid None).
Proof.
  intros rn f o N. split; [exact (cfg_ub false rn f o [] N (Forall_nil _) (or_intror eq_refl))|].
  unfold from_chars_opt. cbn [s2z parse_number_string_o]. change (ch "-" =? ch "-") with true. cbn. rewrite N. reflexivity.
Qed.
Print Assumptions C130_minus_refuted.

(** "-+inf" and its like are neither numbers nor infinities; they are read as negative ones. *)
Theorem C130_minus_plus_refuted : forall rn f mb eb o t rest nan, format f mb eb -> point_char (o_dot o) -> o_noinf o = false -> bytes (t ++ rest) ->
  special_text t false nan -> longest_special t rest ->
  no_number (s2z "-+" ++ t ++ rest) /\ no_special (s2z "-+" ++ t ++ rest) /\
  exists w, from_chars_cfg true false rn f o (s2z "-+" ++ t ++ rest) = Ok (FFRes rest EOk (Some w)) /\ b_neg mb eb w = true /\
  (if nan then b_nan mb eb w else b_infinite mb eb w).
Proof.
  intros rn f mb eb o t rest nan H P N B S L. destruct (format_fok f mb eb H) as [F ->].
  split; [apply minus_plus_none|]. split; [apply minus_plus_none|]. exact (cfg_minus_special rn f eb o t rest nan F P N B S L).
Qed.
Print Assumptions C130_minus_plus_refuted.

(** White space in front is skipped, all of it and nothing else. *)
Theorem C130_space : forall plus rn f o t b w s, Forall space w -> bytes s -> no_space_first s ->
  from_chars_cfg plus true rn f o (w ++ s) = from_chars_cfg plus false rn f o s /\
  from_chars_int_cfg plus true t (w ++ s) b = from_chars_int_cfg plus false t s b.
Proof. intros. split; [now apply cfg_ws|now apply int_cfg_ws]. Qed.
Print Assumptions C130_space.

(** So a refused text is not answered with its start (which C124 has without the macro). *)
Theorem C130_space_start_refuted : forall plus rn f w, Forall space w -> w <> [] ->
  exists s, from_chars_cfg plus true rn f general (w ++ s) = Ok (FFRes s EInvalid None) /\ s <> w ++ s.
Proof.
  intros plus rn f w W N. exists (s2z "x"). split.
  - rewrite cfg_ws; [destruct plus; reflexivity|exact W|repeat constructor; cbn; lia|]. cbn. unfold space. change (ch "x") with 120. lia.
  - intro E. apply (f_equal (@length Z)) in E. rewrite app_length in E. destruct w; [contradiction|]. cbn in E. lia.
Qed.
Print Assumptions C130_space_start_refuted.

(** A character wider than a byte is a space when its lowest byte is one. *)
Theorem C130_wide_space_refuted : forall c r, 256 <= c -> space (c mod 256) -> ~ space c /\ skip_space (c :: r) = skip_space r.
Proof.
  intros c r C S. split; [unfold space; lia|]. cbn [skip_space]. replace (is_space (c mod 2 ^ 8)) with true; [reflexivity|]. symmetry. apply is_space_iff; [|exact S].
  apply Z.mod_pos_bound. reflexivity.
Qed.
Print Assumptions C130_wide_space_refuted.

(** Integers, behind a plus sign and without. *)
Theorem C130_int_plus : forall t b d v r, 2 <= b <= 36 -> bytes (d ++ r) -> digit_text b d v -> ends_digits b r -> in_range t v ->
  from_chars_int_cfg true false t (ch "+" :: d ++ r) b = Ok (FFRes r EOk (Some v)).
Proof.
  intros t b d v r B Y D R I. apply (int_plus_ok t b (d ++ r) r EOk (Some v) Y).
  - intros [q X]. destruct (digit_text_dv b d v (proj1 (proj1 (Forall_app _ _ _) Y)) D) as [NE [F _]]. destruct F as [|c d C F]; [contradiction|].
    cbn [app] in X. inversion X; subst c. destruct C as [x [C _]]. discriminate C.
  - apply reads; auto. now constructor.
Qed.
Print Assumptions C130_int_plus.
Theorem C130_int : forall t b s, bytes s ->
  (~ starts_with (ch "+") s -> from_chars_int_cfg true false t s b = from_chars_int t s b) /\
  (starts_with (ch "-") s -> from_chars_int_cfg true false t (ch "+" :: s) b = Ok (FFRes (ch "+" :: s) EInvalid None)) /\
  (~ starts_with (ch "-") s -> forall r ec x, from_chars_int t s b = Ok (FFRes r ec x) ->
     from_chars_int_cfg true false t (ch "+" :: s) b = Ok (FFRes (match ec with EInvalid => ch "+" :: s | _ => r end) ec x)).
Proof.
  intros t b s B. split; [exact (int_same t b s)|]. split; [exact (int_plus_minus t b s B)|].
  intros M r ec x. exact (int_plus_ok t b s r ec x B M).
Qed.
Print Assumptions C130_int.

(** Every text has an answer that points into it, but for the minus sign alone. *)
Theorem C130_total_partial : forall plus ws rn f mb eb o s, format f mb eb -> point_char (o_dot o) -> bytes s ->
  plus = false \/ o_noinf o = true \/ (forall w, s = w ++ [ch "-"] -> Forall space w -> w <> [] /\ ws = false) ->
  exists r k, from_chars_cfg plus ws rn f o s = Ok r /\ s = k ++ r_rest r.
Proof. intros plus ws rn f mb eb o s H. destruct (format_fok f mb eb H) as [F ->]. exact (cfg_total plus ws rn f eb o s F). Qed.
Print Assumptions C130_total_partial.
Theorem C130_int_total : forall plus ws t b s, bytes s -> exists r k, from_chars_int_cfg plus ws t s b = Ok r /\ s = k ++ r_rest r.
Proof. exact int_total. Qed.
Print Assumptions C130_int_total.

(** On machines of either byte order, and in constant expressions, eight bytes are read with the
    first one lowest; so the other claims about fast_float hold for both. *)
Theorem C130_byte_order : forall loop big l, bytes l -> len l = 8 -> read8_to_u64 loop big l = little_endian l.
Proof. exact read_any. Qed.
Print Assumptions C130_byte_order.
Theorem C130_read8 : forall loop big c0 c1 c2 c3 c4 c5 c6 c7, bytes [c0; c1; c2; c3; c4; c5; c6; c7] ->
  read8_to_u64 loop big [c0; c1; c2; c3; c4; c5; c6; c7] = read8 c0 c1 c2 c3 c4 c5 c6 c7.
Proof. exact read_same. Qed.
Print Assumptions C130_read8.

Example C130_ex1 :
  from_chars_cfg true false true f64 general (s2z "+1.5e1x") = Ok (FFRes (s2z "x") EOk (Some 0x402E000000000000)) /\
  from_chars_cfg false false true f64 general (s2z "+1.5e1x") = Ok (FFRes (s2z "+1.5e1x") EInvalid None) /\
  from_chars_cfg true false true f64 general (s2z "++1") = Ok (FFRes (s2z "++1") EInvalid None) /\
  from_chars_cfg true false true f64 general (s2z "+-1") = Ok (FFRes (s2z "+-1") EInvalid None) /\
  from_chars_cfg true false true f64 general (s2z "+inf") = Ok (FFRes [] EOk (Some 0x7FF0000000000000)) /\
  from_chars_cfg true false true f64 general (s2z "-+inf") = Ok (FFRes [] EOk (Some 0xFFF0000000000000)) /\
  from_chars_cfg true false true f64 json (s2z "+1") = Ok (FFRes (s2z "+1") EInvalid None) /\
  from_chars_cfg true false true f64 general (s2z "-") = Ub.
Proof. repeat split; vm_compute; reflexivity. Qed.
Example C130_ex2 :
  from_chars_cfg true true true f32 general ([9; 10; 11; 12; 13; 32] ++ s2z "+.5 ") = Ok (FFRes (s2z " ") EOk (Some 0x3F000000)) /\
  from_chars_cfg false true true f32 general ([14] ++ s2z "1") = Ok (FFRes ([14] ++ s2z "1") EInvalid None) /\
  from_chars_int_cfg true true i8 (s2z "  +7f") 16 = Ok (FFRes [] EOk (Some 127)) /\
  from_chars_int_cfg true true i8 (s2z "  +80") 16 = Ok (FFRes [] ERange None) /\
  from_chars_int_cfg true true i8 (s2z "   ") 16 = Ok (FFRes [] EInvalid None) /\
  from_chars_int_cfg true true u8t (s2z " +-1") 10 = Ok (FFRes (s2z "+-1") EInvalid None).
Proof. repeat split; vm_compute; reflexivity. Qed.
Example C130_ex3 :
  load64 true (s2z "12345678") = 0x3132333435363738 /\ byteswap 0x3132333435363738 = 0x3837363534333231 /\
  read8_to_u64 false true (s2z "12345678") = 0x3837363534333231 /\ read8_to_u64 true false (s2z "12345678") = 0x3837363534333231.
Proof. repeat split; vm_compute; reflexivity. Qed.
