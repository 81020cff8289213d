(** Property C117: reading real numbers with sscanf. *)
From Verif Require Import Base CharconvSpec CharconvModel SpanNumSpec SpanNumModel SubstrModel FloatSpec FloatModel RealModel RealSpec RealProofs ScanfModel ScanfSpec ScanfProofs ScanfProofs2 ScanfProofs3.
Open Scope Z_scope.

(** ** C117: atof and atod with sscanf read the number at the begin of the text and nothing after the text *)
(** The states of the scanner are those of a number: any text, also one that is no number. *)
Theorem C117_scanner s w : 0 <= w <= len s -> exists t ok, scan_item Start w s = Ok (t, ok) /\ item (firstn (Z.to_nat w) s) t /\ (ok = true <-> subject t).
Proof.
  intros Hw. destruct (item_ok s w Hw) as (t & q & E & R & I & _). exists t, (sfinal q). split; [exact E|]. split; [exact I|].
  symmetry. apply subject_run. exact R.
Qed.
Print Assumptions C117_scanner.
(** The width in the format is the length of the text. *)
Theorem C117_format n tf : 0 < n < 2 ^ 64 -> In tf [s2z "f"; s2z "lf"; s2z "a"; s2z "la"] ->
  parse_fmt (scan_fmt n tf) = Some (n, true) /\ exists t, is_numeral 10 n t /\ scan_fmt n tf = s2z "%" ++ t ++ tf ++ s2z "%n".
Proof.
  intros Hn Ht. split; [apply parse_ok; assumption|]. exists (zu_text n). split; [|reflexivity].
  rewrite zu_numeral by (destruct Hn; split; [apply Z.lt_le_incl|]; assumption). apply CharconvProofs.numeral_is; [discriminate|apply Z.lt_le_incl, Hn].
Qed.
Print Assumptions C117_format.
(** Missing: texts that begin with a vertical tab or a form feed, and texts of 2^31 characters or more. The result
    depends only on the text, not on the memory around it. *)
Theorem C117_read_partial dbg lm m v c r : vin v m -> vl v < 2 ^ 31 -> In lm [[]; s2z "l"] -> contents m v = c :: r -> ~ white c ->
  exists t, item (contents m v) t /\ (subject t /\ atof_scanf dbg lm m v = Ok (Some t) \/ ~ subject t /\ atof_scanf dbg lm m v = Ok None).
Proof. intros V L Hl E N. apply atof_ok; auto. exists c, r. auto. Qed.
Print Assumptions C117_read_partial.
(** a text that is a number is read in full *)
Theorem C117_decimal dbg lm m v neg n e : vin v m -> vl v < 2 ^ 31 -> In lm [[]; s2z "l"] -> decimal_text (contents m v) neg n e ->
  atof_scanf dbg lm m v = Ok (Some (contents m v)).
Proof. intros V L Hl T. apply atof_whole; auto. exact (decimal_subject _ _ _ _ T). Qed.
Print Assumptions C117_decimal.
Theorem C117_hex dbg lm m v neg n e : vin v m -> vl v < 2 ^ 31 -> In lm [[]; s2z "l"] -> hex_text (contents m v) neg n e ->
  atof_scanf dbg lm m v = Ok (Some (contents m v)).
Proof. intros V L Hl T. apply atof_whole; auto. exact (hex_subject _ _ _ _ T). Qed.
Print Assumptions C117_hex.
Theorem C117_special dbg lm m v neg nan : vin v m -> vl v < 2 ^ 31 -> In lm [[]; s2z "l"] -> special_text (contents m v) neg nan ->
  atof_scanf dbg lm m v = Ok (Some (contents m v)).
Proof. intros V L Hl T. apply atof_whole; auto. exact (special_subject _ _ _ T). Qed.
Print Assumptions C117_special.
(** A vertical tab or form feed passes the assertion, is skipped by sscanf and does not count in the width: characters
    after the text are read, also where there is no memory. *)
Theorem C117_after_refuted c : In c [11; 12] -> forall dbg,
  atof_scanf dbg [] (c :: s2z "123 ") (View 0 2) = Ok (Some (s2z "12")) /\ contents (c :: s2z "123 ") (View 0 2) = c :: s2z "1" /\
  atof_scanf dbg [] (c :: s2z "1") (View 0 2) = Ub.
Proof. intros [<-|[<-|[]]] [|]; repeat split; reflexivity. Qed.
Print Assumptions C117_after_refuted.
(** an empty text and the other white space are reported if assertions are on *)
Theorem C117_blank lm m v : vin v m -> vl v < 2 ^ 63 -> contents m v = [] \/ (exists c r, contents m v = c :: r /\ blank c) -> atof_scanf true lm m v = Err.
Proof.
  intros V L [E|(c & r & E & B)]; [|exact (atof_blank lm m v c r V L E B)]. destruct (skipn_contents m v V) as (_ & _ & Lc & _). rewrite E in Lc.
  unfold atof_scanf, Base64Model.dassert. rewrite <- Lc. reflexivity.
Qed.
Print Assumptions C117_blank.
(** the number of characters is an int *)
Theorem C117_int_refuted dbg lm m v neg n e : vin v m -> 2 ^ 31 <= vl v < 10 ^ 10 -> In lm [[]; s2z "l"] -> decimal_text (contents m v) neg n e ->
  atof_scanf dbg lm m v = Ub.
Proof. intros V L Hl T. apply atof_int; auto. exact (decimal_subject _ _ _ _ T). Qed.
Print Assumptions C117_int_refuted.
(** the format has 16 characters: for 12 digits of the length, 11 for double, it is cut off *)
Theorem C117_long_refuted dbg lm m v neg n e : vin v m -> vl v < 2 ^ 64 -> In lm [[]; s2z "l"] -> 10 ^ (11 - len lm) <= vl v -> decimal_text (contents m v) neg n e ->
  atof_scanf true lm m v = Err /\ forall t, atof_scanf dbg lm m v <> Ok (Some t).
Proof. intros V L Hl Hv T. apply atof_long; auto. apply clear_starts, subject_start. exact (decimal_subject _ _ _ _ T). Qed.
Print Assumptions C117_long_refuted.
(** there are such texts *)
Theorem C117_long_exists n : (0 < n)%nat -> exists d, decimal_text (repeat (ch "1") n) false d 0.
Proof.
  intros Hn. exists (dec (repeat (ch "1") n ++ [])). rewrite <- (app_nil_r (repeat _ n)) at 1. apply (decimal_text_intro false (repeat (ch "1") n) [] [] [] 0); [|constructor|constructor|].
  - apply Forall_forall. intros c I. apply repeat_spec in I. subst. split; discriminate.
  - destruct n; [inversion Hn|discriminate].
Qed.
Print Assumptions C117_long_exists.
(** ** atof_first and atod_first *)
(** Missing: as above the long texts. A literal that is no number to sscanf is read as far as it is one. *)
Theorem C117_first_partial dbg lm m v a w b : vin v m -> vl v < 2 ^ 31 -> bytes (contents m v) -> In lm [[]; s2z "l"] ->
  contents m v = a ++ w ++ b -> Forall blank a -> ended b -> real_literal w ->
  exists t, item w t /\ (subject t /\ atof_first_scanf dbg lm m v = Ok (Some (len a + len w, t)) \/ ~ subject t /\ atof_first_scanf dbg lm m v = Ok None).
Proof. exact (first_read dbg lm m v a w b). Qed.
Print Assumptions C117_first_partial.
Theorem C117_first_decimal dbg lm m v a w b neg n e : vin v m -> vl v < 2 ^ 31 -> bytes (contents m v) -> In lm [[]; s2z "l"] ->
  contents m v = a ++ w ++ b -> Forall blank a -> ended b -> decimal_text w neg n e -> atof_first_scanf dbg lm m v = Ok (Some (len a + len w, w)).
Proof.
  intros V L By Hl E Ha Hb T. apply (first_whole dbg lm m v a w b); auto; [exact (RealProofs3.decimal_real _ _ _ _ T)|exact (decimal_subject _ _ _ _ T)].
Qed.
Print Assumptions C117_first_decimal.
Theorem C117_first_none dbg lm m v : vin v m -> vl v < 2 ^ 31 -> bytes (contents m v) ->
  (forall a w b, contents m v = a ++ w ++ b -> Forall blank a -> ended b -> ~ real_literal w) -> atof_first_scanf dbg lm m v = Ok None.
Proof. exact (first_nothing dbg lm m v). Qed.
Print Assumptions C117_first_none.
(** binary and octal literals are found and then read as the zero before their letter *)
Theorem C117_radix_refuted dbg : atof_first_scanf dbg [] (s2z "0b11") (View 0 4) = Ok (Some (4, s2z "0")).
Proof. destruct dbg; reflexivity. Qed.
Print Assumptions C117_radix_refuted.
(** The builds with fast_float read other texts: they reject a plus sign, and they accept an exponent without digits
    and read the number before it. *)
Theorem C117_builds_refuted dbg rn w0 :
  (atof_scanf dbg (s2z "l") (s2z "+1.5") (View 0 4) = Ok (Some (s2z "+1.5")) /\ atod dbg rn f64 (s2z "+1.5") w0 = Ok (false, w0)) /\
  (atof_scanf dbg (s2z "l") (s2z "1e") (View 0 2) = Ok None /\ atod dbg rn f64 (s2z "1e") w0 = Ok (true, 0x3FF0000000000000)).
Proof. destruct dbg, rn; repeat split; vm_compute; reflexivity. Qed.
Print Assumptions C117_builds_refuted.
Example C117_ex1 : atof_scanf true [] (s2z "12.5e+3abc") (View 0 7) = Ok (Some (s2z "12.5e+3")) /\ atof_scanf true [] (s2z "12.5e+3abc") (View 0 4) = Ok (Some (s2z "12.5")) /\
  atof_scanf true [] (s2z "12.5e+3abc") (View 0 5) = Ok None /\ atof_scanf true [] (s2z "12.5e+3abc") (View 0 10) = Ok (Some (s2z "12.5e+3")).
Proof. repeat split; reflexivity. Qed.
Example C117_ex2 : atof_scanf true (s2z "l") (s2z "-0x1.8p-3") (View 0 9) = Ok (Some (s2z "-0x1.8p-3")) /\ atof_scanf true (s2z "l") (s2z "NaN(a1)") (View 0 7) = Ok (Some (s2z "NaN(a1)")) /\
  atof_scanf true (s2z "l") (s2z "infinit") (View 0 7) = Ok None /\ atof_scanf true (s2z "l") (s2z "inf") (View 0 3) = Ok (Some (s2z "inf")) /\ atof_scanf true (s2z "l") (s2z "abc") (View 0 3) = Ok None.
Proof. repeat split; reflexivity. Qed.
Example C117_ex3 : atof_first_scanf true [] (s2z "  -1.5, 2") (View 0 9) = Ok (Some (6, s2z "-1.5")) /\ atof_first_scanf true [] (s2z "x 1") (View 0 3) = Ok None.
Proof. split; reflexivity. Qed.
Example C117_ex4 : scan_fmt 12 (s2z "lf") = s2z "%12lf%n" /\ parse_fmt (s2z "%12lf%") = None /\ atof_scanf true [] (s2z "1") (View 0 0) = Err /\ atof_scanf false [] (s2z "1") (View 0 0) = Ub.
Proof. repeat split; reflexivity. Qed.
