(** Properties of the conversions between real numbers and text: theorems, assumptions, examples. *)
From Verif Require Import Base BaseLemmas ScanModel SubstrModel SubstrSpec SubstrProofs CharconvModel CharconvSpec SpanNumModel SpanNumSpec FormatModel FormatSpec.
From Verif Require Import FloatTable FloatModel FloatSpec FloatProofs1 FloatProofs11 FloatProofs16 FloatProofs17 FloatProps.
From Verif Require Import RealModel RealSpec RealProofs RealProofs2 RealProofs3 RealProofs4 RealProofs5.
From Coq Require Import Lia.
Open Scope Z_scope.
Notation format := FloatProps.format.

(** ** C100: atof and atod of decimal text, infinity and NaN *)
(** partial: texts shorter than 2^28 - 400; what follows the number is refuted below *)
Theorem C100_decimal_partial dbg rn f mb eb t neg m e w0 : format f mb eb -> bytes t -> decimal_text t neg m e -> len t + 400 <= 2 ^ 28 ->
  exists ok w, atod dbg rn f t w0 = Ok (ok, w) /\ nearest mb eb neg (decimal m e) w /\ (ok = false <-> b_infinite mb eb w \/ 0 < m /\ b_zero mb eb w).
Proof.
  intros H B T L. destruct (format_fok f mb eb H) as [F ->].
  destruct (atod_decimal dbg rn f eb t [] neg m e w0 F) as [ok [w R]]; rewrite ?app_nil_r; auto; [apply longest_nil|lia|now apply (decimal_not_0x t neg m e)|].
  rewrite app_nil_r in R. now exists ok, w.
Qed.
Print Assumptions C100_decimal_partial.
Theorem C100_special dbg rn f mb eb t neg nan w0 : format f mb eb -> bytes t -> special_text t neg nan -> len t < 2 ^ 64 ->
  exists w, atod dbg rn f t w0 = Ok (true, w) /\ b_neg mb eb w = neg /\ (if nan then b_nan mb eb w else b_infinite mb eb w).
Proof.
  intros H B T L. destruct (format_fok f mb eb H) as [F ->].
  destruct (atod_special dbg rn f eb t [] neg nan w0 F) as [w R]; rewrite ?app_nil_r; auto; [apply longest_special_nil|]. rewrite app_nil_r in R. now exists w.
Qed.
Print Assumptions C100_special.
(** a text that does not begin with a number is rejected and the variable keeps its value *)
Theorem C100_rejects dbg rn f s c r w0 : bytes s -> s = c :: r -> ~ blank c -> len s < 2 ^ 64 -> no_number s -> no_special s ->
  (forall p r, In p (s2z "xX") -> s <> ch "+" :: ch "0" :: p :: r) -> atod dbg rn f s w0 = Ok (false, w0).
Proof. intros B E C. apply atod_rejects; auto. exists c, r. auto. Qed.
Print Assumptions C100_rejects.
(** no undefined behaviour for any text that begins with a character other than a blank *)
Theorem C100_defined dbg rn f mb eb s c r w0 : format f mb eb -> bytes s -> s = c :: r -> ~ blank c -> len s < 2 ^ 64 -> atod dbg rn f s w0 <> Ub.
Proof. intros H B E C. destruct (format_fok f mb eb H) as [F ->]. apply (atod_defined dbg rn f eb s w0 F B). exists c, r. auto. Qed.
Print Assumptions C100_defined.
(** a plus sign is handled for hexadecimal text only: every other number with a plus sign is rejected *)
Theorem C100_plus_refuted dbg rn f t m e w0 : bytes t -> decimal_text t false m e -> len t < 2 ^ 63 -> atod dbg rn f (ch "+" :: t) w0 = Ok (false, w0).
Proof.
  intros B T L. apply atod_plus; auto. assert (H := decimal_not_0x t false m e T). destruct (begins_0x t) eqn:E; [|reflexivity]. rewrite <- H. clear - E.
  destruct t as [|c [|d q]]; try discriminate. cbn [begins_0x] in E. destruct (Z.eqb_spec c (ch "0")) as [->|]; [|discriminate]. cbn. exact (eq_sym E).
Qed.
Print Assumptions C100_plus_refuted.
(** what follows the number is ignored, so the result is true for a text that is no number *)
Lemma decimal_chars t neg m e : decimal_text t neg m e -> Forall (fun c => In c (s2z "0123456789.eE+-")) t.
Proof.
  assert (D : forall d, digs d -> Forall (fun c => In c (s2z "0123456789.eE+-")) d).
  { intros d H. eapply Forall_impl; [|exact H]. intros c K. unfold dig in K. change (ch "0") with 48 in K. change (ch "9") with 57 in K. cbn. lia. }
  intros [neg' i f d x e' DI FR EX NE]. repeat rewrite Forall_app. repeat split.
  - destruct neg'; [constructor; [vm_compute; auto 20|constructor]|constructor].
  - auto.
  - destruct FR; constructor; auto. vm_compute; auto 20.
  - destruct EX as [|c q K _ Q|c q K _ Q|c q K _ Q]; [constructor| | |]; (assert (CK : In c (s2z "0123456789.eE+-")) by (destruct K as [-> | ->]; vm_compute; auto 20));
      constructor; auto; constructor; auto; vm_compute; auto 20.
Qed.
Theorem C100_junk_refuted : exists s, (forall neg m e, ~ decimal_text s neg m e) /\ (forall neg nan, ~ special_text s neg nan) /\
  forall dbg rn w0, atod dbg rn f64 s w0 = Ok (true, 0x3FF8000000000000).
Proof.
  exists (s2z "1.5abc"). split; [|split].
  - intros neg m e H. apply decimal_chars in H. rewrite Forall_forall in H. specialize (H (ch "a") ltac:(cbn; auto 10)). cbn in H.
    repeat (destruct H as [H|H]; [discriminate|]). exact H.
  - intros neg nan H. destruct (special_head _ neg nan H) as [p [E [c [r [-> K]]]]]. destruct neg; cbn in E; [discriminate|]. injection E as E1 E2. subst c. lia.
  - intros dbg rn w0. destruct dbg, rn; vm_compute; reflexivity.
Qed.
Print Assumptions C100_junk_refuted.
Example C100_ex1 : atod true true f64 (s2z "-1.5") 7 = Ok (true, 0xBFF8000000000000) /\ atod true true f32 (s2z "314e-2") 7 = Ok (true, 0x4048F5C3).
Proof. split; vm_compute; reflexivity. Qed.
Example C100_ex2 : atod true true f64 (s2z "1e400") 7 = Ok (false, 0x7FF0000000000000) /\ atod true true f64 (s2z "-INF") 7 = Ok (true, 0xFFF0000000000000).
Proof. split; vm_compute; reflexivity. Qed.
Example C100_ex3 : atod true true f64 (s2z "x1") 7 = Ok (false, 7) /\ atod true true f64 (s2z "+1.5") 7 = Ok (false, 7) /\ atod true true f64 (s2z " 1") 7 = Err.
Proof. repeat split; vm_compute; reflexivity. Qed.
Example C100_ex4 : decimal_text (s2z "-1.5") true 15 (-1).
Proof. apply (decimal_text_intro true (s2z "1") (s2z ".5") (s2z "5") [] 0); [repeat constructor; discriminate|apply (fr_some (s2z "5")); repeat constructor; discriminate|constructor|discriminate]. Qed.

(** ** C101: atof and atod of hexadecimal text *)
(** partial: only without letters and exponent, with digits that the format holds exactly, and if the variable is zero before *)
Theorem C101_exact_partial dbg rn f mb eb s neg m e : format f mb eb -> len s < 2 ^ 64 -> hex_text s neg m e -> plain s ->
  m < 2 ^ (mb + 1) -> - e <= b_bias eb + mb - 1 -> exists w, atod dbg rn f s 0 = Ok (true, w) /\ nearest mb eb neg (hex_value m e) w.
Proof. intros H. destruct (format_fok f mb eb H) as [F ->]. exact (atod_hex dbg rn f eb s neg m e F). Qed.
Print Assumptions C101_exact_partial.
Lemma not_nearest neg x w w' : (0 <= x)%Q -> b_finite 52 11 w' -> b_neg 52 11 w' = neg -> (signed neg x == b_value 52 11 w')%Q -> w <> w' -> ~ nearest 52 11 neg x w.
Proof.
  intros P F N V NE H. apply NE. apply (nearest_unique 52 11 ltac:(lia) ltac:(lia) neg x); [exact P|exact H|].
  apply nearest_exact; auto; lia.
Qed.
Ltac finite := split; [split; [discriminate|reflexivity]|reflexivity].
(** the letters a to f count as 0 to 5 *)
Theorem C101_letters_refuted : exists s m, hex_text s false m 0 /\ exists w, (forall dbg rn, atod dbg rn f64 s 0 = Ok (true, w)) /\ ~ nearest 52 11 false (hex_value m 0) w.
Proof.
  exists (s2z "0xa"), 10. split.
  - apply (hex_text_intro [] false (ch "x") (s2z "a") [] [] [10] [] 0); [now left|now left|repeat constructor|constructor|constructor|discriminate].
  - exists 0. split; [intros [|] [|]; vm_compute; reflexivity|]. apply (not_nearest false _ _ 0x4024000000000000); [discriminate|finite|reflexivity|reflexivity|discriminate].
Qed.
Print Assumptions C101_letters_refuted.
(** the exponent is taken as a power of 16 instead of 2 *)
Theorem C101_power_refuted : exists s e, hex_text s false 1 e /\ exists w, (forall dbg rn, atod dbg rn f64 s 0 = Ok (true, w)) /\ ~ nearest 52 11 false (hex_value 1 e) w.
Proof.
  exists (s2z "0x1p+4"), 4. split.
  - apply (hex_text_intro [] false (ch "x") (s2z "1") [] (s2z "p+4") [1] [] 4); [now left|now left|repeat constructor|constructor| |discriminate].
    apply (hx_plus (ch "p") (s2z "4")); [now left|discriminate|repeat constructor; discriminate].
  - exists 0x40F0000000000000. split; [intros [|] [|]; vm_compute; reflexivity|]. apply (not_nearest false _ _ 0x4030000000000000); [discriminate|finite|reflexivity|reflexivity|discriminate].
Qed.
Print Assumptions C101_power_refuted.
(** the digits are added to the value the variable had before *)
Theorem C101_uninit_refuted : exists s w0, hex_text s false 24 0 /\ exists w, (forall dbg rn, atod dbg rn f64 s w0 = Ok (true, w)) /\ ~ nearest 52 11 false (hex_value 24 0) w.
Proof.
  exists (s2z "0x18"), 0x3FF0000000000000. split.
  - apply (hex_text_intro [] false (ch "x") (s2z "18") [] [] [1; 8] [] 0); [now left|now left|repeat constructor|constructor|constructor|discriminate].
  - exists 0x4071800000000000. split; [intros [|] [|]; vm_compute; reflexivity|]. apply (not_nearest false _ _ 0x4038000000000000); [discriminate|finite|reflexivity|reflexivity|discriminate].
Qed.
Print Assumptions C101_uninit_refuted.
(** a text without digits is accepted *)
Theorem C101_empty_refuted : (forall neg m e, ~ hex_text (s2z "0x.") neg m e) /\ forall dbg rn w0, exists w, atod dbg rn f64 (s2z "0x.") w0 = Ok (true, w).
Proof.
  split.
  - intros neg m e H. remember (s2z "0x.") as s eqn:E. destruct H as [sg neg p i f x di df e SG IP HI HF HX NE].
    assert (sg = []) as -> by (destruct neg; [subst sg; discriminate|destruct SG as [->| ->]; [reflexivity|discriminate]]).
    cbn [app] in E. injection E as E1 E2. destruct HI as [|c d i di [C1 C2] HI]; cbn [app] in E2; [|injection E2 as -> E2; discriminate].
    destruct HF as [|g ds HG]; cbn [app] in E2; [destruct HX as [|q y Q|q y Q|q y Q]; try discriminate; injection E2 as -> E2; cbn in Q; repeat (destruct Q as [Q|Q]; [discriminate|]); exact Q|].
    injection E2 as E2. destruct HG; [|discriminate]. now apply NE.
  - intros dbg rn w0. assert (ST : starts (s2z "0x.")) by (exists (ch "0"), (s2z "x."); split; [reflexivity|]; unfold blank; cbn; intros K; repeat (destruct K as [K|K]; [discriminate|]); exact K).
    rewrite atod_eq by (exact ST || reflexivity). change (begins_0x (unsign (s2z "0x."))) with true. change (csub (unsign (s2z "0x.")) 2) with (Ok (s2z ".")). cbn [negb bind].
    assert (SC : forall v, scan_rhex dbg f64 (s2z ".") v = Ok (true, v)) by (intros v; destruct dbg; reflexivity). rewrite SC. cbn [bind]. eexists. reflexivity.
Qed.
Print Assumptions C101_empty_refuted.
Example C101_ex1 : atod true true f64 (s2z "-0x1.8") 0 = Ok (true, 0xBFF8000000000000) /\ atod true true f64 (s2z "+0x18") 0 = Ok (true, 0x4038000000000000) /\
  atod true true f32 (s2z "0X.4") 0 = Ok (true, 0x3E800000).
Proof. repeat split; vm_compute; reflexivity. Qed.
Example C101_ex2 : hex_text (s2z "-0x1.8") true 24 (-4) /\ plain (s2z "-0x1.8").
Proof.
  split.
  - apply (hex_text_intro (s2z "-") true (ch "x") (s2z "1") (s2z ".8") [] [1] [8] 0); [reflexivity|now left|repeat constructor|apply (hf_some (s2z "8")); repeat constructor|constructor|discriminate].
  - unfold plain. apply Forall_forall. intros c H. cbn in H. repeat (destruct H as [<-|H]; [vm_compute; auto 20|]). contradiction.
Qed.
Example C101_ex3 : atod true true f64 (s2z "0x") 0 = Err /\ atod false true f64 (s2z "0x") 0 = Ok (true, 0) /\ atod true true f64 (s2z "0x1p++1") 0 = Err /\ atod true true f64 (s2z "0x1g") 0 = Ok (false, 0x3FF0000000000000).
Proof. repeat split; vm_compute; reflexivity. Qed.

(** ** C102: atof_first and atod_first skip blanks and read the first word if it is a number *)
Theorem C102_decimal_partial dbg rn f mb eb a w b neg m e w0 : format f mb eb -> small (a ++ w ++ b) -> bytes (a ++ w ++ b) -> Forall blank a -> ended b ->
  decimal_text w neg m e -> len w + 400 <= 2 ^ 28 ->
  exists ok x, atod_first dbg rn f (a ++ w ++ b) w0 = Ok (if ok : bool then Some (len a + len w) else None, x) /\ nearest mb eb neg (decimal m e) x /\
    (ok = false <-> b_infinite mb eb x \/ 0 < m /\ b_zero mb eb x).
Proof. intros H. destruct (format_fok f mb eb H) as [F ->]. exact (atod_first_decimal dbg rn f eb a w b neg m e w0 F). Qed.
Print Assumptions C102_decimal_partial.
Theorem C102_special dbg rn f mb eb a w b neg nan w0 : format f mb eb -> small (a ++ w ++ b) -> bytes (a ++ w ++ b) -> Forall blank a -> ended b ->
  In (w, neg, nan) [(s2z "inf", false, false); (s2z "-inf", true, false); (s2z "infinity", false, false);
    (s2z "-infinity", true, false); (s2z "nan", false, true); (s2z "-nan", true, true)] ->
  exists x, atod_first dbg rn f (a ++ w ++ b) w0 = Ok (Some (len a + len w), x) /\ b_neg mb eb x = neg /\
    (if nan then b_nan mb eb x else b_infinite mb eb x).
Proof. intros H. destruct (format_fok f mb eb H) as [F ->]. exact (atod_first_special dbg rn f eb a w b neg nan w0 F). Qed.
Print Assumptions C102_special.
(** if the first word is no literal of a real number, the variable keeps its value *)
Theorem C102_none dbg rn f s w0 : small s -> bytes s -> (forall a w b, s = a ++ w ++ b -> Forall blank a -> ended b -> ~ real_literal w) ->
  atod_first dbg rn f s w0 = Ok (None, w0).
Proof. exact (first_none dbg rn f s w0). Qed.
Print Assumptions C102_none.
(** binary and octal literals are found and then read as the zero before their letter *)
Theorem C102_radix_refuted : real_literal (s2z "0b11") /\ unsigned_text (s2z "0b11") 3 /\ forall dbg rn w0, atod_first dbg rn f64 (s2z "0b11") w0 = Ok (Some 4, 0).
Proof.
  split; [|split].
  - exists [], (s2z "0b11"). split; [reflexivity|]. split; [now left|]. apply (rb_bin (ch "b") (s2z "11") []); [now left| |constructor].
    apply man_int; [discriminate|]. repeat constructor; exists 1; split; reflexivity.
  - apply (ut_bin (ch "b") (s2z "11") 3); [now left|]. split; [discriminate|]. exists [1; 1]. split; [repeat constructor|reflexivity].
  - intros dbg rn w0. destruct dbg, rn; vm_compute; reflexivity.
Qed.
Print Assumptions C102_radix_refuted.
(** a number with a plus sign is found and then rejected *)
Theorem C102_plus_refuted : real_literal (s2z "+1.5") /\ forall dbg rn w0, atod_first dbg rn f64 (s2z "+1.5") w0 = Ok (None, w0).
Proof.
  split.
  - exists (s2z "+"), (s2z "1.5"). split; [reflexivity|]. split; [right; now left|]. apply (rb_dec (s2z "1.5") []); [|constructor].
    apply (man_frac 10 (s2z "1") (s2z "5")); [discriminate| |]; repeat constructor; [exists 1|exists 5]; split; reflexivity.
  - intros dbg rn w0. destruct dbg, rn; vm_compute; reflexivity.
Qed.
Print Assumptions C102_plus_refuted.
Example C102_ex1 : atod_first true true f64 (s2z "  -1.5, 2") 7 = Ok (Some 6, 0xBFF8000000000000) /\ atod_first true true f64 (s2z " -infinity ") 7 = Ok (Some 10, 0xFFF0000000000000).
Proof. split; vm_compute; reflexivity. Qed.
Example C102_ex2 : atod_first true true f64 (s2z "abc 1.5") 7 = Ok (None, 7) /\ atod_first true true f64 [] 7 = Ok (None, 7) /\ atod_first true true f32 (s2z " 0x1.8 ") 0 = Ok (Some 6, 0x3FC00000).
Proof. repeat split; vm_compute; reflexivity. Qed.

(** ** C103: ftoa and dtoa *)
(** In a buffer that is large enough the result is the text of the library function, after "0x" in hexadecimal format,
    and the size is its length. snprintf needs one character more for the zero it writes. *)
Theorem C103_fits p f (hexa : bool) text junk m b : vin b m -> text <> [] -> (hexa = true -> p = StdToChars) ->
  let out := (if hexa then s2z "0x" else []) ++ text in
  len out + (match p with Snprintf => 1 | StdToChars => 0 end) <= vl b ->
  exists m', dtoa p f hexa text junk m b = Ok (m', len out) /\ slice m' (vo b) (len out) = out /\ same_outside m m' b.
Proof. exact (dtoa_fits p f hexa text junk m b). Qed.
Print Assumptions C103_fits.
(** In any other buffer, also in an empty one, nothing outside is written and the size is larger than the buffer *)
Theorem C103_small p f text junk : text <> [] -> writes (dtoa p f false text junk) text (match p with Snprintf => 1 | StdToChars => 0 end).
Proof. intros NE. destruct p; [apply rtoa_writes; [apply digits_17|exact NE]|apply print_writes]. Qed.
Print Assumptions C103_small.
Theorem C103_small_hexa f text junk m b : vin b m -> 2 <= vl b < 2 + len text ->
  exists m', dtoa StdToChars f true text junk m b = Ok (m', Z.max (max_digits10 f) (vl b + 1)) /\ same_outside m m' b.
Proof. intros V L. apply rtoa_short; [exact V|lia|]. unfold full_text. rewrite len_app. change (len (s2z "0x")) with 2. lia. Qed.
Print Assumptions C103_small_hexa.
(** with snprintf the size is the length of a buffer that suffices *)
Theorem C103_retry f text junk m b m1 n : vin b m -> dtoa Snprintf f false text junk m b = Ok (m1, n) -> vl b < n ->
  forall m2 b2, vin b2 m2 -> vl b2 = n -> exists m3, dtoa Snprintf f false text junk m2 b2 = Ok (m3, len text) /\ slice m3 (vo b2) (len text) = text.
Proof.
  intros V E L m2 b2 V2 L2. cbn [dtoa] in *. assert (N : n = len text + 1).
  { destruct (Z.lt_ge_cases (len text) (vl b)) as [C|C].
    - rewrite print_fits in E by auto. injection E as _ <-. lia.
    - destruct (print_short text m b V C) as [m' [E2 _]]. rewrite E2 in E. now injection E as _ <-. }
  rewrite print_fits by (auto; lia). eexists. split; [reflexivity|]. destruct V2 as [V3 [V4 V5]]. pose proof (len_nonneg text).
  apply MemUtilProofs2.slice_prefix_blit; rewrite ?CharconvProofs2.len1; lia.
Qed.
Print Assumptions C103_retry.
(** with std::to_chars it is not: for an empty buffer it is 17, but numbers have more characters *)
Theorem C103_size_refuted : exists text junk, decimal_text text true 22250738585072014 (-324) /\
  dtoa StdToChars f64 false text junk [] (View 0 0) = Ok ([], 17) /\ 17 < len text /\
  (forall m, len m = 17 -> exists m', dtoa StdToChars f64 false text junk m (full m) = Ok (m', 18)).
Proof.
  exists (s2z "-2.2250738585072014e-308"), []. split; [|split; [reflexivity|split; [reflexivity|]]].
  - apply (decimal_text_intro true (s2z "2") (s2z ".2250738585072014") (s2z "2250738585072014") (s2z "e-308") (-308)); [repeat constructor; discriminate| | |discriminate].
    + apply fr_some. repeat constructor; discriminate.
    + apply (ex_minus (ch "e") (s2z "308")); [now left|discriminate|repeat constructor; discriminate].
  - intros m L. destruct (rtoa_short false 17 (s2z "-2.2250738585072014e-308") [] m (full m)) as [m' [E _]].
    + unfold vin, full. cbn [vo vl]. lia.
    + discriminate.
    + cbn [full vl]. rewrite L. reflexivity.
    + exists m'. cbn [full vl] in E. rewrite L in E. exact E.
Qed.
Print Assumptions C103_size_refuted.
(** "It is safe to call this function with an empty or too-small buffer": not in hexadecimal format *)
Theorem C103_hexa_refuted f text junk m b : 0 <= vl b < 2 -> dtoa StdToChars f true text junk m b = Ub.
Proof. exact (rtoa_hex_short (max_digits10 f) text junk m b). Qed.
Print Assumptions C103_hexa_refuted.
(** std::to_chars writes the sign first, so the sign of a negative number is after the "0x" *)
Theorem C103_sign_refuted : exists m', dtoa StdToChars f64 true (s2z "-1.8p+0") [] (repeat 0 12) (View 0 12) = Ok (m', 9) /\
  forall neg m e, ~ hex_text (slice m' 0 9) neg m e.
Proof.
  eexists. split; [vm_compute; reflexivity|]. intros neg m e H.
  match type of H with hex_text ?x _ _ _ => remember x as s eqn:E end. vm_compute in E. destruct H as [sg neg p i f x di df e SG IP HI HF HX NE].
  assert (sg = []) as -> by (destruct neg; [subst sg; discriminate|destruct SG as [->| ->]; [reflexivity|discriminate]]).
  cbn [app] in E. injection E as E1 E2. destruct HI as [|c d i di [C1 C2] HI]; cbn [app] in E2; [|injection E2 as -> E2; discriminate].
  destruct HF as [|g ds HG]; cbn [app] in E2; [|discriminate].
  destruct HX as [|q y Q|q y Q|q y Q]; try discriminate; injection E2 as -> E2; cbn in Q; repeat (destruct Q as [Q|Q]; [discriminate|]); exact Q.
Qed.
Print Assumptions C103_sign_refuted.
(** the format for snprintf is a conversion specification and fits in its array *)
Theorem C103_format precision prec formatting lm : -1 <= precision < 2 ^ 31 -> is_int_text false 10 precision prec -> In lm [s2z ""; s2z "l"] ->
  In formatting (s2z "feag") -> exists s, get_real_format_str precision prec formatting lm = Ok s /\ printf_real s /\ len s < 16 /\
    (precision = -1 -> s = s2z "%" ++ lm ++ [formatting]) /\ (0 < precision -> s = s2z "%." ++ prec ++ lm ++ [formatting]) /\
    (precision = 0 -> s = s2z "%." ++ lm ++ [formatting]).
Proof. exact (format_str_ok precision prec formatting lm). Qed.
Print Assumptions C103_format.
(** the precision is an int; for other negative numbers the format is not one *)
Theorem C103_format_refuted : is_int_text false 10 (-2) (s2z "-2") /\ exists s, get_real_format_str (-2) (s2z "-2") (ch "g") (s2z "l") = Ok s /\ ~ printf_real s.
Proof.
  split.
  - exists (s2z "2"). split; [|reflexivity]. exists [2]. split; [|reflexivity]. split; [discriminate|repeat constructor; lia| |reflexivity]. intros t H. discriminate.
  - eexists. split; [vm_compute; reflexivity|]. intros H. match type of H with printf_real ?x => remember x as s eqn:E end. destruct H as [p lm c P LM C].
    injection E as E. destruct P as [->|[d [D ->]]]; cbn [app] in E.
    + cbn in LM. destruct LM as [<-|[<-|[]]]; cbn in E; discriminate.
    + injection E as E. destruct D as [|x d X D].
      * cbn in LM. destruct LM as [<-|[<-|[]]]; cbn in E; discriminate.
      * cbn [app] in E. injection E as -> E. unfold dig in X. change (ch "0") with 48 in X. lia.
Qed.
Print Assumptions C103_format_refuted.
Example C103_ex1 : dtoa StdToChars f64 false (s2z "0.1") [] (repeat 120 5) (View 1 3) = Ok (s2z "x0.1x", 3) /\ dtoa StdToChars f64 true (s2z "1.8p+1") [] (repeat 120 8) (View 0 8) = Ok (s2z "0x1.8p+1", 8).
Proof. split; vm_compute; reflexivity. Qed.
Example C103_ex2 : dtoa Snprintf f64 false (s2z "0.1") [] (repeat 120 5) (View 1 4) = Ok (s2z "x0.1" ++ [0], 3) /\ dtoa Snprintf f64 false (s2z "0.1") [] (repeat 120 5) (View 1 3) = Ok (s2z "x0." ++ [0] ++ s2z "x", 4).
Proof. split; vm_compute; reflexivity. Qed.
Example C103_ex3 : get_real_format_str 3 (s2z "3") (ch "f") (s2z "l") = Ok (s2z "%.3lf") /\ get_real_format_str (-1) (s2z "-1") (ch "g") (s2z "") = Ok (s2z "%g").
Proof. split; reflexivity. Qed.

(** ** C104: cat, catsep and format of real numbers and other arguments *)
(** the conversions: real numbers, and the other arguments except the aligned ones *)
Theorem C104_real p f text junk : text <> [] -> writes (dtoa p f false text junk) text 1.
Proof. exact (dtoa_writes p f text junk). Qed.
Print Assumptions C104_real.
Theorem C104_other dbg a t : arg_text a t -> simple a -> writes (fun m b => to_chars dbg m b a) t 1.
Proof. intros H S. apply writes_slack; [now apply arg_writes|lia]. Qed.
Print Assumptions C104_other.
(** the functions with the arguments as conversions are those of C41 to C45 *)
Theorem C104_same dbg m b sep f al : let ws := map (fun a m b => to_chars dbg m b a) al in
  cat dbg m b al = catw ws m b /\ catsep dbg m b sep al = catsepw (fun m b => to_chars dbg m b sep) ws m b /\ FormatModel.format dbg m b f al = formatw f ws m b.
Proof. split; [apply cat_catw|]. split; [apply catsep_catw|apply format_catw]. Qed.
Print Assumptions C104_same.
(** in a buffer of any size: nothing outside is written; if the size is not larger than the buffer, the text is there *)
Theorem C104_cat ws ts : Forall2 (fun w t => writes w t 1) ws ts -> len (concat ts) + 18 * len ts < 2 ^ 62 ->
  puts (catw ws) (concat ts) (len (concat ts) + 18 * len ts).
Proof. exact (catw_writes ws ts). Qed.
Print Assumptions C104_cat.
Theorem C104_catsep sep st ws ts : writes sep st 1 -> Forall2 (fun w t => writes w t 1) ws ts -> len (concat (intersperse st ts)) + 36 * len ts < 2 ^ 62 ->
  puts (catsepw sep ws) (concat (intersperse st ts)) (len (concat (intersperse st ts)) + 36 * len ts).
Proof. exact (catsepw_writes sep st ws ts). Qed.
Print Assumptions C104_catsep.
Theorem C104_format f ts out ws : fmt_subst f ts out -> small f -> Forall2 (fun w t => writes w t 1) ws ts -> len out + 36 * len ts + 18 < 2 ^ 62 ->
  puts (formatw f ws) out (len out + 36 * len ts + 18).
Proof. exact (formatw_writes f ts out ws). Qed.
Print Assumptions C104_format.
(** into a container: the loop that grows it ends, at the latest after as many rounds as the text has characters and two, and
    the container has the text. It is not two rounds as for the other arguments, because the size is not exact. *)
Theorem C104_container W out k fuel c : puts W out k -> 0 <= k -> len out + k < 2 ^ 61 -> len c < 2 ^ 62 -> len out + 1 < Z.of_nat fuel ->
  rs_loop fuel W c = Ok out.
Proof. intros P K B L F. pose proof (len_nonneg out). pose proof (len_nonneg c). apply (rs_loop_puts W out k); auto; lia. Qed.
Print Assumptions C104_container.
Theorem C104_append W out k fuel c : puts W out k -> 0 <= k -> len c + len out + k < 2 ^ 61 -> len out + 1 < Z.of_nat fuel ->
  rs_append_loop fuel W (len c) c = Ok (c ++ out, View (len c) (len out)).
Proof.
  intros P K B F. pose proof (len_nonneg out). pose proof (len_nonneg c). apply (rs_append_puts W out k (len c) c); auto; try lia.
  unfold len. rewrite Nat2Z.id. apply firstn_all.
Qed.
Print Assumptions C104_append.
(** the size that cat returns is not the size needed: a container of that size is too small *)
Theorem C104_size_refuted : exists ws ts n, Forall2 (fun w t => writes w t 1) ws ts /\ catw ws [] (View 0 0) = Ok ([], n) /\ n < len (concat ts).
Proof.
  exists [dtoa StdToChars f64 false (s2z "-2.2250738585072014e-308") []], [s2z "-2.2250738585072014e-308"], 17.
  split; [constructor; [apply dtoa_writes; discriminate|constructor]|]. split; reflexivity.
Qed.
Print Assumptions C104_size_refuted.
Definition ex_ws : list conv := [wstr (s2z "x="); dtoa StdToChars f64 false (s2z "-2.2250738585072014e-308") []; dtoa Snprintf f32 false (s2z "0.5") []].
Example C104_ex1 : rs_loop 30 (catw ex_ws) [] = Ok (s2z "x=-2.2250738585072014e-3080.5") /\ rs_loop 30 (catsepw (wstr (s2z ",")) ex_ws) (s2z "zz") = Ok (s2z "x=,-2.2250738585072014e-308,0.5").
Proof. split; vm_compute; reflexivity. Qed.
Example C104_ex2 : rs_append_loop 30 (formatw (s2z "<{}{}|{}>") ex_ws) 2 (s2z "zz") = Ok (s2z "zz<x=-2.2250738585072014e-308|0.5>", View 2 32).
Proof. vm_compute. reflexivity. Qed.
Example C104_ex3 : rs_loop 3 (catw ex_ws) [] = Ub.
Proof. vm_compute. reflexivity. Qed.

(** ** C105: what ftoa and dtoa write, atof and atod read *)
(** if the text written for the number [w] is decimal and [w] is the number nearest to it, as std::to_chars guarantees
    without a precision *)
Theorem C105_round_trip dbg rn p f mb eb text junk neg d e w m b w0 : format f mb eb -> vin b m -> bytes text -> decimal_text text neg d e ->
  nearest mb eb neg (decimal d e) w -> b_finite mb eb w -> (d = 0 \/ ~ b_zero mb eb w) -> len text + 400 <= 2 ^ 28 -> len text < vl b ->
  exists m' n, dtoa p f false text junk m b = Ok (m', n) /\ n <= vl b /\ atod dbg rn f (slice m' (vo b) n) w0 = Ok (true, w).
Proof. intros H. destruct (format_fok f mb eb H) as [F ->]. exact (round_trip dbg rn p f eb text junk neg d e w m b w0 F). Qed.
Print Assumptions C105_round_trip.
Theorem C105_special dbg rn p f mb eb text junk neg nan m b w0 : format f mb eb -> vin b m -> bytes text -> special_text text neg nan -> len text < 2 ^ 63 -> len text < vl b ->
  exists m' n w, dtoa p f false text junk m b = Ok (m', n) /\ n <= vl b /\ atod dbg rn f (slice m' (vo b) n) w0 = Ok (true, w) /\
    b_neg mb eb w = neg /\ (if nan then b_nan mb eb w else b_infinite mb eb w).
Proof.
  intros H V B T L LB. assert (NE : text <> []) by (apply starts_ne; exact (special_starts text [] neg nan T)).
  destruct (dtoa_fits p f false text junk m b V NE ltac:(discriminate)) as [m' [E [SL _]]]; [change (full_text false text) with text; destruct p; lia|].
  change (full_text false text) with text in *. destruct (C100_special dbg rn f mb eb text neg nan w0 H B T ltac:(lia)) as [w [E2 R]].
  exists m', (len text), w. rewrite SL. split; [exact E|]. split; [lia|]. split; [exact E2|exact R].
Qed.
Print Assumptions C105_special.
(** not in hexadecimal format: 3 is written as 0x1.8p+1 and read as 24 *)
Theorem C105_hexa_refuted : exists text m', hex_text (s2z "0x" ++ text) false 24 (-3) /\ (hex_value 24 (-3) == 3)%Q /\
  dtoa StdToChars f64 true text [] (repeat 0 20) (View 0 20) = Ok (m', 8) /\
  forall dbg rn, atod dbg rn f64 (slice m' 0 8) 0 = Ok (true, 0x4038000000000000).
Proof.
  exists (s2z "1.8p+1"). eexists. split.
  - apply (hex_text_intro [] false (ch "x") (s2z "1") (s2z ".8") (s2z "p+1") [1] [8] 1); [now left|now left|repeat constructor|apply (hf_some (s2z "8")); repeat constructor| |discriminate].
    apply (hx_plus (ch "p") (s2z "1")); [now left|discriminate|repeat constructor; discriminate].
  - split; [reflexivity|]. split; [vm_compute; reflexivity|]. intros [|] [|]; vm_compute; reflexivity.
Qed.
Print Assumptions C105_hexa_refuted.
Example C105_ex1 : nearest 52 11 false (decimal 1 (-1)) 0x3FB999999999999A.
Proof.
  destruct (C97_rounds_partial true f64 52 11 (s2z "0.1") [] false 1 (-1)) as [w [ec [E [N _]]]].
  - left. auto.
  - repeat constructor; discriminate.
  - apply (decimal_text_intro false (s2z "0") (s2z ".1") (s2z "1") [] 0); [repeat constructor; discriminate|apply (fr_some (s2z "1")); repeat constructor; discriminate|constructor|discriminate].
  - apply longest_nil.
  - discriminate.
  - vm_compute in E. injection E as <- <-. exact N.
Qed.
Example C105_ex2 : dtoa Snprintf f64 false (s2z "0.1") [] (repeat 120 5) (View 1 4) = Ok (s2z "x0.1" ++ [0], 3) /\ atod true true f64 (slice (s2z "x0.1" ++ [0]) 1 3) 0 = Ok (true, 0x3FB999999999999A).
Proof. split; vm_compute; reflexivity. Qed.
