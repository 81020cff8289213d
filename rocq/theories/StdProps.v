(** Reading real numbers with std::from_chars. *)
From Verif Require Import Base BaseLemmas CharconvSpec SpanNumSpec FloatSpec ScanModel SubstrModel SubstrSpec CharconvModel SpanNumModel Base64Model FloatModel FloatProofs2 FloatProofs17 FloatProps RealModel RealSpec RealProofs RealProofs3 ScanfProofs3 StdModel StdSpec StdProofs.
From Coq Require Import Lia.
Open Scope Z_scope.

(** ** C118: builds that read with std::from_chars *)
(** fast_float has a result that the standard prescribes, but for the value it writes if the number is out of range.
    In particular such a result exists. Missing: longer texts. *)
Theorem C118_fast_float_partial rn f mb eb s : format f mb eb -> bytes s -> len s + 400 <= 2 ^ 28 ->
  exists rest ec v, from_chars_float rn f s = Ok (FFRes rest ec v) /\ std_from_chars true mb eb s (StdRes rest ec (match ec with EOk => v | _ => None end)).
Proof.
  intros H B L. destruct (format_fok f mb eb H) as [F ->]. destruct (fast_float_std rn f eb s F B L) as [[rest ec v] [E R]]. exists rest, ec, v. auto.
Qed.
Print Assumptions C118_fast_float_partial.
(** Both builds accept the same texts and read the same numbers. Missing: hexadecimal numbers, and what is in the variable
    if the text is not accepted. *)
Theorem C118_agree_partial dbg rn f mb eb s c q r w0 : format f mb eb -> bytes s -> s = c :: q -> ~ blank c -> len s + 400 <= 2 ^ 28 -> ~ hex_start s ->
  std_from_chars true mb eb s r ->
  exists ok w w', atod dbg rn f s w0 = Ok (ok, w) /\ atof_std dbg r s w0 = Ok (ok, w') /\ (ok = true -> w = w' \/ b_nan mb eb w /\ b_nan mb eb w').
Proof.
  intros H B E NB L. destruct (format_fok f mb eb H) as [F ->]. apply agree; auto. exists c, q. auto.
Qed.
Print Assumptions C118_agree_partial.
(** decimal numbers of any length are rounded to nearest, or rejected and the variable is kept *)
Theorem C118_decimal dbg under mb eb t neg m e r w0 : 1 <= mb -> 2 <= eb -> decimal_text t neg m e -> len t < 2 ^ 64 -> std_from_chars under mb eb t r ->
  exists w, nearest mb eb neg (decimal m e) w /\
    (out_of_range under mb eb m w /\ atof_std dbg r t w0 = Ok (false, w0) \/ ~ out_of_range under mb eb m w /\ atof_std dbg r t w0 = Ok (true, w)).
Proof.
  intros M E D L R. assert (ST := decimal_starts t [] neg m e D). rewrite app_nil_r in ST. rewrite (atof_std_eq dbg r t w0 ST L).
  exact (std_decimal under mb eb t neg m e r w0 D R).
Qed.
Print Assumptions C118_decimal.
(** an empty text and blanks at the begin are reported if assertions are on *)
Theorem C118_blank r s w0 : len s < 2 ^ 63 -> s = [] \/ (exists c q, s = c :: q /\ blank c) -> atof_std true r s w0 = Err.
Proof. exact (std_blank r s w0). Qed.
Print Assumptions C118_blank.
(** Every hexadecimal number is accepted and read as zero. *)
Theorem C118_hex_refuted dbg under mb eb sg p q r w0 : 1 <= mb -> 2 <= eb -> In p (s2z "xX") -> sg = [] \/ sg = s2z "-" -> len (sg ++ ch "0" :: p :: q) < 2 ^ 64 ->
  std_from_chars under mb eb (sg ++ ch "0" :: p :: q) r -> exists w, atof_std dbg r (sg ++ ch "0" :: p :: q) w0 = Ok (true, w) /\ (b_value mb eb w == 0)%Q.
Proof.
  intros M E P S L R. destruct (hex_zero under mb eb sg p q r M E P S R) as [w [-> N]]. exists w. split; [|exact (nearest_zero mb eb _ w M E N)].
  apply atof_std_eq; [|exact L]. destruct S as [->| ->]; cbn [app]; (eexists _, _; split; [reflexivity|]); unfold blank; cbn; intros K; repeat (destruct K as [K|K]; [discriminate|]); exact K.
Qed.
Print Assumptions C118_hex_refuted.
Lemma dec1e n x : expo (ch "e" :: n) x -> decimal_text (ch "1" :: ch "e" :: n) false 1 x.
Proof.
  intros X. assert (D := decimal_text_intro false [ch "1"] [] [] (ch "e" :: n) x). cbn [app] in D. replace (x - len []) with x in D by (cbn; lia). apply D; auto; try constructor; try discriminate; [split; discriminate|constructor].
Qed.
Lemma std_1e n x under r : expo (ch "e" :: n) x -> std_from_chars under 52 11 (ch "1" :: ch "e" :: n) r -> exists w, nearest 52 11 false (decimal 1 x) w /\
    (out_of_range under 52 11 1 w /\ r = StdRes [] ERange None \/ ~ out_of_range under 52 11 1 w /\ r = StdRes [] EOk (Some w)).
Proof. intros X. apply std_decimal_res. now apply dec1e. Qed.
(** If the number is out of range, atod writes it with fast_float and does not with std::from_chars. *)
Theorem C118_range_refuted dbg rn under r w0 : std_from_chars under 52 11 (s2z "1e999") r ->
  atod dbg rn f64 (s2z "1e999") w0 = Ok (false, 0x7FF0000000000000) /\ atof_std dbg r (s2z "1e999") w0 = Ok (false, w0).
Proof.
  intros R. split; [destruct dbg, rn; vm_compute; reflexivity|]. apply (std_1e (s2z "999") 999) in R; [|apply (ex_plain (ch "e") (s2z "999")); [now left|discriminate|repeat constructor; discriminate]].
  destruct R as [w [N [[_ ->]|[O ->]]]]; [destruct dbg; reflexivity|]. exfalso. apply O. left. destruct N as (_ & N & _). apply N. vm_compute. discriminate.
Qed.
Print Assumptions C118_range_refuted.
(** A number that is rounded to zero is accepted with some libraries and not with fast_float. *)
Theorem C118_under_refuted dbg rn r w0 : std_from_chars false 52 11 (s2z "1e-999") r ->
  atod dbg rn f64 (s2z "1e-999") w0 = Ok (false, 0) /\ exists w, atof_std dbg r (s2z "1e-999") w0 = Ok (true, w).
Proof.
  intros R. split; [destruct dbg, rn; vm_compute; reflexivity|]. apply (std_1e (s2z "-999") (-999)) in R; [|apply (ex_minus (ch "e") (s2z "999")); [now left|discriminate|repeat constructor; discriminate]].
  destruct R as [w [N [[O _]|[_ ->]]]]; [|exists w; destruct dbg; reflexivity]. exfalso. destruct O as [I|[O _]]; [|discriminate].
  destruct N as (_ & _ & N). destruct N as [(_ & N) _]; [vm_compute; reflexivity|]. destruct I as (_ & I & _). lia.
Qed.
Print Assumptions C118_under_refuted.
(** ** atof_first and atod_first *)
Theorem C118_first dbg fc a w b w0 : small (a ++ w ++ b) -> bytes (a ++ w ++ b) -> Forall blank a -> ended b -> real_literal w ->
  atof_first_std dbg fc (a ++ w ++ b) w0 = Ok (match sr_ec (fc w) with EOk => Some (len a + len w) | _ => None end, match sr_value (fc w) with Some x => x | None => w0 end).
Proof. exact (first_std_eq dbg fc a w b w0). Qed.
Print Assumptions C118_first.
Theorem C118_first_none dbg fc s w0 : small s -> bytes s -> (forall a w b, s = a ++ w ++ b -> Forall blank a -> ended b -> ~ real_literal w) ->
  atof_first_std dbg fc s w0 = Ok (None, w0).
Proof. exact (first_std_none dbg fc s w0). Qed.
Print Assumptions C118_first_none.
(** the whole hexadecimal number is taken as read, with the value zero *)
Theorem C118_first_hex_refuted dbg fc under w0 : std_from_chars under 52 11 (s2z "0x1p+3") (fc (s2z "0x1p+3")) ->
  exists w, atof_first_std dbg fc (s2z " 0x1p+3,") w0 = Ok (Some 7, w) /\ (b_value 52 11 w == 0)%Q.
Proof.
  intros R. destruct (hex_zero under 52 11 [] (ch "x") (s2z "1p+3") _ ltac:(lia) ltac:(lia) (or_introl eq_refl) (or_introl eq_refl) R) as [w [E N]].
  exists w. split; [|exact (nearest_zero 52 11 _ w ltac:(lia) ltac:(lia) N)]. cbn [app] in E. change (ch "0" :: ch "x" :: s2z "1p+3") with (s2z "0x1p+3") in E.
  change (s2z " 0x1p+3,") with (s2z " " ++ s2z "0x1p+3" ++ s2z ","). rewrite C118_first.
  - rewrite E. reflexivity.
  - reflexivity.
  - repeat constructor; discriminate.
  - repeat constructor.
  - right. exists (ch ","), []. split; [reflexivity|]. cbn. auto 10.
  - exists [], (s2z "0x1p+3"). split; [reflexivity|]. split; [now left|]. apply (rb_hex (ch "x") (s2z "1") (s2z "p+3")); [now left| |].
    + apply man_int; [discriminate|]. constructor; [exists 1; split; reflexivity|constructor].
    + apply (exp_some _ _ (ch "p") (s2z "+") (s2z "3")); [now left|now left|discriminate|]. constructor; [exists 3; split; reflexivity|constructor].
Qed.
Print Assumptions C118_first_hex_refuted.
Example C118_ex1 dbg rn : exists rest ec v, from_chars_float rn f64 (s2z "2.5kg") = Ok (FFRes rest ec v) /\ std_from_chars true 52 11 (s2z "2.5kg") (StdRes rest ec v) /\
  rest = s2z "kg" /\ atof_std dbg (StdRes rest ec v) (s2z "2.5kg") 7 = Ok (true, 0x4004000000000000) /\ atod dbg rn f64 (s2z "2.5kg") 7 = Ok (true, 0x4004000000000000).
Proof.
  destruct (C118_fast_float_partial rn f64 52 11 (s2z "2.5kg")) as (rest & ec & v & E & R); [left; auto|repeat constructor; discriminate|vm_compute; discriminate|].
  exists rest, ec, v. rewrite E. destruct rn; vm_compute in E; injection E as <- <- <-; (split; [reflexivity|]); (split; [exact R|]); (split; [reflexivity|]); destruct dbg; split; vm_compute; reflexivity.
Qed.
