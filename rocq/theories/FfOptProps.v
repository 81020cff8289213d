(** fast_float with options: C124. *)
From Verif Require Import Base BaseLemmas FloatTable FloatModel FloatSpec FfOptModel FfOptSpec FloatProofs14 FloatProps FfOptProofs2 FfOptProofs3 FfOptProofs4 FfOptProofs5.
From Coq Require Import Lia.
Open Scope Z_scope.

(** ** C124: the formats of numbers and the decimal point *)

(** The longest number at the start of the text is rounded right if the format admits it; the
    answer points behind it. The bound on the length is the one of C97. *)
Theorem C124_rounds_partial : forall rn f mb eb o t rest neg i d x e, format f mb eb -> point_char (o_dot o) -> o_fixed o || o_sci o || negb (o_fortran o) = true ->
  bytes (t ++ rest) -> number_text (o_dot o) (o_sci o) (o_fortran o) t neg i d x e -> longest_number (o_dot o) (o_sci o) (o_fortran o) t rest ->
  admitted (o_json o) (o_sci o && negb (o_fixed o)) i d x -> len t + 400 <= 2 ^ 28 ->
  let m := dec (i ++ fraction_digits d) in let k := e - len (fraction_digits d) in
  exists w ec, from_chars_opt rn f o (t ++ rest) = Ok (FFRes rest ec (Some w)) /\ nearest mb eb neg (decimal m k) w /\
  (b_infinite mb eb w \/ 0 < m /\ b_zero mb eb w -> ec = ERange) /\
  (~ b_infinite mb eb w -> ~ (0 < m /\ b_zero mb eb w) -> ec = EOk).
Proof.
  intros rn f mb eb o t rest neg i d x e H PC FS. destruct (format_fok f mb eb H) as [F ->].
  exact (opt_number rn f eb o t rest neg i d x e F (conj PC FS)).
Qed.
Print Assumptions C124_rounds_partial.

(** Left is the flag for Fortran without fixed and scientific. It reads as with fixed, except
    that a number without an exponent is refused if a sign or a d follows it. *)
Theorem C124_fortran_alone_refuted : forall rn f noinf js dot t rest neg i d x e, point_char dot -> bytes (t ++ rest) ->
  number_text dot false true t neg i d x e -> longest_number dot false true t rest -> admitted js false i d x ->
  let alone := Opts false false noinf js true dot in let with_fixed := Opts false true noinf js true dot in
  let cut := x = [] /\ exists c r, rest = c :: r /\ In c (s2z "+-dD") in
  (cut -> from_chars_opt rn f alone (t ++ rest) = Ok (FFRes (t ++ rest) EInvalid None)) /\
  (~ cut -> from_chars_opt rn f alone (t ++ rest) = from_chars_opt rn f with_fixed (t ++ rest)).
Proof. intros rn f noinf js dot t rest neg i d x e. exact (alone_number noinf js dot rn f t rest neg i d x e). Qed.
Print Assumptions C124_fortran_alone_refuted.

(** A text without a number, and one whose longest number the format does not admit: refused,
    pointing at the start, nothing stored. *)
Theorem C124_rejects : forall rn f o s, point_char (o_dot o) -> bytes s ->
  no_number_text (o_dot o) (o_sci o) (o_fortran o) s \/
  (exists t rest neg i d x e, s = t ++ rest /\ number_text (o_dot o) (o_sci o) (o_fortran o) t neg i d x e /\
     longest_number (o_dot o) (o_sci o) (o_fortran o) t rest /\ ~ admitted (o_json o) (o_sci o && negb (o_fixed o)) i d x) ->
  o_noinf o = true \/ no_special s ->
  from_chars_opt rn f o s = Ok (FFRes s EInvalid None).
Proof. exact any_rejects. Qed.
Print Assumptions C124_rejects.

(** Infinities and NaNs are refused with no_infnan and otherwise read as always. *)
Theorem C124_special : forall rn f o s, point_char (o_dot o) -> bytes s ->
  (exists t rest neg nan, s = t ++ rest /\ special_text t neg nan) ->
  from_chars_opt rn f o s = if o_noinf o then Ok (FFRes s EInvalid None) else from_chars_float rn f s.
Proof. exact any_special. Qed.
Print Assumptions C124_special.

(** Every text has an answer, which points into the text. *)
Theorem C124_total : forall rn f mb eb o s, format f mb eb -> point_char (o_dot o) -> bytes s ->
  exists r k, from_chars_opt rn f o s = Ok r /\ s = k ++ r_rest r.
Proof. intros rn f mb eb o s H. destruct (format_fok f mb eb H) as [F ->]. exact (any_total rn f eb o s F). Qed.
Print Assumptions C124_total.

(** general is what from_chars without options uses. *)
Theorem C124_general : forall rn f s, from_chars_opt rn f general s = from_chars_float rn f s.
Proof. exact opt_general. Qed.
Print Assumptions C124_general.

(** json admits the numbers of RFC 8259. *)
Theorem C124_json : forall t,
  (exists neg i d x e, number_text (o_dot json) (o_sci json) (o_fortran json) t neg i d x e /\
     admitted (o_json json) (o_sci json && negb (o_fixed json)) i d x) <-> json_number t.
Proof. exact json_texts. Qed.
Print Assumptions C124_json.

(** But the longest number of RFC 8259 at the start of a text is not what json reads. *)
Theorem C124_json_longest_refuted : exists t rest, json_number t /\
  (forall a b, rest = a ++ b -> json_number (t ++ a) -> a = []) /\
  forall rn, from_chars_opt rn f64 json (t ++ rest) = Ok (FFRes (t ++ rest) EInvalid None).
Proof.
  exists (s2z "1"), (s2z "."). split; [|split; [|reflexivity]].
  - exists false, (s2z "1"), [], []. split; [apply ji_some; [split; discriminate|constructor]|]. repeat split; constructor.
  - intros a b E J. destruct a as [|c a]; [reflexivity|]. injection E as <- E. symmetry in E. apply app_eq_nil in E as [-> _]. exfalso.
    destruct (json_ends _ J) as [q [c [H D]]]. change (s2z "1" ++ [ch "."]) with ([ch "1"] ++ [ch "."]) in H.
    apply app_inj_tail in H as [_ <-]. destruct D as [D _]. now apply D.
Qed.
Print Assumptions C124_json_longest_refuted.

(** the named formats: which refuse infinities, which want an exponent, which have the ones of
    Fortran *)
Theorem C124_named_special : forall rn f s, bytes s -> (exists t rest neg nan, s = t ++ rest /\ special_text t neg nan) ->
  from_chars_opt rn f json s = Ok (FFRes s EInvalid None) /\
  from_chars_opt rn f json_or_infnan s = from_chars_float rn f s /\ from_chars_opt rn f scientific s = from_chars_float rn f s /\
  from_chars_opt rn f fixed s = from_chars_float rn f s /\ from_chars_opt rn f fortran s = from_chars_float rn f s.
Proof.
  assert (P : point_char (ch ".")) by (split; [intros [H _]; now apply H|]; cbn; intros H; repeat destruct H as [H|H]; try discriminate; exact H).
  intros rn f s B H. repeat split.
  - exact (C124_special rn f json s P B H).
  - exact (C124_special rn f json_or_infnan s P B H).
  - exact (C124_special rn f scientific s P B H).
  - exact (C124_special rn f fixed s P B H).
  - exact (C124_special rn f fortran s P B H).
Qed.
Print Assumptions C124_named_special.
Theorem C124_scientific : forall rn f t rest neg i d e, bytes (t ++ rest) -> no_special (t ++ rest) ->
  number_text (ch ".") true false t neg i d [] e -> longest_number (ch ".") true false t rest ->
  from_chars_opt rn f scientific (t ++ rest) = Ok (FFRes (t ++ rest) EInvalid None).
Proof.
  assert (P : point_char (ch ".")) by (split; [intros [H _]; now apply H|]; cbn; intros H; repeat destruct H as [H|H]; try discriminate; exact H).
  intros rn f t rest neg i d e B S T L. apply (C124_rejects rn f scientific _ P B); [|right; exact S].
  right. exists t, rest, neg, i, d, [], e. repeat split; auto. intros [_ A]. now apply A.
Qed.
Print Assumptions C124_scientific.
Theorem C124_fortran : forall rn f mb eb t rest neg i d x e, format f mb eb -> bytes (t ++ rest) ->
  number_text (ch ".") true true t neg i d x e -> longest_number (ch ".") true true t rest -> len t + 400 <= 2 ^ 28 ->
  exists w ec, from_chars_opt rn f fortran (t ++ rest) = Ok (FFRes rest ec (Some w)) /\
    nearest mb eb neg (decimal (dec (i ++ fraction_digits d)) (e - len (fraction_digits d))) w.
Proof.
  assert (P : point_char (ch ".")) by (split; [intros [H _]; now apply H|]; cbn; intros H; repeat destruct H as [H|H]; try discriminate; exact H).
  intros rn f mb eb t rest neg i d x e F B T L N.
  destruct (C124_rounds_partial rn f mb eb fortran t rest neg i d x e F P eq_refl B T L ltac:(split; discriminate) N) as (w & ec & R & Q & _).
  exists w, ec. split; assumption.
Qed.
Print Assumptions C124_fortran.

Definition comma := Opts true true false false false (ch ",").
(** a prefix is read; an exponent a format does not have ends the number; one it wants and does
    not find is an error *)
Example C124_ex1 :
  from_chars_opt true f64 fixed (s2z "1.5e1") = Ok (FFRes (s2z "e1") EOk (Some 0x3FF8000000000000)) /\
  from_chars_opt true f64 scientific (s2z "1.5e1") = Ok (FFRes [] EOk (Some 0x402E000000000000)) /\
  from_chars_opt true f64 scientific (s2z "1.5") = Ok (FFRes (s2z "1.5") EInvalid None) /\
  from_chars_opt true f64 scientific (s2z "1.5e+") = Ok (FFRes (s2z "1.5e+") EInvalid None) /\
  from_chars_opt true f64 general (s2z "1.5e+") = Ok (FFRes (s2z "e+") EOk (Some 0x3FF8000000000000)).
Proof. repeat split; vm_compute; reflexivity. Qed.
Example C124_ex2 :
  map (fun s => from_chars_opt true f32 json (s2z s)) ["01"; "1."; ".5"; "-.5"; "inf"]%string =
  map (fun s => Ok (FFRes (s2z s) EInvalid None)) ["01"; "1."; ".5"; "-.5"; "inf"]%string /\
  from_chars_opt true f32 json (s2z "-0.5E-00]") = Ok (FFRes (s2z "]") EOk (Some 0xBF000000)) /\
  from_chars_opt true f32 json_or_infnan (s2z "-inf") = Ok (FFRes [] EOk (Some 0xFF800000)).
Proof. repeat split; vm_compute; reflexivity. Qed.
Example C124_ex3 :
  map (fun s => from_chars_opt true f64 fortran (s2z s)) ["15d0"; "1.5+1"; "15.E0"; "150-1"]%string = repeat (Ok (FFRes [] EOk (Some 0x402E000000000000))) 4 /\
  from_chars_opt true f64 comma (s2z "1,5.") = Ok (FFRes (s2z ".") EOk (Some 0x3FF8000000000000)) /\
  from_chars_opt true f64 comma (s2z "0,000000000000000000001234567890123456789012") = from_chars_opt true f64 general (s2z "1.234567890123456789012e-21").
Proof. repeat split; vm_compute; reflexivity. Qed.
(** the theorem applies *)
Example C124_ex4 : exists w ec, from_chars_opt true f64 fortran (s2z "-2.50d+3x") = Ok (FFRes (s2z "x") ec (Some w)) /\ nearest 52 11 true (decimal 250 1) w.
Proof.
  destruct (C124_rounds_partial true f64 52 11 fortran (s2z "-2.50d+3") (s2z "x") true (s2z "2") (Some (s2z "50")) (s2z "d+3") 3) as [w [ec [R [N _]]]].
  - left. repeat split.
  - split; [intros [H _]; now apply H|]. cbn. intros H. repeat destruct H as [H|H]; try discriminate. exact H.
  - reflexivity.
  - repeat constructor; discriminate.
  - apply (number_text_intro (ch ".") true true true (s2z "2") (Some (s2z "50")) (s2z "d+3") 3).
    + repeat constructor; discriminate.
    + repeat constructor; discriminate.
    + apply (xp_some true true [ch "d"] [ch "+"] false (s2z "3")); [apply mk_d; [reflexivity|now left]|constructor|discriminate|repeat constructor; discriminate].
    + discriminate.
  - intros a b neg i d x e E T. destruct a as [|c a]; [reflexivity|]. injection E as <- E. symmetry in E. apply app_eq_nil in E as [-> _]. exfalso.
    destruct (number_ends _ _ _ _ _ _ _ _ _ T) as [q [c [H [D|D]]]].
    all: change (s2z "-2.50d+3" ++ [ch "x"]) with ((s2z "-2.50d+3") ++ [ch "x"]) in H; apply app_inj_tail in H as [_ <-].
    + destruct D as [_ D]. now apply D.
    + discriminate.
  - split; discriminate.
  - vm_compute. discriminate.
  - exists w, ec. split; [exact R|exact N].
Qed.
Example C124_ex5 : let alone := Opts false false false false true (ch ".") in
  map (fun s => from_chars_opt true f64 alone (s2z s)) ["1d"; "1+"; "1-x"]%string = map (fun s => Ok (FFRes (s2z s) EInvalid None)) ["1d"; "1+"; "1-x"]%string /\
  map (fun s => from_chars_opt true f64 alone (s2z s)) ["1e"; "1d0e"; "10-1e"]%string = repeat (Ok (FFRes (s2z "e") EOk (Some 0x3FF0000000000000))) 3.
Proof. split; vm_compute; reflexivity. Qed.
