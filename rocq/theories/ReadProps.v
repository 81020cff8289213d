(** The properties C110 and C111: to_chars_sub, and reading back any mix of values. *)
From Verif Require Import Base BaseLemmas CharconvModel CharconvSpec SubstrModel SubstrSpec SubstrProofs SubstrProofs2 SubstrProofs3 SubstrProofs4 SpanNumModel SpanNumSpec FormatModel FormatSpec.
From Verif Require Import FloatModel FloatSpec FloatProps RealModel RealSpec RealProofs RealProofs2 RealProofs3 RealProofs4 RealProofs5 RealProps ReadModel ReadSpec ReadProofs.
From Coq Require Import Lia.
Open Scope Z_scope.
Notation format := FloatProps.format.

Lemma left_of_small n k : n < 2 ^ 63 -> k <= n -> left_of n k = Ok (View 0 k).
Proof.
  intros N K. assert (P : npos = 2 ^ 64 - 1) by reflexivity. unfold left_of, assert. replace (k <=? n) with true by lia. replace (k =? npos) with false by lia. reflexivity.
Qed.

(** ** C110: [to_chars_sub] returns the view of the text that was written *)
Theorem C110_text : forall conv t slack m b, writes conv t slack -> vin b m -> vl b < 2 ^ 63 -> len t + slack <= vl b ->
  exists m', to_chars_sub conv m b = Ok (m', View (vo b) (len t)) /\ contents m' (View (vo b) (len t)) = t /\ same_outside m m' b.
Proof.
  intros conv t slack m b W V L F. destruct (W m b V L) as [m' [n [E [S [N [H1 H2]]]]]]. specialize (H2 F). destruct (H1 H2) as [-> T].
  exists m'. split; [|split; [exact T|exact S]]. unfold to_chars_sub. rewrite E. cbn [bind]. replace (len t <=? vl b) with true by lia.
  rewrite left_of_small by lia. reflexivity.
Qed.
Print Assumptions C110_text.
(** in any buffer the view is a part of the buffer, and nothing outside is written *)
Theorem C110_safe : forall conv t slack m b, writes conv t slack -> vin b m -> vl b < 2 ^ 63 ->
  exists m' v, to_chars_sub conv m b = Ok (m', v) /\ vo v = vo b /\ 0 <= vl v <= vl b /\ same_outside m m' b /\ (vl v < vl b -> contents m' v = t).
Proof.
  intros conv t slack m b W V L. destruct (W m b V L) as [m' [n [E [S [N [H1 H2]]]]]]. assert (0 <= vl b) by (destruct V as [_ [? _]]; assumption).
  unfold to_chars_sub. rewrite E. cbn [bind]. destruct (Z.leb_spec n (vl b)) as [C|C].
  - rewrite left_of_small by lia. exists m', (View (vo b) n). split; [reflexivity|]. cbn [vo vl]. split; [reflexivity|]. split; [lia|]. split; [exact S|]. intros _. now apply H1.
  - rewrite left_of_small by lia. exists m', (View (vo b) (vl b)). split; [reflexivity|]. cbn [vo vl]. split; [reflexivity|]. split; [lia|]. split; [exact S|]. lia.
Qed.
Print Assumptions C110_safe.
(** if the text does not fit, the whole buffer is returned, whatever is in it *)
Theorem C110_small_refuted : to_chars_sub (fun m b => to_chars_int i32 m b 1234) (s2z "####") (View 0 3) = Ok (s2z "####", View 0 3).
Proof. vm_compute. reflexivity. Qed.
Print Assumptions C110_small_refuted.
Example C110_ex1 : to_chars_sub (fun m b => to_chars_int i32 m b (-12)) (s2z "######") (View 1 4) = Ok (s2z "#-12##", View 1 3) /\
  to_chars_sub (dtoa StdToChars f64 false (s2z "0.5") []) (s2z "######") (View 1 4) = Ok (s2z "#0.5##", View 1 3).
Proof. vm_compute. auto. Qed.

(** ** C111: uncat, uncatsep and unformat read what cat, catsep and format wrote, for any mix of
    real numbers, integers and characters *)
Theorem C111_real dbg rn f mb eb w neg m e x : format f mb eb -> decimal_text w neg m e -> len w + 400 <= 2 ^ 28 ->
  nearest mb eb neg (decimal m e) x -> b_finite mb eb x -> m = 0 \/ ~ b_zero mb eb x -> reads (atod_first dbg rn f) w x ended.
Proof. intros H. destruct (format_fok f mb eb H) as [F ->]. exact (real_reads dbg rn f eb w neg m e x F). Qed.
Print Assumptions C111_real.
Theorem C111_infinity dbg rn f mb eb w neg x : format f mb eb -> In (w, neg) [(s2z "inf", false); (s2z "-inf", true); (s2z "infinity", false); (s2z "-infinity", true)] ->
  b_neg mb eb x = neg -> b_infinite mb eb x -> reads (atod_first dbg rn f) w x ended.
Proof. intros H. destruct (format_fok f mb eb H) as [F ->]. exact (inf_reads dbg rn f eb w neg x F). Qed.
Print Assumptions C111_infinity.
(** a NaN of that sign, always the same one *)
Theorem C111_nan dbg rn f mb eb w neg : format f mb eb -> In (w, neg) [(s2z "nan", false); (s2z "-nan", true)] ->
  exists x, b_neg mb eb x = neg /\ b_nan mb eb x /\ reads (atod_first dbg rn f) w x ended.
Proof. intros H. destruct (format_fok f mb eb H) as [F ->]. exact (nan_reads dbg rn f eb w neg F). Qed.
Print Assumptions C111_nan.
Theorem C111_int t w v : int_text t w v -> in_range t v -> reads (ato_first t) w v ended.
Proof. exact (int_reads t w v). Qed.
Print Assumptions C111_int.
Theorem C111_char c : reads from_chars_first_char [c] c (fun _ => True).
Proof. exact (char_reads c). Qed.
Print Assumptions C111_char.
(** the functions of C44 and C90 are these for integers, booleans and characters *)
Theorem C111_same s b sep g v x p xs ps f : var_of sep = Some (g, v) -> var_of x = Some p -> Forall2 (fun x p => var_of x = Some p) xs ps ->
  uncatw s b ps = (do '(o, ys) <- uncat s b xs ;; Ok (o, map slot_z ys)) /\
  uncatsepw s b (g, v) p ps = (do '(o, sp, ys) <- uncatsep s b sep x xs ;; Ok (o, slot_z sp, map slot_z ys)) /\
  unformatw s b f ps = (do '(o, ys) <- unformat s b f xs ;; Ok (o, map slot_z ys)).
Proof. intros S X H. split; [now apply uncat_uncatw|]. split; [now apply uncatsep_uncatsepw|now apply unformat_unformatw]. Qed.
Print Assumptions C111_same.
(** reading a text *)
Theorem C111_uncat gs ts vs xs : reads_all gs ts vs -> map fst xs = gs -> bytes (concat ts) -> small (concat ts) ->
  uncatw (concat ts) (full (concat ts)) xs = Ok (Some (len (concat ts)), vs).
Proof. intros R X B S. exact (uncatw_ok gs ts vs R xs [] X B S). Qed.
Print Assumptions C111_uncat.
Theorem C111_uncatsep sg st sv g t v P gs ts vs x xs s0 : reads g t v P -> P (concat (map (fun u => st ++ u) ts)) -> reads_sep sg st sv gs ts vs ->
  fst x = g -> map fst xs = gs -> let s := concat (intersperse st (t :: ts)) in bytes s -> small s ->
  uncatsepw s (full s) (sg, s0) x xs = Ok (Some (len s), match ts with [] => s0 | _ => sv end, v :: vs).
Proof. exact (uncatsepw_ok sg st sv g t v P gs ts vs x xs s0). Qed.
Print Assumptions C111_uncatsep.
Theorem C111_unformat f gs ts vs out xs : reads_format f gs ts vs out -> map fst xs = gs -> small f -> bytes out -> small out ->
  unformatw out (full out) f xs = Ok (Some (len out), vs).
Proof. intros R X F B S. exact (unformatw_ok f gs ts vs out R xs [] X F B S). Qed.
Print Assumptions C111_unformat.
(** writing and reading, in a buffer with one more character than the text *)
Lemma puts_text W out k m b : puts W out k -> vin b m -> vl b < 2 ^ 63 -> len out + 1 <= vl b ->
  exists m', W m b = Ok (m', len out) /\ contents m' (View (vo b) (len out)) = out.
Proof. intros P V L F. destruct (P m b V L) as [m' [n [E [_ [_ [H1 H2]]]]]]. destruct (H1 (H2 F)) as [-> T]. exists m'. auto. Qed.
Theorem C111_cat_uncat gs ts vs ws xs m b : reads_all gs ts vs -> map fst xs = gs -> Forall2 (fun w t => writes w t 1) ws ts -> bytes (concat ts) ->
  len (concat ts) + 18 * len ts < 2 ^ 62 -> vin b m -> vl b < 2 ^ 63 -> len (concat ts) + 1 <= vl b ->
  exists m' n, catw ws m b = Ok (m', n) /\ let s := contents m' (View (vo b) n) in uncatw s (full s) xs = Ok (Some n, vs).
Proof.
  intros R X W B L V LB F. destruct (puts_text _ _ _ m b (C104_cat ws ts W L) V LB F) as [m' [E T]]. exists m', (len (concat ts)). split; [exact E|].
  cbv zeta. rewrite T. apply (C111_uncat gs); auto. unfold small. lia.
Qed.
Print Assumptions C111_cat_uncat.
Theorem C111_catsep_uncatsep sep sg st sv g t v P gs ts vs w ws x xs s0 m b : reads g t v P -> P (concat (map (fun u => st ++ u) ts)) -> reads_sep sg st sv gs ts vs ->
  fst x = g -> map fst xs = gs -> writes sep st 1 -> Forall2 (fun w t => writes w t 1) (w :: ws) (t :: ts) ->
  let out := concat (intersperse st (t :: ts)) in bytes out -> len out + 36 * len (t :: ts) < 2 ^ 62 -> vin b m -> vl b < 2 ^ 63 -> len out + 1 <= vl b ->
  exists m' n, catsepw sep (w :: ws) m b = Ok (m', n) /\
    let s := contents m' (View (vo b) n) in uncatsepw s (full s) (sg, s0) x xs = Ok (Some n, match ts with [] => s0 | _ => sv end, v :: vs).
Proof.
  cbv zeta. intros R H A X XS WS W B L V LB F. destruct (puts_text _ _ _ m b (C104_catsep sep st (w :: ws) (t :: ts) WS W L) V LB F) as [m' [E T]].
  exists m', (len (concat (intersperse st (t :: ts)))). split; [exact E|]. cbv zeta. rewrite T. apply (C111_uncatsep sg st sv g t v P gs); auto. unfold small. lia.
Qed.
Print Assumptions C111_catsep_uncatsep.
Lemma reads_subst f gs ts vs out : reads_format f gs ts vs out -> fmt_subst f ts out.
Proof. induction 1; econstructor; eauto. Qed.
Theorem C111_format_unformat f gs ts vs out ws xs m b : reads_format f gs ts vs out -> map fst xs = gs -> Forall2 (fun w t => writes w t 1) ws ts -> small f ->
  bytes out -> len out + 36 * len ts + 18 < 2 ^ 62 -> vin b m -> vl b < 2 ^ 63 -> len out + 1 <= vl b ->
  exists m' n, formatw f ws m b = Ok (m', n) /\ let s := contents m' (View (vo b) n) in unformatw s (full s) f xs = Ok (Some n, vs).
Proof.
  intros R X W SF B L V LB F. destruct (puts_text _ _ _ m b (C104_format f ts out ws (reads_subst _ _ _ _ _ R) SF W L) V LB F) as [m' [E T]].
  exists m', (len out). split; [exact E|]. cbv zeta. rewrite T. pose proof (len_nonneg ts). apply (C111_unformat f gs ts); auto. unfold small. lia.
Qed.
Print Assumptions C111_format_unformat.
(** adjacent numbers are not told apart: 1 and 0.5 are read as 10.5 and a failure *)
Theorem C111_adjacent_refuted : exists m' n, catw [dtoa StdToChars f64 false (s2z "1") []; dtoa StdToChars f64 false (s2z "0.5") []] (repeat 0 8) (View 0 8) = Ok (m', n) /\
  let s := contents m' (View 0 n) in uncatw s (full s) [(atod_first true true f64, 0); (atod_first true true f64, 0)] = Ok (None, [0x4025000000000000; 0]).
Proof. exists (s2z "10.5" ++ repeat 0 4), 4. split; [vm_compute; reflexivity|vm_compute; reflexivity]. Qed.
Print Assumptions C111_adjacent_refuted.
Example C111_ex1 : uncatw (s2z "-1.5;7,inf") (full (s2z "-1.5;7,inf")) [(atod_first true true f64, 0); (from_chars_first_char, 0); (ato_first u8t, 0); (from_chars_first_char, 0); (atod_first true true f32, 0)] =
  Ok (Some 10, [0xBFF8000000000000; ch ";"; 7; ch ","; 0x7F800000]).
Proof. vm_compute. reflexivity. Qed.
Example C111_ex2 : uncatsepw (s2z "0.5,0.25") (full (s2z "0.5,0.25")) (from_chars_first_char, 0) (atod_first true true f64, 0) [(atod_first true true f64, 0)] =
  Ok (Some 8, ch ",", [0x3FE0000000000000; 0x3FD0000000000000]).
Proof. vm_compute. reflexivity. Qed.
Example C111_ex3 : unformatw (s2z "x=0.5, y=-3]") (full (s2z "x=0.5, y=-3]")) (s2z "x={}, y={}]") [(atod_first true true f64, 0); (ato_first i32, 0)] =
  Ok (Some 12, [0x3FE0000000000000; -3]).
Proof. vm_compute. reflexivity. Qed.
Example C111_ex5 : uncatw (s2z "-nan;7") (full (s2z "-nan;7")) [(atod_first true true f64, 0); (from_chars_first_char, 0); (ato_first u8t, 0)] =
  Ok (Some 6, [0xFFF8000000000000; ch ";"; 7]).
Proof. vm_compute. reflexivity. Qed.
(** the hypotheses are met *)
Example C111_ex4 : reads_sep from_chars_first_char [ch ","] (ch ",") [atod_first true true f64] [s2z "0.5"] [0x3FE0000000000000].
Proof.
  apply (rs_cons _ _ _ _ _ _ ended (fun _ => True)); [apply char_reads|exact I| |left; reflexivity|constructor].
  apply (C111_real true true f64 52 11 (s2z "0.5") false 5 (-1)); [left; auto| |vm_compute; congruence| |split; [split; [discriminate|reflexivity]|reflexivity]|].
  - apply (decimal_text_intro false (s2z "0") (s2z ".5") (s2z "5") [] 0); [repeat constructor; discriminate|constructor; repeat constructor; discriminate|constructor|discriminate].
  - apply FloatProofs17.nearest_exact; [lia|lia|split; [split; [discriminate|reflexivity]|reflexivity]|reflexivity|reflexivity].
  - right. intros [_ [Z _]]. discriminate Z.
Qed.
