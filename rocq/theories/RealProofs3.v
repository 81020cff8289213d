(** Proofs about atof_first and atod_first, ftoa and dtoa, and the concatenation of real numbers. *)
From Verif Require Import Base BaseLemmas ScanModel SubstrModel SubstrSpec SubstrProofs CharconvModel CharconvSpec CharconvProofs2 CharconvProofs3 CharconvProofs5 SpanNumModel SpanNumSpec SpanNumProofs4 Base64Model.
From Verif Require Import MemUtilProofs2 FormatModel FormatSpec FormatProofs FormatProofs2.
From Verif Require Import FloatTable FloatModel FloatSpec FloatProofs1 FloatProofs2 FloatProofs7 FloatProofs8 FloatProofs11 FloatProofs14 FloatProofs15 FloatProofs16 FloatProofs17.
From Verif Require Import RealModel RealSpec RealProofs RealProofs2.
From Coq Require Import Lia.
Open Scope Z_scope.

(** ** atod_first *)
Lemma first_eq dbg rn f a w b w0 : small (a ++ w ++ b) -> bytes (a ++ w ++ b) -> Forall blank a -> ended b -> real_literal w -> w <> [] ->
  atod_first dbg rn f (a ++ w ++ b) w0 =
  do '(ok, x) <- atod dbg rn f w w0 ;; Ok (if ok then Some (len a + len w) else None, x).
Proof.
  intros S BY HA HB HW NE. destruct (first_real_span_ok (a ++ w ++ b) S BY) as [v [E [_ [U _]]]]. unfold atod_first. rewrite E. cbn [bind].
  rewrite (U a w b eq_refl HA HB HW). cbn [vo vl]. assert (len w <> 0) by (destruct w; [congruence|unfold len; cbn [length]; lia]).
  replace (len w =? 0) with false by lia. unfold contents. cbn [vo vl]. now rewrite slice_app_mid.
Qed.
Lemma first_none dbg rn f s w0 : small s -> bytes s -> (forall a w b, s = a ++ w ++ b -> Forall blank a -> ended b -> ~ real_literal w) ->
  atod_first dbg rn f s w0 = Ok (None, w0).
Proof.
  intros S BY N. destruct (first_real_span_ok s S BY) as [v [E [_ [_ U]]]]. unfold atod_first. rewrite E. cbn [bind].
  destruct (Z.eqb_spec (vl v) 0) as [Z0|Z0]; [reflexivity|exfalso]. destruct (U Z0) as [a [b [E2 [A [C D]]]]]. exact (N a _ b E2 A C D).
Qed.
Lemma digs_of d : digs d -> Forall (digit_of 10) d.
Proof.
  intros H. eapply Forall_impl; [|exact H]. intros c D. unfold dig in D. change (ch "0") with 48 in D. change (ch "9") with 57 in D.
  exists (c - 48). unfold char_digit. replace ((48 <=? c) && (c <=? 57)) with true by lia. split; [reflexivity|lia].
Qed.
Lemma decimal_real w neg m e : decimal_text w neg m e -> real_literal w.
Proof.
  intros D. destruct D as [neg i f d x e DI FR EX NE].
  exists (if neg then s2z "-" else []), (i ++ f ++ x). split; [destruct neg; reflexivity|]. split; [destruct neg; [right; right; now split|now left]|].
  rewrite app_assoc. apply rb_dec.
  - destruct FR as [|d DF]; [rewrite app_nil_r in *; constructor; auto; now apply digs_of|]. apply man_frac; auto; now apply digs_of.
  - destruct EX as [|c d' C ND DD|c d' C ND DD|c d' C ND DD].
    + constructor.
    + apply (exp_some _ _ c [] d'); [cbn; destruct C as [->| ->]; auto|right; right; now split|exact ND|now apply digs_of].
    + apply (exp_some _ _ c (s2z "+") d'); [cbn; destruct C as [->| ->]; auto|now left|exact ND|now apply digs_of].
    + apply (exp_some _ _ c (s2z "-") d'); [cbn; destruct C as [->| ->]; auto|right; now left|exact ND|now apply digs_of].
Qed.
Lemma starts_ne s : starts (s ++ []) -> s <> []. Proof. intros [c [r [E _]]]. rewrite app_nil_r in E. now subst. Qed.

Theorem atod_first_decimal dbg rn f eb a w b neg m e w0 : fok f eb -> small (a ++ w ++ b) -> bytes (a ++ w ++ b) -> Forall blank a -> ended b ->
  decimal_text w neg m e -> len w + 400 <= 2 ^ 28 ->
  exists ok x, atod_first dbg rn f (a ++ w ++ b) w0 = Ok (if ok : bool then Some (len a + len w) else None, x) /\ nearest (f_mb f) eb neg (decimal m e) x /\
    (ok = false <-> b_infinite (f_mb f) eb x \/ 0 < m /\ b_zero (f_mb f) eb x).
Proof.
  intros F S BY HA HB D L. assert (NE := starts_ne w (decimal_starts w [] neg m e D)). rewrite first_eq; auto; [|eapply decimal_real; eauto].
  assert (BW : bytes w) by (apply Forall_app in BY; destruct BY as [_ BY]; now apply Forall_app in BY).
  destruct (atod_decimal dbg rn f eb w [] neg m e w0 F) as [ok [x [E R]]]; rewrite ?app_nil_r; auto; [apply longest_nil|lia|eapply decimal_not_0x; eauto|].
  rewrite app_nil_r in E. rewrite E. cbn [bind]. now exists ok, x.
Qed.
(** the words of infinity and NaN that have a span *)
Lemma special_word w neg nan : In (w, neg, nan) [(s2z "inf", false, false); (s2z "-inf", true, false); (s2z "infinity", false, false);
    (s2z "-infinity", true, false); (s2z "nan", false, true); (s2z "-nan", true, true)] -> special_text w neg nan /\ real_literal w.
Proof.
  assert (L : forall p, letters p p) by (induction p; constructor; auto).
  cbn. intros H. repeat (destruct H as [E|H]; [injection E as <- <- <-; split|]); try contradiction;
    first [exact (sp_inf false _ (L _))|exact (sp_inf true _ (L _))|exact (sp_infinity false _ (L _))|exact (sp_infinity true _ (L _))|exact (sp_nan false _ (L _))|exact (sp_nan true _ (L _))|idtac].
  all: first [exists [], (s2z "inf"); split; [reflexivity|split; [now left|constructor]]|exists (s2z "-"), (s2z "inf"); split; [reflexivity|split; [right; right; now split|constructor]]
    |exists [], (s2z "infinity"); split; [reflexivity|split; [now left|constructor]]|exists (s2z "-"), (s2z "infinity"); split; [reflexivity|split; [right; right; now split|constructor]]
    |exists [], (s2z "nan"); split; [reflexivity|split; [now left|constructor]]|exists (s2z "-"), (s2z "nan"); split; [reflexivity|split; [right; right; now split|constructor]]].
Qed.
Theorem atod_first_special dbg rn f eb a w b neg nan w0 : fok f eb -> small (a ++ w ++ b) -> bytes (a ++ w ++ b) -> Forall blank a -> ended b ->
  In (w, neg, nan) [(s2z "inf", false, false); (s2z "-inf", true, false); (s2z "infinity", false, false);
    (s2z "-infinity", true, false); (s2z "nan", false, true); (s2z "-nan", true, true)] ->
  exists x, atod_first dbg rn f (a ++ w ++ b) w0 = Ok (Some (len a + len w), x) /\ b_neg (f_mb f) eb x = neg /\
    (if nan then b_nan (f_mb f) eb x else b_infinite (f_mb f) eb x).
Proof.
  intros F S BY HA HB I. destruct (special_word w neg nan I) as [SP RL]. assert (NE := starts_ne w (special_starts w [] neg nan SP)).
  assert (LW : len w < 2 ^ 64) by (cbn in I; repeat (destruct I as [I|I]; [injection I as <- <- <-; reflexivity|]); contradiction).
  rewrite first_eq; auto. assert (BW : bytes w) by (apply Forall_app in BY; destruct BY as [_ BY]; now apply Forall_app in BY).
  destruct (atod_special dbg rn f eb w [] neg nan w0 F) as [x [E R]]; rewrite ?app_nil_r; auto; [apply longest_special_nil|].
  rewrite app_nil_r in E. rewrite E. cbn [bind]. now exists x.
Qed.
(** literals with a plus sign are refused unless they are hexadecimal *)
Theorem atod_plus dbg rn f s w0 : bytes s -> len s < 2 ^ 63 -> begins_0x s = false -> atod dbg rn f (ch "+" :: s) w0 = Ok (false, w0).
Proof.
  intros BY L HX. apply atod_reject; [constructor; [split; [discriminate|reflexivity]|exact BY]| |rewrite len_cons; lia|apply plus_no_number|apply plus_no_special|exact HX].
  exists (ch "+"), s. split; [reflexivity|]. unfold blank. cbn. intros C. repeat (destruct C as [C|C]; [discriminate|]). exact C.
Qed.

(** ** ftoa and dtoa *)
Definition full_text (hexa : bool) (text : list Z) : list Z := (if hexa then s2z "0x" else []) ++ text.
Lemma rtoa_fits hexa digits text junk m b : vin b m -> text <> [] -> len (full_text hexa text) <= vl b ->
  rtoa hexa digits text junk m b = Ok (blit m (vo b) (full_text hexa text), len (full_text hexa text)).
Proof.
  intros V NE L. assert (LT : 0 < len text) by (destruct text; [congruence|unfold len; cbn [length]; lia]). destruct V as [V1 [V2 V3]].
  unfold rtoa, full_text in *. destruct hexa; cbn [andb app] in *.
  - change (s2z "0x") with [48; 120] in *. cbn [app] in *. rewrite !len_cons in L |- *. replace (2 <? vl b) with true by lia.
    rewrite wr_ok by lia. cbn [bind]. rewrite wr_ok by (rewrite len_blit; rewrite ?len1; lia). cbn [bind].
    rewrite (blit_app1 m (vo b) [ch "0"] [ch "x"]) by (rewrite ?len1; lia). cbn [app].
    assert (L2 : forall x y : Z, len [x; y] = 2) by reflexivity.
    replace (vl b <? 2) with false by lia. replace (len text <=? vl b - 2) with true by lia.
    rewrite wrs_ok by (rewrite ?len_blit; rewrite ?L2; lia). cbn [bind].
    rewrite (blit_app1 m (vo b) [ch "0"; ch "x"] text) by (rewrite ?L2; lia). cbn [app]. f_equal. f_equal. lia.
  - cbn [bind]. replace (vl b <? 0) with false by lia. replace (len text <=? vl b - 0) with true by lia. rewrite Z.add_0_r. rewrite wrs_ok by lia. reflexivity.
Qed.
Lemma len_pos {A} (l : list A) : l <> [] -> 1 <= len l.
Proof. destruct l; [congruence|]. intros _. rewrite len_cons. pose proof (len_nonneg l). lia. Qed.
Lemma len_firstn_le {A} (l : list A) n : 0 <= n -> len (firstn (Z.to_nat n) l) <= n.
Proof. intros H. unfold len. rewrite firstn_length. lia. Qed.
Lemma wrs_outside m b o l : vin b m -> vo b <= o -> o + len l <= vo b + vl b -> exists m', wrs m o l = Ok m' /\ same_outside m m' b.
Proof.
  intros [V1 [V2 V3]] A C. pose proof (len_nonneg l). rewrite wrs_ok by lia. eexists. split; [reflexivity|].
  assert (S := same_outside_blit m (View o (len l)) l). cbn [vo vl] in S. apply (outside_sub _ _ (View o (len l))); cbn [vo vl]; [|lia|lia].
  apply S; [unfold vin; cbn [vo vl]; lia|lia].
Qed.
Lemma rtoa_short hexa digits text junk m b : vin b m -> (hexa = true -> 2 <= vl b) -> vl b < len (full_text hexa text) ->
  exists m', rtoa hexa digits text junk m b = Ok (m', Z.max digits (vl b + 1)) /\ same_outside m m' b.
Proof.
  intros V H L. assert (VV := V). destruct V as [V1 [V2 V3]]. unfold rtoa, full_text in *.
  assert (RET : (if vl b <? digits then digits else vl b + 1) = Z.max digits (vl b + 1)) by (destruct (Z.ltb_spec (vl b) digits); lia).
  rewrite RET. destruct hexa; cbn [andb app] in *.
  - specialize (H eq_refl). change (s2z "0x") with [48; 120] in *. cbn [app] in *. rewrite !len_cons in L. destruct (Z.ltb_spec 2 (vl b)) as [C|C].
    + rewrite wr_ok by lia. cbn [bind]. rewrite wr_ok by (rewrite len_blit; rewrite ?len1; lia). cbn [bind].
      rewrite (blit_app1 m (vo b) [ch "0"] [ch "x"]) by (rewrite ?len1; lia). cbn [app].
      assert (S := same_outside_blit m b [ch "0"; ch "x"] VV ltac:(unfold len; cbn [length]; lia)).
      replace (vl b <? 2) with false by lia. replace (len text <=? vl b - 2) with false by lia.
      assert (LF := len_firstn_le junk (vl b - 2) ltac:(lia)).
      destruct (wrs_outside (blit m (vo b) [ch "0"; ch "x"]) b (vo b + 2) (firstn (Z.to_nat (vl b - 2)) junk)) as [m' [-> S']]; [|lia|lia|].
      * now apply (outside_vin m _ b).
      * cbn [bind]. exists m'. split; [reflexivity|]. now apply (outside_trans _ _ _ _ S).
    + cbn [bind]. replace (vl b <? 2) with false by lia. replace (len text <=? vl b - 2) with false by lia. replace (Z.to_nat (vl b - 2)) with O by lia.
      cbn [firstn wrs bind]. exists m. split; [reflexivity|apply same_outside_refl].
  - cbn [bind]. replace (vl b <? 0) with false by lia. replace (len text <=? vl b - 0) with false by lia.
    assert (LF := len_firstn_le junk (vl b - 0) ltac:(lia)).
    destruct (wrs_outside m b (vo b + 0) (firstn (Z.to_nat (vl b - 0)) junk)) as [m' [-> S']]; [exact VV|lia|lia|].
    cbn [bind]. now exists m'.
Qed.
Lemma rtoa_hex_short digits text junk m b : 0 <= vl b < 2 -> rtoa true digits text junk m b = Ub.
Proof. intros H. unfold rtoa. replace (2 <? vl b) with false by lia. cbn [andb bind]. now replace (vl b <? 2) with true by lia. Qed.
Lemma print_fits text m b : vin b m -> len text < vl b -> print_one text m b = Ok (blit m (vo b) (text ++ [0]), len text).
Proof.
  intros [V1 [V2 V3]] L. pose proof (len_nonneg text). unfold print_one. replace (vl b =? 0) with false by lia.
  rewrite firstn_all2 by (unfold len in *; lia). rewrite wrs_ok by (rewrite ?len_app, ?len1; lia). cbn [bind]. now replace (vl b <=? len text) with false by lia.
Qed.
Lemma print_short text m b : vin b m -> vl b <= len text -> exists m', print_one text m b = Ok (m', len text + 1) /\ same_outside m m' b.
Proof.
  intros VV L. assert (V := VV). destruct V as [V1 [V2 V3]]. unfold print_one. replace (vl b <=? len text) with true by lia. destruct (Z.eqb_spec (vl b) 0) as [C|C].
  - exists m. split; [reflexivity|apply same_outside_refl].
  - assert (LF := len_firstn_le text (vl b - 1) ltac:(lia)).
    destruct (wrs_outside m b (vo b) (firstn (Z.to_nat (vl b - 1)) text ++ [0])) as [m' [-> S]]; [exact VV|lia|rewrite len_app, len1; lia|].
    cbn [bind]. now exists m'.
Qed.
(** the two functions as conversions *)
Lemma rtoa_writes digits text junk : digits <= 17 -> text <> [] -> writes (rtoa false digits text junk) text 0.
Proof.
  intros D NE m b V L. destruct (Z.le_gt_cases (len text) (vl b)) as [C|C].
  - rewrite (rtoa_fits false) by assumption. change (full_text false text) with text. eexists _, _. split; [reflexivity|]. pose proof (len_nonneg text).
    split; [now apply same_outside_blit|]. split; [lia|]. split; [|lia]. intros _. split; [reflexivity|]. destruct V as [V1 [V2 V3]]. apply slice_blit_same; lia.
  - destruct (rtoa_short false digits text junk m b V ltac:(discriminate) C) as [m' [E S]]. destruct V as [V1 [V2 V3]]. eexists _, _. split; [exact E|]. split; [exact S|]. split; lia.
Qed.
Lemma print_writes text : writes (print_one text) text 1.
Proof.
  intros m b V L. pose proof (len_nonneg text). destruct (Z.lt_ge_cases (len text) (vl b)) as [C|C].
  - rewrite print_fits by assumption. eexists _, _. split; [reflexivity|].
    split; [apply same_outside_blit; [exact V|rewrite len_app, len1; lia]|]. split; [lia|]. split; [|lia]. intros _. split; [reflexivity|]. destruct V as [V1 [V2 V3]].
    apply slice_prefix_blit; rewrite ?len1; lia.
  - destruct (print_short text m b V C) as [m' [E S]]. destruct V as [V1 [V2 V3]]. eexists _, _. split; [exact E|]. split; [exact S|]. split; lia.
Qed.
Lemma writes_slack conv t k : writes conv t 0 -> 0 <= k -> writes conv t k.
Proof.
  intros W K m b V L. destruct (W m b V L) as [m' [n [E [S [R [A C]]]]]]. exists m', n. split; [exact E|]. split; [exact S|]. split; [exact R|]. split; [exact A|].
  intros H. apply C. lia.
Qed.
Lemma arg_writes dbg a t : arg_text a t -> simple a -> writes (fun m b => to_chars dbg m b a) t 0.
Proof.
  intros H S m b V L. pose proof (len_nonneg t). destruct (Z.le_gt_cases (len t) (vl b)) as [C|C].
  - rewrite (to_chars_fits dbg a t H) by (auto; lia). eexists _, _. split; [reflexivity|]. split; [now apply same_outside_blit|]. split; [lia|]. split; [|lia].
    intros _. split; [reflexivity|]. destruct V as [V1 [V2 V3]]. apply slice_blit_same; lia.
  - destruct (to_chars_small dbg a t H m b V) as [m' [E O]]; [lia|now apply si_simple|exact C|]. destruct V as [V1 [V2 V3]]. eexists _, _. split; [exact E|]. split; [exact O|]. split; lia.
Qed.
