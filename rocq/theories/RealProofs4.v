(** Proofs about real numbers: every text, the format string of snprintf, and the round trip. *)
From Verif Require Import Base BaseLemmas ScanModel SubstrModel SubstrSpec SubstrProofs CharconvModel CharconvSpec CharconvProofs CharconvProofs2 CharconvProofs3 CharconvProofs5 SpanNumModel SpanNumSpec SpanNumProofs4 Base64Model.
From Verif Require Import MemUtilProofs2 FormatModel FormatSpec FormatProofs FormatProofs2.
From Verif Require Import FloatTable FloatModel FloatSpec FloatProofs10 FloatProofs1 FloatProofs2 FloatProofs7 FloatProofs8 FloatProofs11 FloatProofs14 FloatProofs15 FloatProofs16 FloatProofs17.
From Verif Require Import RealModel RealSpec RealProofs RealProofs2 RealProofs3.
From Coq Require Import Lia.
Open Scope Z_scope.

(** ** every text *)
Definition defined {A} (r : res A) : Prop := r <> Ub.
Lemma atoi_defined s : bytes s -> atoi W16 s 0 <> Ub.
Proof.
  intros B. destruct s as [|c r]; [discriminate|]. destruct (Z.eq_dec c 43) as [->|N].
  - unfold atoi. pose proof (len_nonneg r). replace (len (43 :: r) =? 0) with false by (rewrite len_cons; lia). rewrite rd0. cbn. discriminate.
  - pose proof (atoi_outcome W16 (c :: r) 0 B ltac:(congruence)) as O. unfold outcome in O. intros E. rewrite E in O.
    destruct (parse_s (c :: r)); [discriminate|]. destruct O as [v O]. discriminate.
Qed.
Lemma power_defined f s v : bytes s -> rhex_power f s v <> Ub.
Proof.
  intros B. unfold rhex_power. destruct s as [|c r]; [discriminate|]. inversion B; subst.
  assert (B2 : bytes (if c =? ch "+" then r else c :: r)) by (destruct (c =? ch "+"); assumption).
  destruct (if c =? ch "+" then r else c :: r) as [|d q]; [discriminate|]. pose proof (atoi_defined _ B2) as D.
  destruct (atoi W16 (d :: q) 0) as [[ok p]| |]; cbn [bind]; [destruct ok; discriminate|congruence|discriminate].
Qed.
Lemma frac_defined f s : bytes s -> forall d v, rhex_frac f s d v <> Ub.
Proof.
  induction 1 as [|c r C B IH]; intros d v; cbn [rhex_frac]; [discriminate|]. destruct (rhex_digit c); [apply IH|].
  destruct (is_pow c); [now apply power_defined|discriminate].
Qed.
Lemma int_defined f s : bytes s -> forall v, rhex_int f s v <> Ub.
Proof.
  induction 1 as [|c r C B IH]; intros v; cbn [rhex_int]; [discriminate|]. destruct (rhex_digit c); [apply IH|].
  destruct (c =? ch "."); [now apply frac_defined|]. destruct (is_pow c); [now apply power_defined|discriminate].
Qed.
Lemma bytes_skipn s n : bytes s -> bytes (skipn n s).
Proof. intros B. revert n. induction B as [|c r C B IH]; intros [|n]; cbn; auto; constructor; auto. Qed.
Lemma bytes_unsign s : bytes s -> bytes (unsign s).
Proof. destruct s as [|c r]; cbn [unsign]; intros B; [exact B|]. destruct ((c =? ch "-") || (c =? ch "+")); [exact (Forall_inv_tail B)|exact B]. Qed.
Theorem atod_defined dbg rn f eb s w0 : fok f eb -> bytes s -> starts s -> len s < 2 ^ 64 -> atod dbg rn f s w0 <> Ub.
Proof.
  intros F B S L. rewrite atod_eq by assumption. destruct (negb (begins_0x (unsign s))).
  - destruct (from_chars_total rn f eb s F B) as [r [k [-> _]]]. cbn [bind]. discriminate.
  - destruct (csub (unsign s) 2) as [x| |] eqn:E; cbn [bind]; [|unfold csub in E; destruct ((0 <=? 2) && (2 <=? len (unsign s))); discriminate|discriminate].
    assert (BX : bytes x).
    { unfold csub in E. destruct ((0 <=? 2) && (2 <=? len (unsign s))); [|discriminate]. injection E as <-. apply (bytes_skipn (unsign s) 2). now apply bytes_unsign. }
    assert (D := int_defined f x BX (decode f w0)).
    unfold scan_rhex, dassert. destruct (negb dbg || (0 <? len x)); [|discriminate].
    destruct (negb dbg || _); [|discriminate]. destruct (negb dbg || negb (begins_0x x)); [|discriminate].
    destruct (rhex_int f x (decode f w0)) as [[ok v]| |]; cbn [bind]; [discriminate|congruence|discriminate].
Qed.
(** a text without a number has no "0x" but after a plus sign *)
Lemma no_number_0x s : no_number s -> begins_0x (unsign s) = true -> exists p r, s = ch "+" :: ch "0" :: p :: r /\ In p (s2z "xX").
Proof.
  intros N H. destruct s as [|c r]; [discriminate|]. cbn [unsign] in H.
  destruct (Z.eqb_spec c (ch "-")) as [->|C1]; cbn [orb] in H.
  - destruct r as [|d [|e q]]; try discriminate. cbn [begins_0x] in H. destruct (Z.eqb_spec d (ch "0")) as [->|]; [|discriminate]. exfalso.
    apply (N (s2z "-0") (e :: q) true 0 0 eq_refl). apply (decimal_text_intro true (s2z "0") [] [] [] 0); [repeat constructor; discriminate|constructor|constructor|discriminate].
  - destruct (Z.eqb_spec c (ch "+")) as [->|C2]; cbn [orb] in H.
    + destruct r as [|d [|e q]]; try discriminate. cbn [begins_0x] in H. destruct (Z.eqb_spec d (ch "0")) as [->|]; [|discriminate]. exists e, q. split; [reflexivity|].
      cbn [andb] in H. destruct (Z.eqb_spec e (ch "x")) as [->|]; [now left|]. destruct (Z.eqb_spec e (ch "X")) as [->|]; [right; now left|discriminate].
    + destruct r as [|d q]; [discriminate|]. cbn [begins_0x] in H. destruct (Z.eqb_spec c (ch "0")) as [->|]; [|discriminate]. exfalso.
      apply (N (s2z "0") (d :: q) false 0 0 eq_refl). apply (decimal_text_intro false (s2z "0") [] [] [] 0); [repeat constructor; discriminate|constructor|constructor|discriminate].
Qed.
Theorem atod_rejects dbg rn f s w0 : bytes s -> starts s -> len s < 2 ^ 64 -> no_number s -> no_special s ->
  (forall p r, In p (s2z "xX") -> s <> ch "+" :: ch "0" :: p :: r) -> atod dbg rn f s w0 = Ok (false, w0).
Proof.
  intros B S L N P H. apply atod_reject; auto. destruct (begins_0x (unsign s)) eqn:E; [|reflexivity]. exfalso.
  destruct (no_number_0x s N E) as [p [r [-> I]]]. exact (H p r I eq_refl).
Qed.

(** ** the format string *)
Lemma numeral_digs v s : is_numeral 10 v s -> digs s /\ (0 <= v < 10 ^ 10 -> len s <= 10).
Proof.
  intros [ds [[NE D LD V] ->]]. split.
  - unfold digs. clear - D. induction D as [|d ds H D IH]; cbn [map]; constructor; auto. unfold dig, digit_char. replace (d <? 10) with true by lia.
    change (ch "0") with 48. change (ch "9") with 57. lia.
  - intros R. unfold len. rewrite map_length. fold (len ds). destruct ds as [|d ds]; [congruence|]. inversion D; subst.
    destruct (Z.eq_dec d 0) as [->|NZ].
    + rewrite (LD ds eq_refl). cbn. lia.
    + rewrite positional_cons in R. assert (P := positional_bounds 10 ds ltac:(lia) H2). rewrite len_cons. pose proof (len_nonneg ds).
      destruct (Z.le_gt_cases (1 + len ds) 10) as [|G]; [assumption|exfalso]. assert (10 ^ 10 <= 10 ^ len ds) by (apply Z.pow_le_mono_r; lia). nia.
Qed.
Theorem format_str_ok precision prec formatting lm : -1 <= precision < 2 ^ 31 -> is_int_text false 10 precision prec -> In lm [s2z ""; s2z "l"] ->
  In formatting (s2z "feag") -> exists s, get_real_format_str precision prec formatting lm = Ok s /\ printf_real s /\ len s < 16 /\
    (precision = -1 -> s = s2z "%" ++ lm ++ [formatting]) /\ (0 < precision -> s = s2z "%." ++ prec ++ lm ++ [formatting]) /\
    (precision = 0 -> s = s2z "%." ++ lm ++ [formatting]).
Proof.
  intros R [num [T ->]] LM FM. assert (LL : len lm <= 1) by (cbn in LM; destruct LM as [<-|[<-|[]]]; cbn; lia). pose proof (len_nonneg lm).
  unfold get_real_format_str. destruct (Z.eqb_spec precision (-1)) as [->|E1].
  - replace ((2 <=? len (s2z "%" ++ lm ++ [formatting])) && (len (s2z "%" ++ lm ++ [formatting]) <? 16)) with true
      by (rewrite !len_app; change (len (s2z "%")) with 1; rewrite len1; lia).
    eexists. split; [reflexivity|]. split; [apply (pf_intro [] lm formatting); auto|]. split; [rewrite !len_app; change (len (s2z "%")) with 1; rewrite len1; lia|]. repeat split; lia.
  - destruct (Z.eqb_spec precision 0) as [->|E0].
    + replace ((2 <=? len (s2z "%." ++ lm ++ [formatting])) && (len (s2z "%." ++ lm ++ [formatting]) <? 16)) with true
        by (rewrite !len_app; change (len (s2z "%.")) with 2; rewrite len1; lia).
      eexists. split; [reflexivity|]. split; [apply (pf_intro (s2z ".") lm formatting); auto; right; exists []; split; [constructor|reflexivity]|].
      split; [rewrite !len_app; change (len (s2z "%.")) with 2; rewrite len1; lia|]. repeat split; lia.
    + rewrite Z.abs_eq in T by lia. destruct (numeral_digs _ _ T) as [DG LN]. specialize (LN ltac:(lia)). pose proof (len_nonneg num).
      assert (SG : sign_of precision = []) by (unfold sign_of; now replace (precision <? 0) with false by lia). rewrite SG. cbn [app].
      replace ((2 <=? len (s2z "%." ++ num ++ lm ++ [formatting])) && (len (s2z "%." ++ num ++ lm ++ [formatting]) <? 16)) with true
        by (rewrite !len_app; change (len (s2z "%.")) with 2; rewrite len1; lia).
      eexists. split; [reflexivity|]. split; [apply (pf_intro (ch "." :: num) lm formatting); auto; right; exists num; split; [exact DG|reflexivity]|].
      split; [rewrite !len_app; change (len (s2z "%.")) with 2; rewrite len1; lia|]. repeat split; lia.
Qed.

(** ** dtoa *)
Theorem dtoa_fits p f hexa text junk m b : vin b m -> text <> [] -> (hexa = true -> p = StdToChars) ->
  len (full_text hexa text) + (match p with Snprintf => 1 | StdToChars => 0 end) <= vl b ->
  exists m', dtoa p f hexa text junk m b = Ok (m', len (full_text hexa text)) /\ slice m' (vo b) (len (full_text hexa text)) = full_text hexa text /\ same_outside m m' b.
Proof.
  intros V NE HP L. destruct p; cbn [dtoa].
  - rewrite rtoa_fits by (auto; lia). eexists. split; [reflexivity|]. split; [|apply same_outside_blit; [exact V|lia]]. destruct V as [V1 [V2 V3]]. apply slice_blit_same; lia.
  - destruct hexa; [now specialize (HP eq_refl)|]. change (full_text false text) with text in *. rewrite print_fits by (auto; lia). eexists. split; [reflexivity|].
    assert (S : same_outside m (blit m (vo b) (text ++ [0])) b) by (apply same_outside_blit; [exact V|rewrite len_app, len1; lia]). split; [|exact S]. destruct V as [V1 [V2 V3]].
    pose proof (len_nonneg text). apply slice_prefix_blit; rewrite ?len1; lia.
Qed.
Lemma digits_17 f : max_digits10 f <= 17. Proof. unfold max_digits10. destruct (f_mb f =? 52); lia. Qed.
Theorem dtoa_writes p f text junk : text <> [] -> writes (dtoa p f false text junk) text 1.
Proof.
  intros NE. destruct p.
  - apply writes_slack; [|lia]. apply rtoa_writes; [apply digits_17|exact NE].
  - apply print_writes.
Qed.

(** ** what dtoa writes, atod reads *)
Theorem round_trip dbg rn p f eb text junk neg d e w m b w0 : fok f eb -> vin b m -> bytes text -> decimal_text text neg d e -> nearest (f_mb f) eb neg (decimal d e) w ->
  b_finite (f_mb f) eb w -> (d = 0 \/ ~ b_zero (f_mb f) eb w) -> len text + 400 <= 2 ^ 28 -> len text < vl b ->
  exists m' n, dtoa p f false text junk m b = Ok (m', n) /\ n <= vl b /\ atod dbg rn f (slice m' (vo b) n) w0 = Ok (true, w).
Proof.
  intros F V B T N FN NZ L LB. assert (NE : text <> []) by (apply starts_ne; exact (decimal_starts text [] neg d e T)).
  destruct (dtoa_fits p f false text junk m b V NE ltac:(discriminate)) as [m' [E [SL _]]]; [change (full_text false text) with text; destruct p; lia|].
  change (full_text false text) with text in *. exists m', (len text). split; [exact E|]. split; [lia|]. rewrite SL.
  destruct (atod_decimal dbg rn f eb text [] neg d e w0 F) as [ok [w' [E2 [N2 K]]]]; rewrite ?app_nil_r; auto; [apply longest_nil|lia|now apply (decimal_not_0x text neg d e)|].
  rewrite app_nil_r in E2. rewrite E2.
  assert (w' = w).
  { destruct (fok_facts f eb F) as [M1 [M2 _]]. apply (nearest_unique (f_mb f) eb M1 M2 neg (decimal d e)); auto. apply decimal_nonneg.
    destruct T as [neg i ft dd xt e DI FR _ _]. apply dec_range. apply digs_app; split; [exact DI|destruct FR; [constructor|assumption]]. }
  subst w'. destruct ok; [reflexivity|exfalso]. destruct K as [K _]. destruct (K eq_refl) as [I|[I1 I2]].
  - destruct FN as [_ FN]. destruct I as [_ [I _]]. lia.
  - destruct NZ as [NZ|NZ]; [lia|now apply NZ].
Qed.
