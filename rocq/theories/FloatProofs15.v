(** from_chars on a text with a number: from_pns, the longest prefix, the saturated exponent. *)
From Verif Require Import Base BaseLemmas FloatTable FloatModel FloatSpec.
From Verif Require Import FloatProofs1 FloatProofs2 FloatProofs3 FloatProofs4 FloatProofs5 FloatProofs6 FloatProofs7 FloatProofs8.
From Verif Require Import FloatProofs9 FloatProofs10 FloatProofs11 FloatProofs12 FloatProofs13 FloatProofs14.
From Coq Require Import Qpower Lqa Lia Znumtheory Zpow_facts.
Open Scope Z_scope.

(** ** Zero and infinity *)
Lemma good_small f eb x a : fok f eb -> (x < B 1 (emin f - 1))%Q -> good f eb x a -> a = AM 0 0.
Proof.
  intros F X G. destruct (fok_facts f eb F) as [M [E [EM [I [_ [I2 _]]]]]].
  assert (P0 : 0 < 2 ^ f_mb f) by (apply Z.pow_pos_nonneg; lia).
  destruct G as [[A L]|[m [e [[C1 [C2 C3]] [H [[_ [_ R]] D]]]]]].
  - exfalso. assert (LB : (B 1 (emin f - 1) <= b_limit (f_mb f) eb)%Q) by (clear - F; destruct F as [[-> ->]|[-> ->]]; vm_compute; discriminate). lra.
  - destruct (bottom (f_mb f) eb m e) eqn:BT.
    + exfalso. unfold bottom in BT. apply andb_true_iff in BT. destruct BT as [B1 B2].
      assert (LB : (B 1 (emin f - 1) <= B (4 * m - 1) (e - 2))%Q).
      { apply (B_cmp_le _ _ _ _ (emin f - 2)); [lia|lia|]. replace (emin f - 1 - (emin f - 2)) with 1 by lia.
        assert (1 <= 2 ^ (e - 2 - (emin f - 2))) by (assert (0 < 2 ^ (e - 2 - (emin f - 2))) by (apply Z.pow_pos_nonneg; lia); lia). nia. }
      lra.
    + destruct R as [R _].
      assert (M0 : m = 0).
      { destruct (Z.eq_dec m 0) as [|N]; [assumption|]. exfalso.
        assert (LB : (B 1 (emin f - 1) <= B (2 * m - 1) (e - 1))%Q).
        { apply Qle_trans with (B 1 (e - 1)); [apply B_mono; lia|apply B_le; lia]. }
        lra. }
      subst m. destruct D as [[D ->]|[[D [D2 ->]]|[D ->]]]; [reflexivity|lia|lia].
Qed.
Lemma good_big f eb x a : fok f eb -> (b_limit (f_mb f) eb <= x)%Q -> good f eb x a -> a = AM 0 (f_inf f).
Proof.
  intros F X G. destruct (fok_facts f eb F) as [M [E [EM [I [_ [I2 _]]]]]].
  destruct G as [[A L]|[m [e [C [H [R D]]]]]]; [exact A|]. exfalso.
  assert (K := rounds_below_limit _ _ M x m e C H R). lra.
Qed.
Lemma good_zero_bound f eb x : fok f eb -> good f eb x (AM 0 0) -> (x <= B 1 (emin f - 1))%Q.
Proof.
  intros F G. destruct (fok_facts f eb F) as [M [E [EM [I [_ [I2 _]]]]]].
  assert (P0 : 0 < 2 ^ f_mb f) by (apply Z.pow_pos_nonneg; lia).
  assert (P1 : 4 <= 2 ^ eb) by (change 4 with (2 ^ 2); apply Z.pow_le_mono_r; lia).
  destruct G as [[A L]|[m [e [[C1 [C2 C3]] [H [[R _] D]]]]]]; [injection A; lia|].
  destruct D as [[D A]|[[D [D2 A]]|[D A]]]; injection A; intros.
  - subst m. replace e with (emin f) in R by lia. exact R.
  - lia.
  - lia.
Qed.
Lemma good_inf_bound f eb x a : fok f eb -> good f eb x a -> a_pow a = f_inf f -> (b_limit (f_mb f) eb <= x)%Q.
Proof.
  intros F [[A L]|[m [e [C [H [R D]]]]]] P; [exact L|]. assert (K := repr_pow _ _ _ _ _ F C H D). lia.
Qed.

(** ** The error code *)
Definition code (f : fmt) (m : Z) (a : am) : errc :=
  if (negb (m =? 0) && (a_man a =? 0) && (a_pow a =? 0)) || (a_pow a =? f_inf f) then ERange else EOk.
Lemma code_pos f m m' a : (m = 0 <-> m' = 0) -> code f m a = code f m' a.
Proof. intros H. unfold code. replace (m =? 0) with (m' =? 0); [reflexivity|]. destruct (Z.eqb_spec m 0), (Z.eqb_spec m' 0); tauto. Qed.
Lemma fast_code f eb m q a : fok f eb -> - f_fpmax f <= q <= f_fpmax f -> 0 <= m <= 2 ^ (f_mb f + 1) -> good f eb (decimal m q) a -> code f m a = EOk.
Proof.
  intros F Q MR G. unfold code.
  assert (NI : a_pow a <> f_inf f).
  { intros H. assert (L := good_inf_bound f eb _ a F G H). destruct (fp_range f eb F) as [R0 _].
    assert (U : (decimal m q <= inject_Z (m * 10 ^ f_fpmax f))%Q).
    { apply Qle_trans with (decimal m (f_fpmax f)); [apply decimal_mono; lia|]. rewrite inject_Z_mult. rewrite <- decimal_pos by lia. apply Qle_refl. }
    assert (V := fp_limit f eb (m * 10 ^ f_fpmax f) F). assert (W : m * 10 ^ f_fpmax f <= 2 ^ (f_mb f + 1) * 10 ^ f_fpmax f).
    { apply Z.mul_le_mono_nonneg_r; [apply Z.pow_nonneg; lia|lia]. }
    specialize (V W). lra. }
  replace (a_pow a =? f_inf f) with false by lia. rewrite orb_false_r.
  destruct (Z.eqb_spec m 0) as [|M0]; [reflexivity|]. cbn [negb andb].
  destruct (Z.eqb_spec (a_man a) 0) as [A0|A0]; [|reflexivity]. destruct (Z.eqb_spec (a_pow a) 0) as [A1|A1]; [|reflexivity]. exfalso.
  destruct a as [am ap]. cbn [a_man a_pow] in *. subst am ap. assert (U := good_zero_bound f eb _ F G).
  assert (L : (decimal 1 (- f_fpmax f) <= decimal m q)%Q).
  { apply Qle_trans with (decimal m (- f_fpmax f)); [apply decimal_le; lia|apply decimal_mono; lia]. }
  assert (K : (B 1 (emin f - 1) < decimal 1 (- f_fpmax f))%Q) by (clear - F; destruct F as [[-> ->]|[-> ->]]; vm_compute; reflexivity).
  lra.
Qed.

(** ** from_pns *)
Lemma from_pns_good rn f eb q m rest neg many i ft d k : fok f eb -> digs i -> fraction ft d ->
  (many = false -> m = dec (i ++ d) /\ q = k /\ m < 2 ^ 64) ->
  (many = true -> exists u v, i ++ d = u ++ v /\ m = dec u /\ 10 ^ 18 <= m < 10 ^ 19 /\ q = k + len v) ->
  exists a, from_pns rn f (Pns q m rest neg many i (frac_of ft d)) = Ok (FFRes rest (code f (dec (i ++ d)) a) (Some (to_float f neg a))) /\
  good f eb (decimal (dec (i ++ d)) k) a.
Proof.
  intros F DI FR NM YM. assert (FD : digs d) by (destruct FR; [constructor|assumption]).
  assert (DID : digs (i ++ d)) by (apply digs_app; tauto). assert (DR := dec_range _ DID).
  assert (MN : 0 <= m) by (destruct many; [destruct (YM eq_refl) as [u [v H]]; lia|destruct (NM eq_refl); lia]).
  unfold from_pns. destruct (fast_path_good rn f eb (Pns q m rest neg many i (frac_of ft d)) F MN) as [FP|[x [a [FP [MF [QR [MB [G EN]]]]]]]].
  2: { cbn [p_mantissa p_exponent p_negative p_many] in *. rewrite FP. cbn [bind p_rest p_negative]. rewrite EN. exists a. destruct (NM MF) as [-> [-> _]].
       split; [|exact G]. rewrite (fast_code f eb _ k a F QR); [reflexivity|lia|exact G]. }
  rewrite FP. cbn [bind p_rest p_negative p_many p_mantissa p_exponent]. cbv zeta. destruct many.
  - destruct (YM eq_refl) as [u [v [E [MU [MR QE]]]]].
    assert (DUV : digs u /\ digs v) by (rewrite E in DID; now apply digs_app). destruct DUV as [DU DV].
    assert (VR := dec_range v DV). assert (LV := len_nonneg v).
    assert (P64 : m + 1 < 2 ^ 64) by (change (2 ^ 64) with 18446744073709551616; lia).
    assert (GA := compute_float_good f eb q m F ltac:(lia)). assert (GB := compute_float_good f eb q (m + 1) F ltac:(lia)).
    rewrite u64_id by lia.
    set (x := decimal (dec (i ++ d)) k).
    assert (XE : (x == decimal (m * 10 ^ len v + dec v) (q - len v))%Q).
    { unfold x. rewrite E, dec_app, MU. replace (q - len v) with k by lia. reflexivity. }
    assert (X1 : (decimal m q <= x)%Q).
    { replace q with (q - len v + len v) by lia. rewrite decimal_shift by lia. rewrite XE. apply decimal_le. lia. }
    assert (X2 : (x <= decimal (m + 1) q)%Q).
    { replace q with (q - len v + len v) at 1 by lia. rewrite decimal_shift by lia. rewrite XE. apply decimal_le. lia. }
    assert (CM : forall a, code f m a = code f (dec (i ++ d)) a).
    { intros a. apply code_pos. assert (P := pow10_pos (len v) LV). rewrite E, dec_app, <- MU. split; [lia|]. assert (m * 1 <= m * 10 ^ len v) by (apply Z.mul_le_mono_nonneg_l; lia). lia. }
    assert (PA := good_pow f eb _ _ F GA). replace (0 <=? a_pow (compute_float f q m)) with true by lia. cbn [andb].
    destruct (negb ((a_man (compute_float f q m) =? a_man (compute_float f q (m + 1))) && (a_pow (compute_float f q m) =? a_pow (compute_float f q (m + 1))))) eqn:NE.
    + assert (QR : f_p10min f <= q <= f_p10max f).
      { destruct (Z.lt_ge_cases q (f_p10min f)) as [Q1|Q1].
        - exfalso. unfold compute_float in NE. replace (q <? f_p10min f) with true in NE by lia. rewrite !orb_true_r in NE. cbn in NE. discriminate.
        - destruct (Z.lt_ge_cases (f_p10max f) q) as [Q2|Q2]; [|lia]. exfalso. unfold compute_float in NE.
          replace (q <? f_p10min f) with false in NE by lia. replace (f_p10max f <? q) with true in NE by lia.
          replace (m =? 0) with false in NE by lia. replace (m + 1 =? 0) with false in NE by lia. cbn [orb a_man a_pow] in NE. rewrite !Z.eqb_refl in NE. discriminate. }
      destruct (compute_error_spec f eb q m x F MR QR X1 X2) as [man [pow [CE [PN [HM [XL XU]]]]]].
      rewrite CE. cbn [a_pow]. replace (pow + invalid_am_bias <? 0) with true by lia.
      destruct (digit_comp_good f eb q m rest neg true i ft d u v x man pow) as [a [DC G]];
        [exact F|exact DI|exact FR|exact E|exact MU|exact MR|exact QR|unfold x; replace (q - len v) with k by lia; reflexivity|exact HM|exact (conj XL XU)|].
      rewrite DC. cbn [bind]. exists a. split; [|exact G]. fold (code f m a). rewrite CM. reflexivity.
    + replace (a_pow (compute_float f q m) <? 0) with false by lia. cbn [bind]. eexists. split; [fold (code f m (compute_float f q m)); rewrite CM; reflexivity|].
      apply negb_false_iff, andb_true_iff in NE. destruct NE as [N1 N2]. apply Z.eqb_eq in N1, N2.
      assert (AB : compute_float f q m = compute_float f q (m + 1)) by (destruct (compute_float f q m) as [u1 u2], (compute_float f q (m + 1)) as [u3 u4]; cbn [a_man a_pow] in *; congruence).
      rewrite <- AB in GB. apply (good_convex f eb _ x _ _ F GA GB X1 X2).
  - destruct (NM eq_refl) as [-> [-> M64]]. cbn [andb].
    assert (G := compute_float_good f eb k (dec (i ++ d)) F ltac:(lia)). assert (PA := good_pow f eb _ _ F G).
    replace (a_pow (compute_float f k (dec (i ++ d))) <? 0) with false by lia. cbn [bind]. eexists. split; [reflexivity|exact G].
Qed.

(** ** The longest text *)
Lemma text_minus neg : (if neg : bool then [ch "-"] else []) = minus neg. Proof. reflexivity. Qed.
Lemma expo_head xt e : expo xt e -> xt <> [] -> exists c r, xt = c :: r /\ (c = ch "e" \/ c = ch "E").
Proof. intros X N. destruct X; [contradiction| | |]; eexists; eexists; (split; [reflexivity|assumption]). Qed.
Lemma expo_snoc xt e c : expo xt e -> xt <> [] -> dig c -> exists e', expo (xt ++ [c]) e'.
Proof.
  intros X N C. assert (DS : forall d, digs d -> digs (d ++ [c]) /\ d ++ [c] <> []).
  { intros d D. split; [apply digs_app; split; [exact D|now constructor]|]. intros H. destruct d; discriminate. }
  destruct X as [|x d XC DN D|x d XC DN D|x d XC DN D]; [contradiction| | |]; destruct (DS d D) as [D1 D2]; cbn [app]; eexists; constructor; assumption.
Qed.
Lemma longest_facts neg i ft d xt e rest : digs i -> fraction ft d -> expo xt e -> i ++ d <> [] ->
  longest (minus neg ++ i ++ ft ++ xt) rest ->
  stops (ft ++ xt ++ rest) /\ (ft = [] -> forall r, xt ++ rest <> ch "." :: r) /\ (ft <> [] -> stops (xt ++ rest)) /\
  exists n, parse_exponent (xt ++ rest) = (rest, n) /\ sat e n.
Proof.
  intros DI FR EX NE LG.
  assert (FD : digs d) by (destruct FR; [constructor|assumption]).
  assert (NOEXT : forall i' ft' d' xt' e' a b, rest = a ++ b -> digs i' -> fraction ft' d' -> expo xt' e' -> i' ++ d' <> [] ->
    (i ++ ft ++ xt) ++ a = i' ++ ft' ++ xt' -> a = []).
  { intros i' ft' d' xt' e' a b RE DI' FR' EX' NE' EQ. apply (LG a b neg (dec (i' ++ d')) (e' - len d') RE).
    rewrite <- app_assoc, EQ. apply decimal_text_intro; assumption. }
  assert (XH : xt <> [] -> exists c r, xt = c :: r /\ (c = ch "e" \/ c = ch "E")) by (intros N; now apply (expo_head xt e)).
  assert (NDE : forall c, c = ch "e" \/ c = ch "E" -> ~ dig c) by (intros c [-> | ->]; rewrite dig_range; change (ch "e") with 101 || change (ch "E") with 69; lia).
  assert (SX : stops (xt ++ rest)).
  { destruct (list_eq_dec Z.eq_dec xt []) as [XN|XN].
    - subst xt. cbn [app]. destruct rest as [|c r]; [exact I|]. intros C.
      enough ([c] = []) by discriminate. destruct FR as [|d D].
      + apply (NOEXT (i ++ [c]) [] [] [] 0 [c] r); [reflexivity|apply digs_app; split; [exact DI|now constructor]|constructor|constructor| |].
        * rewrite app_nil_r. intros H. destruct i; discriminate.
        * now rewrite !app_nil_r.
      + apply (NOEXT i (ch "." :: (d ++ [c])) (d ++ [c]) [] 0 [c] r); [reflexivity|exact DI|constructor; apply digs_app; split; [exact D|now constructor]|constructor| |].
        * intros H. destruct i; [destruct d|]; discriminate.
        * rewrite !app_nil_r, <- app_assoc. reflexivity.
    - destruct (XH XN) as [c [r [-> C]]]. cbn [app]. now apply NDE. }
  assert (S1 : stops (ft ++ xt ++ rest)).
  { destruct FR as [|d D]; [exact SX|]. cbn [app stops]. rewrite dig_range. change (ch ".") with 46. lia. }
  assert (SD : ft = [] -> forall r, xt ++ rest <> ch "." :: r).
  { intros FN r H. destruct (list_eq_dec Z.eq_dec xt []) as [XN|XN].
    - subst xt ft. inversion FR; subst d. cbn [app] in H. subst rest.
      enough ([ch "."] = []) by discriminate.
      apply (NOEXT i [ch "."] [] [] 0 [ch "."] r); [reflexivity|exact DI|constructor; constructor|constructor|exact NE|now rewrite !app_nil_r].
    - destruct (XH XN) as [c [s [-> C]]]. cbn [app] in H. injection H as H _. destruct C as [-> | ->]; discriminate. }
  split; [exact S1|]. split; [exact SD|]. split; [intros _; exact SX|].
  destruct (list_eq_dec Z.eq_dec xt []) as [XN|XN].
  - subst xt. inversion EX; subst e. cbn [app]. exists 0. split; [|now left].
    rewrite app_nil_r in NOEXT.
    assert (ONE : forall y, dig y -> digs [y] /\ [y] <> []) by (intros y Y; split; [now constructor|discriminate]).
    assert (K : forall xt' e' b, rest = xt' ++ b -> expo xt' e' -> xt' = []).
    { intros xt' e' b RE X'. apply (NOEXT i ft d xt' e' xt' b); try assumption. now rewrite <- app_assoc. }
    unfold parse_exponent. destruct rest as [|c r]; [reflexivity|].
    destruct ((ch "e" =? c) || (ch "E" =? c)) eqn:EC; [|reflexivity].
    assert (C : c = ch "e" \/ c = ch "E") by (apply orb_true_iff in EC; destruct EC as [H|H]; apply Z.eqb_eq in H; [left|right]; now symmetry).
    destruct r as [|c1 r]; [reflexivity|].
    destruct (Z.eqb_spec (ch "-") c1) as [<-|N1]; [|destruct (Z.eqb_spec (ch "+") c1) as [<-|N2]].
    + destruct r as [|y r]; [reflexivity|]. destruct (is_integer y) eqn:Y; [|reflexivity]. exfalso. apply is_integer_dig in Y.
      destruct (ONE y Y) as [Y1 Y2]. assert (H := K [c; ch "-"; y] _ r eq_refl (ex_minus c [y] C Y2 Y1)). discriminate.
    + destruct r as [|y r]; [reflexivity|]. destruct (is_integer y) eqn:Y; [|reflexivity]. exfalso. apply is_integer_dig in Y.
      destruct (ONE y Y) as [Y1 Y2]. assert (H := K [c; ch "+"; y] _ r eq_refl (ex_plus c [y] C Y2 Y1)). discriminate.
    + destruct (is_integer c1) eqn:Y; [|reflexivity]. exfalso. apply is_integer_dig in Y.
      destruct (ONE c1 Y) as [Y1 Y2]. assert (H := K [c; c1] _ r eq_refl (ex_plain c [c1] C Y2 Y1)). discriminate.
  - apply exponent_spec; [exact EX|exact XN|]. destruct rest as [|c r]; [exact I|]. intros C.
    destruct (expo_snoc xt e c EX XN C) as [e' X']. enough ([c] = []) by discriminate.
    apply (NOEXT i ft d (xt ++ [c]) e' [c] r); try assumption; [reflexivity|]. now rewrite <- !app_assoc.
Qed.
