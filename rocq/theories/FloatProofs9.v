(** The error estimate of compute_error brackets every number whose first 19 digits are given. *)
From Verif Require Import Base BaseLemmas FloatTable FloatModel FloatSpec.
From Verif Require Import FloatProofs1 FloatProofs2 FloatProofs3 FloatProofs4 FloatProofs5 FloatProofs6 FloatProofs7 FloatProofs8.
From Coq Require Import Qpower Lqa Lia Znumtheory Zpow_facts.
Open Scope Z_scope.

Lemma decimal_unit w q : (decimal (w + 1) q == decimal w q + (10 # 1) ^ q)%Q.
Proof. unfold decimal. rewrite inject_Z_plus. change (inject_Z 1) with 1%Q. ring. Qed.
Lemma power_range q : -342 <= q <= 308 -> -1100 <= power q <= 1100.
Proof.
  intros Q. unfold power. rewrite Z.shiftr_div_pow2 by lia. change (2 ^ 16) with 65536.
  assert (-1140 <= (152170 + 65536) * q / 65536) by (apply Z.div_le_lower_bound; lia).
  assert ((152170 + 65536) * q / 65536 < 1030) by (apply Z.div_lt_upper_bound; lia). lia.
Qed.

Lemma compute_error_spec f eb q w x : fok f eb -> 10 ^ 18 <= w < 10 ^ 19 -> f_p10min f <= q <= f_p10max f ->
  (decimal w q <= x)%Q -> (x <= decimal (w + 1) q)%Q ->
  exists man pow, compute_error f q w = AM man (pow + invalid_am_bias) /\ pow + invalid_am_bias < 0 /\ 2 ^ 63 <= man < 2 ^ 64 /\
  let g := man / 2 ^ (62 - f_mb f) in let e := pow + 63 - f_mb f + emin f - 1 in
  (B g (e - 1) <= x)%Q /\ (x < B (g + 2) (e - 1))%Q.
Proof.
  intros F W QR X1 X2. assert (QQ : -342 <= q <= 308) by (destruct F as [[-> _]|[-> _]]; cbn in QR; lia).
  assert (W2 : 0 < w < 2 ^ 64) by lia.
  destruct (compute_float_main f eb q w F W2 QR) as [h [l [high [low [LZ [WR [_ [E [P _]]]]]]]]].
  assert (WS : u64 (Z.shiftl w (leading_zeroes w)) = w * 2 ^ leading_zeroes w).
  { rewrite Z.shiftl_mul_pow2 by lia. apply u64_id. lia. }
  unfold compute_error. rewrite WS. revert LZ WR P. generalize (leading_zeroes w) as lz. intros lz LZ WR P. rewrite P.
  destruct (product_spec f eb q _ h l high low F QQ WR E P) as [HR _].
  assert (GR := g_range f eb q _ h l high low F QQ WR E P).
  assert (U01 := upper01 f eb q _ h l high low F QQ WR E P).
  destruct (bracket f eb q _ h l high low F QQ WR E P) as [BL BU].
  assert (MBR := mb_range f eb F).
  unfold compute_error_scaled.
  assert (BI := fok_bias f eb F).
  set (upper := high / 2 ^ 63) in *. 
  assert (HZ : Z.lxor (Z.shiftr high 63) 1 = 1 - upper).
  { rewrite Z.shiftr_div_pow2 by lia. fold upper. destruct U01 as [-> | ->]; reflexivity. }
  rewrite HZ. rewrite wrap_id by (unfold in_range, imin, imax; cbn; lia). rewrite BI.
  set (shift := upper + n1 f) in *. set (g := high / 2 ^ shift) in *. set (T := 128 + shift + tq q) in *.
  set (y := (inject_Z (w * 2 ^ lz) * p5 q)%Q) in *.
  assert (DM := Z.div_mod high (2 ^ 63) ltac:(lia)). assert (RM := Z.mod_pos_bound high (2 ^ 63) ltac:(lia)). fold upper in DM.
  assert (MS : exists man, u64 (Z.shiftl high (1 - upper)) = man /\ 2 ^ 63 <= man < 2 ^ 64 /\ man / 2 ^ (62 - f_mb f) = g).
  { destruct U01 as [C|C].
    - exists (2 * high). rewrite C in *. change (1 - 0) with 1. rewrite Z.shiftl_mul_pow2 by lia. change (2 ^ 1) with 2.
      rewrite u64_id by lia. split; [lia|]. split; [lia|]. unfold g, shift. rewrite C, Z.add_0_l. unfold n1.
      replace (62 - f_mb f) with (1 + (61 - f_mb f)) by lia.
      rewrite <- div_div_pow by lia. change (2 ^ 1) with 2. rewrite (Z.mul_comm 2 high), Z.div_mul by lia. reflexivity.
    - exists high. rewrite C in *. change (1 - 1) with 0. rewrite Z.shiftl_0_r.
      rewrite u64_id by lia. split; [reflexivity|]. split; [lia|]. unfold g, shift. rewrite C. unfold n1. f_equal. f_equal. lia. }
  destruct MS as [man [-> [MR MG]]]. 
  exists man, (power q + (1 - emin f) - (1 - upper) - lz - 62). split; [reflexivity|].
  assert (PR := power_range q QQ). assert (ER := emin_range f eb F).
  split; [unfold invalid_am_bias; lia|]. split; [exact MR|]. cbv zeta. rewrite MG.
  replace (power q + (1 - emin f) - (1 - upper) - lz - 62 + 63 - f_mb f + emin f - 1 - 1) with (T + (q - lz))
    by (unfold T, shift, n1; rewrite power_tq; lia).
  assert (XY : (decimal w q == y * p2 (q - lz))%Q) by (apply decimal_scaled; lia).
  assert (DL : (B g (T + (q - lz)) <= decimal w q)%Q).
  { rewrite XY. rewrite <- B_p2. apply Qmult_le_compat_r; [exact BL|apply Qlt_le_weak, p2_pos]. }
  assert (DU : (decimal w q < B (g + 1) (T + (q - lz)))%Q).
  { rewrite XY. rewrite <- B_p2. apply Qmult_lt_r; [apply p2_pos|exact BU]. }
  split; [lra|]. apply Qle_lt_trans with (1 := X2). rewrite decimal_unit.
  replace (g + 2) with (g + 1 + 1) by lia. rewrite (B_plus (g + 1) 1).
  apply Qlt_le_trans with (B (g + 1) (T + (q - lz)) + (10 # 1) ^ q)%Q; [lra|]. apply Qplus_le_r.
  assert (G54 : g + 1 <= 2 ^ 54) by (assert (2 ^ (f_mb f + 2) <= 2 ^ 54) by (apply Z.pow_le_mono_r; lia); lia).
  unfold B in *. unfold decimal in DU. change (inject_Z 1) with 1%Q. rewrite Qmult_1_l.
  assert (PP := p2_pos (T + (q - lz))). assert (TP := p10_pos q).
  set (u := p2 (T + (q - lz))) in *. set (t := ((10 # 1) ^ q)%Q) in *. clearbody u t.
  assert (A1 : (inject_Z (10 ^ 18) * t <= inject_Z w * t)%Q) by (apply Qmult_le_compat_r; [apply iZ_le; lia|lra]).
  assert (A2 : (inject_Z (g + 1) * u <= inject_Z (10 ^ 18) * u)%Q) by (apply Qmult_le_compat_r; [apply iZ_le; lia|lra]).
  assert (A3 : (inject_Z (10 ^ 18) * t < inject_Z (10 ^ 18) * u)%Q) by lra.
  apply Qmult_lt_l in A3; [lra|reflexivity].
Qed.

(** ** The comparison with all digits *)
Definition comp (f : fmt) (big : list Z) (a : am) (ex : Z) : res am :=
  if 0 <=? ex then positive_digit_comp f big ex else negative_digit_comp f big a ex.
Lemma pow10_327 : 10 ^ 327 < wt 57. Proof. reflexivity. Qed.
Lemma p800_pow d : d <= 800 -> 10 ^ d <= p800.
Proof. intros H. unfold p800. apply Z.pow_le_mono_r; [reflexivity|exact H]. Qed.

Section Comp.
Variables (f : fmt) (eb : Z).
Hypothesis F : fok f eb.
Variables (man pow : Z) (x : Q).
Hypothesis HM : 2 ^ 63 <= man < 2 ^ 64.
Let g := man / 2 ^ (62 - f_mb f).
Let e := pow + 63 - f_mb f + emin f - 1.
Hypothesis XL : (B g (e - 1) <= x)%Q.
Hypothesis XU : (x < B (g + 2) (e - 1))%Q.

(** all digits were taken *)
Lemma comp_exact big M ex : big_ok big M -> 0 < M -> M < p800 -> (0 <= ex -> M * 10 ^ ex < 10 ^ 327) -> -1100 <= ex -> (x == decimal M ex)%Q ->
  exists a, comp f big (AM man pow) ex = Ok a /\ good f eb x a.
Proof using F HM XL XU.
  intros V M0 M8 MS EX XE. unfold comp. destruct (Z.leb_spec 0 ex) as [C|C].
  - specialize (MS C).
    destruct (positive_digit_comp_good f eb big M ex F V M0 C) as [a [A G]].
    { apply Z.lt_trans with (1 := MS). exact pow10_327. }
    exists a. split; [exact A|]. apply (good_wd f eb (decimal M ex)); [exact F|now symmetry|exact G].
  - assert (DN := decimal_nonneg M ex ltac:(lia)).
    apply (negative_digit_comp_good f eb man pow big M ex x F HM XL XU V (conj M0 M8)).
    + split; [exact EX|exact C].
    + rewrite XE. change (inject_Z 2) with 2%Q. lra.
    + rewrite XE. change (inject_Z 2) with 2%Q. lra.
    + intros _. cbv zeta. repeat split; intros H; rewrite XE in *; assumption.
Qed.

(** more digits than needed: the last one stands for the others *)
Lemma half_multiple mt pt k : k <= pt -> k <= 0 -> exists z, (B mt pt == decimal z k)%Q.
Proof.
  intros A C. exists (mt * 2 ^ (pt - k) * 5 ^ (- k)). unfold decimal. rewrite p10_split, inject_Z_mult, <- p5_Z by lia.
  replace pt with (k + (pt - k)) at 1 by lia. rewrite B_shift by lia. unfold B.
  assert (PP : (p5 (- k) * p5 k == 1)%Q) by (rewrite <- p5_add; replace (- k + k) with 0 by lia; reflexivity).
  transitivity (inject_Z (mt * 2 ^ (pt - k)) * p2 k * (p5 (- k) * p5 k))%Q; [rewrite PP; ring|ring].
Qed.
Lemma sticky_low sci : (decimal 1 sci <= x)%Q -> sci + 1 - f_maxdig f <= de f pow - 1.
Proof using F HM XL XU.
  intros S. destruct (dm_x f eb F man pow HM x XL XU) as [E1 [E2 [L U]]].
  destruct (dm_range f eb F man pow HM) as [DR _].
  set (pt := de f pow - 1) in *. set (d := dm f man pow) in *.
  destruct (Z.le_gt_cases (sci + 1 - f_maxdig f) pt) as [C|C]; [exact C|exfalso].
  assert (N : exists s1 t, s1 <= sci /\ f_mb f + 3 + pt <= sci - t /\ (p2 (- t) < p5 s1)%Q).
  { destruct F as [[-> _]|[-> _]].
    - exists (-306), 714. cbn [f_maxdig f_mb f64] in *. change (emin f64) with (-1074) in *.
      split; [lia|split; [lia|vm_compute; reflexivity]].
    - exists (-36), 88. cbn [f_maxdig f_mb f32] in *. change (emin f32) with (-149) in *.
      split; [lia|split; [lia|vm_compute; reflexivity]]. }
  destruct N as [s1 [t [N1 [N2 N3]]]]. assert (MBR := mb_range f eb F).
  assert (UB : (x < p2 (sci - t))%Q).
  { apply Qlt_le_trans with (1 := U). apply Qle_trans with (B 1 (sci - t)); [|unfold B; change (inject_Z 1) with 1%Q; lra].
    apply (B_cmp_le _ _ _ _ pt); [lia|lia|]. rewrite Z.sub_diag, Z.mul_1_r, Z.mul_1_l.
    apply Z.le_trans with (2 ^ (f_mb f + 3)); [|apply Z.pow_le_mono_r; lia].
    assert (8 <= 2 ^ f_mb f) by (change 8 with (2 ^ 3); apply Z.pow_le_mono_r; lia).
    rewrite Z.pow_add_r in * by lia. change (2 ^ 3) with 8. change (2 ^ 1) with 2 in *. lia. }
  assert (P5 : (p5 s1 <= p5 sci)%Q).
  { unfold p5. apply Qpower_le_compat_l; [exact N1|]. discriminate. }
  rewrite decimal_B in S. replace (sci - t) with (sci + - t) in UB by lia. rewrite p2_add in UB.
  unfold B in S. change (inject_Z 1) with 1%Q in S. rewrite Qmult_1_l in S.
  assert (PP := p2_pos sci).
  assert (p2 sci * p5 sci < p2 sci * p2 (- t))%Q by lra. apply Qmult_lt_l in H; [|exact PP]. lra.
Qed.
Lemma comp_sticky big Fl sci : big_ok big (10 * Fl + 1) -> 10 ^ (f_maxdig f - 1) <= Fl < 10 ^ f_maxdig f -> -330 <= sci < 400 ->
  let ex := sci + 1 - (f_maxdig f + 1) in ex < 0 ->
  (decimal Fl (ex + 1) < x)%Q -> (x < decimal (Fl + 1) (ex + 1))%Q ->
  exists a, comp f big (AM man pow) ex = Ok a /\ good f eb x a.
Proof using F HM XL XU.
  intros V FR SR ex EX X1 X2. unfold comp. replace (0 <=? ex) with false by lia.
  assert (MD : 100 <= f_maxdig f <= 769) by (destruct F as [[-> _]|[-> _]]; cbn; lia).
  assert (FP : 1 <= Fl). { assert (0 < 10 ^ (f_maxdig f - 1)) by (apply Z.pow_pos_nonneg; lia). lia. }
  assert (D1 : (decimal Fl (ex + 1) == decimal (10 * Fl) ex)%Q) by (rewrite decimal_shift by lia; change (10 ^ 1) with 10; rewrite Z.mul_comm; reflexivity).
  assert (D2 : (decimal (Fl + 1) (ex + 1) == decimal (10 * (Fl + 1)) ex)%Q) by (rewrite decimal_shift by lia; change (10 ^ 1) with 10; rewrite Z.mul_comm; reflexivity).
  assert (M1 : (decimal Fl (ex + 1) < decimal (10 * Fl + 1) ex)%Q) by (rewrite D1; apply decimal_lt; lia).
  assert (M2 : (decimal (10 * Fl + 1) ex < decimal (Fl + 1) (ex + 1))%Q) by (rewrite D2; apply decimal_lt; lia).
  assert (TW : (decimal (Fl + 1) (ex + 1) <= inject_Z 2 * decimal Fl (ex + 1))%Q).
  { unfold decimal. rewrite Qmult_assoc, <- inject_Z_mult. apply Qmult_le_compat_r; [apply iZ_le; lia|apply Qlt_le_weak, p10_pos]. }
  change (inject_Z 2) with 2%Q in TW.
  assert (MB8 : 10 * Fl + 1 < p800).
  { apply Z.lt_le_trans with (10 ^ (f_maxdig f + 1)); [rewrite Z.pow_add_r by lia; change (10 ^ 1) with 10; lia|apply p800_pow; lia]. }
  apply (negative_digit_comp_good f eb man pow big (10 * Fl + 1) ex x F HM XL XU V).
  - split; [lia|exact MB8].
  - unfold ex in *. lia.
  - change (inject_Z 2) with 2%Q. lra.
  - change (inject_Z 2) with 2%Q. lra.
  - intros _. cbv zeta. set (h := B (2 * dm f man pow + 1) (de f pow - 1)).
    assert (LO : ex + 1 <= de f pow - 1).
    { replace (ex + 1) with (sci + 1 - f_maxdig f) by (unfold ex; lia). apply sticky_low.
      apply Qle_trans with (decimal Fl (ex + 1)); [|lra].
      replace sci with (ex + 1 + (f_maxdig f - 1)) by (unfold ex; lia). rewrite decimal_shift by lia. apply decimal_le. lia. }
    destruct (half_multiple (2 * dm f man pow + 1) (de f pow - 1) (ex + 1) LO ltac:(lia)) as [z Z]. fold h in Z.
    repeat split; intros H; rewrite Z in *.
    + assert (Fl < z) by (apply (decimal_lt _ _ (ex + 1)); lra).
      apply Qlt_le_trans with (1 := X2). apply decimal_le. lia.
    + assert (z < Fl + 1) by (apply (decimal_lt _ _ (ex + 1)); lra).
      apply Qle_lt_trans with (2 := X1). apply decimal_le. lia.
    + exfalso. assert (Fl < z) by (apply (decimal_lt _ _ (ex + 1)); lra).
      assert (z < Fl + 1) by (apply (decimal_lt _ _ (ex + 1)); lra). lia.
Qed.
End Comp.
