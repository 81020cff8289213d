(** compute_float is correctly rounded. *)
From Verif Require Import Base BaseLemmas FloatTable FloatModel FloatSpec FloatProofs1 FloatProofs2 FloatProofs3 FloatProofs4.
From Coq Require Import Qpower Lqa Lia Znumtheory Zpow_facts.
Open Scope Z_scope.

(** ** compute_float *)
Lemma odd_land m : Z.land m 1 = if Z.odd m then 1 else 0.
Proof. change 1 with (Z.ones 1) at 1. rewrite Z.land_ones by lia. change (2 ^ 1) with 2. now rewrite Zmod_odd. Qed.
Lemma round_up_half m : (m + Z.land m 1) / 2 = m / 2 + if Z.odd m then 1 else 0.
Proof.
  rewrite odd_land. destruct (Z.odd m) eqn:O; [|now rewrite !Z.add_0_r].
  rewrite Z.odd_spec in O. destruct O as [k ->].
  replace (2 * k + 1 + 1) with ((k + 1) * 2) by ring. rewrite Z.div_mul by lia.
  replace (2 * k + 1) with (1 + k * 2) by ring. rewrite Z.div_add by lia. change (1 / 2) with 0. lia.
Qed.
Lemma land3 m : Z.odd m = true -> (Z.land m 3 =? 1) = Z.even (m / 2).
Proof.
  intros O. change 3 with (Z.ones 2). rewrite Z.land_ones by lia. change (2 ^ 2) with 4.
  rewrite Z.odd_spec in O. destruct O as [k ->].
  replace ((2 * k + 1) / 2) with k by (apply (Z.div_unique _ _ _ 1); lia).
  destruct (Z.even k) eqn:EV.
  - rewrite Z.even_spec in EV. destruct EV as [j ->]. apply Z.eqb_eq. symmetry. apply (Z.mod_unique _ _ j); lia.
  - assert (OD : Z.odd k = true) by (rewrite <- Z.negb_even, EV; reflexivity). rewrite Z.odd_spec in OD. destruct OD as [j ->].
    apply Z.eqb_neq. replace ((2 * (2 * j + 1) + 1) mod 4) with 3; [discriminate|]. apply (Z.mod_unique _ _ j); lia.
Qed.
Definition clear_tie (f : fmt) (q high low g shift : Z) : bool :=
  (low <=? 1) && (f_rtemin f <=? q) && (q <=? f_rtemax f) && (Z.land g 3 =? 1) && (u64 (Z.shiftl g shift) =? high).
Definition main_branch (f : fmt) (q high low lz : Z) : am :=
  let upperbit := high / 2 ^ 63 in
  let shift := upperbit + n1 f in
  let g := high / 2 ^ shift in
  let power2 := power q + upperbit - lz - f_minexp f in
  if power2 <=? 0 then
    if 64 <=? - power2 + 1 then AM 0 0
    else finish_small f (g / 2 ^ (- power2 + 1) / 2 + if Z.odd (g / 2 ^ (- power2 + 1)) then 1 else 0)
  else finish f (g / 2 + if Z.odd g && negb (clear_tie f q high low g shift) then 1 else 0) power2.

Lemma compute_float_main f eb q w : fok f eb -> 0 < w < 2 ^ 64 -> f_p10min f <= q <= f_p10max f ->
  exists h l high low, let lz := leading_zeroes w in
  0 <= lz <= 63 /\ 2 ^ 63 <= w * 2 ^ lz < 2 ^ 64 /\ -342 <= q <= 308 /\ pow5_entry q = (h, l) /\
  compute_product_approximation (f_mb f + 3) q (w * 2 ^ lz) = (high, low) /\
  compute_float f q w = main_branch f q high low lz.
Proof.
  intros F W Q. cbv zeta. set (lz := leading_zeroes w).
  assert (LZ : 0 <= lz <= 63 /\ 2 ^ 63 <= w * 2 ^ lz < 2 ^ 64).
  { unfold lz, leading_zeroes. assert (L := Z.log2_spec w ltac:(lia)).
    assert (0 <= Z.log2 w) by apply Z.log2_nonneg.
    assert (Z.log2 w < 64) by (apply Z.log2_lt_pow2; lia). split; [lia|].
    assert (P : 0 < 2 ^ (63 - Z.log2 w)) by (apply Z.pow_pos_nonneg; lia).
    assert (P63 : 2 ^ Z.log2 w * 2 ^ (63 - Z.log2 w) = 2 ^ 63) by (rewrite <- Z.pow_add_r by lia; f_equal; lia).
    rewrite Z.pow_succ_r in L by lia. nia. }
  destruct LZ as [LZ WR].
  assert (QR : -342 <= q <= 308) by (destruct F as [[-> _]|[-> _]]; cbn in Q; lia).
  destruct (pow5_entry q) as [h l] eqn:E.
  destruct (compute_product_approximation (f_mb f + 3) q (w * 2 ^ lz)) as [high low] eqn:P.
  exists h, l, high, low. split; [exact LZ|]. split; [exact WR|]. split; [exact QR|]. split; [reflexivity|]. split; [reflexivity|].
  unfold compute_float. replace ((w =? 0) || (q <? f_p10min f)) with false by lia.
  replace (f_p10max f <? q) with false by lia. fold lz. rewrite Z.shiftl_mul_pow2 by lia. rewrite u64_id by lia.
  rewrite P. rewrite wrap_id by (unfold in_range, imin, imax; cbn; lia).
  assert (SH : n1 f = 64 - f_mb f - 3) by (unfold n1; lia).
  destruct (product_spec f eb q (w * 2 ^ lz) h l high low F QR WR E P) as [HR _].
  assert (SG := shift_ge f eb q (w * 2 ^ lz) h l high low F QR WR E P).
  assert (GR := g_range f eb q (w * 2 ^ lz) h l high low F QR WR E P).
  assert (N := n1_ge f eb F).
  unfold main_branch. cbv zeta. rewrite !(Z.shiftr_div_pow2 high) by lia.
  replace (high / 2 ^ 63 + 64 - f_mb f - 3) with (high / 2 ^ 63 + n1 f) by lia.
  set (shift := high / 2 ^ 63 + n1 f) in *. set (g := high / 2 ^ shift) in *.
  set (power2 := power q + high / 2 ^ 63 - lz - f_minexp f).
  assert (M62 : 2 ^ (f_mb f + 2) <= 2 ^ 62) by (apply Z.pow_le_mono_r; destruct F as [[-> _]|[-> _]]; cbn; lia).
  assert (G0 : 0 < 2 ^ (f_mb f + 1)) by (apply Z.pow_pos_nonneg; destruct F as [[-> _]|[-> _]]; cbn; lia).
  assert (HALF : forall m, 0 <= m <= g -> Z.shiftr (u64 (m + Z.land m 1)) 1 = m / 2 + if Z.odd m then 1 else 0).
  { intros m Hm. rewrite u64_id by (rewrite odd_land; destruct (Z.odd m); lia).
    rewrite Z.shiftr_div_pow2 by lia. change (2 ^ 1) with 2. apply round_up_half. }
  set (clr := if (low <=? 1) && (f_rtemin f <=? q) && (q <=? f_rtemax f) && (Z.land g 3 =? 1)
    then if u64 (Z.shiftl g shift) =? high then Z.ldiff g 1 else g else g).
  destruct (Z.leb_spec power2 0) as [P2|P2].
  - destruct (Z.leb_spec 64 (- power2 + 1)) as [K|K]; [reflexivity|].
    rewrite (Z.shiftr_div_pow2 g) by lia. rewrite HALF; [reflexivity|].
    assert (0 < 2 ^ (- power2 + 1)) by (apply Z.pow_pos_nonneg; lia).
    split; [apply Z.div_pos; lia|apply Z.div_le_upper_bound; nia].
  - change (finish f (Z.shiftr (u64 (clr + Z.land clr 1)) 1) power2 = finish f (g / 2 + if Z.odd g && negb (clear_tie f q high low g shift) then 1 else 0) power2).
    f_equal. unfold clr, clear_tie.
    match goal with |- context [if ?c then (if ?d then _ else _) else _] =>
      replace (if c then (if d then Z.ldiff g 1 else g) else g) with (if c && d then Z.ldiff g 1 else g) by (destruct c, d; reflexivity) end.
    match goal with |- context [if ?c then Z.ldiff g 1 else g] => destruct c eqn:CT end; cbn [negb].
    + rewrite andb_false_r. assert (OG : Z.odd g = true).
      { apply andb_true_iff in CT. destruct CT as [CT _]. apply andb_true_iff in CT. destruct CT as [_ CT].
        apply Z.eqb_eq in CT. rewrite <- Z.bit0_odd. rewrite <- (andb_true_r (Z.testbit g 0)).
        change true with (Z.testbit 3 0). rewrite <- Z.land_spec, CT. reflexivity. }
      rewrite ldiff_low1 by exact OG. rewrite HALF by lia.
      rewrite Z.odd_spec in OG. destruct OG as [k OG]. rewrite OG.
      replace (2 * k + 1 - 1) with (2 * k) by lia. rewrite Z.odd_mul. cbn [Z.odd andb]. rewrite (Z.mul_comm 2 k), Z.div_mul by lia.
      rewrite Z.div_add_l by lia. change (1 / 2) with 0. lia.
    + rewrite andb_true_r. apply HALF. lia.
Qed.

Lemma five28 w t g q : q < -27 -> 0 < w < 2 ^ 64 -> ~ (B g t == inject_Z w * p5 q)%Q.
Proof.
  intros Q W X. apply cmp_eq in X. unfold cmp_num, cmp_den in X.
  replace (Z.max (- q) 0) with (- q) in X by lia. replace (Z.max q 0) with 0 in X by lia. rewrite Z.pow_0_r, Z.mul_1_r in X.
  assert (D : (5 ^ (- q) | w)).
  { apply (five_divides _ (Z.max (- t) 0)); [lia|lia|]. exists (g * 2 ^ Z.max t 0). rewrite <- X. ring. }
  apply Z.divide_pos_le in D; [|lia]. assert (5 ^ 28 <= 5 ^ (- q)) by (apply Z.pow_le_mono_r; lia).
  change (5 ^ 28) with 37252902984619140625 in *. change (2 ^ 64) with 18446744073709551616 in W. lia.
Qed.
Lemma decimal_scaled w lz q : 0 <= lz -> (decimal w q == inject_Z (w * 2 ^ lz) * p5 q * p2 (q - lz))%Q.
Proof.
  intros L. rewrite decimal_B. rewrite inject_Z_mult, <- p2_Z by exact L.
  assert (P : (p2 q == p2 lz * p2 (q - lz))%Q) by (rewrite <- p2_add; replace (lz + (q - lz)) with q by lia; reflexivity).
  unfold B. rewrite P. ring.
Qed.
Lemma B_p2 m t k : (B m t * p2 k == B m (t + k))%Q.
Proof. unfold B. rewrite p2_add. ring. Qed.

Lemma main_branch_good f eb q w h l high low : fok f eb -> 0 < w < 2 ^ 64 -> -342 <= q <= 308 ->
  let lz := leading_zeroes w in
  0 <= lz <= 63 -> 2 ^ 63 <= w * 2 ^ lz < 2 ^ 64 -> pow5_entry q = (h, l) ->
  compute_product_approximation (f_mb f + 3) q (w * 2 ^ lz) = (high, low) ->
  good f eb (decimal w q) (main_branch f q high low lz).
Proof.
  intros F W Q. cbv zeta. generalize (leading_zeroes w) as lz. intros lz LZ WR E P.
  destruct (fok_facts f eb F) as [M [EB [EM [I [_ [I2 ME]]]]]].
  assert (SG := shift_ge f eb q _ h l high low F Q WR E P).
  assert (GR := g_range f eb q _ h l high low F Q WR E P).
  assert (U01 := upper01 f eb q _ h l high low F Q WR E P).
  assert (TF := tie_found f eb q _ h l high low F Q WR E P).
  assert (TR := tie_range f eb q _ h l high low F Q WR E P).
  assert (TB := tie_real f eb q _ h l high low F Q WR E P).
  destruct (bracket f eb q _ h l high low F Q WR E P) as [BL BU].
  unfold main_branch. cbv zeta.
  set (shift := high / 2 ^ 63 + n1 f) in *. set (g := high / 2 ^ shift) in *.
  set (power2 := power q + high / 2 ^ 63 - lz - f_minexp f).
  set (y := (inject_Z (w * 2 ^ lz) * p5 q)%Q) in *. set (T := 128 + shift + tq q) in *.
  set (x := decimal w q).
  assert (XY : (x == y * p2 (q - lz))%Q) by (apply decimal_scaled; lia).
  set (e := T + q - lz + 1).
  assert (PE : power2 = e - emin f + 1) by (unfold power2, e, T, shift; rewrite power_tq; unfold n1; lia).
  assert (XL : (B g (e - 1) <= x)%Q).
  { rewrite XY. replace (e - 1) with (T + (q - lz)) by (unfold e; lia). rewrite <- B_p2.
    apply Qmult_le_compat_r; [exact BL|apply Qlt_le_weak, p2_pos]. }
  assert (XU : (x < B (g + 1) (e - 1))%Q).
  { rewrite XY. replace (e - 1) with (T + (q - lz)) by (unfold e; lia). rewrite <- B_p2.
    apply Qmult_lt_r; [apply p2_pos|exact BU]. }
  assert (XE : (x == B g (e - 1))%Q <-> (y == B g T)%Q).
  { rewrite XY. replace (e - 1) with (T + (q - lz)) by (unfold e; lia). rewrite <- B_p2.
    apply Qmult_inj_r. assert (PP := p2_pos (q - lz)). lra. }
  clear BL BU. clearbody y T.
  assert (P0 : 0 < 2 ^ f_mb f) by (apply Z.pow_pos_nonneg; lia).
  assert (P1 := pow_mb (f_mb f) M).
  assert (PB2 : 2 ^ (f_mb f + 2) = 4 * 2 ^ f_mb f) by (rewrite Z.pow_add_r by lia; lia).
  destruct (Z.leb_spec power2 0) as [S|S].
  - assert (QS : q < -27).
    { destruct (Z.le_gt_cases (-27) q) as [C|C]; [exfalso|exact C]. unfold power2, power in S.
      rewrite Z.shiftr_div_pow2 in S by lia. change (2 ^ 16) with 65536 in S.
      assert (-90 <= (152170 + 65536) * q / 65536) by (apply Z.div_le_lower_bound; lia).
      assert (f_minexp f <= -127) by (destruct F as [[-> _]|[-> _]]; cbn; lia). lia. }
    assert (NT : forall a t, ~ (B a t == x)%Q).
    { intros a t A. apply (five28 w (t - q) a q QS W). unfold x in A. rewrite decimal_B in A.
      assert (PP := p2_pos q). apply (Qmult_inj_r _ _ (p2 q)); [lra|]. rewrite B_p2.
      replace (t - q + q) with t by lia. rewrite A. unfold B. ring. }
    destruct (Z.leb_spec 64 (- power2 + 1)) as [K|K].
    + apply rounds_zero; [exact F|unfold x; apply decimal_nonneg; lia|].
      apply Qlt_le_trans with (B (g + 1) (e - 1)); [exact XU|].
      apply (B_cmp_le _ _ _ _ (e - 1)); [lia|lia|]. rewrite Z.sub_diag, Z.mul_1_r, Z.mul_1_l.
      apply Z.le_trans with (2 ^ (f_mb f + 2)); [lia|]. apply Z.pow_le_mono_r; [lia|].
      assert (f_mb f <= 52) by (destruct F as [[-> _]|[-> _]]; cbn; lia). lia.
    + set (k := - power2 + 1) in *. set (g' := g / 2 ^ k).
      assert (PK : 2 <= 2 ^ k) by (change 2 with (2 ^ 1) at 1; apply Z.pow_le_mono_r; lia).
      assert (D := Z.div_mod g (2 ^ k) ltac:(lia)). assert (R := Z.mod_pos_bound g (2 ^ k) ltac:(lia)). fold g' in D.
      assert (EK : emin f - 1 = e - 1 + k) by lia.
      assert (L' : (B g' (emin f - 1) <= x)%Q).
      { apply Qle_trans with (B g (e - 1)); [|exact XL]. rewrite EK, B_shift by lia. apply B_le. lia. }
      assert (U' : (x < B (g' + 1) (emin f - 1))%Q).
      { apply Qlt_le_trans with (B (g + 1) (e - 1)); [exact XU|]. rewrite EK, B_shift by lia. apply B_le. lia. }
      assert (G0 : 0 <= g') by (apply Z.div_pos; lia).
      assert (G1 : g' < 2 ^ (f_mb f + 1)) by (apply Z.div_lt_upper_bound; nia).
      assert (GD := Z.div_mod g' 2 ltac:(lia)). assert (GM := Z.mod_pos_bound g' 2 ltac:(lia)).
      apply finish_small_good with (eb := eb); [exact F| |].
      * destruct (Z.odd g') eqn:O; [|lia].
        rewrite Zmod_odd, O in GD. lia.
      * rewrite EM. apply (rounds_half (f_mb f) eb M x g' (emn (f_mb f) eb)); try lia.
        -- rewrite <- EM. exact L'.
        -- rewrite <- EM. exact U'.
        -- tauto.
        -- tauto.
        -- intros _ A. exfalso. rewrite <- EM in A. apply (NT g' (emin f - 1)). now symmetry.
  - rewrite PE. apply finish_good; [exact F| |].
    + assert (GD := Z.div_mod g 2 ltac:(lia)). assert (GM := Z.mod_pos_bound g 2 ltac:(lia)).
      destruct (Z.odd g) eqn:O; [|cbn [andb]; lia]. rewrite Zmod_odd, O in GD.
      destruct (clear_tie f q high low g shift); cbn [andb negb]; lia.
    + rewrite EM in PE. apply (rounds_half (f_mb f) eb M x g e); try lia; try exact XL; try exact XU.
      * intros A. apply andb_true_iff in A. tauto.
      * intros O A. rewrite O. cbn [andb]. apply negb_true_iff. destruct (clear_tie f q high low g shift) eqn:CT; [|reflexivity].
        exfalso. unfold clear_tie in CT. apply andb_true_iff in CT. destruct CT as [CT C5]. apply Z.eqb_eq in C5.
        assert (N := n1_ge f eb F). rewrite Z.shiftl_mul_pow2 in C5 by lia.
        assert (HR : 2 ^ 62 <= high < 2 ^ 64) by apply (product_spec f eb q _ h l high low F Q WR E P).
        assert (GS : 0 <= g * 2 ^ shift < 2 ^ 64).
        { assert (0 < 2 ^ shift) by (apply Z.pow_pos_nonneg; lia). split; [nia|].
          apply Z.le_lt_trans with high; [|lia]. rewrite Z.mul_comm. apply Z.mul_div_le. lia. }
        rewrite u64_id in C5 by exact GS.
        assert (EQ : (y == B g T)%Q).
        { apply TB; [|lia|lia]. repeat rewrite andb_true_iff in CT. lia. }
        apply XE in EQ. lra.
      * intros O A. rewrite O. cbn [andb]. f_equal. apply XE in A. destruct (TF O A) as [LO HI].
        assert (R := TR O A). unfold clear_tie. rewrite LO. replace (0 <=? 1) with true by reflexivity.
        replace (f_rtemin f <=? q) with true by lia. replace (q <=? f_rtemax f) with true by lia. cbn [andb].
        rewrite (land3 g O). rewrite Z.shiftl_mul_pow2 by (assert (N := n1_ge f eb F); lia).
        rewrite <- HI. rewrite u64_id, Z.eqb_refl, andb_true_r; [reflexivity|].
        assert (HR : 2 ^ 62 <= high < 2 ^ 64) by apply (product_spec f eb q _ h l high low F Q WR E P). lia.
Qed.

(** [compute_float] gives the nearest number of every decimal with at most 64 bits of digits *)
Lemma compute_float_good f eb q w : fok f eb -> 0 <= w < 2 ^ 64 -> good f eb (decimal w q) (compute_float f q w).
Proof.
  intros F W. destruct (Z.eq_dec w 0) as [->|W0].
  - unfold compute_float. cbn [Z.eqb orb]. apply rounds_zero; [exact F|apply decimal_nonneg; lia|].
    unfold decimal. change (inject_Z 0) with 0%Q. unfold B. assert (PP := p2_pos (emin f - 1)).
    change (inject_Z 1) with 1%Q. lra.
  - destruct (Z.ltb_spec q (f_p10min f)) as [L|L].
    + unfold compute_float. replace ((w =? 0) || (q <? f_p10min f)) with true by lia.
      apply rounds_zero; [exact F|apply decimal_nonneg; lia|].
      apply Qle_lt_trans with (decimal (2 ^ 64) (f_p10min f - 1)).
      * apply Qle_trans with (decimal w (f_p10min f - 1)); [apply decimal_mono; lia|apply decimal_le; lia].
      * destruct F as [[-> _]|[-> _]]; vm_compute; reflexivity.
    + destruct (Z.ltb_spec (f_p10max f) q) as [L2|L2].
      * unfold compute_float. replace ((w =? 0) || (q <? f_p10min f)) with false by lia.
        replace (f_p10max f <? q) with true by lia. left. split; [reflexivity|].
        apply Qle_trans with (decimal 1 (f_p10max f + 1)).
        -- destruct F as [[-> ->]|[-> ->]]; vm_compute; discriminate.
        -- apply Qle_trans with (decimal 1 q); [apply decimal_mono; lia|apply decimal_le; lia].
      * destruct (compute_float_main f eb q w F ltac:(lia) ltac:(lia)) as [h [l [high [low [LZ [WR [QR [E [P ->]]]]]]]]].
        apply (main_branch_good f eb q w h l high low); try assumption. lia.
Qed.
