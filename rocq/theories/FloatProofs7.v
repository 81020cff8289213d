(** The rounding of the slow path: round, and the comparisons with a halfway point. *)
From Verif Require Import Base BaseLemmas FloatTable FloatModel FloatSpec FloatProofs1 FloatProofs2 FloatProofs3 FloatProofs4 FloatProofs5 FloatProofs6.
From Coq Require Import Qpower Lqa Lia Znumtheory Zpow_facts.
Open Scope Z_scope.

(** ** Rounding next to [m], known up to three halves *)
Lemma rounds_third mb eb x m e : 1 <= mb -> emn mb eb <= e -> 0 <= m < 2 ^ (mb + 1) -> (2 ^ mb <= m \/ e = emn mb eb) ->
  (B (2 * m) (e - 1) <= x)%Q -> (x < B (2 * m + 3) (e - 1))%Q ->
  forall up : bool,
  ((x < B (2 * m + 1) (e - 1))%Q -> up = false) -> ((B (2 * m + 1) (e - 1) < x)%Q -> up = true) ->
  ((x == B (2 * m + 1) (e - 1))%Q -> up = Z.odd m) ->
  let '(m', e') := settle mb (m + if up then 1 else 0) e in
  canon mb eb m' e' /\ rounds mb eb x m' e' /\ e <= e' <= e + 1.
Proof.
  intros M E R C L U up H1 H2 H3. assert (P := pow_mb mb M).
  assert (P0 : 0 < 2 ^ mb) by (apply Z.pow_pos_nonneg; lia).
  assert (P2 : 2 ^ (mb + 2) = 4 * 2 ^ mb) by (rewrite Z.pow_add_r by lia; lia).
  assert (D0 : 2 * m / 2 = m) by (rewrite Z.mul_comm; apply Z.div_mul; lia).
  assert (D1 : (2 * m + 1) / 2 = m) by (symmetry; apply (Z.div_unique _ _ _ 1); lia).
  assert (D2 : (2 * m + 2) / 2 = m + 1) by (symmetry; apply (Z.div_unique _ _ _ 0); lia).
  assert (O0 : Z.odd (2 * m) = false) by (rewrite Z.odd_mul; reflexivity).
  assert (O1 : Z.odd (2 * m + 1) = true) by (rewrite Z.odd_add, O0; reflexivity).
  assert (O2 : Z.odd (2 * m + 2) = false) by (rewrite Z.odd_add, O0; reflexivity).
  destruct (Qlt_le_dec x (B (2 * m + 1) (e - 1))) as [A|A].
  - rewrite (H1 A). assert (RH := rounds_half mb eb M x (2 * m) e E ltac:(lia) ltac:(lia) L A false). rewrite D0 in RH. apply RH.
    + discriminate.
    + rewrite O0. discriminate.
    + rewrite O0. discriminate.
  - destruct (Qlt_le_dec x (B (2 * m + 2) (e - 1))) as [A2|A2].
    + assert (RH := rounds_half mb eb M x (2 * m + 1) e E ltac:(lia) ltac:(lia) A). rewrite D1 in RH.
      apply RH; [replace (2 * m + 1 + 1) with (2 * m + 2) by lia; exact A2| | |].
      * intros _. exact O1.
      * intros _. exact H2.
      * intros _ X. rewrite (H3 X). symmetry. apply Z.negb_even.
    + assert (UP : up = true).
      { apply H2. apply Qlt_le_trans with (B (2 * m + 2) (e - 1)); [apply B_lt; lia|exact A2]. }
      rewrite UP. destruct (Z.eq_dec (m + 1) (2 ^ (mb + 1))) as [T|T].
      * unfold settle. rewrite T, Z.eqb_refl.
        assert (RH := rounds_half mb eb M x (2 ^ (mb + 1)) (e + 1) ltac:(lia) ltac:(lia) ltac:(lia)).
        assert (OO : Z.odd (2 ^ (mb + 1)) = false) by (rewrite P, Z.odd_mul; reflexivity).
        assert (E1 : (B (2 ^ (mb + 1)) (e + 1 - 1) == B (2 * m + 2) (e - 1))%Q).
        { replace (e + 1 - 1) with (e - 1 + 1) by lia. rewrite B_shift by lia. apply B_eq. lia. }
        assert (E2 : (B (2 * m + 3) (e - 1) <= B (2 ^ (mb + 1) + 1) (e + 1 - 1))%Q).
        { replace (e + 1 - 1) with (e - 1 + 1) by lia. rewrite (B_shift (2 ^ (mb + 1) + 1)) by lia. apply B_le. lia. }
        specialize (RH ltac:(rewrite E1; exact A2) ltac:(apply Qlt_le_trans with (B (2 * m + 3) (e - 1)); assumption) false).
        specialize (RH ltac:(discriminate) ltac:(rewrite OO; discriminate) ltac:(rewrite OO; discriminate)).
        rewrite P, (Z.mul_comm 2), Z.div_mul, Z.add_0_r in RH by lia. unfold settle in RH.
        replace (2 ^ mb =? 2 ^ (mb + 1)) with false in RH by lia. destruct RH as [RH1 [RH2 RH3]].
        split; [exact RH1|]. split; [exact RH2|lia].
      * assert (RH := rounds_half mb eb M x (2 * m + 2) e E ltac:(lia) ltac:(lia) A2). 
        specialize (RH ltac:(replace (2 * m + 2 + 1) with (2 * m + 3) by lia; exact U) false).
        rewrite D2, Z.add_0_r in RH. apply RH.
        -- discriminate.
        -- rewrite O2. discriminate.
        -- rewrite O2. discriminate.
Qed.

(** ** The fields of a word *)
Lemma land_fields n k a b : 1 <= n -> 0 <= k -> 0 <= a < 2 ^ n -> 0 <= b < 2 ^ k ->
  Z.land (b * 2 ^ n + a) (2 ^ n - 1) = a /\ Z.land (b * 2 ^ n + a) ((2 ^ k - 1) * 2 ^ n) = b * 2 ^ n.
Proof.
  intros N K A C. assert (PN : 0 < 2 ^ n) by (apply Z.pow_pos_nonneg; lia). split.
  - replace (2 ^ n - 1) with (Z.ones n) by (rewrite Z.ones_equiv; lia). rewrite Z.land_ones by lia.
    rewrite Z.add_comm, Z.mod_add by lia. apply Z.mod_small. lia.
  - rewrite <- lor_high by lia. rewrite Z.land_lor_distr_l.
    assert (L0 : Z.land a ((2 ^ k - 1) * 2 ^ n) = 0).
    { apply Z.bits_inj'. intros i I. rewrite Z.land_spec, Z.bits_0. destruct (Z.ltb_spec i n) as [KN|KN].
      - rewrite Z.mul_pow2_bits_low by lia. apply andb_false_r.
      - rewrite (Z.bits_above_log2 a); [reflexivity|lia|].
        destruct (Z.eq_dec a 0) as [->|NZ]; [cbn; lia|]. apply Z.lt_le_trans with n; [apply Z.log2_lt_pow2; lia|lia]. }
    rewrite L0, Z.lor_0_l. rewrite <- !Z.shiftl_mul_pow2 by lia. rewrite <- Z.shiftl_land.
    replace (2 ^ k - 1) with (Z.ones k) by (rewrite Z.ones_equiv; lia). rewrite Z.land_ones, Z.mod_small by lia. reflexivity.
Qed.
Lemma to_extended_word f eb man pow : fok f eb -> 0 <= man < 2 ^ f_mb f -> 0 <= pow < 2 ^ eb ->
  to_extended f (word f false man pow) =
  if pow =? 0 then AM man (emin f) else AM (man + 2 ^ f_mb f) (pow + emin f - 1).
Proof.
  intros F A C. destruct (fok_facts f eb F) as [M [EB [EM [I [S [I2 ME]]]]]].
  rewrite (word_join f eb) by assumption. unfold join.
  replace (0 + pow * 2 ^ f_mb f + man) with (pow * 2 ^ f_mb f + man) by lia.
  destruct (land_fields (f_mb f) eb man pow ltac:(lia) ltac:(lia) A C) as [L1 L2].
  unfold to_extended. rewrite I, L1, L2. assert (P0 : 0 < 2 ^ f_mb f) by (apply Z.pow_pos_nonneg; lia).
  replace (pow * 2 ^ f_mb f =? 0) with (pow =? 0) by (destruct (Z.eqb_spec pow 0), (Z.eqb_spec (pow * 2 ^ f_mb f) 0); try reflexivity; nia).
  destruct (Z.eqb_spec pow 0); [f_equal; lia|].
  rewrite Z.shiftr_div_pow2, Z.div_mul by lia. f_equal; [|lia].
  rewrite <- (Z.mul_1_l (2 ^ f_mb f)) at 1. rewrite lor_high by lia. lia.
Qed.

(** ** round *)
Section Slow.
Variables (f : fmt) (eb : Z).
Hypothesis F : fok f eb.
Variables (man pow : Z).
Hypothesis HM : 2 ^ 63 <= man < 2 ^ 64.
Definition small_branch : bool := 63 - f_mb f <=? - pow.
Definition dm : Z := if small_branch then if 64 <=? 1 - pow then 0 else man / 2 ^ (1 - pow) else man / 2 ^ (63 - f_mb f).
Definition de : Z := if small_branch then emin f else pow + 63 - f_mb f + emin f - 1.
Definition fin (m : Z) : am := if small_branch then finish_small f m else finish f m (pow + 63 - f_mb f).
Lemma mb_range : 23 <= f_mb f <= 52. Proof. destruct F as [[-> _]|[-> _]]; cbn; lia. Qed.
Lemma P0 : 0 < 2 ^ f_mb f. Proof. assert (X := mb_range). apply Z.pow_pos_nonneg; lia. Qed.
Lemma dm_range : 0 <= dm < 2 ^ (f_mb f + 1) /\ (small_branch = true -> dm < 2 ^ f_mb f) /\ (small_branch = false -> 2 ^ f_mb f <= dm).
Proof.
  assert (R := mb_range). assert (P := P0). assert (PP : 2 ^ (f_mb f + 1) = 2 * 2 ^ f_mb f) by (rewrite Z.pow_add_r by lia; lia).
  unfold dm. destruct small_branch eqn:S.
  - unfold small_branch in S. destruct (Z.leb_spec 64 (1 - pow)) as [K|K]; [lia|].
    assert (Q : 0 < 2 ^ (1 - pow)) by (apply Z.pow_pos_nonneg; lia).
    assert (D0 : 0 <= man / 2 ^ (1 - pow)) by (apply Z.div_pos; lia).
    assert (D1 : man / 2 ^ (1 - pow) < 2 ^ f_mb f).
    { apply Z.div_lt_upper_bound; [lia|]. rewrite <- Z.pow_add_r by lia.
      apply Z.lt_le_trans with (2 ^ 64); [lia|apply Z.pow_le_mono_r; lia]. }
    split; [lia|]. split; [intros _; exact D1|discriminate].
  - assert (Q : 0 < 2 ^ (63 - f_mb f)) by (apply Z.pow_pos_nonneg; lia).
    assert (PM : 2 ^ (63 - f_mb f) * 2 ^ f_mb f = 2 ^ 63) by (rewrite <- Z.pow_add_r by lia; f_equal; lia).
    assert (D0 : 2 ^ f_mb f <= man / 2 ^ (63 - f_mb f)) by (apply Z.div_le_lower_bound; lia).
    assert (D1 : man / 2 ^ (63 - f_mb f) < 2 ^ (f_mb f + 1)) by (apply Z.div_lt_upper_bound; lia).
    split; [lia|]. split; [discriminate|intros _; exact D0].
Qed.
Lemma round_dn : round f round_down (AM man pow) = fin dm.
Proof.
  unfold round, fin, dm, small_branch, round_down, finish, finish_small. cbn [a_man a_pow].
  replace (64 - f_mb f - 1) with (63 - f_mb f) by lia. assert (R := mb_range).
  destruct (Z.leb_spec (63 - f_mb f) (- pow)) as [S|S].
  - destruct (Z.leb_spec 64 (1 - pow)) as [K|K].
    + replace (Z.min (- pow + 1) 64) with 64 by lia. reflexivity.
    + replace (Z.min (- pow + 1) 64) with (1 - pow) by lia. replace (1 - pow =? 64) with false by lia.
      rewrite Z.shiftr_div_pow2 by lia. reflexivity.
  - replace (63 - f_mb f =? 64) with false by lia. rewrite Z.shiftr_div_pow2 by lia.
    replace (pow + (63 - f_mb f)) with (pow + 63 - f_mb f) by lia.
    destruct (Z.leb_spec (2 * 2 ^ f_mb f) (man / 2 ^ (63 - f_mb f))) as [A|A]; cbn [a_man a_pow]; reflexivity.
Qed.
Lemma odd_eqb m : (Z.land m 1 =? 1) = Z.odd m. Proof. rewrite odd_land. now destruct (Z.odd m). Qed.
Lemma rnte_down cb a s : round_nearest_tie_even cb a s =
  let m := a_man (round_down a s) in
  let mask := if s =? 64 then 2 ^ 64 - 1 else 2 ^ s - 1 in
  let halfway := if s =? 0 then 0 else 2 ^ (s - 1) in
  AM (u64 (m + if cb (Z.odd m) (Z.land (a_man a) mask =? halfway) (halfway <? Z.land (a_man a) mask) then 1 else 0)) (a_pow a + s).
Proof. unfold round_nearest_tie_even. cbv zeta. rewrite odd_eqb. reflexivity. Qed.
Lemma round_tie cb : exists hw ab,
  round f (round_nearest_tie_even cb) (AM man pow) = fin (dm + if cb (Z.odd dm) hw ab then 1 else 0) /\
  (small_branch = false -> hw = (man mod 2 ^ (63 - f_mb f) =? 2 ^ (62 - f_mb f)) /\
                           ab = (2 ^ (62 - f_mb f) <? man mod 2 ^ (63 - f_mb f))).
Proof.
  assert (R := mb_range). destruct dm_range as [DR _].
  assert (P62 : 2 ^ (f_mb f + 1) <= 2 ^ 60) by (apply Z.pow_le_mono_r; lia).
  unfold round, fin. cbn [a_man a_pow]. replace (64 - f_mb f - 1) with (63 - f_mb f) by lia. rewrite !rnte_down. cbv zeta.
  cbn [round_down a_man a_pow].
  destruct small_branch eqn:SB; unfold small_branch in SB; rewrite SB.
  - assert (DME : (if Z.min (- pow + 1) 64 =? 64 then 0 else Z.shiftr man (Z.min (- pow + 1) 64)) = dm).
    { unfold dm, small_branch. rewrite SB. destruct (Z.leb_spec 64 (1 - pow)) as [K|K].
      + replace (Z.min (- pow + 1) 64) with 64 by lia. reflexivity.
      + replace (Z.min (- pow + 1) 64) with (1 - pow) by lia. replace (1 - pow =? 64) with false by lia.
        rewrite Z.shiftr_div_pow2 by lia. reflexivity. }
    rewrite DME. eexists _, _. split; [|discriminate]. unfold finish_small. rewrite u64_id; [reflexivity|].
    destruct (cb _ _ _); lia.
  - assert (DME : (if 63 - f_mb f =? 64 then 0 else Z.shiftr man (63 - f_mb f)) = dm).
    { unfold dm, small_branch. rewrite SB. replace (63 - f_mb f =? 64) with false by lia. now rewrite Z.shiftr_div_pow2 by lia. }
    rewrite DME. replace (63 - f_mb f =? 64) with false by lia. replace (63 - f_mb f =? 0) with false by lia.
    replace (63 - f_mb f - 1) with (62 - f_mb f) by lia.
    replace (Z.land man (2 ^ (63 - f_mb f) - 1)) with (man mod 2 ^ (63 - f_mb f)).
    2:{ replace (2 ^ (63 - f_mb f) - 1) with (Z.ones (63 - f_mb f)) by (rewrite Z.ones_equiv; lia). now rewrite Z.land_ones by lia. }
    eexists _, _. split; [|intros _; split; reflexivity].
    set (c := cb _ _ _). rewrite u64_id by (destruct c; lia).
    replace (pow + (63 - f_mb f)) with (pow + 63 - f_mb f) by lia. unfold finish. set (mm := dm + (if c then 1 else 0)).
    destruct (2 * 2 ^ f_mb f <=? mm); cbn [a_man a_pow]; reflexivity.
Qed.

(** what is known about the number: [x] is between [g] and [g + 2] at the top [mb + 2] bits *)
Variables (x : Q).
Let g := man / 2 ^ (62 - f_mb f).
Let e := pow + 63 - f_mb f + emin f - 1.
Hypothesis XL : (B g (e - 1) <= x)%Q.
Hypothesis XU : (x < B (g + 2) (e - 1))%Q.
Lemma g_rng : 2 ^ (f_mb f + 1) <= g < 2 ^ (f_mb f + 2).
Proof.
  assert (R := mb_range). assert (Q : 0 < 2 ^ (62 - f_mb f)) by (apply Z.pow_pos_nonneg; lia).
  assert (P1 : 2 ^ (62 - f_mb f) * 2 ^ (f_mb f + 1) = 2 ^ 63) by (rewrite <- Z.pow_add_r by lia; f_equal; lia).
  assert (P2 : 2 ^ (62 - f_mb f) * 2 ^ (f_mb f + 2) = 2 ^ 64) by (rewrite <- Z.pow_add_r by lia; f_equal; lia).
  unfold g. split; [apply Z.div_le_lower_bound; lia|apply Z.div_lt_upper_bound; lia].
Qed.
Lemma half_g : man / 2 ^ (63 - f_mb f) = g / 2.
Proof.
  assert (R := mb_range). unfold g. change (man / 2 ^ (62 - f_mb f) / 2) with (man / 2 ^ (62 - f_mb f) / 2 ^ 1).
  rewrite div_div_pow by lia. do 2 f_equal. lia.
Qed.
Lemma dm_x : emin f <= de /\ (2 ^ f_mb f <= dm \/ de = emin f) /\ (B (2 * dm) (de - 1) <= x)%Q /\ (x < B (2 * dm + 3) (de - 1))%Q.
Proof.
  assert (R := mb_range). destruct dm_range as [DR [D1 D2]]. assert (G := g_rng).
  assert (GD := Z.div_mod g 2 ltac:(lia)). assert (GM := Z.mod_pos_bound g 2 ltac:(lia)).
  destruct small_branch eqn:SB.
  - assert (DE : de = emin f) by (unfold de; now rewrite SB). rewrite DE. split; [lia|]. split; [now right|].
    unfold dm. rewrite SB. unfold small_branch in SB.
    assert (J : exists j, 1 <= j /\ emin f - 1 = e - 1 + j /\ 1 - pow = 62 - f_mb f + (1 + j)).
    { exists (- pow - (63 - f_mb f) + 1). unfold e. lia. }
    destruct J as [j [J1 [J2 J3]]]. rewrite J2.
    assert (PJ : 2 <= 2 ^ j) by (change 2 with (2 ^ 1) at 1; apply Z.pow_le_mono_r; lia).
    destruct (Z.leb_spec 64 (1 - pow)) as [K|K].
    + split.
      * apply Qle_trans with (B g (e - 1)); [|exact XL]. rewrite B_shift by lia. apply B_le.
        assert (0 < 2 ^ (f_mb f + 1)) by (apply Z.pow_pos_nonneg; lia). lia.
      * apply Qlt_le_trans with (B (g + 2) (e - 1)); [exact XU|]. rewrite B_shift by lia. apply B_le.
        assert (2 ^ (f_mb f + 1) <= 2 ^ j) by (apply Z.pow_le_mono_r; lia).
        assert (4 <= 2 ^ (f_mb f + 1)) by (change 4 with (2 ^ 2) at 1; apply Z.pow_le_mono_r; lia).
        replace (f_mb f + 2) with (1 + (f_mb f + 1)) in G by lia. rewrite (Z.pow_add_r 2 1) in G by lia. lia.
    + assert (DMG : man / 2 ^ (1 - pow) = g / 2 ^ (1 + j)) by (unfold g; rewrite div_div_pow by lia; do 2 f_equal; lia).
      rewrite DMG. set (m := g / 2 ^ (1 + j)).
      assert (Q : 2 ^ (1 + j) = 2 * 2 ^ j) by (rewrite Z.pow_add_r by lia; lia).
      assert (D := Z.div_mod g (2 ^ (1 + j)) ltac:(lia)). assert (M := Z.mod_pos_bound g (2 ^ (1 + j)) ltac:(lia)). fold m in D.
      split.
      * apply Qle_trans with (B g (e - 1)); [|exact XL]. rewrite B_shift by lia. apply B_le. lia.
      * apply Qlt_le_trans with (B (g + 2) (e - 1)); [exact XU|]. rewrite B_shift by lia. apply B_le. lia.
  - assert (DE : de = e) by (unfold de, e; now rewrite SB).
    assert (DM : dm = g / 2) by (unfold dm; rewrite SB; apply half_g). rewrite DE, DM. unfold small_branch in SB.
    split; [unfold e; lia|]. split; [left; rewrite <- DM; now apply D2|]. split.
    + apply Qle_trans with (B g (e - 1)); [|exact XL]. apply B_le. lia.
    + apply Qlt_le_trans with (B (g + 2) (e - 1)); [exact XU|]. apply B_le. lia.
Qed.
Lemma fin_good (up : bool) :
  ((x < B (2 * dm + 1) (de - 1))%Q -> up = false) -> ((B (2 * dm + 1) (de - 1) < x)%Q -> up = true) ->
  ((x == B (2 * dm + 1) (de - 1))%Q -> up = Z.odd dm) ->
  good f eb x (fin (dm + if up then 1 else 0)).
Proof.
  intros H1 H2 H3. destruct (fok_facts f eb F) as [M [EB [EM [I [_ [I2 ME]]]]]].
  destruct dm_range as [DR [D1 D2]]. destruct dm_x as [E1 [E2 [L U]]]. assert (R := mb_range). assert (P := P0).
  assert (T := rounds_third (f_mb f) eb x dm de M ltac:(lia) DR ltac:(rewrite <- EM; exact E2) L U up H1 H2 H3).
  unfold fin. destruct small_branch eqn:SB.
  - assert (DE : de = emin f) by (unfold de; now rewrite SB). rewrite DE in T.
    specialize (D1 eq_refl). apply finish_small_good with (eb := eb); [exact F|destruct up; lia|exact T].
  - specialize (D2 eq_refl). assert (DE : pow + 63 - f_mb f = de - emin f + 1) by (unfold de; rewrite SB; lia). rewrite DE.
    apply finish_good; [exact F| |exact T]. rewrite Z.pow_add_r in * by lia. destruct up; lia.
Qed.
(** beyond the largest number *)
Lemma fin_inf (up : bool) : emx (f_mb f) eb < de -> fin (dm + if up then 1 else 0) = AM 0 (f_inf f) /\ (b_limit (f_mb f) eb <= x)%Q.
Proof.
  intros H. destruct (fok_facts f eb F) as [M [EB [EM [I [_ [I2 ME]]]]]]. destruct dm_range as [DR [D1 D2]].
  assert (X := dm_x). destruct X as [E1 [E2 [L U]]]. assert (P := P0).
  assert (EE : emin f <= emx (f_mb f) eb) by (rewrite EM; unfold emx, emn, b_bias; assert (2 ^ 1 <= 2 ^ (eb - 1)) by (apply Z.pow_le_mono_r; lia); lia).
  destruct small_branch eqn:SB.
  { exfalso. unfold de in H. rewrite SB in H. lia. }
  specialize (D2 eq_refl). assert (DE : pow + 63 - f_mb f = de - emin f + 1) by (unfold de; rewrite SB; lia).
  split.
  - unfold fin. rewrite SB, DE. unfold finish. destruct (2 * 2 ^ f_mb f <=? _).
    + replace (f_inf f <=? de - emin f + 1 + 1) with true by lia. reflexivity.
    + replace (f_inf f <=? de - emin f + 1) with true by lia. reflexivity.
  - apply Qle_trans with (B (2 * dm) (de - 1)); [|exact L]. rewrite limit_B.
    apply (B_cmp_le _ _ _ _ (emx (f_mb f) eb - 1)); [lia|lia|]. rewrite Z.sub_diag, Z.mul_1_r.
    assert (PB2 : 2 ^ (f_mb f + 2) = 4 * 2 ^ f_mb f) by (rewrite Z.pow_add_r by lia; lia).
    assert (2 ^ 1 <= 2 ^ (de - 1 - (emx (f_mb f) eb - 1))) by (apply Z.pow_le_mono_r; lia). nia.
Qed.
(** the halfway point that is compared with *)
Lemma theor_fin : to_extended_halfway f (to_float f false (round f round_down (AM man pow))) =
  if emx (f_mb f) eb <? de then AM (2 * 2 ^ f_mb f + 1) (emx (f_mb f) eb) else AM (2 * dm + 1) (de - 1).
Proof.
  rewrite round_dn. destruct (fok_facts f eb F) as [M [EB [EM [I [_ [I2 ME]]]]]]. destruct dm_range as [DR [D1 D2]].
  assert (P := P0). assert (R := mb_range). assert (P1 : 4 <= 2 ^ eb) by (change 4 with (2 ^ 2); apply Z.pow_le_mono_r; lia).
  assert (PB1 : 2 ^ (f_mb f + 1) = 2 * 2 ^ f_mb f) by (rewrite Z.pow_add_r by lia; lia).
  assert (P52 : 2 ^ f_mb f <= 2 ^ 52) by (apply Z.pow_le_mono_r; lia).
  assert (HALF : forall m p, 0 <= m <= 2 ^ 53 -> AM (u64 (u64 (Z.shiftl m 1) + 1)) (p - 1) = AM (2 * m + 1) (p - 1)).
  { intros m p B0. rewrite Z.shiftl_mul_pow2 by lia. rewrite (u64_id (m * 2 ^ 1)) by lia. rewrite u64_id by lia. f_equal. lia. }
  unfold to_extended_halfway, to_float.
  destruct (Z.ltb_spec (emx (f_mb f) eb) de) as [H|H].
  - destruct (fin_inf false H) as [FI _]. rewrite Z.add_0_r in FI. rewrite FI. cbn [a_man a_pow].
    rewrite (to_extended_word f eb) by (try exact F; lia). replace (f_inf f =? 0) with false by lia. cbn [a_man a_pow].
    rewrite HALF by lia. f_equal; lia.
  - destruct dm_x as [E1 [E2 _]]. unfold fin. destruct small_branch eqn:SB.
    + specialize (D1 eq_refl). assert (DE : de = emin f) by (unfold de; now rewrite SB). unfold finish_small.
      replace (dm <? 2 ^ f_mb f) with true by lia. cbn [a_man a_pow].
      rewrite (to_extended_word f eb) by (try exact F; lia). replace (0 =? 0) with true by reflexivity. cbn [a_man a_pow].
      rewrite HALF by lia. now rewrite DE.
    + specialize (D2 eq_refl). assert (DE : pow + 63 - f_mb f = de - emin f + 1) by (unfold de; rewrite SB; lia). rewrite DE.
      unfold finish. replace (2 * 2 ^ f_mb f <=? dm) with false by lia. replace (f_inf f <=? de - emin f + 1) with false by lia.
      rewrite ldiff_top by lia. cbn [a_man a_pow].
      rewrite (to_extended_word f eb) by (try exact F; lia). replace (de - emin f + 1 =? 0) with false by lia. cbn [a_man a_pow].
      rewrite HALF by lia. f_equal; lia.
Qed.
End Slow.
