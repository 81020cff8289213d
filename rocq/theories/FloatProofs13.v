(** digit_comp, for a number with more than nineteen digits. *)
From Verif Require Import Base BaseLemmas FloatTable FloatModel FloatSpec.
From Verif Require Import FloatProofs1 FloatProofs2 FloatProofs6 FloatProofs7 FloatProofs8 FloatProofs9 FloatProofs10 FloatProofs11 FloatProofs12.
From Coq Require Import Qpower Lqa Lia.
Open Scope Z_scope.

Lemma sci_spec q m rest neg many i fr : 10 ^ 18 <= m < 10 ^ 19 -> -1000 <= q <= 1000 ->
  scientific_exponent (Pns q m rest neg many i fr) = q + 18.
Proof.
  intros M Q. unfold scientific_exponent. cbn [p_mantissa p_exponent].
  rewrite wrap_id by (unfold in_range, imin, imax; cbn; lia).
  assert (S1 : sci_loop 20 10000 4 m q = (m / 10 ^ 16, q + 16)).
  { cbn [sci_loop]. replace (10000 <=? m) with true by lia.
    replace (m / 10000) with (m / 10 ^ 4) by reflexivity.
    assert (A1 : 10 ^ 14 <= m / 10 ^ 4) by (apply Z.div_le_lower_bound; lia). replace (10000 <=? m / 10 ^ 4) with true by lia.
    replace (m / 10 ^ 4 / 10000) with (m / 10 ^ 8) by (rewrite Z.div_div by lia; reflexivity).
    assert (A2 : 10 ^ 10 <= m / 10 ^ 8) by (apply Z.div_le_lower_bound; lia). replace (10000 <=? m / 10 ^ 8) with true by lia.
    replace (m / 10 ^ 8 / 10000) with (m / 10 ^ 12) by (rewrite Z.div_div by lia; reflexivity).
    assert (A3 : 10 ^ 6 <= m / 10 ^ 12) by (apply Z.div_le_lower_bound; lia). replace (10000 <=? m / 10 ^ 12) with true by lia.
    replace (m / 10 ^ 12 / 10000) with (m / 10 ^ 16) by (rewrite Z.div_div by lia; reflexivity).
    assert (A4 : m / 10 ^ 16 < 1000) by (apply Z.div_lt_upper_bound; lia). replace (10000 <=? m / 10 ^ 16) with false by lia. f_equal. lia. }
  rewrite S1.
  assert (S2 : sci_loop 20 100 2 (m / 10 ^ 16) (q + 16) = (m / 10 ^ 18, q + 18)).
  { cbn [sci_loop]. assert (A1 : 100 <= m / 10 ^ 16) by (apply Z.div_le_lower_bound; lia). replace (100 <=? m / 10 ^ 16) with true by lia.
    replace (m / 10 ^ 16 / 100) with (m / 10 ^ 18) by (rewrite Z.div_div by lia; reflexivity).
    assert (A4 : m / 10 ^ 18 < 10) by (apply Z.div_lt_upper_bound; lia). replace (100 <=? m / 10 ^ 18) with false by lia. f_equal. lia. }
  rewrite S2. cbn [sci_loop]. assert (A4 : m / 10 ^ 18 < 10) by (apply Z.div_lt_upper_bound; lia). replace (10 <=? m / 10 ^ 18) with false by lia. reflexivity.
Qed.
Lemma zero_dec v : digs v -> dec v = 0 -> zeros v.
Proof.
  induction 1 as [|c v C D IH]; intros E; [constructor|]. rewrite dec_cons in E. assert (R := dec_range v D). rewrite dig_range in C. rewrite ch0 in E.
  assert (P := pow10_pos (len v) (len_nonneg v)). assert (c = 48).
  { destruct (Z.eq_dec c 48) as [K|K]; [exact K|exfalso]. assert (1 * 10 ^ len v <= (c - 48) * 10 ^ len v) by (apply Z.mul_le_mono_nonneg_r; lia). lia. }
  subst c. constructor; [reflexivity|]. apply IH. lia.
Qed.
Lemma digit_comp_good f eb q m rest neg many i ft d u v x man pow : fok f eb -> digs i -> fraction ft d ->
  i ++ d = u ++ v -> m = dec u -> 10 ^ 18 <= m < 10 ^ 19 -> f_p10min f <= q <= f_p10max f ->
  (x == decimal (dec (i ++ d)) (q - len v))%Q ->
  2 ^ 63 <= man < 2 ^ 64 ->
  (let g := man / 2 ^ (62 - f_mb f) in let e := pow + 63 - f_mb f + emin f - 1 in
   (B g (e - 1) <= x)%Q /\ (x < B (g + 2) (e - 1))%Q) ->
  exists a, digit_comp f (Pns q m rest neg many i (frac_of ft d)) (AM man (pow + invalid_am_bias)) = Ok a /\ good f eb x a.
Proof.
  intros F DI FR E MU MR QR XE HM [XL XU].
  assert (QQ : -342 <= q <= 308) by (destruct F as [[-> _]|[-> _]]; cbn in QR; lia).
  assert (MD : 100 <= f_maxdig f <= 769) by (destruct F as [[-> _]|[-> _]]; cbn; lia).
  assert (QD : q + 20 < f_maxdig f) by (destruct F as [[-> _]|[-> _]]; cbn in QR |- *; lia).
  assert (FD : digs d) by (destruct FR; [constructor|assumption]).
  assert (DID : digs (i ++ d)) by (apply digs_app; tauto).
  assert (DUV : digs u /\ digs v) by (rewrite E in DID; now apply digs_app). destruct DUV as [DU DV].
  destruct (split_zeros u) as [z [a [EU [Z FA]]]].
  assert (DA : digs a) by (rewrite EU in DU; apply digs_app in DU; apply DU).
  assert (MA : m = dec a) by (rewrite MU, EU, dec_app, (zeros_dec z Z); lia).
  assert (AN : a <> []) by (intros ->; rewrite dec_nil in MA; lia).
  assert (LA : len a = 19).
  { destruct (first_nz_dec a DA AN FA) as [R1 R2]. rewrite <- MA in *. assert (LN := len_nonneg a).
    assert (18 < len a) by (apply (Z.pow_lt_mono_r_iff 10); lia).
    assert (len a - 1 < 19) by (apply (Z.pow_lt_mono_r_iff 10); lia). lia. }
  set (s := a ++ v).
  assert (ES : i ++ d = z ++ s) by (unfold s; rewrite E, EU, app_assoc; reflexivity).
  assert (FS : first_nz s) by (unfold s; destruct a; [contradiction|exact FA]).
  assert (SN : s <> []) by (unfold s; destruct a; [contradiction|discriminate]).
  assert (DS : digs s) by (apply digs_app; tauto).
  assert (LS : len s = 19 + len v) by (unfold s; rewrite len_app; lia).
  assert (XS : (x == decimal (dec s) (q - len v))%Q) by (rewrite XE, ES, dec_app, (zeros_dec z Z); reflexivity).
  assert (LV := len_nonneg v).
  destruct (parse_mantissa_spec f eb q m rest neg many i ft d z s F DI FR ES Z FS SN) as [big [dg [PM TK]]].
  unfold digit_comp. cbn [a_man a_pow]. rewrite PM. cbn [bind]. rewrite sci_spec by lia.
  replace (pow + invalid_am_bias - invalid_am_bias) with pow by lia.
  destruct (first_nz_dec s DS SN FS) as [SL SU].
  assert (SP : 0 < dec s) by (assert (P := pow10_pos (len s - 1) ltac:(lia)); lia).
  change (exists a0, comp f big (AM man pow) (q + 18 + 1 - dg) = Ok a0 /\ good f eb x a0).
  destruct TK as [[T1 [T2 T3]]|[u1 [v1 [EQ [LU T]]]]].
  - apply (comp_exact f eb F man pow x HM XL XU big (dec s)).
    + exact T3.
    + exact SP.
    + apply Z.lt_le_trans with (1 := SU). apply p800_pow. lia.
    + intros EX. apply Z.lt_le_trans with (10 ^ len s * 10 ^ (q + 18 + 1 - dg)); [apply Z.mul_lt_mono_pos_r; [apply pow10_pos; lia|exact SU]|].
      rewrite <- Z.pow_add_r by lia. apply Z.pow_le_mono_r; lia.
    + lia.
    + rewrite XS. replace (q + 18 + 1 - dg) with (q - len v) by lia. reflexivity.
  - assert (D2 : digs u1 /\ digs v1) by (rewrite EQ in DS; now apply digs_app). destruct D2 as [DU1 DV1].
    assert (LUV : len u1 + len v1 = 19 + len v) by (rewrite <- len_app, <- EQ; exact LS).
    assert (U1N : u1 <> []) by (intros ->; change (len []) with 0 in LU; lia).
    assert (FU : first_nz u1) by (rewrite EQ in FS; destruct u1; [contradiction|exact FS]).
    destruct (first_nz_dec u1 DU1 U1N FU) as [UL UU].
    assert (LV1 := len_nonneg v1). assert (DVR := dec_range v1 DV1).
    assert (DQ : dec s = dec u1 * 10 ^ len v1 + dec v1) by (rewrite EQ; apply dec_app).
    assert (DU0 : 0 < dec u1) by (assert (P := pow10_pos (len u1 - 1) ltac:(lia)); lia).
    destruct T as [[ZV [T2 T3]]|[ZV [T2 T3]]].
    + apply (comp_exact f eb F man pow x HM XL XU big (dec u1)).
      * exact T3.
      * exact DU0.
      * apply Z.lt_le_trans with (1 := UU). apply p800_pow. lia.
      * intros EX. lia.
      * lia.
      * rewrite XS, DQ, (zeros_dec v1 ZV), Z.add_0_r. rewrite <- decimal_shift by lia.
        replace (q - len v + len v1) with (q + 18 + 1 - dg) by lia. reflexivity.
    + assert (V0 : dec v1 <> 0) by (intros H; apply ZV, zero_dec; assumption). subst dg.
      rewrite LU in UL, UU.
      assert (EXQ : q - len v + len v1 = q + 18 + 1 - (f_maxdig f + 1) + 1) by lia.
      apply (comp_sticky f eb F man pow x HM XL XU big (dec u1) (q + 18)); [exact T3|lia|lia|lia| |].
      * rewrite <- EXQ, decimal_shift by lia. rewrite XS. apply decimal_lt. lia.
      * rewrite <- EXQ, decimal_shift by lia. rewrite XS. apply decimal_lt. lia.
Qed.
