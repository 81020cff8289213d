(** The two comparisons of all digits, and the error estimate they start from. *)
From Verif Require Import Base BaseLemmas FloatTable FloatModel FloatSpec FloatProofs1 FloatProofs2 FloatProofs3 FloatProofs4 FloatProofs5 FloatProofs6 FloatProofs7.
From Coq Require Import Qpower Lqa Lia Znumtheory Zpow_facts.
Open Scope Z_scope.

Lemma fok_bias f eb : fok f eb -> f_mb f - f_minexp f = 1 - emin f.
Proof. intros F. destruct (fok_facts f eb F) as [M [EB [EM [I [_ [I2 ME]]]]]]. lia. Qed.
Lemma emin_range f eb : fok f eb -> -1074 <= emin f <= -149. Proof. intros [[-> _]|[-> _]]; unfold emin; cbn; lia. Qed.

(** ** An integer: positive_digit_comp *)
Lemma hi64_B v z h t : big_ok v z -> 0 < z -> hi64 v = (h, t) -> let s := bit_length v - 64 in
  2 ^ 63 <= h < 2 ^ 64 /\ (inject_Z z < B (h + 1) s)%Q /\ (t = false -> (inject_Z z == B h s)%Q) /\ (t = true -> (B h s < inject_Z z)%Q).
Proof.
  intros V Z0 H. destruct (hi64_spec v z h t V Z0 H) as [R [C1 C2]]. cbv zeta in *. set (s := bit_length v - 64) in *. clearbody s.
  split; [exact R|]. assert (ZB : (inject_Z z == B z 0)%Q) by (unfold B, p2; change ((2 # 1) ^ 0)%Q with 1%Q; ring). rewrite ZB.
  destruct (Z.le_gt_cases s 0) as [S|S].
  - destruct (C1 S) as [-> ->]. assert (E : (B z 0 == B (z * 2 ^ (- s)) s)%Q) by (rewrite <- B_shift by lia; replace (s + - s) with 0 by lia; reflexivity).
    rewrite E. split; [apply B_lt; lia|]. split; [reflexivity|discriminate].
  - destruct (C2 S) as [HE TE]. assert (P : 0 < 2 ^ s) by (apply Z.pow_pos_nonneg; lia).
    assert (D := Z.div_mod z (2 ^ s) ltac:(lia)). assert (M := Z.mod_pos_bound z (2 ^ s) P). rewrite <- HE in D.
    assert (SH : forall m, (B m s == B (m * 2 ^ s) 0)%Q) by (intros m; rewrite <- B_shift by lia; reflexivity).
    rewrite !SH. split; [apply B_lt; lia|]. rewrite TE. split; intros A.
    + apply negb_false_iff, Z.eqb_eq in A. apply B_eq. lia.
    + apply negb_true_iff, Z.eqb_neq in A. apply B_lt. lia.
Qed.
Lemma positive_digit_comp_good f eb big M ex : fok f eb -> big_ok big M -> 0 < M -> 0 <= ex -> M * 10 ^ ex < wt 57 ->
  exists a, positive_digit_comp f big ex = Ok a /\ good f eb (decimal M ex) a.
Proof.
  intros F V M0 E SZ. destruct (big_pow10_ok big M ex V E M0 SZ) as [v [PV VV]].
  unfold positive_digit_comp. rewrite PV. cbn [bind].
  assert (P10 : 0 < 10 ^ ex) by (apply Z.pow_pos_nonneg; lia).
  assert (Z0 : 0 < M * 10 ^ ex) by nia.
  assert (X : (decimal M ex == inject_Z (M * 10 ^ ex))%Q).
  { replace ex with (0 + ex) at 1 by lia. rewrite decimal_shift by lia. unfold decimal. change ((10 # 1) ^ 0)%Q with 1%Q. ring. }
  set (z := M * 10 ^ ex) in *. destruct (hi64 v) as [h t] eqn:HI.
  destruct (hi64_B v z h t VV Z0 HI) as [R [U [T0 T1]]]. cbv zeta in *.
  assert (BL := bit_length_spec v z VV Z0). assert (BL1 : 1 <= bit_length v).
  { destruct (Z.le_gt_cases 1 (bit_length v)) as [C|C]; [exact C|]. assert (2 ^ bit_length v <= 2 ^ 0).
    { destruct (Z.eq_dec (bit_length v) 0) as [->|N]; [lia|]. rewrite Z.pow_neg_r by lia. cbn. lia. }
    change (2 ^ 0) with 1 in *. lia. }
  rewrite (fok_bias f eb F). set (s := bit_length v - 64) in *.
  assert (ER := emin_range f eb F). assert (MR := mb_range f eb F).
  set (pow := s + (1 - emin f)).
  assert (SB : small_branch f pow = false) by (unfold small_branch, pow, s; lia).
  destruct (round_tie f eb F h pow R (fun odd halfway above => above || (halfway && t) || (odd && halfway))) as [hw [ab [RT HA]]].
  destruct (HA SB) as [HW AB]. eexists. split; [reflexivity|]. fold pow. rewrite RT.
  set (G := h / 2 ^ (62 - f_mb f)). assert (PG : 0 < 2 ^ (62 - f_mb f)) by (apply Z.pow_pos_nonneg; lia).
  assert (P63 : 2 ^ (63 - f_mb f) = 2 * 2 ^ (62 - f_mb f)) by (replace (63 - f_mb f) with (1 + (62 - f_mb f)) by lia; rewrite Z.pow_add_r by lia; lia).
  assert (D := Z.div_mod h (2 ^ (62 - f_mb f)) ltac:(lia)). assert (DM := Z.mod_pos_bound h (2 ^ (62 - f_mb f)) PG). fold G in D.
  assert (EE : pow + 63 - f_mb f + emin f - 1 - 1 = s + (62 - f_mb f)) by (unfold pow; lia).
  assert (LOW : (B h s <= inject_Z z)%Q) by (destruct t; [apply Qlt_le_weak; auto|rewrite T0 by reflexivity; apply Qle_refl]).
  apply good_wd with (inject_Z z); [exact F|now symmetry|].
  apply (fin_good f eb F h pow R (inject_Z z)).
  - rewrite EE, B_shift by lia. apply Qle_trans with (B h s); [apply B_le; fold G; lia|exact LOW].
  - rewrite EE, B_shift by lia. apply Qlt_le_trans with (B (h + 1) s); [exact U|apply B_le; fold G; lia].
  - assert (DE : de f pow - 1 = s + (62 - f_mb f)) by (unfold de; rewrite SB; lia). rewrite DE, B_shift by lia.
    intros A. assert (DD : dm f h pow = h / 2 ^ (63 - f_mb f)) by (unfold dm; now rewrite SB).
    assert (D2 := Z.div_mod h (2 ^ (63 - f_mb f)) ltac:(lia)). rewrite <- DD in D2.
    assert (RR : 2 ^ (63 - f_mb f) * dm f h pow = 2 * (dm f h pow * 2 ^ (62 - f_mb f))) by (rewrite P63; ring). rewrite RR in D2.
    set (rr := h mod 2 ^ (63 - f_mb f)) in *.
    assert (HL : h < (2 * dm f h pow + 1) * 2 ^ (62 - f_mb f)).
    { apply (B_lt _ _ s). apply Qle_lt_trans with (inject_Z z); assumption. }
    assert (NA : ab = false) by (rewrite AB; apply Z.ltb_ge; lia). assert (NH : hw = false) by (rewrite HW; apply Z.eqb_neq; lia). rewrite NA, NH. cbn [orb andb]. apply andb_false_r.
  - assert (DE : de f pow - 1 = s + (62 - f_mb f)) by (unfold de; rewrite SB; lia). rewrite DE, B_shift by lia.
    intros A. assert (DD : dm f h pow = h / 2 ^ (63 - f_mb f)) by (unfold dm; now rewrite SB).
    assert (D2 := Z.div_mod h (2 ^ (63 - f_mb f)) ltac:(lia)). rewrite <- DD in D2.
    assert (RR : 2 ^ (63 - f_mb f) * dm f h pow = 2 * (dm f h pow * 2 ^ (62 - f_mb f))) by (rewrite P63; ring). rewrite RR in D2.
    set (rr := h mod 2 ^ (63 - f_mb f)) in *.
    assert (HL : (2 * dm f h pow + 1) * 2 ^ (62 - f_mb f) < h + 1).
    { apply (B_lt _ _ s). apply Qlt_trans with (inject_Z z); assumption. }
    destruct ab eqn:EAB; [reflexivity|]. symmetry in AB. apply Z.ltb_ge in AB. assert (NH : hw = true) by (rewrite HW; apply Z.eqb_eq; lia). rewrite NH. cbn [orb andb]. rewrite andb_true_r.
    destruct t; [reflexivity|]. exfalso. rewrite (T0 eq_refl) in A. apply B_lt in A. lia.
  - assert (DE : de f pow - 1 = s + (62 - f_mb f)) by (unfold de; rewrite SB; lia). rewrite DE, B_shift by lia.
    intros A. assert (DD : dm f h pow = h / 2 ^ (63 - f_mb f)) by (unfold dm; now rewrite SB).
    assert (D2 := Z.div_mod h (2 ^ (63 - f_mb f)) ltac:(lia)). rewrite <- DD in D2.
    assert (RR : 2 ^ (63 - f_mb f) * dm f h pow = 2 * (dm f h pow * 2 ^ (62 - f_mb f))) by (rewrite P63; ring). rewrite RR in D2.
    set (rr := h mod 2 ^ (63 - f_mb f)) in *.
    assert (HL : h <= (2 * dm f h pow + 1) * 2 ^ (62 - f_mb f) < h + 1).
    { split; [apply (B_le _ _ s)|apply (B_lt _ _ s)]; rewrite <- A; assumption. }
    assert (HE : h = (2 * dm f h pow + 1) * 2 ^ (62 - f_mb f)) by lia.
    assert (NA : ab = false) by (rewrite AB; apply Z.ltb_ge; lia). assert (NH : hw = true) by (rewrite HW; apply Z.eqb_eq; lia). rewrite NA, NH. cbn [orb andb]. rewrite andb_true_r.
    assert (T : t = false).
    { destruct t; [|reflexivity]. exfalso. specialize (T1 eq_refl). rewrite A in T1. apply B_lt in T1. lia. }
    rewrite T. reflexivity.
Qed.

(** ** A fraction: negative_digit_comp *)
Lemma cmp_le_inv a b t q : (B a t <= inject_Z b * p5 q)%Q -> cmp_num a t q <= cmp_den b t q.
Proof.
  intros H. destruct (cmp_scale a b t q) as [c [P [H1 H2]]]. apply iZ_le. rewrite <- H1, <- H2. apply Qmult_le_l; assumption.
Qed.
Lemma cmp_ge_inv a b t q : (inject_Z b * p5 q <= B a t)%Q -> cmp_den b t q <= cmp_num a t q.
Proof.
  intros H. destruct (cmp_scale a b t q) as [c [P [H1 H2]]]. apply iZ_le. rewrite <- H1, <- H2. apply Qmult_le_l; assumption.
Qed.
(** compare [m * 2^t] with a decimal, at the exponent [t - q] *)
Lemma decimal_p2 m q : (decimal m q == inject_Z m * p5 q * p2 q)%Q. Proof. rewrite decimal_B. unfold B. ring. Qed.
Lemma B_split a t q : (B a t == B a (t - q) * p2 q)%Q. Proof. rewrite B_p2. replace (t - q + q) with t by lia. reflexivity. Qed.
Lemma dcmp a t m q : match cmp_den m (t - q) q ?= cmp_num a (t - q) q with
  | Lt => (decimal m q < B a t)%Q | Eq => (decimal m q == B a t)%Q | Gt => (B a t < decimal m q)%Q end.
Proof.
  assert (PP := p2_pos q).
  destruct (Z.compare_spec (cmp_den m (t - q) q) (cmp_num a (t - q) q)) as [C|C|C]; rewrite (decimal_p2 m q), (B_split a t q).
  - symmetry in C. apply cmp_eq in C. now rewrite C.
  - apply cmp_gt in C. apply Qmult_lt_r; assumption.
  - apply cmp_lt in C. apply Qmult_lt_r; assumption.
Qed.
Lemma dcmp_le a t m q : (B a t <= decimal m q)%Q -> cmp_num a (t - q) q <= cmp_den m (t - q) q.
Proof.
  intros H. assert (D := dcmp a t m q). destruct (Z.compare_spec (cmp_den m (t - q) q) (cmp_num a (t - q) q)) as [C|C|C]; try lia.
  exfalso. lra.
Qed.
Lemma dcmp_ge a t m q : (decimal m q <= B a t)%Q -> cmp_den m (t - q) q <= cmp_num a (t - q) q.
Proof.
  intros H. assert (D := dcmp a t m q). destruct (Z.compare_spec (cmp_den m (t - q) q) (cmp_num a (t - q) q)) as [C|C|C]; try lia.
  exfalso. lra.
Qed.
Lemma B_scale k a t : (inject_Z k * B a t == B (k * a) t)%Q. Proof. unfold B. rewrite inject_Z_mult. ring. Qed.
Lemma decimal_scale k a t : (inject_Z k * decimal a t == decimal (k * a) t)%Q. Proof. unfold decimal. rewrite inject_Z_mult. ring. Qed.
Lemma cmp_num_scale k a t q : cmp_num (k * a) t q = k * cmp_num a t q. Proof. unfold cmp_num. ring. Qed.
Lemma cmp_den_scale k a t q : cmp_den (k * a) t q = k * cmp_den a t q. Proof. unfold cmp_den. ring. Qed.

(** two large bounds, by name *)
Definition p800 : Z := 10 ^ 800.
Definition p2555 : Z := 2 ^ 2555.
Lemma big_bounds : exists c8 c25 c10 w57, p800 = c8 /\ p2555 = c25 /\ 2 ^ 1000 = c10 /\ wt 57 = w57 /\ w57 <= wt 62 /\
  8 * c8 < w57 /\ 8 * (2 ^ 54 * c25) < w57 /\ c25 * c10 < w57 /\ 0 < c25.
Proof. exists p800, p2555, (2 ^ 1000), (wt 57). repeat split; vm_compute; congruence. Qed.
Lemma negative_digit_comp_good f eb man pow big M ex x : fok f eb -> 2 ^ 63 <= man < 2 ^ 64 ->
  let g := man / 2 ^ (62 - f_mb f) in let e := pow + 63 - f_mb f + emin f - 1 in
  (B g (e - 1) <= x)%Q -> (x < B (g + 2) (e - 1))%Q ->
  big_ok big M -> 0 < M < p800 -> -1100 <= ex < 0 ->
  (x <= inject_Z 2 * decimal M ex)%Q -> (decimal M ex <= inject_Z 2 * x)%Q ->
  (de f pow <= emx (f_mb f) eb -> let h := B (2 * dm f man pow + 1) (de f pow - 1) in
     ((decimal M ex < h)%Q -> (x < h)%Q) /\ ((h < decimal M ex)%Q -> (h < x)%Q) /\ ((decimal M ex == h)%Q -> (x == h)%Q)) ->
  exists a, negative_digit_comp f big (AM man pow) ex = Ok a /\ good f eb x a.
Proof.
  intros F HM g e XL XU V MR EX A1 A2 SAME. cbv zeta in SAME.
  assert (N5 : 0 < 5 ^ (- ex) <= p2555).
  { split; [apply Z.pow_pos_nonneg; lia|]. apply Z.le_trans with (5 ^ 1100); [apply Z.pow_le_mono_r; lia|]. vm_compute. discriminate. }
  destruct big_bounds as [c8 [c25 [c10 [w57 [K1 [K2 [K3 [K4 [K5 [K6 [K7 [K8 K9]]]]]]]]]]]].
  rewrite K1 in MR. rewrite K2 in N5. clear K1 K2.
  destruct (fok_facts f eb F) as [MB [EB [EM [I [_ [I2 ME]]]]]].
  assert (MBR := mb_range f eb F). assert (ER := emin_range f eb F).
  assert (EMX : emx (f_mb f) eb <= 971) by (destruct F as [[-> ->]|[-> ->]]; vm_compute; discriminate).
  assert (EMX0 : 0 <= emx (f_mb f) eb) by (destruct F as [[-> ->]|[-> ->]]; vm_compute; discriminate).
  destruct (dm_range f eb F man pow HM) as [DR [D1 D2]].
  destruct (dm_x f eb F man pow HM x XL XU) as [E1 [E2 [L U]]].
  unfold negative_digit_comp. rewrite (theor_fin f eb F man pow HM x XL XU). cbv zeta.
  set (th := if emx (f_mb f) eb <? de f pow then AM (2 * 2 ^ f_mb f + 1) (emx (f_mb f) eb) else AM (2 * dm f man pow + 1) (de f pow - 1)).
  set (mt := a_man th). set (pt := a_pow th).
  assert (P0 := FloatProofs7.P0 f eb F).
  assert (PB1 : 2 ^ (f_mb f + 1) = 2 * 2 ^ f_mb f) by (rewrite Z.pow_add_r by lia; lia).
  assert (P52 : 2 ^ f_mb f <= 2 ^ 52) by (apply Z.pow_le_mono_r; lia).
  assert (MT : 0 < mt < 2 ^ 54) by (unfold mt, th; destruct (emx (f_mb f) eb <? de f pow); cbn [a_man]; lia).
  set (num := cmp_num mt (pt - ex) ex). set (den := cmp_den M (pt - ex) ex).
  (* the sizes *)
  assert (NS : mt * 5 ^ (- ex) < 2 ^ 54 * c25).
  { apply Z.lt_le_trans with (2 ^ 54 * 5 ^ (- ex)); [apply Z.mul_lt_mono_pos_r; [apply N5|apply MT]|apply Z.mul_le_mono_nonneg_l; [discriminate|apply N5]]. }
  assert (NE : num = mt * 5 ^ (- ex) * 2 ^ Z.max (pt - ex) 0).
  { unfold num, cmp_num. replace (Z.max (- ex) 0) with (- ex) by lia. ring. }
  assert (DE : den = M * 2 ^ Z.max (ex - pt) 0).
  { unfold den, cmp_den. replace (Z.max ex 0) with 0 by lia. replace (- (pt - ex)) with (ex - pt) by lia. ring. }
  assert (SZ : num < w57 /\ den < w57).
  { assert (UP : pt < ex -> den <= 8 * num).
    { intros C. assert (NI : (emx (f_mb f) eb <? de f pow) = false).
      { destruct (Z.ltb_spec (emx (f_mb f) eb) (de f pow)) as [C2|C2]; [|reflexivity].
        exfalso. unfold pt, th in C. replace (emx (f_mb f) eb <? de f pow) with true in C by lia. cbn [a_pow] in C. lia. }
      unfold den, num. rewrite <- cmp_num_scale. apply dcmp_ge. rewrite <- B_scale.
      apply Qle_trans with (inject_Z 2 * x)%Q; [exact A2|].
      apply Qle_trans with (inject_Z 2 * B (4 * mt) pt)%Q.
      - apply Qmult_le_l; [reflexivity|]. apply Qle_trans with (B (2 * dm f man pow + 3) (de f pow - 1)); [apply Qlt_le_weak, U|].
        unfold mt, pt, th. rewrite NI. cbn [a_man a_pow]. apply B_le. lia.
      - rewrite !B_scale. apply B_le. lia. }
    destruct (Z.le_gt_cases (pt - ex) 0) as [C|C].
    - replace (Z.max (pt - ex) 0) with 0 in NE by lia. rewrite Z.mul_1_r in NE.
      destruct (Z.eq_dec pt ex) as [C2|C2].
      + replace (Z.max (ex - pt) 0) with 0 in DE by lia. lia.
      + specialize (UP ltac:(lia)). lia.
    - replace (Z.max (ex - pt) 0) with 0 in DE by lia. rewrite Z.mul_1_r in DE.
      split; [|lia].
      destruct (Z.eq_dec (dm f man pow) 0) as [DZ|DZ].
      + (* nothing but the smallest halfway point *)
        assert (SB : small_branch f pow = true) by (destruct (small_branch f pow); [reflexivity|specialize (D2 eq_refl); lia]).
        assert (DEE : de f pow = emin f) by (unfold de; now rewrite SB).
        assert (TH : mt = 1 /\ pt = emin f - 1).
        { unfold mt, pt, th. replace (emx (f_mb f) eb <? de f pow) with false by lia. cbn [a_man a_pow]. lia. }
        destruct TH as [TM TP]. rewrite NE, TM. replace (Z.max (pt - ex) 0) with (pt - ex) by lia.
        apply Z.le_lt_trans with (c25 * c10); [|exact K8]. rewrite Z.mul_1_l.
        apply Z.mul_le_mono_nonneg; [lia|lia|apply Z.pow_nonneg; lia|rewrite <- K3; apply Z.pow_le_mono_r; lia].
      + apply Z.le_lt_trans with (8 * den); [|lia]. unfold den, num. rewrite <- cmp_den_scale. apply dcmp_le.
        apply Qle_trans with (inject_Z 4 * x)%Q.
        * unfold mt, pt, th. destruct (Z.ltb_spec (emx (f_mb f) eb) (de f pow)) as [C3|C3]; cbn [a_man a_pow].
          -- apply Qle_trans with (inject_Z 4 * B (2 * dm f man pow) (de f pow - 1))%Q.
             ++ rewrite B_scale. destruct E2 as [E2|E2]; [|lia].
                apply Qle_trans with (B (4 * (2 * dm f man pow)) (emx (f_mb f) eb)); [apply B_le; lia|apply B_mono; lia].
             ++ apply Qmult_le_l; [reflexivity|exact L].
          -- apply Qle_trans with (inject_Z 4 * B (2 * dm f man pow) (de f pow - 1))%Q.
             ++ rewrite B_scale. apply B_le. lia.
             ++ apply Qmult_le_l; [reflexivity|exact L].
        * rewrite <- decimal_scale. apply Qle_trans with (inject_Z 4 * (inject_Z 2 * decimal M ex))%Q.
          -- apply Qmult_le_l; [reflexivity|exact A1].
          -- assert (DN := decimal_nonneg M ex ltac:(lia)). change (inject_Z 4) with (4 # 1). change (inject_Z 2) with (2 # 1). change (inject_Z 8) with (8 # 1). lra. }
  destruct SZ as [SN SD].
  assert (PN1 : 0 < 2 ^ Z.max (pt - ex) 0) by (apply Z.pow_pos_nonneg; lia).
  assert (PD1 : 0 < 2 ^ Z.max (ex - pt) 0) by (apply Z.pow_pos_nonneg; lia).
  (* the big integers *)
  replace (- ex =? 0) with false by lia. cbn [negb]. fold mt pt.
  assert (M5 : 0 < mt * 5 ^ (- ex)) by (apply Z.mul_pos_pos; [apply MT|apply N5]).
  destruct (big_pow5_ok (big_of mt) mt (- ex) (big_of_ok mt ltac:(unfold limb; lia)) ltac:(lia) ltac:(rewrite K4; lia)) as [t1 [-> T1]]. cbn [bind].
  assert (ST2 : exists t2, (if 0 <? pt - ex then big_pow2 t1 (pt - ex) else Ok t1) = Ok t2 /\ big_ok t2 num).
  { destruct (Z.ltb_spec 0 (pt - ex)) as [C|C].
    - replace (Z.max (pt - ex) 0) with (pt - ex) in NE by lia. rewrite NE in *. apply big_pow2_ok; [exact T1|lia|lia|lia].
    - replace (Z.max (pt - ex) 0) with 0 in NE by lia. rewrite Z.mul_1_r in NE. rewrite NE in *. exists t1. split; [reflexivity|exact T1]. }
  destruct ST2 as [t2 [-> T2]]. cbn [bind].
  assert (ST3 : exists r2, (if pt - ex <? 0 then big_pow2 big (- (pt - ex)) else Ok big) = Ok r2 /\ big_ok r2 den).
  { destruct (Z.ltb_spec (pt - ex) 0) as [C|C].
    - replace (- (pt - ex)) with (ex - pt) by lia. replace (Z.max (ex - pt) 0) with (ex - pt) in DE by lia. rewrite DE in *. apply big_pow2_ok; [exact V|lia|lia|lia].
    - replace (Z.max (ex - pt) 0) with 0 in DE by lia. rewrite Z.mul_1_r in DE. rewrite DE. exists big. split; [reflexivity|exact V]. }
  destruct ST3 as [r2 [-> T3]]. cbn [bind].
  rewrite (compare_big_spec r2 den t2 num T3 T2).
  set (ord := match den ?= num with Gt => 1 | Lt => -1 | Eq => 0 end).
  set (cb := fun odd (_ _ : bool) => if 0 <? ord then true else if ord <? 0 then false else odd : bool).
  destruct (round_tie f eb F man pow HM cb) as [hw [ab [RT _]]]. eexists. split; [reflexivity|]. rewrite RT.
  destruct (Z.ltb_spec (emx (f_mb f) eb) (de f pow)) as [C|C].
  - destruct (fin_inf f eb F man pow HM x XL XU (cb (Z.odd (dm f man pow)) hw ab) C) as [FI BL]. left. split; [exact FI|exact BL].
  - destruct (SAME C) as [S1 [S2 S3]].
    assert (DC := dcmp mt pt M ex). fold num den in DC.
    assert (MTE : mt = 2 * dm f man pow + 1 /\ pt = de f pow - 1).
    { unfold mt, pt, th. replace (emx (f_mb f) eb <? de f pow) with false by lia. cbn [a_man a_pow]. tauto. }
    destruct MTE as [MTE PTE]. rewrite MTE, PTE in DC.
    apply (fin_good f eb F man pow HM x XL XU).
    + intros X. unfold cb, ord. destruct (den ?= num); [| reflexivity|].
      * exfalso. specialize (S3 DC). lra.
      * exfalso. specialize (S2 DC). lra.
    + intros X. unfold cb, ord. destruct (den ?= num); [| |reflexivity].
      * exfalso. specialize (S3 DC). lra.
      * exfalso. specialize (S1 DC). lra.
    + intros X. unfold cb, ord. destruct (den ?= num); [reflexivity| |].
      * exfalso. specialize (S1 DC). lra.
      * exfalso. specialize (S2 DC). lra.
Qed.
