(** C122: the comparison with all digits, and reading a text, with 32-bit limbs. *)
From Verif Require Import Base BaseLemmas FloatTable FloatModel FloatSpec Limb32Model.
From Verif Require Import FloatProofs1 FloatProofs2 FloatProofs3 FloatProofs4 FloatProofs5 FloatProofs6 FloatProofs7 FloatProofs8.
From Verif Require Import FloatProofs9 FloatProofs10 FloatProofs11 FloatProofs12 FloatProofs13 FloatProofs14 FloatProofs15 FloatProofs16 FloatProofs17.
From Verif Require Import Limb32Proofs1 Limb32Proofs2 Limb32Proofs3.
From Coq Require Import Lia.
Open Scope Z_scope.

(** ** A shift that fits 62 limbs of 64 bits fits 125 limbs of 32 bits *)
Lemma norm_low v z : big_ok v z -> 0 < z -> 1 <= len v /\ wt (len v - 1) <= z < wt (len v).
Proof.
  intros [L [LE [N V]]] Z0. assert (R := bval_range v L). rewrite V in R.
  destruct N as [->|N]; [cbn in V; lia|]. rewrite V in N. split; [|lia].
  destruct v; [cbn in V; lia|]. rewrite len_cons. assert (X := len_nonneg v). lia.
Qed.
Lemma shl_bits_inv v z n r : big_ok v z -> 0 < n < 64 -> 0 < z -> shl_bits v n = Ok r -> big_ok r (z * 2 ^ n).
Proof.
  intros B H Z0 E. destruct (Z.lt_ge_cases (z * 2 ^ n) (wt 62)) as [C|C].
  - destruct (shl_bits_ok v z n B H C) as [r' [E' R]]. rewrite E in E'. injection E' as <-. exact R.
  - exfalso. assert (LE := proj1 (proj2 B)). destruct (norm_low v z B Z0) as [L1 L2]. destruct B as [L [_ [N V]]].
    unfold shl_bits in E. destruct (shl_carry v n 0) as [r0 q] eqn:EC.
    destruct (shl_carry_spec v n L H 0 ltac:(unfold limb; lia) r0 q EC) as [LR [LN [Q VR]]].
    rewrite Z.div_0_l, Z.add_0_r in VR by (apply Z.pow_nonzero; lia). rewrite Z.shiftr_div_pow2 in E by lia.
    assert (BR := bval_range r0 LR). rewrite LN, V in *.
    destruct (Z.eqb_spec (q / 2 ^ (64 - n)) 0) as [C0|C0].
    + rewrite C0 in VR. assert (M := wt_mono (len v) 62 ltac:(assert (X := len_nonneg v); lia)). lia.
    + unfold try_push, bigint_limbs in E. rewrite LN in E. destruct (Z.ltb_spec (len v) 62) as [K|K]; [|discriminate].
      assert (M := wt_mono (len v + 1) 62 ltac:(lia)). rewrite wt_add in M by lia. change (wt 1) with (2 ^ 64) in M.
      assert (P : 2 ^ n <= 2 ^ 63) by (apply Z.pow_le_mono_r; lia). assert (PN : 0 < 2 ^ n) by (apply Z.pow_pos_nonneg; lia).
      assert (z * 2 ^ n <= z * 2 ^ 63) by (apply Z.mul_le_mono_nonneg_l; lia).
      assert (z * 2 ^ 63 < wt (len v) * 2 ^ 64); [|lia]. change (2 ^ 64) with (2 ^ 63 * 2). nia.
Qed.
Lemma shl_limbs_inv v z n r : big_ok v z -> 0 <= n -> 0 < z -> shl_limbs v n = Ok r -> z * wt n < wt 62 /\ big_ok r (z * wt n).
Proof.
  intros B H Z0 E. assert (C : z * wt n < wt 62).
  { destruct (norm_low v z B Z0) as [L1 L2]. unfold shl_limbs, bigint_limbs in E. destruct (Z.ltb_spec 62 (n + len v)) as [K|K]; [discriminate|].
    assert (M := wt_mono (len v + n) 62 ltac:(lia)). rewrite wt_add in M by lia. assert (P := wt_pos n H). nia. }
  split; [exact C|]. destruct (shl_limbs_ok v z n B H Z0 C) as [r' [E' R]]. rewrite E in E'. injection E' as <-. exact R.
Qed.
Lemma big_pow2_inv v z n r : big_ok v z -> 0 <= n -> 0 < z -> big_pow2 v n = Ok r -> z * 2 ^ n < wt 62 /\ big_ok r (z * 2 ^ n).
Proof.
  intros V H Z0 E. unfold big_pow2 in E.
  assert (D := Z.div_mod n 64 ltac:(lia)). assert (M := Z.mod_pos_bound n 64 ltac:(lia)). assert (D0 : 0 <= n / 64) by (apply Z.div_pos; lia).
  assert (SP : 2 ^ n = 2 ^ (n mod 64) * wt (n / 64)) by (unfold wt; rewrite <- Z.pow_add_r by lia; f_equal; lia).
  rewrite SP in *. assert (PW := wt_pos _ D0). assert (PM : 0 < 2 ^ (n mod 64)) by (apply Z.pow_pos_nonneg; lia).
  destruct (if n mod 64 =? 0 then Ok v else shl_bits v (n mod 64)) as [r1| |] eqn:E1; cbn [bind] in E; try discriminate.
  assert (R1 : big_ok r1 (z * 2 ^ (n mod 64))).
  { destruct (Z.eqb_spec (n mod 64) 0) as [C|C].
    - injection E1 as <-. now rewrite C, Z.mul_1_r.
    - apply (shl_bits_inv v z _ r1 V); [lia|lia|exact E1]. }
  rewrite Z.mul_assoc. assert (Z1 : 0 < z * 2 ^ (n mod 64)) by nia.
  destruct (Z.eqb_spec (n / 64) 0) as [C|C].
  - injection E as <-. rewrite C, wt_0, Z.mul_1_r. split; [|exact R1]. destruct (norm_low r1 _ R1 Z1) as [L1 L2].
    assert (MM := wt_mono (len r1) 62 ltac:(assert (LE := proj1 (proj2 R1)); lia)). lia.
  - apply (shl_limbs_inv r1 _ _ r R1); [lia|lia|exact E].
Qed.
Lemma wt62 : wt 62 < wt_32 125. Proof. reflexivity. Qed.
Lemma wt57 : wt 57 < wt_32 115. Proof. reflexivity. Qed.
Lemma big_pow2_same v v' z n r : big_ok v z -> big_ok_32 v' z -> 0 <= n -> 0 < z -> big_pow2 v n = Ok r ->
  exists r', big_pow2_32 v' n = Ok r' /\ big_ok r (z * 2 ^ n) /\ big_ok_32 r' (z * 2 ^ n).
Proof.
  intros V V' N Z0 E. destruct (big_pow2_inv v z n r V N Z0 E) as [S R].
  destruct (big_pow2_ok_32 v' z n V' N Z0) as [r' [E' R']]; [assert (W := wt62); lia|]. exists r'. repeat split; try assumption; try apply R; apply R'.
Qed.

(** ** The comparison *)
Definition comp_32 (f : fmt) (big : list Z) (a : am) (ex : Z) : res am :=
  if 0 <=? ex then positive_digit_comp_32 f big ex else negative_digit_comp_32 f big a ex.
Lemma positive_same f big big' M ex : big_ok big M -> big_ok_32 big' M -> 0 < M -> 0 <= ex -> M * 10 ^ ex < 10 ^ 327 ->
  positive_digit_comp_32 f big' ex = positive_digit_comp f big ex.
Proof.
  intros V V' M0 E S. assert (W := wt57). assert (P := pow10_327).
  destruct (big_pow10_ok big M ex V E M0 ltac:(lia)) as [r [E1 R1]]. destruct (big_pow10_ok_32 big' M ex V' E M0 ltac:(lia)) as [r' [E2 R2]].
  unfold positive_digit_comp_32, positive_digit_comp. rewrite E1, E2. cbn [bind].
  assert (P10 := pow10_pos ex E). destruct (hi64_same r r' (M * 10 ^ ex) R1 R2 ltac:(nia)) as [-> ->]. reflexivity.
Qed.
Lemma halfway_range f eb w : fok f eb -> 0 < a_man (to_extended_halfway f w) < 2 ^ 54.
Proof.
  intros F. assert (MB := mb_range f eb F). unfold to_extended_halfway. cbn [a_man].
  assert (A : 0 <= a_man (to_extended f w) < 2 ^ 53).
  { assert (L : 0 <= Z.land w (2 ^ f_mb f - 1) < 2 ^ f_mb f).
    { replace (2 ^ f_mb f - 1) with (Z.ones (f_mb f)) by (rewrite Z.ones_equiv; lia). rewrite Z.land_ones by lia. apply Z.mod_pos_bound. apply Z.pow_pos_nonneg; lia. }
    assert (P : 2 ^ (f_mb f + 1) <= 2 ^ 53) by (apply Z.pow_le_mono_r; lia). rewrite Z.pow_add_r in P by lia. change (2 ^ 1) with 2 in P.
    unfold to_extended. cbv zeta. destruct (Z.land w (f_inf f * 2 ^ f_mb f) =? 0); cbn [a_man]; [lia|].
    assert (LH := lor_high 1 (Z.land w (2 ^ f_mb f - 1)) (f_mb f) ltac:(lia) L). rewrite Z.mul_1_l in LH. rewrite LH. lia. }
  rewrite Z.shiftl_mul_pow2 by lia. rewrite !(u64_id (_ * _)) by lia. rewrite u64_id by lia. lia.
Qed.
Lemma compare_same x y x' y' a b : big_ok x a -> big_ok y b -> big_ok_32 x' a -> big_ok_32 y' b -> compare_big x' y' = compare_big x y.
Proof. intros X Y X' Y'. now rewrite (compare_big_spec x a y b X Y), (compare_big_spec_32 x' a y' b X' Y'). Qed.
Lemma negative_same f eb big big' a M ex r : fok f eb -> big_ok big M -> big_ok_32 big' M -> 0 < M -> -1100 <= ex < 0 ->
  negative_digit_comp f big a ex = Ok r -> negative_digit_comp_32 f big' a ex = Ok r.
Proof.
  intros F V V' M0 EX E. unfold negative_digit_comp in E. unfold negative_digit_comp_32.
  set (b := to_float f false (round f round_down a)) in *. assert (HR := halfway_range f eb b F).
  set (th := to_extended_halfway f b) in *. clearbody th. clear b. cbv zeta in *. set (mt := a_man th) in *. set (p := a_pow th - ex) in *. clearbody mt p. clear th.
  replace (- ex =? 0) with false in * by lia. cbn [negb] in *.
  assert (N5 : 0 < 5 ^ (- ex) <= p2555).
  { split; [apply Z.pow_pos_nonneg; lia|]. apply Z.le_trans with (5 ^ 1100); [apply Z.pow_le_mono_r; lia|]. vm_compute. discriminate. }
  assert (K : 2 ^ 54 * p2555 < wt 57) by reflexivity. assert (W := wt57).
  assert (SZ : mt * 5 ^ (- ex) < 2 ^ 54 * p2555) by nia.
  assert (LM : limb mt) by (unfold limb; change (2 ^ 64) with (2 ^ 54 * 1024); lia).
  destruct (big_pow5_ok (big_of mt) mt (- ex) (big_of_ok mt LM) ltac:(lia) ltac:(lia)) as [t [T1 T]].
  destruct (big_pow5_ok_32 (big_of_32 mt) mt (- ex) (big_of_ok_32 mt LM) ltac:(lia) ltac:(lia)) as [t' [T1' T']].
  rewrite T1 in E. rewrite T1'. cbn [bind] in *. assert (TP : 0 < mt * 5 ^ (- ex)) by nia.
  destruct (Z.ltb_spec 0 p) as [C|C].
  - replace (p <? 0) with false in * by lia. destruct (big_pow2 t p) as [r1| |] eqn:E1; cbn [bind] in E; try discriminate.
    destruct (big_pow2_same t t' _ p r1 T T' ltac:(lia) TP E1) as [r1' [E1' [R1 R1']]]. rewrite E1'. cbn [bind].
    rewrite (compare_same big r1 big' r1' _ _ V R1 V' R1'). exact E.
  - cbn [bind] in *. destruct (Z.ltb_spec p 0) as [C2|C2].
    + destruct (big_pow2 big (- p)) as [r1| |] eqn:E1; cbn [bind] in E; try discriminate.
      destruct (big_pow2_same big big' _ (- p) r1 V V' ltac:(lia) M0 E1) as [r1' [E1' [R1 R1']]]. rewrite E1'. cbn [bind].
      rewrite (compare_same r1 t r1' t' _ _ R1 T R1' T'). exact E.
    + cbn [bind] in *. rewrite (compare_same big t big' t' _ _ V T V' T'). exact E.
Qed.
Lemma comp_same f eb big big' a M ex r : fok f eb -> big_ok big M -> big_ok_32 big' M -> 0 < M -> -1100 <= ex -> (0 <= ex -> M * 10 ^ ex < 10 ^ 327) ->
  comp f big a ex = Ok r -> comp_32 f big' a ex = Ok r.
Proof.
  intros F V V' M0 EX S E. unfold comp, comp_32 in *. destruct (Z.leb_spec 0 ex) as [C|C].
  - rewrite (positive_same f big big' M ex V V' M0 C (S C)). exact E.
  - apply (negative_same f eb big big' a M ex r F V V' M0); [lia|exact E].
Qed.

(** ** The digits, the same in both *)
Lemma split_len {A} (a b c d : list A) : a ++ b = c ++ d -> length a = length c -> a = c /\ b = d.
Proof.
  revert c. induction a as [|x a IH]; intros [|y c] E L; try discriminate; [now split|]. injection E as <- E. injection L as L.
  destruct (IH c E L) as [-> ->]. now split.
Qed.
Lemma taken_same maxd s big dg big' dg' : digs s -> taken maxd s big dg -> taken_32 maxd s big' dg' -> dg' = dg /\ exists M, big_ok big M /\ big_ok_32 big' M.
Proof.
  intros D [[A1 [A2 A3]]|[u [v [E [L A]]]]] [[B1 [B2 B3]]|[u' [v' [E' [L' B]]]]].
  - split; [lia|]. exists (dec s). now split.
  - (* the text is exactly as long as the limit *)
    assert (LS : len s = len u' + len v') by (rewrite E'; apply len_app). assert (NV := len_nonneg v').
    assert (V0 : v' = []) by (destruct v'; [reflexivity|rewrite len_cons in LS; assert (X := len_nonneg v'); lia]). subst v'. rewrite app_nil_r in E'. subst u'.
    destruct B as [[_ [B2 B3]]|[B1' _]]; [|exfalso; apply B1'; constructor]. split; [lia|]. exists (dec s). now split.
  - assert (LS : len s = len u + len v) by (rewrite E; apply len_app). assert (NV := len_nonneg v).
    assert (V0 : v = []) by (destruct v; [reflexivity|rewrite len_cons in LS; assert (X := len_nonneg v); lia]). subst v. rewrite app_nil_r in E. subst u.
    destruct A as [[_ [A2 A3]]|[A1' _]]; [|exfalso; apply A1'; constructor]. split; [lia|]. exists (dec s). now split.
  - assert (UV : u = u' /\ v = v').
    { apply split_len; [congruence|]. unfold len in L, L'. lia. }
    destruct UV as [<- <-]. destruct A as [[A1 [A2 A3]]|[A1 [A2 A3]]], B as [[B1 [B2 B3]]|[B1 [B2 B3]]]; try contradiction.
    + split; [lia|]. eexists. split; eassumption.
    + split; [lia|]. eexists. split; eassumption.
Qed.
Lemma taken_bound maxd s big dg M : digs s -> s <> [] -> first_nz s -> 0 < maxd -> taken maxd s big dg -> big_ok big M -> 0 < M < 10 ^ dg /\ 0 < dg <= maxd + 1.
Proof.
  intros D SN FN MX T V. assert (UQ : forall N, big_ok big N -> M = N) by (intros N [_ [_ [_ V2]]]; destruct V as [_ [_ [_ V1]]]; lia).
  destruct T as [[A1 [A2 A3]]|[u [v [E [L A]]]]].
  - rewrite (UQ _ A3), A2. destruct (first_nz_dec s D SN FN) as [R1 R2]. assert (LS : 1 <= len s) by (destruct s; [contradiction|rewrite len_cons; assert (X := len_nonneg s); lia]).
    assert (P := pow10_pos (len s - 1) ltac:(lia)). lia.
  - assert (DUV : digs u /\ digs v) by (rewrite E in D; now apply digs_app). destruct DUV as [DU DV].
    assert (UN : u <> []) by (intros ->; change (len []) with 0 in L; lia).
    assert (FU : first_nz u) by (rewrite E in FN; destruct u; [contradiction|exact FN]).
    destruct (first_nz_dec u DU UN FU) as [R1 R2]. assert (P := pow10_pos (len u - 1) ltac:(lia)). rewrite L in *.
    destruct A as [[_ [A2 A3]]|[_ [A2 A3]]]; rewrite (UQ _ A3), A2; [lia|]. rewrite Z.pow_add_r by lia. lia.
Qed.
Lemma digit_comp_same f eb q m rest neg many i ft d u v man pow r : fok f eb -> digs i -> fraction ft d ->
  i ++ d = u ++ v -> m = dec u -> 10 ^ 18 <= m < 10 ^ 19 -> f_p10min f <= q <= f_p10max f ->
  digit_comp f (Pns q m rest neg many i (frac_of ft d)) (AM man pow) = Ok r ->
  digit_comp_32 f (Pns q m rest neg many i (frac_of ft d)) (AM man pow) = Ok r.
Proof.
  intros F DI FR E MU MR QR H.
  assert (QQ : -342 <= q <= 308) by (destruct F as [[-> _]|[-> _]]; cbn in QR; lia).
  assert (MD : 100 <= f_maxdig f <= 769) by (destruct F as [[-> _]|[-> _]]; cbn; lia).
  assert (FD : digs d) by (destruct FR; [constructor|assumption]).
  assert (DID : digs (i ++ d)) by (apply digs_app; tauto).
  destruct (split_zeros (i ++ d)) as [z [s [ES [Z FS]]]].
  assert (DS : digs s) by (rewrite ES in DID; now apply digs_app in DID).
  assert (SN : s <> []).
  { intros ->. rewrite app_nil_r in ES. assert (ZU : zeros u) by (rewrite <- ES, E in Z; apply zeros_app in Z; apply Z). rewrite (zeros_dec u ZU) in MU. lia. }
  destruct (parse_mantissa_spec f eb q m rest neg many i ft d z s F DI FR ES Z FS SN) as [big [dg [PM TK]]].
  destruct (parse_mantissa_spec_32 f eb q m rest neg many i ft d z s F DI FR ES Z FS SN) as [big' [dg' [PM' TK']]].
  destruct (taken_same _ _ _ _ _ _ DS TK TK') as [-> [M [V V']]].
  destruct (taken_bound (f_maxdig f) s big dg M DS SN FS ltac:(lia) TK V) as [MR2 DR].
  unfold digit_comp, digit_comp_32 in *. cbn [a_man a_pow] in *. rewrite PM in H. rewrite PM'. cbn [bind] in *.
  rewrite sci_spec in * by lia. set (a := AM man (pow - invalid_am_bias)) in *.
  change (comp f big a (q + 18 + 1 - dg) = Ok r) in H. change (comp_32 f big' a (q + 18 + 1 - dg) = Ok r).
  apply (comp_same f eb big big' a M _ r F V V'); [lia|lia| |exact H].
  intros EX. apply Z.lt_le_trans with (10 ^ dg * 10 ^ (q + 18 + 1 - dg)); [apply Z.mul_lt_mono_pos_r; [apply pow10_pos; lia|lia]|].
  rewrite <- Z.pow_add_r by lia. apply Z.pow_le_mono_r; lia.
Qed.

(** ** The fast path *)
Lemma fast_path_same rn f n x : fast_path rn f n = Ok x -> fast_path_32 rn f n = Ok x.
Proof.
  unfold fast_path, fast_path_32. destruct ((f_fpmin f <=? p_exponent n) && (p_exponent n <=? f_fpmax f) && negb (p_many n)); [|tauto].
  destruct rn; [tauto|]. destruct ((0 <=? p_exponent n) && (p_mantissa n <=? max_mantissa f (p_exponent n))); [|tauto].
  destruct (Z.eqb_spec (p_mantissa n) 0) as [->|_]; [|tauto].
  unfold exact_product. rewrite Z.mul_0_l. destruct (of_int f 0) as [s1 m1 e1| |]; try discriminate.
  destruct (of_int f (10 ^ p_exponent n)) as [s2 m2 e2| |]; try discriminate. destruct (_ && _ && _); [tauto|discriminate].
Qed.

(** ** A text *)
Lemma from_pns_same rn f eb q m rest neg many i ft d k : fok f eb -> digs i -> fraction ft d ->
  (many = false -> m = dec (i ++ d) /\ q = k /\ m < 2 ^ 64) ->
  (many = true -> exists u v, i ++ d = u ++ v /\ m = dec u /\ 10 ^ 18 <= m < 10 ^ 19 /\ q = k + len v) ->
  from_pns_32 rn f (Pns q m rest neg many i (frac_of ft d)) = from_pns rn f (Pns q m rest neg many i (frac_of ft d)).
Proof.
  intros F DI FR NM YM. destruct (from_pns_good rn f eb q m rest neg many i ft d k F DI FR NM YM) as [a [H _]].
  remember (FFRes rest (code f (dec (i ++ d)) a) (Some (to_float f neg a))) as res eqn:RES. clear RES a.
  assert (FD : digs d) by (destruct FR; [constructor|assumption]).
  assert (DID : digs (i ++ d)) by (apply digs_app; tauto). assert (DR := dec_range _ DID).
  assert (MN : 0 <= m < 2 ^ 64 - 1 \/ many = false /\ 0 <= m < 2 ^ 64).
  { destruct many; [left; destruct (YM eq_refl) as [u [v Y]]; change (2 ^ 64) with 18446744073709551616; lia|right; destruct (NM eq_refl); lia]. }
  rewrite H. unfold from_pns in H. unfold from_pns_32. set (n := Pns q m rest neg many i (frac_of ft d)) in *.
  destruct (fast_path rn f n) as [x| |] eqn:FP; try discriminate. rewrite (fast_path_same rn f n x FP). cbn [bind] in *. destruct x as [x|]; [exact H|].
  cbn [n p_mantissa p_exponent p_many p_negative p_rest] in *. rewrite compute_float_32_ok by lia.
  destruct many; cbn [andb] in *.
  2:{ destruct (NM eq_refl) as [-> [-> M64]]. assert (G := compute_float_good f eb k (dec (i ++ d)) F ltac:(lia)). assert (PA := good_pow f eb _ _ F G).
      replace (a_pow (compute_float f k (dec (i ++ d))) <? 0) with false in * by lia. exact H. }
  destruct (YM eq_refl) as [u [v [E [MU [MR QE]]]]].
  rewrite u64_id in * by lia. rewrite compute_float_32_ok by lia. rewrite compute_error_32_ok by lia.
  assert (G := compute_float_good f eb q m F ltac:(lia)). assert (PA := good_pow f eb _ _ F G).
  replace (0 <=? a_pow (compute_float f q m)) with true in * by lia.
  destruct (negb ((a_man (compute_float f q m) =? a_man (compute_float f q (m + 1))) && (a_pow (compute_float f q m) =? a_pow (compute_float f q (m + 1))))) eqn:NE.
  - assert (QR : f_p10min f <= q <= f_p10max f).
    { destruct (Z.lt_ge_cases q (f_p10min f)) as [Q1|Q1].
      - exfalso. unfold compute_float in NE. replace (q <? f_p10min f) with true in NE by lia. rewrite !orb_true_r in NE. cbn in NE. discriminate.
      - destruct (Z.lt_ge_cases (f_p10max f) q) as [Q2|Q2]; [|lia]. exfalso. unfold compute_float in NE.
        replace (q <? f_p10min f) with false in NE by lia. replace (f_p10max f <? q) with true in NE by lia.
        replace (m =? 0) with false in NE by lia. replace (m + 1 =? 0) with false in NE by lia. cbn [orb a_man a_pow] in NE. rewrite !Z.eqb_refl in NE. discriminate. }
    destruct (compute_error f q m) as [man pow]. cbn [a_pow] in *. destruct (pow <? 0); [|exact H].
    destruct (digit_comp f n (AM man pow)) as [b| |] eqn:DC; try discriminate.
    assert (DC' : digit_comp_32 f n (AM man pow) = Ok b) by exact (digit_comp_same f eb q m rest neg true i ft d u v man pow b F DI FR E MU MR QR DC).
    rewrite DC'. exact H.
  - replace (a_pow (compute_float f q m) <? 0) with false in * by lia. exact H.
Qed.
Lemma text_same rn f eb t rest neg m e : fok f eb -> bytes (t ++ rest) -> decimal_text t neg m e -> longest t rest ->
  from_chars_float_32 rn f (t ++ rest) = from_chars_float rn f (t ++ rest).
Proof.
  intros F BY DT LG. destruct DT as [neg i ft d xt e DI FR EX NE]. rewrite text_minus in *.
  destruct (longest_facts neg i ft d xt e rest DI FR EX NE LG) as [S1 [SD [SX [n [PE SA]]]]].
  rewrite <- !app_assoc in *.
  assert (BY2 : bytes (i ++ ft ++ xt ++ rest)) by (apply Forall_app in BY; apply BY).
  destruct (parse_number_spec neg i ft d xt rest n BY2 DI FR NE S1 SD SX PE) as [pm [q [many [PN [NM YM]]]]].
  unfold from_chars_float, from_chars_float_32. rewrite PN. cbn [bind].
  rewrite (from_pns_same rn f eb q pm rest neg many i ft d (n - len d) F DI FR NM YM). reflexivity.
Qed.
Lemma res_dec (x y : res ffres) : x = y \/ x <> y.
Proof.
  assert (D : {x = y} + {x <> y}); [|tauto]. decide equality. decide equality.
  - decide equality. apply Z.eq_dec.
  - decide equality.
  - apply (list_eq_dec Z.eq_dec).
Qed.
Theorem from_chars_same rn f eb s : fok f eb -> bytes s -> from_chars_float_32 rn f s = from_chars_float rn f s.
Proof.
  intros F BY. destruct (res_dec (from_chars_float_32 rn f s) (from_chars_float rn f s)) as [H|NP]; [exact H|]. exfalso.
  assert (NN : no_number s).
  { intros a b neg m e E DT. apply (longest_exists (length b) s a b neg m e (le_n _) E DT). intros [t [rest [neg' [m' [e' [E' [D' LG]]]]]]].
    apply NP. clear - F BY E' D' LG. subst s. exact (text_same rn f eb t rest neg' m' e' F BY D' LG). }
  apply NP. destruct s as [|c s]; [reflexivity|]. unfold from_chars_float, from_chars_float_32. rewrite (parse_none _ BY ltac:(discriminate) NN). reflexivity.
Qed.
