(** The approximate product of compute_float: the bracket it gives and the ties. *)
From Verif Require Import Base BaseLemmas FloatTable FloatModel FloatSpec FloatProofs1 FloatProofs2 FloatProofs3.
From Coq Require Import Qpower Lqa Lia Znumtheory Zpow_facts.
Open Scope Z_scope.

(** ** The product *)
Definition n1 (f : fmt) : Z := 61 - f_mb f.
Lemma div_div_pow a b c : 0 <= b -> 0 <= c -> a / 2 ^ b / 2 ^ c = a / 2 ^ (b + c).
Proof. intros H1 H2. rewrite Z.div_div, Z.pow_add_r; try lia; apply Z.pow_pos_nonneg || apply Z.pow_nonzero; lia. Qed.
Lemma mul_shr_range a b : 0 <= a < 2 ^ 64 -> 0 <= b < 2 ^ 64 -> 0 <= a * b / 2 ^ 64 < 2 ^ 64.
Proof. intros H1 H2. split; [apply Z.div_pos; nia|]. apply Z.div_lt_upper_bound; nia. Qed.
Lemma product_spec f eb q w h l high low : fok f eb -> -342 <= q <= 308 -> 2 ^ 63 <= w < 2 ^ 64 ->
  pow5_entry q = (h, l) -> compute_product_approximation (f_mb f + 3) q w = (high, low) ->
  2 ^ 62 <= high < 2 ^ 64 /\ 0 <= low < 2 ^ 64 /\
  (high * 2 ^ 64 + low = phi q * w / 2 ^ 64 \/
   (high * 2 ^ 64 + low = h * w /\ high mod 2 ^ n1 f <> 2 ^ n1 f - 1)) /\
  (forall s, n1 f <= s -> high / 2 ^ s = phi q * w / 2 ^ (128 + s)).
Proof.
  intros F Q W E H. destruct (entry_facts q Q) as [h' [l' [E' [P [HR [LR _]]]]]].
  rewrite E in E'. injection E' as <- <-.
  assert (N1 : 0 <= n1 f) by (destruct F as [[-> _]|[-> _]]; cbn; lia).
  assert (MASK : Z.shiftr (2 ^ 64 - 1) (f_mb f + 3) = 2 ^ n1 f - 1) by (destruct F as [[-> _]|[-> _]]; reflexivity).
  assert (LM : forall z, Z.land z (2 ^ n1 f - 1) = z mod 2 ^ n1 f).
  { intros z. rewrite <- Z.land_ones by lia. f_equal. rewrite Z.ones_equiv. lia. }
  unfold compute_product_approximation, full_multiplication in H. rewrite E in H. cbv beta iota zeta in H. rewrite MASK, LM in H.
  set (hi := h * w / 2 ^ 64) in *.
  assert (PW : phi q * w = h * w * 2 ^ 64 + l * w) by (rewrite P; ring).
  assert (PD : phi q * w / 2 ^ 64 = h * w + l * w / 2 ^ 64) by (rewrite PW; apply Z.div_add_l; lia).
  assert (SH : 0 <= l * w / 2 ^ 64 < 2 ^ 64) by (apply mul_shr_range; lia).
  assert (D := Z.div_mod (h * w) (2 ^ 64) ltac:(lia)). assert (M := Z.mod_pos_bound (h * w) (2 ^ 64) ltac:(lia)).
  assert (HW : 2 ^ 126 <= h * w) by nia.
  assert (PWB : phi q * w < 2 ^ 128 * 2 ^ 64).
  { assert (PR := phi_range q Q). nia. }
  assert (PDB : phi q * w / 2 ^ 64 < 2 ^ 128) by (apply Z.div_lt_upper_bound; lia).
  assert (MW : w * h = h * w) by ring. rewrite !MW in H. fold hi in H. fold hi in D.
  assert (ML : w * l = l * w) by ring. rewrite !ML in H.
  unfold u64 in H. set (lo := (h * w) mod 2 ^ 64) in *. set (sh := l * w / 2 ^ 64) in *.
  assert (HI : 2 ^ 62 <= hi) by (apply Z.div_le_lower_bound; lia).
  destruct (Z.eqb_spec (hi mod 2 ^ n1 f) (2 ^ n1 f - 1)) as [T|T].
  - assert (FULL : high * 2 ^ 64 + low = phi q * w / 2 ^ 64 /\ 0 <= low < 2 ^ 64 /\ hi <= high < 2 ^ 64).
    { destruct (Z.le_gt_cases (2 ^ 64) (lo + sh)) as [C|C].
      - assert (LS : (lo + sh) mod 2 ^ 64 = lo + sh - 2 ^ 64).
        { symmetry. apply (Z.mod_unique _ _ 1); lia. }
        rewrite LS in H. replace (lo + sh - 2 ^ 64 <? sh) with true in H by lia.
        assert (hi + 1 < 2 ^ 64) by nia. rewrite (Z.mod_small (hi + 1)) in H by lia.
        injection H as <- <-. lia.
      - rewrite (Z.mod_small (lo + sh)) in H by lia. replace (lo + sh <? sh) with false in H by lia.
        injection H as <- <-. assert (hi < 2 ^ 64) by nia. lia. }
    destruct FULL as [FU [FL FH]]. split; [lia|]. split; [lia|]. split; [left; exact FU|].
    intros s S. replace high with (phi q * w / 2 ^ 64 / 2 ^ 64).
    + rewrite !div_div_pow by lia. do 2 f_equal. lia.
    + symmetry. rewrite <- FU. apply (Z.div_unique _ _ high low); lia.
  - injection H as <- <-. assert (hi < 2 ^ 64) by nia. split; [lia|]. split; [lia|]. split; [right; split; [lia|exact T]|].
    intros s S. replace s with (n1 f + (s - n1 f)) by lia. rewrite Z.add_assoc.
    rewrite <- (div_div_pow (phi q * w)) by lia. rewrite <- div_div_pow by lia. f_equal.
    replace (128 + n1 f) with (64 + (64 + n1 f)) by lia.
    rewrite <- !div_div_pow by lia. rewrite PD.
    assert (U : (h * w + sh) / 2 ^ 64 = hi \/ (h * w + sh) / 2 ^ 64 = hi + 1).
    { destruct (Z.le_gt_cases (2 ^ 64) (lo + sh)) as [C|C].
      - right. symmetry. apply (Z.div_unique _ _ (hi + 1) (lo + sh - 2 ^ 64)); lia.
      - left. symmetry. apply (Z.div_unique _ _ hi (lo + sh)); lia. }
    destruct U as [->| ->]; [reflexivity|].
    assert (PN : 0 < 2 ^ n1 f) by (apply Z.pow_pos_nonneg; lia).
    assert (D2 := Z.div_mod hi (2 ^ n1 f) ltac:(lia)). assert (M2 := Z.mod_pos_bound hi (2 ^ n1 f) PN).
    apply (Z.div_unique _ _ _ (hi mod 2 ^ n1 f + 1)); lia.
Qed.

Lemma n1_ge f eb : fok f eb -> 9 <= n1 f <= 38. Proof. intros F. destruct F as [[-> _]|[-> _]]; cbn; lia. Qed.

(** ** Powers of five *)
Lemma coprime_25 a b : 0 <= a -> 0 <= b -> rel_prime (5 ^ a) (2 ^ b).
Proof.
  intros A B0. apply rel_prime_Zpower_r; [lia|]. apply rel_prime_sym. apply rel_prime_Zpower_r; [lia|].
  apply Zgcd_1_rel_prime. reflexivity.
Qed.
Lemma five_divides a b c : 0 <= a -> 0 <= b -> (5 ^ a | c * 2 ^ b) -> (5 ^ a | c).
Proof.
  intros A B0 D. rewrite Z.mul_comm in D. apply Gauss with (2 ^ b); [exact D|]. now apply coprime_25.
Qed.
Lemma prime_5 : prime 5.
Proof.
  apply prime_intro; [lia|]. intros n Hn. assert (C5 : n = 1 \/ n = 2 \/ n = 3 \/ n = 4) by lia.
  destruct C5 as [->|[->|[->| ->]]]; apply Zgcd_1_rel_prime; reflexivity.
Qed.

(** ** The bracket around the number and the ties *)
Section Bracket.
Variables (f : fmt) (eb q w h l high low : Z).
Hypothesis F : fok f eb.
Hypothesis Q : -342 <= q <= 308.
Hypothesis W : 2 ^ 63 <= w < 2 ^ 64.
Hypothesis E : pow5_entry q = (h, l).
Hypothesis H : compute_product_approximation (f_mb f + 3) q w = (high, low).
Let shift := high / 2 ^ 63 + n1 f.
Let g := high / 2 ^ shift.
Let T := 128 + shift + tq q.
Let y := (inject_Z w * p5 q)%Q.
Lemma upper01 : high / 2 ^ 63 = 0 \/ high / 2 ^ 63 = 1.
Proof.
  destruct (product_spec f eb q w h l high low F Q W E H) as [R _].
  assert (0 <= high / 2 ^ 63) by (apply Z.div_pos; lia). assert (high / 2 ^ 63 < 2) by (apply Z.div_lt_upper_bound; lia). lia.
Qed.
Lemma shift_ge : n1 f <= shift <= n1 f + 1. Proof. unfold shift. destruct upper01; lia. Qed.
Lemma g_floor : g = phi q * w / 2 ^ (128 + shift).
Proof. destruct (product_spec f eb q w h l high low F Q W E H) as [_ [_ [_ R]]]. apply R. apply shift_ge. Qed.
Lemma g_range : 2 ^ (f_mb f + 1) <= g < 2 ^ (f_mb f + 2).
Proof.
  destruct (product_spec f eb q w h l high low F Q W E H) as [R _].
  assert (MB : f_mb f = 61 - n1 f) by (unfold n1; lia). assert (N := n1_ge f eb F).
  assert (D := Z.div_mod high (2 ^ 63) ltac:(lia)). assert (M := Z.mod_pos_bound high (2 ^ 63) ltac:(lia)).
  assert (PS : 0 < 2 ^ shift) by (apply Z.pow_pos_nonneg; assert (S := shift_ge); lia).
  unfold g. destruct upper01 as [U|U]; rewrite U in D; unfold shift; rewrite U.
  - split.
    + apply Z.div_le_lower_bound; [unfold shift in PS; rewrite U in PS; lia|]. rewrite <- Z.pow_add_r by lia.
      replace (0 + n1 f + (f_mb f + 1)) with 62 by lia. lia.
    + apply Z.div_lt_upper_bound; [unfold shift in PS; rewrite U in PS; lia|]. rewrite <- Z.pow_add_r by lia.
      replace (0 + n1 f + (f_mb f + 2)) with 63 by lia. lia.
  - split.
    + apply Z.div_le_lower_bound; [unfold shift in PS; rewrite U in PS; lia|]. rewrite <- Z.pow_add_r by lia.
      replace (1 + n1 f + (f_mb f + 1)) with 63 by lia. lia.
    + apply Z.div_lt_upper_bound; [unfold shift in PS; rewrite U in PS; lia|]. rewrite <- Z.pow_add_r by lia.
      replace (1 + n1 f + (f_mb f + 2)) with 64 by lia. lia.
Qed.
Lemma g_bounds : g * 2 ^ (128 + shift) <= phi q * w < (g + 1) * 2 ^ (128 + shift).
Proof.
  rewrite g_floor. assert (S := shift_ge). assert (N := n1_ge f eb F).
  assert (P : 0 < 2 ^ (128 + shift)) by (apply Z.pow_pos_nonneg; lia).
  assert (D := Z.div_mod (phi q * w) (2 ^ (128 + shift)) ltac:(lia)).
  assert (M := Z.mod_pos_bound (phi q * w) (2 ^ (128 + shift)) P). lia.
Qed.
Lemma y_mul a t : (inject_Z w * B a t == B (a * w) t)%Q.
Proof. unfold B. rewrite inject_Z_mult. ring. Qed.
Lemma w_pos : (0 < inject_Z w)%Q. Proof. change 0%Q with (inject_Z 0). apply iZ_lt. lia. Qed.
Lemma BT a : (B a T == B (a * 2 ^ (128 + shift)) (tq q))%Q.
Proof. unfold T. rewrite Z.add_comm. assert (S := shift_ge). assert (N := n1_ge f eb F). apply B_shift. lia. Qed.
Lemma bracket : (B g T <= y)%Q /\ (y < B (g + 1) T)%Q.
Proof.
  assert (G := g_bounds). assert (S := shift_ge). assert (N := n1_ge f eb F).
  destruct (near_neg q) eqn:NN.
  - assert (QN : -27 <= q < 0) by (unfold near_neg in NN; lia).
    split.
    + apply cmp_le. apply gap_near; lia.
    + destruct (entry_near q QN) as [_ U]. rewrite BT.
      apply Qle_lt_trans with (B (phi q * w) (tq q)); [|apply B_lt; lia].
      rewrite <- y_mul. unfold y. apply Qmult_le_l; [apply w_pos|exact U].
  - destruct (entry_far q Q NN) as [L U]. split.
    + rewrite BT. apply Qle_trans with (B (phi q * w) (tq q)); [apply B_le; lia|].
      rewrite <- y_mul. unfold y. apply Qmult_le_l; [apply w_pos|exact L].
    + rewrite BT. destruct (Z.le_gt_cases 0 q) as [Q0|Q0]; [destruct (Z.le_gt_cases q 55) as [Q5|Q5]|].
      * assert (EX := entry_exact q ltac:(lia)).
        apply Qle_lt_trans with (B (phi q * w) (tq q)); [|apply B_lt; lia].
        rewrite <- y_mul. unfold y. rewrite EX. apply Qle_refl.
      * apply Qlt_le_trans with (B ((phi q + 1) * w) (tq q)).
        -- rewrite <- y_mul. unfold y. apply Qmult_lt_l; [apply w_pos|exact U].
        -- apply B_le. assert (GF := gap_far q w ((g + 1) * 2 ^ (shift - 9)) (phi q * w - (g + 1) * 2 ^ (128 + shift)) Q ltac:(lia) ltac:(lia)).
           assert (PE : 2 ^ (128 + shift) = 2 ^ (shift - 9) * 2 ^ 137) by (rewrite <- Z.pow_add_r by lia; f_equal; lia).
           assert (phi q * w - (g + 1) * 2 ^ (128 + shift) <= - 2 ^ 64) by (apply GF; [rewrite PE; ring|lia]). lia.
      * apply Qlt_le_trans with (B ((phi q + 1) * w) (tq q)).
        -- rewrite <- y_mul. unfold y. apply Qmult_lt_l; [apply w_pos|exact U].
        -- apply B_le. assert (QF : q < -27) by (unfold near_neg in NN; lia).
           assert (GF := gap_far q w ((g + 1) * 2 ^ (shift - 9)) (phi q * w - (g + 1) * 2 ^ (128 + shift)) Q ltac:(lia) ltac:(lia)).
           assert (PE : 2 ^ (128 + shift) = 2 ^ (shift - 9) * 2 ^ 137) by (rewrite <- Z.pow_add_r by lia; f_equal; lia).
           assert (phi q * w - (g + 1) * 2 ^ (128 + shift) <= - 2 ^ 64) by (apply GF; [rewrite PE; ring|lia]). lia.
Qed.

Lemma pow_split : 2 ^ (128 + shift) = 2 ^ shift * 2 ^ 64 * 2 ^ 64.
Proof. assert (S := shift_ge). assert (N := n1_ge f eb F). rewrite !Z.pow_add_r by lia. change (2 ^ 128) with (2 ^ 64 * 2 ^ 64). ring. Qed.
(** a tie needs a small exponent *)
Lemma g_pos : 0 < g.
Proof.
  assert (G := g_range). assert (0 < 2 ^ (f_mb f + 1)) by (apply Z.pow_pos_nonneg; destruct F as [[-> _]|[-> _]]; cbn; lia). lia.
Qed.
Lemma tie_low : Z.odd g = true -> q < 0 -> cmp_num g T q = cmp_den w T q -> g * 5 ^ (- q) <= w.
Proof.
  intros O QN. unfold cmp_num, cmp_den. generalize T as t. intros t.
  replace (Z.max (- q) 0) with (- q) by lia. replace (Z.max q 0) with 0 by lia. rewrite Z.pow_0_r, Z.mul_1_r. intros X.
  apply Z.divide_pos_le; [lia|]. apply Gauss with (2 ^ Z.max (- t) 0).
  - exists (2 ^ Z.max t 0). rewrite (Z.mul_comm _ w), <- X. ring.
  - apply rel_prime_Zpower_r; [lia|]. apply rel_prime_sym. apply prime_rel_prime; [apply prime_2|].
    intros DD. apply prime_mult in DD; [|apply prime_2]. destruct DD as [[d DD]|DD].
    + rewrite DD, Z.odd_mul, andb_false_r in O. discriminate.
    + apply prime_power_prime in DD; [discriminate|lia|apply prime_2|apply prime_5].
Qed.
Lemma tie_high : 0 < q -> cmp_num g T q = cmp_den w T q -> 5 ^ q <= g.
Proof.
  intros QN. unfold cmp_num, cmp_den. assert (GP := g_pos). generalize T as t. intros t.
  replace (Z.max (- q) 0) with 0 by lia. replace (Z.max q 0) with q by lia. rewrite Z.pow_0_r, Z.mul_1_r. intros X.
  apply Z.divide_pos_le; [exact GP|]. apply (five_divides _ (Z.max t 0)); [lia|lia|]. exists (w * 2 ^ Z.max (- t) 0). rewrite X. ring.
Qed.
Lemma tie_range : Z.odd g = true -> (y == B g T)%Q -> f_rtemin f <= q <= f_rtemax f.
Proof.
  intros O X. symmetry in X. apply cmp_eq in X. assert (G := g_range). split.
  - destruct (Z.le_gt_cases (f_rtemin f) q) as [L|L]; [exact L|]. exfalso.
    assert (QN : q < 0) by (clear X G O; destruct F as [[-> _]|[-> _]]; cbn in L; lia).
    assert (DV := tie_low O QN X). clear X O.
    assert (P5 : 5 ^ (1 - f_rtemin f) <= 5 ^ (- q)) by (apply Z.pow_le_mono_r; lia).
    destruct F as [[-> _]|[-> _]]; cbn [f64 f32 f_rtemin f_mb] in *.
    + change (5 ^ (1 - -4)) with 3125 in *. change (2 ^ (52 + 1)) with 9007199254740992 in G.
      change (2 ^ 64) with 18446744073709551616 in W. nia.
    + change (5 ^ (1 - -17)) with 3814697265625 in *. change (2 ^ (23 + 1)) with 16777216 in G.
      change (2 ^ 64) with 18446744073709551616 in W. nia.
  - destruct (Z.le_gt_cases q (f_rtemax f)) as [L|L]; [exact L|]. exfalso.
    assert (QP : 0 < q) by (clear X G O; destruct F as [[-> _]|[-> _]]; cbn in L; lia).
    assert (DV := tie_high QP X). clear X O.
    assert (P5 : 5 ^ (f_rtemax f + 1) <= 5 ^ q) by (apply Z.pow_le_mono_r; lia).
    destruct F as [[-> _]|[-> _]]; cbn [f64 f32 f_rtemax f_mb] in *.
    + change (5 ^ (23 + 1)) with 59604644775390625 in *. change (2 ^ (52 + 2)) with 18014398509481984 in G. lia.
    + change (5 ^ (10 + 1)) with 48828125 in *. change (2 ^ (23 + 2)) with 33554432 in G. lia.
Qed.
Lemma rte_small : -17 <= f_rtemin f /\ f_rtemax f <= 27. Proof. destruct F as [[-> _]|[-> _]]; cbn; lia. Qed.
Lemma tie_found : Z.odd g = true -> (y == B g T)%Q -> low = 0 /\ high = g * 2 ^ shift.
Proof.
  intros O X. destruct (tie_range O X) as [R1 R2]. destruct rte_small as [S1 S2].
  destruct (product_spec f eb q w h l high low F Q W E H) as [HR [LR [C _]]].
  destruct (entry_facts q Q) as [h' [l' [E' [P [HH [LL _]]]]]]. rewrite E in E'. injection E' as <- <-.
  assert (S := shift_ge). assert (N := n1_ge f eb F). assert (PS := pow_split).
  assert (P0 : 0 < 2 ^ shift) by (apply Z.pow_pos_nonneg; lia).
  assert (KEY : high * 2 ^ 64 + low = g * 2 ^ shift * 2 ^ 64 -> low = 0 /\ high = g * 2 ^ shift) by lia.
  apply KEY. clear KEY.
  rewrite BT in X. destruct (Z.le_gt_cases 0 q) as [Q0|Q0].
  - assert (EX := entry_exact q ltac:(lia)). destruct (entry_low q ltac:(lia)) as [h2 [E2 EV]].
    rewrite E in E2. injection E2 as EH EL. rewrite <- EH in EV. clear h2 EH.
    assert (X2 : phi q * w = g * 2 ^ (128 + shift)).
    { apply (B_eq _ _ (tq q)). rewrite <- X. rewrite <- y_mul. unfold y. now rewrite EX. }
    rewrite PS, P, EL in X2. rewrite P, EL in C.
    assert (HW : h * w = g * 2 ^ shift * 2 ^ 64) by nia.
    destruct C as [C|[C _]]; [|lia]. rewrite C. replace ((h * 2 ^ 64 + 0) * w) with (h * w * 2 ^ 64) by ring.
    rewrite Z.div_mul by lia. exact HW.
  - destruct (entry_near q ltac:(lia)) as [L _].
    assert (X2 : (phi q - 1) * w < g * 2 ^ (128 + shift)).
    { apply (B_lt _ _ (tq q)). rewrite <- X, <- y_mul. unfold y. apply Qmult_lt_l; [apply w_pos|exact L]. }
    assert (G := g_bounds).
    assert (PD : phi q * w / 2 ^ 64 = g * 2 ^ shift * 2 ^ 64).
    { symmetry. apply (Z.div_unique _ _ _ (phi q * w - g * 2 ^ (128 + shift))); [|rewrite PS; ring]. lia. }
    destruct C as [C|[C NM]]; [lia|].
    assert (PW : phi q * w = h * w * 2 ^ 64 + l * w) by (rewrite P; ring).
    assert (PD2 : phi q * w / 2 ^ 64 = h * w + l * w / 2 ^ 64) by (rewrite PW; apply Z.div_add_l; lia).
    assert (SH : 0 <= l * w / 2 ^ 64 < 2 ^ 64) by (apply mul_shr_range; lia).
    destruct (Z.eq_dec (l * w / 2 ^ 64) 0) as [Z0|Z0]; [lia|]. exfalso. apply NM.
    assert (HE : high = g * 2 ^ shift - 1) by lia. rewrite HE.
    assert (PN : 0 < 2 ^ n1 f) by (apply Z.pow_pos_nonneg; lia).
    replace (2 ^ shift) with (2 ^ (shift - n1 f) * 2 ^ n1 f) by (rewrite <- Z.pow_add_r by lia; f_equal; lia).
    symmetry. apply (Z.mod_unique _ _ (g * 2 ^ (shift - n1 f) - 1)); lia.
Qed.
Lemma tie_real : f_rtemin f <= q <= f_rtemax f -> low <= 1 -> high = g * 2 ^ shift -> (y == B g T)%Q.
Proof.
  intros R LO HE. destruct rte_small as [S1 S2].
  destruct (product_spec f eb q w h l high low F Q W E H) as [HR [LR [C _]]].
  destruct (entry_facts q Q) as [h' [l' [E' [P [HH [LL _]]]]]]. rewrite E in E'. injection E' as <- <-.
  assert (S := shift_ge). assert (N := n1_ge f eb F). assert (PS := pow_split).
  assert (P0 : 0 < 2 ^ shift) by (apply Z.pow_pos_nonneg; lia).
  destruct (Z.le_gt_cases 0 q) as [Q0|Q0].
  - assert (EX := entry_exact q ltac:(lia)). destruct (entry_low q ltac:(lia)) as [h2 [E2 EV]].
    rewrite E in E2. injection E2 as EH EL. rewrite <- EH in EV. clear h2 EH.
    assert (HW : high * 2 ^ 64 + low = h * w).
    { destruct C as [C|[C _]]; [|exact C]. rewrite C, P, EL. replace ((h * 2 ^ 64 + 0) * w) with (h * w * 2 ^ 64) by ring.
      apply Z.div_mul. lia. }
    assert (L0 : low = 0).
    { apply Z.even_spec in EV. destruct EV as [d EV]. lia. }
    rewrite BT. unfold y. rewrite <- EX, y_mul. apply B_eq. rewrite PS, P, EL. nia.
  - apply Qeq_sym, cmp_eq. unfold T. destruct C as [C|[C _]].
    + assert (D := Z.div_mod (phi q * w) (2 ^ 64) ltac:(lia)). assert (M := Z.mod_pos_bound (phi q * w) (2 ^ 64) ltac:(lia)).
      rewrite <- C in D. assert (PSX : g * 2 ^ (128 + shift) = g * 2 ^ shift * 2 ^ 64 * 2 ^ 64) by (rewrite PS; ring).
      apply gap_near_exact; lia.
    + exfalso. assert (NT : (h * w) mod 2 ^ (n1 f + 64) <> 0 /\ (h * w) mod 2 ^ (n1 f + 64) <> 1).
      { destruct F as [[-> _]|[-> _]].
        - apply (no_tie (n1 f64 + 64) (-4) q h l w); [cbn; lia|apply (all_q_check _ table_tie64); lia|cbn in R; lia|exact E|lia].
        - apply (no_tie (n1 f32 + 64) (-17) q h l w); [cbn; lia|apply (all_q_check _ table_tie32); lia|cbn in R; lia|exact E|lia]. }
      rewrite <- C, HE in NT.
      assert (PN : 2 <= 2 ^ (n1 f + 64)) by (change 2 with (2 ^ 1) at 1; apply Z.pow_le_mono_r; lia).
      assert (PE : g * 2 ^ shift * 2 ^ 64 + low = low + g * 2 ^ (shift - n1 f) * 2 ^ (n1 f + 64)).
      { replace (2 ^ shift) with (2 ^ (shift - n1 f) * 2 ^ n1 f) by (rewrite <- Z.pow_add_r by lia; f_equal; lia).
        rewrite Z.pow_add_r by lia. ring. }
      rewrite PE, Z.mod_add, Z.mod_small in NT by lia. lia.
Qed.
End Bracket.
