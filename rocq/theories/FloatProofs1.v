(** Rational powers; a number between the two midpoints rounds to nearest. *)
From Verif Require Import Base FloatSpec.
From Coq Require Import Qpower Lqa Lia.
Open Scope Z_scope.

(** ** Binary numbers [m * 2^e] *)
Definition p2 (e : Z) : Q := ((2 # 1) ^ e)%Q.
Definition B (m e : Z) : Q := (inject_Z m * p2 e)%Q.
Lemma two_nz : ~ ((2 # 1) == 0)%Q. Proof. intro H. inversion H. Qed.
Lemma p2_pos e : (0 < p2 e)%Q. Proof. apply Qpower_0_lt. reflexivity. Qed.
Lemma p2_add a b : (p2 (a + b) == p2 a * p2 b)%Q. Proof. apply Qpower_plus, two_nz. Qed.
Lemma p2_Z n : 0 <= n -> (p2 n == inject_Z (2 ^ n))%Q.
Proof. intros H. unfold p2. symmetry. apply (Zpower_Qpower 2 n H). Qed.
Lemma iZ_le a b : (inject_Z a <= inject_Z b)%Q <-> a <= b. Proof. rewrite <- Zle_Qle. reflexivity. Qed.
Lemma iZ_lt a b : (inject_Z a < inject_Z b)%Q <-> a < b. Proof. rewrite <- Zlt_Qlt. reflexivity. Qed.
Lemma iZ_eq a b : (inject_Z a == inject_Z b)%Q <-> a = b. Proof. apply inject_Z_injective. Qed.

Lemma B_le a b e : (B a e <= B b e)%Q <-> a <= b.
Proof. unfold B. rewrite <- iZ_le. apply Qmult_le_r, p2_pos. Qed.
Lemma B_lt a b e : (B a e < B b e)%Q <-> a < b.
Proof. unfold B. rewrite <- iZ_lt. apply Qmult_lt_r, p2_pos. Qed.
Lemma B_eq a b e : (B a e == B b e)%Q <-> a = b.
Proof.
  split; [|intros ->; reflexivity]. intros H. apply Z.le_antisymm; apply (B_le _ _ e); rewrite H; apply Qle_refl.
Qed.
Lemma B_shift m e k : 0 <= k -> (B m (e + k) == B (m * 2 ^ k) e)%Q.
Proof. intros H. unfold B. rewrite p2_add, (p2_Z k H), inject_Z_mult. ring. Qed.
Lemma B_down m e e' : e' <= e -> (B m e == B (m * 2 ^ (e - e')) e')%Q.
Proof. intros H. rewrite <- B_shift by lia. now replace (e' + (e - e')) with e by lia. Qed.
Lemma B_plus a b e : (B (a + b) e == B a e + B b e)%Q. Proof. unfold B. rewrite inject_Z_plus. ring. Qed.
Lemma B_opp a e : (B (- a) e == - B a e)%Q. Proof. unfold B. rewrite inject_Z_opp. ring. Qed.
Lemma B_mul a b e k : (B a e * B b k == B (a * b) (e + k))%Q.
Proof. unfold B. rewrite inject_Z_mult, p2_add. ring. Qed.
Lemma B_0 e : (B 0 e == 0)%Q. Proof. unfold B. change (inject_Z 0) with 0%Q. ring. Qed.
Lemma B_nonneg m e : 0 <= m -> (0 <= B m e)%Q. Proof. intros H. rewrite <- (B_0 e). now apply B_le. Qed.
(** compare at different exponents *)
Lemma B_cmp_le a e b k : forall z, z <= e -> z <= k -> a * 2 ^ (e - z) <= b * 2 ^ (k - z) -> (B a e <= B b k)%Q.
Proof. intros z H1 H2 H. rewrite (B_down a e z), (B_down b k z) by lia. now apply B_le. Qed.
Lemma B_cmp_lt a e b k : forall z, z <= e -> z <= k -> a * 2 ^ (e - z) < b * 2 ^ (k - z) -> (B a e < B b k)%Q.
Proof. intros z H1 H2 H. rewrite (B_down a e z), (B_down b k z) by lia. now apply B_lt. Qed.
Lemma B_mono m e k : 0 <= m -> e <= k -> (B m e <= B m k)%Q.
Proof.
  intros H H1. apply (B_cmp_le m e m k e); try lia. rewrite Z.sub_diag, Z.mul_1_r.
  assert (0 < 2 ^ (k - e)) by (apply Z.pow_pos_nonneg; lia). nia.
Qed.

Section Fmt.
Variables mb eb : Z.
Hypothesis Hmb : 1 <= mb.
Hypothesis Heb : 2 <= eb.
Definition emn : Z := 1 - b_bias eb - mb.
Definition emx : Z := b_bias eb - mb.
Definition canon (m e : Z) : Prop := 0 <= m < 2 ^ (mb + 1) /\ emn <= e /\ (2 ^ mb <= m \/ e = emn).
Definition bottom (m e : Z) : bool := (m =? 2 ^ mb) && (emn <? e).
(** [x] lies between the midpoints around [m * 2^e] *)
Definition rounds (x : Q) (m e : Z) : Prop :=
  (x <= B (2 * m + 1) (e - 1))%Q /\ ((x == B (2 * m + 1) (e - 1))%Q -> Z.even m = true) /\
  (if bottom m e then (B (4 * m - 1) (e - 2) <= x)%Q
   else (B (2 * m - 1) (e - 1) <= x)%Q /\ ((x == B (2 * m - 1) (e - 1))%Q -> Z.even m = true)).

Lemma pow_mb : 2 ^ (mb + 1) = 2 * 2 ^ mb. Proof. rewrite Z.pow_add_r by lia. lia. Qed.
Lemma pow_mb_pos : 0 < 2 ^ mb. Proof. apply Z.pow_pos_nonneg; lia. Qed.
Lemma pow_mb_even : exists k, 0 < k /\ 2 ^ mb = 2 * k.
Proof.
  exists (2 ^ (mb - 1)). split; [apply Z.pow_pos_nonneg; lia|].
  replace mb with (1 + (mb - 1)) at 1 by lia. rewrite Z.pow_add_r by lia. lia.
Qed.

(** the floats above and below a float *)
Lemma next_up m e m' e' : canon m e -> canon m' e' -> (B m e < B m' e')%Q -> (B (m + 1) e <= B m' e')%Q.
Proof.
  intros C C' H. destruct (Z.le_gt_cases e e') as [L|L].
  - rewrite (B_down m' e' e) in * by lia. apply B_lt in H. apply B_le. lia.
  - exfalso. destruct C as [C1 [C2 C3]], C' as [C1' [C2' C3']].
    assert (2 ^ mb <= m) by (destruct C3; lia).
    assert (P := pow_mb). assert (P0 := pow_mb_pos).
    apply (Qlt_irrefl (B m e)). apply (Qlt_le_trans _ (B m' e')); [exact H|].
    apply (B_cmp_le m' e' m e e'); try lia. rewrite Z.sub_diag, Z.mul_1_r.
    assert (2 <= 2 ^ (e - e')) by (change 2 with (2 ^ 1) at 1; apply Z.pow_le_mono_r; lia). nia.
Qed.
Lemma next_down m e m' e' : canon m e -> canon m' e' -> (B m' e' < B m e)%Q ->
  if bottom m e then (B m' e' <= B (2 * m - 1) (e - 1))%Q else (B m' e' <= B (m - 1) e)%Q.
Proof.
  intros C C' H. assert (P := pow_mb). assert (P0 := pow_mb_pos).
  destruct C as [C1 [C2 C3]], C' as [C1' [C2' C3']].
  destruct (Z.le_gt_cases e e') as [L|L].
  - rewrite (B_down m' e' e) in H by lia. apply B_lt in H.
    assert (K : (B m' e' <= B (m - 1) e)%Q) by (rewrite (B_down m' e' e) by lia; apply B_le; lia).
    destruct (bottom m e); [|exact K]. apply (Qle_trans _ _ _ K).
    apply (B_cmp_le _ _ _ _ (e - 1)); try lia. replace (e - (e - 1)) with 1 by lia. rewrite Z.sub_diag. lia.
  - assert (2 ^ mb <= m) by (destruct C3; lia). unfold bottom.
    destruct (Z.eqb_spec m (2 ^ mb)) as [E|E].
    + replace (emn <? e) with true by lia. cbn [andb].
      apply (Qle_trans _ (B m' (e - 1))); [apply B_mono; lia|]. apply B_le. lia.
    + cbn [andb]. apply (Qle_trans _ (B m' (e - 1))); [apply B_mono; lia|].
      apply (B_cmp_le _ _ _ _ (e - 1)); try lia. replace (e - (e - 1)) with 1 by lia. rewrite Z.sub_diag. lia.
Qed.

Lemma half_up m e : (B (2 * m + 1) (e - 1) == (1 # 2) * (B m e + B (m + 1) e))%Q.
Proof.
  rewrite <- B_plus. rewrite (B_down _ e (e - 1)) by lia. replace (e - (e - 1)) with 1 by lia.
  replace ((m + (m + 1)) * 2 ^ 1) with ((2 * m + 1) + (2 * m + 1)) by lia. rewrite (B_plus (2 * m + 1) (2 * m + 1)). ring.
Qed.
Lemma half_down m e : (B (2 * m - 1) (e - 1) == (1 # 2) * (B m e + B (m - 1) e))%Q.
Proof.
  rewrite (Qplus_comm (B m e)). assert (H := half_up (m - 1) e). replace (2 * (m - 1) + 1) with (2 * m - 1) in H by lia.
  replace (m - 1 + 1) with m in H by lia. exact H.
Qed.
Lemma half_bottom m e : (B (4 * m - 1) (e - 2) == (1 # 2) * (B m e + B (2 * m - 1) (e - 1)))%Q.
Proof.
  assert (H := half_down (2 * m) (e - 1)). replace (e - 1 - 1) with (e - 2) in H by lia.
  replace (2 * (2 * m) - 1) with (4 * m - 1) in H by lia. rewrite H.
  rewrite (B_down m e (e - 1)) by lia. replace (e - (e - 1)) with 1 by lia.
  now replace (m * 2 ^ 1) with (2 * m) by lia.
Qed.

(** a number that rounds to a float is nearest to it *)
Lemma rounds_nearest x m e m' e' : canon m e -> canon m' e' -> rounds x m e ->
  (Qabs (x - B m e) <= Qabs (x - B m' e'))%Q /\
  ((Qabs (x - B m e) == Qabs (x - B m' e'))%Q -> ~ (B m e == B m' e')%Q -> Z.even m = true).
Proof.
  intros C C' [U [UE L]].
  destruct (Q_dec (B m e) (B m' e')) as [[H|H]|H].
  - assert (N := next_up _ _ _ _ C C' H). rewrite half_up in U, UE.
    assert (D : (B m e <= B (m + 1) e)%Q) by (apply B_le; lia).
    assert (A1 : (Qabs (x - B m' e') == B m' e' - x)%Q).
    { rewrite Qabs_neg; [ring|]. lra. }
    rewrite A1. destruct (Qlt_le_dec x (B m e)) as [X|X].
    + assert (A2 : (Qabs (x - B m e) == B m e - x)%Q) by (rewrite Qabs_neg; [ring|lra]).
      rewrite A2. split; intros; lra.
    + assert (A2 : (Qabs (x - B m e) == x - B m e)%Q) by (rewrite Qabs_pos; [ring|lra]).
      rewrite A2. split; [lra|]. intros E _. apply UE. lra.
  - assert (N := next_down _ _ _ _ C C' H).
    destruct (bottom m e) eqn:Bo.
    + rewrite half_bottom in L. assert (A0 : (B (2 * m - 1) (e - 1) <= B m e)%Q).
      { apply (B_cmp_le _ _ _ _ (e - 1)); try lia. replace (e - (e - 1)) with 1 by lia. rewrite Z.sub_diag. lia. }
      assert (A1 : (Qabs (x - B m' e') == x - B m' e')%Q) by (rewrite Qabs_pos; [ring|lra]).
      rewrite A1.
      assert (EV : Z.even m = true).
      { unfold bottom in Bo. apply andb_true_iff in Bo. destruct Bo as [Bo _]. apply Z.eqb_eq in Bo.
        destruct pow_mb_even as [k [_ K]]. rewrite Bo, K. rewrite Z.even_mul. reflexivity. }
      split; [|auto].
      destruct (Qlt_le_dec x (B m e)) as [X|X].
      * assert (A2 : (Qabs (x - B m e) == B m e - x)%Q) by (rewrite Qabs_neg; [ring|lra]). rewrite A2. lra.
      * assert (A2 : (Qabs (x - B m e) == x - B m e)%Q) by (rewrite Qabs_pos; [ring|lra]). rewrite A2. lra.
    + destruct L as [L LE]. rewrite half_down in L, LE.
      assert (D : (B (m - 1) e <= B m e)%Q) by (apply B_le; lia).
      assert (A1 : (Qabs (x - B m' e') == x - B m' e')%Q) by (rewrite Qabs_pos; [ring|lra]).
      rewrite A1. destruct (Qlt_le_dec x (B m e)) as [X|X].
      * assert (A2 : (Qabs (x - B m e) == B m e - x)%Q) by (rewrite Qabs_neg; [ring|lra]).
        rewrite A2. split; [lra|]. intros E _. apply LE. lra.
      * assert (A2 : (Qabs (x - B m e) == x - B m e)%Q) by (rewrite Qabs_pos; [ring|lra]).
        rewrite A2. split; intros; lra.
  - split; [|intros _ K; now elim K]. rewrite H. apply Qle_refl.
Qed.

(** ** The representation *)
Definition join (neg : bool) (ex fr : Z) : Z := (if neg then 2 ^ (eb + mb) else 0) + ex * 2 ^ mb + fr.
Lemma pow_ebmb : 2 ^ (eb + mb) = 2 ^ eb * 2 ^ mb. Proof. apply Z.pow_add_r; lia. Qed.
Lemma words_eq : b_words mb eb = 2 * (2 ^ eb * 2 ^ mb).
Proof. unfold b_words. rewrite <- Z.add_assoc, Z.pow_add_r by lia. rewrite pow_ebmb. lia. Qed.
Lemma pow_eb : exists k, 0 < k /\ 2 ^ eb = 4 * k /\ b_bias eb = 2 * k - 1.
Proof.
  exists (2 ^ (eb - 2)). split; [apply Z.pow_pos_nonneg; lia|]. unfold b_bias. split.
  - replace eb with (2 + (eb - 2)) at 1 by lia. rewrite Z.pow_add_r by lia. lia.
  - replace (eb - 1) with (1 + (eb - 2)) by lia. rewrite Z.pow_add_r by lia. lia.
Qed.
Lemma join_fields neg ex fr : 0 <= ex < 2 ^ eb -> 0 <= fr < 2 ^ mb ->
  let w := join neg ex fr in
  0 <= w < b_words mb eb /\ b_neg mb eb w = neg /\ b_exp mb eb w = ex /\ b_frac mb w = fr.
Proof.
  intros H1 H2. cbv zeta. unfold join, b_neg, b_exp, b_frac. rewrite words_eq, pow_ebmb.
  assert (0 < 2 ^ eb) by (apply Z.pow_pos_nonneg; lia). assert (0 < 2 ^ mb) by apply pow_mb_pos.
  assert (ex * 2 ^ mb + fr < 2 ^ eb * 2 ^ mb) by nia.
  assert (0 <= ex * 2 ^ mb) by nia.
  assert (D : ((if neg then 2 ^ eb * 2 ^ mb else 0) + ex * 2 ^ mb + fr) =
     ((if neg then 2 ^ eb else 0) + ex) * 2 ^ mb + fr) by (destruct neg; lia).
  repeat split.
  - destruct neg; lia.
  - destruct neg; lia.
  - destruct neg; lia.
  - rewrite D, Z.div_add_l by lia. rewrite (Z.div_small fr) by lia. rewrite Z.add_0_r.
    destruct neg; [|now rewrite Z.mod_small by lia].
    rewrite <- (Z.mod_small ex (2 ^ eb)) at 2 by lia.
    rewrite Z.add_comm. rewrite <- (Z.mul_1_l (2 ^ eb)) at 1. apply Z.mod_add. lia.
  - rewrite D, Z.add_comm, Z.mod_add by lia. apply Z.mod_small. lia.
Qed.
Lemma join_split w : 0 <= w < b_words mb eb ->
  w = join (b_neg mb eb w) (b_exp mb eb w) (b_frac mb w) /\ 0 <= b_exp mb eb w < 2 ^ eb /\ 0 <= b_frac mb w < 2 ^ mb.
Proof.
  rewrite words_eq. intros H. unfold join, b_neg, b_exp, b_frac. rewrite pow_ebmb.
  assert (0 < 2 ^ eb) by (apply Z.pow_pos_nonneg; lia). assert (0 < 2 ^ mb) by apply pow_mb_pos.
  assert (D := Z.div_mod w (2 ^ mb)). assert (M := Z.mod_pos_bound w (2 ^ mb)).
  assert (M2 := Z.mod_pos_bound (w / 2 ^ mb) (2 ^ eb)).
  split; [|lia].
  set (q := w / 2 ^ mb) in *. set (r := w mod 2 ^ mb) in *.
  assert (Q1 : 0 <= q < 2 * 2 ^ eb).
  { split; [apply Z.div_pos; lia|]. apply Z.div_lt_upper_bound; lia. }
  destruct (Z.leb_spec (2 ^ eb * 2 ^ mb) w) as [L|L].
  - assert (2 ^ eb <= q) by (apply Z.div_le_lower_bound; lia).
    replace (q mod 2 ^ eb) with (q - 2 ^ eb); [lia|].
    replace q with ((q - 2 ^ eb) + 1 * 2 ^ eb) at 2 by lia. rewrite Z.mod_add by lia. now rewrite Z.mod_small by lia.
  - assert (q < 2 ^ eb) by (apply Z.div_lt_upper_bound; lia). rewrite (Z.mod_small q) by lia. lia.
Qed.

(** finite words and floats *)
Lemma finite_canon w : b_finite mb eb w -> exists m e, canon m e /\ e <= emx /\
  (b_value mb eb w == signed (b_neg mb eb w) (B m e))%Q /\ Z.even (b_frac mb w) = Z.even m.
Proof.
  intros [H H1]. destruct (join_split w H) as [_ [H2 H3]].
  assert (P := pow_mb). assert (P0 := pow_mb_pos). destruct pow_eb as [k [K0 [K1 K2]]].
  unfold b_value, canon, emn, emx, B, p2. destruct (Z.eqb_spec (b_exp mb eb w) 0) as [E|E].
  - exists (b_frac mb w), (1 - b_bias eb - mb). rewrite E. cbn [Z.max Z.compare].
    split; [lia|]. split; [lia|]. split; reflexivity.
  - exists (2 ^ mb + b_frac mb w), (b_exp mb eb w - b_bias eb - mb).
    replace (Z.max (b_exp mb eb w) 1) with (b_exp mb eb w) by lia.
    split; [lia|]. split; [lia|]. split; [reflexivity|].
    destruct pow_mb_even as [j [_ J]]. rewrite J, Z.even_add, Z.even_mul. cbn [Z.even orb].
    destruct (Z.even (b_frac mb w)); reflexivity.
Qed.
Definition enc (neg : bool) (m e : Z) : Z := if m <? 2 ^ mb then join neg 0 m else join neg (e - emn + 1) (m - 2 ^ mb).
Lemma enc_finite neg m e : canon m e -> e <= emx ->
  let w := enc neg m e in
  b_finite mb eb w /\ b_neg mb eb w = neg /\ (b_value mb eb w == signed neg (B m e))%Q /\
  Z.even (b_frac mb w) = Z.even m.
Proof.
  intros [C1 [C2 C3]] H. assert (P := pow_mb). assert (P0 := pow_mb_pos). destruct pow_eb as [k [K0 [K1 K2]]].
  cbv zeta. unfold enc, b_finite. destruct (Z.ltb_spec m (2 ^ mb)) as [L|L].
  - destruct (join_fields neg 0 m) as [F1 [F2 [F3 F4]]]; [lia|lia|].
    unfold b_value. rewrite F2, F3, F4. split; [split; [exact F1|lia]|]. split; [reflexivity|].
    split; [|reflexivity]. cbn [Z.eqb Z.max Z.compare]. unfold B, p2.
    destruct C3 as [C3|C3]; [lia|]. rewrite C3. reflexivity.
  - unfold emn, emx in *.
    destruct (join_fields neg (e - emn + 1) (m - 2 ^ mb)) as [F1 [F2 [F3 F4]]]; unfold emn in *; [lia|lia|].
    unfold b_value. rewrite F2, F3, F4. split; [split; [exact F1|lia]|]. split; [reflexivity|].
    split.
    + replace (e - (1 - b_bias eb - mb) + 1 =? 0) with false by lia.
      replace (2 ^ mb + (m - 2 ^ mb)) with m by lia. unfold B, p2.
      replace (Z.max (e - (1 - b_bias eb - mb) + 1) 1 - b_bias eb - mb) with e by lia. reflexivity.
    + destruct pow_mb_even as [j [_ J]]. rewrite J, Z.even_sub, Z.even_mul. cbn [Z.even orb].
      destruct (Z.even m); reflexivity.
Qed.

Lemma limit_B : b_limit mb eb = B (2 ^ (mb + 2) - 1) (emx - 1). Proof. reflexivity. Qed.
Lemma pow_mb2 : 2 ^ (mb + 2) = 4 * 2 ^ mb. Proof. rewrite Z.pow_add_r by lia. lia. Qed.
Lemma rounds_below_limit x m e : canon m e -> e <= emx -> rounds x m e -> (x < b_limit mb eb)%Q.
Proof.
  intros [C1 _] H [U [UE _]]. rewrite limit_B. assert (P := pow_mb). assert (P2 := pow_mb2).
  destruct (Z.eq_dec m (2 ^ (mb + 1) - 1)) as [E|E].
  - assert (OD : Z.even m = false).
    { rewrite E, P, Z.even_sub, Z.even_mul. reflexivity. }
    assert (K : (x < B (2 * m + 1) (e - 1))%Q).
    { apply Qle_lteq in U. destruct U as [U|U]; [exact U|]. rewrite UE in OD by exact U. discriminate. }
    apply (Qlt_le_trans _ _ _ K). replace (2 ^ (mb + 2) - 1) with (2 * m + 1) by lia. apply B_mono; lia.
  - apply (Qle_lt_trans _ _ _ U). apply (Qlt_le_trans _ (B (2 ^ (mb + 2) - 1) (e - 1))); [apply B_lt; lia|].
    apply B_mono; lia.
Qed.
Lemma rounds_above_limit x m e : canon m e -> emx < e -> rounds x m e -> (b_limit mb eb <= x)%Q.
Proof.
  intros [C1 [C2 C3]] H [_ [_ L]]. assert (P := pow_mb). assert (P2 := pow_mb2). assert (P0 := pow_mb_pos).
  destruct pow_eb as [k [K0 [K1 K2]]].
  assert (EE : emn <= emx) by (unfold emx, emn; lia).
  assert (M : 2 ^ mb <= m) by (destruct C3 as [C3|C3]; lia).
  rewrite limit_B.
  apply (Qle_trans _ (B (2 ^ (mb + 2) - 1) (e - 2))); [apply B_mono; lia|].
  unfold bottom in L. replace (emn <? e) with true in L by lia. rewrite andb_true_r in L.
  destruct (Z.eqb_spec m (2 ^ mb)) as [E|E].
  - apply (Qle_trans _ (B (4 * m - 1) (e - 2))); [apply B_le; lia|exact L].
  - destruct L as [L _]. apply (Qle_trans _ (B (2 * m - 1) (e - 1))); [|exact L].
    apply (B_cmp_le _ _ _ _ (e - 2)); try lia. replace (e - 1 - (e - 2)) with 1 by lia. rewrite Z.sub_diag. lia.
Qed.

(** ** Rounding to the nearest word *)
Lemma abs_sign_le x v : (0 <= x)%Q -> (Qabs (x - Qabs v) <= Qabs (x - v))%Q.
Proof.
  intros H. destruct (Qlt_le_dec v 0) as [L|L].
  - rewrite (Qabs_neg v) by lra. rewrite (Qabs_pos (x - v)) by lra. apply Qabs_Qle_condition. split; lra.
  - rewrite (Qabs_pos v) by lra. apply Qle_refl.
Qed.
Lemma signed_abs neg x v : (Qabs (signed neg x - v) == Qabs (x - signed neg v))%Q.
Proof. destruct neg; cbn [signed]; [|reflexivity]. rewrite <- Qabs_opp. apply Qabs_wd. ring. Qed.
Lemma abs_signed neg x : (0 <= x)%Q -> (Qabs (signed neg x) == x)%Q.
Proof. intros H. destruct neg; cbn [signed]; [rewrite Qabs_opp|]; now apply Qabs_pos. Qed.
Lemma signed_signed neg x : (signed neg (signed neg x) == x)%Q. Proof. destruct neg; cbn [signed]; ring. Qed.
Lemma signed_wd neg x y : (x == y)%Q -> (signed neg x == signed neg y)%Q.
Proof. intros H. destruct neg; cbn [signed]; now rewrite H. Qed.

Lemma nearest_finite neg x m e : (0 <= x)%Q -> canon m e -> e <= emx -> rounds x m e ->
  nearest mb eb neg x (enc neg m e).
Proof.
  intros X C H R. destruct (enc_finite neg m e C H) as [F [N [V E]]].
  assert (BL := rounds_below_limit _ _ _ C H R).
  split; [exact N|]. split; [intros A; exfalso; lra|]. intros _. split; [exact F|].
  intros w' F'. destruct (finite_canon w' F') as [m' [e' [C' [_ [V' E']]]]].
  destruct (rounds_nearest _ _ _ _ _ C C' R) as [N1 N2].
  assert (A : (Qabs (signed neg x - b_value mb eb (enc neg m e)) == Qabs (x - B m e))%Q).
  { rewrite signed_abs. apply Qabs_wd. rewrite (signed_wd _ _ _ V), signed_signed. reflexivity. }
  rewrite A.
  assert (A' : (Qabs (signed neg x - b_value mb eb w') == Qabs (x - signed neg (b_value mb eb w')))%Q) by apply signed_abs.
  rewrite A'. set (v' := signed neg (b_value mb eb w')) in *.
  assert (AV : (Qabs v' == B m' e')%Q).
  { unfold v'. assert (0 <= B m' e')%Q by (apply B_nonneg; apply C').
    destruct neg; cbn [signed]; [rewrite Qabs_opp|]; rewrite V'; now apply abs_signed. }
  assert (S := abs_sign_le x v' X). rewrite AV in S.
  split; [lra|]. intros EQ NE. rewrite E.
  assert (EQ2 : (Qabs (x - B m e) == Qabs (x - B m' e'))%Q) by lra.
  apply N2; [exact EQ2|]. intros BE.
  destruct (Qlt_le_dec v' 0) as [L|L].
  - rewrite (Qabs_neg v') in AV by lra.
    rewrite (Qabs_pos (x - v')) in EQ by lra.
    destruct (Qlt_le_dec x (B m e)) as [Y|Y].
    + rewrite Qabs_neg in EQ by lra.
      assert (M0 : 0 < m). { apply (B_lt 0 m e). rewrite B_0. lra. }
      (* x = 0: the float zero would be nearer *)
      assert (CZ : canon 0 emn). { assert (P0 := pow_mb_pos). assert (P := pow_mb). unfold canon. lia. }
      destruct (rounds_nearest _ _ _ _ _ C CZ R) as [NZ _]. rewrite B_0 in NZ.
      rewrite Qabs_neg in NZ by lra. rewrite Qabs_pos in NZ by lra. lra.
    + rewrite Qabs_pos in EQ by lra. lra.
  - rewrite (Qabs_pos v') in AV by lra. apply NE. rewrite V.
    assert (EV : (B m e == v')%Q) by lra. rewrite (signed_wd neg _ _ EV). unfold v'. apply signed_signed.
Qed.
Lemma nearest_infinite neg x : (b_limit mb eb <= x)%Q -> nearest mb eb neg x (join neg (2 ^ eb - 1) 0).
Proof.
  intros H. assert (P0 := pow_mb_pos). destruct pow_eb as [k [K0 [K1 K2]]].
  destruct (join_fields neg (2 ^ eb - 1) 0) as [F1 [F2 [F3 F4]]]; [lia|lia|].
  split; [exact F2|]. split; [intros _; unfold b_infinite; auto|]. intros A. exfalso. lra.
Qed.

(** ** Rounding from the digits: [g] is the number in units of half the last place *)
Definition settle (m e : Z) : Z * Z := if m =? 2 ^ (mb + 1) then (2 ^ mb, e + 1) else (m, e).
Lemma rounds_settle x m e : emn <= e -> 0 <= m <= 2 ^ (mb + 1) -> (2 ^ mb <= m \/ e = emn) -> 
  (x <= B (2 * m + 1) (e - 1))%Q -> ((x == B (2 * m + 1) (e - 1))%Q -> Z.even m = true) ->
  (B (2 * m - 1) (e - 1) <= x)%Q -> ((x == B (2 * m - 1) (e - 1))%Q -> Z.even m = true) ->
  (m = 2 ^ mb -> emn < e -> (B (4 * m - 1) (e - 2) <= x)%Q) ->
  let '(m', e') := settle m e in canon m' e' /\ rounds x m' e' /\ e <= e' <= e + 1.
Proof.
  intros E M C U UE L LE LB. assert (P := pow_mb). assert (P0 := pow_mb_pos). unfold settle.
  destruct (Z.eqb_spec m (2 ^ (mb + 1))) as [D|D].
  - split; [unfold canon; lia|]. split; [|lia]. unfold rounds, bottom.
    rewrite Z.eqb_refl. replace (emn <? e + 1) with true by lia. cbn [andb].
    replace (e + 1 - 1) with e by lia. replace (e + 1 - 2) with (e - 1) by lia.
    assert (K : (B (2 * m + 1) (e - 1) < B (2 * 2 ^ mb + 1) e)%Q).
    { apply (B_cmp_lt _ _ _ _ (e - 1)); try lia. replace (e - (e - 1)) with 1 by lia. rewrite Z.sub_diag. lia. }
    split; [lra|]. split; [intros A; exfalso; lra|].
    apply (Qle_trans _ (B (2 * m - 1) (e - 1))); [|exact L]. apply B_le. lia.
  - split; [unfold canon; lia|]. split; [|lia]. unfold rounds.
    split; [exact U|]. split; [exact UE|]. unfold bottom.
    destruct (Z.eqb_spec m (2 ^ mb)) as [D2|D2]; [|cbn [andb]; auto].
    destruct (Z.ltb_spec emn e); cbn [andb]; auto.
Qed.
Lemma rounds_half x g e : emn <= e -> 0 <= g < 2 ^ (mb + 2) -> (2 ^ (mb + 1) <= g \/ e = emn) ->
  (B g (e - 1) <= x)%Q -> (x < B (g + 1) (e - 1))%Q ->
  forall up : bool,
  (up = true -> Z.odd g = true) ->
  (Z.odd g = true -> (B g (e - 1) < x)%Q -> up = true) ->
  (Z.odd g = true -> (x == B g (e - 1))%Q -> up = negb (Z.even (g / 2))) ->
  let '(m', e') := settle (g / 2 + if up then 1 else 0) e in canon m' e' /\ rounds x m' e' /\ e <= e' <= e + 1.
Proof.
  intros E G C L U up H1 H2 H3. assert (P := pow_mb). assert (P2 := pow_mb2). assert (P0 := pow_mb_pos).
  assert (D := Z.div_mod g 2). assert (M := Z.mod_pos_bound g 2). rewrite Zmod_odd in D, M.
  set (m := g / 2) in *.
  assert (BD : forall k, (B (2 * k) (e - 1) == B (4 * k) (e - 2))%Q).
  { intros k. rewrite (B_down (2 * k) (e - 1) (e - 2)) by lia. apply B_eq. replace (e - 1 - (e - 2)) with 1 by lia. lia. }
  destruct (Z.odd g) eqn:OD.
  - destruct up.
    + apply rounds_settle; try lia.
      * apply Qlt_le_weak. apply (Qlt_le_trans _ _ _ U). apply B_le. lia.
      * intros A. exfalso. assert (B (g + 1) (e - 1) < B (2 * (m + 1) + 1) (e - 1))%Q by (apply B_lt; lia). lra.
      * apply (Qle_trans _ (B g (e - 1))); [apply B_le; lia|exact L].
      * intros A. assert (A' : (x == B g (e - 1))%Q). { rewrite A. apply B_eq. lia. }
        specialize (H3 eq_refl A'). rewrite Z.even_add. symmetry in H3. apply negb_true_iff in H3. rewrite H3. reflexivity.
    + rewrite Z.add_0_r.
      assert (XE : (x == B g (e - 1))%Q).
      { apply Qle_lteq in L. destruct L as [L|L]; [|now symmetry]. specialize (H2 eq_refl L). discriminate. }
      assert (EV : Z.even m = true). { specialize (H3 eq_refl XE). symmetry in H3. now apply negb_false_iff in H3. }
      apply rounds_settle; try lia.
      * apply Qle_trans with (B g (e - 1)); [lra|]. apply B_le. lia.
      * intros _. exact EV.
      * apply (Qle_trans _ (B g (e - 1))); [apply B_le; lia|exact L].
      * intros _. exact EV.
      * intros A _. apply (Qle_trans _ (B g (e - 1))); [|exact L].
        apply (Qle_trans _ (B (2 * m) (e - 1))); [rewrite BD; apply B_le; lia|apply B_le; lia].
  - destruct up; [specialize (H1 eq_refl); discriminate|]. rewrite Z.add_0_r.
    apply rounds_settle; try lia.
    + apply Qlt_le_weak. apply (Qlt_le_trans _ _ _ U). apply B_le. lia.
    + intros A. exfalso. assert (B (g + 1) (e - 1) <= B (2 * m + 1) (e - 1))%Q by (apply B_le; lia). lra.
    + apply (Qle_trans _ (B g (e - 1))); [apply B_le; lia|exact L].
    + intros A. exfalso. assert (B (2 * m - 1) (e - 1) < B g (e - 1))%Q by (apply B_lt; lia). lra.
    + intros A _. apply (Qle_trans _ (B g (e - 1))); [|exact L].
      apply (Qle_trans _ (B (2 * m) (e - 1))); [rewrite BD; apply B_le; lia|apply B_le; lia].
Qed.
(** the numbers that round to one float are an interval *)
Lemma rounds_convex x y z m e : rounds x m e -> rounds z m e -> (x <= y)%Q -> (y <= z)%Q -> rounds y m e.
Proof.
  intros [_ [_ L]] [U [UE _]] H1 H2. unfold rounds. split; [lra|]. split; [intros A; apply UE; lra|].
  destruct (bottom m e); [lra|]. destruct L as [L LE]. split; [lra|]. intros A. apply LE. lra.
Qed.
Lemma rounds_wd x y m e : (x == y)%Q -> rounds x m e -> rounds y m e.
Proof. intros E H. apply (rounds_convex x y x); auto; lra. Qed.
End Fmt.
