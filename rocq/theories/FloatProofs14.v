(** The arithmetic of the fast path rounds correctly. *)
From Verif Require Import Base BaseLemmas FloatTable FloatModel FloatSpec.
From Verif Require Import FloatProofs1 FloatProofs2 FloatProofs7.
From Coq Require Import Qpower Qfield Lqa Lia.
Open Scope Z_scope.

Definition ratio (n d : Z) : Q := (inject_Z n / inject_Z d)%Q.
Lemma iZ_pos d : 0 < d -> (0 < inject_Z d)%Q. Proof. intros H. change 0%Q with (inject_Z 0). now apply iZ_lt. Qed.
Lemma ratio_scale n d k : 0 < d ->
  let num := if 0 <=? k then n else n * 2 ^ (- k) in let den := if 0 <=? k then d * 2 ^ k else d in
  0 < den /\ (ratio n d * inject_Z den == inject_Z num * p2 k)%Q.
Proof.
  intros D. cbv zeta. assert (DP := iZ_pos d D). destruct (Z.leb_spec 0 k) as [K|K].
  - assert (P : 0 < 2 ^ k) by (apply Z.pow_pos_nonneg; lia). split; [apply Z.mul_pos_pos; lia|].
    unfold ratio. rewrite inject_Z_mult, p2_Z by lia. field. lra.
  - split; [exact D|]. unfold ratio. rewrite inject_Z_mult, <- p2_Z by lia.
    assert (PP : (p2 (- k) * p2 k == 1)%Q) by (rewrite <- p2_add; replace (- k + k) with 0 by lia; reflexivity).
    transitivity (inject_Z n * (p2 (- k) * p2 k))%Q; [rewrite PP; field; lra|ring].
Qed.
Section Cmp.
Variables (n d k num den : Z).
Hypothesis D : 0 < den.
Hypothesis E : (ratio n d * inject_Z den == inject_Z num * p2 k)%Q.
Lemma ratio_le a : a * den <= num <-> (B a k <= ratio n d)%Q.
Proof using D E.
  assert (DP := iZ_pos den D). assert (PP := p2_pos k). unfold B.
  rewrite <- (Qmult_le_r _ _ (inject_Z den) DP), E. transitivity (inject_Z (a * den) * p2 k <= inject_Z num * p2 k)%Q.
  - rewrite (Qmult_le_r _ _ _ PP), iZ_le. reflexivity.
  - rewrite inject_Z_mult. setoid_replace (inject_Z a * inject_Z den * p2 k)%Q with (inject_Z a * p2 k * inject_Z den)%Q by ring. reflexivity.
Qed.
Lemma ratio_lt a : num < a * den <-> (ratio n d < B a k)%Q.
Proof using D E.
  assert (H := ratio_le a). split; intros A.
  - apply Qnot_le_lt. intros C. apply H in C. lia.
  - destruct (Z.lt_ge_cases num (a * den)) as [C|C]; [exact C|]. apply H in C. exfalso. lra.
Qed.
End Cmp.

Lemma log2_bounds n : 0 < n -> (p2 (Z.log2 n) <= inject_Z n)%Q /\ (inject_Z n < p2 (Z.log2 n + 1))%Q.
Proof.
  intros N. assert (L := Z.log2_spec n N). assert (L0 := Z.log2_nonneg n). rewrite !p2_Z by lia. rewrite iZ_le, iZ_lt. unfold Z.succ in L. exact L.
Qed.
Lemma ratio_log n d : 0 < n -> 0 < d -> let l := Z.log2 n - Z.log2 d in (p2 (l - 1) < ratio n d)%Q /\ (ratio n d < p2 (l + 1))%Q.
Proof.
  intros N D. cbv zeta. destruct (log2_bounds n N) as [N1 N2]. destruct (log2_bounds d D) as [D1 D2]. assert (DP := iZ_pos d D).
  assert (RE : (ratio n d * inject_Z d == inject_Z n)%Q) by (unfold ratio; field; lra).
  split.
  - apply (Qmult_lt_r _ _ (inject_Z d)); [exact DP|]. rewrite RE. apply Qlt_le_trans with (2 := N1).
    replace (Z.log2 n) with (Z.log2 n - Z.log2 d - 1 + (Z.log2 d + 1)) at 2 by lia. rewrite (p2_add _ (Z.log2 d + 1)).
    apply Qmult_lt_l; [apply p2_pos|exact D2].
  - apply (Qmult_lt_r _ _ (inject_Z d)); [exact DP|]. rewrite RE. apply Qlt_le_trans with (1 := N2).
    replace (Z.log2 n + 1) with (Z.log2 n - Z.log2 d + 1 + Z.log2 d) at 1 by lia. rewrite (p2_add _ (Z.log2 d)).
    apply Qmult_le_l; [apply p2_pos|exact D1].
Qed.
Lemma B1 k : (B 1 k == p2 k)%Q. Proof. unfold B. change (inject_Z 1) with 1%Q. ring. Qed.

Lemma rne_spec f eb n d : fok f eb -> 0 <= n -> 0 < d ->
  let '(m, e) := rne f n d in canon (f_mb f) eb m e /\ rounds (f_mb f) eb (ratio n d) m e.
Proof.
  intros F N D. destruct (fok_facts f eb F) as [M [EB [EM [I [_ [I2 _]]]]]].
  assert (P0 : 0 < 2 ^ f_mb f) by (apply Z.pow_pos_nonneg; lia). assert (P1 := pow_mb (f_mb f) M).
  unfold rne. destruct (Z.eqb_spec n 0) as [->|N0].
  - split; [unfold canon; lia|]. assert (R0 : (ratio 0 d == 0)%Q) by (unfold ratio; change (inject_Z 0) with 0%Q; unfold Qdiv; ring).
    apply (rounds_wd (f_mb f) eb 0 _ _ _); [now symmetry|].
    unfold rounds, bottom. replace (0 =? 2 ^ f_mb f) with false by lia. cbn [andb].
    change (2 * 0 + 1) with 1. change (2 * 0 - 1) with (-1).
    assert (K : (B (-1) (emin f - 1) < 0)%Q) by (rewrite <- (B_0 (emin f - 1)); apply B_lt; lia).
    assert (K2 : (0 < B 1 (emin f - 1))%Q) by (rewrite <- (B_0 (emin f - 1)); apply B_lt; lia).
    split; [lra|]. split; [reflexivity|]. split; [lra|]. reflexivity.
  - assert (NP : 0 < n) by lia. set (l := Z.log2 n - Z.log2 d). destruct (ratio_log n d NP D) as [RL RU]. fold l in RL, RU.
    set (below := if 0 <=? l then n <? d * 2 ^ l else n * 2 ^ (- l) <? d).
    assert (BE : below = true <-> (ratio n d < p2 l)%Q).
    { destruct (ratio_scale n d l D) as [DP RE]. rewrite <- (B1 l). rewrite <- (ratio_lt n d l _ _ DP RE 1). rewrite Z.mul_1_l. unfold below.
      destruct (0 <=? l); apply Z.ltb_lt. }
    set (l' := if below then l - 1 else l).
    assert (LR : (p2 l' <= ratio n d)%Q /\ (ratio n d < p2 (l' + 1))%Q).
    { unfold l'. destruct below.
      - replace (l - 1 + 1) with l by lia. split; [lra|now apply BE].
      - split; [|exact RU]. apply Qnot_lt_le. intros C. apply BE in C. discriminate. }
    clearbody l'. clear below BE RL RU. destruct LR as [RL RU].
    set (e := Z.max (emin f) (l' - f_mb f)).
    destruct (ratio_scale n d (e - 1) D) as [DP RE]. cbv zeta.
    set (num := if 0 <=? e - 1 then n else n * 2 ^ (1 - e)).
    replace (- (e - 1)) with (1 - e) in RE by lia. fold num in RE.
    set (den := if 0 <=? e - 1 then d * 2 ^ (e - 1) else d) in *.
    assert (CL := ratio_le n d (e - 1) num den DP RE). assert (CU := ratio_lt n d (e - 1) num den DP RE).
    set (g := num / den). assert (DM := Z.div_mod num den ltac:(lia)). assert (RM := Z.mod_pos_bound num den DP). fold g in DM.
    assert (L : (B g (e - 1) <= ratio n d)%Q) by (apply CL; lia).
    assert (U : (ratio n d < B (g + 1) (e - 1))%Q) by (apply CU; lia).
    assert (G0 : 0 <= g).
    { assert (NN : 0 <= num) by (unfold num; destruct (0 <=? e - 1); [lia|apply Z.mul_nonneg_nonneg; [lia|apply Z.pow_nonneg; lia]]).
      apply Z.div_pos; lia. }
    assert (GU : g < 2 ^ (f_mb f + 2)).
    { apply (B_lt _ _ (e - 1)). apply Qle_lt_trans with (1 := L). apply Qlt_le_trans with (1 := RU).
      apply Qle_trans with (B 1 (e + f_mb f + 1)); [rewrite <- B1; apply B_mono; unfold e; lia|].
      apply (B_cmp_le _ _ _ _ (e - 1)); [lia|lia|]. rewrite Z.sub_diag, Z.mul_1_l, Z.mul_1_r. apply Z.pow_le_mono_r; lia. }
    assert (GL : 2 ^ (f_mb f + 1) <= g \/ e = emn (f_mb f) eb).
    { destruct (Z.eq_dec e (emn (f_mb f) eb)) as [C|C]; [now right|left]. rewrite <- EM in C.
      assert (B (2 ^ (f_mb f + 1)) (e - 1) <= ratio n d)%Q.
      { apply Qle_trans with (2 := RL). rewrite <- B1. apply (B_cmp_le _ _ _ _ (e - 1)); [lia|unfold e in *; lia|].
        rewrite Z.sub_diag, Z.mul_1_l, Z.mul_1_r. apply Z.pow_le_mono_r; [lia|]. unfold e in *; lia. }
      assert (B (2 ^ (f_mb f + 1)) (e - 1) < B (g + 1) (e - 1))%Q by lra. apply B_lt in H0. lia. }
    set (up := Z.odd g && (negb (num mod den =? 0) || (g mod 4 =? 3))).
    assert (RH := rounds_half (f_mb f) eb M (ratio n d) g e).
    specialize (RH ltac:(unfold e; lia) ltac:(lia) GL L U up).
    assert (MG : (g + if up then 1 else 0) / 2 = g / 2 + if up then 1 else 0).
    { unfold up. destruct (Z.odd g) eqn:O; [|cbn [andb]; now rewrite !Z.add_0_r]. rewrite andb_true_l. destruct (_ || _); [|now rewrite !Z.add_0_r].
      assert (D2 := Z.div_mod g 2 ltac:(lia)). rewrite Zmod_odd, O in D2. symmetry. apply Z.div_unique with 0; lia. }
    rewrite MG. unfold settle in RH.
    assert (RH' : forall r : Z * Z, (let '(m', e') := r in canon (f_mb f) eb m' e' /\ rounds (f_mb f) eb (ratio n d) m' e' /\ e <= e' <= e + 1) ->
      let '(m', e') := r in canon (f_mb f) eb m' e' /\ rounds (f_mb f) eb (ratio n d) m' e') by (intros [m' e']; tauto).
    apply RH'. apply RH.
    + unfold up. intros H. apply andb_true_iff in H. apply H.
    + intros O LT. unfold up. rewrite O. cbn [andb]. destruct (Z.eqb_spec (num mod den) 0) as [C|C]; [|reflexivity].
      exfalso. assert (num < g * den + 1) by lia. assert (RR : (ratio n d <= B g (e - 1))%Q).
      { apply Qnot_lt_le. intros K. apply Qlt_not_le in K. apply K. assert (X : (ratio n d * inject_Z den == inject_Z (g * den) * p2 (e - 1))%Q).
        { rewrite RE. replace num with (g * den) by lia. reflexivity. }
        rewrite inject_Z_mult in X. assert (DQ := iZ_pos den DP). apply (Qmult_le_r _ _ (inject_Z den) DQ). rewrite X. unfold B.
        setoid_replace (inject_Z g * inject_Z den * p2 (e - 1))%Q with (inject_Z g * p2 (e - 1) * inject_Z den)%Q by ring. apply Qle_refl. }
      lra.
    + intros O EQ. unfold up. rewrite O. cbn [andb].
      assert (Z0 : num mod den = 0).
      { assert (num <= g * den); [|lia]. destruct (Z.le_gt_cases num (g * den)) as [C|C]; [exact C|exfalso].
        assert (X : (inject_Z (g * den) * p2 (e - 1) == inject_Z num * p2 (e - 1))%Q).
        { rewrite <- RE, EQ, inject_Z_mult. unfold B. ring. }
        apply Qmult_inj_r in X; [|assert (PP := p2_pos (e - 1)); lra]. rewrite iZ_eq in X. lia. }
      rewrite Z0. cbn [Z.eqb negb orb].
      assert (D2 := Z.div_mod g 2 ltac:(lia)). rewrite Zmod_odd, O in D2. set (h := g / 2) in *.
      assert (D3 := Z.div_mod h 2 ltac:(lia)). rewrite Zmod_even in D3.
      destruct (Z.even h) eqn:EV; cbn [negb].
      * apply Z.eqb_neq. replace (g mod 4) with 1; [lia|]. apply Z.mod_unique with (h / 2); lia.
      * apply Z.eqb_eq. symmetry. apply Z.mod_unique with (h / 2); lia.
Qed.

(** ** The results as words *)
Definition fam (f : fmt) (m e : Z) : am :=
  if too_big f e then AM 0 (f_inf f) else if m <? 2 ^ f_mb f then AM m 0 else AM (m - 2 ^ f_mb f) (e - emin f + 1).
Lemma fam_good f eb x m e : fok f eb -> canon (f_mb f) eb m e -> rounds (f_mb f) eb x m e -> good f eb x (fam f m e).
Proof.
  intros F C R. destruct (fok_facts f eb F) as [M [EB [EM [I [_ [I2 _]]]]]]. unfold fam, too_big.
  destruct (Z.leb_spec (f_inf f) (e - emin f + 1)) as [L|L].
  - left. split; [reflexivity|]. apply (rounds_above_limit _ _ M EB x m e C); [lia|exact R].
  - right. exists m, e. split; [exact C|]. split; [lia|]. split; [exact R|]. unfold repr.
    destruct (Z.ltb_spec m (2 ^ f_mb f)); [left|right; right]; split; auto; lia.
Qed.
Lemma fround_good f eb (neg : bool) n d : fok f eb -> 0 <= n -> 0 < d -> exists a, good f eb (ratio n d) a /\
  encode f (if neg then fneg (fround f false n d) else fround f false n d) = to_float f neg a.
Proof.
  intros F N D. assert (R := rne_spec f eb n d F N D). unfold fround. destruct (rne f n d) as [m e]. destruct R as [C R].
  exists (fam f m e). split; [now apply fam_good|]. unfold fam. destruct (too_big f e).
  - destruct neg; reflexivity.
  - destruct neg; cbn [fneg negb encode]; destruct (m <? 2 ^ f_mb f); reflexivity.
Qed.

(** ** Exact numbers *)
Lemma canon_exists f eb a t : fok f eb -> 0 < a <= 2 ^ (f_mb f + 1) -> 0 <= t -> exists m e, canon (f_mb f) eb m e /\ (B m e == B a t)%Q.
Proof.
  intros F A T. destruct (fok_facts f eb F) as [M [EB [EM [I [_ [I2 _]]]]]]. assert (P1 := pow_mb (f_mb f) M).
  assert (P0 : 0 < 2 ^ f_mb f) by (apply Z.pow_pos_nonneg; lia).
  assert (EN : emn (f_mb f) eb <= - f_mb f) by (rewrite <- EM; destruct F as [[-> _]|[-> _]]; cbn; lia).
  destruct (Z.eq_dec a (2 ^ (f_mb f + 1))) as [->|A1].
  - exists (2 ^ f_mb f), (t + 1). split; [unfold canon; lia|]. rewrite B_shift by lia. rewrite P1. apply B_eq. change (2 ^ 1) with 2. lia.
  - assert (L := Z.log2_spec a ltac:(lia)). assert (L0 := Z.log2_nonneg a).
    assert (LM : Z.log2 a <= f_mb f) by (assert (Z.log2 a < f_mb f + 1) by (apply Z.log2_lt_pow2; lia); lia).
    set (k := f_mb f - Z.log2 a). assert (PK : 0 < 2 ^ k) by (apply Z.pow_pos_nonneg; lia).
    assert (E1 : 2 ^ Z.log2 a * 2 ^ k = 2 ^ f_mb f) by (unfold k; rewrite <- Z.pow_add_r by lia; f_equal; lia).
    rewrite Z.pow_succ_r in L by lia.
    assert (X1 : 2 ^ Z.log2 a * 2 ^ k <= a * 2 ^ k) by (apply Z.mul_le_mono_nonneg_r; lia).
    assert (X2 : a * 2 ^ k < 2 * 2 ^ Z.log2 a * 2 ^ k) by (apply Z.mul_lt_mono_pos_r; lia).
    exists (a * 2 ^ k), (t - k). split.
    + unfold canon. rewrite P1. split; [lia|]. split; [unfold k; lia|]. left. lia.
    + rewrite <- B_shift by (unfold k; lia). replace (t - k + k) with t by lia. reflexivity.
Qed.
Lemma rounds_exact mb eb x m e m0 e0 : 1 <= mb -> canon mb eb m e -> rounds mb eb x m e -> canon mb eb m0 e0 -> (B m0 e0 == x)%Q -> (B m e == x)%Q.
Proof.
  intros M C R C0 E. destruct (rounds_nearest mb eb M x m e m0 e0 C C0 R) as [H _].
  assert (Z0 : (Qabs (x - B m0 e0) == 0)%Q) by (setoid_replace (x - B m0 e0)%Q with 0%Q by (rewrite E; ring); reflexivity).
  rewrite Z0 in H. assert (A := Qabs_Qle_condition (x - B m e) 0). apply A in H. lra.
Qed.
Lemma ratio_1 n : (ratio n 1 == inject_Z n)%Q. Proof. unfold ratio. change (inject_Z 1) with 1%Q. field. Qed.
Lemma of_int_exact f eb n a t : fok f eb -> n = a * 2 ^ t -> 0 <= t -> 0 <= a <= 2 ^ (f_mb f + 1) -> (inject_Z n < b_limit (f_mb f) eb)%Q ->
  exists m e, of_int f n = Fin false m e /\ 0 <= m /\ (B m e == inject_Z n)%Q.
Proof.
  intros F E T A LIM. destruct (fok_facts f eb F) as [M [EB [EM [I [_ [I2 _]]]]]].
  assert (PT : 0 < 2 ^ t) by (apply Z.pow_pos_nonneg; lia).
  assert (N : 0 <= n) by (rewrite E; apply Z.mul_nonneg_nonneg; lia).
  unfold of_int, fround. destruct (Z.eq_dec a 0) as [->|A0].
  - replace n with 0 by lia. unfold rne. cbn [Z.eqb]. unfold too_big.
    replace (f_inf f <=? emin f - emin f + 1) with false by (symmetry; apply Z.leb_gt; destruct F as [[-> _]|[-> _]]; cbn; lia).
    exists 0, (emin f). split; [reflexivity|]. split; [lia|]. rewrite B_0. reflexivity.
  - assert (R := rne_spec f eb n 1 F N ltac:(lia)). destruct (rne f n 1) as [m e]. destruct R as [C R].
    apply (rounds_wd _ _ _ (inject_Z n)) in R; [|apply ratio_1].
    destruct (canon_exists f eb a t F ltac:(lia) T) as [m0 [e0 [C0 E0]]].
    assert (BN : (B a t == inject_Z n)%Q) by (unfold B; rewrite p2_Z, <- inject_Z_mult, <- E by lia; reflexivity).
    assert (EX := rounds_exact _ _ _ m e m0 e0 M C R C0 ltac:(rewrite E0; exact BN)).
    unfold too_big. destruct (Z.leb_spec (f_inf f) (e - emin f + 1)) as [L|L].
    + exfalso. assert (X := rounds_above_limit _ _ M EB _ m e C ltac:(lia) R). lra.
    + exists m, e. split; [reflexivity|]. split; [apply C|exact EX].
Qed.
Lemma frac_ratio m e : let '(n, d) := frac m e in 0 < d /\ (ratio n d == B m e)%Q /\ (0 <= m -> 0 <= n) /\ (0 < m -> 0 < n).
Proof.
  unfold frac. destruct (Z.leb_spec 0 e) as [C|C].
  - assert (P : 0 < 2 ^ e) by (apply Z.pow_pos_nonneg; lia). split; [lia|]. rewrite ratio_1. unfold B. rewrite p2_Z, <- inject_Z_mult by lia. split; [reflexivity|].
    split; intros; [apply Z.mul_nonneg_nonneg; lia|apply Z.mul_pos_pos; lia].
  - assert (P : 0 < 2 ^ (- e)) by (apply Z.pow_pos_nonneg; lia). split; [exact P|]. split; [|tauto]. unfold ratio, B. rewrite <- p2_Z by lia.
    assert (PP : (p2 (- e) * p2 e == 1)%Q) by (rewrite <- p2_add; replace (- e + e) with 0 by lia; reflexivity).
    assert (PQ := p2_pos (- e)). apply (Qmult_inj_r _ _ (p2 (- e))); [lra|]. rewrite <- Qmult_assoc, (Qmult_comm (p2 e)), PP. field. lra.
Qed.
Lemma ratio_mul n1 d1 n2 d2 : 0 < d1 -> 0 < d2 -> (ratio (n1 * n2) (d1 * d2) == ratio n1 d1 * ratio n2 d2)%Q.
Proof. intros A C. apply iZ_pos in A, C. unfold ratio. rewrite !inject_Z_mult. field. lra. Qed.
Lemma ratio_div n1 d1 n2 d2 : 0 < d1 -> 0 < d2 -> 0 < n2 -> (ratio (n1 * d2) (d1 * n2) == ratio n1 d1 / ratio n2 d2)%Q.
Proof. intros A C N. apply iZ_pos in A, C, N. unfold ratio. rewrite !inject_Z_mult. field. lra. Qed.

(** ** Clinger's fast path *)
Lemma fp_limit f eb n : fok f eb -> n <= 2 ^ (f_mb f + 1) * 10 ^ f_fpmax f -> (inject_Z n < b_limit (f_mb f) eb)%Q.
Proof.
  intros F H. apply iZ_le in H. apply Qle_lt_trans with (1 := H). destruct F as [[-> ->]|[-> ->]]; vm_compute; reflexivity.
Qed.
Lemma fp_range f eb : fok f eb -> 0 <= f_fpmax f /\ f_fpmin f = - f_fpmax f /\ 5 ^ f_fpmax f <= 2 ^ (f_mb f + 1) /\ 2 ^ f_fpmax f <= 2 ^ (f_mb f + 1).
Proof. intros [[-> _]|[-> _]]; vm_compute; repeat split; discriminate. Qed.
Lemma ten_split k : 0 <= k -> 10 ^ k = 5 ^ k * 2 ^ k. Proof. intros K. change 10 with (5 * 2). now rewrite Z.pow_mul_l. Qed.
Lemma pow10_exact f eb k : fok f eb -> 0 <= k <= f_fpmax f -> exists m e, of_int f (10 ^ k) = Fin false m e /\ 0 <= m /\ (B m e == inject_Z (10 ^ k))%Q.
Proof.
  intros F K. destruct (fp_range f eb F) as [R0 [_ [R5 _]]].
  assert (P5 : 0 < 5 ^ k <= 5 ^ f_fpmax f) by (split; [apply Z.pow_pos_nonneg; lia|apply Z.pow_le_mono_r; lia]).
  assert (P10 : 0 < 10 ^ k <= 10 ^ f_fpmax f) by (split; [apply Z.pow_pos_nonneg; lia|apply Z.pow_le_mono_r; lia]).
  apply (of_int_exact f eb _ (5 ^ k) k F); [apply ten_split; lia|lia|lia|]. apply (fp_limit f eb _ F).
  assert (1 * 10 ^ f_fpmax f <= 2 ^ (f_mb f + 1) * 10 ^ f_fpmax f) by (apply Z.mul_le_mono_nonneg_r; lia). lia.
Qed.
Lemma int_exact f eb i : fok f eb -> 0 <= i <= 2 ^ (f_mb f + 1) -> exists m e, of_int f i = Fin false m e /\ 0 <= m /\ (B m e == inject_Z i)%Q.
Proof.
  intros F K. destruct (fp_range f eb F) as [R0 _].
  apply (of_int_exact f eb _ i 0 F); [cbn; lia|lia|lia|]. apply (fp_limit f eb _ F).
  assert (P : 0 < 10 ^ f_fpmax f) by (apply Z.pow_pos_nonneg; lia).
  assert (2 ^ (f_mb f + 1) * 1 <= 2 ^ (f_mb f + 1) * 10 ^ f_fpmax f) by (apply Z.mul_le_mono_nonneg_l; lia). lia.
Qed.
Lemma decimal_pos i q : 0 <= q -> (decimal i q == inject_Z i * inject_Z (10 ^ q))%Q.
Proof. intros Q. unfold decimal. rewrite Zpower_Qpower by exact Q. reflexivity. Qed.
Lemma decimal_neg i q : q < 0 -> (decimal i q == inject_Z i / inject_Z (10 ^ (- q)))%Q.
Proof.
  intros Q. unfold decimal. rewrite Zpower_Qpower by lia. replace q with (- (- q)) at 1 by lia. rewrite Qpower_opp. reflexivity.
Qed.
Lemma mul_good f eb (neg : bool) i q : fok f eb -> 0 <= i <= 2 ^ (f_mb f + 1) -> 0 <= q <= f_fpmax f -> 
  exists a, good f eb (decimal i q) a /\
  let x := fmul f (of_int f i) (of_int f (10 ^ q)) in encode f (if neg then fneg x else x) = to_float f neg a.
Proof.
  intros F I Q. cbv zeta. destruct (int_exact f eb i F I) as [m1 [e1 [-> [M1 E1]]]]. destruct (pow10_exact f eb q F Q) as [m2 [e2 [-> [M2 E2]]]].
  cbn [fmul xorb]. assert (R1 := frac_ratio m1 e1). assert (R2 := frac_ratio m2 e2).
  destruct (frac m1 e1) as [n1 d1]. destruct (frac m2 e2) as [n2 d2]. destruct R1 as [D1 [R1 [P1 _]]]. destruct R2 as [D2 [R2 [P2 _]]].
  destruct (fround_good f eb neg (n1 * n2) (d1 * d2) F) as [a [G W]]; [apply Z.mul_nonneg_nonneg; auto|apply Z.mul_pos_pos; auto|].
  exists a. split; [|exact W]. apply (good_wd f eb _ _ a F) with (2 := G). rewrite ratio_mul, R1, R2, E1, E2 by assumption. symmetry. apply decimal_pos. lia.
Qed.
Lemma div_good f eb (neg : bool) i q : fok f eb -> 0 <= i <= 2 ^ (f_mb f + 1) -> - f_fpmax f <= q < 0 -> 
  exists a, good f eb (decimal i q) a /\
  let x := fdiv f (of_int f i) (of_int f (10 ^ (- q))) in encode f (if neg then fneg x else x) = to_float f neg a.
Proof.
  intros F I Q. cbv zeta. destruct (int_exact f eb i F I) as [m1 [e1 [-> [M1 E1]]]]. destruct (pow10_exact f eb (- q) F ltac:(lia)) as [m2 [e2 [-> [M2 E2]]]].
  assert (T : 0 < 10 ^ (- q)) by (apply Z.pow_pos_nonneg; lia).
  assert (M2P : 0 < m2).
  { destruct (Z.eq_dec m2 0) as [->|N]; [exfalso|lia]. rewrite B_0 in E2. apply iZ_pos in T. lra. }
  cbn [fdiv xorb]. replace (m2 =? 0) with false by lia. assert (R1 := frac_ratio m1 e1). assert (R2 := frac_ratio m2 e2).
  destruct (frac m1 e1) as [n1 d1]. destruct (frac m2 e2) as [n2 d2]. destruct R1 as [D1 [R1 [P1 _]]]. destruct R2 as [D2 [R2 [_ P2]]].
  destruct (fround_good f eb neg (n1 * d2) (d1 * n2) F) as [a [G W]]; [apply Z.mul_nonneg_nonneg; auto; lia|apply Z.mul_pos_pos; auto|].
  exists a. split; [|exact W]. apply (good_wd f eb _ _ a F) with (2 := G). rewrite ratio_div, R1, R2, E1, E2 by auto. symmetry. apply decimal_neg. lia.
Qed.
Lemma exact_int m e i k : (B m e == inject_Z i)%Q -> k <= e -> k <= 0 -> (m * 2 ^ (e - k) =? i * 2 ^ (- k)) = true.
Proof.
  intros E K K0. apply Z.eqb_eq. apply (B_eq _ _ k). rewrite <- (B_down m e k K), E.
  rewrite <- (B_shift i k (- k)) by lia. replace (k + - k) with 0 by lia. unfold B. rewrite p2_Z by lia. change (inject_Z (2 ^ 0)) with 1%Q. ring.
Qed.
Lemma exact_good f eb (neg : bool) i q : fok f eb -> 0 <= i <= max_mantissa f q -> 0 <= q <= f_fpmax f -> 
  i <= 2 ^ (f_mb f + 1) /\ exists x a, exact_product f i (10 ^ q) = Some x /\ good f eb (decimal i q) a /\ encode f (if neg then fneg x else x) = to_float f neg a.
Proof.
  intros F I Q. destruct (fp_range f eb F) as [R0 _]. assert (P5 : 0 < 5 ^ q) by (apply Z.pow_pos_nonneg; lia).
  assert (P2 : 0 < 2 ^ q) by (apply Z.pow_pos_nonneg; lia). assert (P10 : 0 < 10 ^ q) by (apply Z.pow_pos_nonneg; lia).
  assert (I5 : i * 5 ^ q <= 2 ^ (f_mb f + 1)).
  { unfold max_mantissa in I. set (top := if f_mb f =? 52 then 52 else 24) in I.
    assert (TT : 2 ^ top <= 2 ^ (f_mb f + 1)) by (unfold top; destruct F as [[-> _]|[-> _]]; vm_compute; discriminate).
    assert (X := Z.mul_div_le (2 ^ top) (5 ^ q) P5). assert (i * 5 ^ q <= 2 ^ top / 5 ^ q * 5 ^ q) by (apply Z.mul_le_mono_nonneg_r; lia). lia. }
  assert (IB : i <= 2 ^ (f_mb f + 1)) by (assert (i * 1 <= i * 5 ^ q) by (apply Z.mul_le_mono_nonneg_l; lia); lia).
  split; [exact IB|].
  destruct (int_exact f eb i F ltac:(lia)) as [m1 [e1 [O1 [M1 E1]]]]. destruct (pow10_exact f eb q F Q) as [m2 [e2 [O2 [M2 E2]]]].
  assert (LIM : (inject_Z (i * 10 ^ q) < b_limit (f_mb f) eb)%Q).
  { apply (fp_limit f eb _ F). apply Z.mul_le_mono_nonneg; [lia|lia|lia|apply Z.pow_le_mono_r; lia]. }
  destruct (of_int_exact f eb (i * 10 ^ q) (i * 5 ^ q) q F) as [m [e [O [M E]]]]; [rewrite ten_split by lia; ring|lia| |exact LIM|].
  { split; [apply Z.mul_nonneg_nonneg; lia|exact I5]. }
  unfold exact_product. rewrite O1, O2, O. set (k := Z.min 0 (Z.min e1 (Z.min e2 e))).
  rewrite (exact_int m1 e1 i k E1), (exact_int m2 e2 _ k E2), (exact_int m e _ k E) by (unfold k; lia). cbn [andb].
  destruct (fround_good f eb neg (i * 10 ^ q) 1 F) as [a [G W]]; [apply Z.mul_nonneg_nonneg; lia|lia|].
  fold (of_int f (i * 10 ^ q)) in W. rewrite O in W.
  exists (Fin false m e), a. split; [reflexivity|]. split; [|exact W]. apply (good_wd f eb _ _ a F) with (2 := G).
  rewrite ratio_1, inject_Z_mult. symmetry. apply decimal_pos. lia.
Qed.
Lemma fast_path_good rn f eb n : fok f eb -> 0 <= p_mantissa n -> fast_path rn f n = Ok None \/
  exists x a, fast_path rn f n = Ok (Some x) /\ p_many n = false /\ - f_fpmax f <= p_exponent n <= f_fpmax f /\ p_mantissa n <= 2 ^ (f_mb f + 1) /\
  good f eb (decimal (p_mantissa n) (p_exponent n)) a /\ encode f (if p_negative n then fneg x else x) = to_float f (p_negative n) a.
Proof.
  intros F I. destruct (fp_range f eb F) as [R0 [R1 _]]. destruct (fok_facts f eb F) as [M _]. assert (PM := pow_mb (f_mb f) M).
  unfold fast_path. cbv zeta.
  set (i := p_mantissa n) in *. set (q := p_exponent n).
  destruct ((f_fpmin f <=? q) && (q <=? f_fpmax f) && negb (p_many n)) eqn:G; [|now left].
  apply andb_true_iff in G. destruct G as [G G3]. apply andb_true_iff in G. destruct G as [G1 G2]. apply Z.leb_le in G1, G2. apply negb_true_iff in G3.
  destruct rn.
  - destruct (Z.leb_spec i (2 * 2 ^ f_mb f)) as [C|C]; [|now left]. right. destruct (Z.ltb_spec q 0) as [S|S].
    + destruct (div_good f eb (p_negative n) i q F ltac:(lia) ltac:(lia)) as [a [A W]]. eexists; exists a. split; [reflexivity|]. split; [exact G3|]. split; [lia|]. split; [lia|]. split; [exact A|exact W].
    + destruct (mul_good f eb (p_negative n) i q F ltac:(lia) ltac:(lia)) as [a [A W]]. eexists; exists a. split; [reflexivity|]. split; [exact G3|]. split; [lia|]. split; [lia|]. split; [exact A|exact W].
  - destruct (0 <=? q) eqn:S; [|now left]. cbn [andb]. destruct (Z.leb_spec i (max_mantissa f q)) as [C|C]; [|now left]. right. apply Z.leb_le in S.
    destruct (exact_good f eb (p_negative n) i q F ltac:(lia) ltac:(lia)) as [IB [x [a [E [A W]]]]]. rewrite E. exists x, a.
    split; [reflexivity|]. split; [exact G3|]. split; [lia|]. split; [exact IB|]. split; [exact A|exact W].
Qed.
