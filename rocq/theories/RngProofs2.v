(** The linear congruential part of pcg has full period; its output is a rotation. *)
From Verif Require Import Base BaseLemmas SubstrModel MemUtilModel MemUtilProofs HashModel HashSpec HashProofs RngModel RngSpec RngProofs.

(** 1 + a + ... + a^(n-1) *)
Fixpoint geo (a : Z) (n : nat) : Z := match n with O => 0 | S n => a * geo a n + 1 end.
Lemma geo_pow a n : (a - 1) * geo a n = a ^ Z.of_nat n - 1.
Proof.
  induction n as [|n IH]; [cbn [geo]; change (Z.of_nat 0) with 0; rewrite Z.pow_0_r; ring|]. rewrite Nat2Z.inj_succ, Z.pow_succ_r by lia. cbn [geo].
  replace ((a - 1) * (a * geo a n + 1)) with (a * ((a - 1) * geo a n) + (a - 1)) by ring. rewrite IH. ring.
Qed.
Lemma geo_add a m n : geo a (m + n) = geo a m + a ^ Z.of_nat m * geo a n.
Proof.
  induction m as [|m IH].
  - cbn [Nat.add geo]. change (Z.of_nat 0) with 0. rewrite Z.pow_0_r. ring.
  - cbn [Nat.add geo]. rewrite IH, Nat2Z.inj_succ, Z.pow_succ_r by lia. ring.
Qed.
Lemma pow_mod4 a n : a mod 4 = 1 -> (a ^ Z.of_nat n) mod 4 = 1.
Proof.
  intros A. induction n as [|n IH]; [reflexivity|]. rewrite Nat2Z.inj_succ, Z.pow_succ_r by lia.
  rewrite Z.mul_mod, A, IH by lia. reflexivity.
Qed.
Lemma odd_mod2 z : Z.odd z = true <-> z mod 2 = 1.
Proof. rewrite Zmod_odd. destruct (Z.odd z); split; intros; try congruence; discriminate. Qed.
Lemma geo_parity a n : a mod 4 = 1 -> Z.odd (geo a n) = Z.odd (Z.of_nat n).
Proof.
  intros A. assert (Z.odd a = true) as O.
  { apply odd_mod2. rewrite (Z.div_mod a 4) by lia. rewrite A. replace (4 * (a / 4) + 1) with (1 + (2 * (a / 4)) * 2) by ring. rewrite Z.mod_add by lia. reflexivity. }
  induction n as [|n IH]; [reflexivity|]. cbn [geo]. rewrite Z.odd_add, Z.odd_mul, O, IH, Nat2Z.inj_succ, Z.odd_succ.
  rewrite <- Z.negb_odd. cbn. destruct (Z.odd (Z.of_nat n)); reflexivity.
Qed.
Lemma geo_val a : a mod 4 = 1 -> forall p : positive, exists k q r, 0 <= k /\ Z.odd q = true /\ Z.odd r = true /\
  Z.pos p = 2 ^ k * q /\ geo a (Pos.to_nat p) = 2 ^ k * r.
Proof.
  intros A. induction p as [p _|p IH|].
  - exists 0, (Z.pos p~1), (geo a (Pos.to_nat p~1)). split; [lia|]. split; [reflexivity|]. split.
    { rewrite geo_parity by auto. rewrite positive_nat_Z. reflexivity. }
    rewrite Z.pow_0_r. split; ring.
  - destruct IH as [k [q [r [K [Q [R [E1 E2]]]]]]].
    assert (exists h, 1 + a ^ Z.of_nat (Pos.to_nat p) = 2 * h /\ Z.odd h = true) as [h [H1 H2]].
    { pose proof (pow_mod4 a (Pos.to_nat p) A) as X. set (y := a ^ Z.of_nat (Pos.to_nat p)) in *.
      exists (1 + 2 * (y / 4)). split; [rewrite (Z.div_mod y 4) at 1 by lia; lia|].
      apply odd_mod2. rewrite (Z.mul_comm 2), Z.mod_add by lia. reflexivity. }
    exists (k + 1), q, (r * h). split; [lia|]. split; [exact Q|]. split; [rewrite Z.odd_mul, R, H2; reflexivity|].
    rewrite Z.pow_add_r by lia. change (2 ^ 1) with 2. split; [lia|].
    rewrite Pos2Nat.inj_xO. replace (2 * Pos.to_nat p)%nat with (Pos.to_nat p + Pos.to_nat p)%nat by lia.
    rewrite geo_add. replace (geo a (Pos.to_nat p) + a ^ Z.of_nat (Pos.to_nat p) * geo a (Pos.to_nat p))
      with ((1 + a ^ Z.of_nat (Pos.to_nat p)) * geo a (Pos.to_nat p)) by ring. rewrite H1, E2. ring.
  - exists 0, 1, 1. repeat split; try lia; try reflexivity. change (Pos.to_nat 1) with 1%nat. cbn [geo]. change (2 ^ 0) with 1. ring.
Qed.
(** an odd factor does not help a power of two *)
Lemma pow2_odd_divide n k r : 0 <= n -> 0 <= k -> Z.odd r = true -> (2 ^ n | 2 ^ k * r) -> n <= k.
Proof.
  intros N K R D. destruct (Z.le_gt_cases n k) as [|G]; [auto|]. exfalso. destruct D as [z D].
  replace n with ((n - k - 1) + 1 + k) in D by lia. rewrite !Z.pow_add_r in D by lia. change (2 ^ 1) with 2 in D.
  assert (2 ^ k <> 0) by (apply Z.pow_nonzero; lia).
  assert (r = 2 * (z * 2 ^ (n - k - 1))) as E. { apply Z.mul_cancel_l with (2 ^ k); [auto|]. rewrite D. ring. }
  rewrite E, Z.odd_mul in R. discriminate R.
Qed.
Section lcg.
  Context (a c : Z) (A : a mod 4 = 1).
  Definition lcg (s : Z) : Z := u64 (s * a + c).
  Lemma lcg_calls n s : state64 s -> calls lcg n s = (s + geo a n * ((a - 1) * s + c)) mod 2 ^ 64.
  Proof.
    intros H. induction n as [|n IH].
    - cbn [geo]. rewrite Z.mul_0_l, Z.add_0_r, Z.mod_small by apply H. reflexivity.
    - rewrite calls_S, IH. unfold lcg. rewrite u64_mod. rewrite <- Zplus_mod_idemp_l, Zmult_mod_idemp_l, Zplus_mod_idemp_l. f_equal. cbn [geo]. ring.
  Qed.
  Lemma lcg_return n s : Z.odd c = true -> state64 s -> calls lcg n s = s <-> (2 ^ 64 | Z.of_nat n).
  Proof.
    intros C H. rewrite lcg_calls by auto.
    assert (Z.odd ((a - 1) * s + c) = true) as O.
    { rewrite Z.odd_add, Z.odd_mul, Z.odd_sub, C. assert (Z.odd a = true) as OA.
      { apply odd_mod2. rewrite (Z.div_mod a 4) by lia. rewrite A. replace (4 * (a / 4) + 1) with (1 + (2 * (a / 4)) * 2) by ring. rewrite Z.mod_add by lia. reflexivity. }
      rewrite OA. reflexivity. }
    set (b := (a - 1) * s + c) in *.
    destruct n as [|n'].
    { cbn [geo]. rewrite Z.mul_0_l, Z.add_0_r, Z.mod_small by apply H. split; [intros; apply Z.divide_0_r|reflexivity]. }
    destruct (geo_val a A (Pos.of_succ_nat n')) as [k [q [r [K [Q [R [E1 E2]]]]]]].
    rewrite SuccNat2Pos.id_succ in E2. rewrite E2. change (Z.of_nat (S n')) with (Z.pos (Pos.of_succ_nat n')). rewrite E1.
    split.
    - intros E. assert ((2 ^ 64 | 2 ^ k * (r * b))) as D.
      { apply Z.mod_divide; [lia|]. rewrite <- (Z.mod_small s (2 ^ 64)) in E at 2 by apply H.
        replace (2 ^ k * (r * b)) with (s + 2 ^ k * r * b - s) by ring. rewrite Zminus_mod, E.
        rewrite Z.sub_diag. reflexivity. }
      apply pow2_odd_divide in D; [|lia|lia|rewrite Z.odd_mul, R, O; reflexivity].
      exists (2 ^ (k - 64) * q). replace k with (k - 64 + 64) at 1 by lia. rewrite Z.pow_add_r by lia. ring.
    - intros D. apply pow2_odd_divide in D; [|lia|lia|exact Q].
      replace k with (k - 64 + 64) by lia. rewrite Z.pow_add_r by lia.
      replace (s + 2 ^ (k - 64) * 2 ^ 64 * r * b) with (s + (2 ^ (k - 64) * r * b) * 2 ^ 64) by ring.
      rewrite Z.mod_add by lia. apply Z.mod_small. apply H.
  Qed.
  Lemma lcg_st s : state64 (lcg s).
  Proof. apply u64_st. Qed.
  Lemma lcg_calls_st n s : state64 s -> state64 (calls lcg n s).
  Proof. intros H. destruct n; [exact H|]. apply lcg_st. Qed.
  Lemma lcg_cycle s : Z.odd c = true -> state64 s -> full_cycle lcg s.
  Proof.
    intros C H. split.
    - assert (forall i j : nat, (i <= j)%nat -> Z.of_nat j < 2 ^ 64 -> calls lcg i s = calls lcg j s -> i = j) as X.
      { intros i j L J E. replace j with ((j - i) + i)%nat in E by lia. rewrite calls_plus in E. symmetry in E.
        apply lcg_return in E; [|exact C|apply lcg_calls_st; exact H].
        destruct (Nat.eq_dec i j) as [|N]; [auto|]. apply Z.divide_pos_le in E; lia. }
      intros i j I J E. destruct (Nat.le_gt_cases i j); [apply X; auto; lia|symmetry; apply X; auto; lia].
    - intros n N. apply lcg_return; auto. rewrite N. apply Z.divide_refl.
  Qed.
  (** an even increment: the lowest bit never changes *)
  Lemma lcg_parity n s : Z.odd c = false -> state64 s -> Z.odd (calls lcg n s) = Z.odd s.
  Proof.
    intros C H. assert (Z.odd a = true) as OA.
    { apply odd_mod2. rewrite (Z.div_mod a 4) by lia. rewrite A. replace (4 * (a / 4) + 1) with (1 + (2 * (a / 4)) * 2) by ring. rewrite Z.mod_add by lia. reflexivity. }
    induction n as [|n IH]; [reflexivity|]. rewrite calls_S. unfold lcg at 1. rewrite u64_mod.
    rewrite <- !Z.bit0_odd, Z.mod_pow2_bits_low, !Z.bit0_odd by lia.
    rewrite Z.odd_add, Z.odd_mul, OA, C, IH. destruct (Z.odd s); reflexivity.
  Qed.
End lcg.
Lemma calls_ext f g n s : (forall x, f x = g x) -> calls f n s = calls g n s.
Proof. intros E. induction n as [|n IH]; [reflexivity|]. rewrite !calls_S, IH. apply E. Qed.
Lemma pcg_cycle inc s : Z.odd inc = true -> state64 s -> full_cycle (pcg_step inc) s.
Proof.
  intros C H. destruct (lcg_cycle pcg_mul inc eq_refl s C H) as [X1 X2].
  assert (forall n, calls (pcg_step inc) n s = calls (lcg pcg_mul inc) n s) as X by (intros n; apply calls_ext; intros x; apply pcg_step_eq).
  split.
  - intros i j I J E. rewrite !X in E. auto.
  - intros n N. rewrite X. auto.
Qed.
Lemma pcg_parity inc n s : Z.odd inc = false -> state64 s -> Z.odd (calls (pcg_step inc) n s) = Z.odd s.
Proof.
  intros C H. rewrite calls_ext with (g := lcg pcg_mul inc) by (intros x; apply pcg_step_eq).
  apply lcg_parity; auto.
Qed.

(** ** The output of pcg *)
Lemma lor_range32 a b : 0 <= a < 2 ^ 32 -> 0 <= b < 2 ^ 32 -> 0 <= Z.lor a b < 2 ^ 32.
Proof.
  intros A B. split; [apply Z.lor_nonneg; lia|].
  destruct (Z.eq_dec (Z.lor a b) 0) as [->|N]; [lia|].
  assert (0 < Z.lor a b) by (assert (0 <= Z.lor a b) by (apply Z.lor_nonneg; lia); lia).
  apply Z.log2_lt_pow2; [lia|]. rewrite Z.log2_lor by lia. apply Z.max_lub_lt.
  - destruct (Z.eq_dec a 0) as [->|]; [cbn; lia|apply Z.log2_lt_pow2; lia].
  - destruct (Z.eq_dec b 0) as [->|]; [cbn; lia|apply Z.log2_lt_pow2; lia].
Qed.
Lemma rotate_ok x r : 0 <= x < 2 ^ 32 -> 0 <= r < 32 ->
  exists y, (do a <- shr32 x r ;; do b <- shl32 x (Z.land (u64 (- r)) 31) ;; Ok (Z.lor a b)) = Ok y /\ rotated x r y.
Proof.
  intros X R. assert (Z.land (u64 (- r)) 31 = (- r) mod 32) as L.
  { change 31 with (Z.ones 5). rewrite Z.land_ones by lia. change (2 ^ 5) with 32. rewrite u64_mod.
    symmetry. apply Znumtheory.Zmod_div_mod; [lia|lia|]. exists (2 ^ 59). reflexivity. }
  rewrite L. set (k := (- r) mod 32). assert (0 <= k < 32) as K by (apply Z.mod_pos_bound; lia).
  assert (k = if r =? 0 then 0 else 32 - r) as KV.
  { unfold k. destruct (r =? 0) eqn:E; [replace r with 0 by lia; reflexivity|].
    replace (- r) with (32 - r + (-1) * 32) by lia. rewrite Z.mod_add by lia. apply Z.mod_small. lia. }
  unfold shr32, shl32. replace ((0 <=? r) && (r <? 32)) with true by lia. replace ((0 <=? k) && (k <? 32)) with true by lia.
  cbn [bind]. eexists. split; [reflexivity|]. split.
  - apply lor_range32; [|apply Z.mod_pos_bound; lia]. rewrite Z.shiftr_div_pow2 by lia.
    assert (0 < 2 ^ r) by (apply Z.pow_pos_nonneg; lia). split; [apply Z.div_pos; lia|].
    apply Z.le_lt_trans with x; [|lia]. apply Z.div_le_upper_bound; [lia|]. rewrite <- (Z.mul_1_l x) at 1. apply Z.mul_le_mono_nonneg_r; lia.
  - intros i I. assert (forall j, 32 <= j -> Z.testbit x j = false) as HI.
    { intros j J. destruct (Z.eq_dec x 0) as [->|NX]; [apply Z.bits_0|]. apply Z.bits_above_log2; [lia|].
      apply Z.lt_le_trans with 32; [apply Z.log2_lt_pow2; lia|lia]. }
    rewrite Z.lor_spec, Z.shiftr_spec by lia. change (u32 ?z) with (z mod 2 ^ 32). rewrite Z.mod_pow2_bits_low by lia.
    rewrite Z.shiftl_spec by lia. destruct (Z_lt_le_dec (i + r) 32) as [C|C].
    + rewrite (Z.mod_small (i + r)) by lia. destruct (r =? 0) eqn:R0.
      * rewrite KV. replace (i - 0) with (i + r) by lia. apply orb_diag.
      * rewrite (Z.testbit_neg_r x (i - k)) by lia. apply orb_false_r.
    + rewrite (HI (i + r)) by lia. cbn [orb]. f_equal. destruct (r =? 0) eqn:R0; [lia|].
      rewrite KV. replace (i + r) with (i + r - 32 + 1 * 32) by lia. rewrite Z.mod_add by lia. rewrite Z.mod_small by lia. lia.
Qed.
Lemma pcg_ok inc s : 0 <= s < 2 ^ 63 ->
  exists y, pcg_next inc s = Ok (pcg_step inc s, y) /\ rotated (Z.lxor (s / 2 ^ 18) s / 2 ^ 27 mod 2 ^ 32) (s / 2 ^ 59) y.
Proof.
  intros H. unfold pcg_next. rewrite (wrap_id i64 s) by (unfold in_range; cbn; lia).
  rewrite !Z.shiftr_div_pow2 by lia. change (u32 ?z) with (z mod 2 ^ 32).
  set (x := Z.lxor (s / 2 ^ 18) s / 2 ^ 27 mod 2 ^ 32).
  assert (0 <= s / 2 ^ 59 < 32) as R.
  { split; [apply Z.div_pos; lia|]. apply Z.div_lt_upper_bound; lia. }
  destruct (rotate_ok x (s / 2 ^ 59)) as [y [E Y]]; [apply Z.mod_pos_bound; lia|exact R|].
  exists y. split; [|exact Y].
  destruct (shr32 x (s / 2 ^ 59)); cbn [bind] in *; try discriminate. destruct (shl32 _ _); cbn [bind] in *; try discriminate.
  congruence.
Qed.
Lemma pcg_ub inc s : 2 ^ 63 <= s < 2 ^ 64 -> pcg_next inc s = Ub.
Proof.
  intros H. unfold pcg_next.
  assert (wrap i64 s = s - 2 ^ 64) as ->.
  { rewrite <- (wrap_id i64 (s - 2 ^ 64)) by (unfold in_range; cbn; lia).
    apply wrap_eq. change (2 ^ bits (iw i64)) with (2 ^ 64). replace s with (s - 2 ^ 64 + 1 * 2 ^ 64) at 1 by lia. apply Z.mod_add. lia. }
  rewrite !Z.shiftr_div_pow2 by lia. unfold shr32.
  assert ((s - 2 ^ 64) / 2 ^ 59 < 0) by (apply Z.div_lt_upper_bound; lia).
  replace (0 <=? (s - 2 ^ 64) / 2 ^ 59) with false by lia. reflexivity.
Qed.

(** ** Seeding pcg *)
Lemma seed_inc s1 : 0 <= s1 < 2 ^ 64 -> Z.lor (u64 (Z.shiftl s1 1)) 1 = (2 * s1 + 1) mod 2 ^ 64.
Proof.
  intros H. unfold u64. rewrite Z.shiftl_mul_pow2 by lia. change (2 ^ 1) with 2. set (a := (s1 * 2) mod 2 ^ 64).
  assert (E : Z.even a = true).
  { unfold a. replace (2 ^ 64) with (2 * 2 ^ 63) by reflexivity. rewrite Z.mul_comm, Z.mul_mod_distr_l by lia. now rewrite Z.even_mul. }
  assert (L : Z.lor a 1 = a + 1).
  { apply Z.even_spec in E. destruct E as [k K]. assert (B : 0 <= a) by (apply Z.mod_pos_bound; lia). rewrite K in *. destruct k; [reflexivity|reflexivity|lia]. }
  rewrite L. unfold a. apply Z.even_spec in E. destruct E as [k K].
  pose proof (Z.mod_pos_bound (s1 * 2) (2 ^ 64) ltac:(lia)) as B. fold a in B.
  assert (a + 1 < 2 ^ 64) by lia. apply (Z.mod_unique _ _ (s1 * 2 / 2 ^ 64)); [left; fold a; lia|].
  pose proof (Z.div_mod (s1 * 2) (2 ^ 64) ltac:(lia)). lia.
Qed.
Lemma pcg_seed_eq s0 s1 : 0 <= s0 < 2 ^ 64 -> 0 <= s1 < 2 ^ 64 -> let inc := (2 * s1 + 1) mod 2 ^ 64 in
  pcg_seed s0 s1 = do '(s, _) <- pcg_next inc ((2 * s1 + 1 + s0) mod 2 ^ 64) ;; Ok (s, inc).
Proof.
  intros A B. cbv zeta. unfold pcg_seed. rewrite seed_inc by exact B. set (inc := (2 * s1 + 1) mod 2 ^ 64).
  assert (I : 0 <= inc < 2 ^ 64) by (apply Z.mod_pos_bound; lia).
  destruct (pcg_ok inc 0) as [y [-> _]]; [lia|]. cbn [bind]. unfold pcg_step, u64. rewrite Z.mul_0_l, Z.mod_0_l, Z.add_0_l, (Z.mod_small inc) by lia.
  unfold inc. now rewrite Z.add_mod_idemp_l by lia.
Qed.
Lemma pcg_seed_ok s0 s1 : 0 <= s0 < 2 ^ 64 -> 0 <= s1 < 2 ^ 64 -> (2 * s1 + 1 + s0) mod 2 ^ 64 < 2 ^ 63 ->
  exists s, pcg_seed s0 s1 = Ok (s, (2 * s1 + 1) mod 2 ^ 64) /\ Z.odd ((2 * s1 + 1) mod 2 ^ 64) = true /\
    s = (((2 * s1 + 1 + s0) mod 2 ^ 64) * 6364136223846793005 + (2 * s1 + 1)) mod 2 ^ 64.
Proof.
  intros A B C. rewrite pcg_seed_eq by auto. pose proof (Z.mod_pos_bound (2 * s1 + 1 + s0) (2 ^ 64) ltac:(lia)).
  destruct (pcg_ok ((2 * s1 + 1) mod 2 ^ 64) ((2 * s1 + 1 + s0) mod 2 ^ 64)) as [y [-> _]]; [lia|]. cbn [bind]. eexists. split; [reflexivity|]. split.
  - rewrite <- (seed_inc s1 B). rewrite <- Z.bit0_odd, Z.lor_spec. now rewrite orb_true_r.
  - unfold pcg_step, u64, pcg_mul. rewrite Z.add_mod_idemp_l, Z.add_mod_idemp_r by lia. reflexivity.
Qed.
Lemma pcg_seed_ub s0 s1 : 0 <= s0 < 2 ^ 64 -> 0 <= s1 < 2 ^ 64 -> 2 ^ 63 <= (2 * s1 + 1 + s0) mod 2 ^ 64 -> pcg_seed s0 s1 = Ub.
Proof.
  intros A B C. rewrite pcg_seed_eq by auto. pose proof (Z.mod_pos_bound (2 * s1 + 1 + s0) (2 ^ 64) ltac:(lia)). rewrite pcg_ub by lia. reflexivity.
Qed.
