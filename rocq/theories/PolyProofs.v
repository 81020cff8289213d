(** Proofs about the additions for GCC 4.8 and fastcref. *)
From Verif Require Import Base BaseLemmas FormatModel PolyModel PolySpec.
From Coq Require Import Lia.
Open Scope Z_scope.

Lemma land_mask x k : 0 <= x < 2 ^ 64 -> 0 <= k < 64 -> Z.land x (u64 (- 2 ^ k)) = x / 2 ^ k * 2 ^ k.
Proof.
  intros X K. assert (P := Z.pow_pos_nonneg 2 k). assert (L : 2 ^ k <= 2 ^ 63) by (apply Z.pow_le_mono_r; lia).
  assert (E : u64 (- 2 ^ k) = Z.shiftl (Z.ones (64 - k)) k).
  { unfold u64. rewrite Z.shiftl_mul_pow2, Z.ones_equiv by lia. rewrite <- Z.sub_1_r, Z.mul_sub_distr_r, <- Z.pow_add_r by lia.
    replace (64 - k + k) with 64 by lia. symmetry. apply Z.mod_unique with (-1); lia. }
  rewrite E, <- Z.shiftr_div_pow2, <- Z.shiftl_mul_pow2 by lia. apply Z.bits_inj'. intros n N.
  rewrite Z.land_spec. destruct (Z_lt_le_dec n k) as [H|H]; [rewrite !Z.shiftl_spec_low by lia; apply andb_false_r|].
  rewrite !Z.shiftl_spec by lia. rewrite Z.shiftr_spec, Z.testbit_ones_nonneg by lia. replace (n - k + k) with n by lia.
  destruct (Z.ltb_spec (n - k) (64 - k)); [apply andb_true_r|]. rewrite andb_false_r. symmetry.
  destruct (Z.eq_dec x 0) as [->|XN]; [apply Z.testbit_0_l|]. apply Z.bits_above_log2; [lia|].
  apply Z.lt_le_trans with 64; [|lia]. apply Z.log2_lt_pow2; lia.
Qed.
Lemma align48_spec k size ptr space : 0 <= k < 64 -> 0 <= size < 2 ^ 64 -> 0 <= ptr -> 0 <= space -> ptr + space < 2 ^ 64 ->
  aligned_at (2 ^ k) size ptr space (align48 (2 ^ k) size ptr space).
Proof.
  intros K SZ PT SP B. unfold align48. assert (P := Z.pow_pos_nonneg 2 k). assert (L : 2 ^ k <= 2 ^ 63) by (apply Z.pow_le_mono_r; lia).
  destruct (Z.ltb_spec space size) as [S|S]; [right; split; [|reflexivity]; intros q [A [C _]]; lia|].
  assert (P2 : 0 < 2 ^ k) by (apply P; lia). clear P.
  rewrite land_mask by (exact K || (apply Z.mod_pos_bound; lia)). rewrite (u64_id (space - size)) by lia.
  replace (u64 (u64 (ptr - 1) + 2 ^ k)) with (u64 (ptr - 1 + 2 ^ k)) by (unfold u64; now rewrite Z.add_mod_idemp_l by lia).
  assert (D64 : (2 ^ k | 2 ^ 64)) by (exists (2 ^ (64 - k)); rewrite <- Z.pow_add_r by lia; f_equal; lia).
  set (a := 2 ^ k) in *. clearbody a. set (j := (ptr - 1 + a) / a).
  assert (J : ptr <= j * a < ptr + a).
  { assert (E := Z.div_mod (ptr - 1 + a) a ltac:(lia)). assert (R := Z.mod_pos_bound (ptr - 1 + a) a ltac:(lia)). fold j in E. lia. }
  assert (LEAST : forall q, ptr <= q -> (a | q) -> j * a <= q).
  { intros q Q [i ->]. apply Z.mul_le_mono_nonneg_r; [lia|]. apply Z.lt_succ_r. apply (Z.mul_lt_mono_pos_r a); lia. }
  destruct (Z_lt_le_dec (ptr - 1 + a) (2 ^ 64)) as [W|W].
  - rewrite (u64_id (ptr - 1 + a)) by lia. fold j. rewrite (u64_id (j * a - ptr)) by lia.
    destruct (Z.ltb_spec (space - size) (j * a - ptr)) as [H|H].
    + right. split; [|reflexivity]. intros q [Q1 [Q2 Q3]]. specialize (LEAST q Q1 Q3). lia.
    + left. exists (j * a). rewrite u64_id by lia. repeat split; try lia; [apply Z.divide_factor_r|]. intros q [Q1 [_ Q3]]. now apply LEAST.
  - assert (JA : 2 ^ 64 <= j * a).
    { destruct D64 as [i D]. rewrite D. apply Z.mul_le_mono_nonneg_r; [lia|]. apply Z.lt_succ_r. apply (Z.mul_lt_mono_pos_r a); [lia|]. unfold Z.succ. lia. }
    assert (U : u64 (ptr - 1 + a) = ptr - 1 + a - 2 ^ 64) by (symmetry; apply Z.mod_unique with 1; lia).
    rewrite U, Z.div_small by lia. change (0 * a) with 0.
    assert (V : u64 (0 - ptr) = 2 ^ 64 - ptr) by (symmetry; apply Z.mod_unique with (-1); lia). rewrite V.
    destruct (Z.ltb_spec (space - size) (2 ^ 64 - ptr)) as [H|H]; [|lia].
    right. split; [|reflexivity]. intros q [Q1 [Q2 Q3]]. specialize (LEAST q Q1 Q3). lia.
Qed.

Lemma align48_same k size ptr space : 0 <= k < 64 -> 0 <= size < 2 ^ 64 -> 0 <= ptr -> 0 <= space -> ptr + space < 2 ^ 64 ->
  snd (align48 (2 ^ k) size ptr space) = std_align (2 ^ k) size ptr space.
Proof.
  intros K SZ PT SP B. unfold align48, std_align, align_up. assert (P : 0 < 2 ^ k) by (apply Z.pow_pos_nonneg; lia).
  replace (u64 (u64 (ptr - 1) + 2 ^ k)) with (u64 (ptr - 1 + 2 ^ k)) by (unfold u64; now rewrite Z.add_mod_idemp_l by lia).
  rewrite land_mask by (exact K || (apply Z.mod_pos_bound; lia)). set (q := u64 (ptr - 1 + 2 ^ k) / 2 ^ k * 2 ^ k).
  assert (D : 0 <= u64 (q - ptr)) by (apply Z.mod_pos_bound; lia). set (d := u64 (q - ptr)) in *. clearbody d q.
  destruct (Z.ltb_spec space size) as [S|S].
  - destruct (Z.ltb_spec space d); [reflexivity|]. destruct (Z.ltb_spec (space - d) size); [reflexivity|lia].
  - rewrite (u64_id (space - size)) by lia. destruct (Z.ltb_spec (space - size) d); destruct (Z.ltb_spec space d); destruct (Z.ltb_spec (space - d) size); cbn [orb snd]; try reflexivity; lia.
Qed.
Lemma has_trivial_iff m : has_trivial m = true <-> m <> Nontrivial.
Proof. destruct m; cbn; split; congruence. Qed.
Lemma traits48 c :
  (bytewise c -> is_trivially_copyable48 c = true) /\
  (is_trivially_copyable48 c = true <-> c_dtor c = Trivial /\ (c_ctor c <> Nontrivial \/ c_copy c <> Nontrivial \/ c_copy_assign c <> Nontrivial)) /\
  (is_trivially_default_constructible48 c = true <-> c_ctor c <> Nontrivial) /\
  (is_trivially_copy_constructible48 c = true <-> c_copy c <> Nontrivial) /\
  (is_trivially_copy_assignable48 c = true <-> c_copy_assign c <> Nontrivial) /\
  is_trivially_move_constructible48 c = false /\ is_trivially_move_assignable48 c = false.
Proof.
  split; [|split; [|split; [apply has_trivial_iff|split; [apply has_trivial_iff|split; [apply has_trivial_iff|split; reflexivity]]]]].
  - intros [H [_ [_ [_ D]]]]. unfold is_trivially_copyable48, is_destructible. rewrite D. apply has_trivial_iff in H. rewrite H. cbn [has_trivial andb orb]. now rewrite orb_true_r.
  - unfold is_trivially_copyable48, is_destructible. rewrite andb_true_iff, !orb_true_iff, !has_trivial_iff. destruct (c_dtor c); cbn [has_trivial andb]; intuition discriminate.
Qed.
Lemma copyable48 c : c_dtor c = Trivial -> c_copy c = Nontrivial /\ c_ctor c <> Nontrivial \/ c_copy_assign c = Nontrivial /\ c_copy c <> Nontrivial ->
  is_trivially_copyable48 c = true /\ ~ bytewise c.
Proof.
  intros D H. split.
  - apply traits48. split; [exact D|]. tauto.
  - unfold bytewise. tauto.
Qed.
Lemma bytewise_iff c : is_trivially_copyable c = true <-> bytewise c.
Proof.
  unfold is_trivially_copyable, bytewise. rewrite !andb_true_iff, !has_trivial_iff. destruct (c_dtor c); intuition discriminate.
Qed.
Lemma choice cpp20 n std c : cref_uses_val cpp20 (Class n std c) = true <-> bytewise c /\ std = true /\ n <= 8 /\ (cpp20 = false -> c_ctor c = Trivial).
Proof.
  cbn [cref_uses_val]. rewrite andb_true_iff, Z.leb_le. destruct cpp20; unfold is_trivial; rewrite ?andb_true_iff, bytewise_iff.
  - intuition discriminate.
  - assert (E : match c_ctor c with Trivial => true | _ => false end = true <-> c_ctor c = Trivial) by (destruct (c_ctor c); split; congruence). rewrite E. tauto.
Qed.
Lemma compiles cpp20 n std c : c_copy c <> Deleted -> pass cpp20 (Class n std c) = Ok (if cref_uses_val cpp20 (Class n std c) then ByValue else ByRef).
Proof. intros H. unfold pass. destruct (cref_uses_val cpp20 (Class n std c)); [|reflexivity]. destruct (c_copy c); congruence. Qed.
Lemma no_copy cpp20 n c : n <= 8 -> bytewise c -> c_ctor c = Trivial -> c_copy c = Deleted -> pass cpp20 (Class n true c) = Err.
Proof. intros N B C D. unfold pass. assert (H : cref_uses_val cpp20 (Class n true c) = true) by (apply choice; tauto). now rewrite H, D. Qed.
