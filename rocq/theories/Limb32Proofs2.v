(** The emulated operations, and the high bits of a number of 32-bit limbs. *)
From Verif Require Import Base BaseLemmas FloatTable FloatModel Limb32Model FloatProofs6 Limb32Proofs1.
From Coq Require Import Lia.
Open Scope Z_scope.

(** ** leading_zeroes *)
Lemma mask_high n k : 0 < k -> 0 <= n < 2 ^ (2 * k) -> (Z.land n (Z.shiftl (Z.ones k) k) =? 0) = (n <? 2 ^ k).
Proof.
  intros K N. assert (P : 0 < 2 ^ k) by (apply Z.pow_pos_nonneg; lia).
  assert (P2 : 2 ^ (2 * k) = 2 ^ k * 2 ^ k) by (rewrite <- Z.pow_add_r by lia; f_equal; lia).
  assert (E : Z.land n (Z.shiftl (Z.ones k) k) = n / 2 ^ k * 2 ^ k).
  { rewrite <- Z.shiftl_mul_pow2, <- Z.shiftr_div_pow2 by lia. apply Z.bits_inj'. intros i I.
    rewrite Z.land_spec, !Z.shiftl_spec by lia. destruct (Z.ltb_spec i k) as [C|C].
    - rewrite !(Z.testbit_neg_r _ (i - k)) by lia. apply andb_false_r.
    - rewrite Z.shiftr_spec by lia. replace (i - k + k) with i by lia. destruct (Z.ltb_spec (i - k) k) as [C2|C2].
      + rewrite Z.ones_spec_low by lia. apply andb_true_r.
      + rewrite Z.ones_spec_high by lia. rewrite andb_false_r. symmetry.
        destruct (Z.eq_dec n 0) as [->|NZ]; [apply Z.bits_0|]. apply Z.bits_above_log2; [lia|].
        apply Z.lt_le_trans with (2 * k); [apply Z.log2_lt_pow2; lia|lia]. }
  rewrite E. assert (D := Z.div_mod n (2 ^ k) ltac:(lia)). assert (M := Z.mod_pos_bound n (2 ^ k) P).
  destruct (Z.ltb_spec n (2 ^ k)) as [C|C].
  - rewrite Z.div_small by lia. reflexivity.
  - assert (1 <= n / 2 ^ k) by (apply Z.div_le_lower_bound; lia). apply Z.eqb_neq. nia.
Qed.
Lemma lz_step_spec k mask bit n b : 0 < k -> mask = Z.shiftl (Z.ones k) k -> 0 < n < 2 ^ (2 * k) ->
  exists n' b', lz_step mask k bit (n, b) = (n', b') /\ 0 < n' < 2 ^ k /\
  ((b' = b /\ Z.log2 n' = Z.log2 n) \/ (b' = Z.lor b bit /\ Z.log2 n' = Z.log2 n - k)).
Proof.
  intros K -> N. unfold lz_step. rewrite mask_high by lia. assert (P : 0 < 2 ^ k) by (apply Z.pow_pos_nonneg; lia).
  assert (P2 : 2 ^ (2 * k) = 2 ^ k * 2 ^ k) by (rewrite <- Z.pow_add_r by lia; f_equal; lia).
  destruct (Z.ltb_spec n (2 ^ k)) as [C|C]; cbn [negb].
  - exists n, b. split; [reflexivity|]. split; [lia|]. left. now split.
  - exists (Z.shiftr n k), (Z.lor b bit). split; [reflexivity|]. assert (KL : k <= Z.log2 n) by (apply Z.log2_le_pow2; lia). split.
    + rewrite Z.shiftr_div_pow2 by lia. split; [apply Z.lt_le_trans with 1; [lia|apply Z.div_le_lower_bound; lia]|apply Z.div_lt_upper_bound; lia].
    + right. split; [reflexivity|]. rewrite Z.log2_shiftr by lia. lia.
Qed.
Lemma leading_zeroes_generic_ok n : 0 < n < 2 ^ 64 -> leading_zeroes_generic n = leading_zeroes n.
Proof.
  intros N. unfold leading_zeroes_generic, leading_zeroes.
  destruct (lz_step_spec 32 0xffffffff00000000 32 n 0 ltac:(lia) eq_refl N) as [n1 [b1 [-> [N1 H1]]]].
  destruct (lz_step_spec 16 0xffff0000 16 n1 b1 ltac:(lia) eq_refl N1) as [n2 [b2 [-> [N2 H2]]]].
  destruct (lz_step_spec 8 0xff00 8 n2 b2 ltac:(lia) eq_refl N2) as [n3 [b3 [-> [N3 H3]]]].
  destruct (lz_step_spec 4 0xf0 4 n3 b3 ltac:(lia) eq_refl N3) as [n4 [b4 [-> [N4 H4]]]].
  destruct (lz_step_spec 2 0xc 2 n4 b4 ltac:(lia) eq_refl N4) as [n5 [b5 [-> [N5 H5]]]].
  assert (C : n5 = 1 \/ n5 = 2 \/ n5 = 3) by (change (2 ^ 2) with 4 in N5; lia).
  assert (L5 : (Z.log2 n5 = 0 /\ Z.land n5 2 = 0) \/ (Z.log2 n5 = 1 /\ Z.land n5 2 = 2)) by (destruct C as [-> |[-> | ->]]; cbn; lia).
  clear - H1 H2 H3 H4 H5 L5.
  destruct H1 as [[-> H1]|[-> H1]]; destruct H2 as [[-> H2]|[-> H2]]; destruct H3 as [[-> H3]|[-> H3]]; destruct H4 as [[-> H4]|[-> H4]]; destruct H5 as [[-> H5]|[-> H5]];
    (destruct L5 as [[L5 R5]|[L5 R5]]; rewrite R5; cbn [Z.eqb negb]; cbv [Z.lor Pos.lor]; lia).
Qed.

(** ** The product of 64-bit numbers *)
Lemma u32_hi x : 0 <= x < 2 ^ 64 -> u32 (Z.shiftr x 32) = x / 2 ^ 32.
Proof.
  intros X. rewrite Z.shiftr_div_pow2 by lia. unfold u32. apply Z.mod_small. split; [apply Z.div_pos; lia|apply Z.div_lt_upper_bound; lia].
Qed.
Lemma umul128_generic_ok a b : 0 <= a < 2 ^ 64 -> 0 <= b < 2 ^ 64 -> umul128_generic a b = full_multiplication a b.
Proof.
  intros A B. unfold umul128_generic, full_multiplication. rewrite !u32_hi by assumption.
  assert (A1 : 0 <= a / 2 ^ 32 < 2 ^ 32) by (split; [apply Z.div_pos; lia|apply Z.div_lt_upper_bound; lia]).
  assert (B1 : 0 <= b / 2 ^ 32 < 2 ^ 32) by (split; [apply Z.div_pos; lia|apply Z.div_lt_upper_bound; lia]).
  assert (A0 : 0 <= u32 a < 2 ^ 32) by (apply Z.mod_pos_bound; lia).
  assert (B0 : 0 <= u32 b < 2 ^ 32) by (apply Z.mod_pos_bound; lia).
  assert (AE : a = 2 ^ 32 * (a / 2 ^ 32) + u32 a) by (apply Z.div_mod; lia).
  assert (BE : b = 2 ^ 32 * (b / 2 ^ 32) + u32 b) by (apply Z.div_mod; lia).
  set (a1 := a / 2 ^ 32) in *. set (b1 := b / 2 ^ 32) in *. set (a0 := u32 a) in *. set (b0 := u32 b) in *.
  assert (AB : a * b = 2 ^ 64 * (a1 * b1) + 2 ^ 32 * (a1 * b0 + a0 * b1) + a0 * b0) by (rewrite AE, BE; ring).
  clearbody a1 b1 a0 b0. clear AE BE.
  assert (M : forall x y, 0 <= x < 2 ^ 32 -> 0 <= y < 2 ^ 32 -> 0 <= x * y <= (2 ^ 32 - 1) * (2 ^ 32 - 1)) by (intros; nia).
  assert (P11 := M a1 b1 A1 B1). assert (P10 := M a1 b0 A1 B0). assert (P01 := M a0 b1 A0 B1). assert (P00 := M a0 b0 A0 B0).
  assert (HB : 0 <= a * b < 2 ^ 64 * 2 ^ 64) by nia.
  unfold emulu. rewrite AB in *. clear AB A B M A1 B1 A0 B0 a b.
  set (p := a1 * b1) in *. set (q := a1 * b0) in *. set (r := a0 * b1) in *. set (s := a0 * b0) in *. clearbody p q r s. clear a1 b1 a0 b0.
  assert (U : forall x, 0 <= x < 2 ^ 64 -> u64 x = x) by (intros; apply Z.mod_small; lia).
  rewrite !(U p), !(U q), !(U r), !(U s) by lia.
  set (t := u64 (q + r)). set (c := if t <? q then 1 else 0).
  assert (T : 0 <= t < 2 ^ 64 /\ q + r = t + 2 ^ 64 * c).
  { unfold c, t, u64. destruct (Z.ltb_spec (q + r) (2 ^ 64)) as [L|L].
    - rewrite Z.mod_small by lia. replace (q + r <? q) with false by lia. lia.
    - replace ((q + r) mod 2 ^ 64) with (q + r - 2 ^ 64) by (apply (Z.mod_unique _ _ 1); lia). replace (q + r - 2 ^ 64 <? q) with true by lia. lia. }
  assert (CR : 0 <= c <= 1) by (unfold c; destruct (t <? q); lia). clearbody t c. destruct T as [TR TE].
  rewrite (Z.shiftr_div_pow2 t), !Z.shiftl_mul_pow2 by lia.
  assert (D := Z.div_mod t (2 ^ 32) ltac:(lia)). assert (DM := Z.mod_pos_bound t (2 ^ 32) ltac:(lia)).
  set (t1 := t / 2 ^ 32) in *. set (t0 := t mod 2 ^ 32) in *.
  assert (SH : u64 (t * 2 ^ 32) = t0 * 2 ^ 32).
  { unfold u64. change (2 ^ 64) with (2 ^ 32 * 2 ^ 32). rewrite Z.mul_mod_distr_r by lia. reflexivity. }
  rewrite SH. clearbody t1 t0. clear SH.
  set (l := u64 (s + t0 * 2 ^ 32)). set (k := if l <? s then 1 else 0).
  assert (L : 0 <= l < 2 ^ 64 /\ s + t0 * 2 ^ 32 = l + 2 ^ 64 * k /\ 0 <= k <= 1).
  { unfold k, l, u64. destruct (Z.ltb_spec (s + t0 * 2 ^ 32) (2 ^ 64)) as [L|L].
    - rewrite Z.mod_small by lia. replace (s + t0 * 2 ^ 32 <? s) with false by lia. lia.
    - replace ((s + t0 * 2 ^ 32) mod 2 ^ 64) with (s + t0 * 2 ^ 32 - 2 ^ 64) by (apply (Z.mod_unique _ _ 1); lia). replace (s + t0 * 2 ^ 32 - 2 ^ 64 <? s) with true by lia. lia. }
  clearbody l k. destruct L as [LR [LE KR]].
  assert (HE : 2 ^ 64 * p + 2 ^ 32 * (q + r) + s = 2 ^ 64 * (p + t1 + c * 2 ^ 32 + k) + l) by lia.
  rewrite HE in *. rewrite (U (c * 2 ^ 32)) by lia. rewrite (U (p + t1)) by lia. rewrite (U (p + t1 + c * 2 ^ 32)) by lia. rewrite U by lia.
  f_equal.
  - apply (Z.div_unique _ _ _ l); lia.
  - unfold u64. apply (Z.mod_unique _ _ (p + t1 + c * 2 ^ 32 + k)); lia.
Qed.
(** scalar_mul without a 128-bit type *)
Lemma scalar_mul_generic_ok x y c : 0 <= x < 2 ^ 64 -> 0 <= y < 2 ^ 64 -> 0 <= c < 2 ^ 64 ->
  scalar_mul_generic x y c = ((x * y + c) / 2 ^ 64, u64 (x * y + c)).
Proof.
  intros X Y C. unfold scalar_mul_generic. rewrite umul128_generic_ok by assumption. unfold full_multiplication, scalar_add_generic.
  assert (H : 0 <= x * y <= (2 ^ 64 - 1) * (2 ^ 64 - 1)) by nia. set (p := x * y) in *. clearbody p.
  assert (D := Z.div_mod p (2 ^ 64) ltac:(lia)). assert (M : 0 <= u64 p < 2 ^ 64) by (apply Z.mod_pos_bound; lia). fold (u64 p) in D.
  set (h := p / 2 ^ 64) in *. set (l := u64 p) in *. clearbody h l.
  assert (S : u64 (l + c) = if l + c <? 2 ^ 64 then l + c else l + c - 2 ^ 64).
  { unfold u64. destruct (Z.ltb_spec (l + c) (2 ^ 64)) as [L|L]; [apply Z.mod_small; lia|symmetry; apply (Z.mod_unique _ _ 1); lia]. }
  rewrite S. destruct (Z.ltb_spec (l + c) (2 ^ 64)) as [L|L].
  - replace (l + c <? l) with false by lia. rewrite Z.add_0_r. unfold u64. rewrite (Z.mod_small h) by lia.
    f_equal; [apply (Z.div_unique _ _ _ (l + c)); lia|apply (Z.mod_unique _ _ h); lia].
  - replace (l + c - 2 ^ 64 <? l) with true by lia. unfold u64. rewrite (Z.mod_small (h + 1)) by lia.
    f_equal; [apply (Z.div_unique _ _ _ (l + c - 2 ^ 64)); lia|apply (Z.mod_unique _ _ (h + 1)); lia].
Qed.

(** ** compute_float *)
Lemma table_range q : let '(t1, t0) := pow5_entry q in 0 <= t1 < 2 ^ 64 /\ 0 <= t0 < 2 ^ 64.
Proof.
  unfold pow5_entry. assert (T : forallb (fun p => (0 <=? fst p) && (fst p <? 2 ^ 64) && (0 <=? snd p) && (snd p <? 2 ^ 64)) ((0, 0) :: power_of_five_128) = true) by (vm_compute; reflexivity).
  rewrite forallb_forall in T.
  assert (I : In (nth (Z.to_nat (q + 342)) power_of_five_128 (0, 0)) ((0, 0) :: power_of_five_128)).
  { destruct (Nat.lt_ge_cases (Z.to_nat (q + 342)) (length power_of_five_128)) as [L|L]; [right; now apply nth_In|left; now rewrite nth_overflow]. }
  specialize (T _ I). destruct (nth _ _ _) as [a b]. cbn [fst snd] in T. lia.
Qed.
Lemma product_approximation_32_ok n q w : 0 <= w < 2 ^ 64 -> compute_product_approximation_32 n q w = compute_product_approximation n q w.
Proof.
  intros W. unfold compute_product_approximation_32, compute_product_approximation. assert (R := table_range q).
  destruct (pow5_entry q) as [t1 t0]. destruct R as [R1 R0]. rewrite !umul128_generic_ok by assumption. reflexivity.
Qed.
Lemma compute_float_32_ok f q w : 0 <= w < 2 ^ 64 -> compute_float_32 f q w = compute_float f q w.
Proof.
  intros W. unfold compute_float_32, compute_float. destruct (Z.eqb_spec w 0) as [E|E]; [reflexivity|].
  rewrite leading_zeroes_generic_ok by lia. rewrite product_approximation_32_ok by (apply Z.mod_pos_bound; lia). reflexivity.
Qed.
Lemma compute_error_32_ok f q w : 0 < w < 2 ^ 64 -> compute_error_32 f q w = compute_error f q w.
Proof.
  intros W. unfold compute_error_32, compute_error. rewrite leading_zeroes_generic_ok by lia.
  rewrite product_approximation_32_ok by (apply Z.mod_pos_bound; lia). reflexivity.
Qed.

(** ** The high bits *)
Lemma nonzero_limbs_32 v : limbs_32 v -> existsb (fun x => negb (x =? 0)) v = negb (bval_32 v =? 0).
Proof.
  induction 1 as [|x v X L IH]; [reflexivity|]. cbn [existsb bval_32]. rewrite IH. assert (R := bval_range_32 v L). unfold limb_32 in X.
  destruct (Z.eqb_spec x 0), (Z.eqb_spec (bval_32 v) 0), (Z.eqb_spec (x + 2 ^ 32 * bval_32 v) 0); try reflexivity; lia.
Qed.
Lemma lor_join32 a b : 0 <= a < 2 ^ 32 -> 0 <= b < 2 ^ 32 -> Z.lor (u64 (Z.shiftl a 32)) b = a * 2 ^ 32 + b.
Proof.
  intros A B. rewrite Z.shiftl_mul_pow2 by lia. unfold u64. rewrite Z.mod_small by lia.
  assert (LA : Z.land (a * 2 ^ 32) b = 0).
  { apply Z.bits_inj'. intros k K. rewrite Z.land_spec, Z.bits_0. destruct (Z.ltb_spec k 32) as [KN|KN].
    - rewrite Z.mul_pow2_bits_low by lia. reflexivity.
    - rewrite (Z.bits_above_log2 b); [apply andb_false_r|lia|].
      destruct (Z.eq_dec b 0) as [->|NZ]; [cbn; lia|]. apply Z.lt_le_trans with 32; [apply Z.log2_lt_pow2; lia|lia]. }
  rewrite <- Z.lxor_lor by exact LA. now rewrite <- Z.add_nocarry_lxor.
Qed.
Lemma shift_full x : 0 < x < 2 ^ 64 -> u64 (Z.shiftl x (leading_zeroes_generic x)) = x * 2 ^ (63 - Z.log2 x).
Proof.
  intros X. rewrite leading_zeroes_generic_ok by exact X. destruct (lz_spec x X) as [Z1 Z2].
  rewrite Z.shiftl_mul_pow2 by lia. rewrite u64_id by lia. reflexivity.
Qed.
Lemma log2_top b w r : 0 <= b < 2 ^ w -> 0 <= w -> 0 < r -> Z.log2 (b + 2 ^ w * r) = w + Z.log2 r.
Proof.
  intros B W R. assert (L := Z.log2_spec r R). assert (L0 := Z.log2_nonneg r).
  assert (P : 0 < 2 ^ w) by (apply Z.pow_pos_nonneg; lia).
  apply Z.log2_unique; [lia|]. replace (Z.succ (w + Z.log2 r)) with (w + Z.succ (Z.log2 r)) by lia. rewrite !Z.pow_add_r by lia. nia.
Qed.
Lemma top_32 v z : big_ok_32 v z -> 0 < z -> exists r0 ru, rev v = r0 :: ru /\ limbs_32 (rev ru) /\ 0 < r0 < 2 ^ 32 /\
  len v = len (rev ru) + 1 /\ z = bval_32 (rev ru) + wt_32 (len (rev ru)) * r0.
Proof.
  intros [L [_ [N V]]] Z0. destruct (rev v) as [|r0 ru] eqn:RV.
  { exfalso. apply (f_equal (@rev Z)) in RV. rewrite rev_involutive in RV. subst v. cbn in V. lia. }
  assert (EV : v = rev ru ++ [r0]).
  { apply (f_equal (@rev Z)) in RV. rewrite rev_involutive in RV. exact RV. }
  assert (LU : limbs_32 (rev ru) /\ limb_32 r0).
  { rewrite EV in L. apply Forall_app in L. destruct L as [L1 L2]. inversion L2; subst. tauto. }
  destruct LU as [LU L0]. unfold limb_32 in L0.
  assert (RU := bval_range_32 _ LU). assert (LNV : len v = len (rev ru) + 1) by (rewrite EV, len_app; reflexivity).
  assert (VZ : z = bval_32 (rev ru) + wt_32 (len (rev ru)) * r0) by (rewrite <- V, EV, bval_app_32; cbn [bval_32]; lia).
  exists r0, ru. split; [reflexivity|]. split; [exact LU|]. split; [|split; [exact LNV|exact VZ]].
  assert (R0 : r0 <> 0); [|lia].
  destruct N as [N|N]; [rewrite N in LNV; change (len (@nil Z)) with 0 in LNV; assert (X := len_nonneg (rev ru)); lia|].
  replace (len v - 1) with (len (rev ru)) in N by lia. intros ->. lia.
Qed.
Lemma bit_length_32_ok v z : big_ok_32 v z -> 0 < z -> bit_length_32 v = Z.log2 z + 1.
Proof.
  intros V Z0. destruct (top_32 v z V Z0) as [r0 [ru [RV [LU [R0 [LN VZ]]]]]]. unfold bit_length_32. rewrite RV, LN.
  rewrite Z.shiftl_mul_pow2 by lia. rewrite u64_id by lia. rewrite leading_zeroes_generic_ok by lia. unfold leading_zeroes.
  rewrite Z.log2_mul_pow2 by lia. assert (RU := bval_range_32 _ LU). assert (X := len_nonneg (rev ru)).
  rewrite VZ. unfold wt_32 in *. rewrite log2_top by lia. lia.
Qed.
Lemma hi64_32_ok v z h t : big_ok_32 v z -> 0 < z -> hi64_32 v = (h, t) -> let s := Z.log2 z - 63 in
  (s <= 0 -> h = z * 2 ^ (- s) /\ t = false) /\ (0 < s -> h = z / 2 ^ s /\ t = negb (z mod 2 ^ s =? 0)).
Proof.
  intros V Z0 H. cbv zeta. destruct (top_32 v z V Z0) as [r0 [ru [RV [LU [R0 [LN VZ]]]]]].
  unfold hi64_32 in H. rewrite RV in H. clear V LN RV.
  destruct ru as [|r1 ru].
  { injection H as <- <-. change (len (rev [])) with 0 in VZ. cbn [rev bval_32] in VZ. rewrite wt_0_32, Z.mul_1_l, Z.add_0_l in VZ. subst z.
    assert (L : Z.log2 r0 < 32) by (apply Z.log2_lt_pow2; lia). split; [|lia]. intros _. split; [|reflexivity].
    rewrite shift_full by lia. do 2 f_equal. lia. }
  cbn [rev] in *. rewrite len_app in VZ. change (len [r1]) with 1 in *.
  apply Forall_app in LU. destruct LU as [LU R1]. apply Forall_inv in R1. unfold limb_32 in R1.
  rewrite bval_app_32 in VZ. cbn [bval_32] in VZ. assert (LNU := len_nonneg (rev ru)).
  rewrite (wt_add_32 (len (rev ru)) 1) in VZ by lia. change (wt_32 1) with (2 ^ 32) in VZ.
  destruct ru as [|r2 ru].
  { cbv zeta in H. rewrite lor_join32 in H by lia. remember (r0 * 2 ^ 32 + r1) as w eqn:W in H. injection H as <- <-. change (len (rev [])) with 0 in VZ. cbn [rev bval_32] in VZ. rewrite wt_0_32 in VZ.
    replace w with z in * by lia. clear w W.
    assert (ZR : z < 2 ^ 64) by (change (2 ^ 64) with (2 ^ 32 * 2 ^ 32); lia).
    assert (L : Z.log2 z < 64) by (apply Z.log2_lt_pow2; lia). split; [|lia]. intros _. split; [|reflexivity].
    rewrite shift_full by lia. do 2 f_equal. lia. }
  cbn [rev] in *. rewrite len_app in *. change (len [r2]) with 1 in *.
  apply Forall_app in LU. destruct LU as [LU R2]. apply Forall_inv in R2. unfold limb_32 in R2.
  rewrite bval_app_32 in VZ. cbn [bval_32] in VZ. clear LNU. assert (LNU := len_nonneg (rev ru)).
  rewrite (wt_add_32 (len (rev ru)) 1) in VZ by lia. change (wt_32 1) with (2 ^ 32) in VZ.
  rewrite lor_join32 in H by lia. set (c1 := r1 * 2 ^ 32 + r2) in *.
  assert (C1 : limb c1) by (unfold limb, c1; change (2 ^ 64) with (2 ^ 32 * 2 ^ 32); lia).
  assert (UE : uint64_hi64_32 r0 c1 = uint64_hi64 r0 c1) by (unfold uint64_hi64_32, uint64_hi64; rewrite leading_zeroes_generic_ok by lia; reflexivity).
  rewrite UE in H. destruct (hi_pair r0 c1 ltac:(lia) C1) as [HP HR]. cbv zeta in *.
  replace (64 - leading_zeroes r0) with (Z.log2 r0 + 1) in HP by (unfold leading_zeroes; lia).
  assert (L0 := Z.log2_nonneg r0).
  assert (PP : 0 < 2 ^ (Z.log2 r0 + 1)) by (apply Z.pow_pos_nonneg; lia).
  assert (ZE : z = bval_32 (rev ru) + wt_32 (len (rev ru)) * (c1 + 2 ^ 64 * r0)).
  { rewrite VZ. unfold c1. change (2 ^ 64) with (2 ^ 32 * 2 ^ 32). ring. }
  assert (RU := bval_range_32 _ LU). set (u := rev ru) in *.
  assert (LZ : Z.log2 z = 32 * len u + (64 + Z.log2 r0)).
  { rewrite ZE. unfold wt_32 in *. rewrite log2_top by (try (unfold limb in C1); lia). f_equal. apply log2_top; [exact C1|lia|lia]. }
  rewrite LZ. split; [intros C; lia|]. intros _. replace (32 * len u + (64 + Z.log2 r0) - 63) with (32 * len u + (Z.log2 r0 + 1)) by lia.
  rewrite Z.pow_add_r by lia. fold (wt_32 (len u)). rewrite HP in H.
  set (c := c1 + 2 ^ 64 * r0) in *. set (p := 2 ^ (Z.log2 r0 + 1)) in *. injection H as <- <-.
  replace (existsb (fun x => negb (x =? 0)) ru) with (negb (bval_32 u =? 0)).
  2:{ rewrite <- nonzero_limbs_32 by exact LU. unfold u. apply existsb_rev. }
  set (W := wt_32 (len u)) in *. assert (PW : 0 < W) by (apply wt_pos_32; lia).
  rewrite ZE. clear - PW PP RU. clearbody p c W.
  assert (D := Z.div_mod c p ltac:(lia)). assert (M := Z.mod_pos_bound c p PP).
  assert (DV : (bval_32 u + W * c) / (W * p) = c / p).
  { symmetry. apply (Z.div_unique _ _ _ (bval_32 u + W * (c mod p))); [left; nia|nia]. }
  assert (MV : (bval_32 u + W * c) mod (W * p) = bval_32 u + W * (c mod p)).
  { symmetry. apply (Z.mod_unique _ _ (c / p)); [left; nia|nia]. }
  rewrite DV, MV. split; [reflexivity|].
  clear DV MV D. revert M RU PW. generalize (c mod p) as k, (bval_32 u) as b. intros k b K RB PW.
  assert (K1 : 0 < k -> 0 < W * k) by nia. assert (K0 : k = 0 -> W * k = 0) by nia.
  destruct (Z.eqb_spec k 0), (Z.eqb_spec b 0), (Z.eqb_spec (b + W * k) 0); try reflexivity; lia.
Qed.
Lemma bit_length_log v z : big_ok v z -> 0 < z -> bit_length v = Z.log2 z + 1.
Proof.
  intros V Z0. assert (B := bit_length_spec v z V Z0).
  assert (P : 0 <= bit_length v - 1).
  { destruct (Z.le_gt_cases 0 (bit_length v - 1)) as [C|C]; [exact C|exfalso]. 
    destruct (Z.eq_dec (bit_length v) 0) as [E|E]; [rewrite E in B; change (2 ^ 0) with 1 in B; lia|]. rewrite (Z.pow_neg_r 2 (bit_length v)) in B by lia. lia. }
  assert (L : Z.log2 z = bit_length v - 1); [|lia]. apply Z.log2_unique; [exact P|]. replace (Z.succ (bit_length v - 1)) with (bit_length v) by lia. exact B.
Qed.
(** the same number: the same bits *)
Lemma hi64_same v v' z : big_ok v z -> big_ok_32 v' z -> 0 < z -> hi64_32 v' = hi64 v /\ bit_length_32 v' = bit_length v.
Proof.
  intros V V' Z0. rewrite (bit_length_32_ok v' z V' Z0), (bit_length_log v z V Z0). split; [|reflexivity].
  destruct (hi64_32 v') as [h' t'] eqn:H'. destruct (hi64 v) as [h t] eqn:H.
  destruct (hi64_32_ok v' z h' t' V' Z0 H') as [A1 A2]. destruct (hi64_spec v z h t V Z0 H) as [_ [B1 B2]]. cbv zeta in *.
  rewrite (bit_length_log v z V Z0) in B1, B2. replace (Z.log2 z + 1 - 64) with (Z.log2 z - 63) in B1, B2 by lia.
  destruct (Z.le_gt_cases (Z.log2 z - 63) 0) as [C|C].
  - destruct (A1 C) as [-> ->]. destruct (B1 C) as [-> ->]. reflexivity.
  - destruct (A2 ltac:(lia)) as [-> ->]. destruct (B2 ltac:(lia)) as [-> ->]. reflexivity.
Qed.
