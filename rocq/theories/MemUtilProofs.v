(** Proofs about the memory utilities: bit scans, masks, powers. *)
From Verif Require Import Base BaseLemmas Base64Model MemUtilModel MemUtilSpec Base64Proofs.

(** ** lsb *)
Lemma odd_part v : 0 < v -> exists n q, 0 <= n /\ 0 <= q /\ v = (2 * q + 1) * 2 ^ n.
Proof.
  destruct v as [|p|]; try lia. intros _. induction p as [p IH|p IH|].
  - exists 0, (Z.pos p). rewrite Z.pow_0_r. lia.
  - destruct IH as (n & q & N & Q & E). exists (n + 1), q.
    rewrite Z.pow_add_r, Z.pow_1_r by lia. split; [lia|]. split; [lia|].
    replace (Z.pos p~0) with (2 * Z.pos p) by lia. rewrite E. ring.
  - exists 0, 0. rewrite Z.pow_0_r. lia.
Qed.
Lemma odd_bit0 q : Z.testbit (2 * q + 1) 0 = true.
Proof. rewrite Z.bit0_odd, Z.add_comm, Z.mul_comm. replace (1 + q * 2) with (1 + 2 * q) by ring. rewrite Z.odd_add_mul_2. reflexivity. Qed.
Lemma lowest_odd n q : 0 <= n -> lowest_bit ((2 * q + 1) * 2 ^ n) n.
Proof.
  intros N. split; [auto|]. split.
  - rewrite Z.mul_pow2_bits by lia. rewrite Z.sub_diag. apply odd_bit0.
  - intros i I. apply Z.mul_pow2_bits_low. lia.
Qed.
Lemma lowest_unique v n n' : lowest_bit v n -> lowest_bit v n' -> n = n'.
Proof.
  intros (A & B & C) (A' & B' & C'). destruct (Z_lt_ge_dec n n') as [L|L].
  - rewrite C' in B by lia. discriminate.
  - destruct (Z_lt_ge_dec n' n) as [L'|L']; [|lia]. rewrite C in B' by lia. discriminate.
Qed.
Lemma bit_lt v n w : 0 <= v < 2 ^ w -> 0 <= w -> Z.testbit v n = true -> n < w.
Proof.
  intros V W T. destruct (Z_lt_ge_dec n w); auto. exfalso.
  rewrite <- (Z.mod_small v (2 ^ w)) in T by lia. rewrite Z.mod_pow2_bits_high in T by lia. discriminate.
Qed.

Lemma low_ones n q : 0 <= n -> 0 <= q ->
  Z.lxor ((2 * q + 1) * 2 ^ n) ((2 * q + 1) * 2 ^ n - 1) = Z.ones (n + 1).
Proof.
  intros N Q.
  assert (P : 0 < 2 ^ n) by (apply Z.pow_pos_nonneg; lia).
  assert (P1 : 2 ^ (n + 1) = 2 * 2 ^ n) by (rewrite Z.pow_add_r, Z.pow_1_r by lia; lia).
  replace ((2 * q + 1) * 2 ^ n) with (q * 2 ^ (n + 1) + 2 ^ n) by (rewrite P1; ring).
  replace (q * 2 ^ (n + 1) + 2 ^ n - 1) with (q * 2 ^ (n + 1) + (2 ^ n - 1)) by ring.
  rewrite <- lor_add by lia. rewrite <- lor_add by lia.
  replace (2 ^ n - 1) with (Z.ones n) by (rewrite Z.ones_equiv; lia).
  apply Z.bits_inj'. intros i I. rewrite Z.lxor_spec, !Z.lor_spec.
  destruct (Z_lt_ge_dec i (n + 1)) as [L|L].
  - rewrite (Z.mul_pow2_bits_low q (n + 1) i) by lia. rewrite (Z.ones_spec_low (n + 1)) by lia.
    rewrite Z.pow2_bits_eqb by lia. simpl.
    destruct (Z.eqb_spec n i) as [E|E].
    + subst. rewrite Z.ones_spec_high by lia. reflexivity.
    + rewrite Z.ones_spec_low by lia. reflexivity.
  - rewrite (Z.ones_spec_high (n + 1)), (Z.ones_spec_high n) by lia. rewrite Z.pow2_bits_false by lia.
    rewrite !orb_false_r. apply xorb_nilpotent.
Qed.
Lemma shift_count_ok : forall fuel n c, 0 <= n -> n < Z.of_nat fuel -> shift_count fuel (Z.ones n) c = Ok (c + n).
Proof.
  induction fuel as [|fuel IH]; intros n c N F; [lia|]. cbn [shift_count].
  destruct (Z.eqb_spec (Z.ones n) 0) as [E|E].
  - rewrite Z.ones_equiv in E. destruct (Z.eq_dec n 0); [subst; f_equal; lia|].
    assert (2 ^ 1 <= 2 ^ n) by (apply Z.pow_le_mono_r; lia). lia.
  - assert (n <> 0) by (intros ->; apply E; reflexivity).
    replace (Z.shiftr (Z.ones n) 1) with (Z.ones (n - 1)).
    + rewrite IH by lia. f_equal. lia.
    + rewrite Z.shiftr_div_pow2, Z.ones_div_pow2 by lia. reflexivity.
Qed.
Lemma lsb_fallback_ok v n : 0 < v < 2 ^ 64 -> lowest_bit v n -> lsb_fallback v = Ok n.
Proof.
  intros V L. destruct (odd_part v) as (n' & q & N & Q & E); [lia|].
  assert (n = n') by (eapply lowest_unique; [exact L|rewrite E; apply lowest_odd; auto]). subst n'.
  assert (n < 64) by (destruct L as (_ & T & _); apply (bit_lt v n 64); auto; lia).
  unfold lsb_fallback. destruct (Z.eqb_spec v 0); [lia|].
  rewrite E, low_ones by lia. rewrite Z.shiftr_div_pow2, Z.ones_div_pow2 by lia.
  replace (n + 1 - 1) with n by lia. rewrite shift_count_ok by lia. f_equal.
Qed.
Lemma ctz_from_ok v n : forall fuel i, lowest_bit v n -> 0 <= i <= n -> n < i + Z.of_nat fuel -> ctz_from fuel i v = Ok n.
Proof.
  induction fuel as [|fuel IH]; intros i L I F; [lia|]. cbn [ctz_from]. destruct L as (A & B & C).
  destruct (Z.eq_dec i n) as [->|D]; [rewrite B; auto|].
  rewrite C by lia. apply IH; [split; auto|lia|lia].
Qed.
Lemma lsb_ok w v n : 0 < v < 2 ^ bits w -> lowest_bit v n -> lsb w v = Ok n.
Proof.
  intros V L. pose proof (bits_pos w).
  assert (n < bits w) by (destruct L as (_ & T & _); apply (bit_lt v n (bits w)); auto; lia).
  unfold lsb, ctz. destruct (Z.eqb_spec v 0); [lia|].
  apply ctz_from_ok; auto; destruct L; destruct w; simpl in *; lia.
Qed.
Lemma land1 x : negb (Z.land x 1 =? 0) = Z.testbit x 0.
Proof.
  change 1 with (Z.ones 1). rewrite Z.land_ones by lia. rewrite Z.bit0_odd, Zodd_mod.
  change (2 ^ 1) with 2. pose proof (Z.mod_pos_bound x 2).
  destruct (Z.eqb_spec (x mod 2) 0); destruct (Zeq_bool (x mod 2) 1) eqn:E; try reflexivity.
  - apply Zeq_bool_eq in E. lia.
  - apply Zeq_bool_neq in E. lia.
Qed.
Lemma lsb11_loop v n : forall fuel j, lowest_bit v n -> 0 <= j <= n -> n - j + 1 < Z.of_nat fuel ->
  lsb11_ fuel (Z.shiftr v j) j (Z.testbit v j) = Ok n.
Proof.
  induction fuel as [|fuel IH]; intros j L I F; [lia|]. cbn [lsb11_].
  destruct L as (A & B & C). destruct (Z.eq_dec j n) as [->|D]; [rewrite B; auto|].
  rewrite C by lia. rewrite land1, Z.shiftr_shiftr by lia. rewrite Z.shiftr_spec by lia.
  replace (0 + (j + 1)) with (j + 1) by lia. apply IH; [split; auto|lia|lia].
Qed.
Lemma lsb11_ok v n : 0 < v < 2 ^ 64 -> lowest_bit v n -> lsb11 v = Ok n.
Proof.
  intros V L. assert (n < 64) by (destruct L as (_ & T & _); apply (bit_lt v n 64); auto; lia).
  unfold lsb11. destruct (Z.eqb_spec v 0); [lia|]. rewrite land1.
  rewrite <- (Z.shiftr_0_r v) at 1. apply lsb11_loop; auto; destruct L; lia.
Qed.
Lemma pow64 w : 2 ^ bits w <= 2 ^ 64.
Proof. apply Z.pow_le_mono_r; [lia|]. destruct w; simpl; lia. Qed.
Lemma lsb_all w v : 0 < v < 2 ^ bits w ->
  exists n, lowest_bit v n /\ n < bits w /\ lsb w v = Ok n /\ lsb_fallback v = Ok n /\ lsb11 v = Ok n.
Proof.
  intros V. destruct (odd_part v) as (n & q & N & Q & E); [lia|]. exists n.
  assert (L : lowest_bit v n) by (rewrite E; apply lowest_odd; auto).
  pose proof (pow64 w). pose proof (bits_pos w). repeat split; try apply L; auto.
  - destruct L as (_ & T & _). apply (bit_lt v n (bits w)); auto; lia.
  - apply lsb_ok; auto.
  - apply lsb_fallback_ok; auto; lia.
  - apply lsb11_ok; auto; lia.
Qed.

(** ** msb *)
Lemma highest_log2 v : 0 < v -> highest_bit v (Z.log2 v).
Proof.
  intros V. split; [apply Z.log2_nonneg|]. split; [apply Z.bit_log2; auto|].
  intros i I. apply Z.bits_above_log2; lia.
Qed.
Lemma mask_hit v k : 0 < k -> 0 < v < 2 ^ (2 * k) ->
  (Z.land v (Z.shiftl (Z.ones k) k) =? 0) = (v <? 2 ^ k).
Proof.
  intros K V. pose proof (Z.log2_nonneg v).
  assert (B : forall i, 0 <= i -> Z.testbit (Z.shiftl (Z.ones k) k) i = (k <=? i) && (i <? 2 * k)).
  { intros i I. destruct (Z_lt_ge_dec i k).
    - rewrite Z.shiftl_spec_low by lia. symmetry. replace (k <=? i) with false by lia. reflexivity.
    - rewrite Z.shiftl_spec_high by lia. destruct (Z_lt_ge_dec i (2 * k)).
      + rewrite Z.ones_spec_low by lia. lia.
      + rewrite Z.ones_spec_high by lia. lia. }
  destruct (Z.ltb_spec v (2 ^ k)) as [L|L].
  - apply Z.eqb_eq. apply Z.bits_inj'. intros i I. rewrite Z.land_spec, Z.bits_0, B by lia.
    destruct (Z_lt_ge_dec i k); [replace (k <=? i) with false by lia; apply andb_false_r|].
    rewrite <- (Z.mod_small v (2 ^ k)) by lia. rewrite Z.mod_pow2_bits_high by lia. reflexivity.
  - apply Z.eqb_neq. intros E.
    assert (k <= Z.log2 v) by (apply Z.log2_le_pow2; lia).
    assert (Z.log2 v < 2 * k) by (apply Z.log2_lt_pow2; lia).
    assert (T : Z.testbit (Z.land v (Z.shiftl (Z.ones k) k)) (Z.log2 v) = true).
    { rewrite Z.land_spec, B, Z.bit_log2 by lia. lia. }
    rewrite E, Z.bits_0 in T. discriminate.
Qed.
Lemma lor_pow n j : 0 <= j -> n mod (2 * 2 ^ j) = 0 -> Z.lor n (2 ^ j) = n + 2 ^ j.
Proof.
  intros J M. assert (0 < 2 ^ j) by (apply Z.pow_pos_nonneg; lia).
  replace (2 * 2 ^ j) with (2 ^ (j + 1)) in M by (rewrite Z.pow_add_r, Z.pow_1_r by lia; lia).
  assert (0 < 2 ^ (j + 1)) by (apply Z.pow_pos_nonneg; lia).
  rewrite (Z.div_mod n (2 ^ (j + 1))) by lia. rewrite M, Z.add_0_r, Z.mul_comm.
  apply lor_add; [lia|]. split; [lia|]. apply Z.pow_lt_mono_r; lia.
Qed.
(** one halving step: [mv] holds the number of bits still to look at *)
Definition msb_inv (v0 k : Z) (vn : Z * Z) : Prop :=
  0 < fst vn < 2 ^ k /\ Z.log2 v0 = Z.log2 (fst vn) + snd vn /\ snd vn mod k = 0.
Lemma msb_step_ok v0 j mask k vn : 0 <= j -> k = 2 ^ j -> mask = Z.shiftl (Z.ones k) k ->
  msb_inv v0 (2 * k) vn -> msb_inv v0 k (msb_step mask k vn).
Proof.
  intros J EK EM. destruct vn as [v n]. intros (V & L & N). cbn [fst snd] in *.
  assert (0 < k) by (subst k; apply Z.pow_pos_nonneg; lia).
  assert (N' : n mod k = 0).
  { apply Z.mod_divide in N; [|lia]. apply Z.mod_divide; [lia|]. eapply Z.divide_trans; [|exact N]. exists 2; lia. }
  unfold msb_step. rewrite EM, mask_hit by lia.
  destruct (Z.ltb_spec v (2 ^ k)) as [B|B].
  - split; [|split]; cbn [fst snd]; auto; lia.
  - pose proof (lor_pow n j J) as LP. rewrite <- EK in LP. rewrite (LP N).
    assert (k <= Z.log2 v) by (apply Z.log2_le_pow2; lia).
    assert (P : 2 ^ (2 * k) = 2 ^ k * 2 ^ k) by (rewrite <- Z.pow_add_r by lia; f_equal; lia).
    assert (0 < 2 ^ k) by (apply Z.pow_pos_nonneg; lia).
    split; [|split]; cbn [fst snd].
    + rewrite Z.shiftr_div_pow2 by lia. split; [apply Z.div_str_pos; lia|].
      apply Z.div_lt_upper_bound; lia.
    + rewrite Z.log2_shiftr by lia. lia.
    + rewrite Z.add_mod, N', Z_mod_same_full by lia. reflexivity.
Qed.
Lemma msb_inv_start v k : 0 < v < 2 ^ k -> 0 < k -> msb_inv v k (v, 0).
Proof. intros. split; [|split]; cbn [fst snd]; auto; lia. Qed.
Lemma msb_inv_end v vn : msb_inv v 1 vn -> snd vn = Z.log2 v.
Proof.
  intros (A & B & _). change (2 ^ 1) with 2 in A. assert (fst vn = 1) as E by lia.
  rewrite E in B. change (Z.log2 1) with 0 in B. lia.
Qed.
Lemma msb_fallback_ok w v : 0 < v < 2 ^ bits w -> msb_fallback w v = Ok (Z.log2 v).
Proof.
  intros V. unfold msb_fallback. destruct (Z.eqb_spec v 0); [lia|]. f_equal.
  apply msb_inv_end.
  destruct w; simpl bits in V;
  repeat match goal with
  | |- msb_inv ?v ?k (msb_step _ 1 _) => apply (msb_step_ok v 0); [lia|reflexivity|reflexivity|]
  | |- msb_inv ?v ?k (msb_step _ 2 _) => apply (msb_step_ok v 1); [lia|reflexivity|reflexivity|]
  | |- msb_inv ?v ?k (msb_step _ 4 _) => apply (msb_step_ok v 2); [lia|reflexivity|reflexivity|]
  | |- msb_inv ?v ?k (msb_step _ 8 _) => apply (msb_step_ok v 3); [lia|reflexivity|reflexivity|]
  | |- msb_inv ?v ?k (msb_step _ 16 _) => apply (msb_step_ok v 4); [lia|reflexivity|reflexivity|]
  | |- msb_inv ?v ?k (msb_step _ 32 _) => apply (msb_step_ok v 5); [lia|reflexivity|reflexivity|]
  end; apply msb_inv_start; lia.
Qed.
Lemma clz_from_ok v n : highest_bit v n -> forall i k, n < Z.of_nat i ->
  clz_from i k v = Ok (k + (Z.of_nat i - 1 - n)).
Proof.
  intros (A & B & C). induction i as [|i IH]; intros k I; [lia|]. cbn [clz_from].
  destruct (Z.eq_dec (Z.of_nat i) n) as [E|E].
  - rewrite E, B. f_equal. lia.
  - rewrite C by lia. rewrite IH by lia. f_equal. lia.
Qed.
Lemma msb_ok w v : 0 < v < 2 ^ bits w -> msb w v = Ok (Z.log2 v).
Proof.
  intros V. pose proof (highest_log2 v ltac:(lia)) as H. pose proof (Z.log2_nonneg v).
  assert (L : Z.log2 v < bits w) by (apply Z.log2_lt_pow2; lia).
  unfold msb. destruct (Z.eqb_spec v 0); [lia|].
  destruct w; simpl bits in L; unfold clz; rewrite (clz_from_ok v _ H) by lia; cbn [bind]; f_equal; rewrite u32_id by lia; lia.
Qed.
Lemma shiftr_zero v j : 0 < v -> 0 <= j -> (Z.shiftr v j =? 0) = (Z.log2 v <? j).
Proof.
  intros V J. rewrite Z.shiftr_div_pow2 by lia. assert (0 < 2 ^ j) by (apply Z.pow_pos_nonneg; lia).
  destruct (Z.ltb_spec (Z.log2 v) j) as [L|L].
  - apply Z.log2_lt_pow2 in L; [|lia]. apply Z.eqb_eq. apply Z.div_small. lia.
  - apply Z.log2_le_pow2 in L; [|lia]. apply Z.eqb_neq. assert (1 <= v / 2 ^ j); [|lia].
    apply Z.div_le_lower_bound; lia.
Qed.
Lemma msb11_loop w v : 0 < v < 2 ^ bits w -> forall fuel j, 0 <= j <= Z.log2 v + 1 ->
  Z.log2 v + 1 - j < Z.of_nat fuel -> msb11_ fuel w (Z.shiftr v j) j (Z.shiftr v j =? 0) = Ok (Z.log2 v).
Proof.
  intros V. pose proof (Z.log2_nonneg v).
  assert (L : Z.log2 v < bits w) by (apply Z.log2_lt_pow2; lia). pose proof (bits_pos w).
  induction fuel as [|fuel IH]; intros j J F; [lia|]. cbn [msb11_]. rewrite shiftr_zero by lia.
  destruct (Z.ltb_spec (Z.log2 v) j) as [B|B].
  - replace (j - 1) with (Z.log2 v) by lia. rewrite u32_id by lia. reflexivity.
  - rewrite Z.shiftr_shiftr by lia. rewrite wrap_id; [apply IH; lia|].
    unfold in_range, imin, imax; cbn [isgn iw]. assert (2 ^ 8 <= 2 ^ bits w) by (apply Z.pow_le_mono_r; lia). lia.
Qed.
Lemma msb11_ok w v : 0 < v < 2 ^ bits w -> msb11 w v = Ok (Z.log2 v).
Proof.
  intros V. pose proof (Z.log2_nonneg v).
  assert (L : Z.log2 v < bits w) by (apply Z.log2_lt_pow2; lia). pose proof (bits_pos w).
  unfold msb11. rewrite <- (Z.shiftr_0_r v) at 1 2. apply msb11_loop; lia.
Qed.
Lemma msb_all w v : 0 < v < 2 ^ bits w ->
  exists n, highest_bit v n /\ n < bits w /\ msb w v = Ok n /\ msb_fallback w v = Ok n /\ msb11 w v = Ok n.
Proof.
  intros V. pose proof (bits_pos w). exists (Z.log2 v).
  split; [apply highest_log2; lia|]. split; [apply Z.log2_lt_pow2; lia|].
  split; [apply msb_ok; auto|]. split; [apply msb_fallback_ok; auto|apply msb11_ok; auto].
Qed.

(** ** contiguous_mask *)
Lemma wrap_testbit t x i : 0 <= i < bits (iw t) -> Z.testbit (wrap t x) i = Z.testbit x i.
Proof.
  intros I. rewrite <- (Z.mod_pow2_bits_low (wrap t x) (bits (iw t))) by lia.
  rewrite wrap_mod. apply Z.mod_pow2_bits_low. lia.
Qed.
Lemma promote_bits t : bits (iw t) <= bits (iw (promote t)).
Proof. destruct t as [w s]; destruct w; simpl; lia. Qed.
Lemma mask_loop t : forall n i r first last, in_range t r -> 0 <= first <= i -> i + Z.of_nat n = last -> last <= bits (iw t) ->
  (forall j, 0 <= j < bits (iw t) -> Z.testbit r j = (first <=? j) && (j <? i)) ->
  exists r', contiguous_mask_ t n i r = Ok r' /\ mask_of t first last r'.
Proof.
  induction n as [|n IH]; intros i r first last R F L B H; cbn [contiguous_mask_].
  - exists r. split; auto. replace last with i by lia. split; auto.
  - unfold shl1. pose proof (promote_bits t).
    replace ((0 <=? i) && (i <? bits (iw (promote t)))) with true by lia. cbn [bind].
    apply IH; try lia; [apply wrap_range|].
    intros j J. rewrite wrap_testbit by lia. rewrite Z.lor_spec, wrap_testbit by lia.
    rewrite Z.pow2_bits_eqb, H by lia. destruct (Z.eqb_spec i j); lia.
Qed.
Lemma contiguous_mask_ok t first last : 0 <= first <= last -> last <= bits (iw t) ->
  exists r, contiguous_mask t first last = Ok r /\ mask_of t first last r.
Proof.
  intros F L. unfold contiguous_mask. apply mask_loop; try lia.
  - unfold in_range, imin, imax. destruct t as [w s]; destruct w, s; simpl; lia.
  - intros j J. rewrite Z.bits_0. lia.
Qed.
Lemma mask_unique t f l r r' : mask_of t f l r -> mask_of t f l r' -> r = r'.
Proof.
  intros (R & H) (R' & H').
  assert (E : r mod 2 ^ bits (iw t) = r' mod 2 ^ bits (iw t)).
  { pose proof (bits_pos (iw t)). apply Z.bits_inj'. intros i I.
    destruct (Z_lt_ge_dec i (bits (iw t))).
    - rewrite !Z.mod_pow2_bits_low by lia. rewrite H, H' by lia. reflexivity.
    - rewrite !Z.mod_pow2_bits_high by lia. reflexivity. }
  rewrite <- (wrap_id t r R), <- (wrap_id t r' R'). apply wrap_eq, E.
Qed.
Lemma contiguous_mask_big t first last : 0 <= first < last -> bits (iw (promote t)) < last -> contiguous_mask t first last = Ub.
Proof.
  intros F L. unfold contiguous_mask. remember (Z.to_nat (last - first)) as n eqn:N.
  assert (E : first + Z.of_nat n = last) by lia. clear N. revert F E. generalize 0 at 2 as r. revert first.
  induction n as [|n IH]; intros first r F E; [lia|]. cbn [contiguous_mask_]. unfold shl1.
  destruct (Z_lt_ge_dec first (bits (iw (promote t)))).
  - replace ((0 <=? first) && (first <? bits (iw (promote t)))) with true by lia. cbn [bind]. apply IH; lia.
  - replace ((0 <=? first) && (first <? bits (iw (promote t)))) with false by lia. reflexivity.
Qed.

(** *** the compile-time version *)
Definition narrow_signed (t : ity) : bool := isgn t && match iw t with W8 | W16 => true | _ => false end.
Lemma in_range_sgn w x : in_range (Ity w true) x <-> (Z.shiftr x (bits w - 1) = 0 \/ Z.shiftr x (bits w - 1) = -1).
Proof.
  unfold in_range, imin, imax; cbn [isgn iw]. pose proof (bits_pos w). rewrite Z.shiftr_div_pow2 by lia.
  assert (0 < 2 ^ (bits w - 1)) by (apply Z.pow_pos_nonneg; lia).
  set (p := 2 ^ (bits w - 1)) in *. split; intros D.
  - destruct (Z_lt_ge_dec x 0).
    + right. symmetry. apply Z.div_unique with (x + p); lia.
    + left. apply Z.div_small. lia.
  - pose proof (Z.div_mod x p ltac:(lia)). pose proof (Z.mod_pos_bound x p ltac:(lia)).
    destruct D as [D|D]; rewrite D in *; lia.
Qed.
Lemma lor_range t a b : in_range t a -> in_range t b -> in_range t (Z.lor a b).
Proof.
  destruct t as [w [|]].
  - rewrite !in_range_sgn, Z.shiftr_lor. intros [A|A] [B|B]; rewrite A, B; simpl; auto.
  - unfold in_range, imin, imax; cbn [isgn iw]. intros A B. pose proof (bits_pos w).
    assert (0 <= Z.lor a b) by (apply Z.lor_nonneg; lia). split; [auto|].
    assert (Z.lor a b < 2 ^ bits w); [|lia].
    destruct (Z.eq_dec (Z.lor a b) 0) as [E|E]; [rewrite E; apply Z.pow_pos_nonneg; lia|].
    apply Z.log2_lt_pow2; [lia|]. rewrite Z.log2_lor by lia.
    assert (G : forall c, 0 <= c <= 2 ^ bits w - 1 -> Z.log2 c < bits w).
    { intros c C. destruct (Z.eq_dec c 0) as [->|N]; [simpl; lia|]. apply Z.log2_lt_pow2; lia. }
    pose proof (G a A). pose proof (G b B). lia.
Qed.
Lemma shl1_range t i : 0 <= i < bits (iw t) -> (narrow_signed t = true -> i < bits (iw t) - 1) ->
  in_range t (wrap (promote t) (2 ^ i)).
Proof.
  intros I N. assert (0 < 2 ^ i) by (apply Z.pow_pos_nonneg; lia).
  destruct t as [[| | |] [|]]; try apply (wrap_range (Ity W32 _)); try apply (wrap_range (Ity W64 _)); cbn [promote iw bits] in *.
  1: assert (2 ^ i <= 2 ^ 6) by (apply Z.pow_le_mono_r; [lia|]; assert (i < 7) by (apply N; reflexivity); lia).
  2: assert (2 ^ i <= 2 ^ 7) by (apply Z.pow_le_mono_r; lia).
  3: assert (2 ^ i <= 2 ^ 14) by (apply Z.pow_le_mono_r; [lia|]; assert (i < 15) by (apply N; reflexivity); lia).
  4: assert (2 ^ i <= 2 ^ 15) by (apply Z.pow_le_mono_r; lia).
  all: rewrite wrap_id; unfold in_range; cbv [imin imax isgn iw bits i32]; lia.
Qed.
Lemma in_rangeb_true t v : in_range t v -> in_rangeb t v = true.
Proof. unfold in_range, in_rangeb. lia. Qed.
Lemma ctgmsk_loop t : forall n fuel i r last, (n < fuel)%nat -> in_range t r -> 0 <= i -> i + Z.of_nat n = last -> last <= bits (iw t) ->
  (narrow_signed t = true -> (0 < n)%nat -> last < bits (iw t)) ->
  ctgmsk11_ fuel t r i last (negb (i =? last)) = contiguous_mask_ t n i r.
Proof.
  induction n as [|n IH]; intros fuel i r last F R I E L N; (destruct fuel as [|fuel]; [lia|]); cbn [ctgmsk11_ contiguous_mask_].
  - replace (negb (i =? last)) with false by lia. reflexivity.
  - replace (negb (i =? last)) with true by lia. pose proof (promote_bits t). unfold shl1.
    replace ((0 <=? i) && (i <? bits (iw (promote t)))) with true by lia. cbn [bind].
    assert (G : in_range t (Z.lor r (wrap (promote t) (2 ^ i)))).
    { apply lor_range; auto. apply shl1_range; [lia|]. intros Q. specialize (N Q). lia. }
    rewrite in_rangeb_true by auto. rewrite (wrap_id t) by auto. apply IH; auto; lia.
Qed.
Lemma contiguous_mask11_ok t first last : 0 <= first <= last -> last <= bits (iw t) ->
  (narrow_signed t = true -> first < last -> last < bits (iw t)) ->
  contiguous_mask11 t first last = contiguous_mask t first last.
Proof.
  intros F L N. unfold contiguous_mask11, contiguous_mask. pose proof (bits_pos (iw t)).
  apply ctgmsk_loop; try lia.
  unfold in_range, imin, imax. destruct t as [w s]; destruct w, s; simpl; lia.
Qed.
(** setting the sign bit of a narrow type does not compile *)
Lemma ctgmsk_narrow t : narrow_signed t = true -> forall n fuel i r, (n < fuel)%nat -> in_range t r -> 0 <= r -> 0 <= i -> (0 < n)%nat ->
  i + Z.of_nat n = bits (iw t) -> ctgmsk11_ fuel t r i (bits (iw t)) (negb (i =? bits (iw t))) = Err.
Proof.
  intros N. induction n as [|n IH]; intros fuel i r F R P I NZ E; [lia|]. destruct fuel as [|fuel]; [lia|]. cbn [ctgmsk11_].
  replace (negb (i =? bits (iw t))) with true by lia. pose proof (promote_bits t). unfold shl1.
  replace ((0 <=? i) && (i <? bits (iw (promote t)))) with true by lia. cbn [bind].
  assert (Q : 0 < 2 ^ i) by (apply Z.pow_pos_nonneg; lia).
  assert (W : wrap (promote t) (2 ^ i) = 2 ^ i).
  { apply wrap_id. assert (i < 16) by (destruct t as [[| | |] [|]]; simpl in *; try discriminate; lia).
    assert (2 ^ i <= 2 ^ 15) by (apply Z.pow_le_mono_r; lia).
    destruct t as [[| | |] [|]]; try discriminate N; unfold in_range; cbv [promote imin imax isgn iw bits i32]; lia. }
  rewrite W. destruct n as [|n].
  - assert (B : Z.testbit (Z.lor r (2 ^ i)) i = true) by (rewrite Z.lor_spec, Z.pow2_bits_true by lia; apply orb_true_r).
    assert (Z.lor r (2 ^ i) >= 0) by (assert (0 <= Z.lor r (2 ^ i)) by (apply Z.lor_nonneg; lia); lia).
    replace (in_rangeb t (Z.lor r (2 ^ i))) with false; [reflexivity|].
    unfold in_rangeb, imax, imin. replace (isgn t) with true by (destruct t as [w [|]]; auto; discriminate).
    symmetry. apply andb_false_intro2. apply Z.leb_gt.
    destruct (Z_lt_ge_dec (Z.lor r (2 ^ i)) (2 ^ i)) as [X|X].
    + apply (bit_lt _ i i) in B; try lia.
    + replace (bits (iw t) - 1) with i by lia. lia.
  - assert (G : in_range t (Z.lor r (2 ^ i))).
    { apply lor_range; auto. rewrite <- W. apply shl1_range; [lia|]. intros _. lia. }
    rewrite in_rangeb_true by auto. apply IH; auto; try lia. apply Z.lor_nonneg. lia.
Qed.
Lemma contiguous_mask11_narrow t first : narrow_signed t = true -> 0 <= first < bits (iw t) ->
  contiguous_mask11 t first (bits (iw t)) = Err.
Proof.
  intros N F. unfold contiguous_mask11. pose proof (bits_pos (iw t)).
  apply (ctgmsk_narrow t N (Z.to_nat (bits (iw t) - first))); try lia.
  unfold in_range, imin, imax. destruct t as [w s]; destruct w, s; simpl; lia.
Qed.
