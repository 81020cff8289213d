(** Reading digits, one or eight at a time. *)
From Verif Require Import Base BaseLemmas FloatTable FloatModel FloatSpec.
From Verif Require Import FloatProofs1 FloatProofs2 FloatProofs6.
From Coq Require Import Lia.
Open Scope Z_scope.

Lemma ch0 : ch "0" = 48. Proof. reflexivity. Qed.
Lemma ch9 : ch "9" = 57. Proof. reflexivity. Qed.
Lemma dig_range c : dig c <-> 48 <= c <= 57. Proof. unfold dig. rewrite ch0, ch9. reflexivity. Qed.
Lemma dec_from_dec a s : dec_from a s = a * 10 ^ len s + dec s.
Proof.
  unfold dec. revert a. induction s as [|c s IH]; intros a; cbn [dec_from]; [cbn; lia|].
  rewrite IH, (IH (10 * 0 + _)), len_cons, Z.pow_add_r by (try apply len_nonneg; lia). change (10 ^ 1) with 10. ring.
Qed.
Lemma dec_nil : dec [] = 0. Proof. reflexivity. Qed.
Lemma dec_cons c s : dec (c :: s) = (c - ch "0") * 10 ^ len s + dec s.
Proof. unfold dec. cbn [dec_from]. rewrite dec_from_dec. unfold dec. f_equal. Qed.
Lemma dec_app a b : dec (a ++ b) = dec a * 10 ^ len b + dec b.
Proof.
  induction a as [|c a IH]; [cbn [app]; rewrite dec_nil; lia|].
  cbn [app]. rewrite !dec_cons, IH, len_app, Z.pow_add_r by apply len_nonneg. ring.
Qed.
Lemma dec_one c : dec [c] = c - ch "0". Proof. unfold dec. cbn [dec_from]. lia. Qed.
Lemma dec_snoc a c : dec (a ++ [c]) = 10 * dec a + (c - ch "0").
Proof. rewrite dec_app, dec_one. change (10 ^ len [c]) with 10. lia. Qed.
Lemma pow10_pos n : 0 <= n -> 0 < 10 ^ n. Proof. intros. apply Z.pow_pos_nonneg; lia. Qed.
Lemma dec_range s : digs s -> 0 <= dec s < 10 ^ len s.
Proof.
  induction 1 as [|c s C S IH]; [split; [discriminate|reflexivity]|].
  rewrite dec_cons, len_cons, Z.pow_add_r by (try apply len_nonneg; lia). change (10 ^ 1) with 10.
  rewrite dig_range in C. rewrite ch0.
  assert ((c - 48) * 10 ^ len s <= 9 * 10 ^ len s) by (apply Z.mul_le_mono_nonneg_r; lia).
  assert (0 <= (c - 48) * 10 ^ len s) by (apply Z.mul_nonneg_nonneg; lia). lia.
Qed.
Lemma digs_app a b : digs (a ++ b) <-> digs a /\ digs b. Proof. apply Forall_app. Qed.
Lemma digs_cons c s : digs (c :: s) <-> dig c /\ digs s.
Proof. split; [intros H; inversion H; tauto|intros [A C]; now constructor]. Qed.

(** ** Eight digits in a word *)
Fixpoint le (s : list Z) : Z := match s with [] => 0 | c :: s => c + 256 * le s end.
Lemma read8_le c0 c1 c2 c3 c4 c5 c6 c7 : read8 c0 c1 c2 c3 c4 c5 c6 c7 = le [c0; c1; c2; c3; c4; c5; c6; c7].
Proof. unfold read8. cbn [le]. change (2 ^ 8) with 256. lia. Qed.
Lemma mask_two x : 0 <= x -> Z.land x 0x000000FF000000FF = x mod 256 + 2 ^ 32 * ((x / 2 ^ 32) mod 256).
Proof.
  intros X. change 0x000000FF000000FF with (Z.lor (Z.ones 8) (Z.shiftl (Z.ones 8) 32)).
  rewrite Z.land_lor_distr_r, Z.land_ones by lia. change (2 ^ 8) with 256.
  replace (Z.land x (Z.shiftl (Z.ones 8) 32)) with (((x / 2 ^ 32) mod 256) * 2 ^ 32).
  - rewrite lor_high; [lia|lia|]. assert (M := Z.mod_pos_bound x 256 ltac:(lia)). lia.
  - change 256 with (2 ^ 8). rewrite <- Z.land_ones, <- Z.shiftr_div_pow2, <- Z.shiftl_mul_pow2 by lia.
    apply Z.bits_inj'. intros n N. rewrite Z.land_spec. destruct (Z.lt_ge_cases n 32) as [C|C].
    + rewrite !Z.shiftl_spec_low by lia. now rewrite Bool.andb_false_r.
    + rewrite !Z.shiftl_spec_high, Z.land_spec, Z.shiftr_spec by lia. f_equal. f_equal. lia.
Qed.
Lemma parse_eight c0 c1 c2 c3 c4 c5 c6 c7 : digs [c0; c1; c2; c3; c4; c5; c6; c7] ->
  parse_eight_digits_unrolled (read8 c0 c1 c2 c3 c4 c5 c6 c7) = dec [c0; c1; c2; c3; c4; c5; c6; c7].
Proof.
  intros D. rewrite !digs_cons, !dig_range in D. destruct D as [D0 [D1 [D2 [D3 [D4 [D5 [D6 [D7 _]]]]]]]].
  unfold dec. cbn [dec_from]. rewrite ch0. rewrite read8_le. cbn [le].
  remember (c0 - 48) as d0 eqn:R0. remember (c1 - 48) as d1 eqn:R1. remember (c2 - 48) as d2 eqn:R2. remember (c3 - 48) as d3 eqn:R3.
  remember (c4 - 48) as d4 eqn:R4. remember (c5 - 48) as d5 eqn:R5. remember (c6 - 48) as d6 eqn:R6. remember (c7 - 48) as d7 eqn:R7.
  replace c0 with (d0 + 48) in * by lia. replace c1 with (d1 + 48) in * by lia. replace c2 with (d2 + 48) in * by lia.
  replace c3 with (d3 + 48) in * by lia. replace c4 with (d4 + 48) in * by lia. replace c5 with (d5 + 48) in * by lia.
  replace c6 with (d6 + 48) in * by lia. replace c7 with (d7 + 48) in * by lia. clear R0 R1 R2 R3 R4 R5 R6 R7.
  unfold parse_eight_digits_unrolled.
  set (v := d0 + 256 * (d1 + 256 * (d2 + 256 * (d3 + 256 * (d4 + 256 * (d5 + 256 * (d6 + 256 * d7))))))).
  replace (d0 + 48 + _ - 0x3030303030303030) with v by (unfold v; lia).
  rewrite (u64_id v) by (unfold v; lia).
  assert (V8 : Z.shiftr v 8 = d1 + 256 * (d2 + 256 * (d3 + 256 * (d4 + 256 * (d5 + 256 * (d6 + 256 * d7)))))).
  { rewrite Z.shiftr_div_pow2 by lia. change (2 ^ 8) with 256. symmetry. apply Z.div_unique with d0; unfold v; lia. }
  rewrite V8.
  set (t := 10 * d0 + d1 + 256 * (10 * d1 + d2 + 256 * (10 * d2 + d3 + 256 * (10 * d3 + d4 + 256 * (10 * d4 + d5 + 256 * (10 * d5 + d6 + 256 * (10 * d6 + d7 + 256 * (10 * d7)))))))).
  replace (v * 10 + _) with t by (unfold t, v; lia). rewrite (u64_id t) by (unfold t; lia). clear V8.
  rewrite !mask_two by (try apply Z.shiftr_nonneg; unfold t; lia). rewrite (Z.shiftr_div_pow2 t 16) by lia.
  assert (T0 : t mod 256 = 10 * d0 + d1).
  { symmetry. apply Z.mod_unique with (10 * d1 + d2 + 256 * (10 * d2 + d3 + 256 * (10 * d3 + d4 + 256 * (10 * d4 + d5 + 256 * (10 * d5 + d6 + 256 * (10 * d6 + d7 + 256 * (10 * d7))))))); unfold t; lia. }
  assert (T4 : (t / 2 ^ 32) mod 256 = 10 * d4 + d5).
  { replace (t / 2 ^ 32) with (10 * d4 + d5 + 256 * (10 * d5 + d6 + 256 * (10 * d6 + d7 + 256 * (10 * d7)))).
    - symmetry. apply Z.mod_unique with (10 * d5 + d6 + 256 * (10 * d6 + d7 + 256 * (10 * d7))); lia.
    - apply Z.div_unique with (10 * d0 + d1 + 256 * (10 * d1 + d2 + 256 * (10 * d2 + d3 + 256 * (10 * d3 + d4)))); unfold t; lia. }
  assert (TS : t / 2 ^ 16 = 10 * d2 + d3 + 256 * (10 * d3 + d4 + 256 * (10 * d4 + d5 + 256 * (10 * d5 + d6 + 256 * (10 * d6 + d7 + 256 * (10 * d7)))))).
  { symmetry. apply Z.div_unique with (10 * d0 + d1 + 256 * (10 * d1 + d2)); unfold t; lia. }
  rewrite T0, T4, TS.
  assert (T2 : (10 * d2 + d3 + 256 * (10 * d3 + d4 + 256 * (10 * d4 + d5 + 256 * (10 * d5 + d6 + 256 * (10 * d6 + d7 + 256 * (10 * d7)))))) mod 256 = 10 * d2 + d3).
  { symmetry. apply Z.mod_unique with (10 * d3 + d4 + 256 * (10 * d4 + d5 + 256 * (10 * d5 + d6 + 256 * (10 * d6 + d7 + 256 * (10 * d7))))); lia. }
  assert (T6 : ((10 * d2 + d3 + 256 * (10 * d3 + d4 + 256 * (10 * d4 + d5 + 256 * (10 * d5 + d6 + 256 * (10 * d6 + d7 + 256 * (10 * d7)))))) / 2 ^ 32) mod 256 = 10 * d6 + d7).
  { replace (_ / 2 ^ 32) with (10 * d6 + d7 + 256 * (10 * d7)).
    - symmetry. apply Z.mod_unique with (10 * d7); lia.
    - apply Z.div_unique with (10 * d2 + d3 + 256 * (10 * d3 + d4 + 256 * (10 * d4 + d5 + 256 * (10 * d5 + d6)))); lia. }
  rewrite T2, T6. clear T0 T4 TS T2 T6. clearbody t v. clear t v.
  set (a := 10 * d0 + d1). set (b := 10 * d4 + d5). set (c := 10 * d2 + d3). set (d := 10 * d6 + d7).
  assert (0 <= a < 100 /\ 0 <= b < 100 /\ 0 <= c < 100 /\ 0 <= d < 100) by (unfold a, b, c, d; lia).
  replace (10 * _ + d7) with (1000000 * a + 10000 * c + 100 * b + d) by (unfold a, b, c, d; lia).
  clearbody a b c d.
  assert (S1 : u64 ((a + 2 ^ 32 * b) * 0x000F424000000064) = 100 * a + 2 ^ 32 * (1000000 * a + 100 * b)).
  { symmetry. apply Z.mod_unique with (1000000 * b); lia. }
  assert (S2 : u64 ((c + 2 ^ 32 * d) * 0x0000271000000001) = c + 2 ^ 32 * (10000 * c + d)).
  { symmetry. apply Z.mod_unique with (10000 * d); lia. }
  rewrite S1, S2, u64_id by lia. rewrite Z.shiftr_div_pow2 by lia.
  replace (_ / 2 ^ 32) with (1000000 * a + 10000 * c + 100 * b + d); [apply u32_id; lia|].
  apply Z.div_unique with (100 * a + c); lia.
Qed.

Lemma join_bits x y n : 0 <= x < 256 -> 0 <= n -> Z.testbit (x + 256 * y) n = if n <? 8 then Z.testbit x n else Z.testbit y (n - 8).
Proof.
  intros X N. replace (x + 256 * y) with (Z.lor x (y * 2 ^ 8)) by (rewrite lor_high by (change (2 ^ 8) with 256; lia); change (2 ^ 8) with 256; lia).
  rewrite Z.lor_spec, <- Z.shiftl_mul_pow2 by lia. destruct (Z.ltb_spec n 8) as [C|C].
  - rewrite Z.shiftl_spec_low by lia. apply Bool.orb_false_r.
  - rewrite Z.shiftl_spec_high by lia. destruct (Z.eq_dec x 0) as [->|X0]; [now rewrite Z.testbit_0_l|].
    rewrite Z.bits_above_log2; [reflexivity|lia|]. apply Z.lt_le_trans with 8; [|lia]. apply Z.log2_lt_pow2; [lia|change (2 ^ 8) with 256; lia].
Qed.
Lemma small_bits op x y n : (forall a b k, 0 <= k -> Z.testbit (op a b) k = true -> Z.testbit a k = true \/ Z.testbit b k = true) ->
  (forall a b, 0 <= a -> 0 <= b -> 0 <= op a b) ->
  0 <= n -> 0 <= x < 2 ^ n -> 0 <= y < 2 ^ n -> 0 <= op x y < 2 ^ n.
Proof.
  intros O NN N X Y. assert (P := NN x y ltac:(lia) ltac:(lia)). split; [exact P|].
  destruct (Z.eq_dec (op x y) 0) as [->|Z0]; [lia|]. apply Z.log2_lt_pow2; [lia|].
  destruct (Z.lt_ge_cases (Z.log2 (op x y)) n) as [C|C]; [exact C|exfalso].
  assert (T := Z.bit_log2 (op x y) ltac:(lia)).
  assert (L0 : 0 <= Z.log2 (op x y)) by apply Z.log2_nonneg.
  assert (AB : forall a, 0 <= a < 2 ^ n -> Z.testbit a (Z.log2 (op x y)) = false).
  { intros a A. destruct (Z.eq_dec a 0) as [->|A0]; [apply Z.testbit_0_l|]. apply Z.bits_above_log2; [lia|].
    apply Z.lt_le_trans with n; [|exact C]. apply Z.log2_lt_pow2; lia. }
  apply O in T; [|exact L0]. destruct T as [T|T]; rewrite AB in T by assumption; discriminate.
Qed.
Lemma lor_small x y n : 0 <= n -> 0 <= x < 2 ^ n -> 0 <= y < 2 ^ n -> 0 <= Z.lor x y < 2 ^ n.
Proof.
  apply (small_bits Z.lor).
  - intros a b k K. rewrite Z.lor_spec. apply Bool.orb_true_iff.
  - intros a b A C. now apply Z.lor_nonneg.
Qed.
Lemma land_small x y n : 0 <= n -> 0 <= x < 2 ^ n -> 0 <= y < 2 ^ n -> 0 <= Z.land x y < 2 ^ n.
Proof.
  apply (small_bits Z.land).
  - intros a b k K. rewrite Z.land_spec. intros H. apply Bool.andb_true_iff in H. tauto.
  - intros a b A C. apply Z.land_nonneg. tauto.
Qed.
Lemma lor_join x y a b : 0 <= x < 256 -> 0 <= y < 256 -> Z.lor (x + 256 * a) (y + 256 * b) = Z.lor x y + 256 * Z.lor a b.
Proof.
  intros X Y. apply Z.bits_inj'. intros n N. rewrite Z.lor_spec, !join_bits by (try apply (lor_small x y 8); assumption || lia).
  destruct (n <? 8); now rewrite Z.lor_spec.
Qed.
Lemma land_join x y a b : 0 <= x < 256 -> 0 <= y < 256 -> Z.land (x + 256 * a) (y + 256 * b) = Z.land x y + 256 * Z.land a b.
Proof.
  intros X Y. apply Z.bits_inj'. intros n N. rewrite Z.land_spec, !join_bits by (try apply (land_small x y 8); assumption || lia).
  destruct (n <? 8); now rewrite Z.land_spec.
Qed.
Definition fast8 (n : nat) (v : Z) : bool :=
  Z.land (Z.lor ((v + le (repeat 0x46 n)) mod 256 ^ Z.of_nat n) ((v - le (repeat 0x30 n)) mod 256 ^ Z.of_nat n)) (le (repeat 0x80 n)) =? 0.
Lemma mod_join n x y : 0 <= n -> 0 <= x < 256 -> (x + 256 * y) mod 256 ^ (1 + n) = x + 256 * (y mod 256 ^ n).
Proof.
  intros N X. rewrite Z.pow_add_r by lia. change (256 ^ 1) with 256. assert (P : 0 < 256 ^ n) by (apply Z.pow_pos_nonneg; lia).
  rewrite Z.rem_mul_r by lia.
  replace ((x + 256 * y) mod 256) with x by (apply Z.mod_unique with y; lia).
  replace ((x + 256 * y) / 256) with y by (apply Z.div_unique with x; lia). reflexivity.
Qed.
Definition low_ok (c : Z) : bool := Z.land (Z.lor ((c + 0x46) mod 256) ((c - 0x30) mod 256)) 0x80 =? 0.
Lemma low_digit c : is_byte c -> low_ok c = is_integer c.
Proof.
  intros C. assert (H : forallb (fun i => Bool.eqb (low_ok (Z.of_nat i)) (is_integer (Z.of_nat i))) (seq 0 256) = true) by (vm_compute; reflexivity).
  rewrite forallb_forall in H. specialize (H (Z.to_nat c)). unfold is_byte in C. rewrite Z2Nat.id in H by lia.
  apply Bool.eqb_prop, H, in_seq. lia.
Qed.
Lemma is_integer_dig c : is_integer c = true <-> dig c.
Proof. unfold is_integer, dig. lia. Qed.
Lemma fast8_step n c v : is_byte c -> fast8 (S n) (c + 256 * v) = is_integer c && fast8 n v.
Proof.
  intros C. unfold fast8. rewrite Nat2Z.inj_succ. replace (Z.succ (Z.of_nat n)) with (1 + Z.of_nat n) by lia.
  set (k := Z.of_nat n). assert (K : 0 <= k) by lia. cbn [repeat le].
  set (A := le (repeat 0x46 n)). set (S := le (repeat 0x30 n)). set (M := le (repeat 0x80 n)).
  assert (Q1 : c + 256 * v + (70 + 256 * A) = (c + 70) mod 256 + 256 * (v + A + (c + 70) / 256)).
  { assert (D := Z.div_mod (c + 70) 256 ltac:(lia)). lia. }
  assert (Q2 : c + 256 * v - (48 + 256 * S) = (c - 48) mod 256 + 256 * (v - S + (c - 48) / 256)).
  { assert (D := Z.div_mod (c - 48) 256 ltac:(lia)). lia. }
  rewrite Q1, Q2. assert (M1 := Z.mod_pos_bound (c + 70) 256 ltac:(lia)). assert (M2 := Z.mod_pos_bound (c - 48) 256 ltac:(lia)).
  rewrite !mod_join, lor_join, land_join by (try apply (lor_small _ _ 8); lia).
  assert (LD := low_digit c C). unfold low_ok in LD.
  set (lo := Z.land (Z.lor ((c + 70) mod 256) ((c - 48) mod 256)) 128) in *.
  assert (LB : 0 <= lo < 256).
  { apply (land_small _ _ 8); [lia| |change (2 ^ 8) with 256; lia]. apply (lor_small _ _ 8); change (2 ^ 8) with 256; lia. }
  destruct (is_integer c) eqn:I.
  - apply is_integer_dig in I. rewrite dig_range in I. rewrite andb_true_l.
    replace ((c + 70) / 256) with 0 by (apply Z.div_unique with (c + 70); lia).
    replace ((c - 48) / 256) with 0 by (apply Z.div_unique with (c - 48); lia). rewrite !Z.add_0_r.
    apply Z.eqb_eq in LD. rewrite LD. destruct (Z.eqb_spec (Z.land (Z.lor ((v + A) mod 256 ^ k) ((v - S) mod 256 ^ k)) M) 0) as [->|N]; [reflexivity|].
    apply Z.eqb_neq. lia.
  - rewrite andb_false_l. apply Z.eqb_neq. apply Z.eqb_neq in LD. lia.
Qed.
Lemma fast8_digs s : bytes s -> (fast8 (length s) (le s) = true <-> digs s).
Proof.
  induction 1 as [|c s C S IH]; [cbn; split; [constructor|reflexivity]|].
  cbn [length le]. rewrite fast8_step by exact C. rewrite andb_true_iff, IH, is_integer_dig, digs_cons. reflexivity.
Qed.
Lemma eight_fast c0 c1 c2 c3 c4 c5 c6 c7 : bytes [c0; c1; c2; c3; c4; c5; c6; c7] ->
  (is_made_of_eight_digits_fast (read8 c0 c1 c2 c3 c4 c5 c6 c7) = true <-> digs [c0; c1; c2; c3; c4; c5; c6; c7]).
Proof. intros H. rewrite read8_le. apply (fast8_digs _ H). Qed.

(** ** The loops over the digits *)
Definition stops (r : list Z) : Prop := match r with [] => True | c :: _ => ~ dig c end.
Lemma u64_lin x a b : u64 (u64 x * a + b) = u64 (x * a + b).
Proof. unfold u64. rewrite <- Zplus_mod_idemp_l, Zmult_mod_idemp_l, Zplus_mod_idemp_l. reflexivity. Qed.
Lemma u64_range x : 0 <= u64 x < 2 ^ 64. Proof. apply Z.mod_pos_bound. lia. Qed.
Lemma digit_loop_spec d r i : digs d -> stops r -> 0 <= i < 2 ^ 64 -> digit_loop (d ++ r) i = (r, u64 (i * 10 ^ len d + dec d)).
Proof.
  intros D R. revert i. induction D as [|c d C D IH]; intros i I.
  - cbn [app]. rewrite dec_nil. change (len []) with 0. rewrite Z.mul_1_r, Z.add_0_r, u64_id by exact I.
    destruct r as [|c r]; [reflexivity|]. cbn [digit_loop]. destruct (is_integer c) eqn:E; [|reflexivity].
    apply is_integer_dig in E. contradiction.
  - cbn [app digit_loop]. apply is_integer_dig in C. rewrite C. rewrite IH by apply u64_range. f_equal.
    rewrite u64_lin. f_equal. rewrite dec_cons, len_cons, Z.pow_add_r by (try apply len_nonneg; lia). change (10 ^ 1) with 10. ring.
Qed.
Lemma digs_prefix u d r r' : digs u -> digs d -> stops r -> d ++ r = u ++ r' -> exists d', d = u ++ d' /\ r' = d' ++ r.
Proof.
  intros U. revert d. induction U as [|c u C U IH]; intros d D R E; [exists d; split; [reflexivity|now symmetry]|].
  destruct d as [|c' d]; cbn [app] in E.
  - rewrite E in R. contradiction.
  - injection E as -> E. apply digs_cons in D. destruct (IH d (proj2 D) R E) as [d' [-> ->]]. exists d'. now split.
Qed.
Lemma loop8_spec d r i : bytes (d ++ r) -> digs d -> stops r -> 0 <= i < 2 ^ 64 -> exists d1 d2, d = d1 ++ d2 /\
  loop_parse_if_eight_digits (d ++ r) i = (d2 ++ r, u64 (i * 10 ^ len d1 + dec d1)).
Proof.
  remember (length d) as n eqn:N. revert d N i. induction n as [n IH] using lt_wf_ind. intros d N i BY D R I.
  assert (STOP : loop_parse_if_eight_digits (d ++ r) i = (d ++ r, i) -> exists d1 d2, d = d1 ++ d2 /\
    loop_parse_if_eight_digits (d ++ r) i = (d2 ++ r, u64 (i * 10 ^ len d1 + dec d1))).
  { intros H. exists [], d. split; [reflexivity|]. rewrite H. f_equal. change (len []) with 0. rewrite dec_nil, Z.mul_1_r, Z.add_0_r, u64_id by exact I. reflexivity. }
  remember (d ++ r) as p eqn:P.
  destruct p as [|c0 [|c1 [|c2 [|c3 [|c4 [|c5 [|c6 [|c7 p]]]]]]]]; try (apply STOP; reflexivity).
  destruct (is_made_of_eight_digits_fast (read8 c0 c1 c2 c3 c4 c5 c6 c7)) eqn:E.
  - assert (BY8 : bytes [c0; c1; c2; c3; c4; c5; c6; c7]) by (apply (Forall_app is_byte [c0; c1; c2; c3; c4; c5; c6; c7] p) in BY; apply BY).
    assert (BYP : bytes p) by (apply (Forall_app is_byte [c0; c1; c2; c3; c4; c5; c6; c7] p) in BY; apply BY).
    assert (D8 := proj1 (eight_fast _ _ _ _ _ _ _ _ BY8) E).
    destruct (digs_prefix [c0; c1; c2; c3; c4; c5; c6; c7] d r p D8 D R) as [d' [D' P']]; [now symmetry|].
    subst p. cbn [loop_parse_if_eight_digits]. rewrite E. rewrite parse_eight by exact D8.
    assert (DD : digs d') by (rewrite D' in D; apply digs_app in D; apply D).
    destruct (IH (length d')) with (d := d') (i := u64 (i * 100000000 + dec [c0; c1; c2; c3; c4; c5; c6; c7])) as [d1 [d2 [S L]]]; try assumption.
    { rewrite N, D', app_length. cbn [length]. lia. }
    { reflexivity. }
    { apply u64_range. }
    rewrite L. exists ([c0; c1; c2; c3; c4; c5; c6; c7] ++ d1), d2. split; [rewrite D', S, app_assoc; reflexivity|]. f_equal.
    rewrite u64_lin. f_equal. rewrite dec_app, len_app, Z.pow_add_r by apply len_nonneg.
    change (10 ^ len [c0; c1; c2; c3; c4; c5; c6; c7]) with 100000000. ring.
  - apply STOP. cbn [loop_parse_if_eight_digits]. now rewrite E.
Qed.
Lemma fraction_loops d r i : bytes (d ++ r) -> digs d -> stops r -> 0 <= i < 2 ^ 64 ->
  (let '(p, i) := loop_parse_if_eight_digits (d ++ r) i in digit_loop p i) = (r, u64 (i * 10 ^ len d + dec d)).
Proof.
  intros BY D R I. destruct (loop8_spec d r i BY D R I) as [d1 [d2 [E ->]]]. subst d. apply digs_app in D.
  rewrite digit_loop_spec; [|apply D|exact R|apply u64_range]. f_equal. rewrite u64_lin. f_equal.
  rewrite dec_app, len_app, Z.pow_add_r by apply len_nonneg. ring.
Qed.
