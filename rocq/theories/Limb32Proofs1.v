(** The big integers of 32-bit limbs: the proofs of FloatProofs6.v for the other width. *)
From Verif Require Import Base BaseLemmas FloatModel Limb32Model FloatProofs6.
From Coq Require Import Lia.
Open Scope Z_scope.

Fixpoint bval_32 (v : list Z) : Z := match v with [] => 0 | x :: v => x + 2 ^ 32 * bval_32 v end.
Definition limb_32 (x : Z) : Prop := 0 <= x < 2 ^ 32.
Definition limbs_32 (v : list Z) : Prop := Forall limb_32 v.
Definition wt_32 (n : Z) : Z := 2 ^ (32 * n).
(** without leading zero limbs_32 *)
Definition norm_32 (v : list Z) : Prop := v = [] \/ wt_32 (len v - 1) <= bval_32 v.
Definition big_ok_32 (v : list Z) (z : Z) : Prop := limbs_32 v /\ len v <= 125 /\ norm_32 v /\ bval_32 v = z.

Lemma wt_0_32 : wt_32 0 = 1. Proof. reflexivity. Qed.
Lemma wt_S_32 n : 0 <= n -> wt_32 (1 + n) = 2 ^ 32 * wt_32 n.
Proof. intros H. unfold wt_32. rewrite <- Z.pow_add_r by lia. f_equal. lia. Qed.
Lemma wt_pos_32 n : 0 <= n -> 0 < wt_32 n. Proof. intros H. apply Z.pow_pos_nonneg; lia. Qed.
Lemma wt_add_32 a b : 0 <= a -> 0 <= b -> wt_32 (a + b) = wt_32 a * wt_32 b.
Proof. intros H1 H2. unfold wt_32. rewrite <- Z.pow_add_r by lia. f_equal. lia. Qed.
Lemma wt_mono_32 a b : a <= b -> wt_32 a <= wt_32 b. Proof. intros H. apply Z.pow_le_mono_r; lia. Qed.

Lemma bval_app_32 u v : bval_32 (u ++ v) = bval_32 u + wt_32 (len u) * bval_32 v.
Proof.
  induction u as [|x u IH]; [cbn [app bval_32]; change (len (@nil Z)) with 0; rewrite wt_0_32; lia|].
  cbn [app bval_32]. rewrite IH, len_cons, wt_S_32 by apply len_nonneg. ring.
Qed.
Lemma bval_range_32 v : limbs_32 v -> 0 <= bval_32 v < wt_32 (len v).
Proof.
  induction 1 as [|x v H L IH]; [cbn; lia|]. cbn [bval_32]. rewrite len_cons, wt_S_32 by apply len_nonneg. unfold limb_32 in H. lia.
Qed.
Lemma bval_repeat0_32 n : bval_32 (repeat 0 n) = 0. Proof. induction n as [|n IH]; [reflexivity|]. cbn [repeat bval_32]. lia. Qed.
Lemma limbs_app_32 u v : limbs_32 u -> limbs_32 v -> limbs_32 (u ++ v). Proof. intros; now apply Forall_app. Qed.
Lemma limbs_repeat0_32 n : limbs_32 (repeat 0 n).
Proof. induction n; cbn; [constructor|]. apply Forall_cons; [unfold limb_32; lia|assumption]. Qed.
Lemma u32_limb_32 z : limb_32 (u32 z). Proof. unfold limb_32, u32. apply Z.mod_pos_bound. lia. Qed.

(** a value that fits in 125 limbs_32 is never refused *)
Lemma try_push_ok_32 v x : limbs_32 v -> limb_32 x -> len v <= 125 -> x <> 0 -> bval_32 v + wt_32 (len v) * x < wt_32 125 ->
  try_push_32 v x = Ok (v ++ [x]) /\ limbs_32 (v ++ [x]) /\ len (v ++ [x]) <= 125 /\ norm_32 (v ++ [x]) /\
  bval_32 (v ++ [x]) = bval_32 v + wt_32 (len v) * x.
Proof.
  intros L X LE NZ F. assert (R := bval_range_32 v L). assert (P := wt_pos_32 (len v) (len_nonneg v)). unfold limb_32 in X.
  assert (LV : len v < 125).
  { destruct (Z.le_gt_cases 125 (len v)) as [C|C]; [|exact C]. assert (M := wt_mono_32 125 (len v) C). nia. }
  unfold try_push_32, bigint_limbs_32. replace (len v <? 125) with true by lia.
  assert (BV : bval_32 (v ++ [x]) = bval_32 v + wt_32 (len v) * x) by (rewrite bval_app_32; cbn [bval_32]; lia).
  assert (LL : len (v ++ [x]) = len v + 1) by (rewrite len_app; reflexivity).
  split; [reflexivity|]. split; [apply limbs_app_32; [exact L|now apply Forall_cons]|]. split; [lia|]. split; [|exact BV].
  right. rewrite LL, BV. replace (len v + 1 - 1) with (len v) by lia. nia.
Qed.

(** ** Addition and multiplication by a limb_32 *)
Lemma add_carry_spec_32 v : limbs_32 v -> forall c, limb_32 c -> forall r c', add_carry_32 v c = (r, c') ->
  limbs_32 r /\ len r = len v /\ limb_32 c' /\ bval_32 r + wt_32 (len v) * c' = bval_32 v + c.
Proof.
  induction 1 as [|x v X L IH]; intros c C r c' H.
  - cbn in H. injection H as <- <-. cbn [bval_32]. change (len (@nil Z)) with 0. rewrite wt_0_32. repeat split; try constructor; unfold limb_32 in *; lia.
  - cbn [add_carry_32] in H. destruct (Z.eqb_spec c 0) as [C0|C0].
    + injection H as <- <-. repeat split; try (now apply Forall_cons); unfold limb_32; lia.
    + destruct (add_carry_32 v _) as [r1 c1] eqn:E. injection H as <- <-.
      assert (CC : limb_32 (if 2 ^ 32 <=? x + c then 1 else 0)) by (unfold limb_32; destruct (2 ^ 32 <=? x + c); lia).
      destruct (IH _ CC _ _ E) as [L1 [LN [C1 V]]].
      split; [apply Forall_cons; [apply u32_limb_32|exact L1]|]. split; [rewrite !len_cons; lia|]. split; [exact C1|].
      cbn [bval_32]. rewrite len_cons, wt_S_32 by apply len_nonneg. unfold limb_32 in *.
      assert (U : u32 (x + c) = x + c - 2 ^ 32 * (if 2 ^ 32 <=? x + c then 1 else 0)).
      { unfold u32. destruct (Z.leb_spec (2 ^ 32) (x + c)).
        - symmetry. apply (Z.mod_unique _ _ 1); lia.
        - rewrite Z.mod_small; lia. }
      rewrite U. lia.
Qed.
Lemma limbs_firstn_32 v n : limbs_32 v -> limbs_32 (firstn n v).
Proof. intros L. rewrite <- (firstn_skipn n v) in L. apply Forall_app in L. tauto. Qed.
Lemma limbs_skipn_32 v n : limbs_32 v -> limbs_32 (skipn n v).
Proof. intros L. rewrite <- (firstn_skipn n v) in L. apply Forall_app in L. tauto. Qed.
Lemma bval_split_32 v n : (n <= length v)%nat -> bval_32 v = bval_32 (firstn n v) + wt_32 (Z.of_nat n) * bval_32 (skipn n v).
Proof. intros H. rewrite <- (firstn_skipn n v) at 1. rewrite bval_app_32, len_firstn by exact H. reflexivity. Qed.

Lemma small_add_from_ok_32 v y n : limbs_32 v -> len v <= 125 -> limb_32 y -> (n <= length v)%nat ->
  bval_32 v + wt_32 (Z.of_nat n) * y < wt_32 125 ->
  exists r, small_add_from_32 v y n = Ok r /\ limbs_32 r /\ len v <= len r <= 125 /\ (norm_32 v -> v <> [] \/ n = O -> norm_32 r) /\
  bval_32 r = bval_32 v + wt_32 (Z.of_nat n) * y.
Proof.
  intros L LE Y N F. unfold small_add_from_32.
  destruct (add_carry_32 (skipn n v) y) as [r c] eqn:E.
  destruct (add_carry_spec_32 _ (limbs_skipn_32 v n L) y Y r c E) as [LR [LN [C V]]].
  rewrite len_skipn in LN, V by exact N. assert (S := bval_split_32 v n N).
  set (w := firstn n v ++ r).
  assert (LW : limbs_32 w) by (apply limbs_app_32; [now apply limbs_firstn_32|exact LR]).
  assert (LNW : len w = len v) by (unfold w; rewrite len_app, len_firstn by exact N; lia).
  assert (VW : bval_32 w + wt_32 (len v) * c = bval_32 v + wt_32 (Z.of_nat n) * y).
  { unfold w. rewrite bval_app_32, len_firstn by exact N. 
    replace (len v) with (Z.of_nat n + (len v - Z.of_nat n)) by lia.
    rewrite wt_add_32 by (unfold len; lia). rewrite S.
    replace (bval_32 (firstn n v) + wt_32 (Z.of_nat n) * bval_32 r + wt_32 (Z.of_nat n) * wt_32 (len v - Z.of_nat n) * c)
      with (bval_32 (firstn n v) + wt_32 (Z.of_nat n) * (bval_32 r + wt_32 (len v - Z.of_nat n) * c)) by ring.
    rewrite V. ring. }
  assert (PN := wt_pos_32 (Z.of_nat n) ltac:(lia)). unfold limb_32 in Y.
  destruct (Z.eqb_spec c 0) as [C0|C0].
  - subst c. exists w. split; [reflexivity|]. split; [exact LW|]. split; [lia|]. split; [|lia].
    intros [->|NV] D.
    + left. destruct w; [reflexivity|]. rewrite len_cons in LNW. change (len (@nil Z)) with 0 in LNW. assert (X := len_nonneg w). lia.
    + right. rewrite LNW. nia.
  - rewrite <- LNW in VW. destruct (try_push_ok_32 w c LW C ltac:(lia) C0 ltac:(lia)) as [T1 [T2 [T3 [T4 T5]]]].
    exists (w ++ [c]). split; [exact T1|]. split; [exact T2|]. split; [rewrite len_app in *; change (len [c]) with 1 in *; lia|].
    split; [intros _ _; exact T4|]. lia.
Qed.
Lemma small_add_ok_32 v z y : big_ok_32 v z -> limb_32 y -> z + y < wt_32 125 -> exists r, small_add_32 v y = Ok r /\ big_ok_32 r (z + y).
Proof.
  intros [L [LE [N V]]] Y F.
  destruct (small_add_from_ok_32 v y 0 L LE Y) as [r [H [LR [LN [NR VR]]]]]; [lia|change (wt_32 (Z.of_nat 0)) with 1; lia|].
  exists r. split; [exact H|]. change (wt_32 (Z.of_nat 0)) with 1 in VR. repeat split; try tauto; try lia.
Qed.

Lemma mul_carry_spec_32 v y : limbs_32 v -> limb_32 y -> forall c, limb_32 c -> forall r c', mul_carry_32 v y c = (r, c') ->
  limbs_32 r /\ len r = len v /\ limb_32 c' /\ bval_32 r + wt_32 (len v) * c' = bval_32 v * y + c.
Proof.
  intros L Y. induction L as [|x v X L IH]; intros c C r c' H.
  - cbn in H. injection H as <- <-. cbn [bval_32]. change (len (@nil Z)) with 0. rewrite wt_0_32. repeat split; try constructor; unfold limb_32 in *; lia.
  - cbn [mul_carry_32] in H. cbv zeta in H. destruct (mul_carry_32 v y _) as [r1 c1] eqn:E. injection H as <- <-.
    unfold limb_32 in *.
    assert (CC : 0 <= (x * y + c) / 2 ^ 32 < 2 ^ 32).
    { split; [apply Z.div_pos; nia|apply Z.div_lt_upper_bound; nia]. }
    destruct (IH _ CC _ _ E) as [L1 [LN [C1 V]]].
    split; [apply Forall_cons; [apply u32_limb_32|exact L1]|]. split; [rewrite !len_cons; lia|]. split; [exact C1|].
    cbn [bval_32]. rewrite len_cons, wt_S_32 by apply len_nonneg. unfold u32.
    assert (D := Z.div_mod (x * y + c) (2 ^ 32) ltac:(lia)). nia.
Qed.
Lemma small_mul_raw_32 v y : limbs_32 v -> len v <= 125 -> limb_32 y -> bval_32 v * y < wt_32 125 ->
  exists r, small_mul_32 v y = Ok r /\ limbs_32 r /\ len v <= len r <= 125 /\ len r <= len v + 1 /\ (norm_32 v -> y <> 0 -> norm_32 r) /\ bval_32 r = bval_32 v * y.
Proof.
  intros L LE Y F. unfold small_mul_32. destruct (mul_carry_32 v y 0) as [r c] eqn:E.
  destruct (mul_carry_spec_32 v y L Y 0 ltac:(unfold limb_32; lia) r c E) as [LR [LN [C V]]].
  assert (BR := bval_range_32 v L). unfold limb_32 in Y.
  destruct (Z.eqb_spec c 0) as [C0|C0].
  - subst c. exists r. split; [reflexivity|]. split; [exact LR|]. split; [lia|]. split; [lia|]. split; [|lia].
    intros [->|NV] D.
    + left. destruct r; [reflexivity|]. rewrite len_cons in LN. change (len (@nil Z)) with 0 in LN. assert (X := len_nonneg r). lia.
    + right. rewrite LN. nia.
  - rewrite <- LN in V. destruct (try_push_ok_32 r c LR C ltac:(lia) C0 ltac:(lia)) as [T1 [T2 [T3 [T4 T5]]]].
    exists (r ++ [c]). split; [exact T1|]. split; [exact T2|]. rewrite len_app in *; change (len [c]) with 1 in *.
    split; [lia|]. split; [lia|]. split; [intros _ _; exact T4|]. lia.
Qed.
Lemma small_mul_ok_32 v z y : big_ok_32 v z -> 0 < y < 2 ^ 32 -> z * y < wt_32 125 -> exists r, small_mul_32 v y = Ok r /\ big_ok_32 r (z * y).
Proof.
  intros [L [LE [N V]]] Y F. destruct (small_mul_raw_32 v y L LE ltac:(unfold limb_32; lia) ltac:(lia)) as [r [H [LR [LN [_ [NR VR]]]]]].
  exists r. split; [exact H|]. repeat split; try lia; try assumption. apply NR; [exact N|lia].
Qed.

(** ** Addition at an offset *)
Lemma add_limbs_spec_32 y : limbs_32 y -> forall x, limbs_32 x -> len y <= len x -> forall c r c', add_limbs_32 x y c = (r, c') ->
  limbs_32 r /\ len r = len x /\ bval_32 r + wt_32 (len y) * (if c' then 1 else 0) = bval_32 x + bval_32 y + (if c then 1 else 0) /\ True.
Proof.
  induction 1 as [|yi y YI LY IH]; intros x LX LE c r c' H.
  - replace (add_limbs_32 x [] c) with (x, c) in H by (destruct x; reflexivity). injection H as <- <-.
    cbn [bval_32]. change (len (@nil Z)) with 0. rewrite wt_0_32. repeat split; try assumption. lia.
  - destruct x as [|xi x]; [exfalso; rewrite len_cons in LE; change (len (@nil Z)) with 0 in LE; assert (X := len_nonneg y); lia|].
    cbn [add_limbs_32] in H. cbv zeta in H. rewrite !len_cons in LE. inversion LX as [|? ? XI LX']; subst.
    destruct (add_limbs_32 x y _) as [r1 c1] eqn:E. injection H as <- <-.
    destruct (IH x LX' ltac:(lia) _ _ _ E) as [L1 [LN [V _]]].
    split; [apply Forall_cons; [destruct c; apply u32_limb_32|exact L1]|]. split; [rewrite !len_cons; lia|]. split; [|exact I].
    cbn [bval_32]. rewrite len_cons, wt_S_32 by apply len_nonneg. unfold limb_32 in *.
    assert (K : (if c then u32 (u32 (xi + yi) + 1) else u32 (xi + yi)) +
      2 ^ 32 * (if (2 ^ 32 <=? xi + yi) || c && (2 ^ 32 <=? u32 (xi + yi) + 1) then 1 else 0) = xi + yi + if c then 1 else 0).
    { unfold u32. destruct (Z.leb_spec (2 ^ 32) (xi + yi)) as [A|A]; cbn [orb].
      - assert (M : (xi + yi) mod 2 ^ 32 = xi + yi - 2 ^ 32) by (symmetry; apply (Z.mod_unique _ _ 1); lia).
        rewrite M. destruct c; [rewrite Z.mod_small by lia|]; lia.
      - rewrite (Z.mod_small (xi + yi)) by lia. destruct c; cbn [andb]; [|lia].
        destruct (Z.leb_spec (2 ^ 32) (xi + yi + 1)) as [A2|A2].
        + assert (M : (xi + yi + 1) mod 2 ^ 32 = xi + yi + 1 - 2 ^ 32) by (symmetry; apply (Z.mod_unique _ _ 1); lia).
          rewrite M. lia.
        + rewrite Z.mod_small by lia. lia. }
    set (cc := (2 ^ 32 <=? xi + yi) || c && (2 ^ 32 <=? u32 (xi + yi) + 1)) in *. lia.
Qed.
Lemma large_add_from_ok_32 x y n : limbs_32 x -> limbs_32 y -> len x <= 125 -> len y + Z.of_nat n <= 125 ->
  bval_32 x + wt_32 (Z.of_nat n) * bval_32 y < wt_32 125 ->
  exists r, large_add_from_32 x y n = Ok r /\ limbs_32 r /\ len r <= 125 /\ bval_32 r = bval_32 x + wt_32 (Z.of_nat n) * bval_32 y.
Proof.
  intros LX LY EX EY F. unfold large_add_from_32.
  set (x1 := x ++ repeat 0 (length y + n - length x)).
  assert (X1 : (if (length x <? n)%nat || (length x - n <? length y)%nat then
             if bigint_limbs_32 <? len y + Z.of_nat n then Err else Ok x1 else Ok x) = Ok x1).
  { destruct ((length x <? n)%nat || (length x - n <? length y)%nat) eqn:C.
    - unfold bigint_limbs_32. replace (125 <? len y + Z.of_nat n) with false by lia. reflexivity.
    - apply orb_false_iff in C. destruct C as [C1 C2]. apply Nat.ltb_ge in C1, C2. unfold x1.
      replace (length y + n - length x)%nat with O by lia. cbn [repeat]. now rewrite app_nil_r. }
  fold x1. rewrite X1. cbn [bind].
  assert (L1 : limbs_32 x1) by (apply limbs_app_32; [exact LX|apply limbs_repeat0_32]).
  assert (V1 : bval_32 x1 = bval_32 x) by (unfold x1; rewrite bval_app_32, bval_repeat0_32; lia).
  assert (N1 : length x1 = Nat.max (length x) (length y + n)) by (unfold x1; rewrite app_length, repeat_length; lia).
  assert (NX : (n <= length x1)%nat) by lia.
  destruct (add_limbs_32 (skipn n x1) y false) as [r c] eqn:E.
  destruct (add_limbs_spec_32 y LY (skipn n x1) (limbs_skipn_32 _ _ L1) ltac:(rewrite len_skipn by lia; unfold len; lia) false r c E) as [LR [LN [V _]]].
  set (w := firstn n x1 ++ r).
  assert (LW : limbs_32 w) by (apply limbs_app_32; [now apply limbs_firstn_32|exact LR]).
  assert (LNW : len w = len x1) by (unfold w; rewrite len_app, len_firstn by exact NX; rewrite LN, len_skipn by exact NX; lia).
  assert (LE1 : len x1 <= 125) by (unfold len in *; lia).
  assert (VW : bval_32 w + wt_32 (Z.of_nat (length y + n)) * (if c then 1 else 0) = bval_32 x + wt_32 (Z.of_nat n) * bval_32 y).
  { unfold w. rewrite bval_app_32, len_firstn by exact NX. rewrite <- V1, (bval_split_32 x1 n NX).
    replace (Z.of_nat (length y + n)) with (Z.of_nat n + len y) by (unfold len; lia).
    rewrite wt_add_32 by (unfold len; lia). nia. }
  destruct c.
  - destruct (small_add_from_ok_32 w 1 (length y + n) LW ltac:(lia) ltac:(unfold limb_32; lia)) as [s [H [LS [NS [_ VS]]]]].
    + unfold len in LNW. lia.
    + lia.
    + exists s. split; [exact H|]. split; [exact LS|]. split; [lia|]. lia.
  - exists w. split; [reflexivity|]. split; [exact LW|]. split; lia.
Qed.

(** ** Long multiplication *)
Lemma normalize_spec_32 v : limbs_32 v -> limbs_32 (normalize v) /\ bval_32 (normalize v) = bval_32 v /\ len (normalize v) <= len v /\ norm_32 (normalize v).
Proof.
  induction 1 as [|x v X L [L1 [V [LE N]]]]; [cbn [normalize]; split; [constructor|]; split; [reflexivity|]; split; [lia|now left]|].
  cbn [normalize]. rewrite len_cons. cbn [bval_32]. assert (R := bval_range_32 _ L1). destruct (normalize v) as [|y w] eqn:E.
  - cbn [bval_32] in V. destruct (Z.eqb_spec x 0) as [X0|X0].
    + split; [constructor|]. split; [cbn [bval_32]; lia|]. split; [|now left]. change (len (@nil Z)) with 0. assert (Y := len_nonneg v). lia.
    + split; [apply Forall_cons; [exact X|constructor]|]. split; [cbn [bval_32]; lia|].
      split; [change (len [x]) with 1; assert (Y := len_nonneg v); lia|].
      right. change (len [x] - 1) with 0. rewrite wt_0_32. cbn [bval_32]. unfold limb_32 in X. lia.
  - split; [now apply Forall_cons|]. split; [cbn [bval_32]; rewrite <- V; reflexivity|]. split; [rewrite !len_cons in *; lia|].
    right. destruct N as [N|N]; [discriminate|]. rewrite !len_cons in *.
    replace (1 + (1 + len w) - 1) with (1 + len w) by lia. replace (1 + len w - 1) with (len w) in N by lia.
    rewrite wt_S_32 by apply len_nonneg. change (bval_32 (x :: y :: w)) with (x + 2 ^ 32 * bval_32 (y :: w)). unfold limb_32 in X. nia.
Qed.
Lemma long_mul_loop_ok_32 y : limbs_32 y -> forall x z n, limbs_32 x -> limbs_32 z -> len x <= 125 -> len z + len y + Z.of_nat n <= 125 -> 
  bval_32 x + wt_32 (Z.of_nat n) * (bval_32 z * bval_32 y) < wt_32 125 ->
  exists r, long_mul_loop_32 x z y n = Ok r /\ limbs_32 r /\ len r <= 125 /\ bval_32 r = bval_32 x + wt_32 (Z.of_nat n) * (bval_32 z * bval_32 y).
Proof.
  induction 1 as [|yi y YI LY IH]; intros x z n LX LZ EX EZ F.
  - exists x. cbn [long_mul_loop_32 bval_32]. repeat split; try assumption. lia.
  - cbn [long_mul_loop_32]. cbn [bval_32] in F. rewrite len_cons in EZ.
    assert (RZ := bval_range_32 z LZ). assert (RX := bval_range_32 x LX). assert (RY := bval_range_32 y LY).
    assert (PN := wt_pos_32 (Z.of_nat n) ltac:(lia)). unfold limb_32 in YI. assert (LNZ := len_nonneg z). assert (LNY := len_nonneg y).
    assert (STEP : exists x', (if yi =? 0 then Ok x else do zi <- small_mul_32 z yi ;; large_add_from_32 x zi n) = Ok x' /\
      limbs_32 x' /\ len x' <= 125 /\ bval_32 x' = bval_32 x + wt_32 (Z.of_nat n) * (bval_32 z * yi)).
    { destruct (Z.eqb_spec yi 0) as [->|Y0].
      - exists x. repeat split; try assumption. lia.
      - assert (BZ : bval_32 z * yi < wt_32 (len z + 1)).
        { rewrite Z.add_comm, wt_S_32 by lia. nia. }
        assert (MZ : wt_32 (len z + 1) <= wt_32 125) by (apply wt_mono_32; lia).
        destruct (small_mul_raw_32 z yi LZ ltac:(lia) YI ltac:(lia)) as [zi [-> [LZI [LN1 [LN2 [_ VZ]]]]]]. cbn [bind].
        destruct (large_add_from_ok_32 x zi n LX LZI EX ltac:(lia)) as [r [-> [LR [LNR VR]]]].
        + rewrite VZ. assert (0 <= bval_32 z * (2 ^ 32 * bval_32 y)) by nia. nia.
        + exists r. rewrite VZ in VR. repeat split; assumption. }
    destruct STEP as [x' [-> [L' [E' V']]]]. cbn [bind].
    assert (WS : wt_32 (Z.of_nat (S n)) = 2 ^ 32 * wt_32 (Z.of_nat n)).
    { rewrite <- wt_S_32 by lia. f_equal. lia. }
    destruct (IH x' z (S n) L' LZ E' ltac:(lia)) as [r [-> [LR [ER VR]]]].
    + rewrite V', WS. nia.
    + exists r. split; [reflexivity|]. split; [exact LR|]. split; [exact ER|]. rewrite VR, V', WS. cbn [bval_32]. ring.
Qed.
Lemma long_mul_ok_32 x z y : big_ok_32 x z -> limbs_32 y -> y <> [] -> len x + len y <= 125 ->
  exists r, long_mul_32 x y = Ok r /\ big_ok_32 r (z * bval_32 y).
Proof.
  intros [LX [EX [NX VX]]] LY NE E. destruct y as [|y0 y]; [congruence|]. cbn [long_mul_32]. rewrite len_cons in E.
  inversion LY as [|? ? Y0 LY']; subst. assert (RX := bval_range_32 x LX). assert (RY := bval_range_32 y LY'). unfold limb_32 in Y0.
  assert (LNX := len_nonneg x). assert (LNY := len_nonneg y).
  assert (ALL : bval_32 x * (y0 + 2 ^ 32 * bval_32 y) < wt_32 125).
  { apply Z.lt_le_trans with (wt_32 (len x + (1 + len y))); [|apply wt_mono_32; lia].
    rewrite wt_add_32, wt_S_32 by lia. nia. }
  assert (P1 : 0 <= bval_32 x * (2 ^ 32 * bval_32 y)) by nia.
  assert (P2 : 0 <= bval_32 x * y0) by nia.
  destruct (small_mul_raw_32 x y0 LX EX Y0 ltac:(lia)) as [r [-> [LR [LN1 [LN2 [_ VR]]]]]]. cbn [bind].
  assert (W1 : wt_32 (Z.of_nat 1) = 2 ^ 32) by reflexivity.
  destruct (long_mul_loop_ok_32 y LY' r x 1 LR LX ltac:(lia) ltac:(lia)) as [s [-> [LS [ES VS]]]].
  - rewrite W1, VR. lia.
  - cbn [bind]. destruct (normalize_spec_32 s LS) as [L2 [V2 [E2 N2]]]. exists (normalize s). split; [reflexivity|].
    repeat split; try assumption; try lia. rewrite V2, VS, VR, W1. cbn [bval_32]. ring.
Qed.

(** ** Powers *)
Lemma len_small_32 v z n : big_ok_32 v z -> 0 <= n -> z < wt_32 n -> len v <= n.
Proof.
  intros [L [_ [[->|N] V]]] H F; [exact H|]. destruct (Z.le_gt_cases (len v) n) as [C|C]; [exact C|].
  assert (M := wt_mono_32 n (len v - 1) ltac:(lia)). lia.
Qed.
Lemma big_ok_nonneg_32 v z : big_ok_32 v z -> 0 <= z. Proof. intros [L [_ [_ <-]]]. now apply bval_range_32. Qed.
Lemma large_table_32 : bval_32 large_power_of_5_32 = 5 ^ 135. Proof. vm_compute. reflexivity. Qed.
Lemma pow5_large_ok_32 fuel : forall v z e, big_ok_32 v z -> 0 <= e -> e <= Z.of_nat fuel -> z * 5 ^ e < wt_32 115 ->
  exists r e', pow5_large_32 fuel v e = Ok (r, e') /\ 0 <= e' < 135 /\ e' <= e /\ big_ok_32 r (z * 5 ^ (e - e')).
Proof.
  induction fuel as [|fuel IH]; intros v z e V E0 EF F.
  - exists v, e. cbn [pow5_large_32]. replace (e <? 135) with true by lia. rewrite Z.sub_diag, Z.mul_1_r. repeat split; try lia; apply V.
  - cbn [pow5_large_32]. destruct (Z.ltb_spec e 135) as [S|S].
    + exists v, e. rewrite Z.sub_diag, Z.mul_1_r. repeat split; try lia; apply V.
    + assert (Z0 := big_ok_nonneg_32 v z V).
      assert (P5 : 0 < 5 ^ e) by (apply Z.pow_pos_nonneg; lia).
      assert (LV : len v <= 115) by (apply (len_small_32 v z); [exact V|lia|nia]).
      unfold large_mul_32, large_power_of_5_32.
      destruct (long_mul_ok_32 v z large_power_of_5_32 V) as [r [H R]].
      * unfold large_power_of_5_32, limbs_32, limb_32. repeat (apply Forall_cons; [lia|]). constructor.
      * discriminate.
      * change (len large_power_of_5_32) with 10. lia.
      * unfold large_power_of_5_32 in H. rewrite H. cbn [bind]. rewrite large_table_32 in R.
        assert (SP : 5 ^ e = 5 ^ 135 * 5 ^ (e - 135)) by (rewrite <- Z.pow_add_r by lia; f_equal; lia).
        destruct (IH r (z * 5 ^ 135) (e - 135) R ltac:(lia) ltac:(lia) ltac:(nia)) as [r' [e' [-> [E1 [E2 R']]]]].
        exists r', e'. split; [reflexivity|]. split; [exact E1|]. split; [lia|].
        replace (z * 5 ^ (e - e')) with (z * 5 ^ 135 * 5 ^ (e - 135 - e')); [exact R'|].
        rewrite <- Z.mul_assoc, <- Z.pow_add_r by lia. do 2 f_equal. lia.
Qed.
Lemma pow5_small_ok_32 fuel : forall v z e, big_ok_32 v z -> 0 <= e < 13 * (Z.of_nat fuel + 1) -> z * 5 ^ e < wt_32 115 ->
  exists r e', pow5_small_32 fuel v e = Ok (r, e') /\ 0 <= e' < 13 /\ e' <= e /\ big_ok_32 r (z * 5 ^ (e - e')).
Proof.
  induction fuel as [|fuel IH]; intros v z e V E0 F.
  - exists v, e. cbn [pow5_small_32]. replace (e <? 13) with true by lia. rewrite Z.sub_diag, Z.mul_1_r. repeat split; try lia; apply V.
  - cbn [pow5_small_32]. destruct (Z.ltb_spec e 13) as [S|S].
    + exists v, e. rewrite Z.sub_diag, Z.mul_1_r. repeat split; try lia; apply V.
    + assert (Z0 := big_ok_nonneg_32 v z V).
      assert (SP : 5 ^ e = 1220703125 * 5 ^ (e - 13)).
      { change 1220703125 with (5 ^ 13). rewrite <- Z.pow_add_r by lia. f_equal. lia. }
      assert (P5 : 0 < 5 ^ (e - 13)) by (apply Z.pow_pos_nonneg; lia).
      assert (M := wt_mono_32 115 125 ltac:(lia)).
      destruct (small_mul_ok_32 v z 1220703125 V ltac:(lia) ltac:(nia)) as [r [-> R]]. cbn [bind].
      destruct (IH r _ (e - 13) R ltac:(lia) ltac:(nia)) as [r' [e' [-> [E1 [E2 R']]]]].
      exists r', e'. split; [reflexivity|]. split; [exact E1|]. split; [lia|].
      replace (z * 5 ^ (e - e')) with (z * 1220703125 * 5 ^ (e - 13 - e')); [exact R'|].
      change 1220703125 with (5 ^ 13). rewrite <- Z.mul_assoc, <- Z.pow_add_r by lia. do 2 f_equal. lia.
Qed.
Lemma small_table_32 e : 0 <= e < 13 -> nth (Z.to_nat e) small_power_of_5 0 = 5 ^ e.
Proof.
  intros E. assert (C : forallb (fun i => nth i small_power_of_5 0 =? 5 ^ Z.of_nat i) (seq 0 13) = true) by (vm_compute; reflexivity).
  rewrite forallb_forall in C. specialize (C (Z.to_nat e)). rewrite Z2Nat.id in C by lia. apply Z.eqb_eq, C, in_seq. lia.
Qed.
Lemma big_pow5_ok_32 v z e : big_ok_32 v z -> 0 <= e -> z * 5 ^ e < wt_32 115 -> exists r, big_pow5_32 v e = Ok r /\ big_ok_32 r (z * 5 ^ e).
Proof.
  intros V E F. assert (Z0 := big_ok_nonneg_32 v z V). unfold big_pow5_32.
  destruct (pow5_large_ok_32 (Z.to_nat e) v z e V E ltac:(lia) F) as [r [e1 [-> [E1 [E2 R]]]]]. cbn [bind].
  assert (S1 : z * 5 ^ e = z * 5 ^ (e - e1) * 5 ^ e1) by (rewrite <- Z.mul_assoc, <- Z.pow_add_r by lia; do 2 f_equal; lia).
  rewrite S1 in *. set (z1 := z * 5 ^ (e - e1)) in *.
  destruct (pow5_small_ok_32 11 r z1 e1 R ltac:(lia) F) as [r2 [e2 [-> [E3 [E4 R2]]]]]. cbn [bind].
  assert (S2 : z1 * 5 ^ e1 = z1 * 5 ^ (e1 - e2) * 5 ^ e2) by (rewrite <- Z.mul_assoc, <- Z.pow_add_r by lia; do 2 f_equal; lia).
  rewrite S2 in *. set (z2 := z1 * 5 ^ (e1 - e2)) in *.
  destruct (Z.eqb_spec e2 0) as [->|NE]; [exists r2; split; [reflexivity|]; now rewrite Z.mul_1_r|].
  rewrite small_table_32 by lia. assert (M := wt_mono_32 115 125 ltac:(lia)).
  assert (B13 : 0 < 5 ^ e2 < 2 ^ 32).
  { split; [apply Z.pow_pos_nonneg; lia|]. apply Z.le_lt_trans with (5 ^ 13); [apply Z.pow_le_mono_r; lia|reflexivity]. }
  unfold u32. rewrite Z.mod_small by lia. apply small_mul_ok_32; [exact R2|exact B13|lia].
Qed.

(** ** Shifts *)
Lemma shl_carry_spec_32 v n : limbs_32 v -> 0 < n < 32 -> forall p, limb_32 p -> forall r q, shl_carry_32 v n p = (r, q) ->
  limbs_32 r /\ len r = len v /\ limb_32 q /\ bval_32 r + wt_32 (len v) * (q / 2 ^ (32 - n)) = bval_32 v * 2 ^ n + p / 2 ^ (32 - n).
Proof.
  intros L N. induction L as [|x v X L IH]; intros p P r q H.
  - cbn in H. injection H as <- <-. cbn [bval_32]. change (len (@nil Z)) with 0. rewrite wt_0_32. repeat split; try constructor; unfold limb_32 in *; lia.
  - change (shl_carry_32 (x :: v) n p) with (let '(r, q) := shl_carry_32 v n x in (Z.lor (u32 (Z.shiftl x n)) (Z.shiftr p (32 - n)) :: r, q)) in H. destruct (shl_carry_32 v n x) as [r1 q1] eqn:E.
    remember (Z.lor (u32 (Z.shiftl x n)) (Z.shiftr p (32 - n))) as hd eqn:HD. injection H as <- <-.
    destruct (IH x X r1 q1 E) as [L1 [LN [Q V]]].
    assert (PN : 0 < 2 ^ n) by (apply Z.pow_pos_nonneg; lia). assert (PN' : 0 < 2 ^ (32 - n)) by (apply Z.pow_pos_nonneg; lia).
    assert (PM : 2 ^ n * 2 ^ (32 - n) = 2 ^ 32) by (rewrite <- Z.pow_add_r by lia; f_equal; lia).
    unfold limb_32 in X, P.
    assert (LOW : 0 <= p / 2 ^ (32 - n) < 2 ^ n).
    { split; [apply Z.div_pos; lia|apply Z.div_lt_upper_bound; nia]. }
    assert (UX : u32 (Z.shiftl x n) = x mod 2 ^ (32 - n) * 2 ^ n).
    { rewrite Z.shiftl_mul_pow2 by lia. unfold u32. rewrite <- PM. rewrite (Z.mul_comm (2 ^ n)). rewrite Z.mul_mod_distr_r by lia. reflexivity. }
    assert (HEAD : hd = x mod 2 ^ (32 - n) * 2 ^ n + p / 2 ^ (32 - n)).
    { rewrite HD, UX, Z.shiftr_div_pow2 by lia. rewrite Z.lor_comm. 
      assert (LA : Z.land (p / 2 ^ (32 - n)) (x mod 2 ^ (32 - n) * 2 ^ n) = 0).
      { apply Z.bits_inj'. intros k K. rewrite Z.land_spec, Z.bits_0. destruct (Z.ltb_spec k n) as [KN|KN].
        - rewrite Z.mul_pow2_bits_low by lia. apply andb_false_r.
        - rewrite (Z.bits_above_log2 (p / 2 ^ (32 - n))); [reflexivity|lia|].
          destruct (Z.eq_dec (p / 2 ^ (32 - n)) 0) as [->|NZ]; [cbn; lia|].
          apply Z.lt_le_trans with n; [apply Z.log2_lt_pow2; lia|lia]. }
      rewrite <- Z.lxor_lor by exact LA. rewrite <- Z.add_nocarry_lxor by exact LA. ring. }
    assert (M := Z.mod_pos_bound x (2 ^ (32 - n)) PN'). assert (D := Z.div_mod x (2 ^ (32 - n)) ltac:(lia)).
    split; [apply Forall_cons; [rewrite HEAD; unfold limb_32; nia|exact L1]|]. split; [rewrite !len_cons; lia|]. split; [exact Q|].
    cbn [bval_32]. rewrite HEAD, len_cons, wt_S_32 by apply len_nonneg. nia.
Qed.
Lemma shl_bits_ok_32 v z n : big_ok_32 v z -> 0 < n < 32 -> z * 2 ^ n < wt_32 125 -> exists r, shl_bits_32 v n = Ok r /\ big_ok_32 r (z * 2 ^ n).
Proof.
  intros [L [LE [N V]]] H F. unfold shl_bits_32. destruct (shl_carry_32 v n 0) as [r q] eqn:E.
  destruct (shl_carry_spec_32 v n L H 0 ltac:(unfold limb_32; lia) r q E) as [LR [LN [Q VR]]].
  rewrite Z.div_0_l, Z.add_0_r in VR by (apply Z.pow_nonzero; lia). rewrite Z.shiftr_div_pow2 by lia.
  assert (PN : 0 < 2 ^ n) by (apply Z.pow_pos_nonneg; lia). assert (PN' : 0 < 2 ^ (32 - n)) by (apply Z.pow_pos_nonneg; lia).
  assert (BR := bval_range_32 v L). unfold limb_32 in Q.
  destruct (Z.eqb_spec (q / 2 ^ (32 - n)) 0) as [C0|C0].
  - exists r. rewrite C0 in VR. split; [reflexivity|]. repeat split; try assumption; try lia. destruct N as [->|N].
    + left. destruct r; [reflexivity|]. rewrite len_cons in LN. change (len (@nil Z)) with 0 in LN. assert (X := len_nonneg r). lia.
    + right. rewrite LN. nia.
  - rewrite <- LN in VR.
    assert (QL : limb_32 (q / 2 ^ (32 - n))).
    { unfold limb_32. split; [apply Z.div_pos; lia|apply Z.div_lt_upper_bound; nia]. }
    destruct (try_push_ok_32 r _ LR QL ltac:(lia) C0 ltac:(lia)) as [T1 [T2 [T3 [T4 T5]]]].
    eexists. split; [exact T1|]. repeat split; try assumption. lia.
Qed.
Lemma shl_limbs_ok_32 v z n : big_ok_32 v z -> 0 <= n -> 0 < z -> z * wt_32 n < wt_32 125 -> exists r, shl_limbs_32 v n = Ok r /\ big_ok_32 r (z * wt_32 n).
Proof.
  intros [L [LE [N V]]] H Z0 F. unfold shl_limbs_32, bigint_limbs_32. destruct v as [|x v]; [cbn in V; lia|].
  destruct N as [N|N]; [discriminate|]. assert (LN := len_nonneg v). rewrite len_cons in *.
  assert (FIT : n + (1 + len v) <= 125).
  { destruct (Z.le_gt_cases (n + (1 + len v)) 125) as [C|C]; [exact C|].
    assert (M := wt_mono_32 125 (1 + len v - 1 + n) ltac:(lia)). rewrite wt_add_32 in M by lia. assert (P := wt_pos_32 n H). nia. }
  replace (125 <? n + (1 + len v)) with false by lia. eexists. split; [reflexivity|].
  assert (LR : len (repeat 0 (Z.to_nat n) ++ x :: v) = n + (1 + len v)).
  { rewrite len_app, len_cons. unfold len at 1. rewrite repeat_length. lia. }
  assert (VR : bval_32 (repeat 0 (Z.to_nat n) ++ x :: v) = z * wt_32 n).
  { rewrite bval_app_32, bval_repeat0_32, V. unfold len. rewrite repeat_length, Z2Nat.id by lia. ring. }
  split; [apply limbs_app_32; [apply limbs_repeat0_32|exact L]|]. split; [lia|]. split; [|exact VR].
  right. rewrite LR, VR. replace (n + (1 + len v) - 1) with (1 + len v - 1 + n) by lia. rewrite wt_add_32 by lia.
  assert (P := wt_pos_32 n H). nia.
Qed.
Lemma big_pow2_ok_32 v z n : big_ok_32 v z -> 0 <= n -> 0 < z -> z * 2 ^ n < wt_32 125 -> exists r, big_pow2_32 v n = Ok r /\ big_ok_32 r (z * 2 ^ n).
Proof.
  intros V H Z0 F. unfold big_pow2_32.
  assert (D := Z.div_mod n 32 ltac:(lia)). assert (M := Z.mod_pos_bound n 32 ltac:(lia)). assert (D0 : 0 <= n / 32) by (apply Z.div_pos; lia).
  assert (SP : 2 ^ n = 2 ^ (n mod 32) * wt_32 (n / 32)) by (unfold wt_32; rewrite <- Z.pow_add_r by lia; f_equal; lia).
  rewrite SP in *. assert (PW := wt_pos_32 _ D0). assert (PM : 0 < 2 ^ (n mod 32)) by (apply Z.pow_pos_nonneg; lia).
  assert (S1 : exists r, (if n mod 32 =? 0 then Ok v else shl_bits_32 v (n mod 32)) = Ok r /\ big_ok_32 r (z * 2 ^ (n mod 32))).
  { destruct (Z.eqb_spec (n mod 32) 0) as [E|E].
    - exists v. split; [reflexivity|]. now rewrite E, Z.mul_1_r.
    - apply shl_bits_ok_32; [exact V|lia|nia]. }
  destruct S1 as [r [-> R]]. cbn [bind]. rewrite Z.mul_assoc in *.
  destruct (Z.eqb_spec (n / 32) 0) as [E|E].
  - exists r. split; [reflexivity|]. now rewrite E, wt_0_32, Z.mul_1_r.
  - apply shl_limbs_ok_32; [exact R|lia|nia|lia].
Qed.
Lemma big_pow10_ok_32 v z e : big_ok_32 v z -> 0 <= e -> 0 < z -> z * 10 ^ e < wt_32 115 -> exists r, big_pow10_32 v e = Ok r /\ big_ok_32 r (z * 10 ^ e).
Proof.
  intros V E Z0 F. assert (SP : 10 ^ e = 5 ^ e * 2 ^ e) by (rewrite <- Z.pow_mul_l; reflexivity).
  assert (P2 : 0 < 2 ^ e) by (apply Z.pow_pos_nonneg; lia). assert (P5 : 0 < 5 ^ e) by (apply Z.pow_pos_nonneg; lia).
  rewrite SP in *. unfold big_pow10_32. destruct (big_pow5_ok_32 v z e V E ltac:(nia)) as [r [-> R]]. cbn [bind].
  rewrite Z.mul_assoc in *. assert (M := wt_mono_32 115 125 ltac:(lia)). apply big_pow2_ok_32; [exact R|exact E|nia|lia].
Qed.
Lemma big_of_ok_32 x : limb x -> big_ok_32 (big_of_32 x) x.
Proof.
  unfold limb. intros X. set (v := [u32 x; u32 (Z.shiftr x 32)]).
  destruct (normalize_spec_32 v) as [L [V [LE N]]]; [repeat (apply Forall_cons; [apply u32_limb_32|]); constructor|].
  unfold big_of_32. fold v. split; [exact L|]. split; [change (len v) with 2 in LE; lia|]. split; [exact N|].
  rewrite V. unfold v. cbn [bval_32]. rewrite Z.shiftr_div_pow2 by lia. unfold u32.
  rewrite (Z.mod_small (x / 2 ^ 32)) by (split; [apply Z.div_pos; lia|apply Z.div_lt_upper_bound; lia]).
  assert (D := Z.div_mod x (2 ^ 32) ltac:(lia)). lia.
Qed.

(** ** Comparison *)
Lemma compare_rev_spec_32 x : forall y, limbs_32 x -> limbs_32 y -> length x = length y ->
  compare_rev x y = match bval_32 (rev x) ?= bval_32 (rev y) with Gt => 1 | Lt => -1 | Eq => 0 end.
Proof.
  induction x as [|xi x IH]; intros [|yi y] LX LY LN; try discriminate LN; [reflexivity|].
  cbn [length] in LN. inversion LX as [|? ? XI LX']; subst. inversion LY as [|? ? YI LY']; subst.
  cbn [compare_rev rev]. rewrite !bval_app_32. cbn [bval_32].
  assert (LR : len (rev x) = len (rev y)) by (unfold len; rewrite !rev_length; lia). rewrite LR.
  assert (RX := bval_range_32 (rev x) ltac:(apply Forall_rev; exact LX')). assert (RY := bval_range_32 (rev y) ltac:(apply Forall_rev; exact LY')).
  rewrite LR in RX. set (W := wt_32 (len (rev y))) in *.
  destruct (Z.ltb_spec yi xi) as [A|A].
  - replace (bval_32 (rev x) + W * (xi + 2 ^ 32 * 0) ?= bval_32 (rev y) + W * (yi + 2 ^ 32 * 0)) with Gt; [reflexivity|].
    symmetry. apply Z.compare_gt_iff. nia.
  - destruct (Z.ltb_spec xi yi) as [A2|A2].
    + replace (bval_32 (rev x) + W * (xi + 2 ^ 32 * 0) ?= bval_32 (rev y) + W * (yi + 2 ^ 32 * 0)) with Lt; [reflexivity|].
      symmetry. apply Z.compare_lt_iff. nia.
    + replace yi with xi by lia. rewrite IH by (try assumption; lia).

      destruct (Z.compare_spec (bval_32 (rev x)) (bval_32 (rev y))) as [C|C|C];
      destruct (Z.compare_spec (bval_32 (rev x) + W * (xi + 2 ^ 32 * 0)) (bval_32 (rev y) + W * (xi + 2 ^ 32 * 0))) as [C'|C'|C']; try reflexivity; lia.
Qed.
Lemma compare_big_spec_32 x a y b : big_ok_32 x a -> big_ok_32 y b ->
  compare_big x y = match a ?= b with Gt => 1 | Lt => -1 | Eq => 0 end.
Proof.
  intros [LX [_ [NX VX]]] [LY [_ [NY VY]]]. unfold compare_big.
  assert (RX := bval_range_32 x LX). assert (RY := bval_range_32 y LY).
  destruct (Z.ltb_spec (len y) (len x)) as [A|A].
  - destruct NX as [->|NX]; [change (len (@nil Z)) with 0 in A; assert (B := len_nonneg y); lia|].
    assert (M := wt_mono_32 (len y) (len x - 1) ltac:(lia)). replace (a ?= b) with Gt; [reflexivity|]. symmetry. apply Z.compare_gt_iff. lia.
  - destruct (Z.ltb_spec (len x) (len y)) as [A2|A2].
    + destruct NY as [->|NY]; [change (len (@nil Z)) with 0 in A2; assert (B := len_nonneg x); lia|].
      assert (M := wt_mono_32 (len x) (len y - 1) ltac:(lia)). replace (a ?= b) with Lt; [reflexivity|]. symmetry. apply Z.compare_lt_iff. lia.
    + rewrite compare_rev_spec_32; [rewrite !rev_involutive, VX, VY; reflexivity|apply Forall_rev; exact LX|apply Forall_rev; exact LY|].
      rewrite !rev_length. unfold len in *. lia.
Qed.

