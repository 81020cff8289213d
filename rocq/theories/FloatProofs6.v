(** The big integers of the slow path. *)
From Verif Require Import Base BaseLemmas FloatModel.
From Coq Require Import Lia.
Open Scope Z_scope.

Fixpoint bval (v : list Z) : Z := match v with [] => 0 | x :: v => x + 2 ^ 64 * bval v end.
Definition limb (x : Z) : Prop := 0 <= x < 2 ^ 64.
Definition limbs (v : list Z) : Prop := Forall limb v.
Definition wt (n : Z) : Z := 2 ^ (64 * n).
(** without leading zero limbs *)
Definition norm (v : list Z) : Prop := v = [] \/ wt (len v - 1) <= bval v.
Definition big_ok (v : list Z) (z : Z) : Prop := limbs v /\ len v <= 62 /\ norm v /\ bval v = z.

Lemma len_nonneg (v : list Z) : 0 <= len v. Proof. unfold len. lia. Qed.
Lemma len_cons (x : Z) v : len (x :: v) = 1 + len v. Proof. unfold len. cbn [length]. lia. Qed.
Lemma len_app (u v : list Z) : len (u ++ v) = len u + len v. Proof. unfold len. rewrite app_length. lia. Qed.
Lemma wt_0 : wt 0 = 1. Proof. reflexivity. Qed.
Lemma wt_S n : 0 <= n -> wt (1 + n) = 2 ^ 64 * wt n.
Proof. intros H. unfold wt. rewrite <- Z.pow_add_r by lia. f_equal. lia. Qed.
Lemma wt_pos n : 0 <= n -> 0 < wt n. Proof. intros H. apply Z.pow_pos_nonneg; lia. Qed.
Lemma wt_add a b : 0 <= a -> 0 <= b -> wt (a + b) = wt a * wt b.
Proof. intros H1 H2. unfold wt. rewrite <- Z.pow_add_r by lia. f_equal. lia. Qed.
Lemma wt_mono a b : a <= b -> wt a <= wt b. Proof. intros H. apply Z.pow_le_mono_r; lia. Qed.

Lemma bval_app u v : bval (u ++ v) = bval u + wt (len u) * bval v.
Proof.
  induction u as [|x u IH]; [cbn [app bval]; change (len (@nil Z)) with 0; rewrite wt_0; lia|].
  cbn [app bval]. rewrite IH, len_cons, wt_S by apply len_nonneg. ring.
Qed.
Lemma bval_range v : limbs v -> 0 <= bval v < wt (len v).
Proof.
  induction 1 as [|x v H L IH]; [cbn; lia|]. cbn [bval]. rewrite len_cons, wt_S by apply len_nonneg. unfold limb in H. lia.
Qed.
Lemma bval_repeat0 n : bval (repeat 0 n) = 0. Proof. induction n as [|n IH]; [reflexivity|]. cbn [repeat bval]. lia. Qed.
Lemma limbs_app u v : limbs u -> limbs v -> limbs (u ++ v). Proof. intros; now apply Forall_app. Qed.
Lemma limbs_repeat0 n : limbs (repeat 0 n).
Proof. induction n; cbn; [constructor|]. apply Forall_cons; [unfold limb; lia|assumption]. Qed.
Lemma u64_limb z : limb (u64 z). Proof. unfold limb, u64. apply Z.mod_pos_bound. lia. Qed.

(** a value that fits in 62 limbs is never refused *)
Lemma try_push_ok v x : limbs v -> limb x -> len v <= 62 -> x <> 0 -> bval v + wt (len v) * x < wt 62 ->
  try_push v x = Ok (v ++ [x]) /\ limbs (v ++ [x]) /\ len (v ++ [x]) <= 62 /\ norm (v ++ [x]) /\
  bval (v ++ [x]) = bval v + wt (len v) * x.
Proof.
  intros L X LE NZ F. assert (R := bval_range v L). assert (P := wt_pos (len v) (len_nonneg v)). unfold limb in X.
  assert (LV : len v < 62).
  { destruct (Z.le_gt_cases 62 (len v)) as [C|C]; [|exact C]. assert (M := wt_mono 62 (len v) C). nia. }
  unfold try_push, bigint_limbs. replace (len v <? 62) with true by lia.
  assert (BV : bval (v ++ [x]) = bval v + wt (len v) * x) by (rewrite bval_app; cbn [bval]; lia).
  assert (LL : len (v ++ [x]) = len v + 1) by (rewrite len_app; reflexivity).
  split; [reflexivity|]. split; [apply limbs_app; [exact L|now apply Forall_cons]|]. split; [lia|]. split; [|exact BV].
  right. rewrite LL, BV. replace (len v + 1 - 1) with (len v) by lia. nia.
Qed.

(** ** Addition and multiplication by a limb *)
Lemma add_carry_spec v : limbs v -> forall c, limb c -> forall r c', add_carry v c = (r, c') ->
  limbs r /\ len r = len v /\ limb c' /\ bval r + wt (len v) * c' = bval v + c.
Proof.
  induction 1 as [|x v X L IH]; intros c C r c' H.
  - cbn in H. injection H as <- <-. cbn [bval]. change (len (@nil Z)) with 0. rewrite wt_0. repeat split; try constructor; unfold limb in *; lia.
  - cbn [add_carry] in H. destruct (Z.eqb_spec c 0) as [C0|C0].
    + injection H as <- <-. repeat split; try (now apply Forall_cons); unfold limb; lia.
    + destruct (add_carry v _) as [r1 c1] eqn:E. injection H as <- <-.
      assert (CC : limb (if 2 ^ 64 <=? x + c then 1 else 0)) by (unfold limb; destruct (2 ^ 64 <=? x + c); lia).
      destruct (IH _ CC _ _ E) as [L1 [LN [C1 V]]].
      split; [apply Forall_cons; [apply u64_limb|exact L1]|]. split; [rewrite !len_cons; lia|]. split; [exact C1|].
      cbn [bval]. rewrite len_cons, wt_S by apply len_nonneg. unfold limb in *.
      assert (U : u64 (x + c) = x + c - 2 ^ 64 * (if 2 ^ 64 <=? x + c then 1 else 0)).
      { unfold u64. destruct (Z.leb_spec (2 ^ 64) (x + c)).
        - symmetry. apply (Z.mod_unique _ _ 1); lia.
        - rewrite Z.mod_small; lia. }
      rewrite U. lia.
Qed.
Lemma len_firstn (v : list Z) n : (n <= length v)%nat -> len (firstn n v) = Z.of_nat n.
Proof. intros H. unfold len. rewrite firstn_length. lia. Qed.
Lemma len_skipn (v : list Z) n : (n <= length v)%nat -> len (skipn n v) = len v - Z.of_nat n.
Proof. intros H. unfold len. rewrite skipn_length. lia. Qed.
Lemma limbs_firstn v n : limbs v -> limbs (firstn n v).
Proof. intros L. rewrite <- (firstn_skipn n v) in L. apply Forall_app in L. tauto. Qed.
Lemma limbs_skipn v n : limbs v -> limbs (skipn n v).
Proof. intros L. rewrite <- (firstn_skipn n v) in L. apply Forall_app in L. tauto. Qed.
Lemma bval_split v n : (n <= length v)%nat -> bval v = bval (firstn n v) + wt (Z.of_nat n) * bval (skipn n v).
Proof. intros H. rewrite <- (firstn_skipn n v) at 1. rewrite bval_app, len_firstn by exact H. reflexivity. Qed.

Lemma small_add_from_ok v y n : limbs v -> len v <= 62 -> limb y -> (n <= length v)%nat ->
  bval v + wt (Z.of_nat n) * y < wt 62 ->
  exists r, small_add_from v y n = Ok r /\ limbs r /\ len v <= len r <= 62 /\ (norm v -> v <> [] \/ n = O -> norm r) /\
  bval r = bval v + wt (Z.of_nat n) * y.
Proof.
  intros L LE Y N F. unfold small_add_from.
  destruct (add_carry (skipn n v) y) as [r c] eqn:E.
  destruct (add_carry_spec _ (limbs_skipn v n L) y Y r c E) as [LR [LN [C V]]].
  rewrite len_skipn in LN, V by exact N. assert (S := bval_split v n N).
  set (w := firstn n v ++ r).
  assert (LW : limbs w) by (apply limbs_app; [now apply limbs_firstn|exact LR]).
  assert (LNW : len w = len v) by (unfold w; rewrite len_app, len_firstn by exact N; lia).
  assert (VW : bval w + wt (len v) * c = bval v + wt (Z.of_nat n) * y).
  { unfold w. rewrite bval_app, len_firstn by exact N. 
    replace (len v) with (Z.of_nat n + (len v - Z.of_nat n)) by lia.
    rewrite wt_add by (unfold len; lia). rewrite S.
    replace (bval (firstn n v) + wt (Z.of_nat n) * bval r + wt (Z.of_nat n) * wt (len v - Z.of_nat n) * c)
      with (bval (firstn n v) + wt (Z.of_nat n) * (bval r + wt (len v - Z.of_nat n) * c)) by ring.
    rewrite V. ring. }
  assert (PN := wt_pos (Z.of_nat n) ltac:(lia)). unfold limb in Y.
  destruct (Z.eqb_spec c 0) as [C0|C0].
  - subst c. exists w. split; [reflexivity|]. split; [exact LW|]. split; [lia|]. split; [|lia].
    intros [->|NV] D.
    + left. destruct w; [reflexivity|]. rewrite len_cons in LNW. change (len (@nil Z)) with 0 in LNW. assert (X := len_nonneg w). lia.
    + right. rewrite LNW. nia.
  - rewrite <- LNW in VW. destruct (try_push_ok w c LW C ltac:(lia) C0 ltac:(lia)) as [T1 [T2 [T3 [T4 T5]]]].
    exists (w ++ [c]). split; [exact T1|]. split; [exact T2|]. split; [rewrite len_app in *; change (len [c]) with 1 in *; lia|].
    split; [intros _ _; exact T4|]. lia.
Qed.
Lemma small_add_ok v z y : big_ok v z -> limb y -> z + y < wt 62 -> exists r, small_add v y = Ok r /\ big_ok r (z + y).
Proof.
  intros [L [LE [N V]]] Y F.
  destruct (small_add_from_ok v y 0 L LE Y) as [r [H [LR [LN [NR VR]]]]]; [lia|change (wt (Z.of_nat 0)) with 1; lia|].
  exists r. split; [exact H|]. change (wt (Z.of_nat 0)) with 1 in VR. repeat split; try tauto; try lia.
Qed.

Lemma mul_carry_spec v y : limbs v -> limb y -> forall c, limb c -> forall r c', mul_carry v y c = (r, c') ->
  limbs r /\ len r = len v /\ limb c' /\ bval r + wt (len v) * c' = bval v * y + c.
Proof.
  intros L Y. induction L as [|x v X L IH]; intros c C r c' H.
  - cbn in H. injection H as <- <-. cbn [bval]. change (len (@nil Z)) with 0. rewrite wt_0. repeat split; try constructor; unfold limb in *; lia.
  - cbn [mul_carry] in H. cbv zeta in H. destruct (mul_carry v y _) as [r1 c1] eqn:E. injection H as <- <-.
    unfold limb in *.
    assert (CC : 0 <= (x * y + c) / 2 ^ 64 < 2 ^ 64).
    { split; [apply Z.div_pos; nia|apply Z.div_lt_upper_bound; nia]. }
    destruct (IH _ CC _ _ E) as [L1 [LN [C1 V]]].
    split; [apply Forall_cons; [apply u64_limb|exact L1]|]. split; [rewrite !len_cons; lia|]. split; [exact C1|].
    cbn [bval]. rewrite len_cons, wt_S by apply len_nonneg. unfold u64.
    assert (D := Z.div_mod (x * y + c) (2 ^ 64) ltac:(lia)). nia.
Qed.
Lemma small_mul_raw v y : limbs v -> len v <= 62 -> limb y -> bval v * y < wt 62 ->
  exists r, small_mul v y = Ok r /\ limbs r /\ len v <= len r <= 62 /\ len r <= len v + 1 /\ (norm v -> y <> 0 -> norm r) /\ bval r = bval v * y.
Proof.
  intros L LE Y F. unfold small_mul. destruct (mul_carry v y 0) as [r c] eqn:E.
  destruct (mul_carry_spec v y L Y 0 ltac:(unfold limb; lia) r c E) as [LR [LN [C V]]].
  assert (BR := bval_range v L). unfold limb in Y.
  destruct (Z.eqb_spec c 0) as [C0|C0].
  - subst c. exists r. split; [reflexivity|]. split; [exact LR|]. split; [lia|]. split; [lia|]. split; [|lia].
    intros [->|NV] D.
    + left. destruct r; [reflexivity|]. rewrite len_cons in LN. change (len (@nil Z)) with 0 in LN. assert (X := len_nonneg r). lia.
    + right. rewrite LN. nia.
  - rewrite <- LN in V. destruct (try_push_ok r c LR C ltac:(lia) C0 ltac:(lia)) as [T1 [T2 [T3 [T4 T5]]]].
    exists (r ++ [c]). split; [exact T1|]. split; [exact T2|]. rewrite len_app in *; change (len [c]) with 1 in *.
    split; [lia|]. split; [lia|]. split; [intros _ _; exact T4|]. lia.
Qed.
Lemma small_mul_ok v z y : big_ok v z -> 0 < y < 2 ^ 64 -> z * y < wt 62 -> exists r, small_mul v y = Ok r /\ big_ok r (z * y).
Proof.
  intros [L [LE [N V]]] Y F. destruct (small_mul_raw v y L LE ltac:(unfold limb; lia) ltac:(lia)) as [r [H [LR [LN [_ [NR VR]]]]]].
  exists r. split; [exact H|]. repeat split; try lia; try assumption. apply NR; [exact N|lia].
Qed.

(** ** Addition at an offset *)
Lemma add_limbs_spec y : limbs y -> forall x, limbs x -> len y <= len x -> forall c r c', add_limbs x y c = (r, c') ->
  limbs r /\ len r = len x /\ bval r + wt (len y) * (if c' then 1 else 0) = bval x + bval y + (if c then 1 else 0) /\ True.
Proof.
  induction 1 as [|yi y YI LY IH]; intros x LX LE c r c' H.
  - replace (add_limbs x [] c) with (x, c) in H by (destruct x; reflexivity). injection H as <- <-.
    cbn [bval]. change (len (@nil Z)) with 0. rewrite wt_0. repeat split; try assumption. lia.
  - destruct x as [|xi x]; [exfalso; rewrite len_cons in LE; change (len (@nil Z)) with 0 in LE; assert (X := len_nonneg y); lia|].
    cbn [add_limbs] in H. cbv zeta in H. rewrite !len_cons in LE. inversion LX as [|? ? XI LX']; subst.
    destruct (add_limbs x y _) as [r1 c1] eqn:E. injection H as <- <-.
    destruct (IH x LX' ltac:(lia) _ _ _ E) as [L1 [LN [V _]]].
    split; [apply Forall_cons; [destruct c; apply u64_limb|exact L1]|]. split; [rewrite !len_cons; lia|]. split; [|exact I].
    cbn [bval]. rewrite len_cons, wt_S by apply len_nonneg. unfold limb in *.
    assert (K : (if c then u64 (u64 (xi + yi) + 1) else u64 (xi + yi)) +
      2 ^ 64 * (if (2 ^ 64 <=? xi + yi) || c && (2 ^ 64 <=? u64 (xi + yi) + 1) then 1 else 0) = xi + yi + if c then 1 else 0).
    { unfold u64. destruct (Z.leb_spec (2 ^ 64) (xi + yi)) as [A|A]; cbn [orb].
      - assert (M : (xi + yi) mod 2 ^ 64 = xi + yi - 2 ^ 64) by (symmetry; apply (Z.mod_unique _ _ 1); lia).
        rewrite M. destruct c; [rewrite Z.mod_small by lia|]; lia.
      - rewrite (Z.mod_small (xi + yi)) by lia. destruct c; cbn [andb]; [|lia].
        destruct (Z.leb_spec (2 ^ 64) (xi + yi + 1)) as [A2|A2].
        + assert (M : (xi + yi + 1) mod 2 ^ 64 = xi + yi + 1 - 2 ^ 64) by (symmetry; apply (Z.mod_unique _ _ 1); lia).
          rewrite M. lia.
        + rewrite Z.mod_small by lia. lia. }
    set (cc := (2 ^ 64 <=? xi + yi) || c && (2 ^ 64 <=? u64 (xi + yi) + 1)) in *. lia.
Qed.
Lemma large_add_from_ok x y n : limbs x -> limbs y -> len x <= 62 -> len y + Z.of_nat n <= 62 ->
  bval x + wt (Z.of_nat n) * bval y < wt 62 ->
  exists r, large_add_from x y n = Ok r /\ limbs r /\ len r <= 62 /\ bval r = bval x + wt (Z.of_nat n) * bval y.
Proof.
  intros LX LY EX EY F. unfold large_add_from.
  set (x1 := x ++ repeat 0 (length y + n - length x)).
  assert (X1 : (if (length x <? n)%nat || (length x - n <? length y)%nat then
             if bigint_limbs <? len y + Z.of_nat n then Err else Ok x1 else Ok x) = Ok x1).
  { destruct ((length x <? n)%nat || (length x - n <? length y)%nat) eqn:C.
    - unfold bigint_limbs. replace (62 <? len y + Z.of_nat n) with false by lia. reflexivity.
    - apply orb_false_iff in C. destruct C as [C1 C2]. apply Nat.ltb_ge in C1, C2. unfold x1.
      replace (length y + n - length x)%nat with O by lia. cbn [repeat]. now rewrite app_nil_r. }
  fold x1. rewrite X1. cbn [bind].
  assert (L1 : limbs x1) by (apply limbs_app; [exact LX|apply limbs_repeat0]).
  assert (V1 : bval x1 = bval x) by (unfold x1; rewrite bval_app, bval_repeat0; lia).
  assert (N1 : length x1 = Nat.max (length x) (length y + n)) by (unfold x1; rewrite app_length, repeat_length; lia).
  assert (NX : (n <= length x1)%nat) by lia.
  destruct (add_limbs (skipn n x1) y false) as [r c] eqn:E.
  destruct (add_limbs_spec y LY (skipn n x1) (limbs_skipn _ _ L1) ltac:(rewrite len_skipn by lia; unfold len; lia) false r c E) as [LR [LN [V _]]].
  set (w := firstn n x1 ++ r).
  assert (LW : limbs w) by (apply limbs_app; [now apply limbs_firstn|exact LR]).
  assert (LNW : len w = len x1) by (unfold w; rewrite len_app, len_firstn by exact NX; rewrite LN, len_skipn by exact NX; lia).
  assert (LE1 : len x1 <= 62) by (unfold len in *; lia).
  assert (VW : bval w + wt (Z.of_nat (length y + n)) * (if c then 1 else 0) = bval x + wt (Z.of_nat n) * bval y).
  { unfold w. rewrite bval_app, len_firstn by exact NX. rewrite <- V1, (bval_split x1 n NX).
    replace (Z.of_nat (length y + n)) with (Z.of_nat n + len y) by (unfold len; lia).
    rewrite wt_add by (unfold len; lia). nia. }
  destruct c.
  - destruct (small_add_from_ok w 1 (length y + n) LW ltac:(lia) ltac:(unfold limb; lia)) as [s [H [LS [NS [_ VS]]]]].
    + unfold len in LNW. lia.
    + lia.
    + exists s. split; [exact H|]. split; [exact LS|]. split; [lia|]. lia.
  - exists w. split; [reflexivity|]. split; [exact LW|]. split; lia.
Qed.

(** ** Long multiplication *)
Lemma normalize_spec v : limbs v -> limbs (normalize v) /\ bval (normalize v) = bval v /\ len (normalize v) <= len v /\ norm (normalize v).
Proof.
  induction 1 as [|x v X L [L1 [V [LE N]]]]; [cbn [normalize]; split; [constructor|]; split; [reflexivity|]; split; [lia|now left]|].
  cbn [normalize]. rewrite len_cons. cbn [bval]. assert (R := bval_range _ L1). destruct (normalize v) as [|y w] eqn:E.
  - cbn [bval] in V. destruct (Z.eqb_spec x 0) as [X0|X0].
    + split; [constructor|]. split; [cbn [bval]; lia|]. split; [|now left]. change (len (@nil Z)) with 0. assert (Y := len_nonneg v). lia.
    + split; [apply Forall_cons; [exact X|constructor]|]. split; [cbn [bval]; lia|].
      split; [change (len [x]) with 1; assert (Y := len_nonneg v); lia|].
      right. change (len [x] - 1) with 0. rewrite wt_0. cbn [bval]. unfold limb in X. lia.
  - split; [now apply Forall_cons|]. split; [cbn [bval]; rewrite <- V; reflexivity|]. split; [rewrite !len_cons in *; lia|].
    right. destruct N as [N|N]; [discriminate|]. rewrite !len_cons in *.
    replace (1 + (1 + len w) - 1) with (1 + len w) by lia. replace (1 + len w - 1) with (len w) in N by lia.
    rewrite wt_S by apply len_nonneg. change (bval (x :: y :: w)) with (x + 2 ^ 64 * bval (y :: w)). unfold limb in X. nia.
Qed.
Lemma long_mul_loop_ok y : limbs y -> forall x z n, limbs x -> limbs z -> len x <= 62 -> len z + len y + Z.of_nat n <= 62 -> 
  bval x + wt (Z.of_nat n) * (bval z * bval y) < wt 62 ->
  exists r, long_mul_loop x z y n = Ok r /\ limbs r /\ len r <= 62 /\ bval r = bval x + wt (Z.of_nat n) * (bval z * bval y).
Proof.
  induction 1 as [|yi y YI LY IH]; intros x z n LX LZ EX EZ F.
  - exists x. cbn [long_mul_loop bval]. repeat split; try assumption. lia.
  - cbn [long_mul_loop]. cbn [bval] in F. rewrite len_cons in EZ.
    assert (RZ := bval_range z LZ). assert (RX := bval_range x LX). assert (RY := bval_range y LY).
    assert (PN := wt_pos (Z.of_nat n) ltac:(lia)). unfold limb in YI. assert (LNZ := len_nonneg z). assert (LNY := len_nonneg y).
    assert (STEP : exists x', (if yi =? 0 then Ok x else do zi <- small_mul z yi ;; large_add_from x zi n) = Ok x' /\
      limbs x' /\ len x' <= 62 /\ bval x' = bval x + wt (Z.of_nat n) * (bval z * yi)).
    { destruct (Z.eqb_spec yi 0) as [->|Y0].
      - exists x. repeat split; try assumption. lia.
      - assert (BZ : bval z * yi < wt (len z + 1)).
        { rewrite Z.add_comm, wt_S by lia. nia. }
        assert (MZ : wt (len z + 1) <= wt 62) by (apply wt_mono; lia).
        destruct (small_mul_raw z yi LZ ltac:(lia) YI ltac:(lia)) as [zi [-> [LZI [LN1 [LN2 [_ VZ]]]]]]. cbn [bind].
        destruct (large_add_from_ok x zi n LX LZI EX ltac:(lia)) as [r [-> [LR [LNR VR]]]].
        + rewrite VZ. assert (0 <= bval z * (2 ^ 64 * bval y)) by nia. nia.
        + exists r. rewrite VZ in VR. repeat split; assumption. }
    destruct STEP as [x' [-> [L' [E' V']]]]. cbn [bind].
    assert (WS : wt (Z.of_nat (S n)) = 2 ^ 64 * wt (Z.of_nat n)).
    { rewrite <- wt_S by lia. f_equal. lia. }
    destruct (IH x' z (S n) L' LZ E' ltac:(lia)) as [r [-> [LR [ER VR]]]].
    + rewrite V', WS. nia.
    + exists r. split; [reflexivity|]. split; [exact LR|]. split; [exact ER|]. rewrite VR, V', WS. cbn [bval]. ring.
Qed.
Lemma long_mul_ok x z y : big_ok x z -> limbs y -> y <> [] -> len x + len y <= 62 ->
  exists r, long_mul x y = Ok r /\ big_ok r (z * bval y).
Proof.
  intros [LX [EX [NX VX]]] LY NE E. destruct y as [|y0 y]; [congruence|]. cbn [long_mul]. rewrite len_cons in E.
  inversion LY as [|? ? Y0 LY']; subst. assert (RX := bval_range x LX). assert (RY := bval_range y LY'). unfold limb in Y0.
  assert (LNX := len_nonneg x). assert (LNY := len_nonneg y).
  assert (ALL : bval x * (y0 + 2 ^ 64 * bval y) < wt 62).
  { apply Z.lt_le_trans with (wt (len x + (1 + len y))); [|apply wt_mono; lia].
    rewrite wt_add, wt_S by lia. nia. }
  assert (P1 : 0 <= bval x * (2 ^ 64 * bval y)) by nia.
  assert (P2 : 0 <= bval x * y0) by nia.
  destruct (small_mul_raw x y0 LX EX Y0 ltac:(lia)) as [r [-> [LR [LN1 [LN2 [_ VR]]]]]]. cbn [bind].
  assert (W1 : wt (Z.of_nat 1) = 2 ^ 64) by reflexivity.
  destruct (long_mul_loop_ok y LY' r x 1 LR LX ltac:(lia) ltac:(lia)) as [s [-> [LS [ES VS]]]].
  - rewrite W1, VR. lia.
  - cbn [bind]. destruct (normalize_spec s LS) as [L2 [V2 [E2 N2]]]. exists (normalize s). split; [reflexivity|].
    repeat split; try assumption; try lia. rewrite V2, VS, VR, W1. cbn [bval]. ring.
Qed.

(** ** Powers *)
Lemma len_small v z n : big_ok v z -> 0 <= n -> z < wt n -> len v <= n.
Proof.
  intros [L [_ [[->|N] V]]] H F; [exact H|]. destruct (Z.le_gt_cases (len v) n) as [C|C]; [exact C|].
  assert (M := wt_mono n (len v - 1) ltac:(lia)). lia.
Qed.
Lemma big_ok_nonneg v z : big_ok v z -> 0 <= z. Proof. intros [L [_ [_ <-]]]. now apply bval_range. Qed.
Lemma large_table : bval large_power_of_5 = 5 ^ 135. Proof. vm_compute. reflexivity. Qed.
Lemma pow5_large_ok fuel : forall v z e, big_ok v z -> 0 <= e -> e <= Z.of_nat fuel -> z * 5 ^ e < wt 57 ->
  exists r e', pow5_large fuel v e = Ok (r, e') /\ 0 <= e' < 135 /\ e' <= e /\ big_ok r (z * 5 ^ (e - e')).
Proof.
  induction fuel as [|fuel IH]; intros v z e V E0 EF F.
  - exists v, e. cbn [pow5_large]. replace (e <? 135) with true by lia. rewrite Z.sub_diag, Z.mul_1_r. repeat split; try lia; apply V.
  - cbn [pow5_large]. destruct (Z.ltb_spec e 135) as [S|S].
    + exists v, e. rewrite Z.sub_diag, Z.mul_1_r. repeat split; try lia; apply V.
    + assert (Z0 := big_ok_nonneg v z V).
      assert (P5 : 0 < 5 ^ e) by (apply Z.pow_pos_nonneg; lia).
      assert (LV : len v <= 57) by (apply (len_small v z); [exact V|lia|nia]).
      unfold large_mul, large_power_of_5.
      destruct (long_mul_ok v z large_power_of_5 V) as [r [H R]].
      * unfold large_power_of_5, limbs, limb. repeat (apply Forall_cons; [lia|]). constructor.
      * discriminate.
      * change (len large_power_of_5) with 5. lia.
      * unfold large_power_of_5 in H. rewrite H. cbn [bind]. rewrite large_table in R.
        assert (SP : 5 ^ e = 5 ^ 135 * 5 ^ (e - 135)) by (rewrite <- Z.pow_add_r by lia; f_equal; lia).
        destruct (IH r (z * 5 ^ 135) (e - 135) R ltac:(lia) ltac:(lia) ltac:(nia)) as [r' [e' [-> [E1 [E2 R']]]]].
        exists r', e'. split; [reflexivity|]. split; [exact E1|]. split; [lia|].
        replace (z * 5 ^ (e - e')) with (z * 5 ^ 135 * 5 ^ (e - 135 - e')); [exact R'|].
        rewrite <- Z.mul_assoc, <- Z.pow_add_r by lia. do 2 f_equal. lia.
Qed.
Lemma pow5_small_ok fuel : forall v z e, big_ok v z -> 0 <= e < 27 * (Z.of_nat fuel + 1) -> z * 5 ^ e < wt 57 ->
  exists r e', pow5_small fuel v e = Ok (r, e') /\ 0 <= e' < 27 /\ e' <= e /\ big_ok r (z * 5 ^ (e - e')).
Proof.
  induction fuel as [|fuel IH]; intros v z e V E0 F.
  - exists v, e. cbn [pow5_small]. replace (e <? 27) with true by lia. rewrite Z.sub_diag, Z.mul_1_r. repeat split; try lia; apply V.
  - cbn [pow5_small]. destruct (Z.ltb_spec e 27) as [S|S].
    + exists v, e. rewrite Z.sub_diag, Z.mul_1_r. repeat split; try lia; apply V.
    + assert (Z0 := big_ok_nonneg v z V).
      assert (SP : 5 ^ e = 7450580596923828125 * 5 ^ (e - 27)).
      { change 7450580596923828125 with (5 ^ 27). rewrite <- Z.pow_add_r by lia. f_equal. lia. }
      assert (P5 : 0 < 5 ^ (e - 27)) by (apply Z.pow_pos_nonneg; lia).
      assert (M := wt_mono 57 62 ltac:(lia)).
      destruct (small_mul_ok v z 7450580596923828125 V ltac:(lia) ltac:(nia)) as [r [-> R]]. cbn [bind].
      destruct (IH r _ (e - 27) R ltac:(lia) ltac:(nia)) as [r' [e' [-> [E1 [E2 R']]]]].
      exists r', e'. split; [reflexivity|]. split; [exact E1|]. split; [lia|].
      replace (z * 5 ^ (e - e')) with (z * 7450580596923828125 * 5 ^ (e - 27 - e')); [exact R'|].
      change 7450580596923828125 with (5 ^ 27). rewrite <- Z.mul_assoc, <- Z.pow_add_r by lia. do 2 f_equal. lia.
Qed.
Lemma small_table e : 0 <= e < 27 -> nth (Z.to_nat e) small_power_of_5 0 = 5 ^ e.
Proof.
  intros E. assert (C : forallb (fun i => nth i small_power_of_5 0 =? 5 ^ Z.of_nat i) (seq 0 27) = true) by (vm_compute; reflexivity).
  rewrite forallb_forall in C. specialize (C (Z.to_nat e)). rewrite Z2Nat.id in C by lia. apply Z.eqb_eq, C, in_seq. lia.
Qed.
Lemma big_pow5_ok v z e : big_ok v z -> 0 <= e -> z * 5 ^ e < wt 57 -> exists r, big_pow5 v e = Ok r /\ big_ok r (z * 5 ^ e).
Proof.
  intros V E F. assert (Z0 := big_ok_nonneg v z V). unfold big_pow5.
  destruct (pow5_large_ok (Z.to_nat e) v z e V E ltac:(lia) F) as [r [e1 [-> [E1 [E2 R]]]]]. cbn [bind].
  assert (S1 : z * 5 ^ e = z * 5 ^ (e - e1) * 5 ^ e1) by (rewrite <- Z.mul_assoc, <- Z.pow_add_r by lia; do 2 f_equal; lia).
  rewrite S1 in *. set (z1 := z * 5 ^ (e - e1)) in *.
  destruct (pow5_small_ok 5 r z1 e1 R ltac:(lia) F) as [r2 [e2 [-> [E3 [E4 R2]]]]]. cbn [bind].
  assert (S2 : z1 * 5 ^ e1 = z1 * 5 ^ (e1 - e2) * 5 ^ e2) by (rewrite <- Z.mul_assoc, <- Z.pow_add_r by lia; do 2 f_equal; lia).
  rewrite S2 in *. set (z2 := z1 * 5 ^ (e1 - e2)) in *.
  destruct (Z.eqb_spec e2 0) as [->|NE]; [exists r2; split; [reflexivity|]; now rewrite Z.mul_1_r|].
  rewrite small_table by lia. assert (M := wt_mono 57 62 ltac:(lia)).
  apply small_mul_ok; [exact R2| |lia].
  split; [apply Z.pow_pos_nonneg; lia|]. apply Z.le_lt_trans with (5 ^ 27); [apply Z.pow_le_mono_r; lia|reflexivity].
Qed.

(** ** Shifts *)
Lemma shl_carry_spec v n : limbs v -> 0 < n < 64 -> forall p, limb p -> forall r q, shl_carry v n p = (r, q) ->
  limbs r /\ len r = len v /\ limb q /\ bval r + wt (len v) * (q / 2 ^ (64 - n)) = bval v * 2 ^ n + p / 2 ^ (64 - n).
Proof.
  intros L N. induction L as [|x v X L IH]; intros p P r q H.
  - cbn in H. injection H as <- <-. cbn [bval]. change (len (@nil Z)) with 0. rewrite wt_0. repeat split; try constructor; unfold limb in *; lia.
  - change (shl_carry (x :: v) n p) with (let '(r, q) := shl_carry v n x in (Z.lor (u64 (Z.shiftl x n)) (Z.shiftr p (64 - n)) :: r, q)) in H. destruct (shl_carry v n x) as [r1 q1] eqn:E.
    remember (Z.lor (u64 (Z.shiftl x n)) (Z.shiftr p (64 - n))) as hd eqn:HD. injection H as <- <-.
    destruct (IH x X r1 q1 E) as [L1 [LN [Q V]]].
    assert (PN : 0 < 2 ^ n) by (apply Z.pow_pos_nonneg; lia). assert (PN' : 0 < 2 ^ (64 - n)) by (apply Z.pow_pos_nonneg; lia).
    assert (PM : 2 ^ n * 2 ^ (64 - n) = 2 ^ 64) by (rewrite <- Z.pow_add_r by lia; f_equal; lia).
    unfold limb in X, P.
    assert (LOW : 0 <= p / 2 ^ (64 - n) < 2 ^ n).
    { split; [apply Z.div_pos; lia|apply Z.div_lt_upper_bound; nia]. }
    assert (UX : u64 (Z.shiftl x n) = x mod 2 ^ (64 - n) * 2 ^ n).
    { rewrite Z.shiftl_mul_pow2 by lia. unfold u64. rewrite <- PM. rewrite (Z.mul_comm (2 ^ n)). rewrite Z.mul_mod_distr_r by lia. reflexivity. }
    assert (HEAD : hd = x mod 2 ^ (64 - n) * 2 ^ n + p / 2 ^ (64 - n)).
    { rewrite HD, UX, Z.shiftr_div_pow2 by lia. rewrite Z.lor_comm. 
      assert (LA : Z.land (p / 2 ^ (64 - n)) (x mod 2 ^ (64 - n) * 2 ^ n) = 0).
      { apply Z.bits_inj'. intros k K. rewrite Z.land_spec, Z.bits_0. destruct (Z.ltb_spec k n) as [KN|KN].
        - rewrite Z.mul_pow2_bits_low by lia. apply andb_false_r.
        - rewrite (Z.bits_above_log2 (p / 2 ^ (64 - n))); [reflexivity|lia|].
          destruct (Z.eq_dec (p / 2 ^ (64 - n)) 0) as [->|NZ]; [cbn; lia|].
          apply Z.lt_le_trans with n; [apply Z.log2_lt_pow2; lia|lia]. }
      rewrite <- Z.lxor_lor by exact LA. rewrite <- Z.add_nocarry_lxor by exact LA. ring. }
    assert (M := Z.mod_pos_bound x (2 ^ (64 - n)) PN'). assert (D := Z.div_mod x (2 ^ (64 - n)) ltac:(lia)).
    split; [apply Forall_cons; [rewrite HEAD; unfold limb; nia|exact L1]|]. split; [rewrite !len_cons; lia|]. split; [exact Q|].
    cbn [bval]. rewrite HEAD, len_cons, wt_S by apply len_nonneg. nia.
Qed.
Lemma shl_bits_ok v z n : big_ok v z -> 0 < n < 64 -> z * 2 ^ n < wt 62 -> exists r, shl_bits v n = Ok r /\ big_ok r (z * 2 ^ n).
Proof.
  intros [L [LE [N V]]] H F. unfold shl_bits. destruct (shl_carry v n 0) as [r q] eqn:E.
  destruct (shl_carry_spec v n L H 0 ltac:(unfold limb; lia) r q E) as [LR [LN [Q VR]]].
  rewrite Z.div_0_l, Z.add_0_r in VR by (apply Z.pow_nonzero; lia). rewrite Z.shiftr_div_pow2 by lia.
  assert (PN : 0 < 2 ^ n) by (apply Z.pow_pos_nonneg; lia). assert (PN' : 0 < 2 ^ (64 - n)) by (apply Z.pow_pos_nonneg; lia).
  assert (BR := bval_range v L). unfold limb in Q.
  destruct (Z.eqb_spec (q / 2 ^ (64 - n)) 0) as [C0|C0].
  - exists r. rewrite C0 in VR. split; [reflexivity|]. repeat split; try assumption; try lia. destruct N as [->|N].
    + left. destruct r; [reflexivity|]. rewrite len_cons in LN. change (len (@nil Z)) with 0 in LN. assert (X := len_nonneg r). lia.
    + right. rewrite LN. nia.
  - rewrite <- LN in VR.
    assert (QL : limb (q / 2 ^ (64 - n))).
    { unfold limb. split; [apply Z.div_pos; lia|apply Z.div_lt_upper_bound; nia]. }
    destruct (try_push_ok r _ LR QL ltac:(lia) C0 ltac:(lia)) as [T1 [T2 [T3 [T4 T5]]]].
    eexists. split; [exact T1|]. repeat split; try assumption. lia.
Qed.
Lemma shl_limbs_ok v z n : big_ok v z -> 0 <= n -> 0 < z -> z * wt n < wt 62 -> exists r, shl_limbs v n = Ok r /\ big_ok r (z * wt n).
Proof.
  intros [L [LE [N V]]] H Z0 F. unfold shl_limbs, bigint_limbs. destruct v as [|x v]; [cbn in V; lia|].
  destruct N as [N|N]; [discriminate|]. assert (LN := len_nonneg v). rewrite len_cons in *.
  assert (FIT : n + (1 + len v) <= 62).
  { destruct (Z.le_gt_cases (n + (1 + len v)) 62) as [C|C]; [exact C|].
    assert (M := wt_mono 62 (1 + len v - 1 + n) ltac:(lia)). rewrite wt_add in M by lia. assert (P := wt_pos n H). nia. }
  replace (62 <? n + (1 + len v)) with false by lia. eexists. split; [reflexivity|].
  assert (LR : len (repeat 0 (Z.to_nat n) ++ x :: v) = n + (1 + len v)).
  { rewrite len_app, len_cons. unfold len at 1. rewrite repeat_length. lia. }
  assert (VR : bval (repeat 0 (Z.to_nat n) ++ x :: v) = z * wt n).
  { rewrite bval_app, bval_repeat0, V. unfold len. rewrite repeat_length, Z2Nat.id by lia. ring. }
  split; [apply limbs_app; [apply limbs_repeat0|exact L]|]. split; [lia|]. split; [|exact VR].
  right. rewrite LR, VR. replace (n + (1 + len v) - 1) with (1 + len v - 1 + n) by lia. rewrite wt_add by lia.
  assert (P := wt_pos n H). nia.
Qed.
Lemma big_pow2_ok v z n : big_ok v z -> 0 <= n -> 0 < z -> z * 2 ^ n < wt 62 -> exists r, big_pow2 v n = Ok r /\ big_ok r (z * 2 ^ n).
Proof.
  intros V H Z0 F. unfold big_pow2.
  assert (D := Z.div_mod n 64 ltac:(lia)). assert (M := Z.mod_pos_bound n 64 ltac:(lia)). assert (D0 : 0 <= n / 64) by (apply Z.div_pos; lia).
  assert (SP : 2 ^ n = 2 ^ (n mod 64) * wt (n / 64)) by (unfold wt; rewrite <- Z.pow_add_r by lia; f_equal; lia).
  rewrite SP in *. assert (PW := wt_pos _ D0). assert (PM : 0 < 2 ^ (n mod 64)) by (apply Z.pow_pos_nonneg; lia).
  assert (S1 : exists r, (if n mod 64 =? 0 then Ok v else shl_bits v (n mod 64)) = Ok r /\ big_ok r (z * 2 ^ (n mod 64))).
  { destruct (Z.eqb_spec (n mod 64) 0) as [E|E].
    - exists v. split; [reflexivity|]. now rewrite E, Z.mul_1_r.
    - apply shl_bits_ok; [exact V|lia|nia]. }
  destruct S1 as [r [-> R]]. cbn [bind]. rewrite Z.mul_assoc in *.
  destruct (Z.eqb_spec (n / 64) 0) as [E|E].
  - exists r. split; [reflexivity|]. now rewrite E, wt_0, Z.mul_1_r.
  - apply shl_limbs_ok; [exact R|lia|nia|lia].
Qed.
Lemma big_pow10_ok v z e : big_ok v z -> 0 <= e -> 0 < z -> z * 10 ^ e < wt 57 -> exists r, big_pow10 v e = Ok r /\ big_ok r (z * 10 ^ e).
Proof.
  intros V E Z0 F. assert (SP : 10 ^ e = 5 ^ e * 2 ^ e) by (rewrite <- Z.pow_mul_l; reflexivity).
  assert (P2 : 0 < 2 ^ e) by (apply Z.pow_pos_nonneg; lia). assert (P5 : 0 < 5 ^ e) by (apply Z.pow_pos_nonneg; lia).
  rewrite SP in *. unfold big_pow10. destruct (big_pow5_ok v z e V E ltac:(nia)) as [r [-> R]]. cbn [bind].
  rewrite Z.mul_assoc in *. assert (M := wt_mono 57 62 ltac:(lia)). apply big_pow2_ok; [exact R|exact E|nia|lia].
Qed.
Lemma big_of_ok x : limb x -> big_ok (big_of x) x.
Proof.
  intros X. destruct (normalize_spec [x]) as [L [V [LE N]]]; [apply Forall_cons; [exact X|constructor]|].
  unfold big_of. repeat split; try assumption.
  - change (len [x]) with 1 in LE. lia.
  - rewrite V. cbn [bval]. lia.
Qed.

(** ** Comparison *)
Lemma compare_rev_spec x : forall y, limbs x -> limbs y -> length x = length y ->
  compare_rev x y = match bval (rev x) ?= bval (rev y) with Gt => 1 | Lt => -1 | Eq => 0 end.
Proof.
  induction x as [|xi x IH]; intros [|yi y] LX LY LN; try discriminate LN; [reflexivity|].
  cbn [length] in LN. inversion LX as [|? ? XI LX']; subst. inversion LY as [|? ? YI LY']; subst.
  cbn [compare_rev rev]. rewrite !bval_app. cbn [bval].
  assert (LR : len (rev x) = len (rev y)) by (unfold len; rewrite !rev_length; lia). rewrite LR.
  assert (RX := bval_range (rev x) ltac:(apply Forall_rev; exact LX')). assert (RY := bval_range (rev y) ltac:(apply Forall_rev; exact LY')).
  rewrite LR in RX. set (W := wt (len (rev y))) in *.
  destruct (Z.ltb_spec yi xi) as [A|A].
  - replace (bval (rev x) + W * (xi + 2 ^ 64 * 0) ?= bval (rev y) + W * (yi + 2 ^ 64 * 0)) with Gt; [reflexivity|].
    symmetry. apply Z.compare_gt_iff. nia.
  - destruct (Z.ltb_spec xi yi) as [A2|A2].
    + replace (bval (rev x) + W * (xi + 2 ^ 64 * 0) ?= bval (rev y) + W * (yi + 2 ^ 64 * 0)) with Lt; [reflexivity|].
      symmetry. apply Z.compare_lt_iff. nia.
    + replace yi with xi by lia. rewrite IH by (try assumption; lia).

      destruct (Z.compare_spec (bval (rev x)) (bval (rev y))) as [C|C|C];
      destruct (Z.compare_spec (bval (rev x) + W * (xi + 2 ^ 64 * 0)) (bval (rev y) + W * (xi + 2 ^ 64 * 0))) as [C'|C'|C']; try reflexivity; lia.
Qed.
Lemma compare_big_spec x a y b : big_ok x a -> big_ok y b ->
  compare_big x y = match a ?= b with Gt => 1 | Lt => -1 | Eq => 0 end.
Proof.
  intros [LX [_ [NX VX]]] [LY [_ [NY VY]]]. unfold compare_big.
  assert (RX := bval_range x LX). assert (RY := bval_range y LY).
  destruct (Z.ltb_spec (len y) (len x)) as [A|A].
  - destruct NX as [->|NX]; [change (len (@nil Z)) with 0 in A; assert (B := len_nonneg y); lia|].
    assert (M := wt_mono (len y) (len x - 1) ltac:(lia)). replace (a ?= b) with Gt; [reflexivity|]. symmetry. apply Z.compare_gt_iff. lia.
  - destruct (Z.ltb_spec (len x) (len y)) as [A2|A2].
    + destruct NY as [->|NY]; [change (len (@nil Z)) with 0 in A2; assert (B := len_nonneg x); lia|].
      assert (M := wt_mono (len x) (len y - 1) ltac:(lia)). replace (a ?= b) with Lt; [reflexivity|]. symmetry. apply Z.compare_lt_iff. lia.
    + rewrite compare_rev_spec; [rewrite !rev_involutive, VX, VY; reflexivity|apply Forall_rev; exact LX|apply Forall_rev; exact LY|].
      rewrite !rev_length. unfold len in *. lia.
Qed.

(** ** The high bits *)
Lemma lz_spec x : 0 < x < 2 ^ 64 -> 0 <= leading_zeroes x <= 63 /\ 2 ^ 63 <= x * 2 ^ leading_zeroes x < 2 ^ 64.
Proof.
  intros W. unfold leading_zeroes. assert (L := Z.log2_spec x ltac:(lia)).
  assert (0 <= Z.log2 x) by apply Z.log2_nonneg.
  assert (Z.log2 x < 64) by (apply Z.log2_lt_pow2; lia). split; [lia|].
  assert (P : 0 < 2 ^ (63 - Z.log2 x)) by (apply Z.pow_pos_nonneg; lia).
  assert (P63 : 2 ^ Z.log2 x * 2 ^ (63 - Z.log2 x) = 2 ^ 63) by (rewrite <- Z.pow_add_r by lia; f_equal; lia).
  rewrite Z.pow_succ_r in L by lia. nia.
Qed.
Lemma existsb_rev (p : Z -> bool) l : existsb p (rev l) = existsb p l.
Proof.
  apply eq_iff_eq_true. rewrite !existsb_exists. split; intros [x [H1 H2]]; exists x; split; try exact H2.
  - now apply in_rev.
  - rewrite <- in_rev. exact H1.
Qed.
Lemma nonzero_limbs v : limbs v -> existsb (fun x => negb (x =? 0)) v = negb (bval v =? 0).
Proof.
  induction 1 as [|x v X L IH]; [reflexivity|]. cbn [existsb bval]. rewrite IH. assert (R := bval_range v L). unfold limb in X.
  destruct (Z.eqb_spec x 0), (Z.eqb_spec (bval v) 0), (Z.eqb_spec (x + 2 ^ 64 * bval v) 0); try reflexivity; lia.
Qed.
Lemma hi_pair r0 r1 : 0 < r0 < 2 ^ 64 -> limb r1 -> let s := 64 - leading_zeroes r0 in
  uint64_hi64 r0 r1 = ((r1 + 2 ^ 64 * r0) / 2 ^ s, negb ((r1 + 2 ^ 64 * r0) mod 2 ^ s =? 0)) /\
  2 ^ 63 <= (r1 + 2 ^ 64 * r0) / 2 ^ s < 2 ^ 64.
Proof.
  intros R0 R1. cbv zeta. destruct (lz_spec r0 R0) as [Z1 Z2]. unfold limb in R1.
  unfold uint64_hi64. cbv zeta. set (lz := leading_zeroes r0) in *. clearbody lz.
  assert (PN : 0 < 2 ^ lz) by (apply Z.pow_pos_nonneg; lia). assert (PN' : 0 < 2 ^ (64 - lz)) by (apply Z.pow_pos_nonneg; lia).
  assert (PM : 2 ^ lz * 2 ^ (64 - lz) = 2 ^ 64) by (rewrite <- Z.pow_add_r by lia; f_equal; lia).
  assert (DIV : (r1 + 2 ^ 64 * r0) / 2 ^ (64 - lz) = r1 / 2 ^ (64 - lz) + r0 * 2 ^ lz).
  { rewrite <- PM. replace (r1 + 2 ^ lz * 2 ^ (64 - lz) * r0) with (r1 + (r0 * 2 ^ lz) * 2 ^ (64 - lz)) by ring. apply Z.div_add. lia. }
  assert (MOD : (r1 + 2 ^ 64 * r0) mod 2 ^ (64 - lz) = r1 mod 2 ^ (64 - lz)).
  { rewrite <- PM. replace (r1 + 2 ^ lz * 2 ^ (64 - lz) * r0) with (r1 + (r0 * 2 ^ lz) * 2 ^ (64 - lz)) by ring. apply Z.mod_add. lia. }
  rewrite DIV, MOD.
  assert (LOW : 0 <= r1 / 2 ^ (64 - lz) < 2 ^ lz) by (split; [apply Z.div_pos; lia|apply Z.div_lt_upper_bound; nia]).
  assert (RNG : 2 ^ 63 <= r1 / 2 ^ (64 - lz) + r0 * 2 ^ lz < 2 ^ 64).
  { split; [lia|]. assert (r0 < 2 ^ (64 - lz)) by nia. nia. }
  split; [|exact RNG].
  destruct (Z.eqb_spec lz 0) as [->|L0].
  - change (2 ^ (64 - 0)) with (2 ^ 64). rewrite Z.div_small, Z.mod_small by lia. f_equal. lia.
  - assert (U1 : u64 (Z.shiftl r1 lz) = r1 mod 2 ^ (64 - lz) * 2 ^ lz).
    { rewrite Z.shiftl_mul_pow2 by lia. unfold u64. rewrite <- PM, (Z.mul_comm (2 ^ lz)). rewrite Z.mul_mod_distr_r by lia. reflexivity. }
    rewrite U1. rewrite Z.shiftl_mul_pow2 by lia. rewrite u64_id by lia. rewrite Z.shiftr_div_pow2 by lia. f_equal.
    + set (a := r1 / 2 ^ (64 - lz)) in *.
      assert (LA : Z.land a (r0 * 2 ^ lz) = 0).
      { apply Z.bits_inj'. intros k K. rewrite Z.land_spec, Z.bits_0. destruct (Z.ltb_spec k lz) as [KN|KN].
        - rewrite Z.mul_pow2_bits_low by lia. apply andb_false_r.
        - rewrite (Z.bits_above_log2 a); [reflexivity|lia|].
          destruct (Z.eq_dec a 0) as [->|NZ]; [cbn; lia|].
          apply Z.lt_le_trans with lz; [apply Z.log2_lt_pow2; lia|lia]. }
      rewrite Z.lor_comm. rewrite <- Z.lxor_lor by exact LA. rewrite <- Z.add_nocarry_lxor by exact LA. ring.
    + f_equal. assert (M := Z.mod_pos_bound r1 (2 ^ (64 - lz)) PN').
      destruct (Z.eqb_spec (r1 mod 2 ^ (64 - lz)) 0) as [E|E], (Z.eqb_spec (r1 mod 2 ^ (64 - lz) * 2 ^ lz) 0); try reflexivity; nia.
Qed.
Lemma hi64_spec v z h t : big_ok v z -> 0 < z -> hi64 v = (h, t) -> let s := bit_length v - 64 in
  2 ^ 63 <= h < 2 ^ 64 /\ (s <= 0 -> h = z * 2 ^ (- s) /\ t = false) /\
  (0 < s -> h = z / 2 ^ s /\ t = negb (z mod 2 ^ s =? 0)).
Proof.
  intros [L [_ [N V]]] Z0 H. cbv zeta.
  destruct (rev v) as [|r0 ru] eqn:RV.
  { exfalso. apply (f_equal (@rev Z)) in RV. rewrite rev_involutive in RV. subst v. cbn in V. lia. }
  assert (EV : v = rev ru ++ [r0]).
  { apply (f_equal (@rev Z)) in RV. rewrite rev_involutive in RV. exact RV. }
  assert (LU : limbs (rev ru) /\ limb r0).
  { rewrite EV in L. apply Forall_app in L. destruct L as [L1 L2]. inversion L2; subst. tauto. }
  destruct LU as [LU L0]. unfold limb in L0.
  assert (RU := bval_range _ LU). assert (LNV : len v = len (rev ru) + 1) by (rewrite EV, len_app; reflexivity).
  assert (VZ : z = bval (rev ru) + wt (len (rev ru)) * r0) by (rewrite <- V, EV, bval_app; cbn [bval]; lia).
  assert (R0 : r0 <> 0).
  { destruct N as [N|N]; [rewrite N in LNV; change (len (@nil Z)) with 0 in LNV; assert (X := len_nonneg (rev ru)); lia|].
    replace (len v - 1) with (len (rev ru)) in N by lia. intros ->. lia. }
  destruct (lz_spec r0 ltac:(lia)) as [Z1 Z2].
  unfold bit_length. rewrite RV. unfold hi64 in H. rewrite RV in H. rewrite LNV.
  destruct ru as [|r1 ru].
  - injection H as <- <-. change (len (rev [])) with 0 in *. rewrite wt_0 in *. cbn [rev bval] in VZ.
    rewrite Z.shiftl_mul_pow2, u64_id by lia. split; [lia|]. split; [|lia].
    intros _. split; [|reflexivity]. rewrite VZ. replace (- (64 * (0 + 1) - leading_zeroes r0 - 64)) with (leading_zeroes r0) by lia. ring.
  - cbn [rev] in *. rewrite len_app in *. change (len [r1]) with 1 in *.
    apply Forall_app in LU. destruct LU as [LU R1]. apply Forall_inv in R1.
    destruct (hi_pair r0 r1 ltac:(lia) R1) as [HP HR]. cbv zeta in *.
    remember (64 - leading_zeroes r0) as s eqn:ES. remember (2 ^ s) as p eqn:EP. remember (r1 + 2 ^ 64 * r0) as c eqn:EC.
    rewrite HP in H. injection H as <- <-. split; [exact HR|]. split; [intros C; assert (X := len_nonneg (rev ru)); lia|]. intros _.
    assert (RU' := bval_range _ LU). set (u := rev ru) in *.
    replace (64 * (len u + 1 + 1) - leading_zeroes r0 - 64) with (64 * len u + s) by lia.
    assert (LNU := len_nonneg u). rewrite Z.pow_add_r by lia. fold (wt (len u)). rewrite <- EP.
    replace (existsb (fun x => negb (x =? 0)) ru) with (negb (bval u =? 0)).
    2:{ rewrite <- nonzero_limbs by exact LU. unfold u. apply existsb_rev. }
    rewrite bval_app in VZ. cbn [bval] in VZ. rewrite (wt_add (len u) 1) in VZ by lia. change (wt 1) with (2 ^ 64) in VZ.
    set (W := wt (len u)) in *. assert (PW : 0 < W) by (apply wt_pos; lia).
    assert (PP : 0 < p) by (rewrite EP; apply Z.pow_pos_nonneg; lia).
    replace z with (bval u + W * c) by (rewrite VZ, EC; ring).
    assert (D := Z.div_mod c p ltac:(lia)). assert (M := Z.mod_pos_bound c p PP).
    assert (DV : (bval u + W * c) / (W * p) = c / p).
    { symmetry. apply (Z.div_unique _ _ _ (bval u + W * (c mod p))); [left; nia|nia]. }
    assert (MV : (bval u + W * c) mod (W * p) = bval u + W * (c mod p)).
    { symmetry. apply (Z.mod_unique _ _ (c / p)); [left; nia|nia]. }
    rewrite DV, MV. split; [reflexivity|].
    clear DV MV D VZ HR HP. revert M RU' PW. generalize (c mod p) as k, (bval u) as b. intros k b K RB PW.
    assert (K1 : 0 < k -> 0 < W * k) by nia. assert (K0 : k = 0 -> W * k = 0) by nia.
    destruct (Z.eqb_spec k 0), (Z.eqb_spec b 0), (Z.eqb_spec (b + W * k) 0); try reflexivity; lia.
Qed.
Lemma bit_length_spec v z : big_ok v z -> 0 < z -> 2 ^ (bit_length v - 1) <= z < 2 ^ bit_length v.
Proof.
  intros V Z0. destruct (hi64 v) as [h t] eqn:E. destruct (hi64_spec v z h t V Z0 E) as [H [H1 H2]]. cbv zeta in *.
  set (s := bit_length v - 64) in *. replace (bit_length v) with (s + 64) by (unfold s; lia).
  destruct (Z.le_gt_cases s 0) as [C|C].
  - destruct (H1 C) as [E1 _]. rewrite E1 in H. assert (P : 0 < 2 ^ (- s)) by (apply Z.pow_pos_nonneg; lia).
    assert (S0 : 0 < s + 64).
    { destruct (Z.le_gt_cases 0 (s + 63)) as [A|A]; [lia|]. assert (2 ^ 64 <= 2 ^ (- s)) by (apply Z.pow_le_mono_r; lia). nia. }
    assert (Q1 : 2 ^ (s + 64 - 1) * 2 ^ (- s) = 2 ^ 63) by (rewrite <- Z.pow_add_r by lia; f_equal; lia).
    assert (Q2 : 2 ^ (s + 64) * 2 ^ (- s) = 2 ^ 64) by (rewrite <- Z.pow_add_r by lia; f_equal; lia).
    split; nia.
  - destruct (H2 C) as [E1 _]. assert (P : 0 < 2 ^ s) by (apply Z.pow_pos_nonneg; lia).
    assert (D := Z.div_mod z (2 ^ s) ltac:(lia)). assert (M := Z.mod_pos_bound z (2 ^ s) P). rewrite <- E1 in D.
    replace (s + 64 - 1) with (63 + s) by lia. rewrite (Z.add_comm s 64). rewrite !Z.pow_add_r by lia. nia.
Qed.
