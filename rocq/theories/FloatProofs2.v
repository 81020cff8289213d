(** The adjusted mantissa as the result of a correct rounding. *)
From Verif Require Import Base FloatModel FloatSpec FloatProofs1.
From Coq Require Import Qpower Lqa Lia.
Open Scope Z_scope.

Definition fok (f : fmt) (eb : Z) : Prop := (f = f64 /\ eb = 11) \/ (f = f32 /\ eb = 8).
Lemma fok_facts f eb : fok f eb ->
  1 <= f_mb f /\ 2 <= eb /\ emin f = emn (f_mb f) eb /\ f_inf f = 2 ^ eb - 1 /\ f_sidx f = eb + f_mb f /\
  f_inf f = emx (f_mb f) eb - emin f + 2 /\ f_minexp f = emin f + f_mb f - 1.
Proof.
  intros [[-> ->]|[-> ->]]; unfold emin, emn, emx, b_bias; cbn [f64 f32 f_mb f_minexp f_inf f_sidx]; repeat split; lia.
Qed.

(** ** Bits of the word *)
Lemma lor_high a b n : 0 <= n -> 0 <= b < 2 ^ n -> Z.lor b (a * 2 ^ n) = a * 2 ^ n + b.
Proof.
  intros Hn Hb.
  assert (Z.land (a * 2 ^ n) b = 0).
  { apply Z.bits_inj_iff; intros k; rewrite Z.land_spec, Z.bits_0.
    destruct (Z.ltb_spec k n).
    - rewrite Z.mul_pow2_bits_low by lia; reflexivity.
    - destruct (Z.eq_dec b 0) as [->|Hz]; [rewrite Z.bits_0; apply andb_false_r|].
      rewrite (Z.bits_above_log2 b k); [apply andb_false_r|lia|].
      apply Z.log2_lt_pow2; [lia|]. apply Z.lt_le_trans with (2 ^ n); [lia|apply Z.pow_le_mono_r; lia]. }
  rewrite Z.lor_comm, Z.add_nocarry_lxor, Z.lxor_lor by assumption. reflexivity.
Qed.
Lemma ldiff_top m k : 0 <= k -> 2 ^ k <= m < 2 * 2 ^ k -> Z.ldiff m (2 ^ k) = m - 2 ^ k.
Proof.
  intros Hk H. symmetry. apply Z.sub_nocarry_ldiff. apply Z.bits_inj'. intros n Hn.
  rewrite Z.ldiff_spec, Z.bits_0, Z.pow2_bits_eqb by lia.
  destruct (Z.eqb_spec k n) as [<-|N]; [|reflexivity].
  rewrite Z.testbit_odd, Z.shiftr_div_pow2 by lia.
  replace (m / 2 ^ k) with 1; [reflexivity|].
  apply (Z.div_unique m (2 ^ k) 1 (m - 2 ^ k)); lia.
Qed.
Lemma ldiff_low1 m : Z.odd m = true -> Z.ldiff m 1 = m - 1.
Proof.
  intros H. symmetry. apply Z.sub_nocarry_ldiff. apply Z.bits_inj'. intros n Hn.
  rewrite Z.ldiff_spec, Z.bits_0. change 1 with (2 ^ 0) at 1. rewrite Z.pow2_bits_eqb by lia.
  destruct (Z.eqb_spec 0 n) as [<-|N]; [|reflexivity]. rewrite Z.bit0_odd, H. reflexivity.
Qed.
Lemma word_join f eb neg man pow : fok f eb -> 0 <= man < 2 ^ f_mb f -> 0 <= pow < 2 ^ eb ->
  word f neg man pow = join (f_mb f) eb neg pow man.
Proof.
  intros F H1 H2. destruct (fok_facts f eb F) as [M [E [_ [_ [S _]]]]].
  unfold word, join. rewrite Z.shiftl_mul_pow2 by lia. rewrite lor_high by lia. rewrite S.
  assert (0 < 2 ^ f_mb f) by (apply Z.pow_pos_nonneg; lia).
  destruct neg; [|rewrite Z.lor_0_r; lia].
  rewrite <- (Z.mul_1_l (2 ^ (eb + f_mb f))) at 1. rewrite lor_high; [lia|lia|].
  rewrite Z.pow_add_r by lia. nia.
Qed.

(** ** Results *)
Definition repr (f : fmt) (m e : Z) (a : am) : Prop :=
  (m < 2 ^ f_mb f /\ a = AM m 0) \/ (m = 2 ^ f_mb f /\ e = emin f /\ a = AM m 1) \/
  (2 ^ f_mb f <= m /\ a = AM (m - 2 ^ f_mb f) (e - emin f + 1)).
Definition good (f : fmt) (eb : Z) (x : Q) (a : am) : Prop :=
  (a = AM 0 (f_inf f) /\ (b_limit (f_mb f) eb <= x)%Q) \/
  (exists m e, canon (f_mb f) eb m e /\ e <= emx (f_mb f) eb /\ rounds (f_mb f) eb x m e /\ repr f m e a).

Lemma good_nearest f eb neg x a : fok f eb -> (0 <= x)%Q -> good f eb x a ->
  nearest (f_mb f) eb neg x (to_float f neg a).
Proof.
  intros F X G. destruct (fok_facts f eb F) as [M [E [EM [I [S [I2 _]]]]]].
  assert (P0 : 0 < 2 ^ f_mb f) by (apply Z.pow_pos_nonneg; lia).
  assert (P1 : 4 <= 2 ^ eb) by (change 4 with (2 ^ 2); apply Z.pow_le_mono_r; lia).
  unfold to_float. destruct G as [[-> L]|[m [e [C [H [R D]]]]]]; cbn [a_man a_pow].
  - rewrite (word_join f eb) by (auto; lia). rewrite I. apply nearest_infinite; auto.
  - assert (N := nearest_finite _ _ M E neg x m e X C H R).
    destruct C as [C1 [C2 C3]]. rewrite (pow_mb _ M) in C1.
    destruct D as [[D ->]|[[D [D2 ->]]|[D ->]]]; cbn [a_man a_pow].
    + rewrite (word_join f eb) by (auto; lia). unfold enc in N. replace (m <? 2 ^ f_mb f) with true in N by lia. exact N.
    + unfold enc in N. replace (m <? 2 ^ f_mb f) with false in N by lia.
      replace (m - 2 ^ f_mb f) with 0 in N by lia. replace (e - emn (f_mb f) eb + 1) with 1 in N by lia.
      rewrite <- (word_join f eb) in N by (auto; lia). unfold word in *. rewrite Z.shiftl_mul_pow2, D in * by lia.
      rewrite Z.mul_1_l in *. rewrite Z.lor_diag. rewrite Z.lor_0_l in N. exact N.
    + rewrite (word_join f eb) by (auto; lia). unfold enc in N. replace (m <? 2 ^ f_mb f) with false in N by lia.
      rewrite EM. exact N.
Qed.
Lemma repr_inj f eb m e m' e' a : fok f eb -> canon (f_mb f) eb m e -> canon (f_mb f) eb m' e' ->
  repr f m e a -> repr f m' e' a -> m = m' /\ e = e'.
Proof.
  intros F [C1 [C2 C3]] [C1' [C2' C3']] H H'. destruct (fok_facts f eb F) as [M [E [EM _]]].
  rewrite (pow_mb _ M) in *.
  destruct H as [[D ->]|[[D [D2 ->]]|[D ->]]]; destruct H' as [[D' A]|[[D' [D2' A]]|[D' A]]];
    injection A; intros; lia.
Qed.
Lemma repr_pow f eb m e a : fok f eb -> canon (f_mb f) eb m e -> e <= emx (f_mb f) eb -> repr f m e a ->
  0 <= a_pow a < f_inf f.
Proof.
  intros F [C1 [C2 C3]] H D. destruct (fok_facts f eb F) as [M [E [EM [I [_ [I2 _]]]]]].
  assert (P1 : 4 <= 2 ^ eb) by (change 4 with (2 ^ 2); apply Z.pow_le_mono_r; lia).
  destruct D as [[D ->]|[[D [D2 ->]]|[D ->]]]; cbn [a_pow]; lia.
Qed.
Lemma good_pow f eb x a : fok f eb -> good f eb x a -> 0 <= a_pow a <= f_inf f.
Proof.
  intros F [[-> _]|[m [e [C [H [_ D]]]]]].
  - cbn [a_pow]. destruct (fok_facts f eb F) as [M [E [EM [I [_ [I2 _]]]]]].
    assert (P1 : 4 <= 2 ^ eb) by (change 4 with (2 ^ 2); apply Z.pow_le_mono_r; lia). lia.
  - assert (R := repr_pow _ _ _ _ _ F C H D). lia.
Qed.
Lemma good_convex f eb x y z a : fok f eb -> good f eb x a -> good f eb z a -> (x <= y)%Q -> (y <= z)%Q -> good f eb y a.
Proof.
  intros F G G' H1 H2.
  destruct G as [[A L]|[m [e [C [H [R D]]]]]]; [left; split; [exact A|lra]|].
  destruct G' as [[A L]|[m' [e' [C' [H' [R' D']]]]]].
  - exfalso. assert (P := repr_pow _ _ _ _ _ F C H D). rewrite A in P. cbn [a_pow] in P. lia.
  - destruct (repr_inj f eb _ _ _ _ _ F C C' D D') as [<- <-]. right. exists m, e.
    split; [exact C|]. split; [exact H|]. split; [|exact D]. apply (rounds_convex _ _ x y z m e); auto.
Qed.
Lemma good_wd f eb x y a : fok f eb -> (x == y)%Q -> good f eb x a -> good f eb y a.
Proof. intros F E G. apply (good_convex f eb x y x a F G G); lra. Qed.

(** the last steps of compute_float and round *)
Definition finish (f : fmt) (mantissa power2 : Z) : am :=
  let '(mantissa, power2) :=
    if 2 * 2 ^ f_mb f <=? mantissa then (2 ^ f_mb f, power2 + 1) else (mantissa, power2) in
  let mantissa := Z.ldiff mantissa (2 ^ f_mb f) in
  if f_inf f <=? power2 then AM 0 (f_inf f) else AM mantissa power2.
Lemma finish_good f eb x m e : fok f eb -> 2 ^ f_mb f <= m <= 2 ^ (f_mb f + 1) ->
  (let '(m', e') := settle (f_mb f) m e in
   canon (f_mb f) eb m' e' /\ rounds (f_mb f) eb x m' e' /\ e <= e' <= e + 1) ->
  good f eb x (finish f m (e - emin f + 1)).
Proof.
  intros F H. destruct (fok_facts f eb F) as [M [E [EM [I [_ [I2 _]]]]]].
  assert (P0 : 0 < 2 ^ f_mb f) by (apply Z.pow_pos_nonneg; lia).
  unfold settle, finish. rewrite (pow_mb _ M) in *.
  destruct (Z.eqb_spec m (2 * 2 ^ f_mb f)) as [D|D].
  - replace (2 * 2 ^ f_mb f <=? m) with true by lia. intros [C [R _]]. cbv zeta.
    rewrite ldiff_top by lia.
    destruct (Z.leb_spec (f_inf f) (e - emin f + 1 + 1)) as [L|L].
    + left. split; [reflexivity|]. apply (rounds_above_limit _ _ M E x _ _ C); [lia|exact R].
    + right. exists (2 ^ f_mb f), (e + 1). split; [exact C|]. split; [lia|]. split; [exact R|].
      right. right. split; [lia|]. f_equal. lia.
  - replace (2 * 2 ^ f_mb f <=? m) with false by lia. intros [C [R _]]. cbv zeta.
    rewrite ldiff_top by lia.
    destruct (Z.leb_spec (f_inf f) (e - emin f + 1)) as [L|L].
    + left. split; [reflexivity|]. apply (rounds_above_limit _ _ M E x _ _ C); [lia|exact R].
    + right. exists m, e. split; [exact C|]. split; [lia|]. split; [exact R|].
      right. right. split; [lia|]. reflexivity.
Qed.
Definition finish_small (f : fmt) (mantissa : Z) : am := AM mantissa (if mantissa <? 2 ^ f_mb f then 0 else 1).
Lemma finish_small_good f eb x m : fok f eb -> 0 <= m <= 2 ^ f_mb f ->
  (let '(m', e') := settle (f_mb f) m (emin f) in
   canon (f_mb f) eb m' e' /\ rounds (f_mb f) eb x m' e' /\ emin f <= e' <= emin f + 1) ->
  good f eb x (finish_small f m).
Proof.
  intros F H. destruct (fok_facts f eb F) as [M [E [EM [I [_ [I2 _]]]]]].
  assert (P0 : 0 < 2 ^ f_mb f) by (apply Z.pow_pos_nonneg; lia).
  assert (P1 : 4 <= 2 ^ eb) by (change 4 with (2 ^ 2); apply Z.pow_le_mono_r; lia).
  unfold settle, finish_small. rewrite (pow_mb _ M) in *.
  replace (m =? 2 * 2 ^ f_mb f) with false by lia. intros [C [R _]].
  right. exists m, (emin f). split; [exact C|]. split; [lia|]. split; [exact R|].
  destruct (Z.ltb_spec m (2 ^ f_mb f)) as [L|L].
  - left. auto.
  - right. left. split; [lia|]. split; [reflexivity|]. f_equal.
Qed.
(** zero and infinity *)
Lemma rounds_zero f eb x : fok f eb -> (0 <= x)%Q -> (x < B 1 (emin f - 1))%Q -> good f eb x (AM 0 0).
Proof.
  intros F X H. destruct (fok_facts f eb F) as [M [E [EM [I [_ [I2 _]]]]]].
  assert (P0 : 0 < 2 ^ f_mb f) by (apply Z.pow_pos_nonneg; lia).
  assert (P1 : 4 <= 2 ^ eb) by (change 4 with (2 ^ 2); apply Z.pow_le_mono_r; lia).
  right. exists 0, (emin f). assert (P := pow_mb _ M). split; [unfold canon; lia|]. split; [lia|].
  split; [|left; split; [lia|reflexivity]].
  unfold rounds, bottom. replace (0 =? 2 ^ f_mb f) with false by lia. cbn [andb].
  change (2 * 0 + 1) with 1. change (2 * 0 - 1) with (-1).
  assert (K : (B (-1) (emin f - 1) < 0)%Q) by (rewrite <- (B_0 (emin f - 1)); apply B_lt; lia).
  split; [lra|]. split; [reflexivity|]. split; [lra|]. reflexivity.
Qed.

(** ** Decimal numbers *)
Definition p5 (q : Z) : Q := ((5 # 1) ^ q)%Q.
Lemma five_nz : ~ ((5 # 1) == 0)%Q. Proof. intro H. inversion H. Qed.
Lemma ten_nz : ~ ((10 # 1) == 0)%Q. Proof. intro H. inversion H. Qed.
Lemma p5_pos e : (0 < p5 e)%Q. Proof. apply Qpower_0_lt. reflexivity. Qed.
Lemma p5_add a b : (p5 (a + b) == p5 a * p5 b)%Q. Proof. apply Qpower_plus, five_nz. Qed.
Lemma p5_Z n : 0 <= n -> (p5 n == inject_Z (5 ^ n))%Q.
Proof. intros H. unfold p5. symmetry. apply (Zpower_Qpower 5 n H). Qed.
Lemma p10_split e : ((10 # 1) ^ e == p2 e * p5 e)%Q.
Proof. unfold p2, p5. rewrite <- Qmult_power. apply Qpower_comp; reflexivity. Qed.
Lemma decimal_B m e : (decimal m e == B m e * p5 e)%Q.
Proof. unfold decimal, B. rewrite p10_split. ring. Qed.
Lemma p10_pos e : (0 < (10 # 1) ^ e)%Q. Proof. apply Qpower_0_lt. reflexivity. Qed.
Lemma p10_mono a b : a <= b -> ((10 # 1) ^ a <= (10 # 1) ^ b)%Q.
Proof.
  intros H. replace b with (a + (b - a)) by lia. rewrite Qpower_plus by apply ten_nz.
  rewrite <- (Qmult_1_r ((10 # 1) ^ a)) at 1. apply Qmult_le_l; [apply p10_pos|].
  rewrite <- (Zpower_Qpower 10 (b - a)) by lia. change 1%Q with (inject_Z 1). apply iZ_le.
  assert (0 < 10 ^ (b - a)) by (apply Z.pow_pos_nonneg; lia). lia.
Qed.
Lemma decimal_le m m' e : (decimal m e <= decimal m' e)%Q <-> m <= m'.
Proof. unfold decimal. rewrite <- iZ_le. apply Qmult_le_r, p10_pos. Qed.
Lemma decimal_lt m m' e : (decimal m e < decimal m' e)%Q <-> m < m'.
Proof. unfold decimal. rewrite <- iZ_lt. apply Qmult_lt_r, p10_pos. Qed.
Lemma decimal_0 e : (decimal 0 e == 0)%Q. Proof. unfold decimal. change (inject_Z 0) with 0%Q. ring. Qed.
Lemma decimal_nonneg m e : 0 <= m -> (0 <= decimal m e)%Q. Proof. intros H. rewrite <- (decimal_0 e). now apply decimal_le. Qed.
Lemma decimal_mono m e e' : 0 <= m -> e <= e' -> (decimal m e <= decimal m e')%Q.
Proof.
  intros H H1. unfold decimal. rewrite (Qmult_comm (inject_Z m)), (Qmult_comm (inject_Z m)).
  apply Qmult_le_compat_r; [now apply p10_mono|]. change 0%Q with (inject_Z 0). now apply iZ_le.
Qed.
Lemma decimal_shift m e k : 0 <= k -> (decimal m (e + k) == decimal (m * 10 ^ k) e)%Q.
Proof.
  intros H. unfold decimal. rewrite Qpower_plus by apply ten_nz. rewrite inject_Z_mult, (Zpower_Qpower 10 k H). 
  change (inject_Z 10) with (10 # 1). ring.
Qed.
(** comparing [a * 2^t] with [b * 5^q] in integers *)
Definition cmp_num (a t : Z) (q : Z) : Z := a * 2 ^ Z.max t 0 * 5 ^ Z.max (- q) 0.
Definition cmp_den (b t : Z) (q : Z) : Z := b * 5 ^ Z.max q 0 * 2 ^ Z.max (- t) 0.
Lemma p2_frac t : (p2 t * inject_Z (2 ^ Z.max (- t) 0) == inject_Z (2 ^ Z.max t 0))%Q.
Proof. rewrite <- !p2_Z by lia. rewrite <- p2_add. apply Qpower_comp; [reflexivity|]. lia. Qed.
Lemma p5_frac q : (p5 q * inject_Z (5 ^ Z.max (- q) 0) == inject_Z (5 ^ Z.max q 0))%Q.
Proof. rewrite <- !p5_Z by lia. rewrite <- p5_add. apply Qpower_comp; [reflexivity|]. lia. Qed.
Lemma cmp_scale a b t q : exists c, (0 < c)%Q /\
  (c * B a t == inject_Z (cmp_num a t q))%Q /\ (c * (inject_Z b * p5 q) == inject_Z (cmp_den b t q))%Q.
Proof.
  exists (inject_Z (2 ^ Z.max (- t) 0) * inject_Z (5 ^ Z.max (- q) 0))%Q. split; [|split].
  - rewrite <- inject_Z_mult. change 0%Q with (inject_Z 0). apply iZ_lt. apply Z.mul_pos_pos; apply Z.pow_pos_nonneg; lia.
  - unfold cmp_num, B. rewrite !inject_Z_mult. rewrite <- (p2_frac t). ring.
  - unfold cmp_den. rewrite !inject_Z_mult. rewrite <- (p5_frac q). ring.
Qed.
Lemma cmp_le a b t q : cmp_num a t q <= cmp_den b t q -> (B a t <= inject_Z b * p5 q)%Q.
Proof.
  intros H. destruct (cmp_scale a b t q) as [c [P [H1 H2]]]. apply (Qmult_le_l _ _ c P). rewrite H1, H2. now apply iZ_le.
Qed.
Lemma cmp_lt a b t q : cmp_num a t q < cmp_den b t q -> (B a t < inject_Z b * p5 q)%Q.
Proof.
  intros H. destruct (cmp_scale a b t q) as [c [P [H1 H2]]]. apply (Qmult_lt_l _ _ c P). rewrite H1, H2. now apply iZ_lt.
Qed.
Lemma cmp_ge a b t q : cmp_den b t q <= cmp_num a t q -> (inject_Z b * p5 q <= B a t)%Q.
Proof.
  intros H. destruct (cmp_scale a b t q) as [c [P [H1 H2]]]. apply (Qmult_le_l _ _ c P). rewrite H1, H2. now apply iZ_le.
Qed.
Lemma cmp_gt a b t q : cmp_den b t q < cmp_num a t q -> (inject_Z b * p5 q < B a t)%Q.
Proof.
  intros H. destruct (cmp_scale a b t q) as [c [P [H1 H2]]]. apply (Qmult_lt_l _ _ c P). rewrite H1, H2. now apply iZ_lt.
Qed.
Lemma cmp_eq a b t q : (B a t == inject_Z b * p5 q)%Q <-> cmp_num a t q = cmp_den b t q.
Proof.
  destruct (cmp_scale a b t q) as [c [P [H1 H2]]]. rewrite <- iZ_eq, <- H1, <- H2. split; intros H.
  - now rewrite H.
  - apply (Qmult_inj_l _ _ c); [lra|exact H].
Qed.
