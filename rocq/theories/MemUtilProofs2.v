(** Proofs about the memory utilities: powers, mem_repeat, overlap. *)
From Verif Require Import Base BaseLemmas Base64Model MemUtilModel MemUtilSpec SubstrProofs.

(** ** ipow *)
Lemma zero_range t : in_range t 0.
Proof. unfold in_range, imin, imax. destruct t as [[| | |] [|]]; simpl; lia. Qed.
Lemma one_range t : in_range t 1.
Proof. unfold in_range, imin, imax. destruct t as [[| | |] [|]]; simpl; lia. Qed.
Lemma wrap_mul t a b : wrap t (wrap t a * b) = wrap t (a * b).
Proof. pose proof (wrap_add_mul t a b 0) as H. rewrite !Z.add_0_r in H. exact H. Qed.

(** a multiplication in [t] never overflows *)
Definition mul_safe (t : ity) (base : Z) : Prop :=
  forall r, in_range t r -> exists p, arith (promote t) (r * base) = Ok p /\ wrap t p = wrap t (r * base).
Lemma arith_id p z : in_range p z -> arith p z = Ok z.
Proof.
  intros R. unfold arith, in_rangeb. unfold in_range in R.
  destruct (isgn p).
  - replace ((imin p <=? z) && (z <=? imax p)) with true by lia. reflexivity.
  - rewrite wrap_id; auto.
Qed.
Lemma pow_loop_safe t base : mul_safe t base -> forall n r, in_range t r ->
  pow_loop t n base r = Ok (wrap t (r * base ^ Z.of_nat n)).
Proof.
  intros M. induction n as [|n IH]; intros r R; cbn [pow_loop].
  - rewrite Z.pow_0_r, Z.mul_1_r, wrap_id by auto. reflexivity.
  - destruct (M r R) as (p & A & W). rewrite A. cbn [bind]. rewrite W, IH by apply wrap_range.
    f_equal. rewrite wrap_mul. f_equal. replace (Z.of_nat (S n)) with (Z.succ (Z.of_nat n)) by lia.
    rewrite Z.pow_succ_r by lia. ring.
Qed.
Lemma mul_safe_wide w base : w = W32 \/ w = W64 -> mul_safe (Ity w false) base.
Proof.
  intros W r R. assert (promote (Ity w false) = Ity w false) as -> by (destruct W; subst; reflexivity).
  unfold arith; cbn [isgn]. exists (wrap (Ity w false) (r * base)). split; auto. apply wrap_wrap.
Qed.
Lemma mul_safe_int t base b : iw t = W8 \/ iw t = W16 ->
  (forall r, in_range t r -> - b <= r <= b) -> 0 <= b -> - 2 ^ 31 < b * base < 2 ^ 31 -> mul_safe t base.
Proof.
  intros W B B0 P r R. exists (r * base). split; auto.
  replace (promote t) with i32 by (destruct t as [w s]; destruct W; simpl in *; subst; reflexivity).
  apply arith_id. specialize (B r R).
  change (- 2 ^ 31 <= r * base <= 2 ^ 31 - 1).
  assert (Z.abs (r * base) <= Z.abs (b * base)); [|lia].
  rewrite !Z.abs_mul. apply Z.mul_le_mono_nonneg_r; lia.
Qed.
Lemma mul_safe_small t base : in_range t base -> iw t = W8 \/ t = i16 -> mul_safe t base.
Proof.
  intros R [W|W].
  - destruct t as [w s]. simpl in W. subst w.
    assert (B : -128 <= base <= 255) by (destruct s; cbv [in_range imin imax isgn iw bits] in R; simpl in R; lia).
    apply (mul_safe_int _ _ 255); [auto| |lia|lia]. intros r Q. destruct s; cbv [in_range imin imax isgn iw bits] in Q; simpl in Q; lia.
  - subst t. assert (B : -32768 <= base <= 32767) by (cbv [in_range imin imax isgn iw bits i16] in R; simpl in R; lia).
    apply (mul_safe_int _ _ 32768); [auto| |lia|lia]. intros r Q. cbv [in_range imin imax isgn iw bits i16] in Q; simpl in Q; lia.
Qed.
Lemma mul_safe_u16 base : 0 <= base <= 32768 -> mul_safe u16t base.
Proof. intros B. apply (mul_safe_int _ _ 65535); [auto| |lia|]; [intros r Q; unfold in_range, imin, imax in *; simpl in *|]; lia. Qed.

Lemma ipow_loop t te base e : 0 <= e -> ipow t te base e = pow_loop t (Z.to_nat e) base 1.
Proof. intros E. unfold ipow. replace (e <? 0) with false by lia. rewrite andb_false_r. reflexivity. Qed.
Lemma ipow_safe t te base e : mul_safe t base -> 0 <= e -> ipow t te base e = Ok (wrap t (base ^ e)).
Proof.
  intros M E. rewrite ipow_loop by auto. rewrite pow_loop_safe by (auto; apply one_range).
  do 2 f_equal. rewrite Z2Nat.id by lia. lia.
Qed.
Lemma ipow_unsigned t te base e : isgn t = false -> t <> u16t -> in_range t base -> 0 <= e ->
  ipow t te base e = Ok (base ^ e mod 2 ^ bits (iw t)).
Proof.
  intros U N R E. destruct t as [w s]. simpl in U. subst s. rewrite ipow_safe; auto.
  destruct w; [apply mul_safe_small; auto|exfalso; apply N; reflexivity|apply mul_safe_wide; auto|apply mul_safe_wide; auto].
Qed.
Lemma ipow_u16 te base e : 0 <= base <= 32768 -> 0 <= e -> ipow u16t te base e = Ok (base ^ e mod 2 ^ 16).
Proof. intros R E. rewrite ipow_safe; auto. apply mul_safe_u16; auto. Qed.
Lemma ipow_small t te base e : t = i8 \/ t = i16 -> in_range t base -> 0 <= e -> ipow t te base e = Ok (wrap t (base ^ e)).
Proof. intros T R E. apply ipow_safe; auto. apply mul_safe_small; auto. destruct T; subst; auto. Qed.

(** *** int and wider: exact or undefined *)
Lemma abs_pow_mono base k n : 2 <= Z.abs base -> 0 <= k < n -> 2 * Z.abs (base ^ k) <= Z.abs (base ^ n).
Proof.
  intros B K. rewrite !Z.abs_pow. set (b := Z.abs base) in *.
  replace n with (k + 1 + (n - k - 1)) by lia. rewrite !Z.pow_add_r, Z.pow_1_r by lia.
  assert (0 < b ^ k) by (apply Z.pow_pos_nonneg; lia). assert (0 < b ^ (n - k - 1)) by (apply Z.pow_pos_nonneg; lia).
  generalize dependent (b ^ k). generalize dependent (b ^ (n - k - 1)). intros c C d D.
  assert (d * 2 <= d * b) by (apply Z.mul_le_mono_nonneg_l; lia).
  assert (d * b * 1 <= d * b * c) by (apply Z.mul_le_mono_nonneg_l; lia). lia.
Qed.
Lemma pow_unit base k : Z.abs base < 2 -> 0 <= k -> -1 <= base ^ k <= 1.
Proof.
  intros B K. assert (Z.abs (base ^ k) <= 1); [|lia]. rewrite Z.abs_pow.
  transitivity (1 ^ k); [apply Z.pow_le_mono_l; lia|]. rewrite Z.pow_1_l by lia. lia.
Qed.
Definition int_type (t : ity) : Prop := t = i32 \/ t = i64.
Lemma range_down t base k n : int_type t -> in_range t (base ^ n) -> 0 <= k <= n -> in_range t (base ^ k).
Proof.
  intros T R K. destruct (Z.eq_dec k n) as [->|D]; auto.
  assert (M : exists h, 2 <= h /\ imin t = - h /\ imax t = h - 1).
  { destruct T; subst t; [exists (2 ^ 31)|exists (2 ^ 63)]; repeat split; reflexivity || lia. }
  destruct M as (h & H & E1 & E2). unfold in_range in *. rewrite E1, E2 in *.
  destruct (Z_lt_ge_dec (Z.abs base) 2) as [L|L].
  - pose proof (pow_unit base k L ltac:(lia)). lia.
  - pose proof (abs_pow_mono base k n ltac:(lia) ltac:(lia)). lia.
Qed.
Lemma arith_ub p z : isgn p = true -> ~ in_range p z -> arith p z = Ub.
Proof.
  intros S R. unfold arith, in_rangeb. unfold in_range in R. rewrite S.
  replace ((imin p <=? z) && (z <=? imax p)) with false by lia. reflexivity.
Qed.
Lemma pow_loop_int t base : int_type t -> forall n k, 0 <= k -> in_range t (base ^ k) ->
  (in_range t (base ^ (k + Z.of_nat n)) -> pow_loop t n base (base ^ k) = Ok (base ^ (k + Z.of_nat n))) /\
  (~ in_range t (base ^ (k + Z.of_nat n)) -> pow_loop t n base (base ^ k) = Ub).
Proof.
  intros T. assert (P : promote t = t) by (destruct T; subst; reflexivity).
  assert (G : isgn t = true) by (destruct T; subst; reflexivity).
  induction n as [|n IH]; intros k K R; cbn [pow_loop].
  - rewrite Z.add_0_r. split; [auto|tauto].
  - rewrite P. replace (base ^ k * base) with (base ^ (k + 1)) by (rewrite Z.pow_add_r, Z.pow_1_r by lia; ring).
    replace (k + Z.of_nat (S n)) with (k + 1 + Z.of_nat n) by lia.
    split; intros H.
    + assert (R1 : in_range t (base ^ (k + 1))) by (apply (range_down t base _ (k + 1 + Z.of_nat n)); auto; lia).
      rewrite arith_id by auto. cbn [bind]. rewrite wrap_id by auto. apply IH; auto; lia.
    + assert (D : in_range t (base ^ (k + 1)) \/ ~ in_range t (base ^ (k + 1))) by (unfold in_range; lia).
      destruct D as [R1|R1].
      * rewrite arith_id by auto. cbn [bind]. rewrite wrap_id by auto. apply IH; auto; lia.
      * rewrite arith_ub by auto. reflexivity.
Qed.
Lemma ipow_int t te base e : int_type t -> 0 <= e ->
  (in_range t (base ^ e) -> ipow t te base e = Ok (base ^ e)) /\
  (~ in_range t (base ^ e) -> ipow t te base e = Ub).
Proof.
  intros T E. rewrite ipow_loop by auto.
  destruct (pow_loop_int t base T (Z.to_nat e) 0 ltac:(lia)) as [A B]; [rewrite Z.pow_0_r; apply one_range|].
  rewrite Z2Nat.id, Z.add_0_l, Z.pow_0_r in * by lia. auto.
Qed.

(** *** negative exponents *)
Lemma neg_count te e : isgn te = true -> in_range te e -> e < 0 -> e <> imin te ->
  arith (promote te) (e * -1) = Ok (- e) /\ wrap te (- e) = - e.
Proof.
  intros S R E N. assert (in_range te (- e)) by (unfold in_range, imin, imax in *; rewrite S in *; lia).
  split; [|apply wrap_id; auto]. replace (e * -1) with (- e) by ring. apply arith_id.
  destruct te as [[| | |] [|]]; try discriminate; auto; unfold in_range in *; simpl in *; unfold imin, imax in *; simpl in *; lia.
Qed.
Lemma div_loop_zero t base : base <> 0 -> forall n, div_loop t n base 0 = Ok 0.
Proof.
  intros B. induction n as [|n IH]; cbn [div_loop]; auto. destruct (Z.eqb_spec base 0); [lia|].
  rewrite Z.quot_0_l by lia. rewrite arith_id by apply zero_range. cbn [bind]. rewrite wrap_id by apply zero_range. apply IH.
Qed.
Lemma div_loop_one t : forall n, div_loop t n 1 1 = Ok 1.
Proof.
  induction n as [|n IH]; cbn [div_loop]; auto. cbn [Z.eqb]. rewrite Z.quot_1_r.
  rewrite arith_id by apply one_range. cbn [bind]. rewrite wrap_id by apply one_range. apply IH.
Qed.
Lemma mone_range t : isgn t = true -> in_range t (-1).
Proof. unfold in_range, imin, imax. destruct t as [[| | |] [|]]; simpl; intros; try discriminate; lia. Qed.
Lemma div_loop_mone t : isgn t = true -> forall n r, r = 1 \/ r = -1 -> div_loop t n (-1) r = Ok (r * (-1) ^ Z.of_nat n).
Proof.
  intros S. induction n as [|n IH]; intros r R; cbn [div_loop]; [rewrite Z.pow_0_r, Z.mul_1_r; auto|].
  cbn [Z.eqb].
  assert (Q : Z.quot r (-1) = - r) by (destruct R; subst; reflexivity). rewrite Q.
  assert (S' : isgn (promote t) = true) by (destruct t as [[| | |] [|]]; auto).
  assert (D : - r = 1 \/ - r = -1) by lia.
  rewrite arith_id by (destruct D as [-> | ->]; [apply one_range|apply mone_range; auto]). cbn [bind].
  rewrite wrap_id by (destruct D as [-> | ->]; [apply one_range|apply mone_range; auto]).
  rewrite IH by lia. f_equal. replace (Z.of_nat (Datatypes.S n)) with (Z.succ (Z.of_nat n)) by lia.
  rewrite Z.pow_succ_r by lia. ring.
Qed.
Lemma quot_small base : 2 <= Z.abs base -> Z.quot 1 base = 0.
Proof. intros B. destruct (Z_lt_ge_dec base 0). - replace base with (- (- base)) by lia. rewrite Z.quot_opp_r by lia. rewrite Z.quot_small by lia. reflexivity. - apply Z.quot_small. lia. Qed.
Lemma ipow_neg t te base e : isgn te = true -> in_range te e -> e < 0 -> e <> imin te -> in_range t base ->
  ipow t te base e = if base =? 0 then Ub else if base =? 1 then Ok 1 else if base =? -1 then Ok ((-1) ^ (- e)) else Ok 0.
Proof.
  intros S R E N B. unfold ipow. rewrite S. replace (e <? 0) with true by lia. cbn [andb].
  destruct (neg_count te e S R E N) as [A W]. rewrite A. cbn [bind]. rewrite W.
  remember (Z.to_nat (- e)) as n eqn:Hn. destruct n as [|n]; [lia|].
  destruct (Z.eqb_spec base 0) as [->|Z0]; [reflexivity|].
  destruct (Z.eqb_spec base 1) as [->|Z1]; [apply div_loop_one|].
  destruct (Z.eqb_spec base (-1)) as [->|Z2].
  - rewrite div_loop_mone; [f_equal; rewrite Hn, Z2Nat.id by lia; lia| |auto].
    unfold in_range, imin in B. destruct (isgn t); auto; lia.
  - cbn [div_loop]. destruct (Z.eqb_spec base 0); [lia|]. rewrite quot_small by lia.
    rewrite arith_id by apply zero_range. cbn [bind]. rewrite wrap_id by apply zero_range. apply div_loop_zero; auto.
Qed.

(** *** the overloads with a constant base *)
Lemma ipow_c_same t te base e : in_range te e -> ipow_c t te base e = ipow t te base e.
Proof.
  intros R. unfold ipow_c, ipow. unfold in_range, imin in R. destruct (isgn te); auto. cbn [andb].
  destruct (Z.leb_spec 0 e) as [L|L].
  - replace (e <? 0) with false by lia. reflexivity.
  - replace (e <? 0) with true by lia. reflexivity.
Qed.
Lemma ipow_cc_same t te base e : in_range te e -> in_range t base -> ipow_cc t te base e = ipow t te base e.
Proof.
  intros R B. rewrite <- ipow_c_same by auto. unfold ipow_cc, ipow_c. rewrite wrap_id by auto. reflexivity.
Qed.
Lemma ipow_cc_conv t te base e : in_range te e -> ipow_cc t te base e = ipow t te (wrap t base) e.
Proof. intros R. rewrite <- ipow_cc_same by (auto using wrap_range). unfold ipow_cc. rewrite wrap_wrap. reflexivity. Qed.

(** ** mem_repeat *)
Lemma copies_0 p : copies 0 p = []. Proof. reflexivity. Qed.
Lemma copies_add a b p : 0 <= a -> 0 <= b -> copies (a + b) p = copies a p ++ copies b p.
Proof. intros. unfold copies. rewrite Z2Nat.inj_add, repeat_app, concat_app by lia. reflexivity. Qed.
Lemma copies_1 p : copies 1 p = p. Proof. unfold copies. simpl. apply app_nil_r. Qed.
Lemma len_concat_repeat (p : list Z) n : len (concat (repeat p n)) = Z.of_nat n * len p.
Proof. induction n as [|n IH]; [reflexivity|]. cbn [repeat concat]. rewrite len_app, IH. lia. Qed.
Lemma len_copies k p : 0 <= k -> len (copies k p) = k * len p.
Proof. intros. unfold copies. rewrite len_concat_repeat, Z2Nat.id by lia. reflexivity. Qed.
Lemma slice_prefix_blit (m : list Z) i a b : 0 <= i -> i + len a + len b <= len m -> slice (blit m i (a ++ b)) i (len a) = a.
Proof.
  intros I L. pose proof (len_nonneg a). pose proof (len_nonneg b). unfold blit.
  rewrite <- (app_assoc a b).
  pose proof (slice_app_mid (firstn (Z.to_nat i) m) a (b ++ skipn (Z.to_nat i + length (a ++ b)) m)) as E.
  rewrite len_firstn in E by lia. rewrite Z.min_l in E by lia. exact E.
Qed.
Lemma memcpy_ok m d s n : 0 <= d -> 0 <= s -> 0 <= n -> d + n <= len m -> s + n <= len m ->
  mem_overlaps d s n n = false -> memcpy m d s n = Ok (blit m d (slice m s n)).
Proof.
  intros D S N L1 L2 O. unfold memcpy. rewrite O. unfold rds.
  destruct (Z.leb_spec n 0) as [Z|Z].
  - cbn [bind wrs]. replace n with 0 by lia. unfold slice. simpl firstn. rewrite blit_nil by lia. reflexivity.
  - replace ((0 <=? s) && (s + n <=? len m)) with true by lia. cbn [bind]. apply wrs_ok; [lia|]. rewrite len_slice; lia.
Qed.
Lemma repeat_loop_ok (m : list Z) d pat num : 0 <= d -> d + num * len pat <= len m -> len m < 2 ^ 63 ->
  forall fuel c, 1 <= c <= num -> num < c * 2 ^ Z.of_nat fuel ->
  exists c', repeat_loop fuel (blit m d (copies c pat)) d (d + num * len pat) (c * len pat)
             = Ok (blit m d (copies c' pat), c' * len pat) /\ 1 <= c' <= num /\ num * len pat <= 2 * (c' * len pat).
Proof.
  intros D L S. pose proof (len_nonneg pat) as P.
  induction fuel as [|fuel IH]; intros c C F; [rewrite Z.pow_0_r in F; lia|]. cbn [repeat_loop].
  assert (c * len pat <= num * len pat) by (apply Z.mul_le_mono_nonneg_r; lia).
  assert (0 <= c * len pat) by (apply Z.mul_nonneg_nonneg; lia).
  rewrite u64_id by lia.
  destruct (Z.ltb_spec (d + 2 * (c * len pat)) (d + num * len pat)) as [B|B].
  - assert (c + c <= num) by nia. pose proof (len_copies c pat ltac:(lia)) as LC.
    rewrite memcpy_ok; try lia; try (rewrite len_blit by lia; lia).
    2: { unfold mem_overlaps. lia. }
    cbn [bind].
    assert (E1 : slice (blit m d (copies c pat)) d (c * len pat) = copies c pat) by (rewrite <- LC; apply slice_blit_same; lia).
    assert (E2 : blit (blit m d (copies c pat)) (d + c * len pat) (copies c pat) = blit m d (copies (c + c) pat)).
    { rewrite <- LC, blit_app by lia. rewrite <- copies_add by lia. reflexivity. }
    rewrite E1, E2.
    replace (2 * (c * len pat)) with ((c + c) * len pat) by lia.
    apply IH; [lia|]. replace (Z.of_nat (Datatypes.S fuel)) with (Z.succ (Z.of_nat fuel)) in F by lia.
    rewrite Z.pow_succ_r in F by lia. lia.
  - exists c. repeat split; try lia.
Qed.
Definition disjoint (a sza b szb : Z) : Prop := a + sza <= b \/ b + szb <= a.
Lemma mem_repeat_ok dbg (m : list Z) d s psz num : 0 <= d -> 0 <= s -> 0 <= psz -> 0 <= num ->
  d + num * psz <= len m -> s + psz <= len m -> len m < 2 ^ 63 -> num < 2 ^ 64 -> disjoint d (num * psz) s psz ->
  mem_repeat dbg m d s psz num = Ok (blit m d (copies num (slice m s psz))).
Proof.
  intros D S P N L1 L2 SM NB DJ. unfold mem_repeat. assert (0 <= num * psz) by (apply Z.mul_nonneg_nonneg; lia).
  destruct (Z.eqb_spec num 0) as [->|NZ]; [rewrite copies_0, blit_nil by lia; auto|].
  rewrite u64_id by lia. unfold dassert. rewrite orb_comm.
  replace (negb (mem_overlaps d s (num * psz) psz)) with true by (unfold mem_overlaps, disjoint in *; lia). cbn [orb].
  assert (psz <= num * psz) by nia.
  rewrite memcpy_ok by (try lia; unfold mem_overlaps, disjoint in *; lia). cbn [bind].
  set (pat := slice m s psz). assert (LP : len pat = psz) by (apply len_slice; lia).
  rewrite <- (copies_1 pat) at 1.
  destruct (repeat_loop_ok m d pat num ltac:(lia) ltac:(rewrite LP; lia) ltac:(lia) 65 1) as (c & E & C & F); [lia| |].
  { change (Z.of_nat 65) with 65. lia. }
  rewrite LP, Z.mul_1_l in E. rewrite E. cbn [bind]. rewrite LP in F.
  assert (c * psz <= num * psz) by (apply Z.mul_le_mono_nonneg_r; lia).
  assert (0 <= c * psz) by (apply Z.mul_nonneg_nonneg; lia).
  destruct (Z.ltb_spec (d + c * psz) (d + num * psz)) as [B|B].
  - assert (num - c <= c) by nia.
    assert (LC : len (copies c pat) = c * psz) by (rewrite len_copies by lia; lia).
    assert (LN : len (copies (num - c) pat) = (num - c) * psz) by (rewrite len_copies by lia; lia).
    replace (d + num * psz - (d + c * psz)) with ((num - c) * psz) by ring.
    assert ((num - c) * psz <= c * psz) by (apply Z.mul_le_mono_nonneg_r; lia).
    assert (0 <= (num - c) * psz) by (apply Z.mul_nonneg_nonneg; lia).
    rewrite memcpy_ok; try lia; try (rewrite len_blit by lia; lia).
    2: { unfold mem_overlaps. lia. }
    assert (LR : len (copies (c - (num - c)) pat) = (c - (num - c)) * psz) by (rewrite len_copies by lia; lia).
    assert (E2 : slice (blit m d (copies c pat)) d ((num - c) * psz) = copies (num - c) pat).
    { rewrite <- LN. replace c with ((num - c) + (c - (num - c))) at 1 by lia. rewrite copies_add by lia.
      apply slice_prefix_blit; lia. }
    rewrite E2. rewrite <- LC. rewrite blit_app by lia. rewrite <- copies_add by lia.
    replace (c + (num - c)) with num by lia. reflexivity.
  - destruct (Z.eq_dec c num) as [->|NE]; auto.
    assert (psz = 0) by nia. assert (pat = []) as PN by (apply len_0_nil; lia).
    assert (EC : forall k, copies k pat = []). { intros k. rewrite PN. unfold copies. induction (Z.to_nat k); simpl; auto. }
    rewrite !EC. reflexivity.
Qed.
Lemma mem_repeat_assert (m : list Z) d s psz num : 0 <= d -> 0 <= s -> 0 < psz -> 0 < num -> num * psz < 2 ^ 64 ->
  ~ disjoint d (num * psz) s psz -> mem_repeat true m d s psz num = Err.
Proof.
  intros D S P N B O. unfold mem_repeat. destruct (Z.eqb_spec num 0); [lia|].
  assert (0 <= num * psz) by (apply Z.mul_nonneg_nonneg; lia). rewrite u64_id by lia.
  unfold dassert, mem_overlaps. unfold disjoint in O.
  replace (negb true || negb ((d <? s + psz) && (s <? d + num * psz))) with false by lia. reflexivity.
Qed.

(** ** overlap *)
Lemma overlaps_iff a sza b szb : 0 < sza -> 0 < szb -> mem_overlaps a b sza szb = true <-> share_byte a sza b szb.
Proof.
  intros A B. unfold mem_overlaps, share_byte. split.
  - intros H. exists (Z.max a b). lia.
  - intros (k & K1 & K2). lia.
Qed.
Lemma overlaps_share a sza b szb : share_byte a sza b szb -> mem_overlaps a b sza szb = true.
Proof. intros (k & K1 & K2). unfold mem_overlaps. lia. Qed.
Lemma overlaps_sym a sza b szb : mem_overlaps a b sza szb = mem_overlaps b a szb sza.
Proof. unfold mem_overlaps. lia. Qed.
(** an empty range overlaps one that strictly contains its position *)
Lemma overlaps_empty a b szb : 0 <= szb -> mem_overlaps a b 0 szb = true <-> b < a < b + szb.
Proof. intros. unfold mem_overlaps. lia. Qed.
Lemma is_super_iff str len that_str that_len : 0 < len -> 0 <= that_len ->
  is_super str len that_str that_len = true <->
  str <= that_str <= str + len /\ (forall k, that_str <= k < that_str + that_len -> str <= k < str + len).
Proof.
  intros L T. unfold is_super. replace (0 <? len) with true by lia. split.
  - intros H. split; [lia|]. intros. lia.
  - intros [H1 H2]. destruct (Z.eq_dec that_len 0); [lia|]. specialize (H2 (that_str + that_len - 1)). lia.
Qed.
Lemma is_super_empty str len that_str that_len : 0 <= len -> 0 <= that_len -> len = 0 ->
  is_super str len that_str that_len = true <-> that_len = 0 /\ that_str = str /\ str <> 0.
Proof. intros L T E. unfold is_super. replace (0 <? len) with false by lia. lia. Qed.

(** ** alignment *)
Lemma is_aligned_iff p k : 0 <= p -> 0 <= k < 64 -> is_aligned p (2 ^ k) = true <-> (2 ^ k | p).
Proof.
  intros P K. unfold is_aligned. assert (0 < 2 ^ k) by (apply Z.pow_pos_nonneg; lia).
  assert (2 ^ k < 2 ^ 64) by (apply Z.pow_lt_mono_r; lia).
  rewrite u64_id by lia. replace (2 ^ k - 1) with (Z.ones k) by (rewrite Z.ones_equiv; lia).
  rewrite Z.land_ones by lia. rewrite Z.eqb_eq. apply Z.mod_divide. lia.
Qed.
