(** Proofs about the generators. *)
From Verif Require Import Base BaseLemmas SubstrModel MemUtilModel MemUtilProofs HashModel HashSpec HashProofs RngModel RngSpec.

(** ** Bits *)
Lemma u64_mod x : u64 x = x mod 2 ^ 64.
Proof. reflexivity. Qed.
Lemma u64_st x : state64 (u64 x).
Proof. unfold state64. rewrite u64_mod. apply Z.mod_pos_bound. lia. Qed.
Lemma shiftr_st s k : 0 <= k -> state64 s -> state64 (Z.shiftr s k).
Proof.
  intros K [H1 H2]. unfold state64. rewrite Z.shiftr_div_pow2 by lia.
  assert (0 < 2 ^ k) by (apply Z.pow_pos_nonneg; lia).
  split; [apply Z.div_pos; lia|]. apply Z.le_lt_trans with s; [|lia]. apply Z.div_le_upper_bound; [lia|].
  rewrite <- (Z.mul_1_l s) at 1. apply Z.mul_le_mono_nonneg_r; lia.
Qed.
Lemma lxor_st a b : state64 a -> state64 b -> state64 (Z.lxor a b).
Proof. apply lxor_range. lia. Qed.
Lemma st_high s k : state64 s -> 64 <= k -> Z.shiftr s k = 0.
Proof.
  intros [H1 H2] K. rewrite Z.shiftr_div_pow2 by lia. apply Z.div_small. split; [lia|].
  apply Z.lt_le_trans with (2 ^ 64); [lia|]. apply Z.pow_le_mono_r; lia.
Qed.
Lemma u64_shl_high s k : 64 <= k -> u64 (Z.shiftl s k) = 0.
Proof.
  intros K. rewrite u64_mod, Z.shiftl_mul_pow2 by lia. replace k with ((k - 64) + 64) by lia.
  rewrite Z.pow_add_r by lia. rewrite Z.mul_assoc. apply Z.mod_mul. lia.
Qed.
(** x ^ (x >> k) *)
Definition xr (k x : Z) : Z := Z.lxor x (Z.shiftr x k).
Lemma xr_xr k x : 0 <= k -> xr k (xr k x) = xr (2 * k) x.
Proof.
  intros K. unfold xr. rewrite Z.shiftr_lxor, Z.shiftr_shiftr by lia. replace (k + k) with (2 * k) by lia.
  rewrite Z.lxor_assoc. f_equal. rewrite <- Z.lxor_assoc, Z.lxor_nilpotent, Z.lxor_0_l. reflexivity.
Qed.
Lemma xr_st k x : 0 <= k -> state64 x -> state64 (xr k x).
Proof. intros K H. apply lxor_st; auto. apply shiftr_st; auto. Qed.
Lemma xr_high k x : 64 <= k -> state64 x -> xr k x = x.
Proof. intros K H. unfold xr. rewrite st_high by auto. apply Z.lxor_0_r. Qed.
Lemma xr_iter8 k x : 8 <= k -> state64 x -> xr k (xr k (xr k (xr k (xr k (xr k (xr k (xr k x))))))) = x.
Proof.
  intros K H. rewrite (xr_xr k x) by lia. rewrite (xr_xr k (xr (2 * k) x)) by lia.
  rewrite (xr_xr (2 * k) x) by lia. rewrite (xr_xr k) by lia. rewrite (xr_xr k) by lia. rewrite (xr_xr (2 * k)) by lia.
  rewrite xr_xr by lia. apply xr_high; auto. lia.
Qed.
Lemma bij_of_inv f g : (forall s, state64 s -> state64 (f s)) -> (forall s, state64 s -> state64 (g s)) ->
  (forall s, state64 s -> g (f s) = s) -> (forall s, state64 s -> f (g s) = s) -> bijection f.
Proof.
  intros F G GF FG. split; [exact F|]. split.
  - intros s s' H H' E. rewrite <- (GF s), <- (GF s') by auto. rewrite E. reflexivity.
  - intros y Y. exists (g y). auto.
Qed.
Lemma bij_comp f g : bijection f -> bijection g -> bijection (fun s => g (f s)).
Proof.
  intros [F1 [F2 F3]] [G1 [G2 G3]]. split; [auto|]. split.
  - intros s s' H H' E. apply F2; auto.
  - intros y Y. destruct (G3 y Y) as [z [Z1 Z2]]. destruct (F3 z Z1) as [s [S1 S2]]. exists s. split; auto. rewrite S2. exact Z2.
Qed.
Lemma bij_ext f g : (forall s, state64 s -> f s = g s) -> bijection f -> bijection g.
Proof.
  intros E [F1 [F2 F3]]. split; [intros s H; rewrite <- E by auto; auto|]. split.
  - intros s s' H H' X. rewrite <- !E in X by auto. auto.
  - intros y Y. destruct (F3 y Y) as [s [S1 S2]]. exists s. split; auto. rewrite <- E by auto. exact S2.
Qed.
Lemma xr_bij k : 8 <= k -> bijection (xr k).
Proof.
  intros K. apply bij_of_inv with (fun y => xr k (xr k (xr k (xr k (xr k (xr k (xr k y))))))).
  - intros s H. apply xr_st; auto. lia.
  - intros s H. repeat (apply xr_st; [lia|]). exact H.
  - intros s H. apply xr_iter8; auto.
  - intros s H. apply xr_iter8; auto.
Qed.
(** x ^ (x << k) in 64 bits *)
Definition xl (k x : Z) : Z := Z.lxor x (u64 (Z.shiftl x k)).
Lemma u64_lxor a b : u64 (Z.lxor a b) = Z.lxor (u64 a) (u64 b).
Proof.
  rewrite !u64_mod. apply Z.bits_inj'. intros i I. rewrite Z.lxor_spec. rewrite !Z.testbit_mod_pow2 by lia.
  rewrite Z.lxor_spec. destruct (i <? 64); reflexivity.
Qed.
Lemma u64_shl_u64 x k : 0 <= k -> u64 (Z.shiftl (u64 x) k) = u64 (Z.shiftl x k).
Proof. intros K. rewrite !u64_mod, !Z.shiftl_mul_pow2 by lia. rewrite Zmult_mod_idemp_l. reflexivity. Qed.
Lemma xl_xl k x : 0 <= k -> xl k (xl k x) = xl (2 * k) x.
Proof.
  intros K. unfold xl. rewrite Z.shiftl_lxor, u64_lxor, u64_shl_u64, Z.shiftl_shiftl by lia. replace (k + k) with (2 * k) by lia.
  rewrite Z.lxor_assoc. f_equal. rewrite <- Z.lxor_assoc, Z.lxor_nilpotent, Z.lxor_0_l. reflexivity.
Qed.
Lemma xl_st k x : state64 x -> state64 (xl k x).
Proof. intros H. apply lxor_st; auto. apply u64_st. Qed.
Lemma xl_high k x : 64 <= k -> xl k x = x.
Proof. intros K. unfold xl. rewrite u64_shl_high by auto. apply Z.lxor_0_r. Qed.
Lemma xl_iter8 k x : 8 <= k -> xl k (xl k (xl k (xl k (xl k (xl k (xl k (xl k x))))))) = x.
Proof.
  intros K. rewrite (xl_xl k x) by lia. rewrite (xl_xl k (xl (2 * k) x)) by lia.
  rewrite (xl_xl (2 * k) x) by lia. rewrite (xl_xl k) by lia. rewrite (xl_xl k) by lia. rewrite (xl_xl (2 * k)) by lia.
  rewrite xl_xl by lia. apply xl_high. lia.
Qed.
Lemma xl_bij k : 8 <= k -> bijection (xl k).
Proof.
  intros K. apply bij_of_inv with (fun y => xl k (xl k (xl k (xl k (xl k (xl k (xl k y))))))).
  - intros s H. apply xl_st; auto.
  - intros s H. repeat apply xl_st. exact H.
  - intros s H. apply xl_iter8; auto.
  - intros s H. apply xl_iter8; auto.
Qed.
(** affine maps *)
Lemma affine_bij a ainv c : (a * ainv) mod 2 ^ 64 = 1 -> bijection (fun s => u64 (s * a + c)).
Proof.
  intros I. apply bij_of_inv with (fun y => u64 ((y - c) * ainv)); try (intros; apply u64_st).
  - intros s [H1 H2]. rewrite !u64_mod. rewrite <- Zmult_mod_idemp_l, Zminus_mod_idemp_l.
    replace (s * a + c - c) with (s * a) by ring. rewrite Zmult_mod_idemp_l. replace (s * a * ainv) with (s * (a * ainv)) by ring.
    rewrite <- Zmult_mod_idemp_r, I. rewrite Z.mul_1_r. apply Z.mod_small. lia.
  - intros s [H1 H2]. rewrite !u64_mod. rewrite <- Zplus_mod_idemp_l, Zmult_mod_idemp_l.
    replace ((s - c) * ainv * a) with ((s - c) * (a * ainv)) by ring.
    rewrite <- Zmult_mod_idemp_r, I. rewrite Z.mul_1_r, Zplus_mod_idemp_l. replace (s - c + c) with s by ring. apply Z.mod_small. lia.
Qed.
Lemma mul_bij a ainv : (a * ainv) mod 2 ^ 64 = 1 -> bijection (fun s => u64 (s * a)).
Proof.
  intros I. apply bij_ext with (fun s => u64 (s * a + 0)).
  - intros s _. rewrite Z.add_0_r. reflexivity.
  - apply affine_bij with ainv. exact I.
Qed.
Lemma splitmix_bij : bijection (fun s => fst (splitmix_next s)).
Proof.
  apply bij_ext with (fun s => u64 (s * 1 + splitmix_gamma)).
  - intros s _. unfold splitmix_next. cbn [fst]. rewrite Z.mul_1_r. reflexivity.
  - apply affine_bij with 1. reflexivity.
Qed.
Lemma splitmix_mix_bij : bijection splitmix_mix.
Proof.
  apply (bij_comp (fun z => u64 (xr 27 (u64 (xr 30 z * 0xBF58476D1CE4E5B9)) * 0x94D049BB133111EB)) (xr 31)); [|apply xr_bij; lia].
  apply (bij_comp (fun z => xr 27 (u64 (xr 30 z * 0xBF58476D1CE4E5B9))) (fun z => u64 (z * 0x94D049BB133111EB))).
  2: { apply mul_bij with 3573116690164977347. reflexivity. }
  apply (bij_comp (fun z => u64 (xr 30 z * 0xBF58476D1CE4E5B9)) (xr 27)); [|apply xr_bij; lia].
  apply (bij_comp (xr 30) (fun z => u64 (z * 0xBF58476D1CE4E5B9))); [apply xr_bij; lia|].
  apply mul_bij with 10871156337175269513. reflexivity.
Qed.
Lemma xorshift_bij : bijection xorshift_step.
Proof.
  apply (bij_comp (fun s => xl 31 (xr 11 s)) (xr 18)); [|apply xr_bij; lia].
  apply (bij_comp (xr 11) (xl 31)); [apply xr_bij; lia|apply xl_bij; lia].
Qed.
Lemma pcg_step_eq inc s : pcg_step inc s = u64 (s * pcg_mul + inc).
Proof. unfold pcg_step. rewrite !u64_mod. rewrite Zplus_mod_idemp_l. reflexivity. Qed.
Lemma pcg_bij inc : bijection (pcg_step inc).
Proof.
  apply bij_ext with (fun s => u64 (s * pcg_mul + inc)); [intros; symmetry; apply pcg_step_eq|].
  apply affine_bij with 13877824140714322085. reflexivity.
Qed.
Lemma xorshift_nonzero s : state64 s -> s <> 0 -> xorshift_step s <> 0.
Proof.
  intros H N E. apply N. destruct xorshift_bij as [_ [B _]]. apply B; auto. unfold state64. lia.
Qed.

(** ** Periods *)
Lemma calls_S f n s : calls f (S n) s = f (calls f n s).
Proof. reflexivity. Qed.
Lemma calls_plus f i j s : calls f (i + j) s = calls f i (calls f j s).
Proof. induction i as [|i IH]; [reflexivity|]. cbn [Nat.add]. rewrite !calls_S, IH. reflexivity. Qed.
Lemma calls_shift f n s : calls f (S n) s = calls f n (f s).
Proof. replace (S n) with (n + 1)%nat by lia. rewrite calls_plus. reflexivity. Qed.
Lemma splitmix_calls n s : state64 s -> calls (fun s => fst (splitmix_next s)) n s = (s + Z.of_nat n * splitmix_gamma) mod 2 ^ 64.
Proof.
  intros H. induction n as [|n IH].
  - cbn [calls Nat.iter Z.of_nat]. change (Nat.iter 0 _ s) with s. rewrite Z.mul_0_l, Z.add_0_r, Z.mod_small by (unfold state64 in H; lia). reflexivity.
  - rewrite calls_S, IH. unfold splitmix_next. cbn [fst]. rewrite u64_mod, Zplus_mod_idemp_l. f_equal. lia.
Qed.
Lemma splitmix_cycle s : state64 s -> full_cycle (fun s => fst (splitmix_next s)) s.
Proof.
  intros H. split.
  - intros i j I J E. rewrite !splitmix_calls in E by auto.
    assert ((Z.of_nat i * splitmix_gamma) mod 2 ^ 64 = (Z.of_nat j * splitmix_gamma) mod 2 ^ 64) as E2.
    { assert (forall x, (x * splitmix_gamma) mod 2 ^ 64 = ((s + x * splitmix_gamma) mod 2 ^ 64 - s) mod 2 ^ 64) as X.
      { intros x. rewrite Zminus_mod_idemp_l. f_equal. lia. }
      rewrite (X (Z.of_nat i)), (X (Z.of_nat j)), E. reflexivity. }
    apply mul_mod_inj with (pinv := 17428512612931826493) in E2; try lia. reflexivity.
  - intros n N. rewrite splitmix_calls by auto. rewrite N. rewrite (Z.mul_comm (2 ^ 64)), Z.mod_add by lia. apply Z.mod_small. exact H.
Qed.
Lemma splitmix_discard_ok n : forall s, splitmix_discard n s = calls (fun s => fst (splitmix_next s)) n s.
Proof. induction n; intros s; [reflexivity|]. rewrite calls_shift. cbn [splitmix_discard]. apply IHn. Qed.
Lemma xorshift_discard_ok n : forall s, xorshift_discard n s = calls xorshift_step n s.
Proof. induction n; intros s; [reflexivity|]. rewrite calls_shift. cbn [xorshift_discard]. apply IHn. Qed.
Lemma pcg_next_state inc s q : pcg_next inc s = Ok q -> fst q = pcg_step inc s.
Proof.
  unfold pcg_next. destruct (shr32 _ _); cbn [bind]; try discriminate. destruct (shl32 _ _); cbn [bind]; try discriminate.
  intros E. inversion E. reflexivity.
Qed.
Lemma pcg_discard_ok n inc : forall s q, pcg_discard n inc s = Ok q -> q = calls (pcg_step inc) n s.
Proof.
  induction n; intros s q E; cbn [pcg_discard] in E; [inversion E; reflexivity|].
  destruct (pcg_next inc s) as [[s1 r]| |] eqn:P; cbn [bind] in E; try discriminate.
  apply IHn in E. rewrite calls_shift. apply pcg_next_state in P. cbn [fst] in P. rewrite <- P. exact E.
Qed.
