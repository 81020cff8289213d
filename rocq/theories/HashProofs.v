(** Proofs about hashing and szconv. *)
From Verif Require Import Base BaseLemmas SubstrModel MemUtilModel MemUtilProofs SpanProofs HashModel HashSpec.

(** ** FNV-1a *)
Lemma fnv_step64 p acc c : fnv_step u64t p acc c = (Z.lxor acc c * p) mod 2 ^ 64.
Proof. unfold fnv_step. change (u64 ?x) with (wrap u64t x). rewrite wrap_wrap. reflexivity. Qed.
Lemma fnv_step32 p acc c : fnv_step u32t p acc c = (Z.lxor acc c * p) mod 2 ^ 32.
Proof.
  unfold fnv_step. change (wrap u32t ?x) with (x mod 2 ^ 32). change (u64 ?x) with (x mod 2 ^ 64).
  symmetry. apply Znumtheory.Zmod_div_mod; [lia|lia|]. exists (2 ^ 32). reflexivity.
Qed.
Lemma slice_step (m : list Z) p k : 0 <= p -> p + Z.of_nat (S k) <= len m ->
  slice m p (Z.of_nat (S k)) = nth (Z.to_nat p) m 0 :: slice m (p + 1) (Z.of_nat k).
Proof.
  intros P L. rewrite slice_cons by lia. replace (Z.of_nat (S k) - 1) with (Z.of_nat k) by lia. reflexivity.
Qed.
Lemma fnv_loop_ok rt w p m k : (forall acc c, fnv_step rt p acc c = (Z.lxor acc c * p) mod 2 ^ w) ->
  forall a acc, 0 <= a -> a + Z.of_nat k <= len m ->
  fnv_loop rt p m a k acc = Ok (fnv1a w acc p (slice m a (Z.of_nat k))).
Proof.
  intros H. induction k as [|k IH]; intros a acc A L.
  - cbn. reflexivity.
  - rewrite slice_step by lia. cbn [fnv_loop]. rewrite rd_nth by lia. cbn [bind]. rewrite H. rewrite IH by lia. reflexivity.
Qed.
Lemma hash_bytes_ok m a n : 0 <= a -> 0 <= n -> a + n <= len m ->
  hash_bytes m a n = Ok (fnv1a 64 basis64 prime64 (slice m a n)).
Proof.
  intros A N L. unfold hash_bytes, fnv_update. rewrite fnv_loop_ok with (w := 64) by (try apply fnv_step64; lia).
  rewrite Z2Nat.id by lia. reflexivity.
Qed.
Lemma hash32_ok m a n : 0 <= a -> 0 <= n -> a + n <= len m ->
  hash32 m a n = Ok (fnv1a 32 basis32 prime32 (slice m a n)).
Proof.
  intros A N L. unfold hash32, fnv_update. rewrite fnv_loop_ok with (w := 32) by (try apply fnv_step32; lia).
  rewrite Z2Nat.id by lia. reflexivity.
Qed.
Lemma slice_full (m : list Z) : slice m 0 (len m) = m.
Proof. unfold slice. cbn [skipn Z.to_nat]. apply firstn_all2. unfold len. lia. Qed.
Lemma hash_array_ok s : hash_array s = Ok (fnv1a 64 basis64 prime64 s).
Proof.
  change (hash_array s) with (hash_bytes s 0 (len s)). rewrite hash_bytes_ok; try lia.
  - rewrite slice_full. reflexivity.
  - unfold len. lia.
Qed.
(** in pieces *)
Lemma bind_ext {A B} (x : res A) (f g : A -> res B) : (forall a, f a = g a) -> bind x f = bind x g.
Proof. intros H. destruct x; cbn; auto. Qed.
Lemma fnv_loop_app rt p m k1 : forall a k2 acc,
  fnv_loop rt p m a (k1 + k2) acc = do s <- fnv_loop rt p m a k1 acc ;; fnv_loop rt p m (a + Z.of_nat k1) k2 s.
Proof.
  induction k1 as [|k IH]; intros a k2 acc.
  - cbn [fnv_loop Nat.add bind]. f_equal. lia.
  - cbn [fnv_loop Nat.add]. destruct (rd m a); cbn [bind]; auto. rewrite IH. apply bind_ext.
    intros s. f_equal. lia.
Qed.
Lemma fnv_split rt p m a n1 n2 acc : 0 <= n1 -> 0 <= n2 ->
  fnv_update rt p acc m a (n1 + n2) = do s <- fnv_update rt p acc m a n1 ;; fnv_update rt p s m (a + n1) n2.
Proof.
  intros N1 N2. unfold fnv_update. rewrite Z2Nat.inj_add by lia. rewrite fnv_loop_app. apply bind_ext.
  intros s. rewrite Z2Nat.id by lia. reflexivity.
Qed.
Lemma fnv1a_app w b p s1 s2 : fnv1a w b p (s1 ++ s2) = fnv1a w (fnv1a w b p s1) p s2.
Proof. apply fold_left_app. Qed.

(** ** No collisions *)
Lemma mul_mod_inj q p pinv x y : 0 < q -> (p * pinv) mod q = 1 mod q -> 0 <= x < q -> 0 <= y < q ->
  (x * p) mod q = (y * p) mod q -> x = y.
Proof.
  intros Q I X Y E. rewrite <- (Z.mod_small x q), <- (Z.mod_small y q) by lia.
  assert (forall z, (((z * p) mod q) * pinv) mod q = z mod q) as H.
  { intros z. rewrite Zmult_mod_idemp_l. replace (z * p * pinv) with (z * (p * pinv)) by ring.
    rewrite <- Zmult_mod_idemp_r, I, Zmult_mod_idemp_r. f_equal. ring. }
  rewrite <- (H x), <- (H y). f_equal. f_equal. exact E.
Qed.
Lemma lxor_range w a b : 0 <= w -> 0 <= a < 2 ^ w -> 0 <= b < 2 ^ w -> 0 <= Z.lxor a b < 2 ^ w.
Proof.
  intros W A B. split; [apply Z.lxor_nonneg; lia|].
  destruct (Z.eq_dec (Z.lxor a b) 0) as [->|N]; [lia|].
  assert (0 < Z.lxor a b) by (assert (0 <= Z.lxor a b) by (apply Z.lxor_nonneg; lia); lia).
  apply Z.log2_lt_pow2; [lia|].
  destruct (Z.le_gt_cases w 0) as [Z0|Wp].
  { assert (w = 0) by lia. subst w. change (2 ^ 0) with 1 in *. assert (a = 0) by lia. assert (b = 0) by lia. subst. cbn in *. lia. }
  apply Z.le_lt_trans with (Z.max (Z.log2 a) (Z.log2 b)); [apply Z.log2_lxor; lia|].
  apply Z.max_lub_lt.
  - destruct (Z.eq_dec a 0) as [->|]; [cbn; lia|apply Z.log2_lt_pow2; lia].
  - destruct (Z.eq_dec b 0) as [->|]; [cbn; lia|apply Z.log2_lt_pow2; lia].
Qed.
Lemma lxor_inj_l a b c : Z.lxor c a = Z.lxor c b -> a = b.
Proof. intros E. rewrite <- (Z.lxor_0_l a), <- (Z.lxor_0_l b), <- (Z.lxor_nilpotent c), !Z.lxor_assoc, E. reflexivity. Qed.
Lemma lxor_inj_r a b c : Z.lxor a c = Z.lxor b c -> a = b.
Proof. rewrite !(Z.lxor_comm _ c). apply lxor_inj_l. Qed.
Section fnv.
  Context (w p pinv : Z) (W : 8 <= w) (I : (p * pinv) mod 2 ^ w = 1 mod 2 ^ w).
  Lemma byte_small b : 0 <= b < 256 -> 0 <= b < 2 ^ w.
  Proof. intros H. assert (2 ^ 8 <= 2 ^ w) by (apply Z.pow_le_mono_r; lia). change (2 ^ 8) with 256 in *. lia. Qed.
  Lemma pw_pos : 0 < 2 ^ w.
  Proof. apply Z.pow_pos_nonneg; lia. Qed.
  Lemma fnv_range s : forall h, 0 <= h < 2 ^ w -> 0 <= fnv1a w h p s < 2 ^ w.
  Proof.
    induction s as [|b s IH]; intros h H; [exact H|]. apply IH. apply Z.mod_pos_bound. apply pw_pos.
  Qed.
  Lemma step_inj_state h h' b : 0 <= h < 2 ^ w -> 0 <= h' < 2 ^ w -> 0 <= b < 256 ->
    (Z.lxor h b * p) mod 2 ^ w = (Z.lxor h' b * p) mod 2 ^ w -> h = h'.
  Proof.
    intros H H' B E. pose proof pw_pos. apply mul_mod_inj with (pinv := pinv) in E; auto.
    - eapply lxor_inj_r. exact E.
    - apply lxor_range; auto using byte_small; lia.
    - apply lxor_range; auto using byte_small; lia.
  Qed.
  Lemma step_inj_byte h b b' : 0 <= h < 2 ^ w -> 0 <= b < 256 -> 0 <= b' < 256 ->
    (Z.lxor h b * p) mod 2 ^ w = (Z.lxor h b' * p) mod 2 ^ w -> b = b'.
  Proof.
    intros H B B' E. pose proof pw_pos. apply mul_mod_inj with (pinv := pinv) in E; auto.
    - eapply lxor_inj_l. exact E.
    - apply lxor_range; auto using byte_small; lia.
    - apply lxor_range; auto using byte_small; lia.
  Qed.
  Lemma fnv_suffix s : bytes s -> forall h h', 0 <= h < 2 ^ w -> 0 <= h' < 2 ^ w ->
    fnv1a w h p s = fnv1a w h' p s -> h = h'.
  Proof.
    intros B. induction B as [|b s Hb B IH]; intros h h' H H' E; [exact E|].
    pose proof pw_pos. apply step_inj_state with b; auto. apply IH; auto; apply Z.mod_pos_bound; lia.
  Qed.
  Lemma fnv_one_byte s t b b' h : 0 <= h < 2 ^ w -> bytes s -> bytes t -> 0 <= b < 256 -> 0 <= b' < 256 ->
    fnv1a w h p (s ++ b :: t) = fnv1a w h p (s ++ b' :: t) -> b = b'.
  Proof.
    intros H S T B B' E. rewrite !fnv1a_app in E. pose proof pw_pos. pose proof (fnv_range s h H).
    change (fnv1a w (fnv1a w h p s) p (b :: t)) with (fnv1a w ((Z.lxor (fnv1a w h p s) b * p) mod 2 ^ w) p t) in E.
    change (fnv1a w (fnv1a w h p s) p (b' :: t)) with (fnv1a w ((Z.lxor (fnv1a w h p s) b' * p) mod 2 ^ w) p t) in E.
    apply fnv_suffix in E; auto; try (apply Z.mod_pos_bound; lia).
    eapply step_inj_byte; eauto.
  Qed.
  Lemma fnv_same_suffix s s' t h : 0 <= h < 2 ^ w -> bytes t ->
    fnv1a w h p (s ++ t) = fnv1a w h p (s' ++ t) <-> fnv1a w h p s = fnv1a w h p s'.
  Proof.
    intros H T. rewrite !fnv1a_app. split; intros E.
    - eapply fnv_suffix; eauto; apply fnv_range; auto.
    - rewrite E. reflexivity.
  Qed.
End fnv.

(** ** szconv *)
Lemma bits_size t : 2 ^ bits (iw t) = 256 ^ size_of t.
Proof. destruct t as [[| | |] s]; reflexivity. Qed.
(** checked conversions *)
Lemma szconv_narrow out inp v : is_narrower out inp = true -> in_range inp v ->
  szconv true out inp v = if (0 <=? v) && (v <=? imax out) then Ok v else Err.
Proof.
  intros N R. unfold szconv. rewrite N. cbn [negb]. rewrite (wrap_id inp v) by auto.
  assert (0 < imax out /\ in_range inp (imax out)) as [M1 M2].
  { clear R. destruct out as [[| | |] []], inp as [[| | |] []]; try discriminate N; unfold in_range; cbv; intuition discriminate. }
  rewrite (wrap_id inp (imax out)) by auto. cbn [andb]. destruct (0 <=? v) eqn:E1; [|reflexivity].
  destruct (v <=? imax out) eqn:E2; [|reflexivity]. cbn [negb andb]. rewrite wrap_id; auto.
  apply range_mid with (imax out); lia.
Qed.
(** unchecked ones: exact unless a negative value is given to an unsigned type *)
Lemma szconv_wide out inp v dbg : is_narrower out inp = false -> in_range inp v ->
  szconv dbg out inp v = Ok (if (v <? 0) && negb (isgn out) then v + 2 ^ bits (iw out) else v).
Proof.
  intros N R. unfold szconv. rewrite N. cbn [negb]. f_equal.
  destruct ((v <? 0) && negb (isgn out)) eqn:E.
  - assert (v + 2 ^ bits (iw out) = wrap out (v + 2 ^ bits (iw out))) as ->.
    { symmetry. apply wrap_id. destruct out as [[| | |] []], inp as [[| | |] []]; try discriminate N; cbn in E; try lia; unfold in_range in *; cbn in *; lia. }
    assert (isgn out = false) as U by (destruct (isgn out); cbn in E; auto; lia).
    destruct out as [wd sg]. cbn in U. subst sg. unfold wrap. cbn [isgn iw].
    rewrite <- Z.add_mod_idemp_r, Z.mod_same, Z.add_0_r; auto; destruct wd; cbn; lia.
  - apply wrap_id. destruct out as [[| | |] []], inp as [[| | |] []]; try discriminate N; cbn in E; unfold in_range in *; cbn in *; lia.
Qed.
Lemma szconv_exact out inp v w : in_range inp v -> 0 <= v \/ isgn out = true -> szconv true out inp v = Ok w -> w = v.
Proof.
  intros R P E. destruct (is_narrower out inp) eqn:N.
  - rewrite szconv_narrow in E by auto. destruct (_ && _); congruence.
  - rewrite szconv_wide in E by auto. replace ((v <? 0) && negb (isgn out)) with false in E; [congruence|].
    destruct P as [P| ->]; [|rewrite andb_false_r; reflexivity]. replace (v <? 0) with false by lia. reflexivity.
Qed.
Lemma narrower_iff out inp : is_narrower out inp = true <-> imax out < imax inp.
Proof. destruct out as [[] []], inp as [[] []]; vm_compute; split; congruence. Qed.
Lemma szconv_same t v dbg : in_range t v -> szconv dbg t t v = Ok v.
Proof.
  intros R. rewrite szconv_wide; [|apply not_true_is_false; intros N; apply narrower_iff in N; lia|exact R].
  destruct ((v <? 0) && negb (isgn t)) eqn:E; [|reflexivity]. exfalso. unfold in_range, imin in R. destruct (isgn t); cbn in E; lia.
Qed.
