(** Proofs about digit counts and number writing. *)
From Verif Require Import Base BaseLemmas ScanModel CharconvModel CharconvSpec.

(** ** positional notation *)
Lemma positional_app b xs ys :
  positional b (xs ++ ys) = fold_left (fun a d => a * b + d) ys (positional b xs).
Proof. unfold positional. apply fold_left_app. Qed.
Lemma positional_snoc b xs d : positional b (xs ++ [d]) = positional b xs * b + d.
Proof. rewrite positional_app. reflexivity. Qed.

Lemma horner_acc b ds a :
  fold_left (fun a d => a * b + d) ds a = a * b ^ len ds + positional b ds.
Proof.
  unfold positional. revert a; induction ds as [|d ds IH]; intros a; cbn [fold_left].
  - rewrite len_nil. lia.
  - rewrite IH, (IH (0 * b + d)). rewrite len_cons.
    replace (1 + len ds) with (Z.succ (len ds)) by lia.
    rewrite Z.pow_succ_r by apply len_nonneg. ring.
Qed.
Lemma positional_cons b d ds : positional b (d :: ds) = d * b ^ len ds + positional b ds.
Proof. unfold positional at 1. cbn [fold_left]. rewrite horner_acc. lia. Qed.

Lemma positional_bounds b ds :
  2 <= b -> Forall (fun d => 0 <= d < b) ds -> 0 <= positional b ds < b ^ len ds.
Proof.
  intros Hb. induction 1 as [|d ds Hd Hds IH].
  - rewrite len_nil. cbn. lia.
  - rewrite positional_cons, len_cons.
    replace (1 + len ds) with (Z.succ (len ds)) by lia.
    rewrite Z.pow_succ_r by apply len_nonneg. nia.
Qed.

Lemma canonical_count b v ds : 2 <= b -> canonical b v ds -> digit_count b v (len ds).
Proof.
  intros Hb [Hne Hds Hl Hv]. pose proof (positional_bounds b ds Hb Hds) as HB.
  destruct ds as [|d ds]; [congruence|].
  inversion Hds; subst.
  pose proof (positional_bounds b ds Hb H2) as HB2. pose proof (len_nonneg ds).
  pose proof (Z.pow_pos_nonneg b (len ds) ltac:(lia) ltac:(lia)) as Hpp.
  repeat split.
  - rewrite len_cons. pose proof (len_nonneg ds). lia.
  - lia.
  - intros H0. destruct (Z.eq_dec d 0) as [->|].
    + rewrite (Hl ds eq_refl). reflexivity.
    + exfalso. rewrite positional_cons in H0. nia.
  - intros H0. rewrite len_cons. replace (1 + len ds - 1) with (len ds) by lia.
    destruct (Z.eq_dec d 0) as [->|].
    + rewrite (Hl ds eq_refl) in *. cbn in H0. lia.
    + rewrite positional_cons. nia.
Qed.

Lemma digit_count_unique b v n n' :
  2 <= b -> 0 <= v -> digit_count b v n -> digit_count b v n' -> n = n'.
Proof.
  intros Hb Hv (H1 & H2 & H3 & H4) (H1' & H2' & H3' & H4').
  destruct (Z.eq_dec v 0) as [->|]; [rewrite H3, H3'; auto|].
  specialize (H4 ltac:(lia)). specialize (H4' ltac:(lia)).
  assert (n - 1 < n') by (apply (Z.pow_lt_mono_r_iff b); lia).
  assert (n' - 1 < n) by (apply (Z.pow_lt_mono_r_iff b); lia).
  lia.
Qed.

(** digits of a number, least significant last *)
Fixpoint digs (fuel : nat) (b v : Z) : list Z :=
  match fuel with
  | O => [v]
  | S f => if v <? b then [v] else digs f b (v / b) ++ [v mod b]
  end.
Definition ddigits (b v : Z) : list Z := digs (S (Z.to_nat (Z.log2 v))) b v.
Definition numeral (b v : Z) : list Z := map digit_char (ddigits b v).

Lemma digs_fuel b f f' v :
  2 <= b -> 0 <= v -> (v < 2 ^ Z.of_nat f) -> v < 2 ^ Z.of_nat f' -> digs f b v = digs f' b v.
Proof.
  intros Hb. revert f' v; induction f as [|f IH]; intros f' v Hv Hf Hf'.
  - change (2 ^ Z.of_nat 0) with 1 in Hf. assert (v = 0) by lia; subst.
    destruct f'; simpl; auto. destruct (Z.ltb_spec 0 b); auto. lia.
  - destruct f'.
    + change (2 ^ Z.of_nat 0) with 1 in Hf'. assert (v = 0) by lia; subst.
      simpl; auto. destruct (Z.ltb_spec 0 b); auto. lia.
    + cbn [digs]. destruct (Z.ltb_spec v b); auto. f_equal.
      assert (forall k, v < 2 ^ Z.of_nat (S k) -> v / b < 2 ^ Z.of_nat k).
      { intros k Hk. rewrite Nat2Z.inj_succ, Z.pow_succ_r in Hk by lia.
        apply Z.div_lt_upper_bound; nia. }
      apply IH; auto. apply Z.div_pos; lia.
Qed.

Lemma log2_bound v : 0 <= v -> v < 2 ^ Z.of_nat (S (Z.to_nat (Z.log2 v))).
Proof.
  intros Hv. rewrite Nat2Z.inj_succ, Z2Nat.id by apply Z.log2_nonneg.
  destruct (Z.eq_dec v 0) as [->|]; [cbn; lia|]. apply Z.log2_spec; lia.
Qed.

Lemma ddigits_small b v : 0 <= v < b -> ddigits b v = [v].
Proof. intros. unfold ddigits. cbn [digs]. destruct (Z.ltb_spec v b); auto; lia. Qed.
Lemma ddigits_step b v :
  2 <= b -> b <= v -> ddigits b v = ddigits b (v / b) ++ [v mod b].
Proof.
  intros Hb Hv. unfold ddigits at 1. cbn [digs]. destruct (Z.ltb_spec v b); [lia|].
  f_equal. apply digs_fuel; auto.
  - apply Z.div_pos; lia.
  - pose proof (log2_bound v ltac:(lia)) as HB.
    rewrite Nat2Z.inj_succ, Z.pow_succ_r in HB by lia. apply Z.div_lt_upper_bound; nia.
  - apply log2_bound. apply Z.div_pos; lia.
Qed.

Lemma num_ind (b : Z) (P : Z -> Prop) :
  2 <= b -> (forall v, 0 <= v < b -> P v) ->
  (forall v, b <= v -> P (v / b) -> P v) -> forall v, 0 <= v -> P v.
Proof.
  intros Hb H0 H1 v Hv. revert Hv.
  apply (Zlt_0_ind P). intros x IH Hx.
  destruct (Z.ltb_spec x b); [apply H0; lia|]. apply H1; auto. apply IH.
  split; [apply Z.div_pos; lia|]. apply Z.div_lt; lia.
Qed.

Lemma ddigits_canonical b v : 2 <= b -> 0 <= v -> canonical b v (ddigits b v).
Proof.
  intros Hb. revert v. apply (num_ind b); auto.
  - intros v Hv. rewrite ddigits_small by lia. split.
    + discriminate.
    + constructor; auto.
    + intros t H. inversion H; auto.
    + cbn. lia.
  - intros v Hv [Hne Hds Hl Hp]. rewrite ddigits_step by lia.
    assert (Hq : 0 < v / b) by (apply Z.div_str_pos; lia).
    split.
    + destruct (ddigits b (v / b)); discriminate.
    + apply Forall_app; split; auto. constructor; auto. apply Z.mod_pos_bound; lia.
    + intros t Ht. exfalso. destruct (ddigits b (v / b)) as [|d ds]; [congruence|].
      cbn in Ht. inversion Ht; subst d. rewrite (Hl ds eq_refl) in *. cbn in Hp. lia.
    + rewrite positional_snoc, Hp. rewrite (Z.div_mod v b) at 3 by lia. ring.
Qed.

Lemma canonical_unique b v ds ds' :
  2 <= b -> canonical b v ds -> canonical b v ds' -> ds = ds'.
Proof.
  intros Hb H H'.
  assert (Hv : 0 <= v).
  { destruct H as [? ? ? Hval]. rewrite <- Hval. apply positional_bounds; auto. }
  assert (Hlen : len ds = len ds').
  { eapply digit_count_unique; eauto using canonical_count. }
  assert (Hgen : forall xs ys, length xs = length ys ->
     Forall (fun d => 0 <= d < b) xs -> Forall (fun d => 0 <= d < b) ys ->
     positional b xs = positional b ys -> xs = ys).
  { clear -Hb. induction xs as [|x xs IH]; destruct ys as [|y ys]; cbn [length]; intros L Hx Hy Hp; try lia; auto.
    inversion Hx; inversion Hy; subst.
    pose proof (positional_bounds b xs Hb H2). pose proof (positional_bounds b ys Hb H6).
    rewrite !positional_cons in Hp. assert (HL : len xs = len ys) by (unfold len; lia).
    rewrite HL in *. assert (x = y) by nia. subst. f_equal. apply IH; auto. lia. }
  destruct H, H'. apply Hgen; auto. unfold len in Hlen; lia. congruence.
Qed.

Lemma numeral_is b v : 2 <= b -> 0 <= v -> is_numeral b v (numeral b v).
Proof. intros. exists (ddigits b v). split; auto using ddigits_canonical. Qed.
Lemma is_numeral_eq b v s : 2 <= b -> is_numeral b v s -> s = numeral b v.
Proof.
  intros Hb (ds & Hc & ->). unfold numeral. f_equal.
  eapply canonical_unique; eauto. apply ddigits_canonical; auto.
  destruct Hc as [? ? ? Hval]. rewrite <- Hval. apply positional_bounds; auto.
Qed.
Lemma numeral_count b v : 2 <= b -> 0 <= v -> digit_count b v (len (numeral b v)).
Proof. intros. unfold numeral. rewrite len_map. auto using canonical_count, ddigits_canonical. Qed.
Lemma numeral_small b v : 0 <= v < b -> numeral b v = [digit_char v].
Proof. intros. unfold numeral. rewrite ddigits_small by lia. reflexivity. Qed.
Lemma numeral_step b v :
  2 <= b -> b <= v -> numeral b v = numeral b (v / b) ++ [digit_char (v mod b)].
Proof. intros. unfold numeral. rewrite ddigits_step, map_app by lia. reflexivity. Qed.

(** ** digit counts *)
Lemma base_ge2 r : 2 <= base r. Proof. destruct r; cbn; lia. Qed.

Lemma digits_dec_correct w v :
  0 <= v < 2 ^ bits w -> digit_count 10 v (digits_dec w v).
Proof.
  intros Hv. destruct w; cbn [bits] in Hv; unfold digits_dec;
  repeat match goal with
  | |- context [if ?a <=? ?b then _ else _] => destruct (Z.leb_spec a b)
  end;
  (split; [lia|]; split; [|split]; [| |]);
  try (match goal with |- context [?b ^ ?n] =>
     let p := eval vm_compute in (b ^ n) in change (b ^ n) with p end); lia.
Qed.

Lemma digits_pow2_gen k v n :
  0 < k -> 0 < v -> n = 1 + Z.log2 v / k -> digit_count (2 ^ k) v n.
Proof.
  intros Hk Hv ->. pose proof (Z.log2_nonneg v). pose proof (Z.log2_spec v Hv) as [L1 L2].
  assert (0 <= Z.log2 v / k) by (apply Z.div_pos; lia).
  split; [lia|]. split; [|split; [lia|]].
  - rewrite <- Z.pow_mul_r by lia. eapply Z.lt_le_trans; [exact L2|].
    apply Z.pow_le_mono_r; [lia|].
    pose proof (Z.mul_succ_div_gt (Z.log2 v) k Hk). nia.
  - intros _. replace (1 + Z.log2 v / k - 1) with (Z.log2 v / k) by lia.
    rewrite <- Z.pow_mul_r by lia. eapply Z.le_trans; [|exact L1].
    apply Z.pow_le_mono_r; [lia|]. apply Z.mul_div_le; lia.
Qed.

Lemma count_zero b : 2 <= b -> digit_count b 0 1.
Proof. intros. unfold digit_count. rewrite Z.pow_1_r. lia. Qed.

Lemma digits_hex_correct v : 0 <= v -> digit_count 16 v (digits_hex v).
Proof.
  intros Hv. unfold digits_hex. destruct (Z.eqb_spec v 0) as [->|]; [apply count_zero; lia|].
  apply (digits_pow2_gen 4); try lia. unfold msb. rewrite Z.shiftr_div_pow2 by lia. reflexivity.
Qed.
Lemma digits_bin_correct v : 0 <= v -> digit_count 2 v (digits_bin v).
Proof.
  intros Hv. unfold digits_bin. destruct (Z.eqb_spec v 0) as [->|]; [apply count_zero; lia|].
  apply (digits_pow2_gen 1); try lia. unfold msb. rewrite Z.div_1_r. reflexivity.
Qed.

Lemma digit_count_div b v n k :
  2 <= b -> 0 <= k -> b ^ k <= v -> digit_count b (v / b ^ k) n -> digit_count b v (n + k).
Proof.
  intros Hb Hk Hv (H1 & H2 & H3 & H4).
  assert (Hp : 0 < b ^ k) by (apply Z.pow_pos_nonneg; lia).
  assert (Hq : 0 < v / b ^ k) by (apply Z.div_str_pos; lia).
  specialize (H4 Hq). split; [lia|]. split; [|split; [lia|]].
  - rewrite Z.pow_add_r by lia.
    assert (v < b ^ k * (v / b ^ k + 1)).
    { pose proof (Z.mul_succ_div_gt v (b ^ k) Hp). lia. }
    nia.
  - intros _. replace (n + k - 1) with ((n - 1) + k) by lia. rewrite Z.pow_add_r by lia.
    pose proof (Z.mul_div_le v (b ^ k) Hp). nia.
Qed.

Lemma digits_oct_loop_correct fuel v n :
  fuel <> O -> 0 <= v < 4096 ^ Z.of_nat fuel -> exists k, digits_oct_loop fuel v n = n + k - 1 /\ digit_count 8 v k.
Proof.
  revert v n; induction fuel as [|f IH]; intros v n Hz Hv; [congruence|].
  { cbn [digits_oct_loop].
    destruct (Z.ltb_spec v 8).
    { exists 1. split; [lia|]. unfold digit_count. change (8 ^ 1) with 8. change (8 ^ (1-1)) with 1. lia. }
    destruct (Z.ltb_spec v 64).
    { exists 2. split; [lia|]. unfold digit_count. change (8 ^ 2) with 64. change (8 ^ (2-1)) with 8. lia. }
    destruct (Z.ltb_spec v 512).
    { exists 3. split; [lia|]. unfold digit_count. change (8 ^ 3) with 512. change (8 ^ (3-1)) with 64. lia. }
    destruct (Z.ltb_spec v 4096).
    { exists 4. split; [lia|]. unfold digit_count. change (8 ^ 4) with 4096. change (8 ^ (4-1)) with 512. lia. }
    destruct (IH (v / 4096) (n + 4)) as (k & Hk1 & Hk2).
    { intros ->. cbn in Hv. lia. }
    { split; [apply Z.div_pos; lia|]. rewrite Nat2Z.inj_succ, Z.pow_succ_r in Hv by lia.
      apply Z.div_lt_upper_bound; lia. }
    exists (k + 4). split; [lia|]. apply digit_count_div; auto; try lia. }
Qed.

Lemma digits_oct_correct v : 0 <= v < 2 ^ 64 -> digit_count 8 v (digits_oct v).
Proof.
  intros Hv. unfold digits_oct.
  destruct (digits_oct_loop_correct 64 v 1) as (k & Hk1 & Hk2); [discriminate| |].
  { split; [lia|]. eapply Z.lt_le_trans; [apply Hv|]. vm_compute. discriminate. }
  rewrite Hk1. replace (1 + k - 1) with k by lia. auto.
Qed.

Lemma bits_le_64 w v : v < 2 ^ bits w -> v < 2 ^ 64.
Proof.
  intros. eapply Z.lt_le_trans; [eauto|]. apply Z.pow_le_mono_r; destruct w; cbn; lia.
Qed.

Lemma digits_correct w r v :
  0 <= v < 2 ^ bits w -> digit_count (base r) v (digits w r v).
Proof.
  intros Hv. pose proof (bits_le_64 w v ltac:(lia)).
  destruct r; cbn [digits base].
  - apply digits_dec_correct; auto.
  - apply digits_hex_correct; lia.
  - apply digits_oct_correct; lia.
  - apply digits_bin_correct; lia.
Qed.

Lemma digits_numeral w r v :
  0 <= v < 2 ^ bits w -> digits w r v = len (numeral (base r) v).
Proof.
  intros Hv. pose proof (base_ge2 r).
  eapply (digit_count_unique (base r) v); auto using digits_correct, numeral_count; try lia.
  apply numeral_count; lia.
Qed.

Lemma digits_bound w r v : 0 <= v < 2 ^ bits w -> 1 <= digits w r v <= 64.
Proof.
  intros Hv. destruct (digits_correct w r v Hv) as (H1 & H2 & H3 & H4).
  split; auto. destruct (Z.eq_dec v 0) as [->|]; [rewrite H3; lia|].
  specialize (H4 ltac:(lia)). pose proof (bits_le_64 w v ltac:(lia)) as HB.
  destruct (Z.leb_spec (digits w r v) 64); auto. exfalso.
  assert (2 ^ 64 <= base r ^ (digits w r v - 1)); [|lia].
  transitivity (base r ^ 64).
  - apply Z.pow_le_mono_l. pose proof (base_ge2 r); lia.
  - apply Z.pow_le_mono_r; [pose proof (base_ge2 r)|]; lia.
Qed.

(** ** unchecked writers *)
Lemma pow2_loop chr mask shift b fuel m off v d l :
  b = 2 ^ shift -> mask = Z.ones shift -> 0 < shift ->
  (forall x, 0 <= x < b -> chr x = Ok (digit_char x)) ->
  0 <= v -> d = len (numeral b v) -> d < 2 ^ 32 -> d <= Z.of_nat fuel -> 0 <= off ->
  off + d + len l <= len m ->
  write_pow2_loop chr mask shift fuel (blit m (off + d) l) off v d
  = Ok (blit m off (numeral b v ++ l), 0).
Proof.
  intros Hb Hmask Hs Hchr. revert v d l.
  assert (Hb2 : 2 <= b).
  { rewrite Hb. change 2 with (2 ^ 1) at 1. apply Z.pow_le_mono_r; lia. }
  induction fuel as [|f IH]; intros v d l Hv Hd Hd32 Hf Hoff Hlen.
  - pose proof (numeral_count b v Hb2 Hv) as (H1 & _). lia.
  - cbn [write_pow2_loop].
    pose proof (numeral_count b v Hb2 Hv) as (H1 & _).
    pose proof (len_nonneg l).
    assert (Hland : Z.land v mask = v mod b) by (rewrite Hmask, Z.land_ones by lia; subst b; reflexivity).
    assert (Hshr : Z.shiftr v shift = v / b) by (rewrite Z.shiftr_div_pow2 by lia; subst b; reflexivity).
    assert (Hmod : 0 <= v mod b < b) by (apply Z.mod_pos_bound; lia).
    rewrite Hland, Hshr, Hchr by lia. rewrite bind_ok.
    rewrite (u32_id (d - 1)) by lia.
    replace (off + (d - 1)) with (off + d - 1) by lia.
    rewrite wr_blit_before by lia. rewrite bind_ok.
    destruct (Z.eqb_spec (v / b) 0) as [Hz|Hz].
    + assert (Hvb : v < b) by (apply Z.div_small_iff in Hz; lia).
      rewrite numeral_small in * by lia. rewrite Z.mod_small by lia.
      change (len [digit_char v]) with 1 in Hd. subst d.
      replace (off + 1 - 1) with off by lia. reflexivity.
    + assert (Hvb : b <= v).
      { destruct (Z.leb_spec b v); auto. rewrite Z.div_small in Hz; lia. }
      rewrite numeral_step in * by lia. rewrite len_app in Hd.
      change (len [digit_char (v mod b)]) with 1 in Hd.
      replace (off + d - 1) with (off + (d - 1)) by lia.
      rewrite IH by (rewrite ?len_cons; lia).
      rewrite <- app_assoc. reflexivity.
Qed.

Lemma digits0099_ok k :
  0 <= k < 100 ->
  rd digits0099 (k * 2 + 1) = Ok (digit_char (k mod 10)) /\
  rd digits0099 (k * 2) = Ok (digit_char (k / 10)).
Proof.
  intros Hk.
  assert (H : forallb (fun n => let k := Z.of_nat n in
     match rd digits0099 (k * 2 + 1), rd digits0099 (k * 2) with
     | Ok a, Ok b => (a =? digit_char (k mod 10)) && (b =? digit_char (k / 10))
     | _, _ => false end) (seq 0 100) = true) by (vm_compute; reflexivity).
  rewrite forallb_forall in H. specialize (H (Z.to_nat k)).
  rewrite Z2Nat.id in H by lia. cbv zeta in H.
  rewrite in_seq in H. specialize (H ltac:(lia)).
  destruct (rd digits0099 (k * 2 + 1)), (rd digits0099 (k * 2)); try discriminate.
  apply andb_prop in H as [H1 H2]. apply Z.eqb_eq in H1, H2. subst. auto.
Qed.

Lemma numeral10_pair v :
  100 <= v -> numeral 10 v = numeral 10 (v / 100) ++ [digit_char (v mod 100 / 10); digit_char (v mod 10)].
Proof.
  intros Hv. rewrite numeral_step by lia. rewrite (numeral_step 10 (v / 10)) by lia.
  rewrite <- app_assoc. cbn [app].
  replace (v / 10 / 10) with (v / 100) by lia.
  replace (v / 10 mod 10) with (v mod 100 / 10) by lia. reflexivity.
Qed.

Lemma dec_loop fuel m off v d l :
  0 <= v -> d = len (numeral 10 v) -> d < 2 ^ 32 -> d <= Z.of_nat fuel -> 0 <= off ->
  off + d + len l <= len m ->
  exists v1 d1 l1,
    write_dec_loop fuel (blit m (off + d) l) off v d = Ok (blit m (off + d1) l1, v1, d1) /\
    0 <= v1 < 100 /\ d1 = len (numeral 10 v1) /\ off + d1 + len l1 <= len m /\
    numeral 10 v ++ l = numeral 10 v1 ++ l1.
Proof.
  revert v d l. induction fuel as [|f IH]; intros v d l Hv Hd Hd32 Hf Hoff Hlen;
    pose proof (numeral_count 10 v ltac:(lia) Hv) as (H1 & _).
  - lia.
  - cbn [write_dec_loop]. destruct (Z.ltb_spec v 100).
    { exists v, d, l. repeat split; auto; lia. }
    assert (H100 : 0 <= v mod 100 < 100) by (apply Z.mod_pos_bound; lia).
    replace (v - v / 100 * 100) with (v mod 100) by lia.
    destruct (digits0099_ok (v mod 100) H100) as [E1 E0].
    pose proof (len_nonneg l).
    rewrite numeral10_pair in Hd by lia. rewrite len_app in Hd.
    match type of Hd with context [len [?a; ?b]] => change (len [a; b]) with 2 in Hd end.
    pose proof (numeral_count 10 (v / 100) ltac:(lia) ltac:(apply Z.div_pos; lia)) as (H1' & _).
    rewrite E1, bind_ok. rewrite (u32_id (d - 1)) by lia. rewrite (u32_id (d - 1 - 1)) by lia.
    replace (off + (d - 1)) with (off + d - 1) by lia.
    rewrite wr_blit_before by lia. rewrite bind_ok, E0, bind_ok.
    replace (off + (d - 1 - 1)) with (off + d - 1 - 1) by lia.
    rewrite wr_blit_before by (rewrite ?len_cons; lia). rewrite bind_ok.
    replace (off + d - 1 - 1) with (off + (d - 2)) by lia.
    replace (d - 1 - 1) with (d - 2) by lia.
    destruct (IH (v / 100) (d - 2) (digit_char (v mod 100 / 10) :: digit_char (v mod 100 mod 10) :: l))
      as (v1 & d1 & l1 & EQ & Hv1 & Hd1 & Hl1 & Htxt); try lia.
    { rewrite !len_cons. lia. }
    exists v1, d1, l1. repeat split; auto; try lia.
    rewrite <- Htxt, numeral10_pair by lia. rewrite <- app_assoc. cbn [app].
    replace (v mod 100 mod 10) with (v mod 10) by lia. reflexivity.
Qed.

Lemma write_dec_unchecked_ok w m b v :
  vin b m -> 0 <= v < 2 ^ bits w -> digits_dec w v <= vl b ->
  write_dec_unchecked m b v (digits_dec w v) = Ok (blit m (vo b) (numeral 10 v)).
Proof.
  intros (Ho & Hl & Hb) Hv Hd.
  pose proof (digits_numeral w Dec v Hv) as Hn. cbn [digits base] in Hn.
  pose proof (digits_bound w Dec v Hv) as HB. cbn [digits] in HB.
  unfold write_dec_unchecked. destruct (Z.ltb_spec (vl b) (digits_dec w v)); [lia|].
  destruct (dec_loop 64 m (vo b) v (digits_dec w v) []) as (v1 & d1 & l1 & EQ & Hv1 & Hd1 & Hl1 & Ht);
    auto; try lia.
  { rewrite len_nil. lia. }
  rewrite blit_nil in EQ by lia. rewrite EQ, bind_ok. clear EQ.
  rewrite app_nil_r in Ht. rewrite Ht. pose proof (len_nonneg l1).
  destruct (Z.leb_spec 10 v1).
  - rewrite numeral_step in Hd1 |- * by lia. rewrite numeral_small in Hd1 |- * by lia.
    change (len ([digit_char (v1 / 10)] ++ [digit_char (v1 mod 10)])) with 2 in Hd1. subst d1.
    cbn [negb Z.eqb Pos.eqb]. destruct (digits0099_ok v1 ltac:(lia)) as [E1 E0].
    rewrite E1, bind_ok. replace (vo b + 1) with (vo b + 2 - 1) by lia.
    rewrite wr_blit_before by lia. rewrite bind_ok, E0, bind_ok.
    replace (wr (blit m (vo b + 2 - 1) (digit_char (v1 mod 10) :: l1)) (vo b))
      with (wr (blit m (vo b + 2 - 1) (digit_char (v1 mod 10) :: l1)) (vo b + 2 - 1 - 1)) by (f_equal; lia).
    rewrite wr_blit_before by (rewrite ?len_cons; lia).
    do 2 f_equal. lia.
  - rewrite numeral_small in Hd1 |- * by lia. change (len [digit_char v1]) with 1 in Hd1. subst d1.
    cbn [negb Z.eqb Pos.eqb].
    replace (wr (blit m (vo b + 1) l1) (vo b)) with (wr (blit m (vo b + 1) l1) (vo b + 1 - 1)) by (f_equal; lia).
    rewrite wr_blit_before by lia. unfold digit_char.
    replace (v1 <? 10) with true by lia. do 2 f_equal. lia.
Qed.

Lemma write_pow2_unchecked_ok chr mask shift bs w r m b v :
  bs = 2 ^ shift -> mask = Z.ones shift -> 0 < shift -> bs = base r ->
  (forall x, 0 <= x < bs -> chr x = Ok (digit_char x)) ->
  vin b m -> 0 <= v < 2 ^ bits w -> digits w r v <= vl b ->
  write_pow2_unchecked chr mask shift m b v (digits w r v) = Ok (blit m (vo b) (numeral bs v)).
Proof.
  intros Hb Hm Hs Hr Hchr (Ho & Hl & Hin) Hv Hd.
  pose proof (digits_numeral w r v Hv) as Hn. pose proof (digits_bound w r v Hv) as HB.
  unfold write_pow2_unchecked. destruct (Z.ltb_spec (vl b) (digits w r v)); [lia|].
  pose proof (pow2_loop chr mask shift bs 65 m (vo b) v (digits w r v) []) as HL.
  rewrite blit_nil, app_nil_r, len_nil in HL by lia.
  rewrite HL; auto; try lia. rewrite Hr. auto.
Qed.

Lemma hexchars_ok x : 0 <= x < 16 -> rd hexchars x = Ok (digit_char x).
Proof.
  intros Hx.
  assert (H : forallb (fun n => match rd hexchars (Z.of_nat n) with
     | Ok a => a =? digit_char (Z.of_nat n) | _ => false end) (seq 0 16) = true) by (vm_compute; reflexivity).
  rewrite forallb_forall in H. specialize (H (Z.to_nat x)).
  rewrite Z2Nat.id in H by lia. rewrite in_seq in H. specialize (H ltac:(lia)).
  destruct (rd hexchars x); try discriminate. apply Z.eqb_eq in H. subst. auto.
Qed.

Lemma write_unchecked_ok w r m b v :
  vin b m -> 0 <= v < 2 ^ bits w -> digits w r v <= vl b ->
  write_unchecked r m b v (digits w r v) = Ok (blit m (vo b) (numeral (base r) v)).
Proof.
  intros Hin Hv Hd. destruct r; cbn [write_unchecked].
  - apply write_dec_unchecked_ok; auto.
  - apply (write_pow2_unchecked_ok _ 15 4 16 w Hex); auto; try lia. apply hexchars_ok.
  - apply (write_pow2_unchecked_ok _ 7 3 8 w Oct); auto; try lia.
    intros x Hx. unfold digit_char. replace (x <? 10) with true by lia. reflexivity.
  - apply (write_pow2_unchecked_ok _ 1 1 2 w Bin); auto; try lia.
    intros x Hx. unfold digit_char. replace (x <? 10) with true by lia. reflexivity.
Qed.

Lemma write_num_ok w r m b v :
  vin b m -> 0 <= v < 2 ^ bits w ->
  write_num w r m b v =
  Ok (if len (numeral (base r) v) <=? vl b then blit m (vo b) (numeral (base r) v) else m,
      len (numeral (base r) v)).
Proof.
  intros Hin Hv. unfold write_num. rewrite <- (digits_numeral w) by auto.
  destruct (Z.leb_spec (digits w r v) (vl b)); auto.
  rewrite write_unchecked_ok by auto. reflexivity.
Qed.
