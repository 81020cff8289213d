From Verif Require Import Base BaseLemmas CharconvModel CharconvSpec CharconvProofs CharconvProofs2 CharconvProofs3 CharconvProofs4 CharconvProofs5 SubstrModel SubstrSpec SubstrProofs SpanNumModel SpanNumSpec SpanNumProofs5 SpanNumProofs6 Base64Model Base64Spec Base64Proofs Base64Props FormatModel FormatSpec.

(** ** memory *)
Lemma mem_ext (x y : list Z) : len x = len y -> (forall k, 0 <= k < len x -> nth (Z.to_nat k) x 0 = nth (Z.to_nat k) y 0) -> x = y.
Proof.
  intros H1 H2. apply (nth_ext x y 0 0); [unfold len in *; lia|]. intros n Hn.
  specialize (H2 (Z.of_nat n)). rewrite Nat2Z.id in H2. apply H2. unfold len; lia.
Qed.
Lemma blit_over (m : list Z) i a b : 0 <= i -> i + len b <= len m -> len a <= len b -> blit (blit m i a) i b = blit m i b.
Proof.
  intros Hi Hb Ha. pose proof (len_nonneg a).
  assert (L1 : len (blit m i a) = len m) by (apply len_blit; lia).
  apply mem_ext; [rewrite !len_blit; lia|]. intros k Hk.
  rewrite (nth_blit (blit m i a)), (nth_blit m i a), (nth_blit m i b) by lia.
  destruct ((i <=? k) && (k <? i + len b)) eqn:E; auto. replace ((i <=? k) && (k <? i + len a)) with false by lia. auto.
Qed.
Lemma blit_back (m : list Z) i a b : 0 <= i -> i + len a + len b <= len m -> blit (blit m i (a ++ b)) i a = blit m i (a ++ b).
Proof.
  intros Hi Hb. pose proof (len_nonneg a). pose proof (len_nonneg b).
  assert (L1 : len (blit m i (a ++ b)) = len m) by (apply len_blit; rewrite ?len_app; lia).
  apply mem_ext; [rewrite len_blit; lia|]. intros k Hk.
  rewrite (nth_blit (blit m i (a ++ b))) by lia. destruct ((i <=? k) && (k <? i + len a)) eqn:E; auto.
  rewrite nth_blit by (rewrite ?len_app; lia). rewrite len_app. replace ((i <=? k) && (k <? i + (len a + len b))) with true by lia.
  rewrite app_nth1; auto. unfold len in *; lia.
Qed.
Lemma outside_trans m1 m2 m3 b : same_outside m1 m2 b -> same_outside m2 m3 b -> same_outside m1 m3 b.
Proof. intros [H1 H2] [H3 H4]. split; [congruence|]. intros. rewrite H4, H2 by auto. auto. Qed.
Lemma outside_sub m1 m2 a b : same_outside m1 m2 a -> vo b <= vo a -> vo a + vl a <= vo b + vl b -> same_outside m1 m2 b.
Proof. intros [H1 H2] Ha Hb. split; auto. intros k K H. apply H2; lia. Qed.
Lemma outside_vin m1 m2 b v : same_outside m1 m2 b -> vin v m1 -> vin v m2.
Proof. intros [H1 _] (A & B & C). unfold vin. lia. Qed.

(** ** one argument *)
Lemma arg_text_fun a t t' : arg_text a t -> arg_text a t' -> t = t'.
Proof.
  intros H. revert t'. induction H; intros t' H'; inversion H'; subst; auto.
  - rewrite is_dec_text_eq in *. congruence.
  - rewrite is_int_text_eq in *. congruence.
  - rewrite is_padded_text_eq in *. congruence.
  - change 16 with (base Hex) in *. rewrite is_int_text_eq in *. congruence.
  - match goal with X : arg_text a ?y |- _ => rewrite (IHarg_text y); auto end.
  - match goal with X : arg_text a ?y |- _ => rewrite (IHarg_text y); auto end.
Qed.
Lemma to_chars_str_fits m b s : vin b m -> len s <= vl b -> to_chars_str m b s = Ok (blit m (vo b) s, len s).
Proof. intros Hb H. rewrite to_chars_str_eq by auto. rewrite Z.min_r by lia. rewrite to_nat_len, firstn_all. reflexivity. Qed.
Lemma to_chars_str_small m b s : vin b m -> vl b < len s -> exists m', to_chars_str m b s = Ok (m', len s) /\ same_outside m m' b.
Proof.
  intros Hb H. rewrite to_chars_str_eq by auto. eexists; split; [reflexivity|]. apply same_outside_blit; auto.
  destruct Hb. rewrite len_firstn; lia.
Qed.

Lemma to_chars_fits dbg a t : arg_text a t -> forall m b, vin b m -> vl b < 2 ^ 64 -> len t <= vl b ->
  to_chars dbg m b a = Ok (blit m (vo b) t, len t).
Proof.
  induction 1; intros m b Hb H64 Hl; cbn [to_chars].
  - apply to_chars_str_fits; auto.
  - apply to_chars_str_fits; auto.
  - change (len [c]) with 1 in *. unfold to_chars_char. replace (0 <? vl b) with true by lia.
    destruct Hb as (B1 & B2 & B3). rewrite wr_ok by lia. reflexivity.
  - assert (len (s2z (if v then "1" else "0")) = 1) as L by (destruct v; reflexivity). rewrite L in *.
    rewrite to_chars_bool_ok by auto. replace (0 <? vl b) with true by lia. reflexivity.
  - apply to_chars_str_fits; auto.
  - apply to_chars_int_fits; auto.
  - apply to_chars_radix_fits; auto.
  - apply to_chars_nd_fits; auto.
  - apply (to_chars_radix_fits i64 m b p Hex); auto.
  - rewrite encode_ok by auto. unfold stored. rewrite firstn_all2 by (unfold len in *; lia). rewrite rfc_len. reflexivity.
  - rewrite len_app, len_repeat in Hl. pose proof (len_nonneg t). rewrite IHarg_text by (auto; lia). cbn [bind].
    destruct ((vl b <=? len t) || (w <=? len t)) eqn:E.
    + assert (w <= len t) by lia. replace (Z.to_nat (w - len t)) with O by lia. cbn [repeat]. rewrite app_nil_r.
      destruct (Z.ltb_spec w (len t)); f_equal; f_equal; lia.
    + destruct Hb as (B1 & B2 & B3). unfold first_d, dassert, npos. replace (w <=? vl b) with true by lia. cbn [orb].
      rewrite orb_true_r. replace (if w =? 2 ^ 64 - 1 then vl b else w) with w by (destruct (Z.eqb_spec w (2 ^ 64 - 1)); lia).
      cbn [bind vl].
      unfold sub_d, dassert. replace (len t <=? w) with true by lia. rewrite u64_id by lia.
      rewrite orb_true_r.
      cbn [bind vl vo]. unfold fill_v.
      assert (LB : len (blit m (vo b) t) = len m) by (apply len_blit; lia).
      rewrite wrs_ok by (rewrite ?LB, ?len_repeat; lia). cbn [bind]. rewrite blit_app by (rewrite ?len_repeat; lia).
      assert (LB2 : len (blit m (vo b) (t ++ repeat pad (Z.to_nat (w - len t)))) = len m) by (apply len_blit; rewrite ?len_app, ?len_repeat; lia).
      rewrite IHarg_text; [|unfold vin; lia|lia|lia]. cbn [bind]. rewrite blit_back by (rewrite ?len_repeat; lia).
      rewrite len_app, len_repeat. f_equal. f_equal. lia.
  - rewrite len_app, len_repeat in Hl. pose proof (len_nonneg t). rewrite IHarg_text by (auto; lia). cbn [bind].
    destruct ((vl b <=? len t) || (w <=? len t)) eqn:E.
    + assert (w <= len t) by lia. replace (Z.to_nat (w - len t)) with O by lia. cbn [repeat app].
      destruct (Z.ltb_spec w (len t)); f_equal; f_equal; lia.
    + destruct Hb as (B1 & B2 & B3). rewrite u64_id by lia. unfold first_d, dassert, npos. replace (w - len t <=? vl b) with true by lia. cbn [orb].
      rewrite orb_true_r. replace (if w - len t =? 2 ^ 64 - 1 then vl b else w - len t) with (w - len t) by (destruct (Z.eqb_spec (w - len t) (2 ^ 64 - 1)); lia).
      cbn [bind vl].
      unfold fill_v. set (p := repeat pad (Z.to_nat (w - len t))). assert (LP : len p = w - len t) by (unfold p; rewrite len_repeat; lia).
      assert (LB : len (blit m (vo b) t) = len m) by (apply len_blit; lia).
      rewrite wrs_ok by lia. cbn [bind]. unfold sub_d, dassert. replace (w - len t <=? vl b) with true by lia. rewrite u64_id by lia.
      rewrite orb_true_r.
      cbn [bind vl vo].
      assert (LB2 : len (blit (blit m (vo b) t) (vo b) p) = len m) by (rewrite len_blit; lia).
      rewrite IHarg_text; [|unfold vin; cbn [vo vl]; lia|cbn [vl]; lia|cbn [vl]; lia]. cbn [bind vo].
      rewrite <- LP, blit_app by lia. rewrite blit_over by (rewrite ?len_app; lia). rewrite len_app, LP. f_equal. f_equal. lia.
Qed.

Lemma safe_left n a w p t : safe_in n (ALeft a w p) -> arg_text a t -> safe_in n a /\ (n <= len t \/ w <= n).
Proof. intros H T. inversion H as [? ? S|? ? t0 ? ? ? T0|]; subst; [destruct S|]. rewrite <- (arg_text_fun _ _ _ T0 T). auto. Qed.
Lemma safe_right n a w p t : safe_in n (ARight a w p) -> arg_text a t ->
  safe_in n a /\ (n <= len t \/ w <= n \/ w <= n + len t /\ safe_in (n + len t - w) a).
Proof. intros H T. inversion H as [? ? S| |? ? t0 ? ? ? T0]; subst; [destruct S|]. rewrite <- (arg_text_fun _ _ _ T0 T). auto. Qed.

Lemma to_chars_small dbg a t : arg_text a t -> forall m b, vin b m -> vl b < 2 ^ 64 -> safe_in (vl b) a -> vl b < len t ->
  exists m', to_chars dbg m b a = Ok (m', len t) /\ same_outside m m' b.
Proof.
  induction 1; intros m b Hb H64 Hs Hl; cbn [to_chars].
  - apply to_chars_str_small; auto.
  - apply to_chars_str_small; auto.
  - change (len [c]) with 1 in *. unfold to_chars_char. replace (0 <? vl b) with false by lia. eauto using same_outside_refl.
  - assert (len (s2z (if v then "1" else "0")) = 1) as L by (destruct v; reflexivity). rewrite L in *.
    rewrite to_chars_bool_ok by auto. replace (0 <? vl b) with false by lia. eauto using same_outside_refl.
  - apply to_chars_str_small; auto.
  - erewrite to_chars_int_small; eauto using same_outside_refl.
  - apply to_chars_radix_small; auto.
  - apply to_chars_nd_small; auto.
  - apply (to_chars_radix_small i64 m b p Hex); auto.
  - rewrite encode_ok by auto. eexists. rewrite <- rfc_len. split; [reflexivity|]. apply stored_outside; auto.
  - destruct (safe_left _ _ _ _ _ Hs H) as [S C]. rewrite len_app, len_repeat in *.
    pose proof (len_nonneg t).
    assert (exists m', to_chars dbg m b a = Ok (m', len t) /\ same_outside m m' b) as (m' & E & O).
    { destruct (Z.leb_spec (len t) (vl b)).
      - rewrite (to_chars_fits dbg a t) by auto. eexists; split; [reflexivity|]. apply same_outside_blit; auto.
      - auto. }
    rewrite E. cbn [bind]. exists m'. split; auto. replace ((vl b <=? len t) || (w <=? len t)) with true by lia.
    f_equal. f_equal. destruct (Z.ltb_spec w (len t)); lia.
  - destruct (safe_right _ _ _ _ _ Hs H) as [S C]. rewrite len_app, len_repeat in *.
    pose proof (len_nonneg t).
    assert (exists m', to_chars dbg m b a = Ok (m', len t) /\ same_outside m m' b) as (m' & E & O).
    { destruct (Z.leb_spec (len t) (vl b)).
      - rewrite (to_chars_fits dbg a t) by auto. eexists; split; [reflexivity|]. apply same_outside_blit; auto.
      - auto. }
    rewrite E. cbn [bind]. destruct ((vl b <=? len t) || (w <=? len t)) eqn:Q.
    { exists m'. split; auto. f_equal. f_equal. destruct (Z.ltb_spec w (len t)); lia. }
    assert (w <= vl b + len t /\ safe_in (vl b + len t - w) a) as [C1 C2] by (destruct C as [C|[C|C]]; auto; lia).
    destruct (outside_vin _ _ _ _ O Hb) as (B1 & B2 & B3).
    rewrite u64_id by lia. unfold first_d, dassert, npos. replace (w - len t <=? vl b) with true by lia. cbn [orb].
    rewrite orb_true_r. replace (if w - len t =? 2 ^ 64 - 1 then vl b else w - len t) with (w - len t) by (destruct (Z.eqb_spec (w - len t) (2 ^ 64 - 1)); lia).
      cbn [bind vl].
    unfold fill_v. set (p := repeat pad (Z.to_nat (w - len t))). assert (LP : len p = w - len t) by (unfold p; rewrite len_repeat; lia).
    rewrite wrs_ok by lia. cbn [bind]. unfold sub_d, dassert. replace (w - len t <=? vl b) with true by lia. rewrite u64_id by lia.
      rewrite orb_true_r.
    cbn [bind vl vo].
    assert (LB2 : len (blit m' (vo b) p) = len m') by (rewrite len_blit; lia).
    destruct (IHarg_text (blit m' (vo b) p) (View (vo b + (w - len t)) (vl b - (w - len t)))) as (m2 & E2 & O2); cbn [vl vo].
    { unfold vin; cbn [vo vl]; lia. } { lia. } { replace (vl b - (w - len t)) with (vl b + len t - w) by lia; auto. } { lia. }
    rewrite E2. cbn [bind]. exists m2. split; [f_equal; f_equal; lia|].
    apply (outside_trans _ m'); auto. apply (outside_trans _ (blit m' (vo b) p)).
    + apply same_outside_blit; [unfold vin; lia|lia].
    + eapply outside_sub; [exact O2| |]; cbn [vo vl]; lia.
Qed.
Lemma safe_in_0 a t : arg_text a t -> safe_in 0 a.
Proof.
  induction 1; try (apply si_simple; exact I).
  - eapply si_left; eauto. left. apply len_nonneg.
  - eapply si_right; eauto. left. apply len_nonneg.
Qed.
