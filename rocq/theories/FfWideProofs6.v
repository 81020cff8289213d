(** Integers of wide characters are read as their twins of bytes. *)
From Verif Require Import Base BaseLemmas FloatTable FloatModel FloatSpec CharconvSpec FfOptModel FfIntModel FfIntSpec FfWideModel FfWideSpec.
From Verif Require Import FloatProofs10 FfIntProofs FfIntProofs2 FfWideProofs FfWideProofs2 FfWideProofs3 FfWideProofs4 FfWideProofs5.
From Coq Require Import Lia.
Open Scope Z_scope.

Definition alnum (c : Z) : bool := (48 <=? c) && (c <=? 57) || (65 <=? c) && (c <=? 90) || (97 <=? c) && (c <=? 122).
Lemma ch_to_digit_none c : is_byte c -> alnum c = false -> ch_to_digit c = 255.
Proof.
  intros B A. assert (H : forallb (fun n => alnum (Z.of_nat n) || (ch_to_digit (Z.of_nat n) =? 255)) (seq 0 256) = true) by (vm_compute; reflexivity).
  rewrite forallb_forall in H. unfold is_byte in B. specialize (H (Z.to_nat c)). rewrite Z2Nat.id in H by lia. rewrite A in H. cbn [orb] in H.
  apply Z.eqb_eq, H, in_seq. lia.
Qed.
Lemma alnum_low c : 128 <= c -> alnum c = false. Proof. unfold alnum. lia. Qed.
Lemma digit_twin dot dot' c c' : twin dot dot' c c' -> is_byte c \/ ~ letter (c mod 256) /\ ~ dig (c mod 256) -> ch_to_digit_w c = ch_to_digit c'.
Proof.
  intros [B [A _]] N. unfold ch_to_digit_w. change (2 ^ 8) with 256. unfold ascii in A.
  destruct (Z.lt_ge_cases c' 128) as [C|C].
  - assert (c = c') by (apply A; right; unfold is_byte in B; lia). subst. unfold is_byte in B. rewrite Z.mod_small by lia. reflexivity.
  - rewrite (ch_to_digit_none c' B (alnum_low c' C)). apply ch_to_digit_none; [apply Z.mod_pos_bound; lia|].
    destruct N as [N|[N1 N2]].
    + unfold is_byte in N. rewrite Z.mod_small by lia. apply alnum_low. destruct (Z.lt_ge_cases c 128); [exfalso; assert (c = c') by (apply A; lia); lia|assumption].
    + unfold letter in N1. change (ch "a") with 97 in N1. change (ch "z") with 122 in N1. change (ch "A") with 65 in N1. change (ch "Z") with 90 in N1. rewrite dig_range in N2.
      unfold alnum. lia.
Qed.
Lemma skip0_twins dot dot' s s' : twins dot dot' s s' -> twins dot dot' (skip_char0 s) (skip_char0 s') /\ tails s s' (skip_char0 s) (skip_char0 s').
Proof.
  induction 1 as [|c c' s s' C T [IH1 IH2]]; [split; [constructor|apply tails_refl]|]. cbn [skip_char0].
  rewrite <- (twin_eqb _ _ _ _ (ch "0") C) by (split; reflexivity || discriminate). destruct (c =? ch "0").
  - split; [exact IH1|now apply tails_cons].
  - split; [now constructor|apply tails_refl].
Qed.
Lemma int_loop_twins dot dot' b s s' i : twins dot dot' s s' -> no_lookalikes s -> exists r r' m,
  int_loop_w b s i = (r, m) /\ int_loop b s' i = (r', m) /\ twins dot dot' r r' /\ tails s s' r r'.
Proof.
  intros T. revert i. induction T as [|c c' s s' C T IH]; intros i N.
  - exists [], [], i. repeat split; [constructor|apply tails_refl].
  - unfold no_lookalikes in N. apply Forall_cons_iff in N. destruct N as [NC N]. cbn [int_loop_w int_loop]. rewrite (digit_twin _ _ _ _ C NC).
    destruct (b <=? ch_to_digit c').
    + exists (c :: s), (c' :: s'), i. repeat split; [now constructor|apply tails_refl].
    + destruct (IH (u64 (b * i + ch_to_digit c')) N) as [r [r' [m [A [B [TR TL]]]]]]. exists r, r', m. repeat split; try assumption. now apply tails_cons.
Qed.
Lemma ch_to_digit_dig c : dig c -> ch_to_digit c = c - ch "0".
Proof.
  intros D. rewrite dig_range in D. rewrite ch0.
  assert (c = 48 \/ c = 49 \/ c = 50 \/ c = 51 \/ c = 52 \/ c = 53 \/ c = 54 \/ c = 55 \/ c = 56 \/ c = 57) by lia. intuition subst; reflexivity.
Qed.
Lemma int_loop_digs d r i : digs d -> 0 <= i < 2 ^ 64 -> int_loop 10 (d ++ r) i = int_loop 10 r (u64 (i * 10 ^ len d + dec d)).
Proof.
  intros D. revert i. induction D as [|c d C D IH]; intros i I.
  - cbn [app]. rewrite dec_nil. change (len []) with 0. rewrite Z.mul_1_r, Z.add_0_r, u64_id by exact I. reflexivity.
  - cbn [app int_loop]. rewrite ch_to_digit_dig by exact C. assert (K := C). rewrite dig_range in K. rewrite ch0 at 1.
    replace (10 <=? c - 48) with false by lia. rewrite IH by apply u64_range. f_equal. rewrite u64_lin. f_equal.
    rewrite dec_cons, len_cons, Z.pow_add_r by (try apply len_nonneg; lia). change (10 ^ 1) with 10. ring.
Qed.
Lemma int_loop_w_digs d r i : digs d -> 0 <= i < 2 ^ 64 -> int_loop_w 10 (d ++ r) i = int_loop_w 10 r (u64 (i * 10 ^ len d + dec d)).
Proof.
  intros D. revert i. induction D as [|c d C D IH]; intros i I.
  - cbn [app]. rewrite dec_nil. change (len []) with 0. rewrite Z.mul_1_r, Z.add_0_r, u64_id by exact I. reflexivity.
  - cbn [app int_loop_w]. assert (K := C). rewrite dig_range in K. unfold ch_to_digit_w at 1 2. rewrite Z.mod_small by lia. rewrite ch_to_digit_dig by exact C. rewrite ch0 at 1.
    replace (10 <=? c - 48) with false by lia. rewrite IH by apply u64_range. f_equal. rewrite u64_lin. f_equal.
    rewrite dec_cons, len_cons, Z.pow_add_r by (try apply len_nonneg; lia). change (10 ^ 1) with 10. ring.
Qed.
Lemma u64_more d1 d2 : u64 (u64 (0 * 10 ^ len d1 + dec d1) * 10 ^ len d2 + dec d2) = u64 (dec (d1 ++ d2)).
Proof. rewrite u64_lin. f_equal. rewrite dec_app. ring. Qed.
Lemma loops_twins dot dot' u b s s' : fits u s -> twins dot dot' s s' -> no_lookalikes s -> exists r r' m,
  (let '(p, i) := if b =? 10 then loop8_w u s 0 else (s, 0) in int_loop_w b p i) = (r, m) /\
  (let '(p, i) := if b =? 10 then loop_parse_if_eight_digits s' 0 else (s', 0) in int_loop b p i) = (r', m) /\ tails s s' r r'.
Proof.
  intros F T N. destruct (Z.eqb_spec b 10) as [->|NB].
  - destruct (twins_span dot dot' s s' T) as [d [r [r' [-> [-> [D [R [R' TR]]]]]]]].
    destruct (loop8_w_spec u d r 0 F D R ltac:(lia)) as [d1 [d2 [E ->]]].
    destruct (loop8_spec d r' 0 (twins_bytes _ _ _ _ T) D R' ltac:(lia)) as [e1 [e2 [E' ->]]].
    assert (D2 : digs d2) by (rewrite E in D; apply digs_app in D; apply D). assert (E2 : digs e2) by (rewrite E' in D; apply digs_app in D; apply D).
    rewrite int_loop_w_digs, int_loop_digs by (assumption || apply u64_range). rewrite !u64_more, <- E, <- E'.
    assert (NR : no_lookalikes r) by (unfold no_lookalikes in *; apply Forall_app in N; apply N).
    destruct (int_loop_twins dot dot' 10 r r' (u64 (dec d)) TR NR) as [q [q' [m [-> [-> [_ TL]]]]]].
    exists q, q', m. repeat split. apply tails_app; [reflexivity|exact TL].
  - destruct (int_loop_twins dot dot' b s s' 0 T N) as [q [q' [m [-> [-> [_ TL]]]]]]. exists q, q', m. repeat split. exact TL.
Qed.
Lemma tails_len s s' r r' : length s = length s' -> tails s s' r r' -> len r = len r'.
Proof. intros E [k [k' [-> [-> L]]]]. rewrite !app_length in E. unfold len. lia. Qed.
Lemma int_twins dot dot' u t s s' b : fits u s -> twins dot dot' s s' -> no_lookalikes s ->
  same_answer s s' (from_chars_int_w u t s b) (from_chars_int t s' b).
Proof.
  intros F T N. assert (NO : same_answer s s' (Ok (FFRes s EInvalid None)) (Ok (FFRes s' EInvalid None))) by (repeat split; apply tails_refl).
  destruct T as [|c c' s s' C T]; [exact NO|]. unfold from_chars_int_w, from_chars_int. destruct (_ || _); [exact NO|].
  unfold parse_int_string_w, parse_int_string.
  rewrite <- (twin_eqb _ _ _ _ (ch "-") C) by (split; reflexivity || discriminate). set (neg := c =? ch "-").
  destruct (negb (isgn t) && neg); [exact NO|].
  remember (if neg then s else c :: s) as p eqn:P. remember (if neg then s' else c' :: s') as p' eqn:P'.
  assert (TP : twins dot dot' p p') by (rewrite P, P'; destruct neg; [exact T|now constructor]).
  assert (LP : tails (c :: s) (c' :: s') p p') by (rewrite P, P'; destruct neg; [apply tails_cons|]; apply tails_refl).
  assert (NP : no_lookalikes p) by (rewrite P; destruct neg; [now apply Forall_inv_tail in N|exact N]).
  assert (FP : fits u p) by (rewrite P; destruct neg; [now apply Forall_inv_tail in F|exact F]).
  generalize dependent (c :: s). generalize dependent (c' :: s'). intros q' P' q F N NO P LP. clear P P' F N.
  destruct (skip0_twins dot dot' p p' TP) as [TS LS].
  assert (ES : exists z, p = z ++ skip_char0 p) by (destruct LS as [k [k' [E _]]]; now exists k).
  assert (NS : no_lookalikes (skip_char0 p)) by (destruct ES as [z E]; unfold no_lookalikes in *; rewrite E in NP; apply Forall_app in NP; apply NP).
  assert (FS : fits u (skip_char0 p)) by (destruct ES as [z E]; unfold fits in *; rewrite E in FP; apply Forall_app in FP; apply FP).
  assert (LQ : tails q q' (skip_char0 p) (skip_char0 p')) by (eapply tails_trans; eassumption).
  cbv zeta. rewrite <- (twins_len _ _ _ _ TS), <- (twins_len _ _ _ _ TP). clear LS ES.
  assert (LL := twins_length _ _ _ _ TS). set (s0 := skip_char0 p) in *. set (s0' := skip_char0 p') in *.
  destruct (loops_twins dot dot' u b s0 s0' FS TS NS) as [r [r' [m [A [B TL]]]]].
  assert (LR := tails_len _ _ _ _ LL TL). assert (TR := tails_trans _ _ _ _ _ _ LQ TL).
  destruct (if b =? 10 then loop8_w u s0 0 else (s0, 0)) as [p1 i1]. destruct (if b =? 10 then loop_parse_if_eight_digits s0' 0 else (s0', 0)) as [p2 i2].
  rewrite A, B, <- LR.
  assert (END : forall ec v, same_answer q q' (Ok (FFRes r ec v)) (Ok (FFRes r' ec v))) by (intros ec v; repeat split; exact TR).
  destruct (_ =? 0); [destruct (_ <? _); [apply END|exact NO]|].
  destruct (_ <? _); [apply END|]. destruct (_ && _); [apply END|]. destruct (_ <? _); [apply END|].
  destruct (if neg then negate t m else Ok (wrap t m)); cbn [bind]; [apply END|exact I|exact I].
Qed.
Lemma char_digit_ascii c x : char_digit c = Some x -> ascii c.
Proof. unfold char_digit, ascii. destruct ((48 <=? c) && _) eqn:A; [lia|]. destruct ((97 <=? c) && _) eqn:B; [lia|]. destruct ((65 <=? c) && _) eqn:D; [lia|discriminate]. Qed.
Lemma number_at_twins dot dot' t b s s' v r : twins dot dot' s s' -> number_at t b s v r ->
  exists k r', s' = k ++ r' /\ length s = (length k + length r)%nat /\ number_at t b s' v r'.
Proof.
  assert (DT : forall d v d', digit_text b d v -> twins dot dot' d d' -> d' = d).
  { intros d w d' [_ [ds [H _]]] T. apply (twins_ascii _ _ _ _ T). clear T. induction H as [|c x d ds [C _] H IH]; constructor; [now apply (char_digit_ascii c x)|exact IH]. }
  assert (EN : forall r r', twins dot dot' r r' -> ends_digits b r -> ends_digits b r').
  { intros r0 r0' [|c c' q q' C T]; [trivial|]. cbn [ends_digits]. intros H x X. apply H. rewrite <- X. f_equal. apply C. right. now apply (char_digit_ascii c' x). }
  intros T N. destruct N as [d v r D E|d v r G D E].
  - apply Forall2_app_inv_l in T. destruct T as [d' [r' [TD [TR ->]]]]. rewrite (DT d v d' D TD). exists d, r'. rewrite app_length. repeat split. constructor; [exact D|now apply (EN r)].
  - inversion T as [|c c' q q' C Q]; subst. apply Forall2_app_inv_l in Q. destruct Q as [d' [r' [TD [TR ->]]]]. rewrite (DT d v d' D TD).
    assert (c' = ch "-") by (symmetry; apply C; left; split; discriminate || reflexivity). subst c'. exists (ch "-" :: d), r'. cbn [length]. rewrite app_length. repeat split.
    constructor; [exact G|exact D|now apply (EN r)].
Qed.
Lemma number_at_rest t b s v r : number_at t b s v r -> exists k, s = k ++ r.
Proof. intros [d w q _ _|d w q _ _ _]; [now exists d|now exists (ch "-" :: d)]. Qed.
Lemma wide_int_reads u t b s v r : 2 <= b <= 36 -> fits u s -> no_lookalikes s -> number_at t b s v r -> in_range t v ->
  from_chars_int_w u t s b = Ok (FFRes r EOk (Some v)).
Proof.
  intros B F N A R. assert (T := twins_narrow (ch ".") s). set (s' := map _ s) in *. set (dot' := narrow_dot _) in *.
  destruct (number_at_twins _ _ t b s s' v r T A) as [k [r' [E [L A']]]].
  assert (RD := FfIntProofs2.reads t b s' v r' B (twins_bytes _ _ _ _ T) A' R).
  assert (S := int_twins _ _ u t s s' b F T N). rewrite RD in S.
  destruct (from_chars_int_w u t s b) as [[q ec w]| |]; try contradiction. cbn [same_answer r_ec r_value r_rest] in S.
  destruct S as [-> [-> [k1 [k2 [E1 [E2 LK]]]]]].
  assert (k2 = k) by (apply (app_inv_tail r'); congruence). subst k2.
  destruct (number_at_rest t b s v r A) as [k0 E0].
  assert (LS : length s = (length k0 + length r)%nat) by (rewrite E0 at 1; apply app_length).
  destruct (app_same_length k0 r k1 q) as [_ ->]; [congruence|lia|reflexivity].
Qed.
