(** The parts of fast_float that look at the size of the characters. *)
From Verif Require Import Base BaseLemmas FloatTable FloatModel FloatSpec FfWideModel FfWideSpec.
From Verif Require Import FloatProofs1 FloatProofs2 FloatProofs6 FloatProofs10 FloatProofs11 FloatProofs12.
From Coq Require Import Lia.
Open Scope Z_scope.

Definition fits (u : uct) (s : list Z) : Prop := Forall (ufits u) s.

(** ** Eight digits *)
Lemma packus_small c : 0 <= c < 256 -> packus c = c.
Proof.
  intros C. unfold packus. assert (E : wrap i16 c = c) by (apply wrap_id; change (-32768 <= c <= 32767); lia). rewrite E.
  replace (c <? 0) with false by lia. now replace (255 <? c) with false by lia.
Qed.
Lemma word8_le l : Forall (fun c => 0 <= c < 256) l -> word_of 8 l = le l.
Proof. induction 1 as [|c l C L IH]; [reflexivity|]. cbn [word_of le]. rewrite IH. change (2 ^ 8) with 256. rewrite Z.mod_small by exact C. reflexivity. Qed.
Lemma digs_small l : digs l -> Forall (fun c => 0 <= c < 256) l.
Proof. intros D. eapply Forall_impl; [|exact D]. intros c C. rewrite dig_range in C. lia. Qed.
Lemma map_same (g : Z -> Z) l : Forall (fun c => g c = c) l -> map g l = l.
Proof. induction 1 as [|c l C L IH]; [reflexivity|]. cbn [map]. now rewrite C, IH. Qed.
Lemma simd_read s l : s <> NoSimd -> digs l -> simd_read8_to_u64 s l = le l.
Proof.
  intros S D. assert (B := digs_small l D). destruct s; [contradiction| |]; cbn [simd_read8_to_u64]; rewrite map_same.
  - now apply word8_le.
  - eapply Forall_impl; [|exact B]. intros c C. now apply packus_small.
  - now apply word8_le.
  - eapply Forall_impl; [|exact B]. intros c C. now apply Z.mod_small.
Qed.
Lemma parse_eight_le c0 c1 c2 c3 c4 c5 c6 c7 : digs [c0; c1; c2; c3; c4; c5; c6; c7] ->
  parse_eight_digits_unrolled (le [c0; c1; c2; c3; c4; c5; c6; c7]) = dec [c0; c1; c2; c3; c4; c5; c6; c7].
Proof. intros D. rewrite <- read8_le. now apply parse_eight. Qed.
Lemma parse_eight_w u c0 c1 c2 c3 c4 c5 c6 c7 : digs [c0; c1; c2; c3; c4; c5; c6; c7] ->
  parse_eight_digits_w u [c0; c1; c2; c3; c4; c5; c6; c7] = dec [c0; c1; c2; c3; c4; c5; c6; c7].
Proof.
  intros D. rewrite <- parse_eight_le by exact D. unfold parse_eight_digits_w, read8_to_u64. f_equal.
  assert (W := word8_le _ (digs_small _ D)).
  destruct u as [[]| | |]; try exact W; apply simd_read; try discriminate; exact D.
Qed.
Lemma sse_lane c : 0 <= c < 2 ^ 16 -> (-32759 <? wrap i16 (c + 32720)) = negb (is_integer c).
Proof.
  intros C. unfold is_integer. rewrite ch0, ch9, negb_involutive. unfold wrap. cbn [isgn iw bits i16 andb].
  change (2 ^ 16) with 65536 in *. change (2 ^ (16 - 1)) with 32768.
  destruct (Z.lt_ge_cases c 48) as [A|A].
  - rewrite Z.mod_small by lia. destruct (Z.leb_spec 32768 (c + 32720)); lia.
  - destruct (Z.lt_ge_cases (c + 32720) 65536) as [B|B].
    + rewrite Z.mod_small by lia. destruct (Z.leb_spec 32768 (c + 32720)); lia.
    + replace ((c + 32720) mod 65536) with (c + 32720 - 65536) by (apply (Z.mod_unique _ _ 1); lia).
      destruct (Z.leb_spec 32768 (c + 32720 - 65536)); lia.
Qed.
Lemma neon_lane c : 0 <= c < 2 ^ 16 -> ((c - ch "0") mod 2 ^ 16 <? ch "9" - ch "0" + 1) = is_integer c.
Proof.
  intros C. unfold is_integer. rewrite ch0, ch9. change (2 ^ 16) with 65536 in *. destruct (Z.lt_ge_cases c 48) as [A|A].
  - replace ((c - 48) mod 65536) with (c - 48 + 65536) by (apply (Z.mod_unique _ _ (-1)); lia). lia.
  - rewrite Z.mod_small by lia. lia.
Qed.
Lemma movemask_bounds l : 0 <= movemask l.
Proof. induction l as [|t l IH]; cbn [movemask]; [lia|]. destruct (Z.testbit t 7), (Z.testbit t 15); lia. Qed.
Lemma sse_test l : Forall (fun c => 0 <= c < 2 ^ 16) l ->
  (movemask (map (fun t => if -32759 <? t then 0xFFFF else 0) (map (fun c => wrap i16 (c + 32720)) l)) =? 0) = forallb is_integer l.
Proof.
  induction 1 as [|c l C L IH]; [reflexivity|]. cbn [map movemask forallb]. rewrite <- IH, sse_lane by exact C.
  set (m := movemask _). assert (M : 0 <= m) by apply movemask_bounds.
  destruct (is_integer c); cbn [negb andb].
  - change (Z.testbit 0 7) with false. change (Z.testbit 0 15) with false. destruct (Z.eqb_spec m 0); lia.
  - change (Z.testbit 65535 7) with true. change (Z.testbit 65535 15) with true. lia.
Qed.
Lemma minv_bounds l : Forall (fun t => 0 <= t) l -> 0 <= minv l <= 0xFFFF.
Proof. induction 1 as [|t l T L IH]; cbn [minv]; lia. Qed.
Lemma neon_test l : Forall (fun c => 0 <= c < 2 ^ 16) l ->
  (minv (map (fun t => if t <? ch "9" - ch "0" + 1 then 0xFFFF else 0) (map (fun c => (c - ch "0") mod 2 ^ 16) l)) =? 0xFFFF) = forallb is_integer l.
Proof.
  induction 1 as [|c l C L IH]; [reflexivity|]. cbn [map minv forallb]. rewrite <- IH, neon_lane by exact C.
  set (m := minv _). assert (M : 0 <= m <= 0xFFFF).
  { apply minv_bounds. apply Forall_map. apply Forall_forall. intros t _. destruct (t <? _); lia. }
  destruct (is_integer c); cbn [andb]; [|lia]. rewrite Z.min_r by lia. reflexivity.
Qed.
Lemma integers_digs l : forallb is_integer l = true <-> digs l.
Proof. induction l as [|c l IH]; [split; [constructor|reflexivity]|]. cbn [forallb]. now rewrite andb_true_iff, IH, is_integer_dig, digs_cons. Qed.
Lemma simd_parse_is s c0 c1 c2 c3 c4 c5 c6 c7 i : s <> NoSimd -> let l := [c0; c1; c2; c3; c4; c5; c6; c7] in
  Forall (fun c => 0 <= c < 2 ^ 16) l ->
  simd_parse_if_eight_digits (C16 s) l i = if forallb is_integer l then Some (u64 (i * 100000000 + dec l)) else None.
Proof.
  intros S l F. assert (H : forallb is_integer l = true -> parse_eight_digits_unrolled (simd_read8_to_u64 s l) = dec l).
  { intros D. apply integers_digs in D. rewrite simd_read by assumption. now apply parse_eight_le. }
  destruct s; [contradiction| |]; cbn [simd_parse_if_eight_digits]; [rewrite sse_test by exact F|rewrite neon_test by exact F];
    destruct (forallb is_integer l); try reflexivity; now rewrite H.
Qed.
Lemma simd_parse_some u c0 c1 c2 c3 c4 c5 c6 c7 i j : let l := [c0; c1; c2; c3; c4; c5; c6; c7] in fits u l ->
  simd_parse_if_eight_digits u l i = Some j -> digs l /\ j = u64 (i * 100000000 + dec l).
Proof.
  intros l F H. destruct u as [s| | |]; try discriminate. destruct s; [discriminate| |];
    (rewrite (simd_parse_is _ c0 c1 c2 c3 c4 c5 c6 c7 i) in H; [|discriminate|exact F]; fold l in H;
     destruct (forallb is_integer l) eqn:E; [|discriminate]; injection H as <-; split; [now apply integers_digs|reflexivity]).
Qed.
Lemma loop8_w_spec u d r i : fits u (d ++ r) -> digs d -> stops r -> 0 <= i < 2 ^ 64 -> exists d1 d2, d = d1 ++ d2 /\
  loop8_w u (d ++ r) i = (d2 ++ r, u64 (i * 10 ^ len d1 + dec d1)).
Proof.
  remember (length d) as n eqn:N. revert d N i. induction n as [n IH] using lt_wf_ind. intros d N i BY D R I.
  assert (STOP : loop8_w u (d ++ r) i = (d ++ r, i) -> exists d1 d2, d = d1 ++ d2 /\
    loop8_w u (d ++ r) i = (d2 ++ r, u64 (i * 10 ^ len d1 + dec d1))).
  { intros H. exists [], d. split; [reflexivity|]. rewrite H. f_equal. change (len []) with 0. rewrite dec_nil, Z.mul_1_r, Z.add_0_r, u64_id by exact I. reflexivity. }
  remember (d ++ r) as p eqn:P.
  destruct p as [|c0 [|c1 [|c2 [|c3 [|c4 [|c5 [|c6 [|c7 p]]]]]]]]; try (apply STOP; reflexivity).
  destruct (simd_parse_if_eight_digits u [c0; c1; c2; c3; c4; c5; c6; c7] i) as [j|] eqn:E.
  - unfold fits in BY. apply (Forall_app (ufits u) [c0; c1; c2; c3; c4; c5; c6; c7] p) in BY. destruct BY as [BY8 BYP].
    destruct (simd_parse_some _ _ _ _ _ _ _ _ _ _ _ BY8 E) as [D8 J].
    destruct (digs_prefix [c0; c1; c2; c3; c4; c5; c6; c7] d r p D8 D R) as [d' [D' P']]; [now symmetry|].
    subst p. cbn [loop8_w]. rewrite E.
    assert (DD : digs d') by (rewrite D' in D; apply digs_app in D; apply D).
    destruct (IH (length d')) with (d := d') (i := j) as [d1 [d2 [S L]]]; try assumption.
    { rewrite N, D', app_length. cbn [length]. lia. }
    { reflexivity. }
    { rewrite J. apply u64_range. }
    rewrite L, J. exists ([c0; c1; c2; c3; c4; c5; c6; c7] ++ d1), d2. split; [rewrite D', S, app_assoc; reflexivity|]. f_equal.
    rewrite u64_lin. f_equal. rewrite dec_app, len_app, Z.pow_add_r by apply len_nonneg.
    change (10 ^ len [c0; c1; c2; c3; c4; c5; c6; c7]) with 100000000. ring.
  - apply STOP. cbn [loop8_w]. now rewrite E.
Qed.
Lemma fraction_loops_w u d r i : fits u (d ++ r) -> digs d -> stops r -> 0 <= i < 2 ^ 64 ->
  (let '(p, i) := loop8_w u (d ++ r) i in digit_loop p i) = (r, u64 (i * 10 ^ len d + dec d)).
Proof.
  intros BY D R I. destruct (loop8_w_spec u d r i BY D R I) as [d1 [d2 [E ->]]]. subst d. apply digs_app in D.
  rewrite digit_loop_spec; [|apply D|exact R|apply u64_range]. f_equal. rewrite u64_lin. f_equal.
  rewrite dec_app, len_app, Z.pow_add_r by apply len_nonneg. ring.
Qed.

(** ** Zeros *)
Lemma unit_inj u w c : ufits u c -> usize u * 8 = w -> c mod 2 ^ w = ch "0" -> c = ch "0".
Proof.
  intros F S E. rewrite ch0 in *. destruct u as [s| | |]; cbn [usize ufits] in *; subst w; change (2 * 8) with 16 in *; change (4 * 8) with 32 in *.
  - rewrite Z.mod_small in E by exact F. exact E.
  - rewrite Z.mod_small in E by exact F. exact E.
  - rewrite Z.mod_small in E by exact F. exact E.
  - change (2 ^ 31) with 2147483648 in F. change (2 ^ 32) with 4294967296 in E.
    destruct (Z.lt_ge_cases c 0) as [N|N].
    + replace (c mod 4294967296) with (c + 4294967296) in E by (apply (Z.mod_unique _ _ (-1)); lia). lia.
    + rewrite Z.mod_small in E by lia. exact E.
Qed.
Lemma unit_bounds w c : 0 <= w -> 0 <= c mod 2 ^ w < 2 ^ w.
Proof. intros W. apply Z.mod_pos_bound. apply Z.pow_pos_nonneg; lia. Qed.
Lemma zeros2_spec u c0 c1 c2 c3 : usize u = 2 -> fits u [c0; c1; c2; c3] ->
  ((word_of 16 [c0; c1; c2; c3] =? int_cmp_zeros u) = true <-> zeros [c0; c1; c2; c3]).
Proof.
  intros S F. unfold fits in F. rewrite !Forall_cons_iff in F. destruct F as [F0 [F1 [F2 [F3 _]]]].
  unfold int_cmp_zeros. rewrite S. cbn [Z.eqb Pos.eqb]. change (Z.lor _ _) with 0x0030003000300030. cbn [word_of].
  assert (B0 := unit_bounds 16 c0 ltac:(lia)). assert (B1 := unit_bounds 16 c1 ltac:(lia)). assert (B2 := unit_bounds 16 c2 ltac:(lia)). assert (B3 := unit_bounds 16 c3 ltac:(lia)).
  unfold zeros. rewrite !Forall_cons_iff. split.
  - intros E. apply Z.eqb_eq in E.
    assert (I : forall c, ufits u c -> c mod 2 ^ 16 = 48 -> c = ch "0") by (intros c C M; apply (unit_inj u 16); [exact C|lia|exact M]).
    change (2 ^ 16) with 65536 in *. repeat split; try (apply I; [assumption|lia]). constructor.
  - intros [-> [-> [-> [-> _]]]]. reflexivity.
Qed.
Lemma zeros4_spec u c0 c1 : usize u = 4 -> fits u [c0; c1] ->
  ((word_of 32 [c0; c1] =? int_cmp_zeros u) = true <-> zeros [c0; c1]).
Proof.
  intros S F. unfold fits in F. rewrite !Forall_cons_iff in F. destruct F as [F0 [F1 _]].
  unfold int_cmp_zeros. rewrite S. cbn [Z.eqb Pos.eqb]. change (Z.lor _ _) with 0x0000003000000030. cbn [word_of].
  assert (B0 := unit_bounds 32 c0 ltac:(lia)). assert (B1 := unit_bounds 32 c1 ltac:(lia)).
  unfold zeros. rewrite !Forall_cons_iff. split.
  - intros E. apply Z.eqb_eq in E.
    assert (I : forall c, ufits u c -> c mod 2 ^ 32 = 48 -> c = ch "0") by (intros c C M; apply (unit_inj u 32); [exact C|lia|exact M]).
    change (2 ^ 32) with 4294967296 in *. repeat split; try (apply I; [assumption|lia]). constructor.
  - intros [-> [-> _]]. reflexivity.
Qed.
Lemma skip1_zeros z s : zeros z -> skip_zeros1 (z ++ s) = skip_zeros1 s.
Proof. induction 1 as [|c z C Z IH]; [reflexivity|]. cbn [app skip_zeros1]. now replace (c =? ch "0") with true by lia. Qed.
Lemma skip_w_is u p : fits u p -> skip_zeros_w u p = skip_zeros1 p.
Proof.
  intros F. unfold skip_zeros_w. destruct (Z.eqb_spec (usize u) 2) as [S|S].
  - remember (length p) as n eqn:N. revert p N F. induction n as [n IH] using lt_wf_ind. intros p N F.
    destruct p as [|c0 [|c1 [|c2 [|c3 p]]]]; try reflexivity. cbn [skip_zeros_2].
    unfold fits in F. apply (Forall_app (ufits u) [c0; c1; c2; c3] p) in F. destruct F as [F4 F].
    assert (Q := zeros2_spec u c0 c1 c2 c3 S F4). destruct (word_of 16 [c0; c1; c2; c3] =? int_cmp_zeros u); [|reflexivity]. cbn [negb].
    rewrite (IH (length p)); [|rewrite N; cbn [length]; lia|reflexivity|exact F].
    change (c0 :: c1 :: c2 :: c3 :: p) with ([c0; c1; c2; c3] ++ p). rewrite skip1_zeros by now apply Q. reflexivity.
  - assert (S4 : usize u = 4) by (destruct u; cbn in *; congruence).
    remember (length p) as n eqn:N. revert p N F. induction n as [n IH] using lt_wf_ind. intros p N F.
    destruct p as [|c0 [|c1 p]]; try reflexivity. cbn [skip_zeros_4].
    unfold fits in F. apply (Forall_app (ufits u) [c0; c1] p) in F. destruct F as [F4 F].
    assert (Q := zeros4_spec u c0 c1 S4 F4). destruct (word_of 32 [c0; c1] =? int_cmp_zeros u); [|reflexivity]. cbn [negb].
    rewrite (IH (length p)); [|rewrite N; cbn [length]; lia|reflexivity|exact F].
    change (c0 :: c1 :: p) with ([c0; c1] ++ p). rewrite skip1_zeros by now apply Q. reflexivity.
Qed.
Lemma truncated_w_spec u p : fits u p -> (is_truncated_w u p = false <-> zeros p).
Proof.
  intros F. unfold is_truncated_w. destruct (Z.eqb_spec (usize u) 2) as [S|S].
  - remember (length p) as n eqn:N. revert p N F. induction n as [n IH] using lt_wf_ind. intros p N F.
    destruct p as [|c0 [|c1 [|c2 [|c3 p]]]]; try apply existsb_zeros. cbn [is_truncated_2].
    unfold fits in F. apply (Forall_app (ufits u) [c0; c1; c2; c3] p) in F. destruct F as [F4 F].
    assert (Q := zeros2_spec u c0 c1 c2 c3 S F4).
    change (c0 :: c1 :: c2 :: c3 :: p) with ([c0; c1; c2; c3] ++ p). rewrite zeros_app, <- Q.
    destruct (word_of 16 [c0; c1; c2; c3] =? int_cmp_zeros u); cbn [negb]; [|split; [discriminate|intros [A _]; discriminate]].
    rewrite (IH (length p)); [tauto|rewrite N; cbn [length]; lia|reflexivity|exact F].
  - assert (S4 : usize u = 4) by (destruct u; cbn in *; congruence).
    remember (length p) as n eqn:N. revert p N F. induction n as [n IH] using lt_wf_ind. intros p N F.
    destruct p as [|c0 [|c1 p]]; try apply existsb_zeros. cbn [is_truncated_4].
    unfold fits in F. apply (Forall_app (ufits u) [c0; c1] p) in F. destruct F as [F4 F].
    assert (Q := zeros4_spec u c0 c1 S4 F4).
    change (c0 :: c1 :: p) with ([c0; c1] ++ p). rewrite zeros_app, <- Q.
    destruct (word_of 32 [c0; c1] =? int_cmp_zeros u); cbn [negb]; [|split; [discriminate|intros [A _]; discriminate]].
    rewrite (IH (length p)); [tauto|rewrite N; cbn [length]; lia|reflexivity|exact F].
Qed.
