(** C122: parse_mantissa with 32-bit limbs takes the same digits. *)
From Verif Require Import Base BaseLemmas FloatTable FloatModel FloatSpec Limb32Model.
From Verif Require Import FloatProofs1 FloatProofs2 FloatProofs6 FloatProofs10 FloatProofs11 FloatProofs12.
From Verif Require Import Limb32Proofs1 Limb32Proofs2.
From Coq Require Import Lia.
Open Scope Z_scope.

(** ** Up to nine digits into a native number *)
Lemma pow9 n : 0 <= n <= 9 -> 0 < 10 ^ n < 2 ^ 32.
Proof. intros H. split; [apply pow10_pos; lia|]. apply Z.le_lt_trans with (10 ^ 9); [apply Z.pow_le_mono_r; lia|reflexivity]. Qed.
Lemma eight_loop_spec_32 maxd p u digits : digs u -> digs p -> len u <= 9 -> digits <= maxd -> exists u' v,
  p = u' ++ v /\ eight_loop_32 maxd p (dec u) (len u) digits = Acc v (dec (u ++ u')) (len (u ++ u')) (digits + len u') /\
  len (u ++ u') <= 9 /\ digits + len u' <= maxd.
Proof.
  remember (length p) as n eqn:N. revert p N u digits. induction n as [n IH] using lt_wf_ind. intros p N u digits DU D LU LD.
  assert (STOP : exists u' v, p = u' ++ v /\ Acc p (dec u) (len u) digits = Acc v (dec (u ++ u')) (len (u ++ u')) (digits + len u') /\
    len (u ++ u') <= 9 /\ digits + len u' <= maxd).
  { exists [], p. rewrite app_nil_r. change (len []) with 0. rewrite Z.add_0_r. repeat split; assumption. }
  destruct p as [|c0 [|c1 [|c2 [|c3 [|c4 [|c5 [|c6 [|c7 p]]]]]]]]; try exact STOP.
  cbn [eight_loop_32]. destruct ((8 <=? 9 - len u) && (8 <=? maxd - digits)) eqn:G; [|exact STOP].
  apply andb_true_iff in G. destruct G as [G1 G2]. apply Z.leb_le in G1, G2.
  apply (digs_app [c0; c1; c2; c3; c4; c5; c6; c7] p) in D. destruct D as [D8 D]. rewrite parse_eight by exact D8.
  set (w := [c0; c1; c2; c3; c4; c5; c6; c7]) in *.
  assert (W8 : len w = 8) by reflexivity.
  assert (DW : digs (u ++ w)) by (apply digs_app; tauto).
  assert (EQ : u32 (dec u * 100000000 + dec w) = dec (u ++ w)).
  { rewrite dec_app, W8. change (10 ^ 8) with 100000000. apply u32_id. assert (R := dec_range _ DW). rewrite dec_app, W8 in R. change (10 ^ 8) with 100000000 in R.
    rewrite len_app, W8 in R. assert (P := pow9 (len u + 8) ltac:(assert (X := len_nonneg u); lia)). lia. }
  rewrite EQ. replace (len u + 8) with (len (u ++ w)) by (rewrite len_app; lia).
  destruct (IH (length p)) with (p := p) (u := u ++ w) (digits := digits + 8) as [u' [v [E [L [L1 L2]]]]]; try assumption.
  { rewrite N. cbn [length]. lia. } { reflexivity. } { rewrite len_app. lia. } { lia. }
  exists (w ++ u'), v. rewrite <- app_assoc in *. split; [unfold w; cbn [app]; now rewrite E|]. split; [rewrite L; rewrite (len_app w), W8; f_equal; lia|].
  split; [exact L1|]. rewrite (len_app w). lia.
Qed.
Lemma one_loop_spec_32 maxd p u digits : digs u -> digs p -> len u <= 9 -> digits <= maxd -> exists u' v,
  p = u' ++ v /\ one_loop_32 maxd p (dec u) (len u) digits = Acc v (dec (u ++ u')) (len (u ++ u')) (digits + len u') /\
  len (u ++ u') <= 9 /\ digits + len u' <= maxd /\ (v = [] \/ len (u ++ u') = 9 \/ digits + len u' = maxd).
Proof.
  intros DU D. revert u digits DU. induction D as [|c p C D IH]; intros u digits DU LU LD.
  - exists [], []. rewrite !app_nil_r. change (len []) with 0. rewrite Z.add_0_r. repeat split; try assumption. now left.
  - cbn [one_loop_32]. destruct ((len u <? 9) && (digits <? maxd)) eqn:G.
    + apply andb_true_iff in G. destruct G as [G1 G2]. apply Z.ltb_lt in G1, G2.
      assert (DC : digs (u ++ [c])) by (apply digs_app; split; [exact DU|now constructor]).
      assert (LC : len (u ++ [c]) = len u + 1) by (rewrite len_app; reflexivity).
      assert (EQ : u32 (dec u * 10 + (c - ch "0")) = dec (u ++ [c])).
      { rewrite dec_snoc. rewrite (Z.mul_comm 10). apply u32_id. assert (R := dec_range _ DC). rewrite dec_snoc, LC in R.
        assert (P := pow9 (len u + 1) ltac:(assert (X := len_nonneg u); lia)). lia. }
      rewrite EQ. rewrite <- LC.
      destruct (IH (u ++ [c]) (digits + 1) DC) as [u' [v [E [L [L1 [L2 L3]]]]]]; [lia|lia|].
      rewrite <- app_assoc in *. exists ([c] ++ u'), v. split; [cbn [app]; now rewrite E|].
      assert (LL : len ([c] ++ u') = 1 + len u') by (rewrite len_app; reflexivity). rewrite LL. replace (digits + (1 + len u')) with (digits + 1 + len u') by lia.
      repeat split; assumption.
    + exists [], (c :: p). rewrite app_nil_r. change (len []) with 0. rewrite Z.add_0_r. repeat split; try assumption.
      right. apply andb_false_iff in G. destruct G as [G|G]; apply Z.ltb_ge in G; [left|right]; lia.
Qed.
Lemma chunk_spec_32 maxd p digits : digs p -> p <> [] -> digits < maxd -> exists u v,
  let a := eight_loop_32 maxd p 0 0 digits in
  let a := one_loop_32 maxd (c_p a) (c_value a) (c_counter a) (c_digits a) in
  p = u ++ v /\ a = Acc v (dec u) (len u) (digits + len u) /\ 0 < len u <= 9 /\ digits + len u <= maxd /\
  (v = [] \/ len u = 9 \/ digits + len u = maxd).
Proof.
  intros D NE LT. cbv zeta.
  destruct (eight_loop_spec_32 maxd p [] digits ltac:(constructor) D) as [u1 [v1 [E1 [L1 [L2 L3]]]]]; [change (len []) with 0; lia|lia|].
  rewrite dec_nil in L1. change (len []) with 0 in L1. rewrite L1. cbn [c_p c_value c_counter c_digits app] in *.
  assert (D1 : digs u1 /\ digs v1) by (rewrite E1 in D; now apply digs_app). destruct D1 as [D1 D2].
  destruct (one_loop_spec_32 maxd v1 u1 (digits + len u1) D1 D2 L2 L3) as [u2 [v2 [E2 [M1 [M2 [M3 M4]]]]]].
  exists (u1 ++ u2), v2. rewrite M1. rewrite len_app in *. replace (digits + (len u1 + len u2)) with (digits + len u1 + len u2) by lia.
  split; [rewrite E1, E2, app_assoc; reflexivity|]. split; [reflexivity|].
  assert (N1 := len_nonneg u1). assert (N2 := len_nonneg u2).
  split; [|split; assumption]. split; [|assumption].
  destruct (Z.eq_dec (len u1 + len u2) 0) as [Z0|Z0]; [exfalso|lia].
  destruct M4 as [M4|[M4|M4]]; [|lia|lia]. destruct u1; [|rewrite len_cons in Z0; assert (X := len_nonneg u1); lia].
  destruct u2; [|rewrite len_cons in Z0; assert (X := len_nonneg u2); lia]. cbn [app] in *. subst. contradiction.
Qed.

(** ** All digits *)
Lemma pow_770_32 d : d <= 771 -> 10 ^ d <= wt_32 125.
Proof. intros H. apply Z.le_trans with (10 ^ 771); [apply Z.pow_le_mono_r; lia|]. vm_compute. discriminate. Qed.
Lemma add_native_ok_32 big M n v : big_ok_32 big M -> 0 <= n <= 9 -> 0 <= M -> 0 <= v < 2 ^ 32 -> M * 10 ^ n + v < wt_32 125 ->
  exists r, add_native_32 big (u32 (10 ^ n)) v = Ok r /\ big_ok_32 r (M * 10 ^ n + v).
Proof.
  intros V N M0 VR S. assert (P := pow9 n N). rewrite u32_id by lia. unfold add_native_32.
  destruct (small_mul_ok_32 big M (10 ^ n) V P ltac:(lia)) as [r [-> R]]. cbn [bind].
  destruct (small_add_ok_32 r (M * 10 ^ n) v R) as [r2 [E2 R2]]; [unfold limb_32; lia|exact S|]. exists r2. split; assumption.
Qed.
Definition taken_32 (maxd : Z) (S big : list Z) (digits : Z) : Prop :=
  (len S <= maxd /\ digits = len S /\ big_ok_32 big (dec S)) \/
  (exists u v, S = u ++ v /\ len u = maxd /\
    ((zeros v /\ digits = maxd /\ big_ok_32 big (dec u)) \/ (~ zeros v /\ digits = maxd + 1 /\ big_ok_32 big (10 * dec u + 1)))).
Lemma mantissa_loop_spec_32 maxd : 0 < maxd <= 769 -> forall fuel p s after big, (length p <= fuel)%nat -> digs s -> digs p -> digs after ->
  len s < maxd -> big_ok_32 big (dec s) ->
  exists big' digits done, mantissa_loop_32 fuel maxd p after big (len s) = Ok (big', digits, done) /\
  (done = false -> len (s ++ p) < maxd /\ digits = len (s ++ p) /\ big_ok_32 big' (dec (s ++ p))) /\
  (done = true -> taken_32 maxd (s ++ p ++ after) big' digits).
Proof.
  intros MX. induction fuel as [|fuel IH]; intros p s after big FU DS DP DA LS V.
  - destruct p as [|c p]; [|cbn [length] in FU; lia]. cbn [mantissa_loop_32]. exists big, (len s), false. split; [reflexivity|]. split; [|discriminate].
    rewrite app_nil_r. intros _. repeat split; try assumption; apply V.
  - destruct p as [|c p].
    { cbn [mantissa_loop_32]. exists big, (len s), false. split; [reflexivity|]. split; [|discriminate].
      rewrite app_nil_r. intros _. repeat split; try assumption; apply V. }
    destruct (chunk_spec_32 maxd (c :: p) (len s) DP ltac:(discriminate) LS) as [u [v [E [A [LU [LM ST]]]]]].
    cbn [mantissa_loop_32]. rewrite A. cbn [c_p c_value c_counter c_digits].
    assert (DUV : digs u /\ digs v) by (rewrite E in DP; now apply digs_app). destruct DUV as [DU DV].
    assert (RU := dec_range u DU). assert (RS := dec_range s DS). assert (P9 := pow9 (len u) ltac:(lia)).
    assert (DSU : digs (s ++ u)) by (apply digs_app; tauto).
    assert (RSU := dec_range (s ++ u) DSU). assert (LSU : len (s ++ u) = len s + len u) by apply len_app.
    assert (EQ : dec s * 10 ^ len u + dec u = dec (s ++ u)) by (now rewrite dec_app).
    assert (P770 := pow_770_32 (len (s ++ u)) ltac:(lia)).
    destruct (add_native_ok_32 big (dec s) (len u) (dec u) V) as [r [AE AV]]; [lia|lia|lia|rewrite EQ; lia|].
    rewrite AE. cbn [bind]. rewrite EQ in AV. rewrite <- LSU.
    destruct (Z.eqb_spec (len (s ++ u)) maxd) as [C|C].
    + assert (TS := truncated_spec v DV). assert (TA := truncated_spec after DA).
      assert (SPLIT : s ++ (c :: p) ++ after = (s ++ u) ++ v ++ after) by (rewrite E, <- !app_assoc; reflexivity).
      destruct (is_truncated v || is_truncated after) eqn:T.
      * assert (NZ : ~ zeros (v ++ after)).
        { intros H. apply zeros_app in H. destruct H as [H1 H2]. apply TS in H1. apply TA in H2. rewrite H1, H2 in T. discriminate. }
        destruct (add_native_ok_32 r (dec (s ++ u)) 1 1 AV) as [r2 [AE2 AV2]]; [lia|lia|lia| |].
        { rewrite C in RSU. assert (PP := pow_770_32 (maxd + 1) ltac:(lia)). rewrite Z.pow_add_r in PP by lia. change (10 ^ 1) with 10 in *. lia. }
        change (u32 (10 ^ 1)) with 10 in AE2. rewrite AE2. cbn [bind]. exists r2, (len (s ++ u) + 1), true. split; [reflexivity|]. split; [discriminate|]. intros _.
        right. rewrite SPLIT. exists (s ++ u), (v ++ after). split; [reflexivity|]. split; [exact C|]. right. split; [exact NZ|]. split; [lia|].
        replace (10 * dec (s ++ u) + 1) with (dec (s ++ u) * 10 ^ 1 + 1) by (change (10 ^ 1) with 10; lia). exact AV2.
      * exists r, (len (s ++ u)), true. split; [reflexivity|]. split; [discriminate|]. intros _. right. rewrite SPLIT. exists (s ++ u), (v ++ after).
        split; [reflexivity|]. split; [exact C|]. left. apply Bool.orb_false_iff in T. destruct T as [T1 T2]. apply TS in T1. apply TA in T2.
        split; [apply zeros_app; tauto|]. split; [exact C|exact AV].
    + destruct (IH v (s ++ u) after r) as [big' [dg [done [L [L1 L2]]]]]; try assumption.
      { assert (LL : length (c :: p) = (length u + length v)%nat) by (rewrite E; apply app_length). unfold len in LU. lia. }
      { lia. }
      rewrite L. exists big', dg, done. rewrite E, <- app_assoc. rewrite <- app_assoc in L1, L2. split; [reflexivity|]. split; assumption.
Qed.
Lemma big_ok_nil_32 : big_ok_32 [] 0.
Proof. repeat split; [constructor|discriminate|now left]. Qed.
Lemma parse_mantissa_spec_32 f eb q m rest neg many i ft d z s : fok f eb -> digs i -> fraction ft d ->
  i ++ d = z ++ s -> zeros z -> first_nz s -> s <> [] ->
  exists big digits, parse_mantissa_32 f (Pns q m rest neg many i (frac_of ft d)) = Ok (big, digits) /\ taken_32 (f_maxdig f) s big digits.
Proof.
  intros F DI FR E Z FN SN. assert (MX : 0 < f_maxdig f <= 769) by (destruct F as [[-> _]|[-> _]]; cbn; lia).
  assert (FD : digs d) by (destruct FR; [constructor|assumption]).
  assert (FE : match frac_of ft d with Some x => x | None => [] end = d) by (destruct FR; reflexivity).
  unfold parse_mantissa_32. cbn [p_integer p_fraction]. rewrite FE.
  destruct (split_zeros i) as [zi [si [EI [ZI FI]]]].
  assert (DSI : digs si) by (rewrite EI in DI; apply digs_app in DI; apply DI).
  replace (skip_zeros i) with si by (rewrite EI, skip_spec by assumption; reflexivity).
  destruct (mantissa_loop_spec_32 (f_maxdig f) MX (length si) si [] d [] (Nat.le_refl _)) as [big [dg [done [L [L1 L2]]]]];
    [constructor|exact DSI|exact FD|change (len []) with 0; lia|exact big_ok_nil_32|].
  change (len []) with 0 in L. cbn [app] in L1, L2. rewrite L. cbn [bind].
  assert (DONE : taken_32 (f_maxdig f) s big dg -> exists big' digits, Ok (big, dg) = Ok (big', digits) /\ taken_32 (f_maxdig f) s big' digits)
    by (intros T; exists big, dg; split; [reflexivity|exact T]).
  destruct (list_eq_dec Z.eq_dec si []) as [SE|SE].
  - subst si. cbn [length mantissa_loop_32] in L. injection L as <- <- <-. clear L1 L2 DONE.
    rewrite app_nil_r in EI. subst zi.
    destruct FR as [|d D]; cbn [frac_of].
    + exfalso. apply SN. rewrite app_nil_r in E. subst i. apply zeros_app in ZI. destruct ZI as [_ ZS]. destruct s as [|c s]; [reflexivity|].
      apply Forall_inv in ZS. contradiction.
    + cbn [Z.eqb]. destruct (split_zeros d) as [zd [sd [ED [ZD FD']]]].
      assert (DSD : digs sd) by (rewrite ED in D; apply digs_app in D; apply D).
      rewrite ED. rewrite skip_spec by assumption.
      assert (SS : s = sd).
      { apply (strip_unique z s (i ++ zd) sd); try assumption; [apply zeros_app; tauto|]. rewrite <- E, ED, app_assoc. reflexivity. }
      subst sd.
      destruct (mantissa_loop_spec_32 (f_maxdig f) MX (length s) s [] [] [] (Nat.le_refl _)) as [big [dg [done [L [L1 L2]]]]];
        [constructor|exact DSD|constructor|change (len []) with 0; lia|exact big_ok_nil_32|].
      change (len []) with 0 in L. cbn [app] in L1, L2. rewrite app_nil_r in L2. rewrite L. cbn [bind]. exists big, dg. split; [reflexivity|].
      destruct done; [now apply L2|]. destruct (L1 eq_refl) as [A [C G]]. left. split; [lia|]. now split.
  - assert (SS : s = si ++ d).
    { apply (strip_unique z s zi (si ++ d)); try assumption.
      - destruct si as [|c si]; [contradiction|]. exact FI.
      - rewrite <- E, EI, app_assoc. reflexivity. }
    subst s. destruct done; [apply DONE; now apply L2|]. destruct (L1 eq_refl) as [A [C G]]. clear L1 L2.
    destruct FR as [|d D]; cbn [frac_of].
    + apply DONE. rewrite app_nil_r. left. split; [lia|]. now split.
    + assert (D0 : (dg =? 0) = false).
      { destruct si as [|c si]; [contradiction|]. rewrite C, len_cons. assert (X := len_nonneg si). lia. }
      rewrite D0. subst dg.
      destruct (mantissa_loop_spec_32 (f_maxdig f) MX (length d) d si [] big (Nat.le_refl _)) as [big2 [dg [done [L' [L1 L2]]]]];
        [exact DSI|exact D|constructor|exact A|exact G|].
      rewrite L'. cbn [bind]. exists big2, dg. split; [reflexivity|]. rewrite app_nil_r in L2.
      destruct done; [now apply L2|]. destruct (L1 eq_refl) as [A' [C' G']]. left. split; [lia|]. now split.
Qed.
