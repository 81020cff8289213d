(** from_chars on a text with a number: the theorem; the rounded number is unique. *)
From Verif Require Import Base BaseLemmas FloatTable FloatModel FloatSpec.
From Verif Require Import FloatProofs1 FloatProofs2 FloatProofs3 FloatProofs4 FloatProofs5 FloatProofs6 FloatProofs7 FloatProofs8.
From Verif Require Import FloatProofs9 FloatProofs10 FloatProofs11 FloatProofs12 FloatProofs13 FloatProofs14 FloatProofs15.
From Coq Require Import Qpower Lqa Lia Znumtheory Zpow_facts.
Open Scope Z_scope.

(** ** Zero and infinity as words *)
Lemma to_float_fields f eb neg x a : fok f eb -> good f eb x a -> exists ex fr, to_float f neg a = join (f_mb f) eb neg ex fr /\
  0 <= ex < 2 ^ eb /\ 0 <= fr < 2 ^ f_mb f /\ (ex = 0 /\ fr = 0 <-> a = AM 0 0) /\ (ex = 2 ^ eb - 1 <-> a_pow a = f_inf f) /\ (ex = 2 ^ eb - 1 -> fr = 0).
Proof.
  intros F G. destruct (fok_facts f eb F) as [M [E [EM [I [S [I2 _]]]]]].
  assert (P0 : 0 < 2 ^ f_mb f) by (apply Z.pow_pos_nonneg; lia).
  assert (P1 : 4 <= 2 ^ eb) by (change 4 with (2 ^ 2); apply Z.pow_le_mono_r; lia).
  unfold to_float. destruct G as [[-> L]|[m [e [[C1 [C2 C3]] [H [R D]]]]]]; cbn [a_man a_pow].
  - exists (f_inf f), 0. rewrite (word_join f eb) by (auto; lia). split; [reflexivity|]. split; [lia|]. split; [lia|].
    split; [split; [intros; lia|intros A; injection A; lia]|]. split; [|intros; reflexivity]. rewrite I. tauto.
  - rewrite (pow_mb _ M) in C1. destruct D as [[D ->]|[[D [D2 ->]]|[D ->]]]; cbn [a_man a_pow].
    + exists 0, m. rewrite (word_join f eb) by (auto; lia). split; [reflexivity|]. split; [lia|]. split; [lia|].
      split; [split; [intros [_ ->]; reflexivity|intros A; injection A; lia]|]. split; lia.
    + exists 1, 0. split; [|split; [lia|split; [lia|split; [split; [lia|intros A; injection A; lia]|split; lia]]]].
      rewrite <- (word_join f eb) by (auto; lia). unfold word. rewrite Z.shiftl_mul_pow2, D by lia.
      rewrite Z.mul_1_l. now rewrite Z.lor_diag, Z.lor_0_l.
    + exists (e - emin f + 1), (m - 2 ^ f_mb f). rewrite (word_join f eb) by (auto; lia). split; [reflexivity|]. split; [lia|]. split; [lia|].
      split; [split; [lia|intros A; injection A; lia]|]. split; lia.
Qed.
Lemma code_words f eb neg x a m : fok f eb -> good f eb x a -> 0 <= m -> let w := to_float f neg a in
  (b_infinite (f_mb f) eb w \/ 0 < m /\ b_zero (f_mb f) eb w -> code f m a = ERange) /\
  (~ b_infinite (f_mb f) eb w -> ~ (0 < m /\ b_zero (f_mb f) eb w) -> code f m a = EOk).
Proof.
  intros F G MN. cbv zeta. destruct (fok_facts f eb F) as [M [E [EM [I [S [I2 _]]]]]].
  destruct (to_float_fields f eb neg x a F G) as [ex [fr [-> [X [R [ZE [IN I0]]]]]]].
  destruct (join_fields _ _ M E neg ex fr X R) as [F1 [F2 [F3 F4]]].
  assert (BI : b_infinite (f_mb f) eb (join (f_mb f) eb neg ex fr) <-> a_pow a = f_inf f).
  { unfold b_infinite. rewrite F3, F4. rewrite <- IN. tauto. }
  assert (BZ : b_zero (f_mb f) eb (join (f_mb f) eb neg ex fr) <-> a = AM 0 0).
  { unfold b_zero. rewrite F3, F4. tauto. }
  rewrite BI, BZ. unfold code. destruct (Z.eqb_spec (a_pow a) (f_inf f)) as [AI|AI].
  - rewrite orb_true_r. split; [reflexivity|contradiction].
  - rewrite orb_false_r. destruct a as [a1 a2]. cbn [a_man a_pow] in *. split.
    + intros [H|[H1 H2]]; [contradiction|]. injection H2 as -> ->. replace (m =? 0) with false by lia. reflexivity.
    + intros _ H. destruct (Z.eqb_spec m 0); [reflexivity|]. destruct (Z.eqb_spec a1 0); [|reflexivity]. destruct (Z.eqb_spec a2 0); [|reflexivity].
      exfalso. apply H. split; [lia|congruence].
Qed.

(** ** An exponent the parser cut off *)
Lemma p400 : (forall f eb, fok f eb -> (b_limit (f_mb f) eb <= (10 # 1) ^ 400)%Q /\ ((10 # 1) ^ (-400) < B 1 (emin f - 1))%Q).
Proof. intros f eb [[-> ->]|[-> ->]]; split; vm_compute; (discriminate || reflexivity). Qed.
Lemma good_cut f eb M L LI e n a : fok f eb -> 0 <= M < 10 ^ (LI + L) -> 0 <= L -> 0 <= LI -> L + LI + 400 <= 2 ^ 28 -> sat e n ->
  good f eb (decimal M (n - L)) a -> good f eb (decimal M (e - L)) a.
Proof.
  intros F MR L0 LI0 LB SA G. destruct SA as [->|SA]; [exact G|].
  destruct (Z.eq_dec M 0) as [M0|M0].
  { apply (good_wd f eb (decimal M (n - L)) _ a F) with (2 := G). rewrite M0, !decimal_0. reflexivity. }
  destruct (p400 f eb F) as [PB PS]. destruct SA as [SA|SA].
  - assert (BIG : forall k, 400 <= k -> (b_limit (f_mb f) eb <= decimal M k)%Q).
    { intros k K. apply Qle_trans with (1 := PB). apply Qle_trans with (decimal 1 k).
      - unfold decimal. change (inject_Z 1) with 1%Q. rewrite Qmult_1_l. now apply p10_mono.
      - apply decimal_le. lia. }
    rewrite (good_big f eb _ a F (BIG (n - L) ltac:(lia)) G). left. split; [reflexivity|]. apply BIG. lia.
  - assert (SMALL : forall k, k <= n -> (decimal M (k - L) < B 1 (emin f - 1))%Q).
    { intros k K. apply Qle_lt_trans with (2 := PS). apply Qle_trans with (decimal (10 ^ (LI + L)) (k - L)); [apply decimal_le; lia|].
      replace (10 ^ (LI + L)) with (1 * 10 ^ (LI + L)) by lia. rewrite <- decimal_shift by lia.
      unfold decimal. change (inject_Z 1) with 1%Q. rewrite Qmult_1_l. apply p10_mono. lia. }
    rewrite (good_small f eb _ a F (SMALL n ltac:(lia)) G). apply rounds_zero; [exact F|apply decimal_nonneg; lia|]. apply SMALL. lia.
Qed.

(** ** The theorem *)
Theorem from_chars_number rn f eb t rest neg m e : fok f eb -> bytes (t ++ rest) -> decimal_text t neg m e -> longest t rest ->
  len t + 400 <= 2 ^ 28 ->
  exists w ec, from_chars_float rn f (t ++ rest) = Ok (FFRes rest ec (Some w)) /\ nearest (f_mb f) eb neg (decimal m e) w /\
  (b_infinite (f_mb f) eb w \/ 0 < m /\ b_zero (f_mb f) eb w -> ec = ERange) /\
  (~ b_infinite (f_mb f) eb w -> ~ (0 < m /\ b_zero (f_mb f) eb w) -> ec = EOk).
Proof.
  intros F BY DT LG LT. destruct DT as [neg i ft d xt e DI FR EX NE]. rewrite text_minus in *.
  destruct (longest_facts neg i ft d xt e rest DI FR EX NE LG) as [S1 [SD [SX [n [PE SA]]]]].
  assert (FD : digs d) by (destruct FR; [constructor|assumption]).
  assert (DID : digs (i ++ d)) by (apply digs_app; tauto). assert (DR := dec_range _ DID). rewrite len_app in DR.
  assert (LI := len_nonneg i). assert (LD := len_nonneg d).
  assert (LFD : len d <= len ft) by (destruct FR; [lia|rewrite len_cons; lia]).
  assert (LEN : len i + len d <= len (minus neg ++ i ++ ft ++ xt)).
  { rewrite !len_app. assert (X := len_nonneg (minus neg)). assert (Y := len_nonneg xt). lia. }
  rewrite <- !app_assoc in *.
  assert (BY2 : bytes (i ++ ft ++ xt ++ rest)) by (apply Forall_app in BY; apply BY).
  destruct (parse_number_spec neg i ft d xt rest n BY2 DI FR NE S1 SD SX PE) as [pm [q [many [PN [NM YM]]]]].
  destruct (from_pns_good rn f eb q pm rest neg many i ft d (n - len d) F DI FR NM YM) as [a [FP G]].
  assert (G2 : good f eb (decimal (dec (i ++ d)) (e - len d)) a).
  { apply (good_cut f eb _ (len d) (len i) e n a F); [lia|lia|lia|lia|exact SA|exact G]. }
  exists (to_float f neg a), (code f (dec (i ++ d)) a). split.
  - unfold from_chars_float. destruct (minus neg ++ i ++ ft ++ xt ++ rest) as [|c0 r0] eqn:TX.
    + exfalso. apply NE. apply app_eq_nil in TX. destruct TX as [_ TX]. apply app_eq_nil in TX. destruct TX as [-> TX]. apply app_eq_nil in TX. destruct TX as [-> _]. now inversion FR.
    + rewrite PN. cbn [bind]. exact FP.
  - split; [apply (good_nearest f eb neg _ a F); [apply decimal_nonneg; lia|exact G2]|].
    apply (code_words f eb neg _ a _ F G2). lia.
Qed.

(** ** The rounded number is unique *)
Section Unique.
Variables mb eb : Z.
Hypothesis Hmb : 1 <= mb.
Hypothesis Heb : 2 <= eb.
Lemma canon_inj m e m' e' : canon mb eb m e -> canon mb eb m' e' -> (B m e == B m' e')%Q -> 
  m = m' /\ (e = e' \/ m = 0).
Proof.
  intros [C1 [C2 C3]] [C1' [C2' C3']] H. assert (P := pow_mb mb Hmb). assert (P0 := pow_mb_pos mb Hmb).
  assert (K : forall m e m' e', 0 <= m' < 2 ^ (mb + 1) -> 2 ^ mb <= m \/ e = emn mb eb -> emn mb eb <= e' -> (B m e == B m' e')%Q -> e <= e').
  { clear - P P0. intros m e m' e' C1' C3 C2' H. destruct (Z.le_gt_cases e e') as [L|L]; [exact L|]. exfalso.
    rewrite (B_down m e e') in H by lia. apply B_eq in H.
    assert (2 <= 2 ^ (e - e')) by (change 2 with (2 ^ 1) at 1; apply Z.pow_le_mono_r; lia). nia. }
  assert (E : e = e').
  { apply Z.le_antisymm; [apply (K m e m' e')|apply (K m' e' m e)]; try assumption. symmetry. exact H. }
  subst e'. apply B_eq in H. tauto.
Qed.
Lemma finite_word w w' : b_finite mb eb w -> b_finite mb eb w' -> b_neg mb eb w = b_neg mb eb w' -> (b_value mb eb w == b_value mb eb w')%Q -> w = w'.
Proof.
  intros [H H1] [H' H1'] N V. destruct (join_split mb eb Hmb Heb w H) as [W [X R]]. destruct (join_split mb eb Hmb Heb w' H') as [W' [X' R']].
  assert (P := pow_mb mb Hmb). assert (P0 := pow_mb_pos mb Hmb).
  enough (b_exp mb eb w = b_exp mb eb w' /\ b_frac mb w = b_frac mb w') as [E1 E2] by (rewrite W, W', N, E1, E2; reflexivity).
  unfold b_value in V. rewrite N in V. set (x := b_exp mb eb w) in *. set (x' := b_exp mb eb w') in *. set (r := b_frac mb w) in *. set (r' := b_frac mb w') in *.
  change (signed (b_neg mb eb w') (B (if x =? 0 then r else 2 ^ mb + r) (Z.max x 1 - b_bias eb - mb)) ==
          signed (b_neg mb eb w') (B (if x' =? 0 then r' else 2 ^ mb + r') (Z.max x' 1 - b_bias eb - mb)))%Q in V.
  assert (V2 : (B (if x =? 0 then r else 2 ^ mb + r) (Z.max x 1 - b_bias eb - mb) == B (if x' =? 0 then r' else 2 ^ mb + r') (Z.max x' 1 - b_bias eb - mb))%Q).
  { destruct (b_neg mb eb w'); cbn [signed] in V; lra. }
  destruct (canon_inj (if x =? 0 then r else 2 ^ mb + r) (Z.max x 1 - b_bias eb - mb) (if x' =? 0 then r' else 2 ^ mb + r') (Z.max x' 1 - b_bias eb - mb)) as [A [D|D]].
  - unfold canon, emn. destruct (Z.eqb_spec x 0); lia.
  - unfold canon, emn. destruct (Z.eqb_spec x' 0); lia.
  - exact V2.
  - destruct (Z.eqb_spec x 0), (Z.eqb_spec x' 0); lia.
  - destruct (Z.eqb_spec x 0), (Z.eqb_spec x' 0); lia.
Qed.
Lemma nearest_order neg x w w' : (0 <= x)%Q -> nearest mb eb neg x w -> nearest mb eb neg x w' -> (x < b_limit mb eb)%Q ->
  (signed neg (b_value mb eb w) < signed neg (b_value mb eb w'))%Q -> False.
Proof.
  intros X [N [_ FI]] [N' [_ FI']] XL LT. destruct (FI XL) as [F NR]. destruct (FI' XL) as [F' NR'].
  destruct (finite_canon mb eb Hmb Heb w F) as [m [e [C [EX [V EV]]]]]. destruct (finite_canon mb eb Hmb Heb w' F') as [m' [e' [C' [EX' [V' EV']]]]].
  rewrite N in V. rewrite N' in V'.
  assert (SV : (signed neg (b_value mb eb w) == B m e)%Q) by (rewrite (signed_wd neg _ _ V); apply signed_signed).
  assert (SV' : (signed neg (b_value mb eb w') == B m' e')%Q) by (rewrite (signed_wd neg _ _ V'); apply signed_signed).
  rewrite SV, SV' in LT. 
  assert (P := pow_mb mb Hmb). assert (P0 := pow_mb_pos mb Hmb).
  assert (NV : ~ (b_value mb eb w == b_value mb eb w')%Q).
  { intros H. apply (signed_wd neg) in H. rewrite SV, SV' in H. lra. }
  destruct (NR w' F') as [D1 D2]. destruct (NR' w F) as [D1' D2'].
  assert (EQ : (Qabs (signed neg x - b_value mb eb w) == Qabs (signed neg x - b_value mb eb w'))%Q) by (apply Qle_antisym; assumption).
  assert (EE := D2 EQ NV). assert (EE' : Z.even (b_frac mb w') = true) by (apply D2'; [symmetry; exact EQ|intros H; apply NV; symmetry; exact H]).
  rewrite EV in EE. rewrite EV' in EE'.
  (* the distance, without signs *)
  assert (AD : forall v, (Qabs (signed neg x - v) == Qabs (x - signed neg v))%Q) by (intros v; apply signed_abs).
  rewrite !AD in EQ. rewrite SV, SV' in EQ.
  assert (MID : (x - B m e == B m' e' - x)%Q).
  { assert (A1 : (Qabs (x - B m e) == x - B m e)%Q \/ (Qabs (x - B m e) == - (x - B m e))%Q) by (destruct (Qlt_le_dec (x - B m e) 0) as [H|H]; [right; apply Qabs_neg; lra|left; apply Qabs_pos; exact H]).
    assert (A2 : (Qabs (x - B m' e') == x - B m' e')%Q \/ (Qabs (x - B m' e') == - (x - B m' e'))%Q) by (destruct (Qlt_le_dec (x - B m' e') 0) as [H|H]; [right; apply Qabs_neg; lra|left; apply Qabs_pos; exact H]).
    destruct A1 as [A1|A1], A2 as [A2|A2]; rewrite A1, A2 in EQ; lra. }
  (* the next float above [w] *)
  assert (MO : m + 1 < 2 ^ (mb + 1)).
  { destruct C as [C1 _]. destruct (Z.eq_dec (m + 1) (2 ^ (mb + 1))) as [H|H]; [|lia]. exfalso.
    assert (Z.even (m + 1) = true) by (rewrite H, P, Z.even_mul; reflexivity). rewrite Z.even_add, EE in *. discriminate. }
  assert (C2 : canon mb eb (m + 1) e) by (destruct C as [C1 [C2 C3]]; unfold canon; lia).
  assert (UP := next_up mb eb Hmb m e m' e' C C' LT).
  destruct (enc_finite mb eb Hmb Heb neg (m + 1) e C2 EX) as [FW [NW [VW _]]].
  set (u := enc mb eb neg (m + 1) e) in *.
  destruct (NR u FW) as [D3 _]. rewrite !AD in D3. rewrite SV in D3.
  assert (SU : (signed neg (b_value mb eb u) == B (m + 1) e)%Q) by (rewrite (signed_wd neg _ _ VW); apply signed_signed).
  rewrite SU in D3.
  assert (BL : (B m e < B (m + 1) e)%Q) by (apply B_lt; lia).
  assert (UE : (B (m + 1) e == B m' e')%Q).
  { rewrite (Qabs_pos (x - B m e)) in D3 by lra.
    destruct (Qlt_le_dec (x - B (m + 1) e) 0) as [H|H]; [rewrite Qabs_neg in D3 by lra|rewrite Qabs_pos in D3 by lra]; lra. }
  destruct (canon_inj _ _ _ _ C2 C' UE) as [A _]. rewrite <- A, Z.even_add, EE in EE'. discriminate.
Qed.
Theorem nearest_unique neg x w w' : (0 <= x)%Q -> nearest mb eb neg x w -> nearest mb eb neg x w' -> w = w'.
Proof.
  intros X N N'. destruct (Qlt_le_dec x (b_limit mb eb)) as [L|L].
  - assert (F := N). destruct F as [S [_ F]]. destruct (F L) as [FW _]. assert (F' := N'). destruct F' as [S' [_ F']]. destruct (F' L) as [FW' _].
    apply finite_word; [exact FW|exact FW'|congruence|].
    assert (E : (signed neg (b_value mb eb w) == signed neg (b_value mb eb w'))%Q).
    { destruct (Q_dec (signed neg (b_value mb eb w)) (signed neg (b_value mb eb w'))) as [[H|H]|H]; [exfalso|exfalso|exact H].
      - apply (nearest_order neg x w w'); assumption.
      - apply (nearest_order neg x w' w); assumption. }
    apply (signed_wd neg) in E. now rewrite !signed_signed in E.
  - destruct N as [S [I _]]. destruct (I L) as [R [X1 F1]]. destruct N' as [S' [I' _]]. destruct (I' L) as [R' [X1' F1']].
    destruct (join_split mb eb Hmb Heb w R) as [W _]. destruct (join_split mb eb Hmb Heb w' R') as [W' _]. rewrite W, W'. congruence.
Qed.
End Unique.
