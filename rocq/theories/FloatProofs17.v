(** from_chars on a text without a number; every text has a result. *)
From Verif Require Import Base BaseLemmas FloatTable FloatModel FloatSpec.
From Verif Require Import FloatProofs1 FloatProofs2 FloatProofs3 FloatProofs4 FloatProofs5 FloatProofs6 FloatProofs7 FloatProofs8.
From Verif Require Import FloatProofs9 FloatProofs10 FloatProofs11 FloatProofs12 FloatProofs13 FloatProofs14 FloatProofs15 FloatProofs16.
From Coq Require Import Qpower Lqa Lia Znumtheory Zpow_facts.
Open Scope Z_scope.

(** ** No number *)
Lemma span s : exists d r, s = d ++ r /\ digs d /\ stops r.
Proof.
  induction s as [|c s [d [r [E [D S]]]]]; [exists [], []; repeat split; constructor|].
  destruct (is_integer c) eqn:I.
  - apply is_integer_dig in I. exists (c :: d), r. split; [now rewrite E|]. split; [now constructor|exact S].
  - exists [], (c :: s). split; [reflexivity|]. split; [constructor|]. intros C. apply is_integer_dig in C. congruence.
Qed.
Lemma parse_none s : bytes s -> s <> [] -> no_number s -> parse_number_string s = Ok None.
Proof.
  intros BY SN NN. destruct s as [|c r]; [contradiction|]. unfold parse_number_string.
  set (negative := c =? ch "-"). set (p := if negative then r else c :: r).
  assert (TX : c :: r = minus negative ++ p).
  { unfold p, negative. destruct (Z.eqb_spec c (ch "-")) as [->|]; reflexivity. }
  assert (BP : bytes p) by (rewrite TX in BY; apply Forall_app in BY; apply BY).
  clearbody negative p. rewrite TX in NN. clear TX SN BY c r.
  destruct (negative && _); [reflexivity|].
  destruct (span p) as [i [p1 [EP [DI S1]]]].
  assert (IN : i = []).
  { destruct i as [|c i]; [reflexivity|]. exfalso. apply (NN (minus negative ++ (c :: i)) p1 negative (dec ((c :: i) ++ [])) (0 - len (@nil Z))); [rewrite EP; apply app_assoc|].
    rewrite <- (app_nil_r (c :: i)) at 1. apply (decimal_text_intro negative (c :: i) [] [] [] 0); [exact DI|constructor|constructor|discriminate]. }
  subst i. cbn [app] in EP. subst p1.
  assert (DL := digit_loop_spec [] p 0 ltac:(constructor) S1 ltac:(lia)). cbn [app] in DL. rewrite DL.
  assert (BT : FloatModel.between p p = []) by apply (between_app [] p). rewrite BT.
  change (u64 (0 * 10 ^ len (@nil Z) + dec [])) with 0.
  destruct p as [|c before]; [reflexivity|]. destruct (Z.eqb_spec c (ch ".")) as [->|N]; [|reflexivity].
  destruct (span before) as [d [p2 [EB [D S2]]]].
  assert (DN : d = []).
  { destruct d as [|x d]; [reflexivity|]. exfalso. apply (NN (minus negative ++ (ch "." :: x :: d)) p2 negative (dec ([] ++ x :: d)) (0 - len (x :: d))).
    - rewrite EB, <- app_assoc. reflexivity.
    - rewrite <- (app_nil_r (ch "." :: x :: d)). apply (decimal_text_intro negative [] (ch "." :: x :: d) (x :: d) [] 0); [constructor|now constructor|constructor|discriminate]. }
  subst d. cbn [app] in EB. subst p2.
  assert (FL := fraction_loops [] before 0 ltac:(now apply Forall_inv_tail in BP) D S2 ltac:(lia)). cbn [app] in FL.
  destruct (loop_parse_if_eight_digits before 0) as [q j]. rewrite FL.
  assert (BT2 : FloatModel.between before before = []) by apply (between_app [] before). rewrite BT2. reflexivity.
Qed.

(** ** Letters of either case *)
Lemma mask32 z : (Z.ldiff z 32 = 0) <-> (z = 0 \/ z = 32).
Proof.
  split; [|intros [-> | ->]; reflexivity]. intros H.
  assert (E : forall n, 0 <= n -> n <> 5 -> Z.testbit z n = false).
  { intros n N N5. assert (X : Z.testbit (Z.ldiff z 32) n = false) by (rewrite H; apply Z.bits_0).
    rewrite Z.ldiff_spec in X. change 32 with (2 ^ 5) in X. rewrite Z.pow2_bits_eqb in X by lia. replace (5 =? n) with false in X by lia.
    now rewrite andb_true_r in X. }
  destruct (Z.testbit z 5) eqn:B5; [right|left]; apply Z.bits_inj'; intros n N; destruct (Z.eq_dec n 5) as [->|N5]; try (rewrite B5; reflexivity).
  - rewrite E by assumption. change 32 with (2 ^ 5). rewrite Z.pow2_bits_eqb by lia. symmetry. lia.
  - rewrite E by assumption. symmetry. apply Z.bits_0.
Qed.
Lemma lor_mask a b : (Z.lor a b = 0 \/ Z.lor a b = 32) <-> ((a = 0 \/ a = 32) /\ (b = 0 \/ b = 32)).
Proof.
  split; [|intros [[-> | ->] [-> | ->]]; (left; reflexivity) || (right; reflexivity)].
  rewrite <- !mask32. intros H. 
  assert (E : forall n, 0 <= n -> Z.testbit (Z.ldiff a 32) n = false /\ Z.testbit (Z.ldiff b 32) n = false).
  { intros n N. assert (X : Z.testbit (Z.ldiff (Z.lor a b) 32) n = false) by (rewrite H; apply Z.bits_0).
    rewrite Z.ldiff_spec, Z.lor_spec in X. rewrite !Z.ldiff_spec. destruct (Z.testbit a n), (Z.testbit b n), (Z.testbit 32 n); cbn in *; split; congruence. }
  split; apply Z.bits_inj'; intros n N; rewrite Z.bits_0; now apply E.
Qed.
Definition lower (l : Z) : Prop := ch "a" <= l <= ch "z".
Lemma lxor_letter c l : lower l -> (Z.lxor c l = 0 \/ Z.lxor c l = 32) <-> (c = l \/ c = l - 32).
Proof.
  intros L. unfold lower in L. change (ch "a") with 97 in L. change (ch "z") with 122 in L.
  assert (X : Z.lxor 32 l = l - 32).
  { assert (K : forallb (fun k => Z.lxor 32 (97 + Z.of_nat k) =? 97 + Z.of_nat k - 32) (seq 0 26) = true) by reflexivity.
    rewrite forallb_forall in K. specialize (K (Z.to_nat (l - 97))). rewrite in_seq in K. specialize (K ltac:(lia)). rewrite Z2Nat.id in K by lia.
    replace (97 + (l - 97)) with l in K by lia. lia. }
  assert (INV : Z.lxor (Z.lxor c l) l = c) by (rewrite Z.lxor_assoc, Z.lxor_nilpotent, Z.lxor_0_r; reflexivity).
  split; intros [H|H].
  - left. rewrite H, Z.lxor_0_l in INV. now symmetry.
  - right. rewrite H, X in INV. now symmetry.
  - left. rewrite H. apply Z.lxor_nilpotent.
  - right. rewrite H, <- X, Z.lxor_assoc, Z.lxor_nilpotent. apply Z.lxor_0_r.
Qed.
Lemma diff_letters s p : Forall lower p -> length s = length p -> (running_diff s p = 0 \/ running_diff s p = 32) <-> letters s p.
Proof.
  intros L. revert s. induction L as [|l p L1 L IH]; intros s H; destruct s as [|c s]; try discriminate.
  - split; [constructor|now left].
  - cbn [running_diff]. rewrite lor_mask, (lxor_letter c l L1), IH by (injection H; auto). split.
    + intros [A B]. now constructor.
    + intros A. inversion A; subst. now split.
Qed.
Lemma case_letters s p : Forall lower p -> length s = length p -> strncasecmp s p = true <-> letters s p.
Proof. intros L H. rewrite <- (diff_letters s p L H). unfold strncasecmp. rewrite orb_true_iff, !Z.eqb_eq. reflexivity. Qed.
Lemma lower_all p : forallb (fun c => (97 <=? c) && (c <=? 122)) p = true -> Forall lower p.
Proof. intros H. apply Forall_forall. intros c C. rewrite forallb_forall in H. specialize (H c C). unfold lower. change (ch "a") with 97. change (ch "z") with 122. lia. Qed.
Lemma letters_len s p : letters s p -> length s = length p. Proof. intros H. induction H; [reflexivity|]. cbn. congruence. Qed.

(** ** The code in a NaN *)
Lemma word_char_dec c : (((ch "a" <=? c) && (c <=? ch "z")) || ((ch "A" <=? c) && (c <=? ch "Z")) || ((ch "0" <=? c) && (c <=? ch "9")) || (c =? ch "_")) = true <-> word_char c.
Proof.
  unfold word_char. change (ch "a") with 97. change (ch "z") with 122. change (ch "A") with 65. change (ch "Z") with 90. change (ch "0") with 48. change (ch "9") with 57. change (ch "_") with 95. lia.
Qed.
Lemma nan_loop_spec q x : nan_loop q = Some x <-> exists p, Forall word_char p /\ q = p ++ ch ")" :: x.
Proof.
  induction q as [|c q IH]; cbn [nan_loop].
  - split; [discriminate|]. intros [p [_ E]]. destruct p; discriminate.
  - destruct (Z.eqb_spec c (ch ")")) as [->|N].
    + split.
      * intros H. injection H as ->. exists []. split; [constructor|reflexivity].
      * intros [p [W E]]. destruct p as [|y p]; [injection E as ->; reflexivity|]. exfalso. injection E as <- E. apply Forall_inv in W. unfold word_char in W.
        change (ch "a") with 97 in W. change (ch "z") with 122 in W. change (ch "A") with 65 in W. change (ch "Z") with 90 in W. change (ch "0") with 48 in W. change (ch "9") with 57 in W. change (ch "_") with 95 in W. change (ch ")") with 41 in W. lia.
    + destruct ((((ch "a" <=? c) && (c <=? ch "z")) || ((ch "A" <=? c) && (c <=? ch "Z")) || ((ch "0" <=? c) && (c <=? ch "9")) || (c =? ch "_"))) eqn:W.
      * rewrite IH. rewrite word_char_dec in W. split; intros [p [H E]].
        -- exists (c :: p). split; [now constructor|]. now rewrite E.
        -- destruct p as [|y p]; [injection E as E _; contradiction|]. injection E as <- E. exists p. split; [now apply Forall_inv_tail in H|exact E].
      * split; [discriminate|]. intros [p [H E]]. exfalso. destruct p as [|y p]; [injection E as E _; contradiction|]. injection E as <- E.
        apply Forall_inv in H. apply word_char_dec in H. congruence.
Qed.

(** ** Infinity and NaN *)
Definition first_letter (p : list Z) : Prop := exists c r, p = c :: r /\ ~ dig c /\ c <> ch "." /\ c <> ch "-".
Lemma letters_cons s l p : letters s (l :: p) -> lower l -> first_letter s.
Proof.
  intros H L. inversion H as [|c l' r p' C _ E1 E2]; subst. exists c, r. split; [reflexivity|]. unfold lower in L.
  change (ch "a") with 97 in L. change (ch "z") with 122 in L. rewrite dig_range. change (ch ".") with 46. change (ch "-") with 45. lia.
Qed.
Lemma special_shape t neg nan : special_text t neg nan -> exists p, t = minus neg ++ p /\ first_letter p.
Proof.
  intros [neg' s L|neg' s L|neg' s L|neg' s p L W]; rewrite text_minus.
  - exists s. split; [reflexivity|]. apply (letters_cons s (ch "i") (s2z "nf")); [exact L|split; discriminate].
  - exists s. split; [reflexivity|]. apply (letters_cons s (ch "i") (s2z "nfinity")); [exact L|split; discriminate].
  - exists s. split; [reflexivity|]. apply (letters_cons s (ch "n") (s2z "an")); [exact L|split; discriminate].
  - eexists. split; [reflexivity|]. assert (X := letters_cons s (ch "n") (s2z "an") L). destruct X as [c [r [-> H]]]; [split; discriminate|].
    exists c. eexists. split; [reflexivity|exact H].
Qed.
Lemma decimal_shape t neg m e : decimal_text t neg m e -> exists c r, t = minus neg ++ c :: r /\ (dig c \/ c = ch ".").
Proof.
  intros [neg' i ft d xt e' DI FR EX NE]. rewrite text_minus. destruct i as [|c i].
  - destruct FR as [|d D]; [contradiction|]. exists (ch "."), (d ++ xt). split; [reflexivity|now right].
  - exists c, (i ++ ft ++ xt). split; [reflexivity|]. left. now apply digs_cons in DI.
Qed.
Lemma special_no_number t neg nan rest : special_text t neg nan -> no_number (t ++ rest).
Proof.
  intros SP a b neg' m e E DT. destruct (special_shape t neg nan SP) as [p [-> [c [r [-> [C1 [C2 C3]]]]]]].
  destruct (decimal_shape a neg' m e DT) as [x [y [-> X]]].
  assert (XM : x <> ch "-") by (destruct X as [X| ->]; [rewrite dig_range in X; change (ch "-") with 45; lia|discriminate]).
  destruct neg, neg'; cbn [minus app] in E; injection E as E1 E2.
  - subst x. tauto.
  - congruence.
  - congruence.
  - subst x. tauto.
Qed.
Lemma inf_word f eb neg : fok f eb -> let w := word f neg 0 (f_inf f) in b_neg (f_mb f) eb w = neg /\ b_infinite (f_mb f) eb w.
Proof. intros [[-> ->]|[-> ->]]; destruct neg; vm_compute; repeat split; discriminate. Qed.
Lemma nan_word f eb neg : fok f eb -> let w := word f neg (2 ^ (f_mb f - 1)) (f_inf f) in b_neg (f_mb f) eb w = neg /\ b_nan (f_mb f) eb w.
Proof. intros [[-> ->]|[-> ->]]; destruct neg; vm_compute; repeat split; discriminate. Qed.
Lemma len_ge {A} (p : list A) n : n <=? len p = true <-> (Z.to_nat n <= length p)%nat.
Proof. unfold len. rewrite Z.leb_le. lia. Qed.
(** what parse_infnan looks for behind the sign *)
Definition has (s pat : list Z) : Prop := exists a b, s = a ++ b /\ letters a pat.
Lemma has_dec s pat : Forall lower pat -> ((len pat <=? len s) && strncasecmp (firstn (length pat) s) pat = true) <-> has s pat.
Proof.
  intros L. rewrite andb_true_iff, Z.leb_le. split.
  - intros [A B]. exists (firstn (length pat) s), (skipn (length pat) s). split; [symmetry; apply firstn_skipn|].
    apply case_letters in B; [exact B|exact L|]. rewrite firstn_length. unfold len in A. lia.
  - intros [a [b [-> H]]]. assert (E := letters_len _ _ H). split; [rewrite len_app; unfold len; lia|].
    rewrite <- E, firstn_app, Nat.sub_diag, firstn_all. cbn [firstn]. rewrite app_nil_r. apply case_letters; assumption.
Qed.
Lemma parse_infnan_eq f neg p : first_letter p -> let s := minus neg ++ p in
  parse_infnan f s =
    if (3 <=? len p) && strncasecmp (firstn 3 p) (s2z "nan") then
      let r := skipn 3 p in
      let rest := match r with c :: q => if c =? ch "(" then match nan_loop q with Some x => x | None => r end else r | [] => r end in
      Ok (FFRes rest EOk (Some (word f neg (2 ^ (f_mb f - 1)) (f_inf f))))
    else if (3 <=? len p) && strncasecmp (firstn 3 p) (s2z "inf") then
      let rest := if (8 <=? len p) && strncasecmp (firstn 5 (skipn 3 p)) (s2z "inity") then skipn 8 p else skipn 3 p in
      Ok (FFRes rest EOk (Some (word f neg 0 (f_inf f))))
    else Ok (FFRes s EInvalid None).
Proof.
  intros [c [r [-> [C1 [C2 C3]]]]]. cbv zeta. destruct neg; cbn [minus app].
  - unfold parse_infnan. change (ch "-" =? ch "-") with true. cbn match. destruct (3 <=? len (c :: r)); reflexivity.
  - unfold parse_infnan. replace (c =? ch "-") with false by lia. destruct (3 <=? len (c :: r)); reflexivity.
Qed.
Lemma l_nan : Forall lower (s2z "nan"). Proof. now apply lower_all. Qed.
Lemma l_inf : Forall lower (s2z "inf"). Proof. now apply lower_all. Qed.
Lemma l_inity : Forall lower (s2z "inity"). Proof. now apply lower_all. Qed.
Lemma has_nan_inf p : has p (s2z "nan") -> has p (s2z "inf") -> False.
Proof.
  intros [a [b [-> A]]] [a' [b' [E B]]]. inversion A as [|x l r q X _ E1 E2]; subst. inversion B as [|x' l' r' q' X' _ E3 E4]; subst. cbn [app] in E. injection E as <- _.
  lia.
Qed.
Lemma infinity_dec p : has p (s2z "inf") -> ((8 <=? len p) && strncasecmp (firstn 5 (skipn 3 p)) (s2z "inity") = true) <-> has p (s2z "infinity").
Proof.
  intros [a [b [-> A]]]. assert (LA := letters_len _ _ A). change (length (s2z "inf")) with 3%nat in LA.
  replace (skipn 3 (a ++ b)) with b by (rewrite <- LA, skipn_app, Nat.sub_diag, skipn_all; reflexivity).
  assert (Q : (8 <=? len (a ++ b)) = (len (s2z "inity") <=? len b)) by (rewrite len_app; unfold len; change (length (s2z "inity")) with 5%nat; rewrite LA; lia).
  rewrite Q. change 5%nat with (length (s2z "inity")). rewrite has_dec by apply l_inity. split.
  - intros [x [y [-> X]]]. exists (a ++ x), y. split; [apply app_assoc|]. change (s2z "infinity") with (s2z "inf" ++ s2z "inity"). now apply Forall2_app.
  - intros [x [y [E X]]]. change (s2z "infinity") with (s2z "inf" ++ s2z "inity") in X. apply Forall2_app_inv_r in X. destruct X as [x1 [x2 [X1 [X2 ->]]]].
    exists x2, y. split; [|exact X2]. assert (LX := letters_len _ _ X1). change (length (s2z "inf")) with 3%nat in LX.
    rewrite <- app_assoc in E. apply (f_equal (skipn 3)) in E. rewrite <- LA in E at 1. rewrite <- LX in E. rewrite !skipn_app, !Nat.sub_diag, !skipn_all in E. exact E.
Qed.
Lemma from_special rn f s : bytes s -> s <> [] -> no_number s -> from_chars_float rn f s = parse_infnan f s.
Proof. intros BY SN NN. unfold from_chars_float. rewrite (parse_none s BY SN NN). destruct s; [contradiction|reflexivity]. Qed.

Theorem from_chars_special rn f eb t rest neg nan : fok f eb -> bytes (t ++ rest) -> special_text t neg nan -> longest_special t rest ->
  exists w, from_chars_float rn f (t ++ rest) = Ok (FFRes rest EOk (Some w)) /\ b_neg (f_mb f) eb w = neg /\
  (if nan then b_nan (f_mb f) eb w else b_infinite (f_mb f) eb w).
Proof.
  intros F BY SP LG. assert (NN := special_no_number t neg nan rest SP).
  assert (SN : t ++ rest <> []).
  { destruct (special_shape t neg nan SP) as [p [-> [c [r [-> _]]]]]. destruct neg; discriminate. }
  rewrite (from_special rn f _ BY SN NN). destruct (special_shape t neg nan SP) as [p0 [T0 FL]].
  assert (FLR : first_letter (p0 ++ rest)) by (destruct FL as [c [r [-> H]]]; exists c, (r ++ rest); split; [reflexivity|exact H]).
  rewrite T0, <- app_assoc. rewrite (parse_infnan_eq f neg (p0 ++ rest) FLR).
  assert (NAN : 3 <=? len (p0 ++ rest) = (len (s2z "nan") <=? len (p0 ++ rest))) by reflexivity.
  assert (HN := has_dec (p0 ++ rest) (s2z "nan") l_nan). assert (HI := has_dec (p0 ++ rest) (s2z "inf") l_inf).
  change (len (s2z "nan")) with 3 in HN. change (length (s2z "nan")) with 3%nat in HN. change (len (s2z "inf")) with 3 in HI. change (length (s2z "inf")) with 3%nat in HI.
  assert (P0 : forall s, minus neg ++ p0 = minus neg ++ s -> p0 = s) by (intros s H; now apply app_inv_head in H).
  (* the rest behind the letters *)
  assert (SK : forall s pat, letters s pat -> skipn (length pat) (s ++ rest) = rest).
  { intros s pat H. rewrite <- (letters_len _ _ H), skipn_app, Nat.sub_diag, skipn_all. reflexivity. }
  destruct SP as [neg s L|neg s L|neg s L|neg s p L W]; rewrite text_minus in *; rewrite (P0 _ (eq_sym T0)) in *; clear P0 p0 T0 NAN.
  - assert (H1 : has (s ++ rest) (s2z "inf")) by (exists s, rest; now split).
    destruct ((3 <=? len (s ++ rest)) && strncasecmp (firstn 3 (s ++ rest)) (s2z "nan")) eqn:C1; [exfalso; apply (has_nan_inf (s ++ rest)); tauto|].
    rewrite (proj2 HI H1). assert (IN := infinity_dec (s ++ rest) H1). cbv zeta.
    destruct ((8 <=? len (s ++ rest)) && strncasecmp (firstn 5 (skipn 3 (s ++ rest))) (s2z "inity")) eqn:C2.
    + exfalso. destruct (proj1 IN eq_refl) as [a [b [E A]]].
      change (s2z "infinity") with (s2z "inf" ++ s2z "inity") in A. apply Forall2_app_inv_r in A. destruct A as [a1 [a2 [A1 [A2 ->]]]].
      assert (LS := letters_len _ _ L). assert (LA := letters_len _ _ A1). assert (R : s = a1 /\ rest = a2 ++ b).
      { rewrite <- app_assoc in E. assert (Q := f_equal (firstn (length s)) E). assert (Q2 := f_equal (skipn (length s)) E).
        replace (length s) with (length a1) in Q at 2 by congruence. replace (length s) with (length a1) in Q2 at 2 by congruence.
        rewrite !firstn_app, !Nat.sub_diag, !firstn_all in Q. rewrite !skipn_app, !Nat.sub_diag, !skipn_all in Q2. cbn in Q, Q2. rewrite !app_nil_r in Q. now split. }
      destruct R as [<- R]. assert (X : a2 = []).
      { apply (LG a2 b neg false R). rewrite <- app_assoc. apply sp_infinity. change (s2z "infinity") with (s2z "inf" ++ s2z "inity"). now apply Forall2_app. }
      subst a2. inversion A2.
    + rewrite (SK s (s2z "inf") L : skipn 3 (s ++ rest) = rest). eexists. split; [reflexivity|]. apply (inf_word f eb neg F).
  - assert (H1 : has (s ++ rest) (s2z "infinity")) by (exists s, rest; now split).
    assert (H2 : has (s ++ rest) (s2z "inf")).
    { destruct H1 as [a [b [E A]]]. change (s2z "infinity") with (s2z "inf" ++ s2z "inity") in A. apply Forall2_app_inv_r in A. destruct A as [a1 [a2 [A1 [A2 ->]]]].
      exists a1, (a2 ++ b). split; [rewrite E; now rewrite app_assoc|exact A1]. }
    destruct ((3 <=? len (s ++ rest)) && strncasecmp (firstn 3 (s ++ rest)) (s2z "nan")) eqn:C1; [exfalso; apply (has_nan_inf (s ++ rest)); tauto|].
    rewrite (proj2 HI H2). cbv zeta. rewrite (proj2 (infinity_dec (s ++ rest) H2) H1).
    rewrite (SK s (s2z "infinity") L : skipn 8 (s ++ rest) = rest). eexists. split; [reflexivity|]. apply (inf_word f eb neg F).
  - assert (H1 : has (s ++ rest) (s2z "nan")) by (exists s, rest; now split).
    rewrite (proj2 HN H1). cbv zeta. rewrite (SK s (s2z "nan") L : skipn 3 (s ++ rest) = rest).
    eexists. split; [|apply (nan_word f eb neg F)]. f_equal. f_equal. destruct rest as [|c q]; [reflexivity|].
    destruct (Z.eqb_spec c (ch "(")) as [->|]; [|reflexivity]. destruct (nan_loop q) as [x|] eqn:NL; [|reflexivity]. exfalso.
    apply nan_loop_spec in NL. destruct NL as [p [W ->]]. enough ([ch "("] ++ p ++ [ch ")"] = []) by discriminate.
    apply (LG ([ch "("] ++ p ++ [ch ")"]) x neg true); [now rewrite <- !app_assoc|]. rewrite <- app_assoc. now apply sp_nan_code.
  - rewrite <- !app_assoc in *. set (tl := [ch "("] ++ p ++ [ch ")"] ++ rest) in *.
    assert (H1 : has (s ++ tl) (s2z "nan")) by (exists s, tl; now split).
    rewrite (proj2 HN H1). cbv zeta.
    assert (SK3 : skipn 3 (s ++ tl) = tl) by (assert (LS := letters_len _ _ L); change (length (s2z "nan")) with 3%nat in LS; rewrite <- LS, skipn_app, Nat.sub_diag, skipn_all; reflexivity).
    rewrite SK3. unfold tl. cbn [app]. change (ch "(" =? ch "(") with true. cbn match.
    assert (NL : nan_loop (p ++ ch ")" :: rest) = Some rest) by (apply nan_loop_spec; exists p; now split). rewrite NL.
    eexists. split; [reflexivity|]. apply (nan_word f eb neg F).
Qed.
Theorem from_chars_invalid rn f s : bytes s -> no_number s -> no_special s -> from_chars_float rn f s = Ok (FFRes s EInvalid None).
Proof.
  intros BY NN NS. destruct s as [|c r]; [reflexivity|]. rewrite (from_special rn f _ BY ltac:(discriminate) NN).
  unfold parse_infnan. set (m := c =? ch "-"). set (p := if m then r else c :: r).
  assert (TX : c :: r = minus m ++ p) by (unfold p, m; destruct (Z.eqb_spec c (ch "-")) as [->|]; reflexivity).
  clearbody p m. rewrite TX in *.
  destruct (3 <=? len p) eqn:L3; [|reflexivity].
  assert (HN := has_dec p (s2z "nan") l_nan). assert (HI := has_dec p (s2z "inf") l_inf).
  change (len (s2z "nan")) with 3 in HN. change (length (s2z "nan")) with 3%nat in HN. change (len (s2z "inf")) with 3 in HI. change (length (s2z "inf")) with 3%nat in HI.
  rewrite L3 in HN, HI. cbn [andb] in HN, HI.
  destruct (strncasecmp (firstn 3 p) (s2z "nan")).
  - exfalso. destruct (proj1 HN eq_refl) as [a [b [-> A]]]. apply (NS (minus m ++ a) b m true); [apply app_assoc|]. now apply sp_nan.
  - destruct (strncasecmp (firstn 3 p) (s2z "inf")); [|reflexivity].
    exfalso. destruct (proj1 HI eq_refl) as [a [b [-> A]]]. apply (NS (minus m ++ a) b m false); [apply app_assoc|]. now apply sp_inf.
Qed.

(** ** Every text has a result *)
Lemma longest_exists : forall n s t rest neg m e, (length rest <= n)%nat -> s = t ++ rest -> decimal_text t neg m e ->
  ~ ~ exists t rest neg m e, s = t ++ rest /\ decimal_text t neg m e /\ longest t rest.
Proof.
  induction n as [|n IH]; intros s t rest neg m e LN E DT K.
  - apply K. exists t, rest, neg, m, e. split; [exact E|]. split; [exact DT|]. intros a b neg' m' e' R _. destruct rest; [|cbn in LN; lia]. destruct a; [reflexivity|discriminate].
  - apply K. exists t, rest, neg, m, e. split; [exact E|]. split; [exact DT|]. intros a b neg' m' e' R D'.
    destruct a as [|x a]; [reflexivity|]. exfalso. apply (IH s (t ++ x :: a) b neg' m' e'); [|rewrite E, R; apply app_assoc|exact D'|exact K].
    rewrite R in LN. rewrite app_length in LN. cbn [length] in LN. lia.
Qed.
Lemma from_chars_text rn f eb t rest neg m e : fok f eb -> bytes (t ++ rest) -> decimal_text t neg m e -> longest t rest ->
  exists w ec, from_chars_float rn f (t ++ rest) = Ok (FFRes rest ec (Some w)).
Proof.
  intros F BY DT LG. destruct DT as [neg i ft d xt e DI FR EX NE]. rewrite text_minus in *.
  destruct (longest_facts neg i ft d xt e rest DI FR EX NE LG) as [S1 [SD [SX [n [PE SA]]]]].
  rewrite <- !app_assoc in *.
  assert (BY2 : bytes (i ++ ft ++ xt ++ rest)) by (apply Forall_app in BY; apply BY).
  destruct (parse_number_spec neg i ft d xt rest n BY2 DI FR NE S1 SD SX PE) as [pm [q [many [PN [NM YM]]]]].
  destruct (from_pns_good rn f eb q pm rest neg many i ft d (n - len d) F DI FR NM YM) as [a [FP G]].
  eexists; eexists. unfold from_chars_float. destruct (minus neg ++ i ++ ft ++ xt ++ rest) as [|c0 r0] eqn:TX.
  - exfalso. apply NE. apply app_eq_nil in TX. destruct TX as [_ TX]. apply app_eq_nil in TX. destruct TX as [-> TX]. apply app_eq_nil in TX. destruct TX as [-> _]. now inversion FR.
  - rewrite PN. cbn [bind]. exact FP.
Qed.
Theorem from_chars_total rn f eb s : fok f eb -> bytes s -> exists r k, from_chars_float rn f s = Ok r /\ s = k ++ r_rest r.
Proof.
  intros F BY.
  assert (INF : no_number s -> exists r k, from_chars_float rn f s = Ok r /\ s = k ++ r_rest r).
  { intros NN. destruct s as [|c r]; [exists (FFRes [] EInvalid None), []; now split|]. rewrite (from_special rn f _ BY ltac:(discriminate) NN).
    unfold parse_infnan. set (m := c =? ch "-"). set (p := if m then r else c :: r).
    assert (TX : c :: r = minus m ++ p) by (unfold p, m; destruct (Z.eqb_spec c (ch "-")) as [->|]; reflexivity).
    clearbody p m. rewrite TX.
    assert (SK : forall n, exists k, minus m ++ p = k ++ skipn n p) by (intros n; exists (minus m ++ firstn n p); rewrite <- app_assoc; now rewrite firstn_skipn).
    destruct (3 <=? len p); [|eexists; exists []; split; reflexivity].
    destruct (strncasecmp (firstn 3 p) (s2z "nan")).
    - destruct (SK 3%nat) as [k K]. destruct (skipn 3 p) as [|x q] eqn:S3; [eexists; exists k; split; [reflexivity|exact K]|].
      destruct (Z.eqb_spec x (ch "(")) as [->|]; [|eexists; exists k; split; [reflexivity|exact K]].
      destruct (nan_loop q) as [y|] eqn:NL; [|eexists; exists k; split; [reflexivity|exact K]].
      apply nan_loop_spec in NL. destruct NL as [pp [W ->]]. eexists. exists (k ++ [ch "("] ++ pp ++ [ch ")"]). split; [reflexivity|]. cbn [r_rest]. rewrite K, <- !app_assoc. reflexivity.
    - destruct (strncasecmp (firstn 3 p) (s2z "inf")); [|eexists; exists []; split; reflexivity].
      destruct ((8 <=? len p) && strncasecmp (firstn 5 (skipn 3 p)) (s2z "inity")); [destruct (SK 8%nat) as [k K]|destruct (SK 3%nat) as [k K]]; eexists; exists k; (split; [reflexivity|exact K]). }
  (* the statement is decidable, so the longest number need not be constructed *)
  assert (DEC : (exists r k, from_chars_float rn f s = Ok r /\ s = k ++ r_rest r) \/ ~ (exists r k, from_chars_float rn f s = Ok r /\ s = k ++ r_rest r)).
  { destruct (from_chars_float rn f s) as [r| |]; [|right; intros [r [k [H _]]]; discriminate|right; intros [r [k [H _]]]; discriminate].
    destruct (list_eq_dec Z.eq_dec (skipn (length s - length (r_rest r)) s) (r_rest r)) as [E|E].
    - left. exists r, (firstn (length s - length (r_rest r)) s). split; [reflexivity|]. rewrite <- E at 2. symmetry. apply firstn_skipn.
    - right. intros [r' [k [H K]]]. injection H as <-. apply E. rewrite K at 2. rewrite K at 1. rewrite app_length. replace (length k + length (r_rest r) - length (r_rest r))%nat with (length k) by lia.
      rewrite skipn_app, Nat.sub_diag, skipn_all. reflexivity. }
  destruct DEC as [H|NP]; [exact H|]. exfalso. apply NP, INF. intros a b neg m e E DT.
  apply (longest_exists (length b) s a b neg m e (le_n _) E DT). intros [t [rest [neg' [m' [e' [E' [D' LG]]]]]]].
  apply NP. clear - F BY E' D' LG. subst s. destruct (from_chars_text rn f eb t rest neg' m' e' F BY D' LG) as [w [ec H]].
  eexists. exists t. split; [exact H|reflexivity].
Qed.

(** ** A text of a binary number itself *)
Lemma nearest_exact mb eb neg x w : 1 <= mb -> 2 <= eb -> b_finite mb eb w -> b_neg mb eb w = neg -> (signed neg x == b_value mb eb w)%Q -> nearest mb eb neg x w.
Proof.
  intros M E F N V. split; [exact N|]. split.
  - intros L. exfalso. destruct (finite_canon mb eb M E w F) as [m [e [[C1 [C2 C3]] [EX [V' _]]]]]. rewrite N in V'.
    assert (X : (x == B m e)%Q) by (assert (H : (signed neg x == signed neg (B m e))%Q) by (rewrite V; exact V'); apply (signed_wd neg) in H; now rewrite !signed_signed in H).
    rewrite limit_B in L. assert (P := pow_mb mb M). assert (P2 := pow_mb2 mb M). assert (P0 := pow_mb_pos mb M).
    assert (LT : (B m e < B (2 ^ (mb + 2) - 1) (emx mb eb - 1))%Q).
    { apply Qle_lt_trans with (B (2 ^ (mb + 1) - 1) (emx mb eb)); [apply Qle_trans with (B m (emx mb eb)); [apply B_mono; lia|apply B_le; lia]|].
      apply (B_cmp_lt _ _ _ _ (emx mb eb - 1)); [lia|lia|]. replace (emx mb eb - (emx mb eb - 1)) with 1 by lia. rewrite Z.sub_diag. lia. }
    lra.
  - intros L. split; [exact F|]. intros w' F'.
    assert (D : (Qabs (signed neg x - b_value mb eb w) == 0)%Q) by (rewrite V; setoid_replace (b_value mb eb w - b_value mb eb w)%Q with 0%Q by ring; reflexivity).
    rewrite D. split; [apply Qabs_nonneg|]. intros H NE. exfalso. apply NE. rewrite <- V.
    assert (A := Qabs_Qle_condition (signed neg x - b_value mb eb w') 0). rewrite <- H in A. destruct A as [A _]. specialize (A (Qle_refl _)). lra.
Qed.
Theorem from_chars_exact rn f eb t rest neg m e w : fok f eb -> bytes (t ++ rest) -> decimal_text t neg m e -> longest t rest ->
  len t + 400 <= 2 ^ 28 -> b_finite (f_mb f) eb w -> b_neg (f_mb f) eb w = neg -> (signed neg (decimal m e) == b_value (f_mb f) eb w)%Q ->
  from_chars_float rn f (t ++ rest) = Ok (FFRes rest EOk (Some w)).
Proof.
  intros F BY DT LG LT FW NW V. destruct (fok_facts f eb F) as [M [E _]].
  destruct (from_chars_number rn f eb t rest neg m e F BY DT LG LT) as [w' [ec [H [N [C1 C2]]]]].
  assert (MN : 0 <= m).
  { destruct DT as [neg i ft d xt e DI FR _ _]. assert (digs (i ++ d)) by (apply digs_app; split; [exact DI|destruct FR; [constructor|assumption]]). apply dec_range. assumption. }
  assert (W : w' = w) by (apply (nearest_unique _ _ M E neg (decimal m e)); [now apply decimal_nonneg|exact N|now apply nearest_exact]).
  subst w'. rewrite H. f_equal. f_equal. apply C2.
  - intros [_ [I _]]. destruct FW as [_ FW]. lia.
  - intros [M0 [_ [Z1 Z2]]].
    assert (VZ : (b_value (f_mb f) eb w == 0)%Q).
    { unfold b_value. rewrite Z1, Z2. cbn [Z.eqb]. rewrite (signed_wd _ _ 0%Q) by (change (inject_Z 0) with 0%Q; ring). destruct (b_neg (f_mb f) eb w); reflexivity. }
    assert (DP : (decimal 0 e < decimal m e)%Q) by (apply decimal_lt; lia). rewrite decimal_0 in DP. rewrite VZ in V. destruct neg; cbn [signed] in V; lra.
Qed.

(** ** A text with more than 2^31 digits: the exponent is cut off *)
Definition huge_text : list Z := s2z "0." ++ repeat (ch "0") (Z.to_nat 2684354559) ++ s2z "1e2684354560".
Lemma repeat_zeros n : zeros (repeat (ch "0") n).
Proof. induction n; [constructor|]. cbn [repeat]. now constructor. Qed.
Lemma huge_len : len (repeat (ch "0") (Z.to_nat 2684354559)) = 2684354559.
Proof. unfold len. rewrite repeat_length. lia. Qed.
Lemma huge_decimal : decimal_text huge_text false 1 0.
Proof.
  unfold huge_text.
  assert (ZS := repeat_zeros (Z.to_nat 2684354559)). assert (LZ := huge_len). revert ZS LZ. generalize (repeat (ch "0") (Z.to_nat 2684354559)). intros zs ZS LZ.
  assert (E1 : dec (s2z "0" ++ zs ++ s2z "1") = 1) by (rewrite !dec_app, (zeros_dec zs ZS); change (dec (s2z "0")) with 0; change (dec (s2z "1")) with 1; change (len (s2z "1")) with 1; lia).
  assert (E2 : 2684354560 - len (zs ++ s2z "1") = 0) by (rewrite len_app, LZ; reflexivity).
  
  enough (H : decimal_text (s2z "0." ++ zs ++ s2z "1e2684354560") false (dec (s2z "0" ++ zs ++ s2z "1")) (2684354560 - len (zs ++ s2z "1"))) by (now rewrite E1, E2 in H).
  replace (s2z "0." ++ zs ++ s2z "1e2684354560") with ((if false then [ch "-"] else []) ++ s2z "0" ++ (ch "." :: (zs ++ s2z "1")) ++ (ch "e" :: s2z "2684354560"))
    by (cbn [app]; rewrite <- !app_assoc; reflexivity).
  apply (decimal_text_intro false (s2z "0") (ch "." :: (zs ++ s2z "1")) (zs ++ s2z "1") (ch "e" :: s2z "2684354560") 2684354560).
  - repeat constructor; discriminate.
  - constructor. apply digs_app. split; [now apply zeros_digs|repeat constructor; discriminate].
  - apply (ex_plain (ch "e") (s2z "2684354560")); [now left|discriminate|repeat constructor; discriminate].
  - discriminate.
Qed.
Lemma huge_result rn : from_chars_float rn f64 huge_text = Ok (FFRes [] ERange (Some 0)).
Proof.
  unfold huge_text. assert (ZS := repeat_zeros (Z.to_nat 2684354559)). assert (LZ := huge_len). revert ZS LZ. generalize (repeat (ch "0") (Z.to_nat 2684354559)). intros zs ZS LZ.
  set (d := zs ++ s2z "1"). assert (LD : len d = 2684354560) by (unfold d; rewrite len_app, LZ; reflexivity).
  assert (E1 : dec (s2z "0" ++ d) = 1) by (unfold d; rewrite !dec_app, (zeros_dec zs ZS); change (dec (s2z "0")) with 0; change (dec (s2z "1")) with 1; change (len (s2z "1")) with 1; lia).
  assert (DD : digs d) by (apply digs_app; split; [now apply zeros_digs|repeat constructor; discriminate]).
  assert (TX : s2z "0." ++ zs ++ s2z "1e2684354560" = minus false ++ s2z "0" ++ (ch "." :: d) ++ (ch "e" :: s2z "2684354560") ++ []).
  { unfold d. cbn [app minus]. rewrite <- !app_assoc. reflexivity. }
  assert (F : fok f64 11) by (left; split; reflexivity).
  destruct (parse_number_spec false (s2z "0") (ch "." :: d) d (ch "e" :: s2z "2684354560") [] 268435456) as [m [q [many [PN [NM YM]]]]].
  - apply Forall_app. split; [repeat constructor; discriminate|]. apply Forall_app. split; [|repeat constructor; discriminate].
    constructor; [split; [discriminate|reflexivity]|]. unfold d. apply Forall_app. split; [|repeat constructor; discriminate].
    clear - ZS. induction ZS as [|x l X _ IH]; [constructor|]. constructor; [subst x; split; [discriminate|reflexivity]|exact IH].
  - repeat constructor; discriminate.
  - now constructor.
  - discriminate.
  - cbn [app stops]. rewrite dig_range. change (ch ".") with 46. lia.
  - discriminate.
  - intros _. cbn [app stops]. rewrite dig_range. change (ch "e") with 101. lia.
  - reflexivity.
  - destruct (from_pns_good rn f64 11 q m [] false many (s2z "0") (ch "." :: d) d (268435456 - len d) F) as [a [FP G]]; [repeat constructor; discriminate|now constructor|exact NM|exact YM|].
    assert (A : a = AM 0 0).
    { apply (good_small f64 11 (decimal (dec (s2z "0" ++ d)) (268435456 - len d)) a F); [|exact G]. destruct (p400 f64 11 F) as [_ PS]. apply Qle_lt_trans with (2 := PS).
      rewrite E1. unfold decimal. change (inject_Z 1) with 1%Q. rewrite Qmult_1_l. apply p10_mono. lia. }
    unfold from_chars_float. rewrite TX. destruct (minus false ++ s2z "0" ++ (ch "." :: d) ++ (ch "e" :: s2z "2684354560") ++ []) as [|c0 r0] eqn:E0; [discriminate|].
    rewrite PN. cbn [bind]. rewrite FP, A, E1. reflexivity.
Qed.
