(** Proofs about scan_rhex: exact arithmetic, and the texts that are read correctly. *)
From Verif Require Import Base BaseLemmas ScanModel SubstrModel CharconvModel CharconvSpec CharconvProofs3 SpanNumModel SpanNumSpec Base64Model.
From Verif Require Import FloatTable FloatModel FloatSpec FloatProofs1 FloatProofs2 FloatProofs7 FloatProofs8 FloatProofs11 FloatProofs14 FloatProofs15 FloatProofs16 FloatProofs17.
From Verif Require Import RealModel RealSpec RealProofs.
From Coq Require Import Qpower Lqa Lia.
Open Scope Z_scope.

(** ** Exact arithmetic *)
(** [v] is the number [x], not negative *)
Definition isval (f : fmt) (eb : Z) (v : fval) (x : Q) : Prop :=
  exists m e, v = Fin false m e /\ canon (f_mb f) eb m e /\ e <= emx (f_mb f) eb /\ rounds (f_mb f) eb x m e /\ (B m e == x)%Q.
Definition rep (f : fmt) (eb : Z) (x : Q) : Prop :=
  exists a t, 0 <= a < 2 ^ (f_mb f + 1) /\ emn (f_mb f) eb <= t <= 0 /\ (x == B a t)%Q.
Lemma canon_ex mb eb a t : 1 <= mb -> 0 <= a < 2 ^ (mb + 1) -> emn mb eb <= t -> exists m e, canon mb eb m e /\ (B m e == B a t)%Q.
Proof.
  intros M A T. assert (P0 : 0 < 2 ^ mb) by (apply Z.pow_pos_nonneg; lia).
  destruct (Z.eq_dec a 0) as [->|A0].
  - exists 0, (emn mb eb). split; [unfold canon; assert (P1 := pow_mb mb M); lia|]. now rewrite !B_0.
  - destruct (Z.log2_spec a ltac:(lia)) as [L1 L2]. set (l := Z.log2 a) in *.
    assert (LR : 0 <= l <= mb).
    { split; [apply Z.log2_nonneg|]. assert (l < mb + 1) by (apply Z.log2_lt_pow2; lia). lia. }
    set (k := Z.min (mb - l) (t - emn mb eb)). assert (K : 0 <= k) by lia.
    exists (a * 2 ^ k), (t - k). split.
    + assert (PK : 0 < 2 ^ k) by (apply Z.pow_pos_nonneg; lia). split; [split; [apply Z.mul_nonneg_nonneg; lia|]|].
      * apply Z.lt_le_trans with (2 ^ Z.succ l * 2 ^ k); [apply Z.mul_lt_mono_pos_r; lia|]. rewrite <- Z.pow_add_r by lia. apply Z.pow_le_mono_r; lia.
      * split; [lia|]. destruct (Z.le_gt_cases (mb - l) (t - emn mb eb)) as [C|C]; [left|right; lia].
        replace k with (mb - l) by lia. replace mb with (l + (mb - l)) at 1 by lia. rewrite Z.pow_add_r by lia. apply Z.mul_le_mono_nonneg_r; [apply Z.pow_nonneg; lia|lia].
    + rewrite (B_down a t (t - k)) by lia. replace (t - (t - k)) with k by lia. reflexivity.
Qed.
Lemma rep_limit f eb x : fok f eb -> rep f eb x -> (x < b_limit (f_mb f) eb)%Q.
Proof.
  intros F [a [t [A [T E]]]]. rewrite E. apply Qle_lt_trans with (B a 0); [apply B_mono; lia|].
  assert (E2 : (B a 0 == inject_Z a)%Q) by (unfold B; change (p2 0) with 1%Q; ring). rewrite E2. apply (fp_limit f eb a F).
  assert (P : 0 < 10 ^ f_fpmax f) by (destruct (fp_range f eb F); apply Z.pow_pos_nonneg; lia).
  assert (2 ^ (f_mb f + 1) * 1 <= 2 ^ (f_mb f + 1) * 10 ^ f_fpmax f) by (apply Z.mul_le_mono_nonneg_l; lia). lia.
Qed.
Lemma fround_exact f eb n d x : fok f eb -> 0 <= n -> 0 < d -> (ratio n d == x)%Q -> rep f eb x -> isval f eb (fround f false n d) x.
Proof.
  intros F N D E R. assert (L := rep_limit f eb x F R). destruct (fok_facts f eb F) as [M [EB [EM [I [_ [I2 _]]]]]].
  assert (S := rne_spec f eb n d F N D). unfold fround. destruct (rne f n d) as [m e]. destruct S as [C S].
  apply (rounds_wd _ _ _ x) in S; [|exact E].
  destruct R as [a [t [A [T RE]]]]. destruct (canon_ex (f_mb f) eb a t M A ltac:(lia)) as [m0 [e0 [C0 E0]]].
  assert (EX := rounds_exact _ _ _ m e m0 e0 M C S C0 ltac:(rewrite E0, RE; reflexivity)).
  unfold too_big. destruct (Z.leb_spec (f_inf f) (e - emin f + 1)) as [K|K].
  - exfalso. assert (X := rounds_above_limit _ _ M EB _ m e C ltac:(lia) S). lra.
  - exists m, e. repeat (split; [first [reflexivity|assumption|lia]|]). exact EX.
Qed.
Lemma isval_wd f eb v x y : fok f eb -> (x == y)%Q -> isval f eb v x -> isval f eb v y.
Proof.
  intros F E [m [e [-> [C [X [R Q]]]]]]. exists m, e. repeat (split; [first [reflexivity|assumption]|]). split; [now apply (rounds_wd _ _ x)|now rewrite Q].
Qed.
Lemma isval_of_int f eb i : fok f eb -> 0 <= i < 2 ^ (f_mb f + 1) -> isval f eb (of_int f i) (inject_Z i).
Proof.
  intros F I. unfold of_int. apply fround_exact; [exact F|lia|lia|apply ratio_1|]. exists i, 0. split; [exact I|]. split.
  - destruct F as [[-> ->]|[-> ->]]; vm_compute; split; discriminate.
  - unfold B. change (p2 0) with 1%Q. ring.
Qed.
Lemma isval_mul f eb u v x y : fok f eb -> isval f eb u x -> isval f eb v y -> rep f eb (x * y) -> isval f eb (fmul f u v) (x * y).
Proof.
  intros F [m1 [e1 [-> [C1 [_ [_ E1]]]]]] [m2 [e2 [-> [C2 [_ [_ E2]]]]]] R. cbn [fmul xorb].
  assert (R1 := frac_ratio m1 e1). assert (R2 := frac_ratio m2 e2). destruct (frac m1 e1) as [n1 d1]. destruct (frac m2 e2) as [n2 d2].
  destruct R1 as [D1 [R1 [P1 _]]]. destruct R2 as [D2 [R2 [P2 _]]]. unfold canon in *.
  apply fround_exact; [exact F|apply Z.mul_nonneg_nonneg; [apply P1|apply P2]; lia|now apply Z.mul_pos_pos| |exact R].
  now rewrite ratio_mul, R1, R2, E1, E2.
Qed.
Lemma B_zero m e : 0 <= m -> (B m e == 0)%Q -> m = 0.
Proof. intros H E. rewrite <- (B_0 e) in E. now apply B_eq in E. Qed.
Lemma isval_div f eb u v x y : fok f eb -> isval f eb u x -> isval f eb v y -> (0 < y)%Q -> rep f eb (x / y) -> isval f eb (fdiv f u v) (x / y).
Proof.
  intros F [m1 [e1 [-> [C1 [_ [_ E1]]]]]] [m2 [e2 [-> [C2 [_ [_ E2]]]]]] Y R. cbn [fdiv xorb]. unfold canon in *.
  assert (M2 : 0 < m2). { destruct (Z.eq_dec m2 0) as [->|N]; [exfalso|lia]. rewrite B_0 in E2. lra. }
  replace (m2 =? 0) with false by lia.
  assert (R1 := frac_ratio m1 e1). assert (R2 := frac_ratio m2 e2). destruct (frac m1 e1) as [n1 d1]. destruct (frac m2 e2) as [n2 d2].
  destruct R1 as [D1 [R1 [P1 _]]]. destruct R2 as [D2 [R2 [_ P2]]].
  apply fround_exact; [exact F|apply Z.mul_nonneg_nonneg; [apply P1|]; lia|apply Z.mul_pos_pos; auto| |exact R].
  rewrite ratio_div, R1, R2, E1, E2 by auto. reflexivity.
Qed.
Lemma ratio_plus n1 d1 n2 d2 : 0 < d1 -> 0 < d2 -> (ratio (n1 * d2 + n2 * d1) (d1 * d2) == ratio n1 d1 + ratio n2 d2)%Q.
Proof. intros A C. apply iZ_pos in A, C. unfold ratio. rewrite inject_Z_plus, !inject_Z_mult. field. lra. Qed.
Lemma isval_zero f eb : fok f eb -> isval f eb (Fin false 0 (emin f)) 0.
Proof.
  intros F. assert (H := isval_of_int f eb 0 F ltac:(split; [lia|apply Z.pow_pos_nonneg; destruct (fok_facts f eb F); lia])).
  assert (E : of_int f 0 = Fin false 0 (emin f)) by (destruct F as [[-> _]|[-> _]]; reflexivity). rewrite <- E. exact H.
Qed.
Lemma isval_add f eb u v x y : fok f eb -> isval f eb u x -> isval f eb v y -> rep f eb (x + y) -> isval f eb (fadd f u v) (x + y).
Proof.
  intros F [m1 [e1 [-> [C1 [_ [_ E1]]]]]] [m2 [e2 [-> [C2 [_ [_ E2]]]]]] R. cbn [fadd andb].
  assert (R1 := frac_ratio m1 e1). assert (R2 := frac_ratio m2 e2). destruct (frac m1 e1) as [n1 d1]. destruct (frac m2 e2) as [n2 d2].
  destruct R1 as [D1 [R1 [P1 _]]]. destruct R2 as [D2 [R2 [P2 _]]]. unfold canon in *.
  assert (N1 : 0 <= n1) by (apply P1; lia). assert (N2 : 0 <= n2) by (apply P2; lia).
  assert (Q := ratio_plus n1 d1 n2 d2 D1 D2). rewrite R1, R2, E1, E2 in Q.
  assert (NN : 0 <= n1 * d2 + n2 * d1) by (apply Z.add_nonneg_nonneg; apply Z.mul_nonneg_nonneg; lia).
  set (n := n1 * d2 + n2 * d1) in *. destruct (Z.eqb_spec n 0) as [K|K].
  - apply (isval_wd f eb _ 0); [exact F| |now apply isval_zero]. rewrite <- Q, K. unfold ratio. change (inject_Z 0) with 0%Q. unfold Qdiv. ring.
  - replace (n <? 0) with false by lia. replace (Z.abs n) with n by lia. apply fround_exact; auto. now apply Z.mul_pos_pos.
Qed.

(** ** The sign and the word *)
Lemma fround_neg f (s : bool) n d : fround f (negb s) n d = fneg (fround f s n d).
Proof. unfold fround. destruct (rne f n d) as [m e]. destruct (too_big f e); reflexivity. Qed.
Lemma xorb_negb s t : xorb s (negb t) = negb (xorb s t). Proof. now destruct s, t. Qed.
Lemma fmul_neg f u v : fmul f u (fneg v) = fneg (fmul f u v).
Proof.
  destruct u as [s1 m1 e1|s1|], v as [s2 m2 e2|s2|]; cbn [fmul fneg]; try reflexivity.
  - destruct (frac m1 e1), (frac m2 e2). now rewrite xorb_negb, fround_neg.
  - destruct (m1 =? 0); [reflexivity|]. cbn [fneg]. now rewrite xorb_negb.
  - destruct (m2 =? 0); [reflexivity|]. cbn [fneg]. now rewrite xorb_negb.
  - now rewrite xorb_negb.
Qed.
Lemma isval_nearest f eb v x (neg : bool) : fok f eb -> (0 <= x)%Q -> isval f eb v x ->
  nearest (f_mb f) eb neg x (encode f (if neg then fneg v else v)).
Proof.
  intros F X [m [e [-> [C [L [R _]]]]]]. destruct (fok_facts f eb F) as [M [EB [EM [I [_ [I2 _]]]]]].
  assert (E : encode f (if neg then fneg (Fin false m e) else Fin false m e) = to_float f neg (fam f m e)).
  { unfold fam, too_big. replace (f_inf f <=? e - emin f + 1) with false by lia. destruct neg; cbn [fneg negb encode]; destruct (m <? 2 ^ f_mb f); reflexivity. }
  rewrite E. apply good_nearest; [exact F|exact X|]. now apply fam_good.
Qed.
Lemma rep_B f eb a k : fok f eb -> 0 <= a < 2 ^ (f_mb f + 1) -> 0 <= k <= - emn (f_mb f) eb -> rep f eb (B a (- k)).
Proof. intros F A K. exists a, (- k). split; [exact A|]. split; [lia|reflexivity]. Qed.
Lemma rep_wd f eb x y : (x == y)%Q -> rep f eb x -> rep f eb y.
Proof. intros E [a [t [A [T R]]]]. exists a, t. split; [exact A|]. split; [exact T|]. now rewrite <- E. Qed.

(** ** The digits *)
Definition small_digits (s ds : list Z) : Prop := Forall2 (fun c d => c = 48 + d /\ 0 <= d <= 9) s ds.
Lemma rhex_small d : 0 <= d <= 9 -> rhex_digit (48 + d) = Some d.
Proof.
  intros H. unfold rhex_digit, schar. replace (48 + d <? 128) with true by lia. change (ch "0") with 48. change (ch "9") with 57.
  replace ((48 <=? 48 + d) && (48 + d <=? 57)) with true by lia. f_equal. lia.
Qed.
Definition pos_from (a : Z) (ds : list Z) : Z := fold_left (fun a d => a * 16 + d) ds a.
Lemma pos_from_ge s ds : small_digits s ds -> forall a, 0 <= a -> a <= pos_from a ds.
Proof.
  intros H. induction H as [|c d s ds [_ H] HS IH]; intros a A; cbn [pos_from fold_left]; [lia|]. fold (pos_from (a * 16 + d) ds).
  specialize (IH (a * 16 + d) ltac:(lia)). lia.
Qed.
Lemma mb_big f eb : fok f eb -> 2 ^ 24 <= 2 ^ (f_mb f + 1).
Proof. intros [[-> _]|[-> _]]; vm_compute; discriminate. Qed.
Lemma emn_big f eb : fok f eb -> 100 <= - emn (f_mb f) eb.
Proof. intros [[-> ->]|[-> ->]]; vm_compute; discriminate. Qed.
Lemma B0i a : (B a 0 == inject_Z a)%Q. Proof. unfold B. change (p2 0) with 1%Q. ring. Qed.
Lemma rep_int f eb a : fok f eb -> 0 <= a < 2 ^ (f_mb f + 1) -> rep f eb (inject_Z a).
Proof. intros F A. apply (rep_wd f eb (B a (- 0))); [apply B0i|]. apply rep_B; auto. pose proof (emn_big f eb F). lia. Qed.
Lemma int_digits f eb i di : fok f eb -> small_digits i di -> forall a v r, 0 <= a -> isval f eb v (inject_Z a) -> pos_from a di < 2 ^ (f_mb f + 1) ->
  exists v', rhex_int f (i ++ r) v = rhex_int f r v' /\ isval f eb v' (inject_Z (pos_from a di)).
Proof.
  intros F H. assert (BG := mb_big f eb F). induction H as [|c d s ds [-> D] HS IH]; intros a v r A V L; cbn [app].
  - exists v. split; [reflexivity|exact V].
  - cbn [rhex_int]. rewrite rhex_small by exact D. cbn [pos_from fold_left] in L |- *. fold (pos_from (a * 16 + d) ds) in L |- *.
    assert (G := pos_from_ge s ds HS (a * 16 + d) ltac:(lia)).
    apply IH; [lia| |exact L].
    apply (isval_wd f eb _ (inject_Z a * inject_Z 16 + inject_Z d)); [exact F|rewrite inject_Z_plus, inject_Z_mult; reflexivity|].
    apply isval_add; [exact F| |apply isval_of_int; [exact F|lia]|].
    + apply isval_mul; [exact F|exact V|apply isval_of_int; [exact F|lia]|]. rewrite <- inject_Z_mult. apply rep_int; [exact F|lia].
    + rewrite <- inject_Z_mult, <- inject_Z_plus. apply rep_int; [exact F|lia].
Qed.
Lemma B_up16 a k : (B a (- (4 * k)) == B (a * 16) (- (4 * (k + 1))))%Q.
Proof. rewrite (B_down a (- (4 * k)) (- (4 * (k + 1)))) by lia. replace (- (4 * k) - - (4 * (k + 1))) with 4 by lia. reflexivity. Qed.
Lemma len_cons {A} (a : A) l : len (a :: l) = 1 + len l. Proof. unfold len. cbn [length]. lia. Qed.
Lemma frac_digits f eb g dg : fok f eb -> small_digits g dg -> forall a k dgt v, 0 <= a -> 0 <= k -> isval f eb v (B a (- (4 * k))) ->
  (g <> [] -> isval f eb dgt (B 1 (- (4 * (k + 1))))) -> pos_from a dg < 2 ^ (f_mb f + 1) -> 4 * (k + len dg) <= - emn (f_mb f) eb ->
  exists v', rhex_frac f g dgt v = Ok (true, v') /\ isval f eb v' (B (pos_from a dg) (- (4 * (k + len dg)))).
Proof.
  intros F H. assert (BG := mb_big f eb F). induction H as [|c d s ds [-> D] HS IH]; intros a k dgt v A K V DG L LK.
  - exists v. split; [reflexivity|]. change (len (@nil Z)) with 0 in *. replace (k + 0) with k by lia. exact V.
  - cbn [rhex_frac]. rewrite rhex_small by exact D. cbn [pos_from fold_left] in L |- *. fold (pos_from (a * 16 + d) ds) in L |- *.
    assert (G := pos_from_ge s ds HS (a * 16 + d) ltac:(lia)). specialize (DG ltac:(discriminate)).
    rewrite len_cons in *. assert (LN := len_nonneg ds).
    assert (I16 := isval_of_int f eb 16 F ltac:(lia)). assert (ID := isval_of_int f eb d F ltac:(lia)).
    replace (k + (1 + len ds)) with (k + 1 + len ds) in * by lia. apply IH; [lia|lia| | |exact L|lia].
    + apply (isval_wd f eb _ (B a (- (4 * k)) + B 1 (- (4 * (k + 1))) * inject_Z d)); [exact F| |].
      { rewrite (B_up16 a k), B_plus. unfold B. change (inject_Z 1) with 1%Q. ring. }
      assert (E : (B 1 (- (4 * (k + 1))) * inject_Z d == B d (- (4 * (k + 1))))%Q) by (unfold B; change (inject_Z 1) with 1%Q; ring).
      apply isval_add; [exact F|exact V| |].
      * apply isval_mul; [exact F|exact DG|exact ID|]. apply (rep_wd f eb (B d (- (4 * (k + 1))))); [now symmetry|]. apply rep_B; [exact F|lia|lia].
      * apply (rep_wd f eb (B (a * 16 + d) (- (4 * (k + 1))))); [now rewrite E, (B_up16 a k), B_plus|]. apply rep_B; [exact F|lia|lia].
    + intros NE. assert (LS : 1 <= len ds).
      { inversion HS as [E1 E2|c1 d1 s1 ds1 K1 K2 E1 E2]; subst; [now destruct NE|]. rewrite len_cons. pose proof (len_nonneg ds1). lia. }
      assert (E : (B 1 (- (4 * (k + 1))) / inject_Z 16 == B 1 (- (4 * (k + 1 + 1))))%Q).
      { rewrite (B_up16 1 (k + 1)). unfold B. rewrite inject_Z_mult. field. }
      apply (isval_wd f eb _ (B 1 (- (4 * (k + 1))) / inject_Z 16)); [exact F|exact E|].
      apply isval_div; [exact F|exact DG|exact I16|reflexivity|]. apply (rep_wd f eb (B 1 (- (4 * (k + 1 + 1))))); [now symmetry|]. apply rep_B; [exact F|lia|lia].
Qed.

(** ** The text *)
Lemma plain_digit c d : In c (s2z "+-.0123456789xX") -> char_digit c = Some d -> d < 16 -> c = 48 + d /\ 0 <= d <= 9.
Proof.
  intros I C D. cbn in I. unfold char_digit in C.
  repeat (destruct I as [<-|I]; [cbn in C; first [discriminate|injection C as <-; lia]|]). contradiction.
Qed.
Lemma plain_digits s ds : plain s -> hexdigs s ds -> small_digits s ds.
Proof.
  intros P H. induction H as [|c d s ds [C D] H IH]; [constructor|]. inversion P as [|? ? P1 P2]; subst. constructor; [now apply plain_digit|exact (IH P2)].
Qed.
Lemma plain_expo x e : plain x -> hex_expo x e -> x = [] /\ e = 0.
Proof.
  intros P H. destruct H as [|p d I|p d I|p d I]; [easy|..]; exfalso; inversion P as [|? ? P1 P2]; subst; cbn in I, P1; lia.
Qed.
Lemma pos_from_app a b c : pos_from a (b ++ c) = pos_from (pos_from a b) c. Proof. apply fold_left_app. Qed.
Lemma small_len s ds : small_digits s ds -> len ds = len s.
Proof. intros H. induction H; [reflexivity|]. rewrite !len_cons. now f_equal. Qed.
Lemma not_0x_digits s ds r : small_digits s ds -> (r = [] \/ exists g, r = ch "." :: g) -> begins_0x (s ++ r) = false.
Proof.
  intros H R. change (ch ".") with 46 in R. unfold begins_0x. change (ch "0") with 48. change (ch "x") with 120. change (ch "X") with 88.
  destruct H as [|c d s ds [-> D] H]; [|destruct H as [|c' d' s ds [-> D'] H]]; cbn [app].
  - destruct R as [->|[g ->]]; [reflexivity|]. now destruct g.
  - destruct R as [->|[g ->]]; [reflexivity|]. apply andb_false_r.
  - replace ((48 + d' =? 120) || (48 + d' =? 88)) with false by lia. apply andb_false_r.
Qed.
Lemma decode_0 f eb : fok f eb -> decode f 0 = Fin false 0 (emin f).
Proof. intros [[-> _]|[-> _]]; reflexivity. Qed.

Theorem atod_hex dbg rn f eb s neg m e : fok f eb -> len s < 2 ^ 64 -> hex_text s neg m e -> plain s -> m < 2 ^ (f_mb f + 1) -> - e <= b_bias eb + f_mb f - 1 ->
  exists w, atod dbg rn f s 0 = Ok (true, w) /\ nearest (f_mb f) eb neg (hex_value m e) w.
Proof.
  intros F LS H P M E. inversion H as [sg ng p i fr x di df k SG IP HI HF HX NE E1 E2 E3 E4]. subst ng m e. subst s.
  apply Forall_app in P. destruct P as [_ P]. inversion P as [|? ? _ P2]; subst. inversion P2 as [|? ? _ P3]; subst.
  apply Forall_app in P3. destruct P3 as [PI P3]. apply Forall_app in P3. destruct P3 as [PF PX]. destruct (plain_expo x k PX HX) as [-> ->].
  rewrite app_nil_r in *. assert (SI := plain_digits i di PI HI).
  assert (SF : (fr = [] /\ df = []) \/ exists g, fr = ch "." :: g /\ small_digits g df).
  { destruct HF as [|g ds HG]; [now left|right]. exists g. split; [reflexivity|]. inversion PF; subst. now apply plain_digits. }
  assert (FR : fr = [] \/ exists g, fr = ch "." :: g) by (destruct SF as [[-> _]|[g [-> _]]]; [now left|right; now exists g]).
  assert (ST : starts (sg ++ ch "0" :: p :: i ++ fr)).
  { destruct neg; [subst sg|destruct SG as [->| ->]]; eexists _, _; (split; [reflexivity|]); unfold blank; cbn; intros C; repeat (destruct C as [C|C]; [discriminate|]); exact C. }
  assert (UN : unsign (sg ++ ch "0" :: p :: i ++ fr) = ch "0" :: p :: i ++ fr) by (destruct neg; [subst sg|destruct SG as [->| ->]]; reflexivity).
  assert (HD : (nth 0 (sg ++ ch "0" :: p :: i ++ fr) 0 =? ch "-") = neg) by (destruct neg; [subst sg|destruct SG as [->| ->]]; reflexivity).
  rewrite atod_eq by assumption. rewrite UN, HD. cbn [begins_0x]. change (ch "0" =? ch "0") with true.
  replace ((p =? ch "x") || (p =? ch "X")) with true by (cbn in IP; change (ch "x") with 120; change (ch "X") with 88; lia).
  cbn [andb negb]. rewrite csub2. cbn [bind]. rewrite (decode_0 f eb F).
  assert (LI := len_nonneg di). assert (LF := len_nonneg df).
  assert (EM : - emn (f_mb f) eb = b_bias eb + f_mb f - 1) by (unfold emn; lia).
  assert (SC : exists v, scan_rhex dbg f (i ++ fr) (Fin false 0 (emin f)) = Ok (true, v) /\ isval f eb v (B (positional 16 (di ++ df)) (- (4 * len df)))).
  { assert (NEL : 0 < len (i ++ fr)).
    { destruct i as [|c i]; [|cbn [app]; rewrite len_cons; pose proof (len_nonneg (i ++ fr)); lia]. inversion SI; subst.
      destruct SF as [[-> ->]|[g [-> _]]]; [now destruct NE|]. cbn [app]. rewrite len_cons. pose proof (len_nonneg g). lia. }
    assert (HS : match i ++ fr with c :: _ => negb (c =? ch "-") && negb (c =? ch "+") | [] => true end = true).
    { change (ch "-") with 45. change (ch "+") with 43. destruct SI as [|c d s ds [-> D] SI]; cbn [app].
      - destruct FR as [->|[g ->]]; [reflexivity|]. reflexivity.
      - lia. }
    unfold scan_rhex, dassert. rewrite HS, (not_0x_digits i di fr SI FR). replace (0 <? len (i ++ fr)) with true by lia. cbn [negb]. rewrite !orb_true_r.
    fold (pos_from 0 (di ++ df)) in M |- *. change (positional 16 (di ++ df)) with (pos_from 0 (di ++ df)) in M |- *. rewrite pos_from_app in M |- *.
    assert (G0 : 0 <= pos_from 0 di) by (apply (pos_from_ge i di SI 0); lia).
    assert (G1 : pos_from 0 di <= pos_from (pos_from 0 di) df).
    { destruct SF as [[_ ->]|[g [_ SF]]]; [apply Z.le_refl|]. now apply (pos_from_ge g df SF). }
    destruct (int_digits f eb i di F SI 0 (Fin false 0 (emin f)) fr) as [v [-> V]]; [lia|now apply isval_zero|lia|].
    destruct SF as [[-> ->]|[g [-> SF]]].
    - exists v. split; [reflexivity|]. change (len (@nil Z)) with 0. apply (isval_wd f eb _ (inject_Z (pos_from 0 di))); [exact F|symmetry; apply B0i|exact V].
    - cbn [rhex_int]. change (rhex_digit (ch ".")) with (@None Z). cbn match. rewrite Z.eqb_refl.
      destruct (frac_digits f eb g df F SF (pos_from 0 di) 0 (fround f false 1 16) v) as [v' [-> V']]; [lia|lia| | |exact M|lia|].
      + apply (isval_wd f eb _ (inject_Z (pos_from 0 di))); [exact F|symmetry; apply B0i|exact V].
      + intros NG. apply fround_exact; [exact F|lia|lia|reflexivity|]. apply rep_B; [exact F|assert (BG := mb_big f eb F); lia|]. pose proof (emn_big f eb F). lia.
      + exists v'. split; [reflexivity|]. exact V'. }
  destruct SC as [v [-> V]]. cbn [bind]. eexists. split; [reflexivity|].
  assert (NN : 0 <= positional 16 (di ++ df)).
  { change (positional 16 (di ++ df)) with (pos_from 0 (di ++ df)). rewrite pos_from_app.
    assert (G0 : 0 <= pos_from 0 di) by (apply (pos_from_ge i di SI 0); lia).
    destruct SF as [[_ ->]|[g [_ SF]]]; [exact G0|]. apply Z.le_trans with (1 := G0). now apply (pos_from_ge g df SF). }
  assert (V1 : isval f eb (fmul f v (of_int f 1)) (hex_value (positional 16 (di ++ df)) (0 - 4 * len df))).
  { apply (isval_wd f eb _ (B (positional 16 (di ++ df)) (- (4 * len df)) * inject_Z 1)); [exact F| |].
    - change (inject_Z 1) with 1%Q. rewrite Qmult_1_r. unfold hex_value, B, p2. now replace (0 - 4 * len df) with (- (4 * len df)) by lia.
    - apply isval_mul; [exact F|exact V|apply isval_of_int; [exact F|assert (BG := mb_big f eb F); lia]|].
      apply (rep_wd f eb (B (positional 16 (di ++ df)) (- (4 * len df)))); [change (inject_Z 1) with 1%Q; now rewrite Qmult_1_r|]. apply rep_B; [exact F|lia|lia]. }
  assert (X : (0 <= hex_value (positional 16 (di ++ df)) (0 - 4 * len df))%Q).
  { apply (B_nonneg (positional 16 (di ++ df)) (0 - 4 * len df) NN). }
  assert (R := isval_nearest f eb _ _ neg F X V1). destruct neg; [rewrite fmul_neg|]; exact R.
Qed.
