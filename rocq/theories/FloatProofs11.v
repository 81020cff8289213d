(** parse_number_string reads the digits and the exponent. *)
From Verif Require Import Base BaseLemmas FloatTable FloatModel FloatSpec.
From Verif Require Import FloatProofs1 FloatProofs2 FloatProofs6 FloatProofs10.
From Coq Require Import Lia.
Open Scope Z_scope.

(** ** Leading zeros *)
Definition zeros (z : list Z) : Prop := Forall (fun c => c = ch "0") z.
Definition first_nz (s : list Z) : Prop := match s with [] => True | c :: _ => c <> ch "0" end.
Lemma zeros_digs z : zeros z -> digs z.
Proof. apply Forall_impl. intros c ->. unfold dig. rewrite ch0, ch9. lia. Qed.
Lemma zeros_dec z : zeros z -> dec z = 0.
Proof. induction 1 as [|c z C Z IH]; [reflexivity|]. rewrite dec_cons, IH, C, Z.sub_diag. lia. Qed.
Lemma zeros_app a b : zeros (a ++ b) <-> zeros a /\ zeros b. Proof. apply Forall_app. Qed.
Lemma split_zeros s : exists z r, s = z ++ r /\ zeros z /\ first_nz r.
Proof.
  induction s as [|c s [z [r [E [Z R]]]]]; [exists [], []; repeat split; constructor|].
  destruct (Z.eq_dec c (ch "0")) as [C|C].
  - exists (c :: z), r. rewrite E. repeat split; [now constructor|exact R].
  - exists [], (c :: s). repeat split; [constructor|exact C].
Qed.
Lemma first_nz_dec s : digs s -> s <> [] -> first_nz s -> 10 ^ (len s - 1) <= dec s < 10 ^ len s.
Proof.
  intros D N FN. destruct s as [|c s]; [contradiction|]. assert (R := dec_range _ D). split; [|apply R].
  apply digs_cons in D. destruct D as [C D]. rewrite dig_range in C. change (c <> 48) in FN.
  rewrite dec_cons, len_cons, ch0. replace (1 + len s - 1) with (len s) by lia.
  assert (P := pow10_pos (len s) (len_nonneg s)). assert (R2 := dec_range s D).
  assert (1 * 10 ^ len s <= (c - 48) * 10 ^ len s) by (apply Z.mul_le_mono_nonneg_r; lia). lia.
Qed.
Lemma leading_zeros z p c : zeros z -> leading_loop (z ++ p) c = leading_loop p (c - len z).
Proof.
  intros Z. revert c. induction Z as [|x z X Z IH]; intros c; [cbn [app]; f_equal; change (len []) with 0; lia|].
  cbn [app leading_loop]. replace (x =? ch "0") with true by (subst; reflexivity). rewrite IH, len_cons. f_equal. lia.
Qed.
Lemma leading_le p c : leading_loop p c <= c.
Proof.
  revert c. induction p as [|x p IH]; intros c; cbn [leading_loop]; [lia|].
  destruct (x =? ch "0"); [specialize (IH (c - 1)); lia|]. destruct (x =? ch "."); [apply IH|lia].
Qed.
Lemma leading_stop c p n : dig c -> c <> ch "0" -> leading_loop (c :: p) n = n.
Proof.
  intros D C. cbn [leading_loop]. rewrite dig_range in D. change (ch "0") with 48 in *. change (ch ".") with 46.
  replace (c =? 48) with false by lia. replace (c =? 46) with false by lia. reflexivity.
Qed.
(** with [k] leading zeros in [i ++ d] *)
Lemma leading_count i ft d p z s : digs i -> fraction ft d -> i ++ d = z ++ s -> zeros z -> first_nz s ->
  (s = [] -> leading_loop (i ++ ft ++ p) (len i + len d) <= 0) /\
  (s <> [] -> leading_loop (i ++ ft ++ p) (len i + len d) = len s).
Proof.
  intros DI FR E Z FN.
  assert (FD : digs d) by (destruct FR; [constructor|assumption]).
  assert (L : len i + len d = len z + len s) by (rewrite <- !len_app, E; reflexivity).
  assert (DZS : digs (z ++ s)) by (rewrite <- E; apply digs_app; tauto).
  destruct (split_zeros i) as [zi [ri [EI [ZI FI]]]].
  rewrite EI, <- app_assoc. rewrite leading_zeros by exact ZI. rewrite <- EI.
  destruct ri as [|c ri].
  - rewrite app_nil_r in EI. subst zi. cbn [app].
    assert (ED : exists zd, z = i ++ zd /\ d = zd ++ s).
    { assert (X : forall i z d, zeros i -> first_nz s -> i ++ d = z ++ s -> zeros z -> (exists zd, z = i ++ zd /\ d = zd ++ s) \/ (exists k, i = z ++ k /\ s = k ++ d)).
      { clear. induction i as [|c i IH]; intros z d A FN E Z.
        - left. exists z. now split.
        - destruct z as [|c' z]; cbn [app] in E.
          + right. exists (c :: i). now split.
          + injection E as <- E. inversion A; inversion Z; subst. destruct (IH z d) as [[zd [-> ->]]|[k [-> ->]]]; try assumption; [left|right]; eexists; now split. }
      destruct (X i z d ZI FN E Z) as [H|[k [K1 K2]]]; [exact H|].
      destruct k as [|c k]; [exists []; rewrite app_nil_r in *; cbn [app] in *; now split|].
      exfalso. subst s. cbn in FN. rewrite K1 in ZI. apply zeros_app in ZI. destruct ZI as [_ ZK]. inversion ZK. contradiction. }
    destruct ED as [zd [-> ->]]. apply zeros_app in Z. destruct Z as [_ ZD].
    assert (FRC : (ft = [] /\ zd ++ s = []) \/ ft = ch "." :: zd ++ s) by (inversion FR; [left; split; [reflexivity|congruence]|right; congruence]).
    rewrite len_app in *. destruct FRC as [[-> N]| ->].
    + apply app_eq_nil in N. destruct N as [-> ->]. split; [|congruence]. intros _. cbn [app]. assert (LL := leading_le p (len i + (len (@nil Z) + len (@nil Z)) - len i)).
      change (len (@nil Z)) with 0 in *. lia.
    + cbn [app leading_loop]. change (ch "." =? ch "0") with false. change (ch "." =? ch ".") with true. cbn match.
      rewrite <- app_assoc, leading_zeros by exact ZD. split.
      * intros ->. cbn [app]. assert (LL := leading_le p (len i + (len zd + len (@nil Z)) - len i - len zd)). change (len (@nil Z)) with 0 in *. lia.
      * intros N. destruct s as [|c s]; [contradiction|]. cbn [app]. rewrite leading_stop; [lia| |exact FN].
        apply digs_app in FD. destruct FD as [_ FD]. now apply digs_cons in FD.
  - cbn [app]. rewrite leading_stop; [| |exact FI].
    2:{ rewrite EI in DI. apply digs_app in DI. destruct DI as [_ DI]. now apply digs_cons in DI. }
    assert (U : z = zi /\ s = (c :: ri) ++ d).
    { rewrite EI, <- app_assoc in E. clear -E Z ZI FN FI. revert z E Z. induction ZI as [|x zi X ZI IH]; intros z E Z.
      - destruct z as [|y z]; [split; [reflexivity|now symmetry]|]. exfalso. cbn [app] in E. injection E as -> E. inversion Z. cbn in FI. contradiction.
      - destruct z as [|y z].
        + exfalso. cbn [app] in E. destruct s as [|y s]; [discriminate|]. injection E as -> E. cbn in FN. contradiction.
        + cbn [app] in E. injection E as <- E. inversion Z; subst. destruct (IH z E) as [-> ->]; [assumption|]. now split. }
    destruct U as [-> ->]. split; [discriminate|]. intros _. lia.
Qed.

(** ** The first nineteen digits *)
Lemma nineteen_spec p i : digs p -> 0 <= i < 10 ^ 19 -> exists u v, p = u ++ v /\
  nineteen_loop p i = (v, i * 10 ^ len u + dec u) /\ 0 <= i * 10 ^ len u + dec u < 10 ^ 19 /\
  (10 ^ 18 <= i * 10 ^ len u + dec u \/ v = []).
Proof.
  intros D. revert i. induction D as [|c p C D IH]; intros i I.
  - exists [], []. cbn [app nineteen_loop]. change (len []) with 0. rewrite dec_nil. repeat split; try lia; [f_equal; lia|now right].
  - cbn [nineteen_loop]. rewrite dig_range in C. destruct (Z.ltb_spec i 1000000000000000000) as [L|L].
    + rewrite u64_id by (rewrite ch0; lia).
      destruct (IH (i * 10 + (c - ch "0"))) as [u [v [E [N [R S]]]]]; [rewrite ch0; lia|].
      assert (EQ : i * 10 ^ len (c :: u) + dec (c :: u) = (i * 10 + (c - ch "0")) * 10 ^ len u + dec u).
      { rewrite dec_cons, len_cons, Z.pow_add_r by (try apply len_nonneg; lia). change (10 ^ 1) with 10. ring. }
      exists (c :: u), v. rewrite EQ. subst p. repeat split; try assumption; apply R.
    + exists [], (c :: p). cbn [app]. change (len []) with 0. rewrite dec_nil. replace (i * 10 ^ 0 + 0) with i by lia. repeat split; try lia.
Qed.

(** ** The exponent *)
Definition sat (e n : Z) : Prop := n = e \/ 2 ^ 28 <= n <= e \/ e <= n <= - 2 ^ 28.
Lemma exp_loop_spec d r n : digs d -> stops r -> 0 <= n -> exists m, exp_loop (d ++ r) n = (r, m) /\
  (m = n * 10 ^ len d + dec d \/ 2 ^ 28 <= m <= n * 10 ^ len d + dec d).
Proof.
  intros D R. revert n. induction D as [|c d C D IH]; intros n N.
  - cbn [app]. change (len []) with 0. rewrite dec_nil. exists n. split; [|left; lia].
    destruct r as [|c r]; [reflexivity|]. cbn [exp_loop]. destruct (is_integer c) eqn:E; [|reflexivity].
    apply is_integer_dig in E. contradiction.
  - cbn [app exp_loop]. assert (I := C). apply is_integer_dig in I. rewrite I. rewrite dig_range in C.
    assert (EQ : n * 10 ^ len (c :: d) + dec (c :: d) = (10 * n + (c - ch "0")) * 10 ^ len d + dec d).
    { rewrite dec_cons, len_cons, Z.pow_add_r by (try apply len_nonneg; lia). change (10 ^ 1) with 10. ring. }
    destruct (Z.ltb_spec n 0x10000000) as [L|L].
    + destruct (IH (10 * n + (c - ch "0"))) as [m [M S]]; [rewrite ch0; lia|]. exists m. split; [exact M|]. rewrite EQ. exact S.
    + destruct (IH n N) as [m [M S]]. exists m. split; [exact M|]. right. rewrite EQ.
      assert (P := pow10_pos (len d) (len_nonneg d)). assert (DR := dec_range d D).
      assert (n * 10 ^ len d <= (10 * n + (c - ch "0")) * 10 ^ len d) by (apply Z.mul_le_mono_nonneg_r; [lia|rewrite ch0; lia]).
      assert (n * 1 <= n * 10 ^ len d) by (apply Z.mul_le_mono_nonneg_l; lia). change (2 ^ 28) with 0x10000000 in *. lia.
Qed.
Lemma exponent_spec xt e rest : expo xt e -> xt <> [] -> stops rest -> exists n, parse_exponent (xt ++ rest) = (rest, n) /\ sat e n.
Proof.
  intros X N R.
  assert (EC : forall c, c = ch "e" \/ c = ch "E" -> (ch "e" =? c) || (ch "E" =? c) = true) by (intros c [-> | ->]; reflexivity).
  assert (DEC : forall d n, digs d -> n = 0 * 10 ^ len d + dec d \/ 2 ^ 28 <= n <= 0 * 10 ^ len d + dec d -> sat (dec d) n /\ sat (- dec d) (- n)).
  { intros d n D S. unfold sat. lia. }
  destruct X as [|c d C DN D|c d C DN D|c d C DN D]; [contradiction| | |]; cbn [app parse_exponent]; rewrite (EC c C).
  - destruct d as [|x d]; [contradiction|]. cbn [app]. assert (DX := D). apply digs_cons in DX. destruct DX as [DX _]. assert (I := DX). apply is_integer_dig in I.
    rewrite dig_range in DX. replace (ch "-" =? x) with false by (change (ch "-") with 45; lia). replace (ch "+" =? x) with false by (change (ch "+") with 43; lia).
    rewrite I. destruct (exp_loop_spec (x :: d) rest 0 D R ltac:(lia)) as [n [L S]]. cbn [app] in L. rewrite L. exists n. split; [reflexivity|]. now apply DEC.
  - change (ch "-" =? ch "+") with false. change (ch "+" =? ch "+") with true. cbn match.
    destruct d as [|x d]; [contradiction|]. cbn [app]. assert (DX := D). apply digs_cons in DX. destruct DX as [DX _]. apply is_integer_dig in DX. rewrite DX.
    destruct (exp_loop_spec (x :: d) rest 0 D R ltac:(lia)) as [n [L S]]. cbn [app] in L. rewrite L. exists n. split; [reflexivity|]. now apply DEC.
  - change (ch "-" =? ch "-") with true. cbn match.
    destruct d as [|x d]; [contradiction|]. cbn [app]. assert (DX := D). apply digs_cons in DX. destruct DX as [DX _]. apply is_integer_dig in DX. rewrite DX.
    destruct (exp_loop_spec (x :: d) rest 0 D R ltac:(lia)) as [n [L S]]. cbn [app] in L. rewrite L. exists (- n). split; [reflexivity|]. now apply DEC.
Qed.

(** ** The whole text *)
Definition minus (neg : bool) : list Z := if neg then [ch "-"] else [].
Definition frac_of (ft d : list Z) : option (list Z) := match ft with [] => None | _ => Some d end.
Lemma between_app (a b : list Z) : FloatModel.between (a ++ b) b = a.
Proof.
  unfold FloatModel.between. rewrite app_length. replace (length a + length b - length b)%nat with (length a) by lia.
  rewrite firstn_app, Nat.sub_diag, firstn_all. apply app_nil_r.
Qed.
Lemma parse_number_spec neg i ft d xt rest n :
  bytes (i ++ ft ++ xt ++ rest) -> digs i -> fraction ft d -> i ++ d <> [] -> stops (ft ++ xt ++ rest) ->
  (ft = [] -> forall r, xt ++ rest <> ch "." :: r) -> (ft <> [] -> stops (xt ++ rest)) ->
  parse_exponent (xt ++ rest) = (rest, n) ->
  exists m q many, parse_number_string (minus neg ++ i ++ ft ++ xt ++ rest) = Ok (Some (Pns q m rest neg many i (frac_of ft d))) /\
  (many = false -> m = dec (i ++ d) /\ q = n - len d /\ m < 2 ^ 64) /\
  (many = true -> exists u v, i ++ d = u ++ v /\ m = dec u /\ 10 ^ 18 <= m < 10 ^ 19 /\ q = n - len d + len v).
Proof.
  intros BY DI FR NE ST1 ST2 ST3 PE.
  assert (FD : digs d) by (destruct FR; [constructor|assumption]).
  assert (HEAD : exists c p, i ++ ft ++ xt ++ rest = c :: p /\ (dig c \/ c = ch ".")).
  { destruct i as [|c i]; [|exists c; eexists; split; [reflexivity|left; now apply digs_cons in DI]].
    destruct FR as [|d D]; [contradiction|]. cbn [app]. eexists; eexists. split; [reflexivity|now right]. }
  destruct HEAD as [c [p [HD HC]]].
  assert (CM : c <> ch "-") by (destruct HC as [H|H]; [rewrite dig_range in H; change (ch "-") with 45; lia|rewrite H; discriminate]).
  assert (CI : negb (is_integer c) && negb (c =? ch ".") = false).
  { destruct HC as [H| ->]; [apply is_integer_dig in H; now rewrite H|reflexivity]. }
  assert (ENTRY : exists c0 r0, minus neg ++ i ++ ft ++ xt ++ rest = c0 :: r0 /\ (c0 =? ch "-") = neg /\
    (if neg then r0 else c0 :: r0) = i ++ ft ++ xt ++ rest).
  { destruct neg; cbn [minus app]; [eexists; eexists; repeat split|]. rewrite HD. exists c, p. repeat split. lia. }
  destruct ENTRY as [c0 [r0 [-> [EN EP]]]]. unfold parse_number_string. rewrite EN, EP.
  assert (GUARD : neg && match i ++ ft ++ xt ++ rest with [] => true | c :: _ => negb (is_integer c) && negb (c =? ch ".") end = false).
  { rewrite HD. cbn match. rewrite CI. apply Bool.andb_false_r. }
  rewrite GUARD. rewrite digit_loop_spec by (assumption || lia).
  rewrite between_app.
  assert (IV := dec_range i DI). assert (LI := len_nonneg i). assert (LD := len_nonneg d).
  set (i1 := u64 (0 * 10 ^ len i + dec i)).
  assert (FRAC : exists i2, i2 = u64 (dec (i ++ d)) /\
    (let '(p, i, fraction) :=
          match ft ++ xt ++ rest with
          | c :: before =>
              if c =? ch "." then
                let '(p, i) := loop_parse_if_eight_digits before i1 in
                let '(p, i) := digit_loop p i in
                (p, i, Some (FloatModel.between before p))
              else (ft ++ xt ++ rest, i1, None)
          | [] => (ft ++ xt ++ rest, i1, None)
          end in (p, i, fraction)) = (xt ++ rest, i2, frac_of ft d)).
  { destruct FR as [|d D]; cbn [app frac_of].
    - exists i1. rewrite app_nil_r. split; [unfold i1; f_equal; lia|]. destruct (xt ++ rest) as [|x y] eqn:XR; [reflexivity|].
      destruct (Z.eqb_spec x (ch ".")) as [C|C]; [|reflexivity]. exfalso. apply (ST2 eq_refl y). now rewrite C.
    - change (ch "." =? ch ".") with true. cbn match.
      assert (BYD : bytes (d ++ xt ++ rest)).
      { apply Forall_app in BY. destruct BY as [_ BY]. cbn [app] in BY. now apply Forall_inv_tail in BY. }
      assert (FL := fraction_loops d (xt ++ rest) i1 BYD D (ST3 ltac:(discriminate)) (u64_range _)).
      destruct (loop_parse_if_eight_digits (d ++ xt ++ rest) i1) as [p1 j1]. rewrite FL. rewrite between_app.
      eexists. split; [|reflexivity]. unfold i1. rewrite u64_lin. f_equal. rewrite dec_app. ring. }
  destruct FRAC as [i2 [I2 FRAC]].
  destruct (match ft ++ xt ++ rest with [] => _ | _ => _ end) as [[p1 j1] f1] eqn:M1.
  injection FRAC as -> -> ->.
  assert (EXP : match frac_of ft d with Some x => - len x | None => 0 end = - len d).
  { destruct FR; cbn [frac_of]; [reflexivity|reflexivity]. }
  rewrite EXP. rewrite PE.
  assert (LID : 0 < len (i ++ d)). { destruct (i ++ d) as [|x y]; [contradiction|]. rewrite len_cons. assert (X := len_nonneg y). lia. }
  rewrite len_app in LID.
  replace (len i - - len d =? 0) with false by lia.
  assert (DID : digs (i ++ d)) by (apply digs_app; tauto).
  destruct (split_zeros (i ++ d)) as [z [s [E [Z FN]]]].
  destruct (leading_count i ft d (xt ++ rest) z s DI FR E Z FN) as [LC0 LC1].
  replace (len i - - len d) with (len i + len d) by lia.
  assert (DV : dec (i ++ d) = dec s) by (rewrite E, dec_app, (zeros_dec z Z); lia).
  assert (DS : digs s) by (rewrite E in DID; apply digs_app in DID; apply DID).
  assert (SV := dec_range s DS).
  assert (LE : len i + len d = len z + len s) by (rewrite <- !len_app, E; reflexivity).
  assert (LZ := len_nonneg z).
  assert (SMALL : len s <= 19 -> exists m q many, Ok (Some (Pns (- len d + n) i2 rest neg false i (frac_of ft d))) = Ok (Some (Pns q m rest neg many i (frac_of ft d))) /\
    (many = false -> m = dec (i ++ d) /\ q = n - len d /\ m < 2 ^ 64) /\
    (many = true -> exists u v, i ++ d = u ++ v /\ m = dec u /\ 10 ^ 18 <= m < 10 ^ 19 /\ q = n - len d + len v)).
  { intros S19. assert (10 ^ len s <= 10 ^ 19) by (apply Z.pow_le_mono_r; lia).
    exists i2, (- len d + n), false. split; [reflexivity|]. split; [intros _|discriminate].
    rewrite I2, u64_id by lia. repeat split; lia. }
  destruct (Z.ltb_spec 19 (len i + len d)) as [C19|C19]; [|apply SMALL; lia].
  destruct (list_eq_dec Z.eq_dec s []) as [SE|SN].
  - replace (19 <? _) with false by (specialize (LC0 SE); lia). apply SMALL. rewrite SE. change (len []) with 0. lia.
  - rewrite (LC1 SN). destruct (Z.ltb_spec 19 (len s)) as [D19|D19]; [|apply SMALL; lia].
    destruct (first_nz_dec s DS SN FN) as [SL _].
    assert (BIG : 10 ^ 19 <= dec (i ++ d)).
    { rewrite DV. apply Z.le_trans with (2 := SL). apply Z.pow_le_mono_r; lia. }
    destruct (nineteen_spec i 0 DI ltac:(lia)) as [u [v [EI [NI [RI SI]]]]]. rewrite NI.
    replace (0 * 10 ^ len u + dec u) with (dec u) in * by lia.
    destruct (Z.leb_spec 1000000000000000000 (dec u)) as [K|K].
    + exists (dec u), (len v + n), true. split; [reflexivity|]. split; [discriminate|]. intros _.
      exists u, (v ++ d). split; [rewrite EI, app_assoc; reflexivity|]. split; [reflexivity|]. rewrite len_app. split; lia.
    + destruct SI as [SI|SI]; [lia|]. subst v. rewrite app_nil_r in EI. subst u.
      assert (FE : match frac_of ft d with Some x => x | None => [] end = d) by (destruct FR; reflexivity). rewrite FE.
      destruct (nineteen_spec d (dec i) FD ltac:(lia)) as [u [v [ED [ND [RD SD]]]]]. rewrite ND.
      assert (EQ : dec i * 10 ^ len u + dec u = dec (i ++ u)) by (now rewrite dec_app). rewrite EQ in *.
      assert (K2 : 10 ^ 18 <= dec (i ++ u)).
      { destruct SD as [SD|SD]; [exact SD|]. subst v. rewrite app_nil_r in ED. subst u. lia. }
      exists (dec (i ++ u)), (len v - len d + n), true. split; [reflexivity|]. split; [discriminate|]. intros _.
      exists (i ++ u), v. split; [rewrite ED, app_assoc; reflexivity|]. split; [reflexivity|]. split; lia.
Qed.
