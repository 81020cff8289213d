(** fast_float with options: the exponent, the leading zeros, the whole text. *)
From Verif Require Import Base BaseLemmas FloatTable FloatModel FloatSpec FfOptModel FfOptSpec.
From Verif Require Import FloatProofs1 FloatProofs2 FloatProofs6 FloatProofs10 FloatProofs11.
From Coq Require Import Lia.
Open Scope Z_scope.

(** ** The exponent *)
Lemma mark_head sci fortran m s d neg : mark sci fortran m s -> exp_sign s neg -> exists c r, m ++ s ++ d = c :: r /\ In c (s2z "+-eEdD").
Proof.
  intros M S. destruct M as [c s _ H|c s _ H|s _ N].
  - eexists; eexists. split; [reflexivity|]. destruct H as [-> | ->]; cbn; tauto.
  - eexists; eexists. split; [reflexivity|]. destruct H as [-> | ->]; cbn; tauto.
  - destruct S; [contradiction| |]; eexists; eexists; (split; [reflexivity|]); cbn; tauto.
Qed.
Lemma exponent_head sci fortran x e : exponent sci fortran x e -> x <> [] -> exists c r, x = c :: r /\ In c (s2z "+-eEdD").
Proof. intros X N. destruct X as [|m s neg d M S D1 D]; [contradiction|]. now apply (mark_head sci fortran m s d neg). Qed.
Lemma marks_not_digits c : In c (s2z "+-eEdD") -> ~ dig c.
Proof. rewrite dig_range. change (s2z "+-eEdD") with [43; 45; 101; 69; 100; 68]. cbn. lia. Qed.
Lemma exponent_snoc sci fortran x e c : exponent sci fortran x e -> x <> [] -> dig c -> exists e', exponent sci fortran (x ++ [c]) e'.
Proof.
  intros X N C. destruct X as [|m s neg d M S D1 D]; [contradiction|]. eexists. rewrite <- !app_assoc. apply (xp_some _ _ m s neg); auto.
  - intros H. destruct d; discriminate.
  - apply digs_app. split; [exact D|now constructor].
Qed.
Lemma enters o m s d neg : mark (o_sci o) (o_fortran o) m s -> exp_sign s neg -> forall rest, exists c r, m ++ s ++ d ++ rest = c :: r /\
  (o_sci o && ((ch "e" =? c) || (ch "E" =? c))) || (o_fortran o && ((ch "+" =? c) || (ch "-" =? c) || ((ch "d" =? c) || (ch "D" =? c)))) = true /\
  (if ((ch "e" =? c) || (ch "E" =? c)) || ((ch "d" =? c) || (ch "D" =? c)) then r else c :: r) = s ++ d ++ rest.
Proof.
  intros M S rest. destruct M as [c s E H|c s E H|s E N].
  - exists c, (s ++ d ++ rest). rewrite E. destruct H as [-> | ->]; repeat split; reflexivity.
  - exists c, (s ++ d ++ rest). rewrite E. destruct H as [-> | ->]; destruct (o_sci o); repeat split; reflexivity.
  - destruct S; [contradiction| |]; eexists; eexists; (split; [reflexivity|]); rewrite E; destruct (o_sci o); split; reflexivity.
Qed.
Lemma exponent_o_spec o x e rest : exponent (o_sci o) (o_fortran o) x e -> x <> [] -> stops rest ->
  exists n, parse_exponent_o o (x ++ rest) = Some (rest, n) /\ sat e n.
Proof.
  intros X N R. destruct X as [|m s neg d M S D1 D]; [contradiction|]. rewrite <- !app_assoc.
  destruct (enters o m s d neg M S rest) as [c [r [E [G H]]]]. rewrite E. unfold parse_exponent_o. cbv zeta. rewrite G, H. clear G H E N M.
  destruct (exp_loop_spec d rest 0 D R ltac:(lia)) as [n [L Q]].
  destruct d as [|y d]; [contradiction|]. assert (Y := D). apply digs_cons in Y. destruct Y as [Y _].
  assert (I := Y). apply is_integer_dig in I. rewrite dig_range in Y.
  destruct S; cbn [app].
  - replace (ch "-" =? y) with false by (change (ch "-") with 45; lia). replace (ch "+" =? y) with false by (change (ch "+") with 43; lia).
    rewrite I. cbn [app] in L. rewrite L. exists n. split; [reflexivity|]. unfold sat. lia.
  - change (ch "-" =? ch "+") with false. change (ch "+" =? ch "+") with true. cbn match. rewrite I. cbn [app] in L. rewrite L. exists n. split; [reflexivity|]. unfold sat. lia.
  - change (ch "-" =? ch "-") with true. cbn match. rewrite I. cbn [app] in L. rewrite L. exists (- n). split; [reflexivity|]. unfold sat. lia.
Qed.
Lemma eqb_or a b c : (a =? c) || (b =? c) = true -> c = a \/ c = b.
Proof. lia. Qed.
(** a text that does not start with an exponent *)
Lemma no_exponent o p : o_fixed o || o_sci o || negb (o_fortran o) = true -> (forall x e b, p = x ++ b -> exponent (o_sci o) (o_fortran o) x e -> x = []) ->
  parse_exponent_o o p = if o_sci o && negb (o_fixed o) then None else Some (p, 0).
Proof.
  intros FS K. unfold parse_exponent_o. cbv zeta. destruct p as [|c r]; [reflexivity|].
  set (e := (ch "e" =? c) || (ch "E" =? c)). set (d := (ch "d" =? c) || (ch "D" =? c)).
  destruct ((o_sci o && e) || (o_fortran o && ((ch "+" =? c) || (ch "-" =? c) || d))) eqn:G; [|reflexivity].
  assert (BAD : (if negb (o_fixed o) then None else Some (c :: r, 0)) = if o_sci o && negb (o_fixed o) then None else Some (c :: r, 0)).
  { destruct (o_fixed o), (o_sci o), (o_fortran o); try reflexivity; discriminate. }
  rewrite BAD. clear BAD FS. set (z := if o_sci o && negb (o_fixed o) then None else Some (c :: r, 0)).
  assert (MK : forall s, (e || d = true \/ s <> []) -> mark (o_sci o) (o_fortran o) (if e || d then [c] else []) s).
  { intros s H. destruct e eqn:Ee.
    - cbn [orb]. unfold e in Ee. apply eqb_or in Ee. destruct (o_sci o) eqn:SC; [now constructor 1|].
      cbn [andb orb] in G. exfalso. apply andb_true_iff in G as [_ G]. unfold d in G. destruct Ee as [-> | ->]; discriminate G.
    - cbn [orb] in *. rewrite andb_false_r in G. cbn [orb] in G. apply andb_true_iff in G as [GF G]. destruct d eqn:Dd.
      + constructor 2; [exact GF|]. unfold d in Dd. now apply eqb_or in Dd.
      + constructor 3; [exact GF|]. destruct H; [discriminate|assumption]. }
  assert (TX : forall q, (if e || d then r else c :: r) = q -> c :: r = (if e || d then [c] else []) ++ q) by (intros q <-; destruct (e || d); reflexivity).
  assert (SG : e || d = false -> c = ch "+" \/ c = ch "-").
  { intros H. apply orb_false_iff in H as [H1 H2]. rewrite H1, H2, andb_false_r, orb_false_r in G. cbn [orb] in G. apply andb_true_iff in G as [_ G]. now apply eqb_or in G. }
  destruct (if e || d then r else c :: r) as [|c1 q] eqn:Q; [reflexivity|]. specialize (TX _ eq_refl).
  assert (END : forall s neg y b, exp_sign s neg -> (e || d = true \/ s <> []) -> c1 :: q = s ++ y :: b -> is_integer y = true -> False).
  { intros s neg y b S H E I. apply is_integer_dig in I.
    assert (X : (if e || d then [c] else []) ++ s ++ [y] = []).
    { apply (K _ (if neg then - dec [y] else dec [y]) b); [rewrite TX, E, <- !app_assoc; reflexivity|].
      apply (xp_some _ _ _ s neg); [now apply MK|exact S|discriminate|now constructor]. }
    destruct (e || d), s; discriminate. }
  destruct (Z.eqb_spec (ch "-") c1) as [<-|N1]; [|destruct (Z.eqb_spec (ch "+") c1) as [<-|N2]].
  - destruct q as [|y q]; [reflexivity|]. destruct (is_integer y) eqn:I; [|reflexivity]. exfalso.
    apply (END [ch "-"] true y q); [constructor|right; discriminate|reflexivity|exact I].
  - destruct q as [|y q]; [reflexivity|]. destruct (is_integer y) eqn:I; [|reflexivity]. exfalso.
    apply (END [ch "+"] false y q); [constructor|right; discriminate|reflexivity|exact I].
  - destruct (is_integer c1) eqn:I; [|reflexivity]. exfalso. apply (END [] false c1 q); [constructor| |reflexivity|exact I].
    left. destruct (e || d) eqn:ED; [reflexivity|]. exfalso. destruct (SG eq_refl) as [H|H]; injection Q as H2 _; congruence.
Qed.

(** ** Leading zeros *)
Section Dot.
Variable dot : Z.
Hypothesis DOT : ~ dig dot.
Lemma leading_zeros_o z p c : zeros z -> leading_loop_o dot (z ++ p) c = leading_loop_o dot p (c - len z).
Proof.
  intros Z. revert c. induction Z as [|x z X Z IH]; intros c; [cbn [app]; f_equal; change (len []) with 0; lia|].
  cbn [app leading_loop_o]. replace (x =? ch "0") with true by (subst; reflexivity). rewrite IH, len_cons. f_equal. lia.
Qed.
Lemma leading_le_o p c : leading_loop_o dot p c <= c.
Proof.
  revert c. induction p as [|x p IH]; intros c; cbn [leading_loop_o]; [lia|].
  destruct (x =? ch "0"); [specialize (IH (c - 1)); lia|]. destruct (x =? dot); [apply IH|lia].
Qed.
Lemma leading_stop_o c p n : dig c -> c <> ch "0" -> leading_loop_o dot (c :: p) n = n.
Proof.
  intros D C. cbn [leading_loop_o]. destruct (Z.eqb_spec c (ch "0")); [contradiction|]. destruct (Z.eqb_spec c dot) as [->|]; [contradiction|reflexivity].
Qed.
(** with [k] leading zeros in [i ++ d] *)
Lemma leading_count_o i fr p z s : digs i -> digs (fraction_digits fr) -> i ++ fraction_digits fr = z ++ s -> zeros z -> first_nz s ->
  (s = [] -> leading_loop_o dot (i ++ fraction_text dot fr ++ p) (len i + len (fraction_digits fr)) <= 0) /\
  (s <> [] -> leading_loop_o dot (i ++ fraction_text dot fr ++ p) (len i + len (fraction_digits fr)) = len s).
Proof.
  intros DI FD E Z FN. set (ft := fraction_text dot fr). set (d := fraction_digits fr) in *.
  assert (FR : (ft = [] /\ d = []) \/ ft = dot :: d) by (unfold ft, d; destruct fr; [right|left; split]; reflexivity). clearbody ft d.
  assert (L : len i + len d = len z + len s) by (rewrite <- !len_app, E; reflexivity).
  assert (DZS : digs (z ++ s)) by (rewrite <- E; apply digs_app; tauto).
  destruct (split_zeros i) as [zi [ri [EI [ZI FI]]]].
  rewrite EI, <- app_assoc. rewrite leading_zeros_o by exact ZI. rewrite <- EI.
  destruct ri as [|c ri].
  - rewrite app_nil_r in EI. subst zi. cbn [app].
    assert (ED : exists zd, z = i ++ zd /\ d = zd ++ s).
    { assert (X : forall i z d, zeros i -> first_nz s -> i ++ d = z ++ s -> zeros z -> (exists zd, z = i ++ zd /\ d = zd ++ s) \/ (exists k, i = z ++ k /\ s = k ++ d)).
      { clear. induction i as [|c i IH]; intros z d A FN E Z.
        - left. exists z. now split.
        - destruct z as [|c' z]; cbn [app] in E.
          + right. exists (c :: i). now split.
          + injection E as <- E. inversion A; inversion Z; subst. destruct (IH z d) as [[zd [-> ->]]|[k [-> ->]]]; try assumption; [left|right]; eexists; now split. }
      destruct (X i z d ZI FN E Z) as [H|[k [K1 K2]]]; [exact H|].
      destruct k as [|c k]; [exists []; rewrite app_nil_r in *; cbn [app] in *; now split|].
      exfalso. subst s. cbn in FN. rewrite K1 in ZI. apply zeros_app in ZI. destruct ZI as [_ ZK]. inversion ZK. contradiction. }
    destruct ED as [zd [-> ->]]. apply zeros_app in Z. destruct Z as [_ ZD].
    rewrite len_app in *. destruct FR as [[-> N]| ->].
    + apply app_eq_nil in N. destruct N as [-> ->]. split; [|congruence]. intros _. cbn [app]. assert (LL := leading_le_o p (len i + (len (@nil Z) + len (@nil Z)) - len i)).
      change (len (@nil Z)) with 0 in *. lia.
    + cbn [app leading_loop_o]. replace (dot =? ch "0") with false by (symmetry; apply Z.eqb_neq; intros H; apply DOT; rewrite H, dig_range; change (ch "0") with 48; lia). rewrite Z.eqb_refl.
      rewrite <- app_assoc, leading_zeros_o by exact ZD. split.
      * intros ->. cbn [app]. assert (LL := leading_le_o p (len i + (len zd + len (@nil Z)) - len i - len zd)). change (len (@nil Z)) with 0 in *. lia.
      * intros N. destruct s as [|c s]; [contradiction|]. cbn [app]. rewrite leading_stop_o; [lia| |exact FN].
        apply digs_app in FD. destruct FD as [_ FD]. now apply digs_cons in FD.
  - cbn [app]. rewrite leading_stop_o; [| |exact FI].
    2:{ rewrite EI in DI. apply digs_app in DI. destruct DI as [_ DI]. now apply digs_cons in DI. }
    assert (U : z = zi /\ s = (c :: ri) ++ d).
    { rewrite EI, <- app_assoc in E. clear -E Z ZI FN FI. revert z E Z. induction ZI as [|x zi X ZI IH]; intros z E Z.
      - destruct z as [|y z]; [split; [reflexivity|now symmetry]|]. exfalso. cbn [app] in E. injection E as -> E. inversion Z. cbn in FI. contradiction.
      - destruct z as [|y z].
        + exfalso. cbn [app] in E. destruct s as [|y s]; [discriminate|]. injection E as -> E. cbn in FN. contradiction.
        + cbn [app] in E. injection E as <- E. inversion Z; subst. destruct (IH z E) as [-> ->]; [assumption|]. now split. }
    destruct U as [-> ->]. split; [discriminate|]. intros _. lia.
Qed.
End Dot.

(** ** The whole text *)
Lemma parse_number_o o neg i fr xt rest n : let dot := o_dot o in let ft := fraction_text dot fr in let d := fraction_digits fr in
  ~ dig dot -> dot <> ch "-" ->
  bytes (i ++ ft ++ xt ++ rest) -> digs i -> digs d -> i ++ d <> [] -> stops (ft ++ xt ++ rest) ->
  (fr = None -> forall r, xt ++ rest <> dot :: r) -> (fr <> None -> stops (xt ++ rest)) ->
  (o_json o = true -> (i = [ch "0"] \/ exists c r, i = c :: r /\ c <> ch "0") /\ fr <> Some []) ->
  parse_exponent_o o (xt ++ rest) = Some (rest, n) ->
  exists m q many, parse_number_string_o o (minus neg ++ i ++ ft ++ xt ++ rest) = Ok (Some (Pns q m rest neg many i fr)) /\
  (many = false -> m = dec (i ++ d) /\ q = n - len d /\ m < 2 ^ 64) /\
  (many = true -> exists u v, i ++ d = u ++ v /\ m = dec u /\ 10 ^ 18 <= m < 10 ^ 19 /\ q = n - len d + len v).
Proof.
  intros dot ft d DOT DM BY DI FD NE ST1 ST2 ST3 JS PE.
  assert (HEAD : exists c p, i ++ ft ++ xt ++ rest = c :: p /\ (dig c \/ c = dot /\ i = [])).
  { destruct i as [|c i]; [|exists c; eexists; split; [reflexivity|left; now apply digs_cons in DI]].
    unfold ft, d in *. destruct fr as [d0|]; [|contradiction]. cbn [app fraction_text]. eexists; eexists. split; [reflexivity|now right]. }
  destruct HEAD as [c [p [HD HC]]].
  assert (CM : c <> ch "-") by (destruct HC as [H|[-> _]]; [rewrite dig_range in H; change (ch "-") with 45; lia|exact DM]).
  assert (CI : (if o_json o then negb (is_integer c) else negb (is_integer c) && negb (c =? dot)) = false).
  { destruct HC as [H|[-> IE]]; [apply is_integer_dig in H; rewrite H; now destruct (o_json o)|].
    destruct (o_json o) eqn:J; [|rewrite Z.eqb_refl; apply andb_false_r]. exfalso. destruct (JS eq_refl) as [[H|[x [y [H _]]]] _]; congruence. }
  assert (ENTRY : exists c0 r0, minus neg ++ i ++ ft ++ xt ++ rest = c0 :: r0 /\ (c0 =? ch "-") = neg /\
    (if neg then r0 else c0 :: r0) = i ++ ft ++ xt ++ rest).
  { destruct neg; cbn [minus app]; [eexists; eexists; repeat split|]. rewrite HD. exists c, p. repeat split. lia. }
  destruct ENTRY as [c0 [r0 [-> [EN EP]]]]. unfold parse_number_string_o. rewrite EN, EP.
  assert (GUARD : neg && match i ++ ft ++ xt ++ rest with [] => true | c :: _ => if o_json o then negb (is_integer c) else negb (is_integer c) && negb (c =? o_dot o) end = false).
  { rewrite HD. cbn match. fold dot. rewrite CI. apply Bool.andb_false_r. }
  rewrite GUARD. rewrite digit_loop_spec by (assumption || lia).
  rewrite between_app.
  assert (LZJ : o_json o && ((len i =? 0) || (match i ++ ft ++ xt ++ rest with c :: _ => c =? ch "0" | [] => false end && (1 <? len i))) = false).
  { destruct (o_json o) eqn:J; [|reflexivity]. destruct (JS eq_refl) as [[-> |[x [y [-> X]]]] _]; [reflexivity|].
    rewrite len_cons. assert (LY := len_nonneg y). cbn [app]. replace (x =? ch "0") with false by (symmetry; now apply Z.eqb_neq). replace (1 + len y =? 0) with false by lia. reflexivity. }
  rewrite LZJ.
  assert (IV := dec_range i DI). assert (LI := len_nonneg i). assert (LD := len_nonneg d).
  set (i1 := u64 (0 * 10 ^ len i + dec i)).
  assert (FRAC : exists i2, i2 = u64 (dec (i ++ d)) /\
    (let '(p, i, fraction) :=
          match ft ++ xt ++ rest with
          | c :: before =>
              if c =? o_dot o then
                let '(p, i) := loop_parse_if_eight_digits before i1 in
                let '(p, i) := digit_loop p i in
                (p, i, Some (FloatModel.between before p))
              else (ft ++ xt ++ rest, i1, None)
          | [] => (ft ++ xt ++ rest, i1, None)
          end in (p, i, fraction)) = (xt ++ rest, i2, fr)).
  { unfold ft, d in *. destruct fr as [d0|]; cbn [fraction_text fraction_digits app] in *.
    - fold dot. rewrite Z.eqb_refl.
      assert (BYD : bytes (d0 ++ xt ++ rest)).
      { apply Forall_app in BY. destruct BY as [_ BY]. cbn [app] in BY. now apply Forall_inv_tail in BY. }
      assert (FL := fraction_loops d0 (xt ++ rest) i1 BYD FD (ST3 ltac:(discriminate)) (u64_range _)).
      destruct (loop_parse_if_eight_digits (d0 ++ xt ++ rest) i1) as [p1 j1]. rewrite FL. rewrite between_app.
      eexists. split; [|reflexivity]. unfold i1. rewrite u64_lin. f_equal. rewrite dec_app. ring.
    - exists i1. rewrite app_nil_r. split; [unfold i1; f_equal; lia|]. destruct (xt ++ rest) as [|x y] eqn:XR; [reflexivity|].
      fold dot. destruct (Z.eqb_spec x dot) as [C|C]; [|reflexivity]. exfalso. apply (ST2 eq_refl y). now rewrite C. }
  destruct FRAC as [i2 [I2 FRAC]].
  destruct (match ft ++ xt ++ rest with [] => _ | _ => _ end) as [[p1 j1] f1] eqn:M1.
  injection FRAC as -> -> ->.
  assert (EXP : match fr with Some x => - len x | None => 0 end = - len d) by (unfold d; destruct fr; reflexivity).
  rewrite EXP. rewrite PE.
  assert (LID : 0 < len (i ++ d)). { destruct (i ++ d) as [|x y]; [contradiction|]. rewrite len_cons. assert (X := len_nonneg y). lia. }
  rewrite len_app in LID.
  assert (DC : (if o_json o then match fr with Some _ => - len d =? 0 | None => false end else len i - - len d =? 0) = false).
  { destruct (o_json o) eqn:J; [|lia]. destruct (JS eq_refl) as [_ JF]. unfold d. destruct fr as [[|y d0]|]; [contradiction|cbn [fraction_digits]|reflexivity].
    rewrite len_cons. assert (LY := len_nonneg d0). lia. }
  rewrite DC.
  assert (DID : digs (i ++ d)) by (apply digs_app; tauto).
  destruct (split_zeros (i ++ d)) as [z [s [E [Z FN]]]].
  destruct (leading_count_o dot DOT i fr (xt ++ rest) z s DI FD E Z FN) as [LC0 LC1].
  replace (len i - - len d) with (len i + len d) by lia.
  fold ft d in LC0, LC1. fold dot.
  assert (DV : dec (i ++ d) = dec s) by (rewrite E, dec_app, (zeros_dec z Z); lia).
  assert (DS : digs s) by (rewrite E in DID; apply digs_app in DID; apply DID).
  assert (SV := dec_range s DS).
  assert (LE : len i + len d = len z + len s) by (rewrite <- !len_app, E; reflexivity).
  assert (LZ := len_nonneg z).
  assert (SMALL : len s <= 19 -> exists m q many, Ok (Some (Pns (- len d + n) i2 rest neg false i (fr))) = Ok (Some (Pns q m rest neg many i (fr))) /\
    (many = false -> m = dec (i ++ d) /\ q = n - len d /\ m < 2 ^ 64) /\
    (many = true -> exists u v, i ++ d = u ++ v /\ m = dec u /\ 10 ^ 18 <= m < 10 ^ 19 /\ q = n - len d + len v)).
  { intros S19. assert (10 ^ len s <= 10 ^ 19) by (apply Z.pow_le_mono_r; lia).
    exists i2, (- len d + n), false. split; [reflexivity|]. split; [intros _|discriminate].
    rewrite I2, u64_id by lia. repeat split; lia. }
  destruct (Z.ltb_spec 19 (len i + len d)) as [C19|C19]; [|apply SMALL; lia].
  destruct (list_eq_dec Z.eq_dec s []) as [SE|SN].
  - replace (19 <? _) with false by (specialize (LC0 SE); lia). apply SMALL. rewrite SE. change (len []) with 0. lia.
  - rewrite (LC1 SN). destruct (Z.ltb_spec 19 (len s)) as [D19|D19]; [|apply SMALL; lia].
    destruct (first_nz_dec s DS SN FN) as [SL _].
    assert (BIG : 10 ^ 19 <= dec (i ++ d)).
    { rewrite DV. apply Z.le_trans with (2 := SL). apply Z.pow_le_mono_r; lia. }
    destruct (nineteen_spec i 0 DI ltac:(lia)) as [u [v [EI [NI [RI SI]]]]]. rewrite NI.
    replace (0 * 10 ^ len u + dec u) with (dec u) in * by lia.
    destruct (Z.leb_spec 1000000000000000000 (dec u)) as [K|K].
    + exists (dec u), (len v + n), true. split; [reflexivity|]. split; [discriminate|]. intros _.
      exists u, (v ++ d). split; [rewrite EI, app_assoc; reflexivity|]. split; [reflexivity|]. rewrite len_app. split; lia.
    + destruct SI as [SI|SI]; [lia|]. subst v. rewrite app_nil_r in EI. subst u.
      assert (FE : match fr with Some x => x | None => [] end = d) by reflexivity. rewrite FE.
      destruct (nineteen_spec d (dec i) FD ltac:(lia)) as [u [v [ED [ND [RD SD]]]]]. rewrite ND.
      assert (EQ : dec i * 10 ^ len u + dec u = dec (i ++ u)) by (now rewrite dec_app). rewrite EQ in *.
      assert (K2 : 10 ^ 18 <= dec (i ++ u)).
      { destruct SD as [SD|SD]; [exact SD|]. subst v. rewrite app_nil_r in ED. subst u. lia. }
      exists (dec (i ++ u)), (len v - len d + n), true. split; [reflexivity|]. split; [discriminate|]. intros _.
      exists (i ++ u), v. split; [rewrite ED, app_assoc; reflexivity|]. split; [reflexivity|]. split; lia.
Qed.
