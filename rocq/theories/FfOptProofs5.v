(** fast_float with options: Fortran exponents without the formats fixed and scientific. *)
From Verif Require Import Base BaseLemmas FloatTable FloatModel FloatSpec FfOptModel FfOptSpec.
From Verif Require Import FloatProofs1 FloatProofs2 FloatProofs6 FloatProofs10 FloatProofs11 FloatProofs14 FloatProofs15 FloatProofs16 FloatProofs17.
From Verif Require Import FfOptProofs FfOptProofs2 FfOptProofs3 FfOptProofs4.
From Coq Require Import Lia.
Open Scope Z_scope.

Section Alone.
Variables (noinf js : bool) (dot : Z).
Let o := Opts false false noinf js true dot.
Let o' := Opts false true noinf js true dot.

Lemma exp_loop_shorter p : forall n, (length (fst (exp_loop p n)) <= length p)%nat.
Proof.
  induction p as [|c r IH]; intros n; cbn [exp_loop]; [cbn; lia|].
  destruct (is_integer c); [|cbn; lia]. cbn [length]. specialize (IH (if n <? 268435456 then 10 * n + (c - ch "0") else n)). cbn in *. lia.
Qed.
Lemma marks c : (ch "+" =? c) || (ch "-" =? c) || ((ch "d" =? c) || (ch "D" =? c)) = true <-> In c (s2z "+-dD").
Proof.
  change (s2z "+-dD") with [43; 45; 100; 68]. change (ch "+") with 43. change (ch "-") with 45. change (ch "d") with 100. change (ch "D") with 68.
  cbn [In]. lia.
Qed.
Lemma exponent_alone p : parse_exponent_o o p = parse_exponent_o o' p \/
  (parse_exponent_o o p = None /\ parse_exponent_o o' p = Some (p, 0) /\ exists c r, p = c :: r /\ In c (s2z "+-dD")).
Proof.
  unfold parse_exponent_o. cbn [o_sci o_fixed o_fortran o o' andb orb negb]. cbv zeta. destruct p as [|c r]; [now left|].
  destruct ((ch "+" =? c) || (ch "-" =? c) || ((ch "d" =? c) || (ch "D" =? c))) eqn:M; [|now left].
  apply marks in M.
  destruct (if (ch "e" =? c) || (ch "E" =? c) || ((ch "d" =? c) || (ch "D" =? c)) then r else c :: r) as [|c1 q].
  - right. repeat split. now exists c, r.
  - destruct (if ch "-" =? c1 then (q, true) else if ch "+" =? c1 then (q, false) else (c1 :: q, false)) as [r1 ng].
    destruct r1 as [|y r1]; [right; repeat split; now exists c, r|].
    destruct (is_integer y); [left; reflexivity|right; repeat split; now exists c, r].
Qed.
Lemma exponent_marked c r : In c (s2z "+-dD") -> parse_exponent_o o' (c :: r) = Some (c :: r, 0) -> parse_exponent_o o (c :: r) = None.
Proof.
  intros M. destruct (exponent_alone (c :: r)) as [E|[E _]]; [|intros _; exact E]. rewrite <- E. intros H. exfalso. clear E. revert H.
  unfold parse_exponent_o. cbn [o_sci o_fixed o_fortran o o' andb orb negb]. cbv zeta.
  rewrite (proj2 (marks c) M).
  set (ed := (ch "e" =? c) || (ch "E" =? c) || ((ch "d" =? c) || (ch "D" =? c))).
  destruct (if ed then r else c :: r) as [|c1 q] eqn:Q; [discriminate|].
  assert (L : (length (c1 :: q) <= length (c :: r))%nat) by (rewrite <- Q; destruct ed; cbn; lia).
  assert (C : ed = false -> c1 = c /\ q = r) by (intros X; rewrite X in Q; now injection Q).
  assert (LE : ed = true -> (length (c1 :: q) < length (c :: r))%nat) by (intros X; rewrite X in Q; rewrite <- Q; cbn; lia).
  assert (SG : ed = false -> (ch "-" =? c) = true \/ (ch "+" =? c) = true).
  { unfold ed. intros X. apply marks in M. rewrite !orb_false_iff in X. destruct X as [_ [X1 X2]]. rewrite X1, X2, !orb_false_r in M. lia. }
  destruct (if ch "-" =? c1 then (q, true) else if ch "+" =? c1 then (q, false) else (c1 :: q, false)) as [r1 ng] eqn:S.
  assert (L1 : (length r1 < length (c :: r))%nat).
  { destruct ed eqn:ED.
    - specialize (LE eq_refl). destruct (ch "-" =? c1); [injection S as <- _; cbn in *; lia|]. destruct (ch "+" =? c1); injection S as <- _; cbn in *; lia.
    - destruct (C eq_refl) as [-> ->]. destruct (ch "-" =? c) eqn:S1; [injection S as <- _; cbn; lia|]. destruct (SG eq_refl) as [|S2]; [discriminate|].
      rewrite S2 in S. injection S as <- _. cbn. lia. }
  destruct r1 as [|y r1]; [discriminate|]. destruct (is_integer y); [|discriminate].
  assert (L2 := exp_loop_shorter (y :: r1) 0). destruct (exp_loop (y :: r1) 0) as [z n]. intros H. injection H as -> _. cbn [fst] in L2. lia.
Qed.
Lemma parse_alone s : parse_number_string_o o s = parse_number_string_o o' s \/ parse_number_string_o o s = Ok None.
Proof.
  unfold parse_number_string_o. destruct s as [|c r]; [now left|]. cbn [o_json o_dot o o'].
  destruct (_ && _); [now left|]. destruct (digit_loop _ 0) as [p i]. destruct (js && _); [now left|].
  destruct (match p with [] => _ | _ => _ end) as [[p2 i2] fr]. destruct (if js then _ else _); [now left|].
  destruct (exponent_alone p2) as [E|[E _]]; rewrite E; [now left|now right].
Qed.
Lemma alone_usable : point_char dot -> o_usable o'.
Proof. intros PC. split; [exact PC|reflexivity]. Qed.

Lemma refused rn f s n : point_char dot -> bytes s -> s <> [] -> rejected o s -> parse_number_string_o o' s = Ok (Some n) ->
  from_chars_opt rn f o s = Ok (FFRes s EInvalid None).
Proof.
  intros PC BY SN R P'. rewrite (rejected_result rn f o s SN R). destruct (o_noinf o); [reflexivity|].
  apply infnan_invalid; [exact SN|]. intros a b neg nan H SP.
  assert (R' : rejected o' s) by (apply special_rejected; [now apply alone_usable|exact BY|now exists a, b, neg, nan]).
  unfold rejected in R'. congruence.
Qed.
Lemma parse_defined oo s : s <> [] -> exists n, parse_number_string_o oo s = Ok n.
Proof.
  intros SN. unfold parse_number_string_o. destruct s as [|c r]; [contradiction|].
  destruct (_ && _); [eexists; reflexivity|]. destruct (digit_loop _ 0) as [p i]. destruct (_ && _); [eexists; reflexivity|].
  destruct (match p with [] => _ | _ => _ end) as [[p2 i2] fr]. destruct (if o_json oo then _ else _); [eexists; reflexivity|].
  destruct (parse_exponent_o oo p2) as [[p3 x]|]; [|eexists; reflexivity]. destruct (19 <? _); [|eexists; reflexivity]. destruct (19 <? _); [|eexists; reflexivity].
  destruct (nineteen_loop _ 0) as [? ?]. destruct (_ <=? _); [eexists; reflexivity|]. destruct (nineteen_loop _ _). eexists; reflexivity.
Qed.
(** every text: as with fixed, or refused *)
Theorem alone_or_refused rn f s : point_char dot -> bytes s ->
  from_chars_opt rn f o s = from_chars_opt rn f o' s \/ from_chars_opt rn f o s = Ok (FFRes s EInvalid None).
Proof.
  intros PC BY. destruct (list_eq_dec Z.eq_dec s []) as [->|SN]; [now left|].
  assert (EQ : parse_number_string_o o s = parse_number_string_o o' s -> from_chars_opt rn f o s = from_chars_opt rn f o' s).
  { intros E. unfold from_chars_opt. destruct s; [contradiction|]. rewrite E. reflexivity. }
  destruct (parse_alone s) as [E|E]; [left; now apply EQ|].
  destruct (parse_defined o' s SN) as [[n|] P']; [right; now apply (refused rn f s n)|left; apply EQ; congruence].
Qed.
(** which of the two, for a number *)
Theorem alone_number rn f t rest neg i fr x e : point_char dot -> bytes (t ++ rest) -> o_text o' t neg i fr x e -> o_longest o' t rest -> o_admits o' i fr x ->
  let cut := x = [] /\ exists c r, rest = c :: r /\ In c (s2z "+-dD") in
  (cut -> from_chars_opt rn f o (t ++ rest) = Ok (FFRes (t ++ rest) EInvalid None)) /\
  (~ cut -> from_chars_opt rn f o (t ++ rest) = from_chars_opt rn f o' (t ++ rest)).
Proof.
  intros PC BY T LG AD cut. assert (U := alone_usable PC).
  destruct (parses o' t rest neg i fr x e U BY T LG AD) as [n0 [pm [q [many [PA _]]]]].
  destruct (text_facts o' t neg i fr x e T) as [_ [_ [TN _]]].
  assert (SN : t ++ rest <> []) by (intros H; apply app_eq_nil in H; tauto).
  assert (SH : t = minus neg ++ i ++ fraction_text dot fr ++ x /\ digs i /\ digs (fraction_digits fr) /\ exponent false true x e /\ i ++ fraction_digits fr <> []).
  { destruct T as [neg i fr x e DI FD EX NE]. rewrite text_minus. repeat split; assumption. }
  destruct SH as [TX [DI [FD [EX NE]]]].
  assert (LG' := LG). rewrite TX in LG'.
  destruct (longest_facts_o o' neg i fr x e rest U DI FD EX NE LG') as [S1 [SD [SX [PX PN]]]]. clear LG'.
  assert (BY2 : bytes (i ++ fraction_text dot fr ++ x ++ rest)) by (rewrite TX, <- !app_assoc in BY; apply Forall_app in BY; apply BY).
  split.
  - intros [XN [c [r [RE MK]]]]. apply (refused rn f _ _ PC BY SN) with (2 := PA).
    destruct (PN XN) as [_ PE]. cbn [o_sci o_fixed o' andb negb] in PE. unfold rejected. rewrite TX in *. rewrite <- !app_assoc in *. apply (none_o o); try assumption.
    + intros _. exact SX.
    + intros _ r' H. destruct i as [|c' i].
      * destruct fr as [d0|]; [|now apply NE]. cbn [app fraction_text] in H. injection H as H _. now apply (point_minus dot).
      * cbn [app] in H. injection H as H _. apply digs_cons in DI as [DI _]. rewrite H, dig_range in DI. change (ch "-") with 45 in DI. lia.
    + right. right. subst x. cbn [app] in PE |- *. rewrite RE in *. now apply exponent_marked.
  - intros NC. assert (PE : exists n, parse_exponent_o o (x ++ rest) = Some (rest, n)).
    { destruct (list_eq_dec Z.eq_dec x []) as [XN|XN].
      - destruct (PN XN) as [_ PE]. cbn [o_sci o_fixed o' andb negb] in PE. destruct (exponent_alone (x ++ rest)) as [E|[E [_ M]]]; [rewrite E; eexists; exact PE|].
        exfalso. apply NC. split; [exact XN|]. subst x. exact M.
      - destruct (PX XN) as [n [PE _]]. destruct (exponent_alone (x ++ rest)) as [E|[_ [E _]]]; [rewrite E; eexists; exact PE|].
        exfalso. rewrite PE in E. injection E as E _. apply XN. apply (app_inv_tail rest). now rewrite <- E. }
    destruct PE as [n PE]. destruct (parse_number_o o neg i fr x rest n) as [m [q' [many' [P _]]]]; try assumption.
    + apply PC.
    + now apply point_minus.
    + intros _. exact SX.
    + exact (proj1 AD).
    + cbn [o o_dot] in P. destruct (parse_alone (t ++ rest)) as [E|E].
      * unfold from_chars_opt. destruct (t ++ rest); [contradiction|]. now rewrite E.
      * exfalso. rewrite TX, <- !app_assoc in E. rewrite P in E. discriminate.
Qed.
End Alone.

(** so these hold of all formats *)
Lemma usable_or_alone o : point_char (o_dot o) -> o_usable o \/ o = Opts false false (o_noinf o) (o_json o) true (o_dot o).
Proof. intros PC. destruct o as [[] [] ni js [] dot]; try (left; split; [exact PC|reflexivity]). right. reflexivity. Qed.
Theorem any_total rn f eb o s : fok f eb -> point_char (o_dot o) -> bytes s -> exists r k, from_chars_opt rn f o s = Ok r /\ s = k ++ r_rest r.
Proof.
  intros F PC BY. destruct (usable_or_alone o PC) as [U|E]; [now apply (opt_total rn f eb)|]. rewrite E.
  destruct (alone_or_refused (o_noinf o) (o_json o) (o_dot o) rn f s PC BY) as [H|H]; rewrite H.
  - apply (opt_total rn f eb); [exact F|split; [exact PC|reflexivity]|exact BY].
  - exists (FFRes s EInvalid None), []. split; reflexivity.
Qed.
Theorem any_rejects rn f o s : point_char (o_dot o) -> bytes s ->
  o_none o s \/ (exists t rest neg i fr x e, s = t ++ rest /\ o_text o t neg i fr x e /\ o_longest o t rest /\ ~ o_admits o i fr x) ->
  o_noinf o = true \/ no_special s -> from_chars_opt rn f o s = Ok (FFRes s EInvalid None).
Proof.
  intros PC BY H NS. destruct (usable_or_alone o PC) as [U|E]; [now apply opt_rejects|]. rewrite E in *. cbn [o_noinf o_json o_dot] in *.
  destruct (alone_or_refused (o_noinf o) (o_json o) (o_dot o) rn f s PC BY) as [A|A]; rewrite A; [|reflexivity].
  apply opt_rejects; [split; [exact PC|reflexivity]|exact BY|exact H|exact NS].
Qed.
Theorem any_special rn f o s : point_char (o_dot o) -> bytes s -> (exists t rest neg nan, s = t ++ rest /\ special_text t neg nan) ->
  from_chars_opt rn f o s = if o_noinf o then Ok (FFRes s EInvalid None) else from_chars_float rn f s.
Proof.
  intros PC BY H. destruct (usable_or_alone o PC) as [U|E]; [now apply opt_special|].
  assert (U' : o_usable (Opts false true (o_noinf o) (o_json o) true (o_dot o))) by (split; [exact PC|reflexivity]).
  assert (R' := special_rejected _ s U' BY H). rewrite E. cbn [o_noinf].
  assert (R : rejected (Opts false false (o_noinf o) (o_json o) true (o_dot o)) s).
  { unfold rejected in *. destruct (parse_alone (o_noinf o) (o_json o) (o_dot o) s) as [A|A]; [now rewrite A|exact A]. }
  assert (SN : s <> []).
  { intros ->. destruct H as [t [rest [neg [nan [X SP]]]]]. symmetry in X. apply app_eq_nil in X as [-> _]. destruct (special_shape [] neg nan SP) as [p [X [c [r [-> _]]]]]. destruct neg; discriminate. }
  assert (S := opt_special rn f _ s U' BY H). cbn [o_noinf] in S. rewrite <- S. unfold from_chars_opt. destruct s; [contradiction|]. rewrite R, R'. reflexivity.
Qed.
