(** fast_float with options: the longest number is read if the format admits it. *)
From Verif Require Import Base BaseLemmas FloatTable FloatModel FloatSpec FfOptModel FfOptSpec.
From Verif Require Import FloatProofs1 FloatProofs2 FloatProofs3 FloatProofs4 FloatProofs5 FloatProofs6 FloatProofs7 FloatProofs8.
From Verif Require Import FloatProofs9 FloatProofs10 FloatProofs11 FloatProofs12 FloatProofs13 FloatProofs14 FloatProofs15 FloatProofs16 FloatProofs17.
From Verif Require Import FfOptProofs.
From Coq Require Import Lia.
Open Scope Z_scope.

Definition o_text (o : popts) := number_text (o_dot o) (o_sci o) (o_fortran o).
Definition o_longest (o : popts) := longest_number (o_dot o) (o_sci o) (o_fortran o).
Definition o_admits (o : popts) := admitted (o_json o) (o_sci o && negb (o_fixed o)).
Definition o_usable (o : popts) : Prop := point_char (o_dot o) /\ o_fixed o || o_sci o || negb (o_fortran o) = true.

Lemma point_minus dot : point_char dot -> dot <> ch "-".
Proof. intros [_ H] ->. apply H. cbn. tauto. Qed.
Lemma longest_facts_o o neg i fr x e rest : o_usable o -> let ft := fraction_text (o_dot o) fr in let d := fraction_digits fr in
  digs i -> digs d -> exponent (o_sci o) (o_fortran o) x e -> i ++ d <> [] -> o_longest o (minus neg ++ i ++ ft ++ x) rest ->
  stops (ft ++ x ++ rest) /\ (fr = None -> forall r, x ++ rest <> o_dot o :: r) /\ stops (x ++ rest) /\
  (x <> [] -> exists n, parse_exponent_o o (x ++ rest) = Some (rest, n) /\ sat e n) /\
  (x = [] -> e = 0 /\ parse_exponent_o o (x ++ rest) = if o_sci o && negb (o_fixed o) then None else Some (rest, 0)).
Proof.
  intros [PC FS] ft d DI FD EX NE LG. set (dot := o_dot o) in *.
  assert (NOEXT : forall i' fr' x' e' a b, rest = a ++ b -> digs i' -> digs (fraction_digits fr') -> exponent (o_sci o) (o_fortran o) x' e' -> i' ++ fraction_digits fr' <> [] ->
    (i ++ ft ++ x) ++ a = i' ++ fraction_text dot fr' ++ x' -> a = []).
  { intros i' fr' x' e' a b RE DI' FR' EX' NE' EQ. apply (LG a b neg i' fr' x' e' RE).
    rewrite <- app_assoc, EQ. apply number_text_intro; assumption. }
  assert (XH := exponent_head (o_sci o) (o_fortran o) x e EX).
  assert (SX : stops (x ++ rest)).
  { destruct (list_eq_dec Z.eq_dec x []) as [XN|XN].
    - subst x. cbn [app]. destruct rest as [|c r]; [exact I|]. intros C.
      enough ([c] = []) by discriminate. unfold ft, d in *. destruct fr as [d0|]; cbn [fraction_text fraction_digits] in *.
      + apply (NOEXT i (Some (d0 ++ [c])) [] 0 [c] r); [reflexivity|exact DI|apply digs_app; split; [exact FD|now constructor]|constructor| |].
        * cbn [fraction_digits]. intros H. destruct i; [destruct d0|]; discriminate.
        * cbn [fraction_text]. rewrite !app_nil_r, <- app_assoc. reflexivity.
      + apply (NOEXT (i ++ [c]) None [] 0 [c] r); [reflexivity|apply digs_app; split; [exact DI|now constructor]|constructor|constructor| |].
        * cbn [fraction_digits]. rewrite app_nil_r. intros H. destruct i; discriminate.
        * cbn [fraction_text app]. now rewrite !app_nil_r.
    - destruct (XH XN) as [c [r [-> C]]]. cbn [app]. now apply marks_not_digits. }
  split.
  { unfold ft. destruct fr as [d0|]; [|exact SX]. cbn [fraction_text app stops]. apply PC. }
  split.
  { intros FN r H. unfold ft, d in *. subst fr. cbn [fraction_text fraction_digits app] in *. destruct (list_eq_dec Z.eq_dec x []) as [XN|XN].
    - subst x. cbn [app] in H. subst rest. enough ([dot] = []) by discriminate.
      apply (NOEXT i (Some []) [] 0 [dot] r); [reflexivity|exact DI|constructor|constructor|exact NE|cbn [fraction_text app]; now rewrite !app_nil_r].
    - destruct (XH XN) as [c [s [-> C]]]. cbn [app] in H. injection H as H _. subst c. now apply (proj2 PC). }
  split; [exact SX|]. split.
  - intros XN. apply exponent_o_spec; [exact EX|exact XN|]. destruct rest as [|c r]; [exact I|]. intros C.
    destruct (exponent_snoc _ _ x e c EX XN C) as [e' X']. enough ([c] = []) by discriminate.
    apply (NOEXT i fr (x ++ [c]) e' [c] r); try assumption; [reflexivity|]. now rewrite <- !app_assoc.
  - intros ->. split. { inversion EX as [|m s ng dd MM SS D1 D2 XE]; [reflexivity|]. destruct (mark_head _ _ m s dd ng MM SS) as [c [r [H _]]]. congruence. }
    cbn [app]. apply no_exponent; [exact FS|]. intros x' e' b RE X'. rewrite app_nil_r in NOEXT. apply (NOEXT i fr x' e' x' b); try assumption. now rewrite <- app_assoc.
Qed.

(** ** A number the format admits *)
Definition good_parse (o : popts) (s : list Z) (rest : list Z) neg i fr e : Prop :=
  let d := fraction_digits fr in
  exists n m q many, parse_number_string_o o s = Ok (Some (Pns q m rest neg many i fr)) /\ sat e n /\
  (many = false -> m = dec (i ++ d) /\ q = n - len d /\ m < 2 ^ 64) /\
  (many = true -> exists u v, i ++ d = u ++ v /\ m = dec u /\ 10 ^ 18 <= m < 10 ^ 19 /\ q = n - len d + len v).
Lemma parses o t rest neg i fr x e : o_usable o -> bytes (t ++ rest) -> o_text o t neg i fr x e -> o_longest o t rest -> o_admits o i fr x ->
  good_parse o (t ++ rest) rest neg i fr e.
Proof.
  intros U BY T LG [AJ AX]. destruct T as [neg i fr x e DI FD EX NE]. rewrite text_minus in *.
  destruct (longest_facts_o o neg i fr x e rest U DI FD EX NE LG) as [S1 [SD [SX [PX PN]]]]. rewrite <- !app_assoc in *.
  assert (PE : exists n, parse_exponent_o o (x ++ rest) = Some (rest, n) /\ sat e n).
  { destruct (list_eq_dec Z.eq_dec x []) as [XN|XN]; [|exact (PX XN)]. destruct (PN XN) as [-> H]. exists 0. split; [|now left].
    rewrite H. destruct (o_sci o && negb (o_fixed o)) eqn:Q; [|reflexivity]. destruct (AX eq_refl XN). }
  destruct PE as [n [PE SA]].
  assert (BY2 : bytes (i ++ fraction_text (o_dot o) fr ++ x ++ rest)) by (apply Forall_app in BY; apply BY).
  destruct (parse_number_o o neg i fr x rest n) as [m [q [many [H [NM YM]]]]]; try assumption.
  - apply (proj1 U).
  - apply point_minus. apply U.
  - intros _. exact SX.
  - exists n, m, q, many. repeat split; try assumption; now apply NM.
Qed.
Lemma from_pns_o rn f eb q m rest neg many i fr k : fok f eb -> digs i -> digs (fraction_digits fr) -> let d := fraction_digits fr in
  (many = false -> m = dec (i ++ d) /\ q = k /\ m < 2 ^ 64) ->
  (many = true -> exists u v, i ++ d = u ++ v /\ m = dec u /\ 10 ^ 18 <= m < 10 ^ 19 /\ q = k + len v) ->
  exists a, from_pns rn f (Pns q m rest neg many i fr) = Ok (FFRes rest (code f (dec (i ++ d)) a) (Some (to_float f neg a))) /\ good f eb (decimal (dec (i ++ d)) k) a.
Proof.
  intros F DI FD d NM YM. destruct fr as [d0|]; cbn [fraction_digits] in *.
  - apply (from_pns_good rn f eb q m rest neg many i (ch "." :: d0) d0 k F DI); [now constructor|exact NM|exact YM].
  - apply (from_pns_good rn f eb q m rest neg many i [] [] k F DI); [constructor|exact NM|exact YM].
Qed.
Lemma text_facts o t neg i fr x e : o_text o t neg i fr x e -> digs i /\ digs (fraction_digits fr) /\ t <> [] /\ len i + len (fraction_digits fr) <= len t.
Proof.
  intros [neg' i' fr' x' e' DI FD EX NE]. rewrite text_minus. repeat split; try assumption.
  - intros H. apply app_eq_nil in H as [_ H]. apply app_eq_nil in H as [-> H]. apply app_eq_nil in H as [H _]. destruct fr'; [discriminate|]. now apply NE.
  - rewrite !len_app. assert (A := len_nonneg (minus neg')). assert (B := len_nonneg x').
    assert (len (fraction_digits fr') <= len (fraction_text (o_dot o) fr')) by (destruct fr'; cbn [fraction_text fraction_digits]; [rewrite len_cons|]; lia). lia.
Qed.
Theorem opt_number rn f eb o t rest neg i fr x e : fok f eb -> o_usable o -> bytes (t ++ rest) -> o_text o t neg i fr x e -> o_longest o t rest ->
  o_admits o i fr x -> len t + 400 <= 2 ^ 28 ->
  let m := dec (i ++ fraction_digits fr) in let k := e - len (fraction_digits fr) in
  exists w ec, from_chars_opt rn f o (t ++ rest) = Ok (FFRes rest ec (Some w)) /\ nearest (f_mb f) eb neg (decimal m k) w /\
  (b_infinite (f_mb f) eb w \/ 0 < m /\ b_zero (f_mb f) eb w -> ec = ERange) /\
  (~ b_infinite (f_mb f) eb w -> ~ (0 < m /\ b_zero (f_mb f) eb w) -> ec = EOk).
Proof.
  intros F U BY T LG AD LT. destruct (text_facts o t neg i fr x e T) as [DI [FD [TN LEN]]]. cbv zeta. set (d := fraction_digits fr) in *.
  destruct (parses o t rest neg i fr x e U BY T LG AD) as [n [pm [q [many [PN [SA [NM YM]]]]]]]. fold d in NM, YM.
  assert (DID : digs (i ++ d)) by (apply digs_app; tauto). assert (DR := dec_range _ DID). rewrite len_app in DR.
  assert (LI := len_nonneg i). assert (LD := len_nonneg d).
  destruct (from_pns_o rn f eb q pm rest neg many i fr (n - len d) F DI FD NM YM) as [a [FP G]]. fold d in FP, G.
  assert (G2 : good f eb (decimal (dec (i ++ d)) (e - len d)) a).
  { apply (good_cut f eb _ (len d) (len i) e n a F); [lia|lia|lia|lia|exact SA|exact G]. }
  exists (to_float f neg a), (code f (dec (i ++ d)) a). split.
  - unfold from_chars_opt. destruct (t ++ rest) as [|c0 r0] eqn:TX; [apply app_eq_nil in TX; tauto|]. rewrite PN. cbn [bind]. exact FP.
  - split; [apply (good_nearest f eb neg _ a F); [apply decimal_nonneg; lia|exact G2]|]. apply (code_words f eb neg _ a _ F G2). lia.
Qed.
Lemma opt_text rn f eb o t rest neg i fr x e : fok f eb -> o_usable o -> bytes (t ++ rest) -> o_text o t neg i fr x e -> o_longest o t rest ->
  o_admits o i fr x -> exists w ec, from_chars_opt rn f o (t ++ rest) = Ok (FFRes rest ec (Some w)).
Proof.
  intros F U BY T LG AD. destruct (text_facts o t neg i fr x e T) as [DI [FD [TN LEN]]].
  destruct (parses o t rest neg i fr x e U BY T LG AD) as [n [pm [q [many [PN [SA [NM YM]]]]]]].
  destruct (from_pns_o rn f eb q pm rest neg many i fr _ F DI FD NM YM) as [a [FP G]].
  eexists; eexists. unfold from_chars_opt. destruct (t ++ rest) as [|c0 r0] eqn:TX; [apply app_eq_nil in TX; tauto|]. rewrite PN. cbn [bind]. exact FP.
Qed.
