(** fast_float with options: every text has a result; the formats general and JSON. *)
From Verif Require Import Base BaseLemmas FloatTable FloatModel FloatSpec FfOptModel FfOptSpec.
From Verif Require Import FloatProofs1 FloatProofs2 FloatProofs6 FloatProofs10 FloatProofs11 FloatProofs14 FloatProofs15 FloatProofs16 FloatProofs17.
From Verif Require Import FfOptProofs FfOptProofs2 FfOptProofs3.
From Coq Require Import Lia.
Open Scope Z_scope.

(** ** Every text has a result *)
Lemma longest_exists_o o n : forall s a b neg i d x e, (length b <= n)%nat -> s = a ++ b -> o_text o a neg i d x e ->
  ~ ~ (exists t rest neg i d x e, s = t ++ rest /\ o_text o t neg i d x e /\ o_longest o t rest).
Proof.
  induction n as [|n IH]; intros s a b neg i d x e LB -> T NEX.
  - destruct b; [|cbn in LB; lia]. apply NEX. exists a, [], neg, i, d, x, e. split; [reflexivity|]. split; [exact T|].
    intros a' b' neg' i' d' x' e' H _. symmetry in H. now apply app_eq_nil in H.
  - apply NEX. exists a, b, neg, i, d, x, e. split; [reflexivity|]. split; [exact T|]. intros a' b' neg' i' d' x' e' -> T'.
    destruct a' as [|c a']; [reflexivity|]. exfalso.
    apply (IH (a ++ (c :: a') ++ b') (a ++ c :: a') b' neg' i' d' x' e'); [rewrite app_length in LB; cbn in LB; lia|apply app_assoc|exact T'|exact NEX].
Qed.
Lemma admits_dec o i fr x : o_admits o i fr x \/ ~ o_admits o i fr x.
Proof.
  unfold o_admits, admitted. assert (A : (o_json o = true -> json_ok i fr) \/ ~ (o_json o = true -> json_ok i fr)).
  { destruct (o_json o); [|left; discriminate]. destruct (json_dec i fr); tauto. }
  assert (B : (o_sci o && negb (o_fixed o) = true -> x <> []) \/ ~ (o_sci o && negb (o_fixed o) = true -> x <> [])).
  { destruct (o_sci o && negb (o_fixed o)); [|left; discriminate]. destruct x; [right; intros H; now apply H|left; discriminate]. }
  unfold json_ok in A. tauto.
Qed.
Theorem opt_total rn f eb o s : fok f eb -> o_usable o -> bytes s -> exists r k, from_chars_opt rn f o s = Ok r /\ s = k ++ r_rest r.
Proof.
  intros F U BY. destruct (list_eq_dec Z.eq_dec s []) as [->|SN]; [exists (FFRes [] EInvalid None), []; split; reflexivity|].
  assert (INF : rejected o s -> exists r k, from_chars_opt rn f o s = Ok r /\ s = k ++ r_rest r).
  { intros R. rewrite (rejected_result rn f o s SN R). destruct (o_noinf o); [|now apply infnan_total]. exists (FFRes s EInvalid None), []. split; reflexivity. }
  (* the statement is decidable, so the longest number need not be constructed *)
  assert (DEC : (exists r k, from_chars_opt rn f o s = Ok r /\ s = k ++ r_rest r) \/ ~ (exists r k, from_chars_opt rn f o s = Ok r /\ s = k ++ r_rest r)).
  { destruct (from_chars_opt rn f o s) as [r| |]; [|right; intros [r [k [H _]]]; discriminate|right; intros [r [k [H _]]]; discriminate].
    destruct (list_eq_dec Z.eq_dec (skipn (length s - length (r_rest r)) s) (r_rest r)) as [E|E].
    - left. exists r, (firstn (length s - length (r_rest r)) s). split; [reflexivity|]. rewrite <- E at 2. symmetry. apply firstn_skipn.
    - right. intros [r' [k [H K]]]. injection H as <-. apply E. rewrite K at 2. rewrite K at 1. rewrite app_length. replace (length k + length (r_rest r) - length (r_rest r))%nat with (length k) by lia.
      rewrite skipn_app, Nat.sub_diag, skipn_all. reflexivity. }
  destruct DEC as [H|NP]; [exact H|]. exfalso. apply NP, INF. apply parse_none_o; try assumption. intros a b neg i d x e E T.
  apply (longest_exists_o o (length b) s a b neg i d x e (le_n _) E T). intros [t [rest [neg' [i' [d' [x' [e' [E' [T' LG]]]]]]]]].
  apply NP. destruct (admits_dec o i' d' x') as [AD|NA].
  - clear - F U BY E' T' LG AD. subst s. destruct (opt_text rn f eb o t rest neg' i' d' x' e' F U BY T' LG AD) as [w [ec H]].
    eexists. exists t. split; [exact H|reflexivity].
  - apply INF. clear NP INF E. subst s. now apply (not_admitted o t rest neg' i' d' x' e').
Qed.

(** ** The format general *)
Lemma leading_loop_dot p : forall n, leading_loop_o (ch ".") p n = leading_loop p n.
Proof. induction p as [|c r IH]; intros n; [reflexivity|]. cbn [leading_loop_o leading_loop]. now rewrite !IH. Qed.
Lemma parse_exponent_general p : parse_exponent_o general p = Some (parse_exponent p).
Proof.
  unfold parse_exponent_o, parse_exponent. destruct p as [|c r]; [reflexivity|]. cbn [o_sci o_fixed o_fortran general andb negb]. rewrite orb_false_r.
  destruct ((ch "e" =? c) || (ch "E" =? c)); [|reflexivity]. cbn [orb].
  destruct (match r with [] => (r, false) | c0 :: r' => if ch "-" =? c0 then (r', true) else if ch "+" =? c0 then (r', false) else (r, false) end) as [r1 ng].
  destruct r1 as [|c1 r1]; [reflexivity|]. destruct (is_integer c1); [|reflexivity]. destruct (exp_loop (c1 :: r1) 0). reflexivity.
Qed.
Theorem opt_general rn f s : from_chars_opt rn f general s = from_chars_float rn f s.
Proof.
  unfold from_chars_opt, from_chars_float. destruct s as [|c r]; [reflexivity|].
  assert (P : parse_number_string_o general (c :: r) = parse_number_string (c :: r)); [|rewrite P; reflexivity].
  unfold parse_number_string_o, parse_number_string. cbn [o_json o_dot general andb].
  destruct ((c =? ch "-") && _); [reflexivity|].
  destruct (digit_loop _ 0) as [p1 i1].
  destruct (match p1 with [] => _ | _ => _ end) as [[p2 i2] fr].
  destruct (_ =? 0); [reflexivity|]. rewrite parse_exponent_general. destruct (parse_exponent p2) as [p3 n]. now rewrite leading_loop_dot.
Qed.

(** ** JSON *)
Theorem json_texts t : (exists neg i d x e, number_text (ch ".") true false t neg i d x e /\ admitted true false i d x) <-> json_number t.
Proof.
  split.
  - intros [neg [i [d0 [x [e [[neg' i' d' x' e' DI FD EX NE] [J _]]]]]]]. destruct (J eq_refl) as [JI JD].
    exists neg', i', (fraction_text (ch ".") d'), x'. repeat split.
    + destruct JI as [->|[c [r [-> N]]]]; [constructor|]. apply digs_cons in DI as [DC DR]. constructor; [|exact DR].
      rewrite dig_range in DC. change (ch "0") with 48 in N. change (ch "1") with 49. change (ch "9") with 57. lia.
    + destruct d' as [d|]; [|constructor]. cbn [fraction_text]. constructor; [exact FD|congruence].
    + destruct EX as [|m s ng d MK SG DN DD]; [constructor|]. destruct MK as [c s _ C|c s H|s H]; [|discriminate|discriminate].
      cbn [app]. constructor; [exact C| |exact DD|exact DN]. destruct SG; tauto.
  - intros [neg [i [f [x [JI [JF [JX ->]]]]]]].
    assert (I : digs i /\ i <> [] /\ (i = [ch "0"] \/ exists c r, i = c :: r /\ c <> ch "0")).
    { destruct JI as [|c r C D].
      - repeat split; [repeat constructor; discriminate|discriminate|now left].
      - repeat split; [apply digs_cons; split; [rewrite dig_range|exact D]|discriminate|right; exists c, r; split; [reflexivity|]].
        all: change (ch "1") with 49 in C; change (ch "9") with 57 in C; try change (ch "0") with 48; lia. }
    destruct I as [DI [IN IJ]].
    assert (FR : exists d, f = fraction_text (ch ".") d /\ digs (fraction_digits d) /\ d <> Some []).
    { destruct JF as [|d D N]; [exists None|exists (Some d)]; repeat split; [apply Forall_nil|discriminate|exact D|congruence]. }
    destruct FR as [d [-> [FD DN]]].
    assert (EX : exists e, exponent true false x e).
    { destruct JX as [|c s d' C S D N]; [exists 0; constructor|].
      assert (SG : exists ng, exp_sign s ng) by (destruct S as [->|[->| ->]]; eexists; constructor). destruct SG as [ng SG].
      eexists. apply (xp_some true false [c] s ng d'); [now apply mk_e|exact SG|exact N|exact D]. }
    destruct EX as [e EX]. exists neg, i, d, x, e. split; [|split; [intros _; now split|discriminate]].
    apply number_text_intro; [exact DI|exact FD|exact EX|]. intros H. apply app_eq_nil in H. tauto.
Qed.
(** numbers end in a digit or the point *)
Lemma ends_digit p d : digs d -> d <> [] -> exists q c, p ++ d = q ++ [c] /\ dig c.
Proof.
  intros D N. destruct (exists_last N) as [q [c ->]]. exists (p ++ q), c. split; [apply app_assoc|]. apply digs_app in D as [_ D]. apply digs_cons in D. apply D.
Qed.
Lemma number_ends dot sci ftn t neg i d x e : number_text dot sci ftn t neg i d x e -> exists q c, t = q ++ [c] /\ (dig c \/ c = dot).
Proof.
  intros [neg' i' d' x' e' DI FD EX NE].
  assert (W : forall p y, y <> [] -> digs y -> exists q c, p ++ y = q ++ [c] /\ (dig c \/ c = dot)) by (intros p y YN YD; destruct (ends_digit p y YD YN) as [q [c [H C]]]; exists q, c; tauto).
  destruct EX as [|m s ng y MK SG YN YD]; [|rewrite !app_assoc; now apply W]. rewrite app_nil_r.
  destruct d' as [[|z y]|]; cbn [fraction_text fraction_digits] in *.
  - rewrite app_assoc. eexists; eexists. split; [reflexivity|now right].
  - change (dot :: z :: y) with ([dot] ++ z :: y). rewrite !app_assoc. apply W; [discriminate|exact FD].
  - rewrite app_nil_r in *. now apply W.
Qed.
Lemma json_ends t : json_number t -> exists q c, t = q ++ [c] /\ dig c.
Proof.
  intros [neg [i [f [x [JI [JF [JX ->]]]]]]].
  destruct JX as [|c s d C S D N]; [|change (c :: s ++ d) with ((c :: s) ++ d); rewrite !app_assoc; now apply ends_digit]. rewrite app_nil_r.
  destruct JF as [|d D N]; [rewrite app_nil_r|change (ch "." :: d) with ([ch "."] ++ d); rewrite !app_assoc; now apply ends_digit].
  destruct JI as [|c r C D]; [apply ends_digit; [repeat constructor; discriminate|discriminate]|]. apply ends_digit; [|discriminate].
  apply digs_cons. split; [|exact D]. rewrite dig_range. change (ch "1") with 49 in C. change (ch "9") with 57 in C. lia.
Qed.
