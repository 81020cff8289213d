(** Floating point texts of wide characters are read as their twins of bytes. *)
From Verif Require Import Base BaseLemmas FloatTable FloatModel FloatSpec FfOptModel FfWideModel FfWideSpec.
From Verif Require Import FloatProofs1 FloatProofs2 FloatProofs6 FloatProofs10 FloatProofs11 FloatProofs12 FloatProofs17 FfWideProofs FfWideProofs2.
From Coq Require Import Lia.
Open Scope Z_scope.

(** ** Twins *)
Lemma twin_eqb dot dot' c c' a : twin dot dot' c c' -> ascii a -> (c =? a) = (c' =? a).
Proof.
  intros [_ [H _]] A. destruct (Z.eqb_spec c a) as [->|N].
  - rewrite (H (or_introl A)). now rewrite Z.eqb_refl.
  - destruct (Z.eqb_spec c' a) as [->|N']; [|reflexivity]. exfalso. apply N. apply H. now right.
Qed.
Lemma twin_eqb' dot dot' c c' a : twin dot dot' c c' -> ascii a -> (a =? c) = (a =? c').
Proof. intros T A. rewrite !(Z.eqb_sym a). now apply (twin_eqb dot dot'). Qed.
Lemma twin_dot dot dot' c c' : twin dot dot' c c' -> (c =? dot) = (c' =? dot').
Proof. intros [_ [_ H]]. destruct (Z.eqb_spec c dot), (Z.eqb_spec c' dot'); tauto. Qed.
Lemma twin_between dot dot' c c' a b : twin dot dot' c c' -> 0 <= a -> b < 128 -> (a <=? c) && (c <=? b) = (a <=? c') && (c' <=? b).
Proof.
  intros [_ [H _]] A B. unfold ascii in H. destruct (andb (a <=? c) (c <=? b)) eqn:E.
  - apply andb_true_iff in E. rewrite <- H by lia. now rewrite (proj1 E), (proj2 E).
  - destruct (andb (a <=? c') (c' <=? b)) eqn:E'; [|reflexivity]. rewrite H in E by lia. congruence.
Qed.
Lemma is_integer_between c : is_integer c = (48 <=? c) && (c <=? 57).
Proof. unfold is_integer. rewrite ch0, ch9. lia. Qed.
Lemma twin_integer dot dot' c c' : twin dot dot' c c' -> is_integer c = is_integer c'.
Proof. intros T. rewrite !is_integer_between. apply (twin_between dot dot'); [exact T|lia|lia]. Qed.
Lemma twins_bytes dot dot' s s' : twins dot dot' s s' -> bytes s'.
Proof. induction 1 as [|c c' s s' T S IH]; constructor; [apply T|exact IH]. Qed.
Lemma twins_length dot dot' s s' : twins dot dot' s s' -> length s = length s'.
Proof. induction 1; cbn [length]; congruence. Qed.
Lemma twins_len dot dot' s s' : twins dot dot' s s' -> len s = len s'.
Proof. intros T. unfold len. now rewrite (twins_length _ _ _ _ T). Qed.
Lemma twins_ascii dot dot' d d' : twins dot dot' d d' -> Forall ascii d -> d' = d.
Proof.
  induction 1 as [|c c' s s' T S IH]; intros A; [reflexivity|]. apply Forall_cons_iff in A. destruct A as [A AS]. f_equal; [|now apply IH].
  symmetry. apply T. now left.
Qed.
Lemma digs_ascii d : digs d -> Forall ascii d.
Proof. intros D. eapply Forall_impl; [|exact D]. intros c C. rewrite dig_range in C. unfold ascii. lia. Qed.
Lemma twins_span dot dot' s s' : twins dot dot' s s' -> exists d r r', s = d ++ r /\ s' = d ++ r' /\ digs d /\ stops r /\ stops r' /\ twins dot dot' r r'.
Proof.
  intros T. destruct (span s) as [d [r [-> [D R]]]]. apply Forall2_app_inv_l in T. destruct T as [d' [r' [TD [TR ->]]]].
  exists d, r, r'. rewrite (twins_ascii _ _ _ _ TD (digs_ascii d D)). split; [reflexivity|]. split; [reflexivity|]. split; [exact D|]. split; [exact R|]. split; [|exact TR].
  destruct TR as [|c c' r r' T TR]; [exact I|]. cbn [stops] in *. intros C. apply R. apply is_integer_dig. rewrite (twin_integer _ _ _ _ T). now apply is_integer_dig.
Qed.
(** [r] and [r'] are behind as many characters *)
Definition tails (s s' r r' : list Z) : Prop := exists k k', s = k ++ r /\ s' = k' ++ r' /\ length k = length k'.
Lemma tails_refl s s' : tails s s' s s'. Proof. now exists [], []. Qed.
Lemma tails_cons c c' s s' r r' : tails s s' r r' -> tails (c :: s) (c' :: s') r r'.
Proof. intros [k [k' [-> [-> L]]]]. exists (c :: k), (c' :: k'). repeat split. cbn [length]. congruence. Qed.
Lemma tails_app d d' s s' r r' : length d = length d' -> tails s s' r r' -> tails (d ++ s) (d' ++ s') r r'.
Proof. intros E [k [k' [-> [-> L]]]]. exists (d ++ k), (d' ++ k'). rewrite !app_assoc, !app_length. repeat split. congruence. Qed.
Lemma tails_trans s s' r r' q q' : tails s s' r r' -> tails r r' q q' -> tails s s' q q'.
Proof. intros [k [k' [-> [-> L]]]] H. now apply tails_app. Qed.

(** ** parse_number_string *)
Lemma leading_twins dot dot' s s' n : twins dot dot' s s' -> leading_loop_o dot s n = leading_loop_o dot' s' n.
Proof.
  intros T. revert n. induction T as [|c c' s s' T S IH]; intros n; [reflexivity|]. cbn [leading_loop_o].
  rewrite (twin_eqb _ _ _ _ (ch "0") T) by (split; reflexivity || discriminate). rewrite (twin_dot _ _ _ _ T), !IH. reflexivity.
Qed.
Lemma exp_loop_twins dot dot' s s' n : twins dot dot' s s' -> exists r r' m, exp_loop s n = (r, m) /\ exp_loop s' n = (r', m) /\ twins dot dot' r r' /\ tails s s' r r'.
Proof.
  intros T. revert n. induction T as [|c c' s s' T S IH]; intros n.
  - exists [], [], n. repeat split; [constructor|apply tails_refl].
  - cbn [exp_loop]. rewrite <- (twin_integer _ _ _ _ T). destruct (is_integer c) eqn:E.
    + assert (C : c' = c). { symmetry. apply T. left. apply is_integer_dig in E. rewrite dig_range in E. unfold ascii. lia. }
      subst c'. destruct (IH (if n <? 0x10000000 then 10 * n + (c - ch "0") else n)) as [r [r' [m [A [B [TR TL]]]]]].
      exists r, r', m. repeat split; try assumption. now apply tails_cons.
    + exists (c :: s), (c' :: s'), n. repeat split; [now constructor|apply tails_refl].
Qed.
Definition dotted (d : Z) (o : popts) : popts := Opts (o_sci o) (o_fixed o) (o_noinf o) (o_json o) (o_fortran o) d.
Lemma exponent_twins dot dot' o s s' : twins dot dot' s s' ->
  match parse_exponent_o o s, parse_exponent_o (dotted dot' o) s' with
  | None, None => True
  | Some (r, n), Some (r', n') => n = n' /\ twins dot dot' r r' /\ tails s s' r r'
  | _, _ => False
  end.
Proof.
  intros T. unfold parse_exponent_o. cbn [dotted o_sci o_fixed o_fortran].
  assert (NONE : match (if o_sci o && negb (o_fixed o) then None else Some (s, 0)), (if o_sci o && negb (o_fixed o) then None else Some (s', 0)) with
    | None, None => True | Some (r, n), Some (r', n') => n = n' /\ twins dot dot' r r' /\ tails s s' r r' | _, _ => False end).
  { destruct (_ && _); [exact I|]. repeat split; [exact T|apply tails_refl]. }
  assert (BAD : match (if negb (o_fixed o) then None else Some (s, 0)), (if negb (o_fixed o) then None else Some (s', 0)) with
    | None, None => True | Some (r, n), Some (r', n') => n = n' /\ twins dot dot' r r' /\ tails s s' r r' | _, _ => False end).
  { destruct (negb _); [exact I|]. repeat split; [exact T|apply tails_refl]. }
  destruct T as [|c c' s s' C T]; [exact NONE|].
  assert (TC : twins dot dot' (c :: s) (c' :: s')) by now constructor.
  rewrite <- !(fun a A => twin_eqb' _ _ _ _ a C A) by (split; reflexivity || discriminate).
  destruct (o_sci o && _ || _); [|exact NONE].
  set (ed := (_ || _) || _) in *.
  remember (if ed then s else c :: s) as q eqn:Q. remember (if ed then s' else c' :: s') as q' eqn:Q'.
  assert (TQ : twins dot dot' q q') by (rewrite Q, Q'; now destruct ed).
  assert (LQ : tails (c :: s) (c' :: s') q q') by (rewrite Q, Q'; destruct ed; [apply tails_cons|]; apply tails_refl).
  clear Q Q' ed.
  assert (SIGN : exists p p' neg, (match q with x :: r' => if ch "-" =? x then (r', true) else if ch "+" =? x then (r', false) else (q, false) | [] => (q, false) end) = (p, neg) /\
    (match q' with x :: r' => if ch "-" =? x then (r', true) else if ch "+" =? x then (r', false) else (q', false) | [] => (q', false) end) = (p', neg) /\
    twins dot dot' p p' /\ tails (c :: s) (c' :: s') p p').
  { destruct TQ as [|x x' q q' X TQ].
    - exists [], [], false. repeat split; [constructor|exact LQ].
    - rewrite <- !(fun a A => twin_eqb' _ _ _ _ a X A) by (split; reflexivity || discriminate).
      assert (LR : tails (c :: s) (c' :: s') q q') by (eapply tails_trans; [exact LQ|]; apply tails_cons, tails_refl).
      destruct (ch "-" =? x); [now exists q, q', true|]. destruct (ch "+" =? x); [now exists q, q', false|].
      exists (x :: q), (x' :: q'), false. repeat split; [now constructor|exact LQ]. }
  destruct SIGN as [p [p' [neg [-> [-> [TP LP]]]]]].
  assert (EL := exp_loop_twins dot dot' p p' 0 TP).
  destruct TP as [|x x' p p' X TP]; [exact BAD|]. rewrite <- (twin_integer _ _ _ _ X). destruct (is_integer x); [|exact BAD].
  destruct EL as [r [r' [m [-> [-> [TR TL]]]]]]. repeat split; [exact TR|]. eapply tails_trans; eassumption.
Qed.
Definition pns_rel (dot dot' : Z) (s s' : list Z) (x y : res (option pns)) : Prop :=
  match x, y with
  | Ok None, Ok None => True
  | Ok (Some n), Ok (Some n') => n' = with_rest (p_rest n') n /\ spans n /\ tails s s' (p_rest n) (p_rest n')
  | Ub, Ub => True
  | _, _ => False
  end.
Lemma pns_twins u o dot' s s' : fits u s -> twins (o_dot o) dot' s s' ->
  pns_rel (o_dot o) dot' s s' (parse_number_string_w u o s) (parse_number_string_o (dotted dot' o) s').
Proof.
  intros FS T. set (dot := o_dot o) in *. destruct T as [|c c' s s' C T]; [exact I|].
  unfold parse_number_string_w, parse_number_string_o. cbn [dotted o_json o_dot]. fold dot.
  rewrite <- (twin_eqb _ _ _ _ (ch "-") C) by (split; reflexivity || discriminate). set (neg := c =? ch "-").
  remember (if neg then s else c :: s) as p eqn:P. remember (if neg then s' else c' :: s') as p' eqn:P'.
  assert (TP : twins dot dot' p p') by (rewrite P, P'; destruct neg; [exact T|now constructor]).
  assert (LP : tails (c :: s) (c' :: s') p p') by (rewrite P, P'; destruct neg; [apply tails_cons|]; apply tails_refl).
  assert (FP : fits u p) by (rewrite P; destruct neg; [now apply Forall_inv_tail in FS|exact FS]).
  generalize dependent (c :: s). generalize dependent (c' :: s'). intros t' P' t FT P LP. clear P P' T C FT.
  assert (G : match p with [] => true | x :: _ => if o_json o then negb (is_integer x) else negb (is_integer x) && negb (x =? dot) end =
              match p' with [] => true | x :: _ => if o_json o then negb (is_integer x) else negb (is_integer x) && negb (x =? dot') end).
  { destruct TP as [|x x' p p' X TP]; [reflexivity|]. now rewrite (twin_integer _ _ _ _ X), (twin_dot _ _ _ _ X). }
  rewrite <- G. destruct (neg && _); [exact I|]. clear G.
  assert (LEAD : forall n, leading_loop_o dot p n = leading_loop_o dot' p' n) by (intros n; now apply leading_twins).
  assert (HEAD0 : match p with x :: _ => x =? ch "0" | [] => false end = match p' with x :: _ => x =? ch "0" | [] => false end).
  { destruct TP as [|x x' p p' X TP]; [reflexivity|]. apply (twin_eqb dot dot'); [exact X|]. split; reflexivity || discriminate. }
  destruct (twins_span dot dot' p p' TP) as [d [r [r' [E [E' [D [R [R' TR]]]]]]]]. rewrite <- HEAD0. clear HEAD0. subst p p'.
  rewrite !digit_loop_spec by (assumption || lia). rewrite !between_app. set (i1 := u64 _).
  destruct (o_json o && _); [exact I|].
  assert (FR : fits u r) by (unfold fits in FP; apply Forall_app in FP; apply FP).
  assert (LR : tails t t' r r') by (eapply tails_trans; [exact LP|]; apply tails_app; [reflexivity|apply tails_refl]).
  assert (FRAC : exists (q q' : list Z) (j : Z) (fr : option (list Z)),
    match r with
    | x :: before => if x =? dot then let '(p, i) := loop8_w u before i1 in let '(p, i) := digit_loop p i in (p, i, Some (FloatModel.between before p)) else (r, i1, None)
    | [] => (r, i1, None) end = (q, j, fr) /\
    match r' with
    | x :: before => if x =? dot' then let '(p, i) := loop_parse_if_eight_digits before i1 in let '(p, i) := digit_loop p i in (p, i, Some (FloatModel.between before p)) else (r', i1, None)
    | [] => (r', i1, None) end = (q', j, fr) /\
    twins dot dot' q q' /\ tails t t' q q' /\ match fr with Some x => digs x | None => True end).
  { destruct TR as [|x x' r r' X TR].
    - exists [], [], i1, None. repeat split; [constructor|exact LR].
    - rewrite <- (twin_dot _ _ _ _ X). destruct (x =? dot).
      + destruct (twins_span dot dot' r r' TR) as [e [q [q' [-> [-> [DE [Q [Q' TQ]]]]]]]].
        assert (LQ : tails t t' q q') by (eapply tails_trans; [exact LR|]; apply tails_cons, tails_app; [reflexivity|apply tails_refl]).
        assert (W := fraction_loops_w u e q i1 (Forall_inv_tail FR) DE Q (u64_range _)).
        assert (N := fraction_loops e q' i1 (twins_bytes _ _ _ _ TR) DE Q' (u64_range _)).
        destruct (loop8_w u (e ++ q) i1) as [a b]. rewrite W. destruct (loop_parse_if_eight_digits (e ++ q') i1) as [a' b']. rewrite N.
        rewrite !between_app. exists q, q', (u64 (i1 * 10 ^ len e + dec e)), (Some e). repeat split; assumption.
      + exists (x :: r), (x' :: r'), i1, None. repeat split; [now constructor|exact LR]. }
  destruct FRAC as [q [q' [j [fr [-> [-> [TQ [LQ DF]]]]]]]].
  destruct (if o_json o then _ else _); [exact I|].
  assert (X := exponent_twins dot dot' o q q' TQ).
  destruct (parse_exponent_o o q) as [[z n]|], (parse_exponent_o (dotted dot' o) q') as [[z' n']|]; try contradiction; [|exact I].
  destruct X as [<- [TZ LZ]]. assert (L : tails t t' z z') by (eapply tails_trans; eassumption). rewrite <- LEAD.
  assert (END : forall a b m, pns_rel dot dot' t t' (Ok (Some (Pns a b z neg m d fr))) (Ok (Some (Pns a b z' neg m d fr)))).
  { intros a b m. cbn [pns_rel with_rest p_rest p_exponent p_mantissa p_negative p_many p_integer p_fraction]. repeat split; assumption. }
  destruct (19 <? _); [|apply END]. destruct (19 <? _); [|apply END].
  destruct (nineteen_loop d 0) as [g h]. destruct (_ <=? h); [apply END|].
  destruct (nineteen_loop _ h) as [g' h']. apply END.
Qed.
