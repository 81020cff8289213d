(** Floating point texts of wide characters are read as their twins of bytes. *)
From Verif Require Import Base BaseLemmas FloatTable FloatModel FloatSpec FfOptModel FfWideModel FfWideSpec.
From Verif Require Import FloatProofs1 FloatProofs2 FloatProofs6 FloatProofs10 FloatProofs11 FloatProofs12 FloatProofs17 FfWideProofs FfWideProofs2 FfWideProofs3.
From Coq Require Import Lia.
Open Scope Z_scope.

(** ** Infinities and NaNs *)
Lemma letters_twins dot dot' a a' p : Forall lower p -> twins dot dot' a a' -> no_lookalikes a -> (letters (map to_char a) p <-> letters a' p).
Proof.
  intros L T. revert p L. induction T as [|c c' a a' C T IH]; intros p L NL.
  - cbn [map]. split; intros H; inversion H; constructor.
  - unfold no_lookalikes in NL. apply Forall_cons_iff in NL. destruct NL as [N NL].
    assert (K : forall l, lower l -> (to_char c = l \/ to_char c = l - 32) <-> (c' = l \/ c' = l - 32)).
    { intros l Hl. unfold lower in Hl. change (ch "a") with 97 in Hl. change (ch "z") with 122 in Hl. destruct C as [B [A _]]. unfold ascii in A. unfold is_byte in *.
      unfold letter in N. change (ch "a") with 97 in N. change (ch "z") with 122 in N. change (ch "A") with 65 in N. change (ch "Z") with 90 in N.
      unfold to_char. change (2 ^ 8) with 256. destruct (Z.lt_ge_cases c 0) as [C0|C0].
      - assert (128 <= c') by (destruct (Z.lt_ge_cases c' 128); [exfalso; assert (c = c') by (apply A; lia); lia|lia]). lia.
      - destruct (Z.lt_ge_cases c 128) as [C1|C1]; [assert (c = c') by (apply A; lia); subst; rewrite Z.mod_small by lia; tauto|].
        assert (128 <= c') by (destruct (Z.lt_ge_cases c' 128); [exfalso; assert (c = c') by (apply A; lia); lia|lia]).
        destruct (Z.lt_ge_cases c 256) as [C2|C2]; [rewrite Z.mod_small by lia; lia|lia]. }
    cbn [map]. split; intros H; inversion H as [|x l y q X Y]; subst; constructor; apply Forall_inv in L as L0; apply Forall_inv_tail in L; try (apply K; assumption); apply IH; assumption.
Qed.
Lemma case_twins dot dot' a a' p : Forall lower p -> map to_char p = p -> length a = length p -> twins dot dot' a a' -> no_lookalikes a ->
  strncasecmp_w a p = strncasecmp a' p.
Proof.
  intros L M E T N. unfold strncasecmp_w. rewrite M.
  assert (A := case_letters (map to_char a) p L ltac:(rewrite map_length; exact E)).
  assert (B := case_letters a' p L ltac:(rewrite <- (twins_length _ _ _ _ T); exact E)).
  assert (C := letters_twins dot dot' a a' p L T N).
  destruct (strncasecmp (map to_char a) p), (strncasecmp a' p); intuition congruence.
Qed.
Lemma nan_twins dot dot' s s' : twins dot dot' s s' ->
  match nan_loop s, nan_loop s' with None, None => True | Some r, Some r' => tails s s' r r' | _, _ => False end.
Proof.
  induction 1 as [|c c' s s' C T IH]; [exact I|]. cbn [nan_loop].
  rewrite <- !(fun a A => twin_eqb _ _ _ _ a C A) by (split; reflexivity || discriminate).
  rewrite <- !(fun a b A B => twin_between _ _ _ _ a b C A B) by (reflexivity || discriminate).
  destruct (c =? ch ")"); [apply tails_cons, tails_refl|]. destruct (_ || _); [|exact I].
  destruct (nan_loop s), (nan_loop s'); try exact IH. now apply tails_cons.
Qed.
Lemma twins_firstn dot dot' n s s' : twins dot dot' s s' -> twins dot dot' (firstn n s) (firstn n s').
Proof. intros T. revert n. induction T as [|c c' s s' C T IH]; intros [|n]; try constructor; [exact C|apply IH]. Qed.
Lemma twins_skipn dot dot' n s s' : twins dot dot' s s' -> twins dot dot' (skipn n s) (skipn n s').
Proof. intros T. revert n. induction T as [|c c' s s' C T IH]; intros [|n]; cbn [skipn]; try (now constructor); apply IH. Qed.
Lemma tails_skipn dot dot' n s s' : twins dot dot' s s' -> tails s s' (skipn n s) (skipn n s').
Proof.
  intros T. exists (firstn n s), (firstn n s'). rewrite !firstn_skipn. repeat split. rewrite !firstn_length, (twins_length _ _ _ _ T). reflexivity.
Qed.
Lemma look_firstn n s : no_lookalikes s -> no_lookalikes (firstn n s).
Proof. intros H. unfold no_lookalikes in *. rewrite <- (firstn_skipn n s) in H. apply Forall_app in H. apply H. Qed.
Lemma look_skipn n s : no_lookalikes s -> no_lookalikes (skipn n s).
Proof. intros H. unfold no_lookalikes in *. rewrite <- (firstn_skipn n s) in H. apply Forall_app in H. apply H. Qed.
Lemma lower_pat : Forall lower (s2z "nan") /\ Forall lower (s2z "inf") /\ Forall lower (s2z "inity").
Proof. repeat split; repeat constructor; discriminate. Qed.
Lemma infnan_twins dot dot' f s s' : s <> [] -> twins dot dot' s s' -> no_lookalikes s -> same_answer s s' (parse_infnan_w f s) (parse_infnan f s').
Proof.
  intros NE T NL. destruct T as [|c c' s s' C T]; [contradiction|]. unfold parse_infnan_w, parse_infnan.
  rewrite <- (twin_eqb _ _ _ _ (ch "-") C) by (split; reflexivity || discriminate). set (neg := c =? ch "-").
  remember (if neg then s else c :: s) as p eqn:P. remember (if neg then s' else c' :: s') as p' eqn:P'.
  assert (TP : twins dot dot' p p') by (rewrite P, P'; destruct neg; [exact T|now constructor]).
  assert (LP : tails (c :: s) (c' :: s') p p') by (rewrite P, P'; destruct neg; [apply tails_cons|]; apply tails_refl).
  assert (NP : no_lookalikes p) by (rewrite P; destruct neg; [now apply Forall_inv_tail in NL|exact NL]).
  generalize dependent (c :: s). generalize dependent (c' :: s'). intros t' P' t _ NL P LP. clear P P' C T NL.
  destruct lower_pat as [L1 [L2 L3]].
  assert (NO : same_answer t t' (Ok (FFRes t EInvalid None)) (Ok (FFRes t' EInvalid None))) by (repeat split; apply tails_refl).
  rewrite <- (twins_len _ _ _ _ TP). destruct (Z.leb_spec 3 (len p)) as [N3|N3]; [|exact NO].
  assert (T3 := twins_firstn _ _ 3 _ _ TP).
  assert (E3 : length (firstn 3 p) = 3%nat) by (rewrite firstn_length; unfold len in N3; lia).
  rewrite (case_twins dot dot' (firstn 3 p) (firstn 3 p') (s2z "nan") L1 eq_refl E3 T3 (look_firstn 3 p NP)).
  rewrite (case_twins dot dot' (firstn 3 p) (firstn 3 p') (s2z "inf") L2 eq_refl E3 T3 (look_firstn 3 p NP)).
  assert (S3 : tails t t' (skipn 3 p) (skipn 3 p')) by (eapply tails_trans; [exact LP|]; eapply tails_skipn; exact TP).
  destruct (strncasecmp (firstn 3 p') (s2z "nan")).
  { repeat split. cbn [r_rest]. assert (Q := twins_skipn _ _ 3 _ _ TP). destruct Q as [|x x' q q' X Q]; [exact S3|].
    rewrite <- (twin_eqb _ _ _ _ (ch "(") X) by (split; reflexivity || discriminate). destruct (x =? ch "("); [|exact S3].
    assert (W := nan_twins _ _ _ _ Q). destruct (nan_loop q), (nan_loop q'); try contradiction; [|exact S3].
    eapply tails_trans; [exact S3|]. now apply tails_cons. }
  destruct (strncasecmp (firstn 3 p') (s2z "inf")); [|exact NO].
  repeat split. cbn [r_rest].
  assert (E8 : (8 <=? len p) && strncasecmp_w (firstn 5 (skipn 3 p)) (s2z "inity") = (8 <=? len p) && strncasecmp (firstn 5 (skipn 3 p')) (s2z "inity")).
  { destruct (Z.leb_spec 8 (len p)) as [N8|N8]; [|reflexivity]. cbn [andb]. apply (case_twins dot dot'); [exact L3|reflexivity| | |].
    - rewrite firstn_length, skipn_length. unfold len in N8. cbn [length s2z]. lia.
    - apply twins_firstn, twins_skipn, TP.
    - apply look_firstn, look_skipn, NP. }
  rewrite E8. clear E8. destruct (_ && _); (eapply tails_trans; [exact LP|]; eapply tails_skipn; exact TP).
Qed.
Lemma from_pns_rest rn f n x : from_pns rn f n = Ok x -> r_rest x = p_rest n.
Proof.
  unfold from_pns. destruct (fast_path rn f n) as [[y|]| |]; cbn [bind]; try discriminate; [intros H; injection H as <-; reflexivity|].
  cbv zeta. match goal with |- bind (if ?c then ?t else ?e) _ = _ -> _ => destruct (if c then t else e) end; try discriminate.
  cbn [bind]. intros H. injection H as <-. reflexivity.
Qed.
Lemma float_twins u rn f o dot' s s' : fits u s -> twins (o_dot o) dot' s s' -> o_noinf o = true \/ no_lookalikes s ->
  same_answer s s' (from_chars_w u rn f o s) (from_chars_opt rn f (dotted dot' o) s').
Proof.
  intros F T NL. destruct (list_eq_dec Z.eq_dec s []) as [->|NE].
  { inversion T. subst. cbn. repeat split. exists [], []. repeat split. }
  assert (A := pns_twins u o dot' s s' F T).
  assert (W : from_chars_w u rn f o s = do n <- parse_number_string_w u o s ;;
    match n with None => if o_noinf o then Ok (FFRes s EInvalid None) else parse_infnan_w f s | Some n => from_pns_w u rn f n end) by (destruct s; [contradiction|reflexivity]).
  assert (N : from_chars_opt rn f (dotted dot' o) s' = do n <- parse_number_string_o (dotted dot' o) s' ;;
    match n with None => if o_noinf o then Ok (FFRes s' EInvalid None) else parse_infnan f s' | Some n => from_pns rn f n end).
  { destruct T as [|c c' s s' C T]; [contradiction|reflexivity]. }
  rewrite W, N. clear W N.
  destruct (parse_number_string_w u o s) as [[n|]| |], (parse_number_string_o (dotted dot' o) s') as [[n'|]| |]; try contradiction; cbn [bind].
  - destruct A as [E [SP TL]]. rewrite (from_pns_w_is u rn f n (p_rest n') SP), <- E.
    assert (R := from_pns_rest rn f n'). destruct (from_pns rn f n') as [x| |]; try exact I. cbn [answer_rest same_answer r_ec r_value r_rest].
    rewrite (R x eq_refl). repeat split. exact TL.
  - destruct (o_noinf o) eqn:NI; [repeat split; apply tails_refl|]. destruct NL as [NL|NL]; [discriminate|]. now apply (infnan_twins (o_dot o) dot').
  - exact I.
Qed.
