(** Floating point texts of wide characters are read as their twins of bytes. *)
From Verif Require Import Base BaseLemmas FloatTable FloatModel FloatSpec FfOptModel FfWideModel FfWideSpec.
From Verif Require Import FloatProofs1 FloatProofs2 FloatProofs6 FloatProofs10 FloatProofs11 FloatProofs12 FloatProofs17 FfWideProofs.
From Coq Require Import Lia.
Open Scope Z_scope.

(** ** The digits of a number *)
Lemma digs_fits u p : digs p -> fits u p.
Proof. intros D. eapply Forall_impl; [|exact D]. intros c C. rewrite dig_range in C. destruct u; cbn [ufits]; lia. Qed.
Lemma truncated_w_is u p : digs p -> is_truncated_w u p = is_truncated p.
Proof.
  intros D. assert (A := truncated_spec p D). assert (B := truncated_w_spec u p (digs_fits u p D)).
  destruct (is_truncated_w u p), (is_truncated p); intuition congruence.
Qed.
Lemma skip_is p : digs p -> skip_zeros p = skip_zeros1 p.
Proof.
  intros D. destruct (split_zeros p) as [z [s [-> [Z FN]]]]. apply digs_app in D.
  rewrite skip_spec by tauto. now rewrite skip1_spec.
Qed.
Lemma skip_digs p : digs p -> digs (skip_zeros p).
Proof. intros D. destruct (split_zeros p) as [z [s [-> [Z FN]]]]. apply digs_app in D. rewrite skip_spec; tauto. Qed.
Lemma skip_w_eq u p : digs p -> skip_zeros_w u p = skip_zeros p.
Proof. intros D. rewrite skip_w_is by now apply digs_fits. symmetry. now apply skip_is. Qed.
Lemma eight_loop_w_is u maxd p v c d : digs p -> eight_loop_w u maxd p v c d = eight_loop maxd p v c d.
Proof.
  remember (length p) as n eqn:N. revert p N v c d. induction n as [n IH] using lt_wf_ind. intros p N v c d D.
  destruct p as [|c0 [|c1 [|c2 [|c3 [|c4 [|c5 [|c6 [|c7 p]]]]]]]]; try reflexivity. cbn [eight_loop_w eight_loop].
  apply (digs_app [c0; c1; c2; c3; c4; c5; c6; c7] p) in D. destruct D as [D8 D].
  rewrite parse_eight_w, parse_eight by exact D8. destruct (_ && _); [|reflexivity].
  apply (IH (length p)); [rewrite N; cbn [length]; lia|reflexivity|exact D].
Qed.
Lemma eight_loop_digs maxd p v c d : digs p -> digs (c_p (eight_loop maxd p v c d)).
Proof.
  remember (length p) as n eqn:N. revert p N v c d. induction n as [n IH] using lt_wf_ind. intros p N v c d D.
  destruct p as [|c0 [|c1 [|c2 [|c3 [|c4 [|c5 [|c6 [|c7 p]]]]]]]]; try exact D. cbn [eight_loop].
  destruct (_ && _); [|exact D]. apply (digs_app [c0; c1; c2; c3; c4; c5; c6; c7] p) in D.
  apply (IH (length p)); [rewrite N; cbn [length]; lia|reflexivity|apply D].
Qed.
Lemma one_loop_digs maxd p v c d : digs p -> digs (c_p (one_loop maxd p v c d)).
Proof.
  intros D. revert v c d. induction D as [|x p X D IH]; intros v c d; [constructor|]. cbn [one_loop].
  destruct (_ && _); [apply IH|now constructor].
Qed.
Lemma mantissa_loop_w_is u fuel maxd p after big d : digs p -> digs after ->
  mantissa_loop_w u fuel maxd p after big d = mantissa_loop fuel maxd p after big d.
Proof.
  revert p big d. induction fuel as [|fuel IH]; intros p big d D A; [destruct p; reflexivity|].
  destruct p as [|x p]; [reflexivity|]. remember (x :: p) as q eqn:Q.
  assert (L : mantissa_loop_w u (S fuel) maxd q after big d = let a := eight_loop_w u maxd q 0 0 d in
      let a := one_loop maxd (c_p a) (c_value a) (c_counter a) (c_digits a) in
      do big <- add_native big (u64 (10 ^ c_counter a)) (c_value a) ;;
      if c_digits a =? maxd then
        if is_truncated_w u (c_p a) || is_truncated_w u after
        then do big <- add_native big 10 1 ;; Ok (big, c_digits a + 1, true)
        else Ok (big, c_digits a, true)
      else mantissa_loop_w u fuel maxd (c_p a) after big (c_digits a)) by (rewrite Q; reflexivity).
  assert (R : mantissa_loop (S fuel) maxd q after big d = let a := eight_loop maxd q 0 0 d in
      let a := one_loop maxd (c_p a) (c_value a) (c_counter a) (c_digits a) in
      do big <- add_native big (u64 (10 ^ c_counter a)) (c_value a) ;;
      if c_digits a =? maxd then
        if is_truncated (c_p a) || is_truncated after
        then do big <- add_native big 10 1 ;; Ok (big, c_digits a + 1, true)
        else Ok (big, c_digits a, true)
      else mantissa_loop fuel maxd (c_p a) after big (c_digits a)) by (rewrite Q; reflexivity).
  rewrite L, R. clear L R. rewrite eight_loop_w_is by exact D. cbv zeta.
  assert (DA := one_loop_digs maxd (c_p (eight_loop maxd q 0 0 d)) (c_value (eight_loop maxd q 0 0 d)) (c_counter (eight_loop maxd q 0 0 d))
    (c_digits (eight_loop maxd q 0 0 d)) (eight_loop_digs maxd q 0 0 d D)).
  set (a := one_loop _ _ _ _ _) in *. destruct (add_native _ _ _) as [b| |]; cbn [bind]; try reflexivity.
  rewrite !truncated_w_is by assumption. destruct (c_digits a =? maxd); [reflexivity|]. now apply IH.
Qed.
Definition spans (n : pns) : Prop := digs (p_integer n) /\ match p_fraction n with Some x => digs x | None => True end.
Lemma parse_mantissa_w_is u f n : spans n -> parse_mantissa_w u f n = parse_mantissa f n.
Proof.
  intros [I F]. unfold parse_mantissa_w, parse_mantissa. rewrite skip_w_eq by exact I.
  assert (DF : digs (match p_fraction n with Some x => x | None => [] end)) by (destruct (p_fraction n); [exact F|constructor]).
  rewrite mantissa_loop_w_is by (try apply skip_digs; assumption). destruct (mantissa_loop _ _ _ _ _ _) as [[[big d] done]| |]; try reflexivity. cbn [bind].
  destruct done; [reflexivity|]. destruct (p_fraction n) as [x|]; [|reflexivity]. rewrite skip_w_eq by exact F.
  rewrite mantissa_loop_w_is; [reflexivity| |constructor]. destruct (d =? 0); [now apply skip_digs|exact F].
Qed.
Definition with_rest (r : list Z) (n : pns) : pns := Pns (p_exponent n) (p_mantissa n) r (p_negative n) (p_many n) (p_integer n) (p_fraction n).
Definition answer_rest (r : list Z) (a : res ffres) : res ffres := match a with Ok x => Ok (FFRes r (r_ec x) (r_value x)) | Ub => Ub | Err => Err end.
Lemma from_pns_w_is u rn f n r : spans n -> from_pns_w u rn f n = answer_rest (p_rest n) (from_pns rn f (with_rest r n)).
Proof.
  intros S. unfold from_pns_w, from_pns, digit_comp_w, digit_comp. rewrite parse_mantissa_w_is by exact S.
  change (fast_path rn f (with_rest r n)) with (fast_path rn f n). change (parse_mantissa f (with_rest r n)) with (parse_mantissa f n).
  change (scientific_exponent (with_rest r n)) with (scientific_exponent n).
  destruct (fast_path rn f n) as [[x|]| |]; cbn [bind answer_rest]; try reflexivity.
  cbv zeta. cbn [with_rest p_exponent p_mantissa p_many p_negative].
  match goal with |- bind (if ?c then ?t else ?e) _ = _ => destruct (if c then t else e) end; reflexivity.
Qed.
