(** The bound on the length of the text is close to the shortest text that is read wrongly. *)
From Verif Require Import Base BaseLemmas FloatTable FloatModel FloatSpec.
From Verif Require Import FloatProofs1 FloatProofs2 FloatProofs3 FloatProofs4 FloatProofs5 FloatProofs6 FloatProofs7 FloatProofs8.
From Verif Require Import FloatProofs9 FloatProofs10 FloatProofs11 FloatProofs12 FloatProofs13 FloatProofs14 FloatProofs15 FloatProofs16 FloatProofs17.
From Coq Require Import Qpower Lqa Lia Znumtheory Zpow_facts.
Open Scope Z_scope.

Definition long_text : list Z := s2z "0." ++ repeat (ch "0") (Z.to_nat (2 ^ 28 - 1)) ++ s2z "1e2684354560".
Lemma long_len0 : len (repeat (ch "0") (Z.to_nat (2 ^ 28 - 1))) = 268435455.
Proof. unfold len. rewrite repeat_length. change (2 ^ 28 - 1) with 268435455. lia. Qed.
Lemma long_len : len long_text = 2 ^ 28 + 13.
Proof. unfold long_text. rewrite !len_app, long_len0. reflexivity. Qed.
Lemma long_decimal : decimal_text long_text false 1 2415919104.
Proof.
  unfold long_text.
  assert (ZS := repeat_zeros (Z.to_nat (2 ^ 28 - 1))). assert (LZ := long_len0). revert ZS LZ. generalize (repeat (ch "0") (Z.to_nat (2 ^ 28 - 1))). intros zs ZS LZ.
  assert (E1 : dec (s2z "0" ++ zs ++ s2z "1") = 1) by (rewrite !dec_app, (zeros_dec zs ZS); change (dec (s2z "0")) with 0; change (dec (s2z "1")) with 1; change (len (s2z "1")) with 1; lia).
  assert (E2 : 2684354560 - len (zs ++ s2z "1") = 2415919104) by (rewrite len_app, LZ; reflexivity).
  enough (H : decimal_text (s2z "0." ++ zs ++ s2z "1e2684354560") false (dec (s2z "0" ++ zs ++ s2z "1")) (2684354560 - len (zs ++ s2z "1"))) by (now rewrite E1, E2 in H).
  replace (s2z "0." ++ zs ++ s2z "1e2684354560") with ((if false then [ch "-"] else []) ++ s2z "0" ++ (ch "." :: (zs ++ s2z "1")) ++ (ch "e" :: s2z "2684354560"))
    by (cbn [app]; rewrite <- !app_assoc; reflexivity).
  apply (decimal_text_intro false (s2z "0") (ch "." :: (zs ++ s2z "1")) (zs ++ s2z "1") (ch "e" :: s2z "2684354560") 2684354560).
  - repeat constructor; discriminate.
  - constructor. apply digs_app. split; [now apply zeros_digs|repeat constructor; discriminate].
  - apply (ex_plain (ch "e") (s2z "2684354560")); [now left|discriminate|repeat constructor; discriminate].
  - discriminate.
Qed.
Lemma long_result rn : exists w ec, from_chars_float rn f64 long_text = Ok (FFRes [] ec (Some w)) /\ nearest 52 11 false (decimal 1 0) w.
Proof.
  unfold long_text. assert (ZS := repeat_zeros (Z.to_nat (2 ^ 28 - 1))). assert (LZ := long_len0). revert ZS LZ. generalize (repeat (ch "0") (Z.to_nat (2 ^ 28 - 1))). intros zs ZS LZ.
  set (d := zs ++ s2z "1"). assert (LD : len d = 268435456) by (unfold d; rewrite len_app, LZ; reflexivity).
  assert (E1 : dec (s2z "0" ++ d) = 1) by (unfold d; rewrite !dec_app, (zeros_dec zs ZS); change (dec (s2z "0")) with 0; change (dec (s2z "1")) with 1; change (len (s2z "1")) with 1; lia).
  assert (DD : digs d) by (apply digs_app; split; [now apply zeros_digs|repeat constructor; discriminate]).
  assert (TX : s2z "0." ++ zs ++ s2z "1e2684354560" = minus false ++ s2z "0" ++ (ch "." :: d) ++ (ch "e" :: s2z "2684354560") ++ []).
  { unfold d. cbn [app minus]. rewrite <- !app_assoc. reflexivity. }
  assert (F : fok f64 11) by (left; split; reflexivity).
  destruct (parse_number_spec false (s2z "0") (ch "." :: d) d (ch "e" :: s2z "2684354560") [] 268435456) as [m [q [many [PN [NM YM]]]]].
  - apply Forall_app. split; [repeat constructor; discriminate|]. apply Forall_app. split; [|repeat constructor; discriminate].
    constructor; [split; [discriminate|reflexivity]|]. unfold d. apply Forall_app. split; [|repeat constructor; discriminate].
    clear - ZS. induction ZS as [|x l X _ IH]; [constructor|]. constructor; [subst x; split; [discriminate|reflexivity]|exact IH].
  - repeat constructor; discriminate.
  - now constructor.
  - discriminate.
  - cbn [app stops]. rewrite dig_range. change (ch ".") with 46. lia.
  - discriminate.
  - intros _. cbn [app stops]. rewrite dig_range. change (ch "e") with 101. lia.
  - reflexivity.
  - destruct (from_pns_good rn f64 11 q m [] false many (s2z "0") (ch "." :: d) d (268435456 - len d) F) as [a [FP G]]; [repeat constructor; discriminate|now constructor|exact NM|exact YM|].
    exists (to_float f64 false a), (code f64 (dec (s2z "0" ++ d)) a). split.
    + unfold from_chars_float. rewrite TX. destruct (minus false ++ s2z "0" ++ (ch "." :: d) ++ (ch "e" :: s2z "2684354560") ++ []) as [|c0 r0] eqn:E0; [discriminate|].
      rewrite PN. cbn [bind]. rewrite FP. reflexivity.
    + rewrite E1, LD in G. apply (good_nearest f64 11 false (decimal 1 0) a F); [apply decimal_nonneg; lia|exact G].
Qed.
Lemma one_finite w : nearest 52 11 false (decimal 1 0) w -> w = 0x3FF0000000000000.
Proof.
  intros N. apply (nearest_unique 52 11 ltac:(lia) ltac:(lia) false (decimal 1 0)); [discriminate|exact N|].
  apply nearest_exact; [lia|lia|split; [split; [discriminate|reflexivity]|reflexivity]|reflexivity|reflexivity].
Qed.
Lemma long_value : ~ nearest 52 11 false (decimal 1 2415919104) 0x3FF0000000000000.
Proof.
  intros [_ [N _]]. assert (F : fok f64 11) by (left; split; reflexivity). destruct (p400 f64 11 F) as [PB _].
  destruct N as [_ [I _]].
  - apply Qle_trans with (1 := PB). unfold decimal. change (inject_Z 1) with 1%Q. rewrite Qmult_1_l. apply p10_mono. lia.
  - discriminate I.
Qed.
