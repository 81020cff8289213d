(** fast_float with options: what is rejected; every text has a result; the format general. *)
From Verif Require Import Base BaseLemmas FloatTable FloatModel FloatSpec FfOptModel FfOptSpec.
From Verif Require Import FloatProofs1 FloatProofs2 FloatProofs6 FloatProofs10 FloatProofs11 FloatProofs14 FloatProofs15 FloatProofs16 FloatProofs17.
From Verif Require Import FfOptProofs FfOptProofs2.
From Coq Require Import Lia.
Open Scope Z_scope.

(** ** Texts parse_number_string does not accept *)
Definition json_ok (i : list Z) (fr : option (list Z)) : Prop := (i = [ch "0"] \/ exists c r, i = c :: r /\ c <> ch "0") /\ fr <> Some [].
Lemma none_o o neg i fr y : let ft := fraction_text (o_dot o) fr in let d := fraction_digits fr in
  bytes (i ++ ft ++ y) -> digs i -> digs d -> stops (ft ++ y) -> (fr = None -> forall r, y <> o_dot o :: r) -> (fr <> None -> stops y) ->
  minus neg ++ i ++ ft ++ y <> [] -> (neg = false -> forall r, i ++ ft ++ y <> ch "-" :: r) ->
  i ++ d = [] \/ o_json o = true /\ ~ json_ok i fr \/ parse_exponent_o o y = None ->
  parse_number_string_o o (minus neg ++ i ++ ft ++ y) = Ok None.
Proof.
  intros ft d BY DI FD S1 SD SX SN NM BAD.
  assert (ENTRY : exists c0 r0, minus neg ++ i ++ ft ++ y = c0 :: r0 /\ (c0 =? ch "-") = neg /\ (if neg then r0 else c0 :: r0) = i ++ ft ++ y).
  { destruct neg; cbn [minus app] in *; [eexists; eexists; repeat split|]. destruct (i ++ ft ++ y) as [|c p]; [contradiction|].
    exists c, p. repeat split. destruct (Z.eqb_spec c (ch "-")) as [->|]; [destruct (NM eq_refl p eq_refl)|reflexivity]. }
  destruct ENTRY as [c0 [r0 [-> [EN EP]]]]. unfold parse_number_string_o. rewrite EN, EP.
  destruct (neg && _); [reflexivity|]. rewrite digit_loop_spec by (assumption || lia). rewrite between_app.
  destruct (o_json o && ((len i =? 0) || _)) eqn:J1; [reflexivity|].
  set (i1 := u64 (0 * 10 ^ len i + dec i)).
  assert (FRAC : exists i2, match ft ++ y with
          | c :: before =>
              if c =? o_dot o then
                let '(p, i) := loop_parse_if_eight_digits before i1 in
                let '(p, i) := digit_loop p i in
                (p, i, Some (FloatModel.between before p))
              else (ft ++ y, i1, None)
          | [] => (ft ++ y, i1, None)
          end = (y, i2, fr)).
  { unfold ft, d in *. destruct fr as [d0|]; cbn [fraction_text fraction_digits app] in *.
    - rewrite Z.eqb_refl.
      assert (BYD : bytes (d0 ++ y)) by (apply Forall_app in BY; destruct BY as [_ BY]; now apply Forall_inv_tail in BY).
      assert (FL := fraction_loops d0 y i1 BYD FD (SX ltac:(discriminate)) (u64_range _)).
      destruct (loop_parse_if_eight_digits (d0 ++ y) i1) as [p1 j1]. rewrite FL, between_app. eexists. reflexivity.
    - exists i1. destruct y as [|c q]; [reflexivity|]. destruct (Z.eqb_spec c (o_dot o)) as [->|]; [|reflexivity]. destruct (SD eq_refl q eq_refl). }
  destruct FRAC as [i2 FRAC]. rewrite FRAC. clear FRAC.
  assert (EXP : match fr with Some x => - len x | None => 0 end = - len d) by (unfold d; destruct fr; reflexivity). rewrite EXP.
  destruct (if o_json o then match fr with Some _ => - len d =? 0 | None => false end else len i - - len d =? 0) eqn:J2; [reflexivity|].
  destruct BAD as [BAD|[[J BAD]|BAD]]; [| |now rewrite BAD]; exfalso.
  - apply app_eq_nil in BAD as [-> BAD]. rewrite BAD in *. destruct (o_json o); [discriminate J1|discriminate J2].
  - rewrite J in *. cbn [andb] in J1. apply orb_false_iff in J1 as [J0 J1]. apply BAD. split.
    + destruct i as [|c r]; [discriminate J0|]. destruct (Z.eq_dec c (ch "0")) as [->|N]; [|right; now exists c, r].
      left. cbn [app] in J1. rewrite Z.eqb_refl in J1. cbn [andb] in J1. rewrite len_cons in J1. assert (L := len_nonneg r).
      destruct r as [|z r]; [reflexivity|]. rewrite len_cons in J1. assert (L' := len_nonneg r). lia.
    + intros ->. discriminate J2.
Qed.
Lemma json_dec i fr : json_ok i fr \/ ~ json_ok i fr.
Proof.
  unfold json_ok. destruct fr as [[|y d]|]; [right; intros [_ H]; now apply H| |].
  all: destruct i as [|c r]; [right; intros [[H|[c [r [H _]]]] _]; discriminate|].
  all: destruct (Z.eq_dec c (ch "0")) as [->|N]; [|left; split; [right; now exists c, r|discriminate]].
  all: destruct r as [|z r]; [left; split; [now left|discriminate]|right; intros [[H|[c [r' [H N]]]] _]; [discriminate|congruence]].
Qed.
Lemma not_admitted o t rest neg i fr x e : o_usable o -> bytes (t ++ rest) -> o_text o t neg i fr x e -> o_longest o t rest -> ~ o_admits o i fr x ->
  parse_number_string_o o (t ++ rest) = Ok None.
Proof.
  intros U BY T LG NA. destruct (text_facts o t neg i fr x e T) as [_ [_ [TN _]]].
  destruct T as [neg i fr x e DI FD EX NE]. rewrite text_minus in *.
  destruct (longest_facts_o o neg i fr x e rest U DI FD EX NE LG) as [S1 [SD [SX [PX PN]]]].
  assert (TN2 : minus neg ++ i ++ fraction_text (o_dot o) fr ++ x ++ rest <> []).
  { intros H. apply TN. rewrite !app_assoc in *. apply app_eq_nil in H. apply H. }
  rewrite <- !app_assoc in *. assert (BY2 : bytes (i ++ fraction_text (o_dot o) fr ++ x ++ rest)) by (apply Forall_app in BY; apply BY).
  apply none_o; try assumption; [intros _; exact SX| |].
  - intros _ r H. destruct i as [|c i].
    + destruct fr as [d0|]; [|now apply NE]. cbn [app fraction_text] in H. injection H as H _. apply (point_minus (o_dot o)); [apply U|exact H].
    + cbn [app] in H. injection H as H _. apply digs_cons in DI as [DI _]. rewrite H, dig_range in DI. change (ch "-") with 45 in DI. lia.
  - right. destruct (o_json o) eqn:J; [destruct (json_dec i fr) as [K|K]; [|left; now split]|].
    all: right; destruct (o_sci o && negb (o_fixed o)) eqn:Q.
    2,4: exfalso; apply NA; unfold o_admits, admitted; rewrite J, Q; split; [first [intros _; exact K|discriminate]|discriminate].
    all: destruct (list_eq_dec Z.eq_dec x []) as [XN|XN]; [now destruct (PN XN) as [_ ->]|].
    all: exfalso; apply NA; unfold o_admits, admitted; rewrite J, Q; split; [first [intros _; exact K|discriminate]|intros _; exact XN].
Qed.

(** ** No number *)
Lemma parse_none_o o s : o_usable o -> bytes s -> s <> [] -> no_number_text (o_dot o) (o_sci o) (o_fortran o) s -> parse_number_string_o o s = Ok None.
Proof.
  intros U BY SN NN. assert (SPLIT : exists neg p, s = minus neg ++ p /\ (neg = false -> forall r, p <> ch "-" :: r)).
  { destruct s as [|c r]; [contradiction|]. destruct (Z.eq_dec c (ch "-")) as [->|N]; [exists true, r; split; [reflexivity|discriminate]|].
    exists false, (c :: r). split; [reflexivity|]. intros _ r' H. congruence. }
  destruct SPLIT as [neg [p [-> NM]]]. destruct (span p) as [i [p1 [-> [DI S1]]]].
  assert (FR : exists fr y, p1 = fraction_text (o_dot o) fr ++ y /\ digs (fraction_digits fr) /\ (fr = None -> forall r, y <> o_dot o :: r) /\ (fr <> None -> stops y)).
  { destruct p1 as [|c q]; [exists None, []; split; [reflexivity|split; [apply Forall_nil|split; [discriminate|congruence]]]|].
    destruct (Z.eq_dec c (o_dot o)) as [->|N].
    - destruct (span q) as [d [y [-> [D S2]]]]. exists (Some d), y. split; [reflexivity|split; [exact D|split; [discriminate|intros _; exact S2]]].
    - exists None, (c :: q). split; [reflexivity|split; [apply Forall_nil|split; [|congruence]]]. intros _ r H. congruence. }
  destruct FR as [fr [y [-> [FD [SD SX]]]]].
  assert (NE : i ++ fraction_digits fr = []).
  { destruct (list_eq_dec Z.eq_dec (i ++ fraction_digits fr) []) as [E|E]; [exact E|]. exfalso.
    apply (NN (minus neg ++ i ++ fraction_text (o_dot o) fr ++ []) y neg i fr [] 0); [rewrite app_nil_r, <- !app_assoc; reflexivity|].
    apply number_text_intro; [exact DI|exact FD|constructor|exact E]. }
  apply none_o; try assumption; [|now left]. apply Forall_app in BY. apply BY.
Qed.

(** ** Infinities and NaNs *)
Lemma infnan_invalid f s : s <> [] -> no_special s -> parse_infnan f s = Ok (FFRes s EInvalid None).
Proof.
  intros SN NS. destruct s as [|c r]; [contradiction|].
  unfold parse_infnan. set (m := c =? ch "-"). set (p := if m then r else c :: r).
  assert (TX : c :: r = minus m ++ p) by (unfold p, m; destruct (Z.eqb_spec c (ch "-")) as [->|]; reflexivity).
  clearbody p m. rewrite TX in *.
  destruct (3 <=? len p) eqn:L3; [|reflexivity].
  assert (HN := has_dec p (s2z "nan") l_nan). assert (HI := has_dec p (s2z "inf") l_inf).
  change (len (s2z "nan")) with 3 in HN. change (length (s2z "nan")) with 3%nat in HN. change (len (s2z "inf")) with 3 in HI. change (length (s2z "inf")) with 3%nat in HI.
  rewrite L3 in HN, HI. cbn [andb] in HN, HI.
  destruct (strncasecmp (firstn 3 p) (s2z "nan")).
  - exfalso. destruct (proj1 HN eq_refl) as [a [b [-> A]]]. apply (NS (minus m ++ a) b m true); [apply app_assoc|]. now apply sp_nan.
  - destruct (strncasecmp (firstn 3 p) (s2z "inf")); [|reflexivity].
    exfalso. destruct (proj1 HI eq_refl) as [a [b [-> A]]]. apply (NS (minus m ++ a) b m false); [apply app_assoc|]. now apply sp_inf.
Qed.
Lemma infnan_total f s : s <> [] -> exists r k, parse_infnan f s = Ok r /\ s = k ++ r_rest r.
Proof.
  intros SN. destruct s as [|c r]; [contradiction|].
  unfold parse_infnan. set (m := c =? ch "-"). set (p := if m then r else c :: r).
  assert (TX : c :: r = minus m ++ p) by (unfold p, m; destruct (Z.eqb_spec c (ch "-")) as [->|]; reflexivity).
  clearbody p m. rewrite TX.
  assert (SK : forall n, exists k, minus m ++ p = k ++ skipn n p) by (intros n; exists (minus m ++ firstn n p); rewrite <- app_assoc; now rewrite firstn_skipn).
  destruct (3 <=? len p); [|eexists; exists []; split; reflexivity].
  destruct (strncasecmp (firstn 3 p) (s2z "nan")).
  - destruct (SK 3%nat) as [k K]. destruct (skipn 3 p) as [|x q] eqn:S3; [eexists; exists k; split; [reflexivity|exact K]|].
    destruct (Z.eqb_spec x (ch "(")) as [->|]; [|eexists; exists k; split; [reflexivity|exact K]].
    destruct (nan_loop q) as [y|] eqn:NL; [|eexists; exists k; split; [reflexivity|exact K]].
    apply nan_loop_spec in NL. destruct NL as [pp [W ->]]. eexists. exists (k ++ [ch "("] ++ pp ++ [ch ")"]). split; [reflexivity|]. cbn [r_rest]. rewrite K, <- !app_assoc. reflexivity.
  - destruct (strncasecmp (firstn 3 p) (s2z "inf")); [|eexists; exists []; split; reflexivity].
    destruct ((8 <=? len p) && strncasecmp (firstn 5 (skipn 3 p)) (s2z "inity")); [destruct (SK 8%nat) as [k K]|destruct (SK 3%nat) as [k K]]; eexists; exists k; (split; [reflexivity|exact K]).
Qed.
Definition rejected (o : popts) (s : list Z) : Prop := parse_number_string_o o s = Ok None.
Lemma rejected_result rn f o s : s <> [] -> rejected o s -> from_chars_opt rn f o s = if o_noinf o then Ok (FFRes s EInvalid None) else parse_infnan f s.
Proof. intros SN R. unfold from_chars_opt. destruct s as [|c r]; [contradiction|]. rewrite R. reflexivity. Qed.
Definition o_none (o : popts) := no_number_text (o_dot o) (o_sci o) (o_fortran o).
Theorem opt_rejects rn f o s : o_usable o -> bytes s ->
  o_none o s \/ (exists t rest neg i fr x e, s = t ++ rest /\ o_text o t neg i fr x e /\ o_longest o t rest /\ ~ o_admits o i fr x) ->
  o_noinf o = true \/ no_special s -> from_chars_opt rn f o s = Ok (FFRes s EInvalid None).
Proof.
  intros U BY H NS. destruct s as [|c r]; [reflexivity|]. assert (SN : c :: r <> []) by discriminate. set (s := c :: r) in *. clearbody s.
  assert (R : rejected o s).
  { destruct H as [H|[t [rest [neg [i [fr [x [e [-> [T [LG NA]]]]]]]]]]]; [now apply parse_none_o|]. now apply (not_admitted o t rest neg i fr x e). }
  rewrite (rejected_result rn f o s SN R). destruct (o_noinf o); [reflexivity|]. destruct NS as [NS|NS]; [discriminate|]. now apply infnan_invalid.
Qed.
Lemma special_rejected o s : o_usable o -> bytes s -> (exists t rest neg nan, s = t ++ rest /\ special_text t neg nan) -> rejected o s.
Proof.
  intros U BY [t [rest [neg [nan [-> SP]]]]].
  assert (SN : t ++ rest <> []) by (destruct (special_shape t neg nan SP) as [p [-> [c [r [-> _]]]]]; destruct neg; discriminate).
  apply parse_none_o; try assumption.
  assert (SH : exists c1 c2 q, t = minus neg ++ c1 :: c2 :: q /\ ~ dig c1 /\ ~ dig c2 /\ c1 <> ch "-").
  { assert (L2 : forall s l1 l2 p, letters s (l1 :: l2 :: p) -> lower l1 -> lower l2 -> exists c1 c2 q, s = c1 :: c2 :: q /\ ~ dig c1 /\ ~ dig c2 /\ c1 <> ch "-").
    { intros s l1 l2 p L A1 A2. inversion L as [|c1 l1' s1 p1 C1 L1]; subst. inversion L1 as [|c2 l2' s2 p2 C2 _]; subst. exists c1, c2, s2. unfold lower in *.
      change (ch "a") with 97 in *. change (ch "z") with 122 in *. rewrite !dig_range. change (ch "-") with 45. repeat split; lia. }
    assert (LO : forall z, 97 <= z <= 122 -> lower z) by (intros z Z; unfold lower; change (ch "a") with 97; change (ch "z") with 122; exact Z).
    destruct SP as [neg s L|neg s L|neg s L|neg s p L W]; rewrite text_minus.
    1: destruct (L2 s (ch "i") (ch "n") (s2z "f") L) as [c1 [c2 [q [-> H]]]].
    4: destruct (L2 s (ch "i") (ch "n") (s2z "finity") L) as [c1 [c2 [q [-> H]]]].
    7: destruct (L2 s (ch "n") (ch "a") (s2z "n") L) as [c1 [c2 [q [-> H]]]].
    10: destruct (L2 s (ch "n") (ch "a") (s2z "n") L) as [c1 [c2 [q [-> H]]]].
    all: try (apply LO; split; discriminate).
    all: exists c1, c2; eexists; split; [reflexivity|exact H]. }
  destruct SH as [c1 [c2 [q [-> [D1 [D2 M]]]]]]. intros a b neg' i d x e E T. destruct T as [neg' i d x e DI FD EX NE]. rewrite text_minus in E.
  rewrite <- !app_assoc in E.
  assert (HEAD : exists z y, i ++ fraction_text (o_dot o) d ++ x ++ b = z :: y /\ z <> ch "-" /\ (dig z \/ exists z2 y2, y = z2 :: y2 /\ dig z2)).
  { destruct i as [|z i].
    - destruct d as [[|z2 d]|]; [destruct (NE eq_refl)| |destruct (NE eq_refl)]. cbn [app fraction_text]. eexists; eexists. split; [reflexivity|].
      split; [apply (point_minus (o_dot o)); apply U|]. right. eexists; eexists. split; [reflexivity|]. cbn [fraction_digits] in FD. apply digs_cons in FD. apply FD.
    - cbn [app]. eexists; eexists. split; [reflexivity|]. apply digs_cons in DI as [DI _]. split; [rewrite dig_range in DI; change (ch "-") with 45; lia|now left]. }
  destruct HEAD as [z [y [HE [ZM HD]]]]. rewrite HE in E.
  destruct neg, neg'; cbn [minus app] in E; injection E as E1; try congruence.
  all: destruct HD as [HD|[z2 [y2 [-> HD]]]]; congruence.
Qed.
Theorem opt_special rn f o s : o_usable o -> bytes s -> (exists t rest neg nan, s = t ++ rest /\ special_text t neg nan) ->
  from_chars_opt rn f o s = if o_noinf o then Ok (FFRes s EInvalid None) else from_chars_float rn f s.
Proof.
  intros U BY SP. assert (R := special_rejected o s U BY SP). destruct SP as [t [rest [neg [nan [-> SP]]]]].
  assert (SN : t ++ rest <> []) by (destruct (special_shape t neg nan SP) as [p [-> [c [r [-> _]]]]]; destruct neg; discriminate).
  rewrite (from_special rn f (t ++ rest) BY SN (special_no_number t neg nan rest SP)). now apply rejected_result.
Qed.
