(** Every text has a twin; numbers and their twins. *)
From Verif Require Import Base BaseLemmas FloatTable FloatModel FloatSpec FfOptModel FfOptSpec FfWideModel FfWideSpec.
From Verif Require Import FloatProofs10 FloatProofs2 FloatProofs14 FloatProofs17 FfOptProofs2 FfOptProofs3 FfOptProofs4 FfOptProofs5 FfWideProofs FfWideProofs2 FfWideProofs3 FfWideProofs4.
From Coq Require Import Lia.
Open Scope Z_scope.

Definition narrow_dot (dot : Z) : Z := if (0 <=? dot) && (dot <? 128) then dot else 254.
Definition narrow (dot c : Z) : Z := if (0 <=? c) && (c <? 128) then c else if c =? dot then 254 else 255.
Lemma twin_narrow dot c : twin dot (narrow_dot dot) c (narrow dot c).
Proof. unfold twin, narrow, narrow_dot, is_byte, ascii. destruct ((0 <=? c) && (c <? 128)) eqn:A, ((0 <=? dot) && (dot <? 128)) eqn:B, (Z.eqb_spec c dot); lia. Qed.
Lemma twins_narrow dot s : twins dot (narrow_dot dot) s (map (narrow dot) s).
Proof. induction s as [|c s IH]; constructor; [apply twin_narrow|exact IH]. Qed.
Lemma narrow_point dot : point_char dot -> point_char (narrow_dot dot).
Proof.
  intros [A B]. unfold narrow_dot. destruct (_ && _); [now split|]. split; [rewrite dig_range; lia|]. cbn. intuition discriminate.
Qed.

(** as [twin], but the same in both directions *)
Definition like (dot dot' c c' : Z) : Prop := (ascii c \/ ascii c' -> c = c') /\ (c = dot <-> c' = dot').
Lemma twins_like dot dot' s s' : twins dot dot' s s' -> Forall2 (like dot dot') s s' /\ Forall2 (like dot' dot) s' s.
Proof.
  induction 1 as [|c c' s s' C T [IH1 IH2]]; [split; constructor|]. destruct C as [_ [A B]].
  split; constructor; try assumption; (split; [|tauto]); intros H; [|symmetry]; apply A; tauto.
Qed.
Lemma like_ascii dot dot' d d' : Forall2 (like dot dot') d d' -> Forall ascii d -> d' = d.
Proof.
  induction 1 as [|c c' s s' T S IH]; intros A; [reflexivity|]. apply Forall_cons_iff in A. destruct A as [A AS]. f_equal; [|now apply IH].
  symmetry. apply T. now left.
Qed.
Lemma exponent_ascii sci fortran x e : exponent sci fortran x e -> Forall ascii x.
Proof.
  intros [|m s neg d M G N D]; [constructor|]. apply Forall_app. split.
  - destruct M as [c s _ [->| ->]|c s _ [->| ->]|]; repeat constructor; discriminate.
  - apply Forall_app. split; [|now apply digs_ascii]. destruct G; repeat constructor; discriminate.
Qed.
Lemma number_like dot dot' sci fortran t t' neg i d x e : Forall2 (like dot dot') t t' ->
  number_text dot sci fortran t neg i d x e -> number_text dot' sci fortran t' neg i d x e.
Proof.
  intros L N. destruct N as [neg i d x e DI DF X NE].
  apply Forall2_app_inv_l in L. destruct L as [a [r [LA [L ->]]]]. apply Forall2_app_inv_l in L. destruct L as [i' [r1 [LI [L ->]]]].
  apply Forall2_app_inv_l in L. destruct L as [ft [x' [LF [LX ->]]]].
  assert (a = if neg then [ch "-"] else []) as ->.
  { apply (like_ascii _ _ _ _ LA). destruct neg; repeat constructor; discriminate. }
  rewrite (like_ascii _ _ _ _ LI (digs_ascii i DI)), (like_ascii _ _ _ _ LX (exponent_ascii _ _ _ _ X)).
  assert (ft = fraction_text dot' d) as ->; [|now constructor].
  destruct d as [d|]; cbn [fraction_text fraction_digits] in *.
  - inversion LF as [|c c' q q' C Q]; subst. f_equal; [now apply C|]. apply (like_ascii _ _ _ _ Q (digs_ascii d DF)).
  - inversion LF. reflexivity.
Qed.
Lemma longest_like dot dot' sci fortran t t' rest rest' : twins dot dot' t t' -> twins dot dot' rest rest' ->
  longest_number dot sci fortran t rest -> longest_number dot' sci fortran t' rest'.
Proof.
  intros T R L a' b' neg i d x e E N. subst rest'. apply Forall2_app_inv_r in R. destruct R as [a [b [RA [RB ->]]]].
  assert (a = []).
  { apply (L a b neg i d x e eq_refl). apply (number_like dot' dot sci fortran (t' ++ a')); [|exact N].
    apply Forall2_app; [apply (twins_like _ _ _ _ T)|apply (twins_like _ _ _ _ RA)]. }
  subst a. now inversion RA.
Qed.
Lemma special_ascii t neg nan : special_text t neg nan -> Forall ascii t.
Proof.
  assert (M : forall neg : bool, Forall ascii (if neg then [ch "-"] else [])) by (intros []; repeat constructor; discriminate).
  assert (L : forall s p, Forall lower p -> letters s p -> Forall ascii s).
  { intros s p LP H. revert LP. induction H as [|c l s p C H IH]; intros LP; [constructor|]. apply Forall_cons_iff in LP. destruct LP as [LL LP].
    constructor; [|now apply IH]. unfold lower in LL. change (ch "a") with 97 in LL. change (ch "z") with 122 in LL. unfold ascii. lia. }
  destruct lower_pat as [L1 [L2 _]].
  intros [n s S|n s S|n s S|n s p S W]; apply Forall_app; (split; [apply M|]); try (eapply L; [|exact S]; (exact L1 || exact L2 || (repeat constructor; discriminate))).
  apply Forall_app. split; [now apply (L _ _ L1)|]. constructor; [split; discriminate || reflexivity|]. apply Forall_app. split; [|repeat constructor; discriminate].
  eapply Forall_impl; [|exact W]. intros c C. unfold word_char in C. unfold ascii.
  change (ch "a") with 97 in C. change (ch "z") with 122 in C. change (ch "A") with 65 in C. change (ch "Z") with 90 in C. change (ch "0") with 48 in C. change (ch "9") with 57 in C. change (ch "_") with 95 in C. lia.
Qed.
Lemma no_special_like dot dot' s s' : twins dot dot' s s' -> no_special s -> no_special s'.
Proof.
  intros T NS a' b' neg nan -> S. apply Forall2_app_inv_r in T. destruct T as [a [b [TA [TB ->]]]].
  rewrite (like_ascii dot' dot a' a) in NS; [|apply (twins_like _ _ _ _ TA)|now apply (special_ascii a' neg nan)].
  exact (NS a' b neg nan eq_refl S).
Qed.
Lemma app_same_length {A} (a b c d : list A) : a ++ b = c ++ d -> length a = length c -> a = c /\ b = d.
Proof.
  revert c. induction a as [|x a IH]; intros [|y c] E L; try discriminate; [now split|]. injection E as -> E. destruct (IH c E) as [-> ->]; [now injection L|]. now split.
Qed.

(** ** What is read *)
Definition quiet (o : popts) : popts := Opts (o_sci o) (o_fixed o) true (o_json o) (o_fortran o) (o_dot o).
Lemma quiet_value u rn f o s x w : from_chars_w u rn f (quiet o) s = Ok x -> r_value x = Some w -> from_chars_w u rn f o s = Ok x.
Proof.
  unfold from_chars_w. destruct s as [|c s]; [tauto|]. change (parse_number_string_w u (quiet o) (c :: s)) with (parse_number_string_w u o (c :: s)).
  destruct (parse_number_string_w u o (c :: s)) as [[n|]| |]; cbn [bind]; try tauto.
  intros H V. cbn [quiet o_noinf] in H. injection H as <-. discriminate.
Qed.
Lemma wide_number u rn f eb o t rest neg i d x e : fok f eb -> point_char (o_dot o) -> o_fixed o || o_sci o || negb (o_fortran o) = true ->
  fits u (t ++ rest) -> number_text (o_dot o) (o_sci o) (o_fortran o) t neg i d x e -> longest_number (o_dot o) (o_sci o) (o_fortran o) t rest ->
  admitted (o_json o) (o_sci o && negb (o_fixed o)) i d x -> len t + 400 <= 2 ^ 28 ->
  let m := dec (i ++ fraction_digits d) in let k := e - len (fraction_digits d) in
  exists w ec, from_chars_w u rn f o (t ++ rest) = Ok (FFRes rest ec (Some w)) /\ nearest (f_mb f) eb neg (decimal m k) w /\
  (b_infinite (f_mb f) eb w \/ 0 < m /\ b_zero (f_mb f) eb w -> ec = ERange) /\
  (~ b_infinite (f_mb f) eb w -> ~ (0 < m /\ b_zero (f_mb f) eb w) -> ec = EOk).
Proof.
  intros F PC FS FT N L A B m k. set (dot := o_dot o) in *.
  assert (T := twins_narrow dot t). assert (R := twins_narrow dot rest). set (t' := map (narrow dot) t) in *. set (rest' := map (narrow dot) rest) in *.
  set (dot' := narrow_dot dot) in *.
  assert (TR : twins dot dot' (t ++ rest) (t' ++ rest')) by now apply Forall2_app.
  destruct (opt_number rn f eb (dotted dot' (quiet o)) t' rest' neg i d x e F (conj (narrow_point dot PC) FS) (twins_bytes _ _ _ _ TR)) as [w [ec [E H]]].
  - apply (number_like dot dot' _ _ t); [apply (twins_like _ _ _ _ T)|exact N].
  - now apply (longest_like dot dot' _ _ t t' rest rest').
  - exact A.
  - rewrite <- (twins_len _ _ _ _ T). exact B.
  - exists w, ec. split; [|exact H]. apply (quiet_value u rn f o (t ++ rest) (FFRes rest ec (Some w)) w); [|reflexivity].
    assert (S := float_twins u rn f (quiet o) dot' (t ++ rest) (t' ++ rest') FT TR (or_introl eq_refl)). rewrite E in S.
    destruct (from_chars_w u rn f (quiet o) (t ++ rest)) as [[r ec0 v]| |]; try contradiction. cbn [same_answer r_ec r_value r_rest] in S.
    destruct S as [-> [-> [k1 [k2 [E1 [E2 LK]]]]]].
    assert (k2 = t'). { apply (app_inv_tail rest'). now symmetry. }
    subst k2. destruct (app_same_length t rest k1 r E1) as [_ ->]; [rewrite LK; apply (twins_length _ _ _ _ T)|]. reflexivity.
Qed.
Lemma wide_rejects u rn f o s : point_char (o_dot o) -> fits u s ->
  no_number_text (o_dot o) (o_sci o) (o_fortran o) s \/
  (exists t rest neg i d x e, s = t ++ rest /\ number_text (o_dot o) (o_sci o) (o_fortran o) t neg i d x e /\
     longest_number (o_dot o) (o_sci o) (o_fortran o) t rest /\ ~ admitted (o_json o) (o_sci o && negb (o_fixed o)) i d x) ->
  o_noinf o = true \/ no_special s /\ no_lookalikes s ->
  from_chars_w u rn f o s = Ok (FFRes s EInvalid None).
Proof.
  intros PC FT N NS. set (dot := o_dot o) in *. assert (T := twins_narrow dot s). set (s' := map (narrow dot) s) in *. set (dot' := narrow_dot dot) in *.
  assert (E : from_chars_opt rn f (dotted dot' o) s' = Ok (FFRes s' EInvalid None)).
  { apply any_rejects; [exact (narrow_point dot PC)|exact (twins_bytes _ _ _ _ T)| |destruct NS as [NS|[NS _]]; [now left|right; now apply (no_special_like dot dot' s)]].
    destruct N as [N|[t [rest [neg [i [d [x [e [-> [N [L A]]]]]]]]]]].
    - left. intros a' b' neg i d x e E H. rewrite E in T. apply Forall2_app_inv_r in T. destruct T as [a [b [TA [TB ES]]]].
      apply (N a b neg i d x e ES). apply (number_like dot' dot _ _ a'); [apply (twins_like _ _ _ _ TA)|exact H].
    - right. exists (map (narrow dot) t), (map (narrow dot) rest), neg, i, d, x, e. unfold s'. rewrite map_app. split; [reflexivity|].
      split; [apply (number_like dot dot' _ _ t); [apply (twins_like _ _ _ _ (twins_narrow dot t))|exact N]|].
      split; [apply (longest_like dot dot' _ _ t _ rest); [apply twins_narrow|apply twins_narrow|exact L]|exact A]. }
  assert (S := float_twins u rn f o dot' s s' FT T ltac:(tauto)). rewrite E in S.
  destruct (from_chars_w u rn f o s) as [[r ec0 v]| |]; try contradiction. cbn [same_answer r_ec r_value r_rest] in S.
  destruct S as [-> [-> [k1 [k2 [E1 [E2 LK]]]]]].
  assert (k2 = []) by (apply (app_inv_tail s'); now symmetry). subst k2. destruct k1; [|discriminate]. cbn [app] in E1. now rewrite E1.
Qed.
Lemma infnan_w_total f s : s <> [] -> exists r k, parse_infnan_w f s = Ok r /\ s = k ++ r_rest r.
Proof.
  intros NE. destruct s as [|c r]; [contradiction|]. unfold parse_infnan_w. set (m := c =? ch "-"). set (p := if m then r else c :: r).
  assert (SK : forall n, exists k, c :: r = k ++ skipn n p).
  { intros n. unfold p. destruct m; [exists (c :: firstn n r)|exists (firstn n (c :: r))]; [cbn [app]; f_equal|]; symmetry; apply firstn_skipn. }
  destruct (3 <=? len p); [|eexists; exists []; split; reflexivity].
  destruct (strncasecmp_w (firstn 3 p) (s2z "nan")).
  - destruct (SK 3%nat) as [k K]. destruct (skipn 3 p) as [|x q] eqn:Q; [eexists; exists k; split; [reflexivity|exact K]|].
    destruct (x =? ch "(") eqn:X; [|eexists; exists k; split; [reflexivity|exact K]].
    destruct (nan_loop q) as [y|] eqn:NL; [|eexists; exists k; split; [reflexivity|exact K]].
    apply nan_loop_spec in NL. destruct NL as [pp [W ->]]. eexists. exists (k ++ [x] ++ pp ++ [ch ")"]). split; [reflexivity|]. cbn [r_rest]. rewrite K, <- !app_assoc. reflexivity.
  - destruct (strncasecmp_w (firstn 3 p) (s2z "inf")); [|eexists; exists []; split; reflexivity].
    destruct (_ && _); [destruct (SK 8%nat) as [k K]|destruct (SK 3%nat) as [k K]]; eexists; exists k; (split; [reflexivity|exact K]).
Qed.
Lemma wide_total u rn f eb o s : fok f eb -> point_char (o_dot o) -> fits u s ->
  exists r k, from_chars_w u rn f o s = Ok r /\ s = k ++ r_rest r.
Proof.
  intros F PC FT. set (dot := o_dot o) in *. assert (T := twins_narrow dot s). set (s' := map (narrow dot) s) in *. set (dot' := narrow_dot dot) in *.
  destruct (list_eq_dec Z.eq_dec s []) as [-> |NE]; [eexists; exists []; split; reflexivity|].
  destruct (any_total rn f eb (dotted dot' (quiet o)) s' F (narrow_point dot PC) (twins_bytes _ _ _ _ T)) as [r' [k' [E' _]]].
  assert (S := float_twins u rn f (quiet o) dot' s s' FT T (or_introl eq_refl)). rewrite E' in S.
  destruct (from_chars_w u rn f (quiet o) s) as [x| |] eqn:E; try contradiction. cbn [same_answer] in S. destruct S as [_ [_ [k1 [k2 [E1 _]]]]].
  destruct (r_value x) as [w|] eqn:V; [exists x, k1; split; [exact (quiet_value u rn f o s x w E V)|exact E1]|].
  unfold from_chars_w in *. destruct s as [|c s]; [contradiction|]. change (parse_number_string_w u (quiet o) (c :: s)) with (parse_number_string_w u o (c :: s)) in E.
  destruct (parse_number_string_w u o (c :: s)) as [[n|]| |]; cbn [bind] in *; try discriminate; [exists x, k1; now split|].
  destruct (o_noinf o); [eexists; exists []; split; reflexivity|]. apply infnan_w_total. discriminate.
Qed.
