(** fast_float reading integers: representable numbers, numbers out of range, other texts. *)
From Verif Require Import Base BaseLemmas CharconvSpec CharconvProofs FloatModel FfIntModel FfIntSpec FloatProofs10 FfIntProofs.
From Coq Require Import Lia.
Open Scope Z_scope.

Lemma bdig_minus b c : bdig b c -> c <> ch "-".
Proof. intros [x [E _]] ->. discriminate E. Qed.
Lemma wrapper t s b : s <> [] -> 2 <= b <= 36 -> from_chars_int t s b = parse_int_string t s b.
Proof.
  intros N B. unfold from_chars_int. destruct s; [contradiction|]. destruct (Z.ltb_spec b 2); [lia|]. destruct (Z.ltb_spec 36 b); [lia|]. reflexivity.
Qed.
Definition is_neg (v : Z) : bool := v <? 0.
(** the answer to a number is that of its magnitude and sign *)
Lemma number_outcome t b s v r : 2 <= b <= 36 -> bytes s -> number_at t b s v r ->
  from_chars_int t s b = Ok (outcome t b (is_neg v) (Z.abs v) r) \/ v = 0 /\ from_chars_int t s b = Ok (FFRes r EOk (Some 0)).
Proof.
  intros B Y N. destruct N as [d v r D R|d v r S D R].
  - left. assert (YD : bytes d) by (apply Forall_app in Y; apply Y). destruct (digit_text_dv b d v YD D) as [NE [A ->]].
    assert (VR := dv_range b d ltac:(lia) YD A). destruct d as [|c d]; [contradiction|].
    rewrite wrapper by (try discriminate; exact B).
    change ((c :: d) ++ r) with (sgn false ++ (c :: d) ++ r). rewrite (parse_master t b false (c :: d) r); try assumption; try discriminate.
    + unfold is_neg. rewrite Z.abs_eq by lia. destruct (Z.ltb_spec (dv b (c :: d)) 0); [lia|]. reflexivity.
    + intros _. cbn [app]. inversion A; subst. eapply bdig_minus; eassumption.
  - assert (YD : bytes d) by (inversion Y as [|? ? ? Y2]; apply Forall_app in Y2; apply Y2). destruct (digit_text_dv b d v YD D) as [NE [A ->]].
    assert (VR := dv_range b d ltac:(lia) YD A).
    assert (E : from_chars_int t (ch "-" :: d ++ r) b = Ok (outcome t b true (dv b d) r)).
    { rewrite wrapper by (try discriminate; exact B).
      change (ch "-" :: d ++ r) with (sgn true ++ d ++ r). rewrite (parse_master t b true d r); try assumption; try discriminate; auto.
      destruct d; [contradiction|reflexivity]. }
    destruct (Z.eq_dec (dv b d) 0) as [Q|Q].
    + right. split; [lia|]. rewrite E, Q. f_equal. unfold outcome. rewrite Z.mod_0_l by lia.
      destruct (table_facts b B) as [T1 [_ [T2 [T3 _]]]]. set (m := max_digits_u64 b) in *. destruct (imax_cases t) as [_ [P _]].
      destruct (Z.leb_spec (b ^ m) 0); [lia|]. destruct (Z.leb_spec (b ^ (m - 1)) 0); [lia|]. cbn [andb].
      destruct (Z.ltb_spec (imax t + 1) 0); [lia|]. reflexivity.
    + left. rewrite E. unfold is_neg. rewrite Z.abs_opp, Z.abs_eq by lia. destruct (Z.ltb_spec (- dv b d) 0); [reflexivity|lia].
Qed.
Lemma number_sign t b s v r : 2 <= b -> bytes s -> number_at t b s v r -> v < 0 -> isgn t = true.
Proof.
  intros B Y N L. destruct N as [d v r D R|d v r S D R]; [|exact S]. assert (YD : bytes d) by (apply Forall_app in Y; apply Y).
  destruct (digit_text_dv b d v YD D) as [_ [A ->]]. pose proof (dv_range b d B YD A). lia.
Qed.
Lemma neg_bound t v : (v < 0 -> isgn t = true) -> (in_range t v <-> Z.abs v <= imax t + (if is_neg v then 1 else 0)).
Proof.
  intros S. unfold is_neg. destruct (Z.ltb_spec v 0) as [L|L].
  - unfold in_range. rewrite (imin_signed t (S L)). destruct (imax_cases t) as [_ [P _]]. lia.
  - unfold in_range, imin. destruct (isgn t); [|lia]. assert (0 < 2 ^ (bits (iw t) - 1)) by (destruct (iw t); reflexivity). lia.
Qed.
Lemma zero_in t : in_range t 0.
Proof. destruct t as [[] []]; unfold in_range; cbn; lia. Qed.
Lemma bound_u64 t v : (v < 0 -> isgn t = true) -> imax t + (if is_neg v then 1 else 0) < 2 ^ 64.
Proof. intros S. unfold is_neg. destruct (imax_cases t) as [P [_ Q]]. destruct (Z.ltb_spec v 0) as [L|L]; [specialize (Q (S L))|]; lia. Qed.

Lemma narrow t : bits (iw t) < 64 -> imax t < 2 ^ 32.
Proof. destruct t as [[] []]; cbn; lia. Qed.
Lemma reads t b s v r : 2 <= b <= 36 -> bytes s -> number_at t b s v r -> in_range t v ->
  from_chars_int t s b = Ok (FFRes r EOk (Some v)).
Proof.
  intros B Y N I. assert (S : v < 0 -> isgn t = true) by (apply (number_sign t b s v r); [lia|assumption..]).
  destruct (number_outcome t b s v r B Y N) as [->|[-> ->]]; [|reflexivity].
  apply (neg_bound t v S) in I. pose proof (bound_u64 t v S) as P. unfold outcome.
  destruct (table_facts b B) as [T1 [_ [T2 [T3 _]]]]. set (m := max_digits_u64 b) in *. rewrite Z.mod_small by lia.
  destruct (Z.leb_spec (b ^ m) (Z.abs v)); [lia|].
  destruct (Z.leb_spec (b ^ (m - 1)) (Z.abs v)); cbn [andb].
  1: destruct (Z.ltb_spec (Z.abs v) (b ^ (m - 1))); [lia|].
  all: destruct (Z.ltb_spec (imax t + (if is_neg v then 1 else 0)) (Z.abs v)); [lia|].
  all: do 3 f_equal; unfold is_neg; destruct (Z.ltb_spec v 0); lia.
Qed.
Lemma ranges t b s v r : 2 <= b <= 36 -> bytes s -> number_at t b s v r -> ~ in_range t v ->
  bits (iw t) < 64 \/ b = 2 \/ b = 4 \/ b = 16 \/ Z.abs v < 2 ^ 64 ->
  from_chars_int t s b = Ok (FFRes r ERange None).
Proof.
  intros B Y N I C. assert (S : v < 0 -> isgn t = true) by (apply (number_sign t b s v r); [lia|assumption..]).
  destruct (number_outcome t b s v r B Y N) as [->|[-> _]]; [|destruct (I (zero_in t))].
  rewrite (neg_bound t v S) in I. unfold outcome.
  destruct (table_facts b B) as [T1 [_ [T2 [T3 [T4 _]]]]]. set (m := max_digits_u64 b) in *.
  destruct (Z.leb_spec (b ^ m) (Z.abs v)) as [L|L]; [reflexivity|].
  destruct (Z_lt_le_dec (Z.abs v) (2 ^ 64)) as [K|K].
  - rewrite Z.mod_small by lia. destruct (_ && _); [reflexivity|].
    destruct (Z.ltb_spec (imax t + (if is_neg v then 1 else 0)) (Z.abs v)); [reflexivity|lia].
  - destruct (Z.leb_spec (b ^ (m - 1)) (Z.abs v)) as [_|?]; [|lia]. cbn [andb].
    destruct (Z.ltb_spec (Z.abs v mod 2 ^ 64) (b ^ (m - 1))) as [Q|Q]; [reflexivity|].
    destruct (Z.ltb_spec (imax t + (if is_neg v then 1 else 0)) (Z.abs v mod 2 ^ 64)) as [O|O]; [reflexivity|exfalso].
    assert (C' : b = 2 \/ b = 4 \/ b = 16).
    { destruct C as [C|C]; [|lia]. pose proof (narrow t C). destruct (is_neg v); lia. }
    specialize (T4 C').
    assert (Z.abs v mod 2 ^ 64 = Z.abs v - 2 ^ 64) by (symmetry; apply Z.mod_unique with 1; lia). lia.
Qed.
(** past 2^64, for the 64-bit types *)
Lemma wraps t b s v r m : 2 <= b <= 36 -> bytes s -> number_at t b s v r -> digit_count b (2 ^ 64 - 1) m -> 2 ^ 64 <= Z.abs v ->
  from_chars_int t s b =
    Ok (if (Z.abs v <? b ^ m) && (b ^ (m - 1) <=? Z.abs v mod 2 ^ 64) && in_rangeb t (Z.sgn v * (Z.abs v mod 2 ^ 64))
        then FFRes r EOk (Some (Z.sgn v * (Z.abs v mod 2 ^ 64)))
        else FFRes r ERange None).
Proof.
  intros B Y N M G. apply (max_digits_count b m B) in M. assert (S : v < 0 -> isgn t = true) by (apply (number_sign t b s v r); [lia|assumption..]).
  destruct (number_outcome t b s v r B Y N) as [->|[-> _]]; [|exfalso; cbn in G; lia]. f_equal. unfold outcome. rewrite <- M.
  destruct (table_facts b B) as [T1 [_ [T2 [T3 _]]]]. rewrite <- M in *. clear M.
  pose proof (Z.mod_pos_bound (Z.abs v) (2 ^ 64) ltac:(lia)) as U. set (i := Z.abs v mod 2 ^ 64) in *. clearbody i.
  destruct (Z.leb_spec (b ^ m) (Z.abs v)) as [L|L]; destruct (Z.ltb_spec (Z.abs v) (b ^ m)) as [L'|L']; try lia; [reflexivity|]. cbn [andb].
  destruct (Z.leb_spec (b ^ (m - 1)) (Z.abs v)) as [_|?]; [|lia]. cbn [andb].
  destruct (Z.ltb_spec i (b ^ (m - 1))) as [K|K]; destruct (Z.leb_spec (b ^ (m - 1)) i) as [K'|K']; try lia; [reflexivity|]. cbn [andb].
  assert (I0 : 0 < i) by lia.
  assert (E : Z.sgn v * i = if is_neg v then - i else i).
  { unfold is_neg. destruct (Z.ltb_spec v 0); [rewrite Z.sgn_neg by lia|rewrite Z.sgn_pos by lia]; ring. }
  rewrite E. assert (NB := neg_bound t (Z.sgn v * i)). rewrite E in NB.
  assert (NN : is_neg (if is_neg v then - i else i) = is_neg v).
  { unfold is_neg. destruct (Z.ltb_spec v 0); [destruct (Z.ltb_spec (- i) 0)|destruct (Z.ltb_spec i 0)]; try reflexivity; lia. }
  rewrite NN in NB. assert (AI : Z.abs (if is_neg v then - i else i) = i) by (destruct (is_neg v); lia). rewrite AI in NB.
  assert (NB' : in_range t (if is_neg v then - i else i) <-> i <= imax t + (if is_neg v then 1 else 0)).
  { apply NB. intros H. apply S. unfold is_neg in H. destruct (Z.ltb_spec v 0); lia. }
  assert (IR : in_rangeb t (if is_neg v then - i else i) = true <-> in_range t (if is_neg v then - i else i)).
  { unfold in_rangeb, in_range. rewrite andb_true_iff, !Z.leb_le. reflexivity. }
  destruct (in_rangeb t (if is_neg v then - i else i)); destruct (Z.ltb_spec (imax t + (if is_neg v then 1 else 0)) i) as [O|O]; try reflexivity.
  - assert (in_range t (if is_neg v then - i else i)) as H by (apply IR; reflexivity). apply NB' in H. lia.
  - assert (false = true) by (apply IR, NB'; exact O). discriminate.
Qed.

Lemma split_digits b s : b <= 36 -> bytes s -> exists d r, s = d ++ r /\ Forall (bdig b) d /\ ends_digits b r.
Proof.
  intros B Y. induction Y as [|c s C Y [d [r [-> [D R]]]]]; [exists [], []; repeat split; constructor|].
  destruct (Z_lt_le_dec (ch_to_digit c) b) as [L|L].
  - exists (c :: d), r. repeat split; [|exact R]. constructor; [now apply bdig_iff|exact D].
  - exists [], (c :: d ++ r). repeat split; [constructor|]. cbn. intros x E. rewrite ch_to_digit_spec, E in L by exact C. exact L.
Qed.
Lemma numbers t b s : 2 <= b <= 36 -> bytes s -> (exists v r, number_at t b s v r) \/ from_chars_int t s b = Ok (FFRes s EInvalid None).
Proof.
  intros B Y. destruct s as [|c s]; [right; reflexivity|]. destruct (Z.eq_dec c (ch "-")) as [->|N].
  - assert (YS : bytes s) by now inversion Y. destruct (split_digits b s ltac:(lia) YS) as [d [r [E [D R]]]].
    destruct (isgn t) eqn:S.
    + destruct d as [|x d].
      * right. cbn [app] in E. subst r. rewrite wrapper by (try discriminate; exact B).
        apply (parse_master t b true [] s); try assumption; try discriminate. auto.
      * left. exists (- dv b (x :: d)), r. rewrite E. constructor 2; [exact S| |exact R]. apply dv_digit_text; [|discriminate|exact D].
        rewrite E in YS. apply Forall_app in YS. apply YS.
    + right. rewrite wrapper by (try discriminate; exact B). unfold parse_int_string. rewrite Z.eqb_refl, S. reflexivity.
  - destruct (split_digits b (c :: s) ltac:(lia) Y) as [d [r [E [D R]]]]. destruct d as [|x d].
    + right. cbn [app] in E. subst r. rewrite wrapper by (try discriminate; exact B).
      apply (parse_master t b false [] (c :: s)); try assumption; try discriminate. auto.
    + left. exists (dv b (x :: d)), r. rewrite E. constructor; [|exact R]. apply dv_digit_text; [|discriminate|exact D].
      rewrite E in Y. apply Forall_app in Y. apply Y.
Qed.
Lemma rejects t b s : bytes s -> ~ (2 <= b <= 36 /\ exists v r, number_at t b s v r) -> from_chars_int t s b = Ok (FFRes s EInvalid None).
Proof.
  intros Y N. destruct (Z_le_gt_dec 2 b) as [L|L]; [destruct (Z_le_gt_dec b 36) as [K|K]|].
  - destruct (numbers t b s (conj L K) Y) as [H|H]; [|exact H]. destruct N. split; [lia|exact H].
  - unfold from_chars_int. destruct s; [reflexivity|]. destruct (Z.ltb_spec 36 b); [|lia]. rewrite orb_true_r. reflexivity.
  - unfold from_chars_int. destruct s; [reflexivity|]. destruct (Z.ltb_spec b 2); [|lia]. reflexivity.
Qed.
Lemma number_digits t b s v r : number_at t b s v r -> exists u, s = u ++ r /\ u <> [].
Proof. destruct 1 as [d v r D R|d v r S D R]; [exists d|exists (ch "-" :: d)]; split; try reflexivity; try discriminate. apply D. Qed.
(** a success gives a number of the type congruent to the text's *)
Lemma total t b s : bytes s -> exists x, from_chars_int t s b = Ok x /\
  match x with
  | FFRes r EOk (Some v) => in_range t v /\ 2 <= b <= 36 /\ exists n, number_at t b s n r /\ (v - n) mod 2 ^ 64 = 0
  | FFRes r ERange None => exists n, number_at t b s n r /\ ~ in_range t n
  | FFRes r EInvalid None => r = s
  | _ => False
  end.
Proof.
  intros Y. destruct (Z_le_gt_dec 2 b) as [L|L]; [destruct (Z_le_gt_dec b 36) as [K|K]|].
  2,3: rewrite rejects by (try assumption; lia); eexists; split; reflexivity.
  destruct (numbers t b s (conj L K) Y) as [[v [r N]]|H]; [|rewrite H; eexists; split; reflexivity].
  assert (S : v < 0 -> isgn t = true) by (apply (number_sign t b s v r); assumption).
  assert (DEC : in_range t v \/ ~ in_range t v) by (unfold in_range; lia). destruct DEC as [I|I].
  { rewrite (reads t b s v r (conj L K) Y N I). eexists. split; [reflexivity|]. cbn. split; [exact I|]. split; [lia|]. exists v.
    split; [exact N|]. rewrite Z.sub_diag. reflexivity. }
  destruct (Z_lt_le_dec (Z.abs v) (2 ^ 64)) as [Q|Q].
  { rewrite (ranges t b s v r (conj L K) Y N I) by auto. eexists. split; [reflexivity|]. cbn. now exists v. }
  assert (M : digit_count b (2 ^ 64 - 1) (max_digits_u64 b)).
  { destruct (table_facts b (conj L K)) as [T1 [_ [T2 [T3 _]]]]. unfold digit_count. repeat split; try lia. }
  rewrite (wraps t b s v r _ (conj L K) Y N M Q). eexists. split; [reflexivity|].
  destruct (_ && _) eqn:E; [|now exists v]. apply andb_true_iff in E as [_ E]. unfold in_rangeb in E. apply andb_true_iff in E. rewrite !Z.leb_le in E.
  split; [exact E|]. split; [lia|]. exists v. split; [exact N|].
  assert (V : v = Z.sgn v * Z.abs v) by (rewrite Z.mul_comm; symmetry; apply Z.abs_sgn).
  rewrite V at 3. rewrite <- Z.mul_sub_distr_l, (Z.mod_eq (Z.abs v)) by lia.
  replace (Z.sgn v * (Z.abs v - 2 ^ 64 * (Z.abs v / 2 ^ 64) - Z.abs v)) with ((- Z.sgn v * (Z.abs v / 2 ^ 64)) * 2 ^ 64) by ring.
  apply Z.mod_mul. lia.
Qed.

(** every base but 2, 4 and 16 misses an overflow *)
Lemma numeral_text b v : 2 <= b <= 36 -> 0 <= v -> digit_text b (numeral b v) v /\ bytes (numeral b v).
Proof.
  intros B V. destruct (numeral_is b v ltac:(lia) V) as [ds [C ->]]. destruct C as [C1 C2 _ <-]. split.
  - split; [destruct ds; [contradiction|discriminate]|]. exists ds. split; [|reflexivity]. clear C1 V.
    induction C2 as [|d ds D C2 IH]; [constructor|]. cbn [map]. constructor; [|exact IH]. split; [|lia].
    unfold digit_char, char_digit. destruct (Z.ltb_spec d 10).
    + replace ((48 <=? 48 + d) && (48 + d <=? 57)) with true by lia. f_equal. lia.
    + replace ((48 <=? 97 + (d - 10)) && (97 + (d - 10) <=? 57)) with false by lia.
      replace ((97 <=? 97 + (d - 10)) && (97 + (d - 10) <=? 122)) with true by lia. f_equal. lia.
  - clear C1 V. induction C2 as [|d ds D C2 IH]; [constructor|]. cbn [map]. constructor; [|exact IH].
    unfold is_byte, digit_char. destruct (Z.ltb_spec d 10); lia.
Qed.
Lemma missed b : 2 <= b <= 36 -> b <> 2 -> b <> 4 -> b <> 16 ->
  exists s n v, bytes s /\ number_at u64t b s n [] /\ ~ in_range u64t n /\ from_chars_int u64t s b = Ok (FFRes [] EOk (Some v)).
Proof.
  intros B B2 B4 B16. destruct (table_facts b B) as [T1 [_ [T2 [T3 [_ T4]]]]]. specialize (T4 B2 B4 B16).
  assert (M : digit_count b (2 ^ 64 - 1) (max_digits_u64 b)) by (unfold digit_count; repeat split; try lia).
  set (m := max_digits_u64 b) in *. set (n := 2 ^ 64 + b ^ (m - 1)) in *.
  destruct (numeral_text b n B ltac:(lia)) as [D Y]. set (s := numeral b n) in *.
  assert (N : number_at u64t b s n []) by (rewrite <- (app_nil_r s); constructor; [exact D|exact I]).
  exists s, n, (b ^ (m - 1)). split; [exact Y|]. split; [exact N|]. split; [unfold in_range; change (imax u64t) with (2 ^ 64 - 1); lia|].
  rewrite (wraps u64t b s n [] m B Y N M) by lia. rewrite Z.abs_eq, Z.sgn_pos by lia.
  assert (Q : n mod 2 ^ 64 = b ^ (m - 1)) by (symmetry; apply Z.mod_unique with 1; unfold n; lia). rewrite Q.
  rewrite Z.mul_1_l. destruct (Z.ltb_spec n (b ^ m)); [|lia]. destruct (Z.leb_spec (b ^ (m - 1)) (b ^ (m - 1))); [|lia]. cbn [andb].
  assert (R : in_rangeb u64t (b ^ (m - 1)) = true) by (unfold in_rangeb; change (imin u64t) with 0; change (imax u64t) with (2 ^ 64 - 1); lia).
  rewrite R. reflexivity.
Qed.
