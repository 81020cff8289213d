(** fast_float reading integers: the tables, the loops and the answer. *)
From Verif Require Import Base BaseLemmas CharconvSpec CharconvProofs FloatTable FloatModel FloatSpec.
From Verif Require Import FloatProofs1 FloatProofs2 FloatProofs6 FloatProofs10 FfIntModel FfIntSpec.
From Coq Require Import Lia.
Open Scope Z_scope.

(** ** the tables *)
Lemma ch_to_digit_spec c : is_byte c -> ch_to_digit c = match char_digit c with Some x => x | None => 255 end.
Proof.
  intros B. assert (H : forallb (fun n => ch_to_digit (Z.of_nat n) =? match char_digit (Z.of_nat n) with Some x => x | None => 255 end) (seq 0 256) = true) by (vm_compute; reflexivity).
  rewrite forallb_forall in H. unfold is_byte in B. specialize (H (Z.to_nat c)). rewrite Z2Nat.id in H by lia.
  apply Z.eqb_eq, H, in_seq. lia.
Qed.
Lemma char_digit_range c x : char_digit c = Some x -> 0 <= x < 36.
Proof. unfold char_digit. intros H. repeat (destruct (_ && _) eqn:? in H; [injection H as <-; lia|]). discriminate. Qed.
Lemma char_digit_zero c : char_digit c = Some 0 -> c = ch "0".
Proof. unfold char_digit. change (ch "0") with 48. intros H. repeat (destruct (_ && _) eqn:? in H; [injection H as E; lia|]). discriminate. Qed.

Definition table_ok (b : Z) : bool :=
  let m := max_digits_u64 b in
  (1 <=? m) && (min_safe_u64 b =? b ^ (m - 1)) && (2 ^ 32 <? b ^ (m - 1)) && (b ^ (m - 1) <? 2 ^ 64) && (2 ^ 64 <=? b ^ m)
  && (if (b =? 2) || (b =? 4) || (b =? 16) then b ^ m <=? 2 ^ 64 + b ^ (m - 1) else 2 ^ 64 + b ^ (m - 1) <? b ^ m).
Lemma tables b : 2 <= b <= 36 -> table_ok b = true.
Proof.
  intros B. assert (H : forallb (fun n => table_ok (Z.of_nat n)) (seq 2 35) = true) by (vm_compute; reflexivity).
  rewrite forallb_forall in H. specialize (H (Z.to_nat b)). rewrite Z2Nat.id in H by lia. apply H, in_seq. lia.
Qed.
Lemma table_facts b : 2 <= b <= 36 -> let m := max_digits_u64 b in
  1 <= m /\ min_safe_u64 b = b ^ (m - 1) /\ 2 ^ 32 < b ^ (m - 1) < 2 ^ 64 /\ 2 ^ 64 <= b ^ m /\
  (b = 2 \/ b = 4 \/ b = 16 -> b ^ m <= 2 ^ 64 + b ^ (m - 1)) /\ (b <> 2 -> b <> 4 -> b <> 16 -> 2 ^ 64 + b ^ (m - 1) < b ^ m).
Proof.
  intros B m. assert (T := tables b B). unfold table_ok in T. fold m in T. rewrite !andb_true_iff in T.
  destruct T as [[[[[T1 T2] T3] T4] T5] T6]. apply Z.leb_le in T1, T5. apply Z.eqb_eq in T2. apply Z.ltb_lt in T3, T4.
  repeat split; auto.
  - intros E. destruct ((b =? 2) || (b =? 4) || (b =? 16)) eqn:Q; [|lia]. now apply Z.leb_le.
  - intros. destruct ((b =? 2) || (b =? 4) || (b =? 16)) eqn:Q; [lia|]. now apply Z.ltb_lt.
Qed.
Lemma max_digits_count b m : 2 <= b <= 36 -> digit_count b (2 ^ 64 - 1) m -> m = max_digits_u64 b.
Proof.
  intros B [M1 [M2 [_ M3]]]. destruct (table_facts b B) as [T1 [_ [T2 [T3 _]]]]. set (k := max_digits_u64 b) in *.
  specialize (M3 ltac:(lia)).
  destruct (Z.lt_trichotomy m k) as [L|[L|L]]; [|exact L|].
  - assert (b ^ m <= b ^ (k - 1)) by (apply Z.pow_le_mono_r; lia). lia.
  - assert (b ^ k <= b ^ (m - 1)) by (apply Z.pow_le_mono_r; lia). lia.
Qed.

(** ** digits *)
Definition bdig (b c : Z) : Prop := exists x, char_digit c = Some x /\ x < b.
Definition dv (b : Z) (d : list Z) : Z := positional b (map ch_to_digit d).
Lemma bdig_lt b c : is_byte c -> bdig b c -> 0 <= ch_to_digit c < b.
Proof. intros B [x [E L]]. rewrite ch_to_digit_spec, E by exact B. apply char_digit_range in E. lia. Qed.
Lemma bdig_iff b c : b <= 36 -> is_byte c -> (bdig b c <-> ch_to_digit c < b).
Proof.
  intros B Y. split; [intros D; now apply bdig_lt|]. rewrite ch_to_digit_spec by exact Y.
  intros L. unfold bdig. destruct (char_digit c) as [x|]; [|lia]. now exists x.
Qed.
Lemma ends_iff b r : b <= 36 -> bytes r -> ends_digits b r -> match r with [] => True | c :: _ => b <= ch_to_digit c end.
Proof.
  intros B Y E. destruct r as [|c r]; [exact I|]. cbn in E. inversion Y; subst.
  rewrite ch_to_digit_spec by assumption. destruct (char_digit c) as [x|]; [now apply E|lia].
Qed.
Lemma digit_text_dv b d v : bytes d -> digit_text b d v -> d <> [] /\ Forall (bdig b) d /\ v = dv b d.
Proof.
  intros Y [N [ds [F P]]]. split; [exact N|]. clear N.
  assert (Forall (bdig b) d /\ ds = map ch_to_digit d) as [A ->].
  { clear P v. induction F as [|c x d ds [E L] F IH]; [split; [constructor|reflexivity]|].
    inversion Y; subst. destruct (IH ltac:(assumption)) as [A ->]. split; [constructor; [now exists x|exact A]|].
    cbn [map]. f_equal. rewrite ch_to_digit_spec, E by assumption. reflexivity. }
  split; [exact A|]. now rewrite <- P.
Qed.
Lemma dv_digit_text b d : bytes d -> d <> [] -> Forall (bdig b) d -> digit_text b d (dv b d).
Proof.
  intros Y N A. split; [exact N|]. exists (map ch_to_digit d). split; [|reflexivity]. clear N.
  induction A as [|c d [x [E L]] A IH]; [constructor|]. inversion Y; subst. cbn [map]. constructor; [|auto].
  rewrite ch_to_digit_spec, E by assumption. split; [reflexivity|exact L].
Qed.
Lemma dv_cons b c d : dv b (c :: d) = ch_to_digit c * b ^ len d + dv b d.
Proof. unfold dv. cbn [map]. rewrite positional_cons. unfold len. now rewrite map_length. Qed.
Lemma dv_nil b : dv b [] = 0. Proof. reflexivity. Qed.
Lemma dv_range b d : 2 <= b -> bytes d -> Forall (bdig b) d -> 0 <= dv b d < b ^ len d.
Proof.
  intros B Y A. induction A as [|c d C A IH]; [rewrite dv_nil; change (len (@nil Z)) with 0; lia|].
  inversion Y; subst. specialize (IH ltac:(assumption)). assert (K := bdig_lt b c ltac:(assumption) C).
  rewrite dv_cons, len_cons, Z.pow_add_r by (try apply len_nonneg; lia). change (b ^ 1) with (b * 1).
  assert (0 < b ^ len d) by (apply Z.pow_pos_nonneg; [lia|apply len_nonneg]). nia.
Qed.
Lemma dec_dv d : bytes d -> Forall (bdig 10) d -> dec d = dv 10 d.
Proof.
  intros Y A. induction A as [|c d [x [E L]] A IH]; [reflexivity|]. inversion Y; subst.
  rewrite dec_cons, dv_cons, IH by assumption. do 2 f_equal. rewrite ch_to_digit_spec, E by assumption.
  unfold char_digit in E. change (ch "0") with 48. repeat (destruct (_ && _) eqn:? in E; [injection E as <-; lia|]). discriminate.
Qed.
Lemma bdig_ten c : bdig 10 c <-> dig c.
Proof.
  rewrite dig_range. unfold bdig, char_digit. split.
  - intros [x [E L]]. repeat (destruct (_ && _) eqn:? in E; [injection E as <-; lia|]). discriminate.
  - intros R. exists (c - 48). replace ((48 <=? c) && (c <=? 57)) with true by lia. split; [reflexivity|lia].
Qed.

(** ** the loops *)
Lemma int_loop_spec b d r i : 2 <= b <= 36 -> bytes (d ++ r) -> Forall (bdig b) d -> ends_digits b r -> 0 <= i < 2 ^ 64 ->
  int_loop b (d ++ r) i = (r, u64 (i * b ^ len d + dv b d)).
Proof.
  intros B Y A R. revert i. induction A as [|c d C A IH]; intros i I; cbn [app] in *.
  - rewrite dv_nil. change (len (@nil Z)) with 0. rewrite Z.mul_1_r, Z.add_0_r, u64_id by exact I.
    apply ends_iff in R; [|lia|exact Y]. destruct r as [|c r]; [reflexivity|]. cbn [int_loop].
    destruct (Z.leb_spec b (ch_to_digit c)); [reflexivity|lia].
  - inversion Y; subst. cbn [int_loop]. assert (K := bdig_lt b c ltac:(assumption) C).
    destruct (Z.leb_spec b (ch_to_digit c)); [lia|]. rewrite IH by (try assumption; apply u64_range). f_equal.
    rewrite u64_lin. f_equal. rewrite dv_cons, len_cons, Z.pow_add_r by (try apply len_nonneg; lia). rewrite Z.pow_1_r. ring.
Qed.
Lemma both_loops b d r : 2 <= b <= 36 -> bytes (d ++ r) -> Forall (bdig b) d -> ends_digits b r ->
  (let '(p, i) := if b =? 10 then loop_parse_if_eight_digits (d ++ r) 0 else (d ++ r, 0) in int_loop b p i) = (r, u64 (dv b d)).
Proof.
  intros B Y A R. destruct (Z.eqb_spec b 10) as [->|N].
  - destruct (loop8_spec d r 0) as [d1 [d2 [E ->]]]; [exact Y| | |lia|].
    { unfold digs. revert A. apply Forall_impl. intros c. apply bdig_ten. }
    { unfold stops. destruct r as [|c r]; [exact I|]. intros D. apply bdig_ten in D as [x [E L]]. cbn in R. apply R in E. lia. }
    subst d. apply Forall_app in A as [A1 A2]. rewrite <- app_assoc in Y. apply Forall_app in Y as [Y1 Y].
    rewrite int_loop_spec by (try assumption; try apply u64_range; lia). f_equal. rewrite u64_lin. f_equal.
    rewrite Z.mul_0_l, Z.add_0_l, dec_dv by assumption.
    clear R Y1 Y. unfold dv. rewrite map_app. revert A1. induction d1 as [|c d1 IH]; intros A1; [rewrite app_nil_l; reflexivity|].
    inversion A1; subst. cbn [app map]. rewrite !positional_cons, <- IH by assumption. unfold len. rewrite !app_length, !map_length, Nat2Z.inj_add, Z.pow_add_r by lia. ring.
  - rewrite int_loop_spec by (try assumption; lia). reflexivity.
Qed.

Lemma skip_spec b d r : ends_digits b r -> Forall (bdig b) d -> 2 <= b -> exists z d', d = repeat (ch "0") z ++ d' /\ skip_char0 (d ++ r) = d' ++ r /\
  match d' with [] => True | c :: _ => c <> ch "0" end.
Proof.
  intros R A B. induction A as [|c d C A IH].
  - exists O, []. repeat split. cbn [app]. destruct r as [|c r]; [reflexivity|]. cbn [skip_char0].
    destruct (Z.eqb_spec c (ch "0")) as [->|]; [|reflexivity]. cbn in R. specialize (R 0 eq_refl). lia.
  - destruct (Z.eqb_spec c (ch "0")) as [->|N].
    + destruct IH as [z [d' [E [K H]]]]. exists (S z), d'. cbn [repeat app]. split; [now rewrite E|]. cbn [skip_char0]. rewrite Z.eqb_refl.
      split; [exact K|exact H].
    + exists O, (c :: d). repeat split; [|exact N]. cbn [app skip_char0]. now destruct (Z.eqb_spec c (ch "0")).
Qed.
Lemma dv_zeros b z d : dv b (repeat (ch "0") z ++ d) = dv b d.
Proof. induction z as [|z IH]; [reflexivity|]. cbn [repeat app]. rewrite dv_cons, IH. change (ch_to_digit (ch "0")) with 0. lia. Qed.

(** ** what it answers *)
Definition outcome (t : ity) (b : Z) (neg : bool) (v : Z) (r : list Z) : ffres :=
  let m := max_digits_u64 b in
  let i := v mod 2 ^ 64 in
  if b ^ m <=? v then FFRes r ERange None
  else if (b ^ (m - 1) <=? v) && (i <? b ^ (m - 1)) then FFRes r ERange None
  else if imax t + (if neg then 1 else 0) <? i then FFRes r ERange None
  else FFRes r EOk (Some (if neg then - i else i)).

Lemma imax_cases t : imax t < 2 ^ 64 /\ 0 < imax t /\ (isgn t = true -> imax t < 2 ^ 63).
Proof. destruct t as [[] []]; cbn; lia. Qed.
Lemma wrap_eq t y k : in_range t y -> wrap t (y + k * 2 ^ bits (iw t)) = y.
Proof.
  unfold in_range, imin, imax, wrap. intros R. rewrite Z_mod_plus_full.
  assert (P : 2 ^ bits (iw t) = 2 * 2 ^ (bits (iw t) - 1)) by (destruct (iw t); reflexivity).
  assert (0 < 2 ^ (bits (iw t) - 1)) by (destruct (iw t); reflexivity).
  set (h := 2 ^ (bits (iw t) - 1)) in *. set (w := 2 ^ bits (iw t)) in *. clearbody h w.
  destruct (isgn t); cbn [andb]; [|apply Z.mod_small; lia].
  destruct (Z_lt_le_dec y 0) as [N|N].
  - replace (y mod w) with (y + w) by (apply Z.mod_unique with (-1); lia). destruct (Z.leb_spec h (y + w)); lia.
  - rewrite Z.mod_small by lia. destruct (Z.leb_spec h y); lia.
Qed.
Lemma wrap_in t y : in_range t y -> wrap t y = y.
Proof. intros R. rewrite <- (wrap_eq t y 0) at 2 by exact R. f_equal. ring. Qed.
Lemma wrap_u64 t y : in_range t y -> wrap t (u64 y) = y.
Proof.
  intros R. unfold u64. rewrite Z.mod_eq by lia.
  replace (y - 2 ^ 64 * (y / 2 ^ 64)) with (y + (- (y / 2 ^ 64) * 2 ^ (64 - bits (iw t))) * 2 ^ bits (iw t)); [now apply wrap_eq|].
  rewrite <- Z.mul_assoc, <- Z.pow_add_r by (destruct (iw t); cbn; lia). replace (64 - bits (iw t) + bits (iw t)) with 64 by ring. ring.
Qed.
Lemma imin_signed t : isgn t = true -> imin t = - imax t - 1.
Proof. unfold imin, imax. intros ->. lia. Qed.
Lemma negate_spec t i : isgn t = true -> 0 < i <= imax t + 1 -> negate t i = Ok (- i).
Proof.
  intros S I. destruct (imax_cases t) as [_ [P _]]. assert (MN := imin_signed t S). unfold negate.
  rewrite wrap_u64 by (unfold in_range; lia). replace (- imax t - (i - imax t)) with (- i) by ring.
  assert (Q : in_rangeb (promoted t) (- i) = true).
  { unfold in_rangeb. apply andb_true_iff. rewrite !Z.leb_le. destruct t as [[] []]; try discriminate S; cbn in *; lia. }
  rewrite Q, wrap_in by (unfold in_range; lia). reflexivity.
Qed.
Lemma wrap_small t i : 0 <= i <= imax t -> wrap t i = i.
Proof. intros I. apply wrap_in. unfold in_range. split; [|lia]. unfold imin. destruct (isgn t); [|lia]. destruct (iw t); cbn; lia. Qed.

Definition sgn (neg : bool) : list Z := if neg then [ch "-"] else [].
Lemma len0 (s : list Z) : len s = 0 -> s = []. Proof. destruct s; [reflexivity|]. rewrite len_cons. pose proof (len_nonneg s). lia. Qed.
Lemma parse_master t b neg d r : 2 <= b <= 36 -> bytes (sgn neg ++ d ++ r) -> Forall (bdig b) d -> ends_digits b r ->
  (neg = true -> isgn t = true) -> sgn neg ++ d ++ r <> [] -> (neg = false -> match d ++ r with c :: _ => c <> ch "-" | [] => True end) ->
  parse_int_string t (sgn neg ++ d ++ r) b =
    Ok (match d with [] => FFRes (sgn neg ++ d ++ r) EInvalid None | _ => outcome t b neg (dv b d) r end).
Proof.
  intros B Y A R S NE NS. assert (YD : bytes (d ++ r)) by (apply Forall_app in Y; apply Y).
  set (s := sgn neg ++ d ++ r) in *.
  assert (E : parse_int_string t s b =
      let start_num := d ++ r in
      let start_digits := skip_char0 start_num in
      let has_leading_zeros := len start_digits <? len start_num in
      let '(p, i) := let '(p, i) := if b =? 10 then loop_parse_if_eight_digits start_digits 0 else (start_digits, 0) in int_loop b p i in
      let digit_count := len start_digits - len p in
      if digit_count =? 0 then
        if has_leading_zeros then Ok (FFRes p EOk (Some 0)) else Ok (FFRes s EInvalid None)
      else
      let max_digits := max_digits_u64 b in
      if max_digits <? digit_count then Ok (FFRes p ERange None)
      else if (digit_count =? max_digits) && (i <? min_safe_u64 b) then Ok (FFRes p ERange None)
      else if u64 (imax t + if neg then 1 else 0) <? i then Ok (FFRes p ERange None)
      else do v <- (if neg then negate t i else Ok (wrap t i)) ;; Ok (FFRes p EOk (Some v))).
  { unfold parse_int_string. destruct neg.
    - unfold s at 1. cbn [sgn app]. rewrite Z.eqb_refl, (S eq_refl). cbn [negb andb]. fold s.
      cbv zeta. destruct (if b =? 10 then _ else _) as [p i]. reflexivity.
    - specialize (NS eq_refl). change s with (d ++ r) in *. destruct (d ++ r) as [|c q]; [congruence|].
      destruct (Z.eqb_spec c (ch "-")) as [|_]; [contradiction|]. rewrite andb_false_r. cbv zeta. destruct (if b =? 10 then _ else _) as [p i]. reflexivity. }
  rewrite E. clear E. cbv zeta.
  destruct (skip_spec b d r R A ltac:(lia)) as [z [d' [D [-> H]]]].
  assert (A' : Forall (bdig b) d') by (rewrite D in A; apply Forall_app in A; apply A).
  assert (YD' : bytes (d' ++ r)) by (rewrite D, <- app_assoc in YD; apply Forall_app in YD; apply YD).
  assert (Y' : bytes d') by (apply Forall_app in YD'; apply YD').
  rewrite (both_loops b d' r B YD' A' R). rewrite !len_app. replace (len d' + len r - len r) with (len d') by ring.
  assert (V : dv b d = dv b d') by (rewrite D; apply dv_zeros).
  assert (LD : len d = Z.of_nat z + len d') by (rewrite D, len_app; unfold len; rewrite repeat_length; reflexivity).
  destruct (table_facts b B) as [T1 [-> [T2 [T3 _]]]]. set (m := max_digits_u64 b) in *.
  destruct (imax_cases t) as [I1 [I2 I3]].
  destruct (Z.eqb_spec (len d') 0) as [Z0|Z0].
  { apply len0 in Z0. subst d'. change (len (@nil Z)) with 0 in *.
    destruct d as [|c d]; [change (len (@nil Z)) with 0; rewrite Z.ltb_irrefl; reflexivity|].
    pose proof (len_nonneg d). rewrite len_cons in *. destruct (Z.ltb_spec (0 + len r) (1 + len d + len r)); [|lia].
    f_equal. unfold outcome. fold m. rewrite V, dv_nil. rewrite Z.mod_0_l by lia.
    destruct (Z.leb_spec (b ^ m) 0); [lia|]. destruct (Z.leb_spec (b ^ (m - 1)) 0); [lia|]. cbn [andb].
    destruct (Z.ltb_spec (imax t + (if neg then 1 else 0)) 0); [destruct neg; lia|]. now destruct neg. }
  destruct d as [|cd dd]; [pose proof (len_nonneg d'); change (len (@nil Z)) with 0 in LD; lia|].
  rewrite V. set (d := cd :: dd) in *. clearbody d. unfold outcome. fold m.
  set (v := dv b d') in *. change (v mod 2 ^ 64) with (u64 v).
  assert (VR := dv_range b d' ltac:(lia) Y' A'). fold v in VR.
  assert (VL : b ^ (len d' - 1) <= v).
  { unfold v. destruct d' as [|c d']; [exfalso; apply Z0; reflexivity|]. rewrite dv_cons, len_cons. replace (1 + len d' - 1) with (len d') by ring.
    inversion A'; subst. inversion Y'; subst. assert (dr := dv_range b d' ltac:(lia) ltac:(assumption) ltac:(assumption)).
    assert (K := bdig_lt b c ltac:(assumption) ltac:(assumption)).
    assert (ch_to_digit c <> 0).
    { intros Q. match goal with H : bdig b c |- _ => destruct H as [x [E L]] end. rewrite ch_to_digit_spec, E in Q by assumption. subst x.
      apply char_digit_zero in E. contradiction. }
    assert (0 < b ^ len d') by (apply Z.pow_pos_nonneg; [lia|apply len_nonneg]). nia. }
  pose proof (len_nonneg d') as LP.
  assert (M1 : (m <? len d') = (b ^ m <=? v)).
  { destruct (Z.ltb_spec m (len d')) as [L|L].
    - assert (b ^ m <= b ^ (len d' - 1)) by (apply Z.pow_le_mono_r; lia). symmetry. apply Z.leb_le. lia.
    - assert (b ^ len d' <= b ^ m) by (apply Z.pow_le_mono_r; lia). symmetry. apply Z.leb_gt. lia. }
  rewrite M1. destruct (Z.leb_spec (b ^ m) v) as [L|L]; [reflexivity|]. apply Z.ltb_ge in M1.
  assert (M2 : (len d' =? m) = (b ^ (m - 1) <=? v)).
  { destruct (Z.eqb_spec (len d') m) as [Q|Q].
    - symmetry. apply Z.leb_le. now rewrite <- Q.
    - assert (b ^ len d' <= b ^ (m - 1)) by (apply Z.pow_le_mono_r; lia). symmetry. apply Z.leb_gt. lia. }
  rewrite M2. clear M2. destruct ((b ^ (m - 1) <=? v) && (u64 v <? b ^ (m - 1))) eqn:Q; [reflexivity|].
  pose proof (u64_range v) as UR.
  assert (UM : u64 (imax t + (if neg then 1 else 0)) = imax t + (if neg then 1 else 0)).
  { apply Z.mod_small. destruct neg; [specialize (I3 (S eq_refl))|]; lia. }
  rewrite UM. destruct (Z.ltb_spec (imax t + (if neg then 1 else 0)) (u64 v)) as [O|O]; [reflexivity|].
  assert (VP : 0 < v) by (assert (0 < b ^ (len d' - 1)) by (apply Z.pow_pos_nonneg; lia); lia).
  assert (UP : 0 < u64 v).
  { apply andb_false_iff in Q as [Q|Q]; [apply Z.leb_gt in Q; unfold u64; rewrite Z.mod_small by lia; exact VP|apply Z.ltb_ge in Q; lia]. }
  destruct neg.
  - rewrite negate_spec by (auto; lia). reflexivity.
  - rewrite wrap_small by lia. reflexivity.
Qed.
