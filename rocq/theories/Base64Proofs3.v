(** Base64: memory safety of the decoder on every text; UTF-8 encoder. *)
From Verif Require Import Base BaseLemmas CharconvModel SubstrModel Base64Model Base64Spec SubstrProofs SubstrProofs2 CharconvSpec CharconvProofs4 CharconvProofs5 Base64Proofs Base64Proofs2.

Lemma appval_safe dbg val c sh : text_char c -> exists v, appval dbg val c sh = Ok v.
Proof.
  intros Hc. apply text_char_range in Hc. unfold appval, dassert. rewrite schar_low by lia.
  rewrite u64_id by lia. replace (0 <=? c) with true by lia. replace (c <? 128) with true by lia.
  rewrite !orb_true_r. destruct (table_ok c Hc) as (x & ->). cbn [bind]. eauto.
Qed.

Ltac av :=
  match goal with
  | |- context[appval ?d ?v ?c ?s] =>
      let x := fresh "x" in destruct (appval_safe d v c s) as (x & ->); [assumption|]; cbn [bind]
  end.
Ltac ap :=
  match goal with
  | Hb : vin ?b ?m, Hs : same_outside ?m ?m1 ?b |- context[app_ ?b (?m1, ?p) ?c] =>
      let x := fresh "m" in let E := fresh in let H := fresh "Hs" in
      destruct (app_safe m m1 b p c Hb Hs) as (x & E & H); [first [assumption | apply Z.mod_pos_bound; lia]|];
      rewrite E; cbn [bind]; clear E Hs
  end.

Definition loop_safe (m s : list Z) (b : view) (r : res (Z * (list Z * Z))) : Prop :=
  match r with
  | Ok (i, (m', n)) => same_outside m m' b /\ 0 <= n /\
      exists pre rest, s = pre ++ rest /\ i = len pre /\ Forall text_char rest /\ (rest = [] \/ 4 <= len rest)
  | Err => True
  | Ub => False
  end.

Lemma decode_loop_safe dbg m b s : vin b m -> forall fuel pre rest m1 pos,
  s = pre ++ rest -> len rest mod 4 = 0 -> Forall text_char rest -> (length rest <= fuel)%nat ->
  same_outside m m1 b -> 0 <= pos -> loop_safe m s b (decode_loop dbg fuel b s (len pre) (m1, pos)).
Proof.
  intros Hb. induction fuel as [|fuel IH]; intros pre rest m1 pos Es H4 HF Hf Hs Hp.
  { destruct rest; [|simpl in Hf; lia]. cbn [decode_loop]. subst s. rewrite app_nil_r, Z.ltb_irrefl.
    cbn [loop_safe]. split; [auto|]. split; [auto|]. exists pre, []. rewrite app_nil_r. auto. }
  pose proof (len_nonneg pre).
  destruct rest as [|x [|y [|z [|w r]]]]; [|exfalso; revert H4; cbn; lia..|].
  { cbn [decode_loop]. subst s. rewrite app_nil_r, Z.ltb_irrefl.
    cbn [loop_safe]. split; [auto|]. split; [auto|]. exists pre, []. rewrite app_nil_r. auto. }
  cbn [decode_loop].
  assert (El : len s = len pre + 4 + len r) by (subst s; rewrite len_app, !len_cons; lia).
  pose proof (len_nonneg r). replace (len pre <? len s) with true by lia.
  pose proof HF as HF0.
  inversion HF as [|? ? Hx HF1]; subst x0 l. inversion HF1 as [|? ? Hy HF2]; subst x0 l.
  inversion HF2 as [|? ? Hz HF3]; subst x0 l. inversion HF3 as [|? ? Hw HF4]; subst x0 l.
  rewrite Es. rewrite rd_at2, rd_at3, rd_at1, rd_at by lia. cbn [bind]. rewrite <- Es.
  assert (Estop : loop_safe m s b (Ok (len pre, (m1, pos)))).
  { cbn [loop_safe]. split; [auto|]. split; [auto|]. exists pre, (x :: y :: z :: w :: r).
    split; [auto|]. split; [auto|]. split; [auto|]. right. rewrite !len_cons. lia. }
  assert (Hstop : loop_safe m s b (dassert dbg (len pre + 4 =? len s) (Ok (len pre, (m1, pos))))).
  { unfold dassert. destruct (negb dbg || _); [exact Estop|exact I]. }
  destruct (z =? ch "="); cbn [bind]; [exact Hstop|].
  destruct (w =? ch "="); cbn [bind]; [exact Hstop|].
  av. av. av. av. ap. ap. ap.
  replace (len pre + 4) with (len (pre ++ [x; y; z; w])) by (rewrite len_app; reflexivity).
  apply (IH _ r); auto.
  - rewrite <- app_assoc. exact Es.
  - rewrite !len_cons in H4. lia.
  - simpl in Hf. lia.
  - apply Z.mod_pos_bound. lia.
Qed.

Theorem decode_safe dbg s m b : vin b m -> bytes s ->
  dbg = true \/ base64_valid s = Ok true -> safe m b (base64_decode dbg s m b).
Proof.
  intros Hb Hs Hd. unfold base64_decode. destruct (valid_spec s Hs) as (v & Ev & Hv).
  destruct v.
  2:{ destruct Hd as [->|Hd]; [|congruence]. rewrite Ev. exact I. }
  replace (if dbg then base64_valid s else Ok true) with (Ok true) by (destruct dbg; auto).
  destruct (proj1 Hv eq_refl) as [H4 HF]. cbn [bind]. unfold assert at 1. rewrite land3, H4.
  unfold assert at 1. change (0 =? 0) with true. cbn iota.
  pose proof (decode_loop_safe dbg m b s Hb (S (length s)) [] s m 0 eq_refl H4 HF ltac:(lia) (same_outside_refl m b) ltac:(lia)) as HL.
  change (len (@nil Z)) with 0 in HL.
  destruct (decode_loop dbg (S (length s)) b s 0 (m, 0)) as [[i [m1 n]]| |]; [|contradiction|exact I].
  destruct HL as (Hso & Hn & pre & rest & Es & -> & HFr & Hr). cbn [bind].
  destruct (Z.eqb_spec (len pre) (len s)) as [E|E]; [exact Hso|].
  assert (El : len s = len pre + len rest) by (rewrite Es, len_app; reflexivity).
  destruct Hr as [->|Hr]; [change (len (@nil Z)) with 0 in El; lia|].
  destruct rest as [|x [|y [|z [|w r]]]]; [exfalso; revert Hr; cbn; lia..|].
  inversion HFr as [|? ? Hx HF1]; subst x0 l. inversion HF1 as [|? ? Hy HF2]; subst x0 l.
  inversion HF2 as [|? ? Hz HF3]; subst x0 l. inversion HF3 as [|? ? Hw HF4]; subst x0 l.
  rewrite Es. rewrite rd_at2, rd_at3, rd_at1, rd_at by lia. cbn [bind]. rewrite <- Es.
  destruct (z =? ch "=").
  - unfold dassert. destruct (negb dbg || _); [|exact I].
    replace (if dbg then Ok (w =? ch "=") else Ok true) with (Ok (negb dbg || (w =? ch "="))) by (destruct dbg; reflexivity).
    cbn [bind]. unfold assert. destruct (negb dbg || _); [|exact I].
    av. av. ap. exact Hs0.
  - destruct (w =? ch "="); [|exact Hso].
    unfold dassert. destruct (negb dbg || _); [|exact I].
    av. av. av. ap. ap. exact Hs1.
Qed.

(** ** UTF-8 *)
Lemma lor_tail c : 0 <= c < 64 -> u8 (Z.lor 128 c) = 128 + c.
Proof. intros. change 128 with (2 * 2 ^ 6) at 1. rewrite lor_add by lia. unfold u8. lia. Qed.

Lemma wr_seq2 (m : list Z) o x y : 0 <= o -> o + 2 <= len m ->
  (do m <- wr m o x ;; do m <- wr m (o + 1) y ;; Ok (m, 2)) = Ok (blit m o [x; y], 2).
Proof.
  intros. rewrite wr_ok by lia. cbn [bind]. rewrite wr_ok by (rewrite len_blit; change (len [x]) with 1; lia). cbn [bind].
  f_equal. f_equal. change [x; y] with ([x] ++ [y]). change (o + 1) with (o + len [x]). apply blit_app; cbn; lia.
Qed.
Lemma wr_seq3 (m : list Z) o x y z : 0 <= o -> o + 3 <= len m ->
  (do m <- wr m o x ;; do m <- wr m (o + 1) y ;; do m <- wr m (o + 2) z ;; Ok (m, 3)) = Ok (blit m o [x; y; z], 3).
Proof.
  intros. rewrite wr_ok by lia. cbn [bind].
  rewrite wr_ok by (rewrite len_blit; change (len [x]) with 1; lia). cbn [bind].
  replace (blit (blit m o [x]) (o + 1) [y]) with (blit m o [x; y]).
  2:{ change [x; y] with ([x] ++ [y]). change (o + 1) with (o + len [x]). symmetry. apply blit_app; cbn; lia. }
  rewrite wr_ok by (rewrite len_blit; change (len [x; y]) with 2; lia). cbn [bind].
  f_equal. f_equal. change [x; y; z] with ([x; y] ++ [z]). change (o + 2) with (o + len [x; y]). apply blit_app; cbn; lia.
Qed.
Lemma wr_seq4 (m : list Z) o x y z w : 0 <= o -> o + 4 <= len m ->
  (do m <- wr m o x ;; do m <- wr m (o + 1) y ;; do m <- wr m (o + 2) z ;; do m <- wr m (o + 3) w ;; Ok (m, 4))
  = Ok (blit m o [x; y; z; w], 4).
Proof.
  intros. rewrite wr_ok by lia. cbn [bind].
  rewrite wr_ok by (rewrite len_blit; change (len [x]) with 1; lia). cbn [bind].
  replace (blit (blit m o [x]) (o + 1) [y]) with (blit m o [x; y]).
  2:{ change [x; y] with ([x] ++ [y]). change (o + 1) with (o + len [x]). symmetry. apply blit_app; cbn; lia. }
  rewrite wr_ok by (rewrite len_blit; change (len [x; y]) with 2; lia). cbn [bind].
  replace (blit (blit m o [x; y]) (o + 2) [z]) with (blit m o [x; y; z]).
  2:{ change [x; y; z] with ([x; y] ++ [z]). change (o + 2) with (o + len [x; y]). symmetry. apply blit_app; cbn; lia. }
  rewrite wr_ok by (rewrite len_blit; change (len [x; y; z]) with 3; lia). cbn [bind].
  f_equal. f_equal. change [x; y; z; w] with ([x; y; z] ++ [w]). change (o + 3) with (o + len [x; y; z]). apply blit_app; cbn; lia.
Qed.

Lemma utf8_len c : 0 <= c -> 1 <= len (utf8 c) <= 4.
Proof. intros. unfold utf8. destruct (c <? 128), (c <? 2048), (c <? 65536); cbn; lia. Qed.

Theorem code_point_ok dbg m b c : vin b m -> 0 <= c <= 1114111 ->
  (dbg = true -> 4 <= vl b) -> len (utf8 c) <= vl b ->
  decode_code_point dbg m b c = Ok (blit m (vo b) (utf8 c), len (utf8 c)).
Proof.
  intros (H1 & H2 & H3) Hc Hd Hl. unfold decode_code_point, dassert.
  replace (negb dbg || (4 <=? vl b)) with true by (destruct dbg; cbn; [specialize (Hd eq_refl); lia|reflexivity]).
  unfold utf8 in *.
  replace (c <? 128) with (c <=? 127) in * by lia. replace (c <? 2048) with (c <=? 2047) in * by lia.
  replace (c <? 65536) with (c <=? 65535) in * by lia.
  destruct (Z.leb_spec c 127).
  { change (len [_]) with 1 in *. rewrite wr_ok by lia. cbn [bind]. unfold u8. rewrite Z.mod_small by lia. reflexivity. }
  destruct (Z.leb_spec c 2047).
  { change (len [_; _]) with 2 in *. rewrite wr_seq2 by lia. rewrite land63.
    rewrite lor_tail by lia. rewrite Z.shiftr_div_pow2 by lia. change (2 ^ 6) with 64.
    change 192 with (3 * 2 ^ 6) at 1. rewrite lor_add by lia. change (3 * 2 ^ 6) with 192.
    unfold u8. rewrite Z.mod_small by lia. reflexivity. }
  destruct (Z.leb_spec c 65535).
  { change (len [_; _; _]) with 3 in *. rewrite wr_seq3 by lia. rewrite !land63, !Z.shiftr_div_pow2 by lia.
    rewrite !lor_tail by lia. change (2 ^ 6) with 64. change (2 ^ 12) with 4096.
    change 224 with (14 * 2 ^ 4) at 1. rewrite lor_add by lia. change (14 * 2 ^ 4) with 224.
    unfold u8. rewrite Z.mod_small by lia. reflexivity. }
  replace (c <=? 1114111) with true by lia.
  change (len [_; _; _; _]) with 4 in *. rewrite wr_seq4 by lia. rewrite !land63, !Z.shiftr_div_pow2 by lia.
  rewrite !lor_tail by lia. change (2 ^ 6) with 64. change (2 ^ 12) with 4096. change (2 ^ 18) with 262144.
  change 240 with (30 * 2 ^ 3) at 1. rewrite lor_add by lia. change (30 * 2 ^ 3) with 240.
  unfold u8. rewrite Z.mod_small by lia. reflexivity.
Qed.

Theorem code_point_above dbg m b c : 1114111 < c -> 4 <= vl b -> decode_code_point dbg m b c = Ok (m, 0).
Proof.
  intros Hc Hl. unfold decode_code_point, dassert. replace (4 <=? vl b) with true by lia. rewrite orb_true_r.
  replace (c <=? 127) with false by lia. replace (c <=? 2047) with false by lia.
  replace (c <=? 65535) with false by lia. replace (c <=? 1114111) with false by lia. reflexivity.
Qed.

Lemma utf8_back c : 0 <= c <= 1114111 -> utf8_value (utf8 c) = Some c.
Proof.
  intros Hc. unfold utf8. destruct (Z.ltb_spec c 128); [reflexivity|].
  destruct (Z.ltb_spec c 2048); [cbn [utf8_value]; f_equal; lia|].
  destruct (Z.ltb_spec c 65536); cbn [utf8_value]; f_equal; lia.
Qed.

Lemma utf8_wf c : scalar c -> wf_utf8 (utf8 c).
Proof.
  intros [Hc Hs]. unfold utf8. destruct (Z.ltb_spec c 128); [apply wf_1; lia|].
  destruct (Z.ltb_spec c 2048); [apply wf_2; unfold tail_byte; lia|].
  destruct (Z.ltb_spec c 65536).
  - destruct (Z.eq_dec (224 + c / 4096) 224) as [E|E]; [rewrite E; apply wf_3_e0; unfold tail_byte; lia|].
    destruct (Z.eq_dec (224 + c / 4096) 237) as [E'|E']; [rewrite E'; apply wf_3_ed; unfold tail_byte; lia|].
    apply wf_3; unfold tail_byte; lia.
  - destruct (Z.eq_dec (240 + c / 262144) 240) as [E|E]; [rewrite E; apply wf_4_f0; unfold tail_byte; lia|].
    destruct (Z.eq_dec (240 + c / 262144) 244) as [E'|E']; [rewrite E'; apply wf_4_f4; unfold tail_byte; lia|].
    apply wf_4; unfold tail_byte; lia.
Qed.

(** every well-formed sequence is the encoding of a scalar value *)
Lemma wf_utf8_scalar s : wf_utf8 s -> exists c, scalar c /\ s = utf8 c.
Proof.
  unfold scalar.
  destruct 1 as [a Ha|a b Ha Hb|b c Hb Hc|a b c Ha Hb Hc|b c Hb Hc|b c d Hb Hc Hd|a b c d Ha Hb Hc Hd|b c d Hb Hc Hd];
    unfold tail_byte in *.
  - exists a. split; [lia|]. unfold utf8. replace (a <? 128) with true by lia. reflexivity.
  - exists (a mod 32 * 64 + b mod 64). split; [lia|]. unfold utf8.
    replace (_ <? 128) with false by lia. replace (_ <? 2048) with true by lia. repeat (apply f_equal2; [lia|]). reflexivity.
  - exists (b mod 64 * 64 + c mod 64). split; [lia|]. unfold utf8.
    replace (_ <? 128) with false by lia. replace (_ <? 2048) with false by lia. replace (_ <? 65536) with true by lia.
    repeat (apply f_equal2; [lia|]). reflexivity.
  - exists (a mod 16 * 4096 + b mod 64 * 64 + c mod 64). split; [lia|]. unfold utf8.
    replace (_ <? 128) with false by lia. replace (_ <? 2048) with false by lia. replace (_ <? 65536) with true by lia.
    repeat (apply f_equal2; [lia|]). reflexivity.
  - exists (13 * 4096 + b mod 64 * 64 + c mod 64). split; [lia|]. unfold utf8.
    replace (_ <? 128) with false by lia. replace (_ <? 2048) with false by lia. replace (_ <? 65536) with true by lia.
    repeat (apply f_equal2; [lia|]). reflexivity.
  - exists (b mod 64 * 4096 + c mod 64 * 64 + d mod 64). split; [lia|]. unfold utf8.
    replace (_ <? 128) with false by lia. replace (_ <? 2048) with false by lia. replace (_ <? 65536) with false by lia.
    repeat (apply f_equal2; [lia|]). reflexivity.
  - exists (a mod 8 * 262144 + b mod 64 * 4096 + c mod 64 * 64 + d mod 64). split; [lia|]. unfold utf8.
    replace (_ <? 128) with false by lia. replace (_ <? 2048) with false by lia. replace (_ <? 65536) with false by lia.
    repeat (apply f_equal2; [lia|]). reflexivity.
  - exists (4 * 262144 + b mod 64 * 4096 + c mod 64 * 64 + d mod 64). split; [lia|]. unfold utf8.
    replace (_ <? 128) with false by lia. replace (_ <? 2048) with false by lia. replace (_ <? 65536) with false by lia.
    repeat (apply f_equal2; [lia|]). reflexivity.
Qed.

Lemma surrogate_not_wf c : 55296 <= c <= 57343 -> len (utf8 c) = 3 /\ ~ wf_utf8 (utf8 c).
Proof.
  intros Hc. unfold utf8. replace (c <? 128) with false by lia. replace (c <? 2048) with false by lia.
  replace (c <? 65536) with true by lia. split; [reflexivity|]. intros H.
  replace (224 + c / 4096) with 237 in H by lia.
  assert (Hy : 160 <= 128 + c / 64 mod 64) by lia. revert H Hy. generalize (128 + c / 64 mod 64) (128 + c mod 64).
  intros y z H Hy. inversion H; unfold tail_byte in *; lia.
Qed.

(** no encoding is a proper prefix of another one *)
Lemma utf8_prefix_free a b r : 0 <= a <= 1114111 -> 0 <= b <= 1114111 -> utf8 a ++ r = utf8 b -> a = b.
Proof.
  intros Ha Hb E. assert (E' : utf8 a = utf8 b).
  { pose proof (f_equal (hd 0) E) as Eh.
    assert (EL : length (utf8 a) = length (utf8 b)).
    { revert Eh. unfold utf8.
      destruct (Z.ltb_spec a 128); [|destruct (Z.ltb_spec a 2048); [|destruct (Z.ltb_spec a 65536)]];
      (destruct (Z.ltb_spec b 128); [|destruct (Z.ltb_spec b 2048); [|destruct (Z.ltb_spec b 65536)]]);
      cbn [app hd length]; intros Eh; try lia. }
    pose proof (f_equal (@length Z) E) as El. rewrite app_length in El.
    destruct r; [rewrite app_nil_r in E; exact E|simpl in El; lia]. }
  pose proof (utf8_back a Ha) as H1. rewrite E', utf8_back in H1 by auto. congruence.
Qed.
