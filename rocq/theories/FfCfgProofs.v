(** Proofs for C130. *)
From Verif Require Import Base BaseLemmas FloatTable FloatModel FloatSpec FfOptModel FfOptSpec FfIntModel FfIntSpec CharconvSpec FfOptProofs FfOptProofs2 FfIntProofs FfIntProofs2 FfCfgModel FfCfgSpec.
From Coq Require Import Lia.
Open Scope Z_scope.

Lemma c_nums : ch "+" = 43 /\ ch "-" = 45. Proof. split; reflexivity. Qed.
(** ** The functions split at the sign are the ones of the other models *)
Lemma parse_off o s : parse_number_string_c false o s = parse_number_string_o o s.
Proof. destruct s as [|c r]; [reflexivity|]. unfold parse_number_string_c, parse_number_string_o. cbn [andb orb]. rewrite orb_false_r. reflexivity. Qed.
Lemma infnan_off f s : parse_infnan_c false f s = parse_infnan f s.
Proof. destruct s as [|c r]; reflexivity. Qed.
Lemma int_off t s base : parse_int_string_c false t s base = parse_int_string t s base.
Proof. destruct s as [|c r]; [reflexivity|]. unfold parse_int_string_c. cbn [andb]. rewrite orb_false_r. reflexivity. Qed.
Lemma cfg_off rn f o s : from_chars_cfg false false rn f o s = from_chars_opt rn f o s.
Proof. destruct s as [|c r]; [reflexivity|]. unfold from_chars_cfg, from_chars_opt. rewrite parse_off, infnan_off. reflexivity. Qed.
Lemma int_cfg_off t s base : from_chars_int_cfg false false t s base = from_chars_int t s base.
Proof. destruct s as [|c r]; [reflexivity|]. unfold from_chars_int_cfg, from_chars_int. rewrite int_off. reflexivity. Qed.

(** ** White space *)
Lemma is_space_iff c : 0 <= c < 256 -> (is_space c = true <-> space c).
Proof.
  intro H. unfold space.
  assert (A : forallb (fun c => Bool.eqb (is_space c) ((c =? 32) || ((9 <=? c) && (c <=? 13)))) (map Z.of_nat (seq 0 256)) = true) by (vm_compute; reflexivity).
  rewrite forallb_forall in A. specialize (A c).
  assert (I : In c (map Z.of_nat (seq 0 256))). { apply in_map_iff. exists (Z.to_nat c). split; [lia|]. apply in_seq. lia. }
  specialize (A I). apply eqb_prop in A. rewrite A. lia.
Qed.
Lemma is_space_byte c : is_byte c -> (is_space (c mod 2 ^ 8) = true <-> space c).
Proof. intro H. red in H. rewrite Z.mod_small by (change (2 ^ 8) with 256; lia). apply is_space_iff. lia. Qed.
Lemma skip_space_app w s : Forall space w -> bytes s -> no_space_first s ->
  skip_space (w ++ s) = s.
Proof.
  intros W B H. induction W as [|c w C W IH]; cbn [app].
  - destruct s as [|c r]; [reflexivity|]. cbn [skip_space]. destruct (is_space _) eqn:E; [|reflexivity].
    apply is_space_byte in E; [contradiction|]. inversion B; auto.
  - cbn [skip_space]. replace (is_space (c mod 2 ^ 8)) with true; [exact IH|]. symmetry. apply is_space_byte; auto.
    red. unfold space in C. lia.
Qed.
Lemma cfg_ws plus rn f o w s : Forall space w -> bytes s -> no_space_first s ->
  from_chars_cfg plus true rn f o (w ++ s) = from_chars_cfg plus false rn f o s.
Proof. intros W B H. unfold from_chars_cfg. rewrite skip_space_app by auto. reflexivity. Qed.
Lemma int_cfg_ws plus t b w s : Forall space w -> bytes s -> no_space_first s ->
  from_chars_int_cfg plus true t (w ++ s) b = from_chars_int_cfg plus false t s b.
Proof. intros W B H. unfold from_chars_int_cfg. rewrite skip_space_app by auto. reflexivity. Qed.

(** ** The plus sign *)
Definition at_start (s : list Z) (r : res ffres) : res ffres :=
  match r with Ok (FFRes _ EInvalid x) => Ok (FFRes s EInvalid x) | r => r end.
Lemma infnan_at f minus s s' p : infnan_body f minus s p = at_start s (infnan_body f minus s' p).
Proof.
  unfold infnan_body. destruct (3 <=? len p); [|reflexivity].
  destruct (strncasecmp (firstn 3 p) (s2z "nan")); [reflexivity|].
  destruct (strncasecmp (firstn 3 p) (s2z "inf")); reflexivity.
Qed.
Lemma from_pns_valid rn f n : forall s, at_start s (from_pns rn f n) = from_pns rn f n.
Proof.
  intro s. unfold from_pns. repeat match goal with
    | |- context [do _ <- ?e ;; _] => destruct e; cbn [bind]; try reflexivity
    | |- context [match ?e with _ => _ end] => destruct e; cbn [bind]; try reflexivity
    end.
Qed.
Lemma between_same l : FloatModel.between l l = [].
Proof. unfold FloatModel.between. rewrite Nat.sub_diag. reflexivity. Qed.
(** no digit and no point: no number *)
Lemma body_none o neg c r : is_integer c = false -> c <> o_dot o -> number_body o neg (c :: r) = Ok None.
Proof.
  intros I D. unfold number_body. cbn [digit_loop]. rewrite I. rewrite between_same. cbn [len length Z.of_nat].
  change (len (@nil Z) =? 0) with true. cbn [orb]. rewrite andb_true_r. destruct (o_json o) eqn:J; [reflexivity|].
  replace (c =? o_dot o) with false by lia. reflexivity.
Qed.
Lemma plus_not_integer : is_integer (ch "+") = false. Proof. reflexivity. Qed.
Lemma minus_not_integer : is_integer (ch "-") = false. Proof. reflexivity. Qed.
Lemma parse_nosign o c r : c <> ch "-" -> parse_number_string_o o (c :: r) = number_body o false (c :: r).
Proof. intro H. unfold parse_number_string_o. replace (c =? ch "-") with false by lia. reflexivity. Qed.
(** behind a plus *)
Lemma cfg_plus rn f o s : o_json o = false -> point_char (o_dot o) -> (forall r, s <> ch "-" :: r) ->
  from_chars_cfg true false rn f o (ch "+" :: s) = at_start (ch "+" :: s) (from_chars_opt rn f o s).
Proof.
  intros J [P1 P2] M. unfold from_chars_cfg, from_chars_opt. cbn [parse_number_string_c]. rewrite J.
  change (ch "+" =? ch "-") with false. change (ch "+" =? ch "+") with true. cbn [negb andb orb].
  assert (INF : parse_infnan_c true f (ch "+" :: s) = infnan_body f false (ch "+" :: s) s) by reflexivity.
  destruct s as [|c r].
  - cbn [bind]. destruct (o_noinf o); reflexivity.
  - assert (N : c <> ch "-") by (intros ->; exact (M r eq_refl)).
    rewrite (parse_nosign o c r N).
    assert (INF' : parse_infnan f (c :: r) = infnan_body f false (c :: r) (c :: r)).
    { unfold parse_infnan, infnan_body. replace (c =? ch "-") with false by lia. reflexivity. }
    destruct (negb (is_integer c) && negb (c =? o_dot o)) eqn:E.
    + apply andb_true_iff in E as [E1 E2]. apply negb_true_iff in E1, E2. apply Z.eqb_neq in E2. rewrite body_none by auto. cbn [bind]. destruct (o_noinf o); [reflexivity|]. rewrite INF, INF'. apply infnan_at.
    + destruct (number_body o false (c :: r)) as [[n|]| |]; cbn [bind]; try reflexivity.
      * symmetry. apply from_pns_valid.
      * destruct (o_noinf o); [reflexivity|]. rewrite INF, INF'. apply infnan_at.
Qed.
(** a plus for json: only in front of infinity and NaN *)
Lemma cfg_plus_json rn f o s : o_json o = true ->
  from_chars_cfg true false rn f o (ch "+" :: s) =
  if o_noinf o then Ok (FFRes (ch "+" :: s) EInvalid None) else infnan_body f false (ch "+" :: s) s.
Proof.
  intro J. unfold from_chars_cfg. cbn [parse_number_string_c]. rewrite J. change (ch "+" =? ch "-") with false. cbn [negb andb orb].
  unfold number_body. cbn [digit_loop]. rewrite plus_not_integer, between_same. change (len (@nil Z) =? 0) with true. rewrite J. cbn [andb orb bind].
  destruct (o_noinf o); reflexivity.
Qed.
Lemma infnan_sign f m s c r : c = ch "-" \/ c = ch "+" -> infnan_body f m s (c :: r) = Ok (FFRes s EInvalid None).
Proof.
  intro C. unfold infnan_body. destruct (3 <=? len (c :: r)); [|reflexivity].
  assert (X : forall y t l, Z.testbit y 6 = true -> strncasecmp (c :: l) (y :: t) = false).
  { intros y t l Y. unfold strncasecmp. cbn [running_diff].
    assert (T : Z.testbit (Z.lor (Z.lxor c y) (running_diff l t)) 6 = true).
    { rewrite Z.lor_spec, Z.lxor_spec, Y. destruct C as [-> | ->]; reflexivity. }
    destruct (_ =? 0) eqn:E0; [apply Z.eqb_eq in E0; rewrite E0 in T; discriminate|].
    destruct (_ =? 32) eqn:E1; [apply Z.eqb_eq in E1; rewrite E1 in T; discriminate|]. reflexivity. }
  change (s2z "nan") with (ch "n" :: s2z "an"). change (s2z "inf") with (ch "i" :: s2z "nf").
  cbn [firstn]. rewrite !X by reflexivity. reflexivity.
Qed.

(** not behind a plus *)
Lemma parse_noplus o c r : c <> ch "+" -> parse_number_string_c true o (c :: r) = parse_number_string_o o (c :: r).
Proof.
  intro H. unfold parse_number_string_c, parse_number_string_o. replace (c =? ch "+") with false by lia.
  cbn [andb]. rewrite !andb_false_r, orb_false_r. reflexivity.
Qed.
Lemma infnan_noplus f c r : c <> ch "+" -> (c = ch "-" -> exists x q, r = x :: q /\ x <> ch "+") ->
  parse_infnan_c true f (c :: r) = parse_infnan f (c :: r).
Proof.
  intros H M. rewrite <- infnan_off. unfold parse_infnan_c. destruct (c =? ch "-") eqn:E.
  - destruct M as [x [q [-> X]]]; [lia|]. replace (x =? ch "+") with false by lia. reflexivity.
  - replace (c =? ch "+") with false by lia. reflexivity.
Qed.
Lemma infnan_minus_plus f q : parse_infnan_c true f (ch "-" :: ch "+" :: q) = infnan_body f true (ch "-" :: ch "+" :: q) q.
Proof. reflexivity. Qed.
Lemma parse_minus_plus o q : point_char (o_dot o) -> parse_number_string_o o (ch "-" :: ch "+" :: q) = Ok None.
Proof.
  intros [_ P]. unfold parse_number_string_o. change (ch "-" =? ch "-") with true. cbn [andb]. rewrite plus_not_integer.
  replace (ch "+" =? o_dot o) with false; [destruct (o_json o); reflexivity|].
  symmetry. apply Z.eqb_neq. intro E. apply P. rewrite <- E. cbn. auto.
Qed.
Lemma cfg_same rn f o s : ~ starts_with (ch "+") s -> s <> [ch "-"] -> (forall q, s <> ch "-" :: ch "+" :: q) ->
  from_chars_cfg true false rn f o s = from_chars_opt rn f o s.
Proof.
  intros P M MP. destruct s as [|c r]; [reflexivity|].
  assert (C : c <> ch "+") by (intros ->; apply P; now exists r).
  unfold from_chars_cfg, from_chars_opt. rewrite parse_noplus by auto. rewrite infnan_noplus; [reflexivity|auto|].
  intros ->. destruct r as [|x q]; [contradiction|]. exists x, q. split; [reflexivity|]. intros ->. exact (MP q eq_refl).
Qed.
Lemma cfg_minus rn f o : from_chars_cfg true false rn f o [ch "-"] = if o_noinf o then Ok (FFRes [ch "-"] EInvalid None) else Ub.
Proof. unfold from_chars_cfg. rewrite parse_noplus by discriminate. cbn [parse_number_string_o]. change (ch "-" =? ch "-") with true. cbn [andb bind]. reflexivity. Qed.
Lemma cfg_minus_plus rn f o q : point_char (o_dot o) ->
  from_chars_cfg true false rn f o (ch "-" :: ch "+" :: q) =
  if o_noinf o then Ok (FFRes (ch "-" :: ch "+" :: q) EInvalid None) else infnan_body f true (ch "-" :: ch "+" :: q) q.
Proof.
  intro P. unfold from_chars_cfg. rewrite parse_noplus by discriminate. rewrite parse_minus_plus by auto. cbn [bind].
  rewrite infnan_minus_plus. reflexivity.
Qed.
Lemma cfg_plus_minus rn f o r : point_char (o_dot o) ->
  from_chars_cfg true false rn f o (ch "+" :: ch "-" :: r) = Ok (FFRes (ch "+" :: ch "-" :: r) EInvalid None).
Proof.
  intros P. destruct (o_json o) eqn:J.
  - rewrite cfg_plus_json by auto. rewrite infnan_sign by auto. now destruct (o_noinf o).
  - unfold from_chars_cfg. cbn [parse_number_string_c]. rewrite J. change (ch "+" =? ch "-") with false. change (ch "+" =? ch "+") with true. cbn [negb andb orb].
    rewrite minus_not_integer. replace (ch "-" =? o_dot o) with false.
    2:{ symmetry. apply Z.eqb_neq. intro E. apply (proj2 P). rewrite <- E. cbn. auto. }
    cbn [negb andb bind]. change (parse_infnan_c true f (ch "+" :: ch "-" :: r)) with (infnan_body f false (ch "+" :: ch "-" :: r) (ch "-" :: r)).
    rewrite infnan_sign by auto. now destruct (o_noinf o).
Qed.

(** ** Integers *)
Lemma int_at t b neg s s' p : int_body t b neg s p = at_start s (int_body t b neg s' p).
Proof.
  unfold int_body. destruct (if b =? 10 then _ else _) as [q i]. destruct (int_loop b q i) as [q' i'].
  destruct (_ =? 0); [destruct (_ <? _); reflexivity|].
  destruct (_ <? _); [reflexivity|]. destruct (_ && _); [reflexivity|]. destruct (_ <? _); [reflexivity|].
  destruct (if neg then _ else _); reflexivity.
Qed.
Lemma ch_sign : ch_to_digit (ch "-") = 255 /\ ch_to_digit (ch "+") = 255. Proof. split; reflexivity. Qed.
Lemma ends_sign b c r : c = ch "-" \/ c = ch "+" -> ends_digits b (c :: r).
Proof. intros [-> | ->] x H; discriminate H. Qed.
Lemma skip0_sign c r : c = ch "-" \/ c = ch "+" -> skip_char0 (c :: r) = c :: r.
Proof. intros [-> | ->]; reflexivity. Qed.
Lemma int_sign t b neg s c r : 2 <= b <= 36 -> bytes (c :: r) -> c = ch "-" \/ c = ch "+" -> int_body t b neg s (c :: r) = Ok (FFRes s EInvalid None).
Proof.
  intros B Y C. unfold int_body. rewrite (skip0_sign c r C).
  assert (L := both_loops b [] (c :: r) B Y ltac:(constructor) (ends_sign b c r C)). cbn [app] in L.
  destruct (if b =? 10 then _ else _) as [p i]. rewrite L. rewrite Z.sub_diag, Z.ltb_irrefl. reflexivity.
Qed.
Lemma int_plus t b s : bytes s -> ~ starts_with (ch "-") s ->
  from_chars_int_cfg true false t (ch "+" :: s) b = at_start (ch "+" :: s) (from_chars_int t s b).
Proof.
  intros Y M. unfold from_chars_int_cfg. destruct (_ || _) eqn:B.
  - unfold from_chars_int. rewrite B. destruct s; reflexivity.
  - unfold parse_int_string_c. change (ch "+" =? ch "-") with false. rewrite andb_false_r.
    change (false || true && (ch "+" =? ch "+")) with true. cbn iota.
    destruct s as [|c r].
    + unfold int_body. cbn [skip_char0 loop_parse_if_eight_digits]. destruct (b =? 10); reflexivity.
    + assert (N : c =? ch "-" = false) by (apply Z.eqb_neq; intros ->; apply M; now exists r).
      unfold from_chars_int. rewrite B. rewrite <- int_off. unfold parse_int_string_c. rewrite N.
      rewrite andb_false_r. cbn [andb orb]. apply int_at.
Qed.
Lemma int_plus_minus t b s : bytes s -> starts_with (ch "-") s ->
  from_chars_int_cfg true false t (ch "+" :: s) b = Ok (FFRes (ch "+" :: s) EInvalid None).
Proof.
  intros Y [r ->]. unfold from_chars_int_cfg. destruct (_ || _) eqn:B; [reflexivity|].
  unfold parse_int_string_c. change (ch "+" =? ch "-") with false. rewrite andb_false_r.
  change (false || true && (ch "+" =? ch "+")) with true. cbn iota. apply int_sign; auto. lia.
Qed.
Lemma int_same t b s : ~ starts_with (ch "+") s -> from_chars_int_cfg true false t s b = from_chars_int t s b.
Proof.
  intro P. destruct s as [|c r]; [reflexivity|]. rewrite <- int_cfg_off. unfold from_chars_int_cfg, parse_int_string_c.
  replace (c =? ch "+") with false; [reflexivity|]. symmetry. apply Z.eqb_neq. intros ->. apply P. now exists r.
Qed.
(** ** Byte order *)
Lemma land_byte v k : 0 <= k -> Z.land v (255 * 2 ^ k) = (v / 2 ^ k mod 256) * 2 ^ k.
Proof.
  intro K. rewrite <- !Z.shiftl_mul_pow2 by lia. rewrite <- Z.shiftr_div_pow2 by lia. change 256 with (2 ^ 8). rewrite <- Z.land_ones by lia.
  change (Z.ones 8) with 255. apply Z.bits_inj'. intros i I. rewrite Z.land_spec. rewrite !Z.shiftl_spec by lia.
  destruct (Z.ltb_spec i k).
  - rewrite !(Z.testbit_neg_r _ (i - k)) by lia. apply andb_false_r.
  - rewrite Z.land_spec, Z.shiftr_spec by lia. replace (i - k + k) with i by lia. reflexivity.
Qed.
Lemma lor_bytes b x k : 0 <= k -> 0 <= b < 256 -> Z.lor (b * 2 ^ k) (x * 2 ^ (k + 8)) = (b + 256 * x) * 2 ^ k.
Proof.
  intros K B. rewrite Z.pow_add_r by lia. replace (x * (2 ^ k * 2 ^ 8)) with (x * 2 ^ 8 * 2 ^ k) by ring.
  rewrite <- !Z.shiftl_mul_pow2 with (n := k) by lia. rewrite <- Z.shiftl_lor. f_equal.
  rewrite FloatProofs2.lor_high by (change (2 ^ 8) with 256; lia). change (2 ^ 8) with 256. ring.
Qed.
Lemma lor_bytes' b x k k' : k' = k + 8 -> 0 <= k -> 0 <= b < 256 -> Z.lor (b * 2 ^ k) (x * 2 ^ k') = (b + 256 * x) * 2 ^ k.
Proof. intros ->. apply lor_bytes. Qed.
Lemma u64_byte b k : 0 <= k <= 56 -> 0 <= b < 256 -> u64 (b * 2 ^ k) = b * 2 ^ k.
Proof.
  intros K B. unfold u64. apply Z.mod_small. assert (2 ^ k <= 2 ^ 56) by (apply Z.pow_le_mono_r; lia).
  split; [nia|]. change (2 ^ 64) with (256 * 2 ^ 56). assert (0 < 2 ^ k) by (apply Z.pow_pos_nonneg; lia). nia.
Qed.
Lemma shr_byte b k m : 0 <= m <= k -> Z.shiftr (b * 2 ^ k) m = b * 2 ^ (k - m).
Proof.
  intros H. rewrite Z.shiftr_div_pow2 by lia. replace (2 ^ k) with (2 ^ (k - m) * 2 ^ m) by (rewrite <- Z.pow_add_r by lia; f_equal; lia).
  rewrite Z.mul_assoc. apply Z.div_mul. assert (0 < 2 ^ m) by (apply Z.pow_pos_nonneg; lia). lia.
Qed.
Lemma shl_byte b k m : 0 <= k -> 0 <= m -> Z.shiftl (b * 2 ^ k) m = b * 2 ^ (k + m).
Proof. intros. rewrite Z.shiftl_mul_pow2, Z.pow_add_r by lia. ring. Qed.
Lemma swap_bytes v : let b k := v / 2 ^ k mod 256 in
  byteswap v = b 56 + 256 * (b 48 + 256 * (b 40 + 256 * (b 32 + 256 * (b 24 + 256 * (b 16 + 256 * (b 8 + 256 * b 0)))))).
Proof.
  intro b. assert (R : forall k, 0 <= b k < 256) by (intro k; apply Z.mod_pos_bound; lia).
  unfold byteswap.
  change 0xFF00000000000000 with (255 * 2 ^ 56). change 0x00FF000000000000 with (255 * 2 ^ 48).
  change 0x0000FF0000000000 with (255 * 2 ^ 40). change 0x000000FF00000000 with (255 * 2 ^ 32).
  change 0x00000000FF000000 with (255 * 2 ^ 24). change 0x0000000000FF0000 with (255 * 2 ^ 16).
  change 0x000000000000FF00 with (255 * 2 ^ 8). change 0x00000000000000FF with (255 * 2 ^ 0).
  rewrite !land_byte by lia.
  fold (b 56) (b 48) (b 40) (b 32) (b 24) (b 16) (b 8) (b 0).
  rewrite !shr_byte, !shl_byte by lia. rewrite !u64_byte by (try apply R; lia).
  change (56 - 56) with 0.
  change (48 - 40) with 8.
  change (40 - 24) with 16.
  change (32 - 8) with 24.
  change (24 + 8) with 32.
  change (16 + 24) with 40.
  change (8 + 40) with 48.
  change (0 + 56) with 56.
  rewrite (lor_bytes' (b 8) _ 48 56) by (try apply R; lia).
  rewrite (lor_bytes' (b 16) _ 40 48) by (try apply R; lia).
  rewrite (lor_bytes' (b 24) _ 32 40) by (try apply R; lia).
  rewrite (lor_bytes' (b 32) _ 24 32) by (try apply R; lia).
  rewrite (lor_bytes' (b 40) _ 16 24) by (try apply R; lia).
  rewrite (lor_bytes' (b 48) _ 8 16) by (try apply R; lia).
  rewrite (lor_bytes' (b 56) _ 0 8) by (try apply R; lia).
  rewrite Z.pow_0_r, Z.mul_1_r. reflexivity.
Qed.
Lemma byte_div a x : 0 <= a < 256 -> (a + 256 * x) / 256 = x /\ (a + 256 * x) mod 256 = a.
Proof. intro A. split; Z.div_mod_to_equations; lia. Qed.
Lemma swap_le c0 c1 c2 c3 c4 c5 c6 c7 : bytes [c0; c1; c2; c3; c4; c5; c6; c7] ->
  byteswap (little_endian [c7; c6; c5; c4; c3; c2; c1; c0]) = little_endian [c0; c1; c2; c3; c4; c5; c6; c7].
Proof.
  intro B. rewrite swap_bytes. cbv zeta. set (v := little_endian [c7; c6; c5; c4; c3; c2; c1; c0]).
  repeat match goal with H : bytes (_ :: _) |- _ => inversion H; clear H; subst end.
  repeat match goal with H : Forall is_byte (_ :: _) |- _ => inversion H; clear H; subst end.
  unfold is_byte in *.
  assert (D : forall k, 0 <= k -> v / 2 ^ (k + 8) = v / 2 ^ k / 256).
  { intros k K. rewrite Z.pow_add_r by lia. rewrite Z.div_div by (try apply Z.pow_pos_nonneg; lia). reflexivity. }
  assert (V0 : v / 2 ^ 0 = little_endian [c7; c6; c5; c4; c3; c2; c1; c0]) by (rewrite Z.pow_0_r, Z.div_1_r; reflexivity).
  assert (N : forall a l, 0 <= a < 256 -> little_endian (a :: l) / 256 = little_endian l /\ little_endian (a :: l) mod 256 = a).
  { intros a l A. cbn [little_endian]. apply byte_div. exact A. }
  assert (V1 : v / 2 ^ 8 = little_endian [c6; c5; c4; c3; c2; c1; c0]) by (change 8 with (0 + 8); rewrite D, V0 by lia; apply N; lia).
  assert (V2 : v / 2 ^ 16 = little_endian [c5; c4; c3; c2; c1; c0]) by (change 16 with (8 + 8); rewrite D, V1 by lia; apply N; lia).
  assert (V3 : v / 2 ^ 24 = little_endian [c4; c3; c2; c1; c0]) by (change 24 with (16 + 8); rewrite D, V2 by lia; apply N; lia).
  assert (V4 : v / 2 ^ 32 = little_endian [c3; c2; c1; c0]) by (change 32 with (24 + 8); rewrite D, V3 by lia; apply N; lia).
  assert (V5 : v / 2 ^ 40 = little_endian [c2; c1; c0]) by (change 40 with (32 + 8); rewrite D, V4 by lia; apply N; lia).
  assert (V6 : v / 2 ^ 48 = little_endian [c1; c0]) by (change 48 with (40 + 8); rewrite D, V5 by lia; apply N; lia).
  assert (V7 : v / 2 ^ 56 = little_endian [c0]) by (change 56 with (48 + 8); rewrite D, V6 by lia; apply N; lia).
  rewrite V0, V1, V2, V3, V4, V5, V6, V7. rewrite !(fun a l H => proj2 (N a l H)) by lia.
  cbn [little_endian]. lia.
Qed.
Lemma load_little l : load64 false l = little_endian l.
Proof.
  unfold load64.
  rewrite <- fold_left_rev_right. rewrite rev_involutive. induction l as [|c l IH]; [reflexivity|]. cbn [fold_right little_endian]. rewrite IH. lia.
Qed.
Lemma load_big l : load64 true l = little_endian (rev l).
Proof. rewrite <- load_little. unfold load64. rewrite rev_involutive. reflexivity. Qed.
Lemma read_loop_le l : bytes l -> forall i v, 0 <= i -> i + len l <= 8 -> 0 <= v < 2 ^ (8 * i) -> read_loop l i v = v + 2 ^ (8 * i) * little_endian l.
Proof.
  intro B. induction B as [|c l C B IH]; intros i v I L V; cbn [read_loop little_endian].
  - lia.
  - rewrite len_cons in L. pose proof (len_nonneg l). red in C. rewrite (Z.mod_small c) by (change (2 ^ 8) with 256; lia).
    rewrite Z.shiftl_mul_pow2 by lia. rewrite u64_byte by lia. replace (i * 8) with (8 * i) by lia.
    rewrite FloatProofs2.lor_high by lia.
    assert (P : 2 ^ (8 * (i + 1)) = 256 * 2 ^ (8 * i)). { replace (8 * (i + 1)) with (8 + 8 * i) by lia. rewrite Z.pow_add_r by lia. reflexivity. }
    rewrite IH; [|lia|lia|]; rewrite P; [ring|]. nia.
Qed.
Lemma read_any loop big l : bytes l -> len l = 8 -> read8_to_u64 loop big l = little_endian l.
Proof.
  intros B L. unfold read8_to_u64. destruct loop.
  - rewrite read_loop_le by (try assumption; cbn; lia). rewrite Z.mul_0_r, Z.pow_0_r. lia.
  - destruct big; [|apply load_little]. rewrite load_big.
    destruct l as [|c0 [|c1 [|c2 [|c3 [|c4 [|c5 [|c6 [|c7 [|x l]]]]]]]]]; try (unfold len in L; cbn [length] in L; lia).
    cbn [rev app]. apply swap_le. exact B.
Qed.
Lemma read_same loop big c0 c1 c2 c3 c4 c5 c6 c7 : bytes [c0; c1; c2; c3; c4; c5; c6; c7] ->
  read8_to_u64 loop big [c0; c1; c2; c3; c4; c5; c6; c7] = read8 c0 c1 c2 c3 c4 c5 c6 c7.
Proof. intro B. rewrite read_any by (try assumption; reflexivity). unfold read8. cbn [little_endian]. change (2 ^ 8) with 256. lia. Qed.
