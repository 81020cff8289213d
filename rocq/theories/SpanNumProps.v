(** Properties C12-C14, C31-C33, C74, C75: numbers embedded in text, and the
    conversions of bool, char, strings and pointers. *)
From Verif Require Import Base BaseLemmas ScanModel CharconvModel CharconvSpec CharconvProofs5 SubstrModel SubstrSpec SubstrProofs SubstrProofs4 SpanNumModel SpanNumSpec SpanNumProofs SpanNumProofs2 SpanNumProofs3 SpanNumProofs4 SpanNumProofs5 SpanNumProofs6.
From Verif Require Import CharconvProofs CharconvProofs2 CharconvProofs3 CharconvProofs4.

(** ** C12: prefix parsers consume exactly the numeral *)
Theorem C12_value : forall t s v0 a w b v,
  small s -> bytes s -> s = a ++ w ++ b -> Forall blank a -> ended b -> int_text t w v ->
  ato_first t s v0 = Ok (Some (len a + len w), wrap t v).
Proof. exact ato_first_value. Qed.
Print Assumptions C12_value.

Theorem C12_none : forall t s v0, small s -> bytes s ->
  (forall a w b, s = a ++ w ++ b -> Forall blank a -> ended b -> ~ int_literal (isgn t) w) ->
  ato_first t s v0 = Ok (None, v0).
Proof. exact ato_first_none. Qed.
Print Assumptions C12_none.

(** a numeral with an explicit '+' is recognised as a number and then not converted:
    signed types fail an assertion, unsigned types report npos *)
Theorem C12_plus_refuted : forall w s v0 a u b v,
  small s -> bytes s -> s = a ++ (ch "+" :: u) ++ b -> Forall blank a -> ended b -> unsigned_text u v ->
  ato_first (Ity w true) s v0 = Err /\ exists x, ato_first (Ity w false) s v0 = Ok (None, x).
Proof. exact ato_first_plus. Qed.
Print Assumptions C12_plus_refuted.

Example C12_ex1 : ato_first i32 (s2z "  -0x1F, 5") 9 = Ok (Some 7, -31). Proof. reflexivity. Qed.
Example C12_ex2 : ato_first u8t (s2z "12a") 9 = Ok (None, 9). Proof. reflexivity. Qed.
Example C12_ex3 : ato_first i32 (s2z " +5") 9 = Err /\ ato_first u32t (s2z " +5") 9 = Ok (None, 0). Proof. split; reflexivity. Qed.

(** ** C13: bool, char and string conversions *)
Theorem C13_bool_write : forall m b v, vin b m -> vl b < 2 ^ 64 ->
  to_chars_bool m b v = Ok (if 0 <? vl b then blit m (vo b) (s2z (if v then "1" else "0")) else m, 1).
Proof. exact to_chars_bool_ok. Qed.
Print Assumptions C13_bool_write.

Theorem C13_bool_read : forall s b v0, bytes s -> len s < 2 ^ 31 -> bool_text s b ->
  from_chars_bool s v0 = Ok (true, b).
Proof. exact from_chars_bool_text. Qed.
Print Assumptions C13_bool_read.

Theorem C13_bool_reject : forall s v0, bytes s -> len s < 2 ^ 31 ->
  (forall b, ~ In (s, b) [(s2z "false", false); (s2z "true", true); (s2z "False", false);
                          (s2z "True", true); (s2z "FALSE", false); (s2z "TRUE", true)]) ->
  (~ exists v, signed_text s v) -> (forall r, s <> ch "+" :: r) ->
  from_chars_bool s v0 = Ok (false, v0).
Proof. exact from_chars_bool_reject. Qed.
Print Assumptions C13_bool_reject.

Theorem C13_bool_roundtrip : forall m b v m' n v0, vin b m -> vl b < 2 ^ 64 ->
  to_chars_bool m b v = Ok (m', n) -> n <= vl b ->
  from_chars_bool (contents m' (View (vo b) n)) v0 = Ok (true, v).
Proof.
  intros m b v m' n v0 Hb Hl E Hn. rewrite to_chars_bool_ok in E by auto.
  destruct (0 <? vl b) eqn:E0; injection E as <- <-; [|lia].
  unfold contents. cbn [vo vl].
  destruct Hb as (H1 & H2 & H3).
  destruct v; [change 1 with (len (s2z "1"))|change 1 with (len (s2z "0"))]; rewrite slice_blit_same by (change (len (s2z _)) with 1; lia); reflexivity.
Qed.
Print Assumptions C13_bool_roundtrip.

(** only a string of exactly one char is a char *)
Theorem C13_char_reject : forall s v0, len s <> 1 -> from_chars_char s v0 = Ok (false, v0).
Proof. intros s v0 H. unfold from_chars_char. replace (len s =? 1) with false by lia. reflexivity. Qed.
Print Assumptions C13_char_reject.

Theorem C13_char_roundtrip : forall m b c v0, vin b m -> 0 < vl b ->
  exists m', to_chars_char m b c = Ok (m', 1) /\ same_outside m m' (View (vo b) 1) /\
    from_chars_char (contents m' (View (vo b) 1)) v0 = Ok (true, c) /\
    from_chars_first_char (contents m' (View (vo b) (vl b))) v0 = Ok (Some 1, c).
Proof.
  intros m b c v0 (H1 & H2 & H3) H4. unfold to_chars_char. replace (0 <? vl b) with true by lia.
  rewrite wr_ok by lia. cbn [bind]. eexists; split; [reflexivity|].
  split; [apply (same_outside_blit m (View (vo b) 1) [c]); cbn; [unfold vin; cbn; lia|lia]|].
  assert (C1 : contents (blit m (vo b) [c]) (View (vo b) 1) = [c]).
  { unfold contents. cbn [vo vl]. change 1 with (len [c]). apply slice_blit_same; [lia|]. change (len [c]) with 1. lia. }
  rewrite C1. split; [reflexivity|].
  assert (LB : len (blit m (vo b) [c]) = len m) by (apply len_blit; [lia|change (len [c]) with 1; lia]).
  destruct (split_at (blit m (vo b) [c]) (vo b)) as (x & y & E & Lx & Ly); [lia|].
  destruct y as [|c' y]; [change (len []) with 0 in Ly; lia|].
  assert (c' = c) as ->.
  { rewrite E in C1. rewrite <- Lx in C1. change 1 with (len [c']) in C1. rewrite (contents_app _ x [c'] y) in C1 by reflexivity. congruence. }
  destruct (split_at (c :: y) (vl b)) as (y1 & y2 & E2 & L1 & L2); [rewrite Ly; lia|].
  destruct y1 as [|c2 y1]; [change (len []) with 0 in L1; lia|]. injection E2 as <- ->.
  rewrite E, <- Lx, <- L1, (contents_app _ x (c :: y1) y2) by reflexivity.
  unfold from_chars_first_char. rewrite len_cons. pose proof (nonneg_len y1). replace (1 + len y1 <? 1) with false by lia. reflexivity.
Qed.
Print Assumptions C13_char_roundtrip.
Theorem C13_char_no_room : forall m b c, vl b = 0 -> to_chars_char m b c = Ok (m, 1).
Proof. intros m b c H. unfold to_chars_char. rewrite H. reflexivity. Qed.
Print Assumptions C13_char_no_room.

(** the copy writes exactly the first min(buf.len, str.len) bytes and returns str.len *)
Theorem C13_string_write : forall m b s n, vin b m -> n = Z.min (vl b) (len s) ->
  exists m', to_chars_str m b s = Ok (m', len s) /\
  same_outside m m' (View (vo b) n) /\ exists r, s = contents m' (View (vo b) n) ++ r.
Proof. exact to_chars_str_ok. Qed.
Print Assumptions C13_string_write.

Theorem C13_string_roundtrip : forall m b s d v m' n, vin b m -> vin v d ->
  to_chars_str m b s = Ok (m', n) -> n <= vl b -> n <= vl v ->
  exists d' v', from_chars_substr (contents m' (View (vo b) n)) d v = Ok (true, d', v') /\ contents d' v' = s.
Proof. exact roundtrip_str. Qed.
Print Assumptions C13_string_roundtrip.

Theorem C13_string_no_room : forall s d v, vl v < len s -> from_chars_substr s d v = Ok (false, d, v).
Proof. exact from_chars_substr_small. Qed.
Print Assumptions C13_string_no_room.
(** a csubstr gets the whole text *)
Theorem C13_csubstr : forall s, exists v, from_chars_csubstr s = Ok (true, v) /\ vin v s /\ contents s v = s.
Proof.
  intros s. eexists. split; [reflexivity|]. split; [unfold vin, full; cbn [vo vl]; pose proof (len_nonneg s); lia|]. unfold contents, full, slice. cbn [vo vl].
  change (Z.to_nat 0) with O. cbn [skipn]. unfold len. rewrite Nat2Z.id. apply firstn_all.
Qed.
Print Assumptions C13_csubstr.

(** a number that is a multiple of 2^32 reads as false *)
Theorem C13_bool_wraps_refuted : exists s v, signed_text s v /\ v <> 0 /\ from_chars_bool s true = Ok (true, false).
Proof.
  exists (s2z "4294967296"), (2 ^ 32). split; [apply (parse_int_spec i32); reflexivity|]. split; [lia|reflexivity].
Qed.
Print Assumptions C13_bool_wraps_refuted.

Example C13_ex1 : to_chars_str (s2z "######") (View 1 3) (s2z "abcde") = Ok (s2z "#abc##", 5). Proof. reflexivity. Qed.
Example C13_ex2 : from_chars_bool (s2z "FALSE") true = Ok (true, false) /\ from_chars_bool (s2z "-3") false = Ok (true, true)
  /\ from_chars_bool (s2z "tRue") false = Ok (false, false). Proof. repeat split; reflexivity. Qed.
Example C13_ex3 : from_chars_substr (s2z "xyz") (s2z "#####") (View 1 4) = Ok (true, s2z "#xyz#", View 1 3). Proof. reflexivity. Qed.

(** ** C14: from_chars_first of a bool *)
(** holds only when nothing surrounds the word *)
Theorem C14_first_bool_partial : forall s b v0, bytes s -> s <> [] -> len s < 2 ^ 31 ->
  Forall (fun c => ~ blank c) s -> bool_text s b -> from_chars_first_bool s v0 = Ok (Some (len s), b).
Proof. exact first_bool_word. Qed.
Print Assumptions C14_first_bool_partial.

(** any blank anywhere makes it fail *)
Theorem C14_blanks_refuted : forall s v0, bytes s -> len s < 2 ^ 31 -> (exists c, In c s /\ blank c) ->
  (forall r, s <> ch "+" :: r) -> from_chars_first_bool s v0 = Ok (None, v0).
Proof. exact first_bool_blank. Qed.
Print Assumptions C14_blanks_refuted.

Theorem C14_first_bool_refuted : exists s a w b v,
  s = a ++ w ++ b /\ Forall blank a /\ ended b /\ bool_text w v /\ forall v0, from_chars_first_bool s v0 = Ok (None, v0).
Proof.
  exists (s2z " true"), (s2z " "), (s2z "true"), [], true. split; [reflexivity|]. split; [repeat constructor|].
  split; [left; auto|]. split; [apply bt_word; cbn; auto|reflexivity].
Qed.
Print Assumptions C14_first_bool_refuted.
Example C14_ex : from_chars_first_bool (s2z "True") false = Ok (Some 4, true)
  /\ from_chars_first_bool (s2z "1 ") false = Ok (None, false). Proof. split; reflexivity. Qed.

(** ** C31: integer spans *)
Theorem C31_uint_span : forall s, small s -> bytes s ->
  exists v, first_uint_span s = Ok v /\ first_literal (int_literal false) s v.
Proof. exact first_uint_span_ok. Qed.
Print Assumptions C31_uint_span.
Theorem C31_int_span : forall s, small s -> bytes s ->
  exists v, first_int_span s = Ok v /\ first_literal (int_literal true) s v.
Proof. exact first_int_span_ok. Qed.
Print Assumptions C31_int_span.
(** ... in particular a literal is returned whole *)
Theorem C31_whole : forall s, small s -> bytes s ->
  (int_literal false s -> first_uint_span s = Ok (full s)) /\ (int_literal true s -> first_int_span s = Ok (full s)).
Proof.
  intros s Hs By. split; intros H.
  - destruct (first_uint_span_ok s Hs By) as (v & E & _ & H1 & _). rewrite E, (H1 [] s []); auto; [rewrite app_nil_r; auto|left; auto].
  - destruct (first_int_span_ok s Hs By) as (v & E & _ & H1 & _). rewrite E, (H1 [] s []); auto; [rewrite app_nil_r; auto|left; auto].
Qed.
Print Assumptions C31_whole.
Example C31_ex1 : first_int_span (s2z "  -0b101]") = Ok (View 2 6). Proof. reflexivity. Qed.
Example C31_ex2 : first_uint_span (s2z "0o78") = Ok (View 0 0). Proof. reflexivity. Qed.
Example C31_ex3 : int_literal true (s2z "-0b101").
Proof.
  exists (s2z "-"), (s2z "0b101"), 5. split; [reflexivity|]. split; [right; right; auto|].
  apply (parse_int_spec u8t). reflexivity.
Qed.

(** ** C32: is_integer agrees with the parser *)
Theorem C32_is_unsigned_integer : forall s, small s -> bytes s ->
  exists b, is_unsigned_integer s = Ok b /\ (b = true <-> int_literal false s).
Proof. exact is_unsigned_integer_ok. Qed.
Print Assumptions C32_is_unsigned_integer.
Theorem C32_is_integer : forall s, small s -> bytes s ->
  exists b, is_integer s = Ok b /\ (b = true <-> int_literal true s).
Proof. exact is_integer_ok. Qed.
Print Assumptions C32_is_integer.
(** agreement with the parsers, for texts that do not start with '+' *)
Theorem C32_agrees_partial : forall (sgn : bool) s, small s -> bytes s -> (forall r, s <> ch "+" :: r) ->
  exists b, (if sgn then is_integer s else is_unsigned_integer s) = Ok b /\
    forall w v0, exists x, from_chars_int (Ity w sgn) s v0 = Ok (b, x).
Proof. exact is_int_agree. Qed.
Print Assumptions C32_agrees_partial.
Theorem C32_agrees_refuted : exists s,
  is_unsigned_integer s = Ok true /\ (forall v0, from_chars_int u32t s v0 = Ok (false, 0)) /\
  is_integer s = Ok true /\ (forall v0, from_chars_int i32 s v0 = Err).
Proof. exists (s2z "+5"). repeat split; reflexivity. Qed.
Print Assumptions C32_agrees_refuted.
Example C32_ex : is_integer (s2z "-12") = Ok true /\ is_unsigned_integer (s2z "-12") = Ok false /\ is_integer (s2z " 12") = Ok false.
Proof. repeat split; reflexivity. Qed.

(** ** C33: real number spans *)
Theorem C33_real_span : forall s, small s -> bytes s ->
  exists v, first_real_span s = Ok v /\ first_literal real_literal s v.
Proof. exact first_real_span_ok. Qed.
Print Assumptions C33_real_span.
Theorem C33_is_real : forall s, small s -> bytes s ->
  exists b, is_real s = Ok b /\ (b = true <-> real_literal s).
Proof. exact is_real_ok. Qed.
Print Assumptions C33_is_real.
Theorem C33_is_number : forall s, small s -> bytes s ->
  exists b, is_number s = Ok b /\ (b = true <-> int_literal true s \/ real_literal s).
Proof. exact is_number_ok. Qed.
Print Assumptions C33_is_number.
Example C33_ex1 : first_real_span (s2z " -.5e+10, 3") = Ok (View 1 7). Proof. reflexivity. Qed.
Example C33_ex2 : first_real_span (s2z "0x1.8p-3}") = Ok (View 0 8). Proof. reflexivity. Qed.
Example C33_ex3 : first_real_span (s2z "1.5e") = Ok (View 0 0). Proof. reflexivity. Qed.
Example C33_ex4 : real_literal (s2z "0x1.8p-3").
Proof.
  exists [], (s2z "0x1.8p-3"). split; [reflexivity|]. split; [left; auto|].
  apply (rb_hex (ch "x") (s2z "1.8") (s2z "p-3")); [cbn; auto| |].
  - apply (man_frac 16 (s2z "1") (s2z "8")); [discriminate| |]; cbn [s2z]; cbn; repeat (apply Forall_cons; [eexists; split; [reflexivity|lia]|]); apply Forall_nil.
  - apply (exp_some _ _ (ch "p") (s2z "-") (s2z "3")); [cbn; auto|auto|discriminate|].
    cbn; repeat (apply Forall_cons; [eexists; split; [reflexivity|lia]|]); apply Forall_nil.
Qed.

(** ** C74: extracting the first word *)
Theorem C74_first_non_empty_span : forall s, small s -> exists v, first_word s v /\ first_non_empty_span s = Ok v.
Proof. exact fnes_word. Qed.
Print Assumptions C74_first_non_empty_span.
Theorem C74_first_csubstr : forall s v0, small s -> exists v, first_word s v /\
  from_chars_first_csubstr s v0 = Ok (if vl v =? 0 then (None, v0) else (Some (vo v + vl v), v)).
Proof. exact first_csubstr_ok. Qed.
Print Assumptions C74_first_csubstr.
(** copying the word into a substr: the bytes and the returned size are right, the
    length of the destination view is not set (see the next theorem) *)
Theorem C74_first_substr_partial : forall s d v, small s -> vin v d -> exists x, first_word s x /\
  (vl x = 0 -> from_chars_first_substr s d v = Ok (None, d, v)) /\
  (0 < vl x <= vl v -> from_chars_first_substr s d v = Ok (Some (vo x + vl x), blit d (vo v) (contents s x), v)) /\
  (vl v < vl x -> exists d', from_chars_first_substr s d v = Ok (None, d', v) /\ same_outside d d' v).
Proof. exact first_substr_ok. Qed.
Print Assumptions C74_first_substr_partial.
Theorem C74_first_substr_refuted : exists s d v x n d' v',
  first_word s x /\ from_chars_first_substr s d v = Ok (Some n, d', v') /\ contents d' v' <> contents s x.
Proof.
  exists (s2z "ab cd"), (s2z "####"), (View 0 4), (View 0 2), 2, (s2z "ab##"), (View 0 4). split; [|split; [reflexivity|discriminate]].
  exists [], (s2z "ab"), (s2z " cd"). split; [reflexivity|]. split; [constructor|].
  split; [repeat constructor; unfold blank; cbn; lia|]. split; [right; eexists _, _; split; [reflexivity|cbn; auto]|].
  split; [discriminate|]. split; [discriminate|reflexivity].
Qed.
Print Assumptions C74_first_substr_refuted.
Example C74_ex : from_chars_first_csubstr (s2z "  ab cd") (View 0 0) = Ok (Some 4, View 2 2). Proof. reflexivity. Qed.

(** ** C75: pointers *)
Theorem C75_roundtrip : forall m b p m' n p0 tmp0, vin b m -> vl b < 2 ^ 64 -> in_range i64 p ->
  to_chars_ptr m b p = Ok (m', n) -> n <= vl b ->
  from_chars_ptr (contents m' (View (vo b) n)) p0 tmp0 = Ok (true, p).
Proof.
  intros m b p m' n p0 tmp0 Hb Hl Hp E Hn. unfold from_chars_ptr.
  rewrite (roundtrip_radix i64 m b p Hex tmp0 m' n) by auto. reflexivity.
Qed.
Print Assumptions C75_roundtrip.
(** from_chars_first reports success 1 whatever the text, and then stores the
    indeterminate value of its local variable *)
Theorem C75_first_partial : forall s a w b v p0 tmp0,
  small s -> bytes s -> s = a ++ w ++ b -> Forall blank a -> ended b -> signed_text w v ->
  from_chars_first_ptr s p0 tmp0 = Ok (1, wrap i64 v).
Proof.
  intros s a w b v p0 tmp0 Hs By E Ha He Hv. unfold from_chars_first_ptr. rewrite (ato_first_value i64 s tmp0 a w b v) by auto.
  cbn [bind]. assert (NZ : (len a + len w =? 0) = false).
  { pose proof (nonneg_len a). pose proof (nonneg_len w). destruct w as [|c w]; [|rewrite len_cons in *; pose proof (nonneg_len w); lia].
    destruct (int_literal_free _ _ (int_text_literal i64 [] v Hv)) as [N _]. congruence. }
  rewrite NZ. reflexivity.
Qed.
Print Assumptions C75_first_partial.
Theorem C75_first_refuted : forall s p0 tmp0, small s -> bytes s ->
  (forall a w b, s = a ++ w ++ b -> Forall blank a -> ended b -> ~ int_literal true w) ->
  from_chars_first_ptr s p0 tmp0 = Ok (1, tmp0).
Proof. intros s p0 tmp0 Hs By H. unfold from_chars_first_ptr. rewrite (ato_first_none i64 s tmp0 Hs By H). reflexivity. Qed.
Print Assumptions C75_first_refuted.
Example C75_ex1 : from_chars_first_ptr (s2z "abc") 7 1234 = Ok (1, 1234). Proof. reflexivity. Qed.
Example C75_ex2 : to_chars_ptr (s2z "########") (View 0 8) 4660 = Ok (s2z "0x1234##", 6). Proof. reflexivity. Qed.
