(** Property theorems for integer/text conversion (C01-C11). *)
From Verif Require Import Base BaseLemmas CharconvModel CharconvSpec CharconvProofs CharconvProofs2 CharconvProofs3 CharconvProofs4 CharconvProofs5.

(** ** C01: digits_dec/hex/oct/bin count the digits of the canonical numeral *)
Theorem C01_digit_count : forall w r v,
  0 <= v < 2 ^ bits w -> digit_count (base r) v (digits w r v).
Proof. exact digits_correct. Qed.
Print Assumptions C01_digit_count.

Theorem C01_digits_is_numeral_length : forall w r v n,
  0 <= v < 2 ^ bits w -> is_numeral (base r) v n -> digits w r v = len n.
Proof. exact digits_count_eq. Qed.
Print Assumptions C01_digits_is_numeral_length.

Example C01_ex1 : digits W64 Dec 18446744073709551615 = 20. Proof. reflexivity. Qed.
Example C01_ex2 : digits W32 Oct 511 = 3. Proof. reflexivity. Qed.
Example C01_ex3 : is_numeral 16 48879 (s2z "beef").
Proof. exists [11; 14; 14; 15]. split; [split; try discriminate; repeat constructor; lia|reflexivity]. Qed.

(** ** C02: the canonical text, exactly, and nothing else is touched *)
Theorem C02_text_exists_unique : forall b v pf, 2 <= b -> exists! s, is_int_text pf b v s.
Proof. exact text_unique. Qed.
Print Assumptions C02_text_exists_unique.

Theorem C02_write_num : forall w r m b v s,
  vin b m -> 0 <= v < 2 ^ bits w -> is_numeral (base r) v s -> len s <= vl b ->
  write_num w r m b v = Ok (blit m (vo b) s, len s).
Proof. exact write_num_fits. Qed.
Print Assumptions C02_write_num.

Theorem C02_to_chars : forall t m b v s,
  vin b m -> vl b < 2 ^ 64 -> in_range t v -> is_int_text false 10 v s -> len s <= vl b ->
  to_chars_int t m b v = Ok (blit m (vo b) s, len s).
Proof. exact to_chars_int_fits. Qed.
Print Assumptions C02_to_chars.

Theorem C02_to_chars_radix : forall t m b v r s,
  vin b m -> vl b < 2 ^ 64 -> in_range t v -> is_int_text true (base r) v s -> len s <= vl b ->
  to_chars_radix t m b v r = Ok (blit m (vo b) s, len s).
Proof. exact to_chars_radix_fits. Qed.
Print Assumptions C02_to_chars_radix.

Example C02_ex1 :
  to_chars_radix i8 (repeat 35 12) (View 1 9) (-128) Oct = Ok (s2z "#-0o200#####", 6).
Proof. reflexivity. Qed.
Example C02_ex2 : to_chars_int i64 (repeat 35 22) (View 0 22) (-9223372036854775808)
  = Ok (s2z "-9223372036854775808##", 20).
Proof. reflexivity. Qed.

(** ** C03: a too small buffer reports the exact requirement, no write outside *)
Theorem C03_write_num_small : forall w r m b v s,
  vin b m -> 0 <= v < 2 ^ bits w -> is_numeral (base r) v s -> vl b < len s ->
  write_num w r m b v = Ok (m, len s).
Proof. exact write_num_small. Qed.
Print Assumptions C03_write_num_small.

Theorem C03_to_chars_small : forall t m b v s,
  vin b m -> vl b < 2 ^ 64 -> in_range t v -> is_int_text false 10 v s -> vl b < len s ->
  to_chars_int t m b v = Ok (m, len s).
Proof. exact to_chars_int_small. Qed.
Print Assumptions C03_to_chars_small.

Theorem C03_to_chars_radix_small : forall t m b v r s,
  vin b m -> vl b < 2 ^ 64 -> in_range t v -> is_int_text true (base r) v s -> vl b < len s ->
  exists m', to_chars_radix t m b v r = Ok (m', len s) /\ same_outside m m' b.
Proof. exact to_chars_radix_small. Qed.
Print Assumptions C03_to_chars_radix_small.

Example C03_ex : to_chars_radix u16t (repeat 35 4) (View 1 2) 65535 Bin = Ok (s2z "####", 18).
Proof. reflexivity. Qed.

(** ** C04: "no writes occur" when the buffer is too small.
    Holds for every unsigned writer and for plain decimal itoa. *)
Theorem C04_no_writes_unsigned_partial : forall w m b v r s,
  vin b m -> vl b < 2 ^ 64 -> in_range (Ity w false) v -> is_int_text true (base r) v s -> vl b < len s ->
  to_chars_radix (Ity w false) m b v r = Ok (m, len s).
Proof. exact to_chars_radix_unsigned_small. Qed.
Print Assumptions C04_no_writes_unsigned_partial.

(** What the signed writer with a radix does instead: at most the sign. *)
Theorem C04_signed_radix_writes_at_most_the_sign : forall w m b v r s,
  vin b m -> vl b < 2 ^ 64 -> in_range (Ity w true) v -> is_int_text true (base r) v s -> vl b < len s ->
  to_chars_radix (Ity w true) m b v r =
    Ok (if (v <? 0) && (0 <? vl b) then blit m (vo b) (s2z "-") else m, len s).
Proof. exact to_chars_radix_signed_small. Qed.
Print Assumptions C04_signed_radix_writes_at_most_the_sign.

(** The full statement is false for signed writers with a radix. *)
Theorem C04_no_writes_refuted : exists t m b v r s m',
  vin b m /\ in_range t v /\ is_int_text true (base r) v s /\ vl b < len s /\
  to_chars_radix t m b v r = Ok (m', len s) /\ m' <> m.
Proof.
  exists i32, (s2z "##"), (View 0 2), (-10), Dec, (s2z "-10"), (s2z "-#").
  split; [vm_compute; intuition discriminate|]. split; [vm_compute; intuition discriminate|].
  split; [apply is_int_text_eq; reflexivity|]. split; [reflexivity|]. split; [reflexivity|discriminate].
Qed.
Print Assumptions C04_no_writes_refuted.

Example C04_ex : to_chars_radix u32t (s2z "##") (View 0 2) 10 Hex = Ok (s2z "##", 3).
Proof. reflexivity. Qed.

(** ** C05: zero padded writing *)
Theorem C05_write_num_digits : forall w r m b v nd n s,
  vin b m -> 0 <= v < 2 ^ bits w -> 0 <= nd < 2 ^ 64 ->
  is_numeral (base r) v n -> s = repeat 48 (Z.to_nat (nd - len n)) ++ n -> len s <= vl b ->
  write_num_digits w r m b v nd = Ok (blit m (vo b) s, len s).
Proof. exact write_num_digits_fits. Qed.
Print Assumptions C05_write_num_digits.

Theorem C05_write_num_digits_small : forall w r m b v nd n s,
  vin b m -> 0 <= v < 2 ^ bits w -> 0 <= nd < 2 ^ 64 ->
  is_numeral (base r) v n -> s = repeat 48 (Z.to_nat (nd - len n)) ++ n -> vl b < len s ->
  exists m', write_num_digits w r m b v nd = Ok (m', len s) /\ same_outside m m' b.
Proof. exact write_num_digits_small. Qed.
Print Assumptions C05_write_num_digits_small.

(** itoa/utoa: missing is num_digits above 2^32-4 (see C06) *)
Theorem C05_to_chars_nd_partial : forall t m b v r nd s,
  vin b m -> vl b < 2 ^ 64 -> in_range t v -> 0 <= nd <= 2 ^ 32 - 4 ->
  is_padded_text (base r) v nd s -> len s <= vl b ->
  to_chars_nd t m b v r nd = Ok (blit m (vo b) s, len s).
Proof. exact to_chars_nd_fits. Qed.
Print Assumptions C05_to_chars_nd_partial.

Theorem C05_to_chars_nd_small_partial : forall t m b v r nd s,
  vin b m -> vl b < 2 ^ 64 -> in_range t v -> 0 <= nd <= 2 ^ 32 - 4 ->
  is_padded_text (base r) v nd s -> vl b < len s ->
  exists m', to_chars_nd t m b v r nd = Ok (m', len s) /\ same_outside m m' b.
Proof. exact to_chars_nd_small. Qed.
Print Assumptions C05_to_chars_nd_small_partial.

Example C05_ex1 :
  to_chars_nd i32 (repeat 35 12) (View 1 10) (-255) Hex 5 = Ok (s2z "#-0x000ff###", 8).
Proof. reflexivity. Qed.
Example C05_ex2 : is_padded_text 16 (-255) 5 (s2z "-0x000ff").
Proof. apply (is_padded_text_eq Hex). reflexivity. Qed.

(** ** C06: the reported size for any num_digits *)
Theorem C06_reported_size_partial : forall t m b v r nd s n,
  vin b m -> vl b < 2 ^ 64 -> in_range t v -> 0 <= nd <= 2 ^ 32 - 4 ->
  is_padded_text (base r) v nd s -> is_numeral (base r) (Z.abs v) n ->
  exists m', to_chars_nd t m b v r nd =
    Ok (m', len (sign_of v) + len (prefix_of (base r)) + Z.max nd (len n)).
Proof.
  exact (fun t m b v r nd s n Hin H64 Hv Hnd Hs Hn =>
    eq_ind (len s) (fun k => exists m', to_chars_nd t m b v r nd = Ok (m', k))
      (match Z_le_gt_dec (len s) (vl b) with
       | left H => ex_intro _ _ (to_chars_nd_fits t m b v r nd s Hin H64 Hv Hnd Hs H)
       | right H => match to_chars_nd_small t m b v r nd s Hin H64 Hv Hnd Hs (Z.gt_lt _ _ H) with
                    | ex_intro _ m' (conj E _) => ex_intro _ m' E end
       end) _ (padded_text_len r v nd s n Hs Hn)).
Qed.
Print Assumptions C06_reported_size_partial.

(** With num_digits = 2^32 the size is wrong; with 2^32-1 the code writes out of
    bounds of a one-byte buffer. *)
Theorem C06_reported_size_refuted : exists t v nd s,
  0 <= nd < 2 ^ 64 /\ in_range t v /\ is_padded_text 10 v nd s /\
  to_chars_nd t [] (View 0 0) v Dec nd = Ok ([], 0) /\ 0 < len s.
Proof.
  exists u32t, 1, (2 ^ 32), (pad_txt Dec 1 (2 ^ 32)).
  split; [lia|]. split; [vm_compute; intuition discriminate|].
  split; [apply (is_padded_text_eq Dec); reflexivity|]. split; [exact nd_wraps_size|].
  unfold pad_txt. rewrite !len_app, len_padded. pose proof (len_nonneg (sign_of 1)). pose proof (len_nonneg (pfx Dec)). lia.
Qed.
Print Assumptions C06_reported_size_refuted.

Theorem C06_out_of_bounds_refuted : exists t m b v r nd,
  vin b m /\ in_range t v /\ 0 <= nd < 2 ^ 64 /\ to_chars_nd t m b v r nd = Ub.
Proof.
  exists u32t, [0], (View 0 1), 1, Hex, (2 ^ 32 - 1).
  split; [vm_compute; intuition discriminate|]. split; [vm_compute; intuition discriminate|].
  split; [lia|exact nd_wraps_oob].
Qed.
Print Assumptions C06_out_of_bounds_refuted.

(** ** C07: round trips *)
Theorem C07_roundtrip : forall t m b v v0 m' n,
  vin b m -> vl b < 2 ^ 64 -> in_range t v ->
  to_chars_int t m b v = Ok (m', n) -> n <= vl b ->
  from_chars_int t (contents m' (View (vo b) n)) v0 = Ok (true, v).
Proof. exact roundtrip_int. Qed.
Print Assumptions C07_roundtrip.

Theorem C07_roundtrip_radix : forall t m b v r v0 m' n,
  vin b m -> vl b < 2 ^ 64 -> in_range t v ->
  to_chars_radix t m b v r = Ok (m', n) -> n <= vl b ->
  from_chars_int t (contents m' (View (vo b) n)) v0 = Ok (true, v).
Proof. exact roundtrip_radix. Qed.
Print Assumptions C07_roundtrip_radix.

Theorem C07_roundtrip_padded : forall t m b v r nd v0 m' n,
  vin b m -> vl b < 2 ^ 64 -> in_range t v -> 0 <= nd <= 2 ^ 32 - 4 ->
  to_chars_nd t m b v r nd = Ok (m', n) -> n <= vl b ->
  from_chars_int t (contents m' (View (vo b) n)) v0 = Ok (true, v).
Proof. exact roundtrip_nd. Qed.
Print Assumptions C07_roundtrip_padded.

Example C07_ex : from_chars_int i8 (s2z "-0b10000000") 0 = Ok (true, -128).
Proof. reflexivity. Qed.

(** ** C08: reading *)
Theorem C08_read_value : forall r t s v,
  bytes s -> digit_text (base r) s v -> read_num r t s = Ok (true, wrap t v).
Proof. exact read_num_value. Qed.
Print Assumptions C08_read_value.

Theorem C08_read_reject : forall r t s,
  bytes s -> s <> [] -> ~ (exists v, digit_text (base r) s v) -> exists x, read_num r t s = Ok (false, x).
Proof. exact read_num_reject. Qed.
Print Assumptions C08_read_reject.

Theorem C08_from_chars_value : forall t s v v0,
  int_text t s v -> from_chars_int t s v0 = Ok (true, wrap t v).
Proof. exact from_chars_int_text. Qed.
Print Assumptions C08_from_chars_value.

(** for signed types a leading '+' trips an assertion instead (next theorem) *)
Theorem C08_from_chars_reject : forall t s v0,
  bytes s -> (isgn t = true -> forall r, s <> ch "+" :: r) ->
  ~ (exists v, int_text t s v) -> exists x, from_chars_int t s v0 = Ok (false, x).
Proof. exact from_chars_reject. Qed.
Print Assumptions C08_from_chars_reject.

Theorem C08_plus_is_an_assertion : forall w s v0, from_chars_int (Ity w true) (ch "+" :: s) v0 = Err.
Proof. exact from_chars_plus. Qed.
Print Assumptions C08_plus_is_an_assertion.

Theorem C08_value_unique : forall t s x y, int_text t s x -> int_text t s y -> x = y.
Proof. exact int_text_fun. Qed.
Print Assumptions C08_value_unique.

Example C08_ex1 : from_chars_int u8t (s2z "0X1fF") 7 = Ok (true, 255). Proof. reflexivity. Qed.
Example C08_ex2 : int_text u8t (s2z "0X1fF") 511.
Proof. apply parse_int_spec. reflexivity. Qed.
Example C08_ex3 : from_chars_int i32 (s2z "0x") 7 = Ok (false, 7). Proof. reflexivity. Qed.
Example C08_ex4 : bytes (s2z "12a") /\ ~ exists v, int_text i32 (s2z "12a") v.
Proof.
  split; [repeat constructor; vm_compute; intuition discriminate|].
  intros (v & H). apply parse_int_spec in H. discriminate.
Qed.

(** an empty text is an assertion failure *)
Theorem C08_digits_empty : forall r t, read_num r t [] = Err.
Proof. reflexivity. Qed.
Print Assumptions C08_digits_empty.

(** ** C09: overflow detection *)
Theorem C09_overflows_exact : forall t s v,
  int_text t s v -> overflows t s = Ok (negb (in_rangeb t v)).
Proof. exact overflows_ok. Qed.
Print Assumptions C09_overflows_exact.

(** on text that is not a number the documentation promises false; the code can
    answer true *)
Theorem C09_unparsable_refuted : exists t s,
  (~ exists v, int_text t s v) /\ overflows t s = Ok true.
Proof. exact (ex_intro _ u8t (ex_intro _ (s2z "abcd") overflows_unparsable2)). Qed.
Print Assumptions C09_unparsable_refuted.

(** every text with a minus overflows an unsigned type, also -0 *)
Theorem C09_negative : forall w s, overflows (Ity w false) (ch "-" :: s) = Ok true.
Proof.
  intros w s. unfold overflows. cbn [isgn iw]. unfold overflows_u. rewrite len_cons. replace (1 + len s =? 0) with false by (pose proof (len_nonneg s); lia).
  unfold rd. replace ((0 <=? 0) && (0 <? len (ch "-" :: s))) with true by (rewrite len_cons; pose proof (len_nonneg s); lia). reflexivity.
Qed.
Print Assumptions C09_negative.
Example C09_ex1 : int_text i8 (s2z "-0o0000201") (-129) /\ overflows i8 (s2z "-0o0000201") = Ok true.
Proof. split; [apply parse_int_spec; reflexivity|reflexivity]. Qed.
Example C09_ex2 : overflows i8 (s2z "-0o0000200") = Ok false. Proof. reflexivity. Qed.

(** ** C10: overflow-checked parsing *)
Theorem C10_overflow_checked : forall t s v0,
  bytes s -> (isgn t = true -> s <> [45] /\ forall r, s <> 43 :: r) ->
  exists ok x, from_chars_checked t s v0 = Ok (ok, x) /\
    (ok = true <-> exists v, int_text t s v /\ in_range t v) /\
    (ok = true -> int_text t s x).
Proof. exact from_chars_checked_ok. Qed.
Print Assumptions C10_overflow_checked.
Example C10_ex : from_chars_checked u8t (s2z "256") 3 = Ok (false, 3)
              /\ from_chars_checked u8t (s2z "0xff") 3 = Ok (true, 255).
Proof. split; reflexivity. Qed.

(** ** C11: overflows reads inside the string *)
Theorem C11_overflows_in_bounds_partial : forall t s,
  (isgn t = true -> s <> s2z "-") -> exists b, overflows t s = Ok b.
Proof. exact overflows_total. Qed.
Print Assumptions C11_overflows_in_bounds_partial.

Theorem C11_overflows_in_bounds_refuted : exists t s, bytes s /\ overflows t s = Ub.
Proof.
  exists i32, (s2z "-"). split; [repeat constructor; vm_compute; intuition discriminate|apply overflows_minus].
Qed.
Print Assumptions C11_overflows_in_bounds_refuted.
