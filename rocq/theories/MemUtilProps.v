(** The claims about the memory utilities: C52-C56, C77. *)
From Verif Require Import Base Base64Model MemUtilModel MemUtilSpec MemUtilProofs MemUtilProofs2.

(** ** C52: lsb/msb give the extreme set bits *)
Theorem C52_lsb w v : 0 < v < 2 ^ bits w ->
  exists n, lowest_bit v n /\ n < bits w /\ lsb w v = Ok n /\ lsb_fallback v = Ok n /\ lsb11 v = Ok n.
Proof. exact (lsb_all w v). Qed.
Print Assumptions C52_lsb.
Theorem C52_msb w v : 0 < v < 2 ^ bits w ->
  exists n, highest_bit v n /\ n < bits w /\ msb w v = Ok n /\ msb_fallback w v = Ok n /\ msb11 w v = Ok n.
Proof. exact (msb_all w v). Qed.
Print Assumptions C52_msb.
(** the index is determined *)
Theorem C52_unique v n n' : lowest_bit v n -> lowest_bit v n' -> n = n'.
Proof. exact (lowest_unique v n n'). Qed.
Print Assumptions C52_unique.
Example C52_ex1 : lsb W8 0x58 = Ok 3 /\ lsb_fallback 0x58 = Ok 3 /\ lsb11 0x58 = Ok 3. Proof. repeat split; reflexivity. Qed.
Example C52_ex2 : msb W64 0x8000000000000001 = Ok 63 /\ msb_fallback W64 0x8000000000000001 = Ok 63 /\ msb11 W64 0x8000000000000001 = Ok 63.
Proof. repeat split; reflexivity. Qed.
Example C52_ex3 : lsb W64 0x8000000000000000 = Ok 63 /\ lsb_fallback 0x8000000000000000 = Ok 63. Proof. split; reflexivity. Qed.
(** msb11 of zero compiles and is nonsense *)
Example C52_ex4 : msb11 W32 0 = Ok (2 ^ 32 - 1) /\ lsb W32 0 = Err /\ msb W32 0 = Err. Proof. repeat split; reflexivity. Qed.

(** ** C53: contiguous_mask *)
Theorem C53_mask t first last : 0 <= first <= last -> last <= bits (iw t) ->
  exists r, contiguous_mask t first last = Ok r /\ mask_of t first last r.
Proof. exact (contiguous_mask_ok t first last). Qed.
Print Assumptions C53_mask.
Theorem C53_unique t f l r r' : mask_of t f l r -> mask_of t f l r' -> r = r'.
Proof. exact (mask_unique t f l r r'). Qed.
Print Assumptions C53_unique.
(** beyond the promoted type the shift is undefined *)
Theorem C53_beyond t first last : 0 <= first < last -> bits (iw (promote t)) < last -> contiguous_mask t first last = Ub.
Proof. exact (contiguous_mask_big t first last). Qed.
Print Assumptions C53_beyond.
(** contiguous_mask11 is the same, except that a mask with the sign bit of a type narrower
    than int does not compile *)
Theorem C53_mask11 t first last : 0 <= first <= last -> last <= bits (iw t) ->
  (narrow_signed t = true -> first < last -> last < bits (iw t)) ->
  contiguous_mask11 t first last = contiguous_mask t first last.
Proof. exact (contiguous_mask11_ok t first last). Qed.
Print Assumptions C53_mask11.
Theorem C53_mask11_narrow t first : narrow_signed t = true -> 0 <= first < bits (iw t) ->
  contiguous_mask11 t first (bits (iw t)) = Err.
Proof. exact (contiguous_mask11_narrow t first). Qed.
Print Assumptions C53_mask11_narrow.
Example C53_ex1 : contiguous_mask u8t 2 5 = Ok 28 /\ contiguous_mask i8 0 8 = Ok (-1) /\ contiguous_mask u64t 0 64 = Ok (2 ^ 64 - 1).
Proof. repeat split; reflexivity. Qed.
Example C53_ex2 : contiguous_mask i32 30 32 = Ok (- 2 ^ 30) /\ contiguous_mask i32 31 33 = Ub /\ contiguous_mask u32t 7 7 = Ok 0.
Proof. repeat split; reflexivity. Qed.
Example C53_ex3 : contiguous_mask11 u16t 3 16 = Ok 0xfff8 /\ contiguous_mask11 i8 6 8 = Err /\ contiguous_mask11 u8t 5 2 = Err.
Proof. repeat split; reflexivity. Qed.

(** ** C54: ipow is exponentiation *)
(** not for uint16_t: the product is computed in int and overflows *)
Theorem C54_ipow_refuted : ~ (forall t te base e, isgn t = false -> in_range t base -> in_range te e -> 0 <= e ->
  ipow t te base e = Ok (base ^ e mod 2 ^ bits (iw t))).
Proof.
  intros H. assert (A : in_range u16t 65535) by (unfold in_range, imin, imax; simpl; lia).
  assert (B : in_range u32t 2) by (unfold in_range, imin, imax; simpl; lia).
  specialize (H u16t u32t 65535 2 eq_refl A B ltac:(lia)).
  change (@Ub Z = Ok (65535 ^ 2 mod 2 ^ 16)) in H. discriminate H.
Qed.
Print Assumptions C54_ipow_refuted.
Theorem C54_unsigned_partial t te base e : isgn t = false -> t <> u16t -> in_range t base -> 0 <= e ->
  ipow t te base e = Ok (base ^ e mod 2 ^ bits (iw t)).
Proof. exact (ipow_unsigned t te base e). Qed.
Print Assumptions C54_unsigned_partial.
Theorem C54_u16_partial te base e : 0 <= base <= 32768 -> 0 <= e -> ipow u16t te base e = Ok (base ^ e mod 2 ^ 16).
Proof. exact (ipow_u16 te base e). Qed.
Print Assumptions C54_u16_partial.
(** signed types: narrow ones wrap, int and wider are exact or undefined *)
Theorem C54_narrow t te base e : t = i8 \/ t = i16 -> in_range t base -> 0 <= e -> ipow t te base e = Ok (wrap t (base ^ e)).
Proof. exact (ipow_small t te base e). Qed.
Print Assumptions C54_narrow.
Theorem C54_int t te base e : t = i32 \/ t = i64 -> 0 <= e ->
  (in_range t (base ^ e) -> ipow t te base e = Ok (base ^ e)) /\
  (~ in_range t (base ^ e) -> ipow t te base e = Ub).
Proof. exact (ipow_int t te base e). Qed.
Print Assumptions C54_int.
Theorem C54_negative t te base e : isgn te = true -> in_range te e -> e < 0 -> e <> imin te -> in_range t base ->
  ipow t te base e = if base =? 0 then Ub else if base =? 1 then Ok 1 else if base =? -1 then Ok ((-1) ^ (- e)) else Ok 0.
Proof. exact (ipow_neg t te base e). Qed.
Print Assumptions C54_negative.
(** the overloads *)
Theorem C54_overload t te base e : in_range te e -> ipow_c t te base e = ipow t te base e.
Proof. exact (ipow_c_same t te base e). Qed.
Print Assumptions C54_overload.
Theorem C54_overload_conv t te base e : in_range te e -> ipow_cc t te base e = ipow t te (wrap t base) e.
Proof. exact (ipow_cc_conv t te base e). Qed.
Print Assumptions C54_overload_conv.
Example C54_ex1 : ipow u8t i32 3 6 = Ok 217 /\ ipow u64t u8t 10 19 = Ok (10 ^ 19) /\ ipow u64t u8t 10 20 = Ok (10 ^ 20 mod 2 ^ 64).
Proof. repeat split; reflexivity. Qed.
Example C54_ex2 : ipow u16t u32t 65535 2 = Ub /\ ipow i32 i32 2 31 = Ub /\ ipow i32 i32 (-2) 31 = Ok (- 2 ^ 31).
Proof. repeat split; reflexivity. Qed.
Example C54_ex3 : ipow i32 i32 0 (-1) = Ub /\ ipow i32 i8 2 (-128) = Ok 1 /\ ipow i32 i32 2 (- 2 ^ 31) = Ub.
Proof. repeat split; reflexivity. Qed.
Example C54_ex4 : ipow_cc u8t i32 257 5 = Ok 1 /\ ipow_cc u64t i32 10 3 = Ok 1000. Proof. split; reflexivity. Qed.

(** ** C55: mem_repeat tiles the destination *)
Theorem C55_repeat dbg (m : list Z) d s psz num : 0 <= d -> 0 <= s -> 0 <= psz -> 0 <= num ->
  d + num * psz <= len m -> s + psz <= len m -> len m < 2 ^ 63 -> num < 2 ^ 64 ->
  d + num * psz <= s \/ s + psz <= d ->
  mem_repeat dbg m d s psz num = Ok (blit m d (copies num (slice m s psz))).
Proof. exact (mem_repeat_ok dbg m d s psz num). Qed.
Print Assumptions C55_repeat.
(** a pattern inside the destination is caught by the assertion *)
Theorem C55_overlap (m : list Z) d s psz num : 0 <= d -> 0 <= s -> 0 < psz -> 0 < num -> num * psz < 2 ^ 64 ->
  ~ (d + num * psz <= s \/ s + psz <= d) -> mem_repeat true m d s psz num = Err.
Proof. exact (mem_repeat_assert m d s psz num). Qed.
Print Assumptions C55_overlap.
Example C55_ex1 : mem_repeat true (s2z "abc-----------.") 4 0 3 3 = Ok (s2z "abc-abcabcabc-."). Proof. reflexivity. Qed.
Example C55_ex2 : mem_repeat true (s2z "ab------------.") 3 0 2 5 = Ok (s2z "ab-ababababab-."). Proof. reflexivity. Qed.
Example C55_ex3 : mem_repeat true (s2z "abc-----------.") 2 0 3 3 = Err /\ mem_repeat false (s2z "abc-----------.") 2 0 3 3 = Ub.
Proof. split; reflexivity. Qed.

(** ** C56: mem_overlaps is interval intersection *)
Theorem C56_iff a sza b szb : 0 < sza -> 0 < szb -> mem_overlaps a b sza szb = true <-> share_byte a sza b szb.
Proof. exact (overlaps_iff a sza b szb). Qed.
Print Assumptions C56_iff.
Theorem C56_share a sza b szb : share_byte a sza b szb -> mem_overlaps a b sza szb = true.
Proof. exact (overlaps_share a sza b szb). Qed.
Print Assumptions C56_share.
Theorem C56_sym a sza b szb : mem_overlaps a b sza szb = mem_overlaps b a szb sza.
Proof. exact (overlaps_sym a sza b szb). Qed.
Print Assumptions C56_sym.
(** with an empty range: true if it lies strictly inside the other *)
Theorem C56_empty a b szb : 0 <= szb -> mem_overlaps a b 0 szb = true <-> b < a < b + szb.
Proof. exact (overlaps_empty a b szb). Qed.
Print Assumptions C56_empty.
Theorem C56_substr a sza b szb : 0 < sza -> 0 < szb -> overlaps a sza b szb = true <-> share_byte a sza b szb.
Proof. exact (overlaps_iff a sza b szb). Qed.
Print Assumptions C56_substr.
Theorem C56_is_super str len that_str that_len : 0 < len -> 0 <= that_len ->
  is_super str len that_str that_len = true <->
  str <= that_str <= str + len /\ (forall k, that_str <= k < that_str + that_len -> str <= k < str + len).
Proof. exact (is_super_iff str len that_str that_len). Qed.
Print Assumptions C56_is_super.
Theorem C56_is_super_empty str len that_str that_len : 0 <= len -> 0 <= that_len -> len = 0 ->
  is_super str len that_str that_len = true <-> that_len = 0 /\ that_str = str /\ str <> 0.
Proof. exact (is_super_empty str len that_str that_len). Qed.
Print Assumptions C56_is_super_empty.
Theorem C56_is_sub str len that_str that_len : is_sub str len that_str that_len = is_super that_str that_len str len.
Proof. reflexivity. Qed.
Print Assumptions C56_is_sub.
Example C56_ex1 : mem_overlaps 100 104 4 4 = false /\ mem_overlaps 100 103 4 4 = true /\ mem_overlaps 104 100 4 5 = true.
Proof. repeat split; reflexivity. Qed.
Example C56_ex2 : mem_overlaps 102 100 0 4 = true /\ mem_overlaps 100 100 0 4 = false. Proof. split; reflexivity. Qed.
Example C56_ex3 : is_super 100 4 101 3 = true /\ is_super 100 4 101 4 = false /\ is_super 100 0 100 0 = true /\ is_super 0 0 0 0 = false.
Proof. repeat split; reflexivity. Qed.

(** ** C77: is_aligned is divisibility *)
Theorem C77_aligned p k : 0 <= p -> 0 <= k < 64 -> is_aligned p (2 ^ k) = true <-> (2 ^ k | p).
Proof. exact (is_aligned_iff p k). Qed.
Print Assumptions C77_aligned.
Example C77_ex1 : is_aligned 24 8 = true /\ is_aligned 28 8 = false /\ is_aligned 5 1 = true. Proof. repeat split; reflexivity. Qed.
(** for a value that is no power of two it is something else *)
Example C77_ex2 : is_aligned 8 6 = true /\ is_aligned 6 6 = false. Proof. split; reflexivity. Qed.
