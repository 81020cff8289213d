(** fast_float reading integers, src/c4/ext/fast_float_all.h: from_chars with a base, for
    characters of type char. As in FloatModel.v a pointer into the text [first, last) is the
    list of the characters from there on. *)
From Verif Require Import Base FloatModel.
Open Scope Z_scope.

(** int_luts: 791-827 *)
Definition chdigit : list Z :=
  [255; 255; 255; 255; 255; 255; 255; 255; 255; 255; 255; 255; 255; 255; 255; 255;
   255; 255; 255; 255; 255; 255; 255; 255; 255; 255; 255; 255; 255; 255; 255; 255;
   255; 255; 255; 255; 255; 255; 255; 255; 255; 255; 255; 255; 255; 255; 255; 255;
   0; 1; 2; 3; 4; 5; 6; 7; 8; 9; 255; 255; 255; 255; 255; 255;
   255; 10; 11; 12; 13; 14; 15; 16; 17; 18; 19; 20; 21; 22; 23; 24;
   25; 26; 27; 28; 29; 30; 31; 32; 33; 34; 35; 255; 255; 255; 255; 255;
   255; 10; 11; 12; 13; 14; 15; 16; 17; 18; 19; 20; 21; 22; 23; 24;
   25; 26; 27; 28; 29; 30; 31; 32; 33; 34; 35; 255; 255; 255; 255; 255;
   255; 255; 255; 255; 255; 255; 255; 255; 255; 255; 255; 255; 255; 255; 255; 255;
   255; 255; 255; 255; 255; 255; 255; 255; 255; 255; 255; 255; 255; 255; 255; 255;
   255; 255; 255; 255; 255; 255; 255; 255; 255; 255; 255; 255; 255; 255; 255; 255;
   255; 255; 255; 255; 255; 255; 255; 255; 255; 255; 255; 255; 255; 255; 255; 255;
   255; 255; 255; 255; 255; 255; 255; 255; 255; 255; 255; 255; 255; 255; 255; 255;
   255; 255; 255; 255; 255; 255; 255; 255; 255; 255; 255; 255; 255; 255; 255; 255;
   255; 255; 255; 255; 255; 255; 255; 255; 255; 255; 255; 255; 255; 255; 255; 255;
   255; 255; 255; 255; 255; 255; 255; 255; 255; 255; 255; 255; 255; 255; 255; 255].
Definition maxdigits_u64 : list Z :=
  [64; 41; 32; 28; 25; 23; 22; 21;
   20; 19; 18; 18; 17; 17; 16; 16;
   16; 16; 15; 15; 15; 15; 14; 14;
   14; 14; 14; 14; 14; 13; 13; 13;
   13; 13; 13].
Definition min_safe_u64_table : list Z :=
  [9223372036854775808; 12157665459056928801; 4611686018427387904; 7450580596923828125; 4738381338321616896;
   3909821048582988049; 9223372036854775808; 12157665459056928801; 10000000000000000000; 5559917313492231481;
   2218611106740436992; 8650415919381337933; 2177953337809371136; 6568408355712890625; 1152921504606846976;
   2862423051509815793; 6746640616477458432; 15181127029874798299; 1638400000000000000; 3243919932521508681;
   6221821273427820544; 11592836324538749809; 876488338465357824; 1490116119384765625; 2481152873203736576;
   4052555153018976267; 6502111422497947648; 10260628712958602189; 15943230000000000000; 787662783788549761;
   1152921504606846976; 1667889514952984961; 2386420683693101056; 3379220508056640625; 4738381338321616896].
(** ch_to_digit, max_digits_u64 and min_safe_u64: 840-850 *)
Definition ch_to_digit (c : Z) : Z := nth (Z.to_nat c) chdigit 0.
Definition max_digits_u64 (base : Z) : Z := nth (Z.to_nat (base - 2)) maxdigits_u64 0.
Definition min_safe_u64 (base : Z) : Z := nth (Z.to_nat (base - 2)) min_safe_u64_table 0.

(** the loops 1348-1350 and 1361-1368 of parse_int_string *)
Fixpoint skip_char0 (p : list Z) : list Z :=
  match p with c :: r => if c =? ch "0" then skip_char0 r else p | [] => [] end.
Fixpoint int_loop (base : Z) (p : list Z) (i : Z) : list Z * Z :=
  match p with
  | c :: r =>
      let digit := ch_to_digit c in
      if base <=? digit then (p, i) else int_loop base r (u64 (base * i + digit))
  | [] => ([], i)
  end.
(** the type in which a value of type [t] is negated and subtracted *)
Definition promoted (t : ity) : ity := if bits (iw t) <? 32 then i32 else t.
(** 1416: [value = T(-max - T(i - uint64_t(max)))] *)
Definition negate (t : ity) (i : Z) : res Z :=
  let d := wrap t (u64 (i - imax t)) in
  let v := - imax t - d in
  if in_rangeb (promoted t) v then Ok (wrap t v) else Ub.
(** parse_int_string: 1326-1423. It reads the first character unchecked. The test 1401 is not
    made for uint64_t; it could not succeed there. *)
Definition parse_int_string (t : ity) (s : list Z) (base : Z) : res ffres :=
  match s with
  | [] => Ub
  | c :: r =>
      let negative := c =? ch "-" in
      if negb (isgn t) && negative then Ok (FFRes s EInvalid None) else
      let start_num := if negative then r else s in
      let start_digits := skip_char0 start_num in
      let has_leading_zeros := len start_digits <? len start_num in
      let '(p, i) := if base =? 10 then loop_parse_if_eight_digits start_digits 0 else (start_digits, 0) in
      let '(p, i) := int_loop base p i in
      let digit_count := len start_digits - len p in
      if digit_count =? 0 then
        if has_leading_zeros then Ok (FFRes p EOk (Some 0)) else Ok (FFRes s EInvalid None)
      else
      let max_digits := max_digits_u64 base in
      if max_digits <? digit_count then Ok (FFRes p ERange None)
      else if (digit_count =? max_digits) && (i <? min_safe_u64 base) then Ok (FFRes p ERange None)
      else if u64 (imax t + if negative then 1 else 0) <? i then Ok (FFRes p ERange None)
      else do v <- (if negative then negate t i else Ok (wrap t i)) ;; Ok (FFRes p EOk (Some v))
  end.
(** from_chars(first, last, value, base): 3656-3673 *)
Definition from_chars_int (t : ity) (s : list Z) (base : Z) : res ffres :=
  match s with
  | [] => Ok (FFRes s EInvalid None)
  | _ => if (base <? 2) || (36 <? base) then Ok (FFRes s EInvalid None) else parse_int_string t s base
  end.
