(** fast_float for the character types other than char, src/c4/ext/fast_float_all.h. A text is
    the list of the values of its characters. FloatModel.v, FfOptModel.v and FfIntModel.v have
    the type char; what does not depend on the type is taken from there. Little endian, 64-bit
    limbs. *)
From Verif Require Import Base FloatTable FloatModel FfOptModel FfIntModel.
Open Scope Z_scope.

(** The character types, 290-297, and the vector instructions in use, 218-230: char16_t,
    char32_t, and wchar_t of 16 bits without a sign or of 32 bits with one. *)
Inductive simd := NoSimd | Sse2 | Neon.
Inductive uct := C16 (s : simd) | C32 | W16 | W32.
Definition usize (u : uct) : Z := match u with C16 _ | W16 => 2 | C32 | W32 => 4 end.
Definition ufits (u : uct) (c : Z) : Prop :=
  match u with C16 _ | W16 => 0 <= c < 2 ^ 16 | C32 => 0 <= c < 2 ^ 32 | W32 => - 2 ^ 31 <= c < 2 ^ 31 end.

(** a word of units of [w] bits, the first unit lowest *)
Fixpoint word_of (w : Z) (l : list Z) : Z :=
  match l with c :: r => c mod 2 ^ w + 2 ^ w * word_of w r | [] => 0 end.
(** read8_to_u64: 951-959, the characters cut to uint8_t *)
Definition read8_to_u64 (l : list Z) : Z := word_of 8 l.
(** one lane of _mm_packus_epi16: a signed number of 16 bits, saturated to a byte *)
Definition packus (c : Z) : Z := let v := wrap i16 c in if v <? 0 then 0 else if 255 <? v then 255 else v.
(** simd_read8_to_u64: 974-1026. vmovn_u16 cuts the lanes to bytes. *)
Definition simd_read8_to_u64 (s : simd) (l : list Z) : Z :=
  match s with NoSimd => 0 | Sse2 => word_of 8 (map packus l) | Neon => word_of 8 (map (fun c => c mod 2 ^ 8) l) end.
(** parse_eight_digits_unrolled(UC const* ): 1041-1048 *)
Definition parse_eight_digits_w (u : uct) (l : list Z) : Z :=
  parse_eight_digits_unrolled
    (match u with C16 Sse2 => simd_read8_to_u64 Sse2 l | C16 Neon => simd_read8_to_u64 Neon l | _ => read8_to_u64 l end).
(** _mm_movemask_epi8: the highest bits of the 16 bytes *)
Fixpoint movemask (l : list Z) : Z :=
  match l with
  | t :: r => (if Z.testbit t 7 then 1 else 0) + (if Z.testbit t 15 then 2 else 0) + 4 * movemask r
  | [] => 0
  end.
(** vminvq_u16 *)
Fixpoint minv (l : list Z) : Z := match l with t :: r => Z.min t (minv r) | [] => 0xFFFF end.
(** simd_parse_if_eight_digits_unrolled: 1063-1113; [None] if it is false *)
Definition simd_parse_if_eight_digits (u : uct) (l : list Z) (i : Z) : option Z :=
  match u with
  | C16 Sse2 =>
      let t0 := map (fun c => wrap i16 (c + 32720)) l in
      let t1 := map (fun t => if -32759 <? t then 0xFFFF else 0) t0 in
      if movemask t1 =? 0 then Some (u64 (i * 100000000 + parse_eight_digits_unrolled (simd_read8_to_u64 Sse2 l))) else None
  | C16 Neon =>
      let t0 := map (fun c => (c - ch "0") mod 2 ^ 16) l in
      let mask := map (fun t => if t <? ch "9" - ch "0" + 1 then 0xFFFF else 0) t0 in
      if minv mask =? 0xFFFF then Some (u64 (i * 100000000 + parse_eight_digits_unrolled (simd_read8_to_u64 Neon l))) else None
  | _ => None
  end.
(** loop_parse_if_eight_digits: 1116-1125 *)
Fixpoint loop8_w (u : uct) (p : list Z) (i : Z) : list Z * Z :=
  match p with
  | c0 :: c1 :: c2 :: c3 :: c4 :: c5 :: c6 :: c7 :: r =>
      match simd_parse_if_eight_digits u [c0; c1; c2; c3; c4; c5; c6; c7] i with
      | Some i => loop8_w u r i
      | None => (p, i)
      end
  | _ => (p, i)
  end.

(** parse_number_string: 1156-1324; [None] if the result is not valid *)
Definition parse_number_string_w (u : uct) (o : popts) (s : list Z) : res (option pns) :=
  match s with
  | [] => Ub
  | c :: r =>
      let negative := c =? ch "-" in
      let p := if negative then r else s in
      if negative && match p with
                     | [] => true
                     | c :: _ => if o_json o then negb (is_integer c) else negb (is_integer c) && negb (c =? o_dot o)
                     end then Ok None
      else
        let start_digits := p in
        let '(p, i) := digit_loop p 0 in
        let integer := between start_digits p in
        let digit_count := len integer in
        if o_json o && ((digit_count =? 0) || (match start_digits with c :: _ => c =? ch "0" | [] => false end && (1 <? digit_count)))
        then Ok None else
        let '(p, i, fraction) :=
          match p with
          | c :: before =>
              if c =? o_dot o then
                let '(p, i) := loop8_w u before i in
                let '(p, i) := digit_loop p i in
                (p, i, Some (between before p))
              else (p, i, None)
          | [] => (p, i, None)
          end in
        let exponent := match fraction with Some x => - len x | None => 0 end in
        let digit_count := digit_count - exponent in
        if (if o_json o then match fraction with Some _ => exponent =? 0 | None => false end else digit_count =? 0) then Ok None
        else
          match parse_exponent_o o p with
          | None => Ok None
          | Some (p, exp_number) =>
            let exponent := exponent + exp_number in
            if 19 <? digit_count then
              if 19 <? leading_loop_o (o_dot o) start_digits digit_count then
                let '(rest, i) := nineteen_loop integer 0 in
                if 1000000000000000000 <=? i then
                  Ok (Some (Pns (len rest + exp_number) i p negative true integer fraction))
                else
                  let frac := match fraction with Some x => x | None => [] end in
                  let '(rest, i) := nineteen_loop frac i in
                  Ok (Some (Pns (len rest - len frac + exp_number) i p negative true integer fraction))
              else Ok (Some (Pns exponent i p negative false integer fraction))
            else Ok (Some (Pns exponent i p negative false integer fraction))
          end
  end.

(** int_cmp_zeros: 728-732 *)
Definition int_cmp_zeros (u : uct) : Z :=
  if usize u =? 2
  then Z.lor (Z.shiftl (ch "0") 48) (Z.lor (Z.shiftl (ch "0") 32) (Z.lor (Z.shiftl (ch "0") 16) (ch "0")))
  else Z.lor (Z.shiftl (ch "0") 32) (ch "0").
(** skip_zeros: 3091-3108. A word has four characters of two bytes or two of four, int_cmp_len
    733-737. *)
Fixpoint skip_zeros_2 (u : uct) (p : list Z) : list Z :=
  match p with
  | c0 :: c1 :: c2 :: c3 :: r =>
      if negb (word_of 16 [c0; c1; c2; c3] =? int_cmp_zeros u) then skip_zeros1 p else skip_zeros_2 u r
  | _ => skip_zeros1 p
  end.
Fixpoint skip_zeros_4 (u : uct) (p : list Z) : list Z :=
  match p with
  | c0 :: c1 :: r => if negb (word_of 32 [c0; c1] =? int_cmp_zeros u) then skip_zeros1 p else skip_zeros_4 u r
  | _ => skip_zeros1 p
  end.
Definition skip_zeros_w (u : uct) (p : list Z) : list Z := if usize u =? 2 then skip_zeros_2 u p else skip_zeros_4 u p.
(** is_truncated: 3112-3131 *)
Fixpoint is_truncated_2 (u : uct) (p : list Z) : bool :=
  match p with
  | c0 :: c1 :: c2 :: c3 :: r => if negb (word_of 16 [c0; c1; c2; c3] =? int_cmp_zeros u) then true else is_truncated_2 u r
  | _ => existsb (fun c => negb (c =? ch "0")) p
  end.
Fixpoint is_truncated_4 (u : uct) (p : list Z) : bool :=
  match p with
  | c0 :: c1 :: r => if negb (word_of 32 [c0; c1] =? int_cmp_zeros u) then true else is_truncated_4 u r
  | _ => existsb (fun c => negb (c =? ch "0")) p
  end.
Definition is_truncated_w (u : uct) (p : list Z) : bool := if usize u =? 2 then is_truncated_2 u p else is_truncated_4 u p.
(** the loop 3193-3195 of parse_mantissa, and parse_eight_digits: 3139-3146 *)
Fixpoint eight_loop_w (u : uct) (maxd : Z) (p : list Z) (value counter digits : Z) : acc :=
  match p with
  | c0 :: c1 :: c2 :: c3 :: c4 :: c5 :: c6 :: c7 :: r =>
      if (8 <=? 19 - counter) && (8 <=? maxd - digits) then
        eight_loop_w u maxd r (u64 (value * 100000000 + parse_eight_digits_w u [c0; c1; c2; c3; c4; c5; c6; c7])) (counter + 8) (digits + 8)
      else Acc p value counter digits
  | _ => Acc p value counter digits
  end.
(** the loop 3192-3215, and 3225-3245 for the fraction, as in FloatModel.v *)
Fixpoint mantissa_loop_w (u : uct) (fuel : nat) (maxd : Z) (p after big : list Z) (digits : Z) : res (list Z * Z * bool) :=
  match p, fuel with
  | [], _ => Ok (big, digits, false)
  | _, O => Err
  | _, S fuel =>
      let a := eight_loop_w u maxd p 0 0 digits in
      let a := one_loop maxd (c_p a) (c_value a) (c_counter a) (c_digits a) in
      do big <- add_native big (u64 (10 ^ c_counter a)) (c_value a) ;;
      if c_digits a =? maxd then
        if is_truncated_w u (c_p a) || is_truncated_w u after
        then do big <- add_native big 10 1 ;; Ok (big, c_digits a + 1, true)
        else Ok (big, c_digits a, true)
      else mantissa_loop_w u fuel maxd (c_p a) after big (c_digits a)
  end.
(** parse_mantissa: 3172-3251 *)
Definition parse_mantissa_w (u : uct) (f : fmt) (n : pns) : res (list Z * Z) :=
  let p := skip_zeros_w u (p_integer n) in
  let frac := match p_fraction n with Some x => x | None => [] end in
  do '(big, digits, done) <- mantissa_loop_w u (length p) (f_maxdig f) p frac [] 0 ;;
  if done then Ok (big, digits) else
  match p_fraction n with
  | None => Ok (big, digits)
  | Some frac =>
      let p := if digits =? 0 then skip_zeros_w u frac else frac in
      do '(big, digits, _) <- mantissa_loop_w u (length p) (f_maxdig f) p [] big digits ;; Ok (big, digits)
  end.
(** digit_comp: 3338-3356 *)
Definition digit_comp_w (u : uct) (f : fmt) (n : pns) (a : am) : res am :=
  let a := AM (a_man a) (a_pow a - invalid_am_bias) in
  do '(big, digits) <- parse_mantissa_w u f n ;;
  let exponent := scientific_exponent n + 1 - digits in
  if 0 <=? exponent then positive_digit_comp f big exponent else negative_digit_comp f big a exponent.

(** fastfloat_strncasecmp: 302-310. Both characters are converted to char. *)
Definition to_char (c : Z) : Z := c mod 2 ^ 8.
Definition strncasecmp_w (a b : list Z) : bool := strncasecmp (map to_char a) (map to_char b).
(** parse_infnan: 3379-3424 *)
Definition parse_infnan_w (f : fmt) (s : list Z) : res ffres :=
  match s with
  | [] => Ub
  | c :: r =>
      let minus := c =? ch "-" in
      let p := if minus then r else s in
      if 3 <=? len p then
        if strncasecmp_w (firstn 3 p) (s2z "nan") then
          let r := skipn 3 p in
          let rest := match r with c :: q => if c =? ch "(" then match nan_loop q with Some x => x | None => r end else r | [] => r end in
          Ok (FFRes rest EOk (Some (word f minus (2 ^ (f_mb f - 1)) (f_inf f))))
        else if strncasecmp_w (firstn 3 p) (s2z "inf") then
          let rest := if (8 <=? len p) && strncasecmp_w (firstn 5 (skipn 3 p)) (s2z "inity") then skipn 8 p else skipn 3 p in
          Ok (FFRes rest EOk (Some (word f minus 0 (f_inf f))))
        else Ok (FFRes s EInvalid None)
      else Ok (FFRes s EInvalid None)
  end.
(** from_chars_advanced(pns, value): 3552-3619 *)
Definition from_pns_w (u : uct) (rn : bool) (f : fmt) (n : pns) : res ffres :=
  do x <- fast_path rn f n ;;
  match x with
  | Some x => Ok (FFRes (p_rest n) EOk (Some (encode f (if p_negative n then fneg x else x))))
  | None =>
      let a := compute_float f (p_exponent n) (p_mantissa n) in
      let a :=
        if p_many n && (0 <=? a_pow a) then
          let b := compute_float f (p_exponent n) (u64 (p_mantissa n + 1)) in
          if negb ((a_man a =? a_man b) && (a_pow a =? a_pow b)) then compute_error f (p_exponent n) (p_mantissa n) else a
        else a in
      do a <- (if a_pow a <? 0 then digit_comp_w u f n a else Ok a) ;;
      let ec := if (negb (p_mantissa n =? 0) && (a_man a =? 0) && (a_pow a =? 0)) || (a_pow a =? f_inf f) then ERange else EOk in
      Ok (FFRes (p_rest n) ec (Some (to_float f (p_negative n) a)))
  end.
(** from_chars_advanced(first, last, value, options): 3621-3653 *)
Definition from_chars_w (u : uct) (rn : bool) (f : fmt) (o : popts) (s : list Z) : res ffres :=
  match s with
  | [] => Ok (FFRes [] EInvalid None)
  | _ =>
      do n <- parse_number_string_w u o s ;;
      match n with
      | None => if o_noinf o then Ok (FFRes s EInvalid None) else parse_infnan_w f s
      | Some n => from_pns_w u rn f n
      end
  end.

(** ch_to_digit: 840-842. The character is converted to unsigned char. *)
Definition ch_to_digit_w (c : Z) : Z := ch_to_digit (c mod 2 ^ 8).
(** the loop 1361-1368 of parse_int_string *)
Fixpoint int_loop_w (base : Z) (p : list Z) (i : Z) : list Z * Z :=
  match p with
  | c :: r =>
      let digit := ch_to_digit_w c in
      if base <=? digit then (p, i) else int_loop_w base r (u64 (base * i + digit))
  | [] => ([], i)
  end.
(** parse_int_string: 1326-1423 *)
Definition parse_int_string_w (u : uct) (t : ity) (s : list Z) (base : Z) : res ffres :=
  match s with
  | [] => Ub
  | c :: r =>
      let negative := c =? ch "-" in
      if negb (isgn t) && negative then Ok (FFRes s EInvalid None) else
      let start_num := if negative then r else s in
      let start_digits := skip_char0 start_num in
      let has_leading_zeros := len start_digits <? len start_num in
      let '(p, i) := if base =? 10 then loop8_w u start_digits 0 else (start_digits, 0) in
      let '(p, i) := int_loop_w base p i in
      let digit_count := len start_digits - len p in
      if digit_count =? 0 then
        if has_leading_zeros then Ok (FFRes p EOk (Some 0)) else Ok (FFRes s EInvalid None)
      else
      let max_digits := max_digits_u64 base in
      if max_digits <? digit_count then Ok (FFRes p ERange None)
      else if (digit_count =? max_digits) && (i <? min_safe_u64 base) then Ok (FFRes p ERange None)
      else if u64 (imax t + if negative then 1 else 0) <? i then Ok (FFRes p ERange None)
      else do v <- (if negative then negate t i else Ok (wrap t i)) ;; Ok (FFRes p EOk (Some v))
  end.
(** from_chars(first, last, value, base): 3656-3673 *)
Definition from_chars_int_w (u : uct) (t : ity) (s : list Z) (base : Z) : res ffres :=
  match s with
  | [] => Ok (FFRes s EInvalid None)
  | _ => if (base <? 2) || (36 <? base) then Ok (FFRes s EInvalid None) else parse_int_string_w u t s base
  end.
