(** fast_float on a platform where neither 64-bit limbs nor a 128-bit product are available
    (FASTFLOAT_32BIT, src/c4/ext/fast_float_all.h 157-172): the product of two 64-bit numbers
    is emulated, the zeros are counted without a builtin, and the big integers of the slow
    path are made of 32-bit limbs. What does not depend on the platform is that of
    FloatModel.v. *)
From Verif Require Import Base FloatTable FloatModel.
Open Scope Z_scope.

(** leading_zeroes_generic: 345-353. [last_bit] starts at 0. *)
Definition lz_step (mask shift bit : Z) (s : Z * Z) : Z * Z :=
  let '(n, last_bit) := s in
  if negb (Z.land n mask =? 0) then (Z.shiftr n shift, Z.lor last_bit bit) else (n, last_bit).
Definition leading_zeroes_generic (n : Z) : Z :=
  let s := lz_step 0xffffffff00000000 32 32 (n, 0) in
  let s := lz_step 0xffff0000 16 16 s in
  let s := lz_step 0xff00 8 8 s in
  let s := lz_step 0xf0 4 4 s in
  let s := lz_step 0xc 2 2 s in
  let '(n, last_bit) := s in
  63 - if negb (Z.land n 0x2 =? 0) then Z.lor last_bit 1 else last_bit.
(** emulu: 376-378; umul128_generic: 380-390, result (high, low) *)
Definition emulu (x y : Z) : Z := u64 (x * y).
Definition umul128_generic (ab cd : Z) : Z * Z :=
  let ad := emulu (u32 (Z.shiftr ab 32)) (u32 cd) in
  let bd := emulu (u32 ab) (u32 cd) in
  let adbc := u64 (ad + emulu (u32 ab) (u32 (Z.shiftr cd 32))) in
  let adbc_carry := if adbc <? ad then 1 else 0 in
  let lo := u64 (bd + u64 (Z.shiftl adbc 32)) in
  (u64 (u64 (u64 (emulu (u32 (Z.shiftr ab 32)) (u32 (Z.shiftr cd 32)) + Z.shiftr adbc 32) + u64 (Z.shiftl adbc_carry 32)) + if lo <? bd then 1 else 0), lo).
(** scalar_add: 2529-2545, where there is no builtin; scalar_mul: 2561-2568, for 64-bit
    limbs without a 128-bit type, result (carry, value) *)
Definition scalar_add_generic (x y : Z) : Z * bool := let z := u64 (x + y) in (z, z <? x).
Definition scalar_mul_generic (x y carry : Z) : Z * Z :=
  let '(high, low) := umul128_generic x y in
  let '(low, overflow) := scalar_add_generic low carry in
  (u64 (high + if overflow then 1 else 0), low).

(** ** Eisel-Lemire: 2142-2317 *)
(** compute_product_approximation: 2148-2169; result (high, low) *)
Definition compute_product_approximation_32 (bit_precision q w : Z) : Z * Z :=
  let '(t1, t0) := pow5_entry q in
  let '(high, low) := umul128_generic w t1 in
  let precision_mask := Z.shiftr (2 ^ 64 - 1) bit_precision in
  if Z.land high precision_mask =? precision_mask then
    let '(shigh, _) := umul128_generic w t0 in
    let low := u64 (low + shigh) in
    (if low <? shigh then u64 (high + 1) else high, low)
  else (high, low).
(** compute_error: 2207-2214 *)
Definition compute_error_32 (f : fmt) (q w : Z) : am :=
  let lz := leading_zeroes_generic w in
  let w := u64 (Z.shiftl w lz) in
  let '(high, _) := compute_product_approximation_32 (f_mb f + 3) q w in
  compute_error_scaled f q high lz.
(** compute_float: 2221-2315 *)
Definition compute_float_32 (f : fmt) (q w : Z) : am :=
  if (w =? 0) || (q <? f_p10min f) then AM 0 0
  else if f_p10max f <? q then AM 0 (f_inf f)
  else
    let lz := leading_zeroes_generic w in
    let w := u64 (Z.shiftl w lz) in
    let '(high, low) := compute_product_approximation_32 (f_mb f + 3) q w in
    let upperbit := Z.shiftr high 63 in
    let shift := upperbit + 64 - f_mb f - 3 in
    let mantissa := Z.shiftr high shift in
    let power2 := power (wrap i32 q) + upperbit - lz - f_minexp f in
    if power2 <=? 0 then
      if 64 <=? - power2 + 1 then AM 0 0
      else
        let mantissa := Z.shiftr mantissa (- power2 + 1) in
        let mantissa := u64 (mantissa + Z.land mantissa 1) in
        let mantissa := Z.shiftr mantissa 1 in
        AM mantissa (if mantissa <? 2 ^ f_mb f then 0 else 1)
    else
      let mantissa :=
        if (low <=? 1) && (f_rtemin f <=? q) && (q <=? f_rtemax f) && (Z.land mantissa 3 =? 1) then
          if u64 (Z.shiftl mantissa shift) =? high then Z.ldiff mantissa 1 else mantissa
        else mantissa in
      let mantissa := u64 (mantissa + Z.land mantissa 1) in
      let mantissa := Z.shiftr mantissa 1 in
      let '(mantissa, power2) :=
        if 2 * 2 ^ f_mb f <=? mantissa then (2 ^ f_mb f, power2 + 1) else (mantissa, power2) in
      let mantissa := Z.ldiff mantissa (2 ^ f_mb f) in
      if f_inf f <=? power2 then AM 0 (f_inf f) else AM mantissa power2.

(** ** Big integers: 2321-2936. At most 125 limbs (bigint_limbs = 4000 / 32). *)
Definition bigint_limbs_32 : Z := 125.
(** try_push: 2410-2417 *)
Definition try_push_32 (v : list Z) (x : Z) : res (list Z) := if len v <? bigint_limbs_32 then Ok (v ++ [x]) else Err.
(** small_add_from: 2574-2589 *)
Fixpoint add_carry_32 (v : list Z) (carry : Z) : list Z * Z :=
  match v with
  | [] => ([], carry)
  | x :: r =>
      if carry =? 0 then (v, 0)
      else let '(r, c) := add_carry_32 r (if 2 ^ 32 <=? x + carry then 1 else 0) in (u32 (x + carry) :: r, c)
  end.
Definition small_add_from_32 (v : list Z) (y : Z) (start : nat) : res (list Z) :=
  let '(r, c) := add_carry_32 (skipn start v) y in
  let v := firstn start v ++ r in
  if c =? 0 then Ok v else try_push_32 v c.
(** small_add: 2592-2596; small_mul: 2599-2610, with scalar_mul: 2547-2570 *)
Definition small_add_32 (v : list Z) (y : Z) : res (list Z) := small_add_from_32 v y 0.
Fixpoint mul_carry_32 (v : list Z) (y carry : Z) : list Z * Z :=
  match v with
  | [] => ([], carry)
  | x :: v => let z := x * y + carry in let '(r, c) := mul_carry_32 v y (z / 2 ^ 32) in (u32 z :: r, c)
  end.
Definition small_mul_32 (v : list Z) (y : Z) : res (list Z) :=
  let '(v, c) := mul_carry_32 v y 0 in if c =? 0 then Ok v else try_push_32 v c.
(** large_add_from: 2614-2642. The loop over the limbs of [y]; the rest of [x] is unchanged. *)
Fixpoint add_limbs_32 (x y : list Z) (carry : bool) : list Z * bool :=
  match y, x with
  | yi :: y, xi :: x =>
      let z := u32 (xi + yi) in
      let c1 := 2 ^ 32 <=? xi + yi in
      let z' := if carry then u32 (z + 1) else z in
      let c2 := carry && (2 ^ 32 <=? z + 1) in
      let '(r, c) := add_limbs_32 x y (c1 || c2) in (z' :: r, c)
  | _, _ => (x, carry)
  end.
Definition large_add_from_32 (x y : list Z) (start : nat) : res (list Z) :=
  do x <- (if (length x <? start)%nat || (length x - start <? length y)%nat then
             if bigint_limbs_32 <? len y + Z.of_nat start then Err
             else Ok (x ++ repeat 0 (length y + start - length x))
           else Ok x) ;;
  let '(r, c) := add_limbs_32 (skipn start x) y false in
  let x := firstn start x ++ r in
  if c then small_add_from_32 x 1 (length y + start) else Ok x.
(** long_mul: 2652-2678 *)
Fixpoint long_mul_loop_32 (x z y : list Z) (index : nat) : res (list Z) :=
  match y with
  | [] => Ok x
  | yi :: y =>
      do x <- (if yi =? 0 then Ok x else do zi <- small_mul_32 z yi ;; large_add_from_32 x zi index) ;;
      long_mul_loop_32 x z y (S index)
  end.
Definition long_mul_32 (x y : list Z) : res (list Z) :=
  match y with
  | [] => Ok (normalize x)
  | y0 :: ys => do x' <- small_mul_32 x y0 ;; do x' <- long_mul_loop_32 x' x ys 1 ;; Ok (normalize x')
  end.
(** large_mul: 2681-2690 *)
Definition large_mul_32 (x y : list Z) : res (list Z) :=
  match y with [y0] => small_mul_32 x y0 | _ => long_mul_32 x y end.
(** the tables 2692-2712 *)
Definition large_power_of_5_32 : list Z :=
  [4279965485; 329373468; 4020270615; 2137533757; 4287402176; 1057042919; 1071430142; 2440757623; 381945767; 46164893].
(** bigint(value): 2737-2745 *)
Definition big_of_32 (value : Z) : list Z := normalize [u32 value; u32 (Z.shiftr value 32)].
(** hi64: 2749-2773, with uint64_hi64: 2483-2501 and uint32_hi64: 2503-2522. Result (high
    bits, truncated). *)
Definition uint64_hi64_32 (r0 r1 : Z) : Z * bool :=
  let shl := leading_zeroes_generic r0 in
  if shl =? 0 then (r0, negb (r1 =? 0))
  else (Z.lor (u64 (Z.shiftl r0 shl)) (Z.shiftr r1 (64 - shl)), negb (u64 (Z.shiftl r1 shl) =? 0)).
Definition hi64_32 (v : list Z) : Z * bool :=
  match rev v with
  | [] => (0, false)
  | [r0] => (u64 (Z.shiftl r0 (leading_zeroes_generic r0)), false)
  | [r0; r1] => let x := Z.lor (u64 (Z.shiftl r0 32)) r1 in (u64 (Z.shiftl x (leading_zeroes_generic x)), false)
  | r0 :: r1 :: r2 :: r =>
      let '(h, t) := uint64_hi64_32 r0 (Z.lor (u64 (Z.shiftl r1 32)) r2) in (h, t || existsb (fun x => negb (x =? 0)) r)
  end.
(** shl_bits: 2802-2825 *)
Fixpoint shl_carry_32 (v : list Z) (n prev : Z) : list Z * Z :=
  match v with
  | [] => ([], prev)
  | x :: v => let '(r, p) := shl_carry_32 v n x in (Z.lor (u32 (Z.shiftl x n)) (Z.shiftr prev (32 - n)) :: r, p)
  end.
Definition shl_bits_32 (v : list Z) (n : Z) : res (list Z) :=
  let '(r, prev) := shl_carry_32 v n 0 in
  let carry := Z.shiftr prev (32 - n) in
  if carry =? 0 then Ok r else try_push_32 r carry.
(** shl_limbs: 2828-2846 *)
Definition shl_limbs_32 (v : list Z) (n : Z) : res (list Z) :=
  if bigint_limbs_32 <? n + len v then Err
  else match v with [] => Ok [] | _ => Ok (repeat 0 (Z.to_nat n) ++ v) end.
(** shl: 2849-2859, pow2: 2891-2893 *)
Definition big_pow2_32 (v : list Z) (n : Z) : res (list Z) :=
  let r := n mod 32 in let d := n / 32 in
  do v <- (if r =? 0 then Ok v else shl_bits_32 v r) ;;
  if d =? 0 then Ok v else shl_limbs_32 v d.
(** ctlz and bit_length: 2862-2880 *)
Definition bit_length_32 (v : list Z) : Z :=
  32 * len v - match rev v with [] => 0 | r0 :: _ => leading_zeroes_generic (u64 (Z.shiftl r0 32)) end.
(** pow5: 2896-2925 *)
Fixpoint pow5_large_32 (fuel : nat) (v : list Z) (e : Z) : res (list Z * Z) :=
  if e <? 135 then Ok (v, e) else
  match fuel with O => Err | S fuel => do v <- large_mul_32 v large_power_of_5_32 ;; pow5_large_32 fuel v (e - 135) end.
Fixpoint pow5_small_32 (fuel : nat) (v : list Z) (e : Z) : res (list Z * Z) :=
  if e <? 13 then Ok (v, e) else
  match fuel with O => Err | S fuel => do v <- small_mul_32 v 1220703125 ;; pow5_small_32 fuel v (e - 13) end.
Definition big_pow5_32 (v : list Z) (e : Z) : res (list Z) :=
  do '(v, e) <- pow5_large_32 (Z.to_nat e) v e ;;
  do '(v, e) <- pow5_small_32 11 v e ;;
  if e =? 0 then Ok v else small_mul_32 v (u32 (nth (Z.to_nat e) small_power_of_5 0)).
(** pow10: 2928-2931 *)
Definition big_pow10_32 (v : list Z) (e : Z) : res (list Z) := do v <- big_pow5_32 v e ;; big_pow2_32 v e.


(** add_native: 3157-3161; round_up_bigint: 3163-3169 *)
Definition add_native_32 (big : list Z) (power value : Z) : res (list Z) :=
  do big <- small_mul_32 big power ;; small_add_32 big value.
(** the loops 3193-3198 of parse_mantissa: digits into the native [value] *)
Fixpoint eight_loop_32 (maxd : Z) (p : list Z) (value counter digits : Z) : acc :=
  match p with
  | c0 :: c1 :: c2 :: c3 :: c4 :: c5 :: c6 :: c7 :: r =>
      if (8 <=? 9 - counter) && (8 <=? maxd - digits) then
        eight_loop_32 maxd r (u32 (value * 100000000 + parse_eight_digits_unrolled (read8 c0 c1 c2 c3 c4 c5 c6 c7))) (counter + 8) (digits + 8)
      else Acc p value counter digits
  | _ => Acc p value counter digits
  end.
Fixpoint one_loop_32 (maxd : Z) (p : list Z) (value counter digits : Z) : acc :=
  match p with
  | c :: r =>
      if (counter <? 9) && (digits <? maxd) then
        one_loop_32 maxd r (u32 (value * 10 + (c - ch "0"))) (counter + 1) (digits + 1)
      else Acc p value counter digits
  | [] => Acc p value counter digits
  end.
(** the loop 3192-3215, and 3225-3245 for the fraction. [after] are the digits that follow.
    Result: the number, the digits, and whether the function returns. *)
Fixpoint mantissa_loop_32 (fuel : nat) (maxd : Z) (p after big : list Z) (digits : Z) : res (list Z * Z * bool) :=
  match p, fuel with
  | [], _ => Ok (big, digits, false)
  | _, O => Err
  | _, S fuel =>
      let a := eight_loop_32 maxd p 0 0 digits in
      let a := one_loop_32 maxd (c_p a) (c_value a) (c_counter a) (c_digits a) in
      do big <- add_native_32 big (u32 (10 ^ c_counter a)) (c_value a) ;;
      if c_digits a =? maxd then
        if is_truncated (c_p a) || is_truncated after
        then do big <- add_native_32 big 10 1 ;; Ok (big, c_digits a + 1, true)
        else Ok (big, c_digits a, true)
      else mantissa_loop_32 fuel maxd (c_p a) after big (c_digits a)
  end.
(** parse_mantissa: 3172-3251. When the loops end, the counter is 0. *)
Definition parse_mantissa_32 (f : fmt) (n : pns) : res (list Z * Z) :=
  let p := skip_zeros (p_integer n) in
  let frac := match p_fraction n with Some x => x | None => [] end in
  do '(big, digits, done) <- mantissa_loop_32 (length p) (f_maxdig f) p frac [] 0 ;;
  if done then Ok (big, digits) else
  match p_fraction n with
  | None => Ok (big, digits)
  | Some frac =>
      let p := if digits =? 0 then skip_zeros frac else frac in
      do '(big, digits, _) <- mantissa_loop_32 (length p) (f_maxdig f) p [] big digits ;; Ok (big, digits)
  end.
(** positive_digit_comp: 3253-3270 *)
Definition positive_digit_comp_32 (f : fmt) (big : list Z) (exponent : Z) : res am :=
  do big <- big_pow10_32 big exponent ;;
  let '(h, truncated) := hi64_32 big in
  let bias := f_mb f - f_minexp f in
  Ok (round f (round_nearest_tie_even (fun odd halfway above => above || (halfway && truncated) || (odd && halfway)))
    (AM h (bit_length_32 big - 64 + bias))).
(** negative_digit_comp: 3277-3323 *)
Definition negative_digit_comp_32 (f : fmt) (big : list Z) (a : am) (exponent : Z) : res am :=
  let b := to_float f false (round f round_down a) in
  let theor := to_extended_halfway f b in
  let pow2_exp := a_pow theor - exponent in
  do theor_digits <- (if negb (- exponent =? 0) then big_pow5_32 (big_of_32 (a_man theor)) (- exponent) else Ok (big_of_32 (a_man theor))) ;;
  do theor_digits <- (if 0 <? pow2_exp then big_pow2_32 theor_digits pow2_exp else Ok theor_digits) ;;
  do real_digits <- (if pow2_exp <? 0 then big_pow2_32 big (- pow2_exp) else Ok big) ;;
  let ord := compare_big real_digits theor_digits in
  Ok (round f (round_nearest_tie_even (fun odd _ _ => if 0 <? ord then true else if ord <? 0 then false else odd)) a).
(** digit_comp: 3338-3356 *)
Definition digit_comp_32 (f : fmt) (n : pns) (a : am) : res am :=
  let a := AM (a_man a) (a_pow a - invalid_am_bias) in
  do '(big, digits) <- parse_mantissa_32 f n ;;
  let exponent := scientific_exponent n + 1 - digits in
  if 0 <=? exponent then positive_digit_comp_32 f big exponent else negative_digit_comp_32 f big a exponent.

(** ** from_chars: 3370-3653 *)
(** Clinger's fast path: 3569-3603. In another rounding mode a zero is not computed:
    3591-3597. *)
Definition fast_path_32 (rn : bool) (f : fmt) (n : pns) : res (option fval) :=
  let i := p_mantissa n in let q := p_exponent n in
  if (f_fpmin f <=? q) && (q <=? f_fpmax f) && negb (p_many n) then
    if rn then
      if i <=? 2 * 2 ^ f_mb f then
        Ok (Some (if q <? 0 then fdiv f (of_int f i) (of_int f (10 ^ (- q))) else fmul f (of_int f i) (of_int f (10 ^ q))))
      else Ok None
    else if (0 <=? q) && (i <=? max_mantissa f q) then
      if i =? 0 then Ok (Some (of_int f 0)) else
      match exact_product f i (10 ^ q) with Some x => Ok (Some x) | None => Err end
    else Ok None
  else Ok None.
(** from_chars_advanced(pns, value): 3552-3619 *)
Definition from_pns_32 (rn : bool) (f : fmt) (n : pns) : res ffres :=
  do x <- fast_path_32 rn f n ;;
  match x with
  | Some x => Ok (FFRes (p_rest n) EOk (Some (encode f (if p_negative n then fneg x else x))))
  | None =>
      let a := compute_float_32 f (p_exponent n) (p_mantissa n) in
      let a :=
        if p_many n && (0 <=? a_pow a) then
          let b := compute_float_32 f (p_exponent n) (u64 (p_mantissa n + 1)) in
          if negb ((a_man a =? a_man b) && (a_pow a =? a_pow b)) then compute_error_32 f (p_exponent n) (p_mantissa n) else a
        else a in
      do a <- (if a_pow a <? 0 then digit_comp_32 f n a else Ok a) ;;
      let ec := if (negb (p_mantissa n =? 0) && (a_man a =? 0) && (a_pow a =? 0)) || (a_pow a =? f_inf f) then ERange else EOk in
      Ok (FFRes (p_rest n) ec (Some (to_float f (p_negative n) a)))
  end.
(** from_chars_advanced(first, last, value, options): 3621-3653 *)
Definition from_chars_float_32 (rn : bool) (f : fmt) (s : list Z) : res ffres :=
  match s with
  | [] => Ok (FFRes [] EInvalid None)
  | _ =>
      do n <- parse_number_string s ;;
      match n with
      | None => parse_infnan f s
      | Some n => from_pns_32 rn f n
      end
  end.
