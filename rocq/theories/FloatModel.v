(** Model of src/c4/ext/fast_float_all.h as atof and atod use it: characters of type char,
    the format [general] with the decimal point '.', 64-bit limbs, 128-bit products, little
    endian words, the default rounding mode or another one ([rn]).
    A pointer into the text [first, last) is the list of the characters from there on; it
    equals [last] if the list is empty. Conversions to int32_t wrap; the sums of such values
    are far from the limits of the type and are computed in Z. *)
From Verif Require Import Base FloatTable.

(** ** The formats: binary_format<T>, 452-689 *)
Record fmt := Fmt {
  f_mb : Z;      (* mantissa_explicit_bits: 559-564 *)
  f_minexp : Z;  (* minimum_exponent: 582-587 *)
  f_inf : Z;     (* infinite_power: 589-594 *)
  f_sidx : Z;    (* sign_index: 596-597 *)
  f_fpmin : Z;   (* min_exponent_fast_path: 543-557 *)
  f_fpmax : Z;   (* max_exponent_fast_path: 599-604 *)
  f_rtemin : Z;  (* min_exponent_round_to_even: 574-580 *)
  f_rtemax : Z;  (* max_exponent_round_to_even: 566-572 *)
  f_p10min : Z;  (* smallest_power_of_ten: 648-655 *)
  f_p10max : Z;  (* largest_power_of_ten: 639-646 *)
  f_maxdig : Z   (* max_digits: 657-662 *) }.
Definition f64 : fmt := Fmt 52 (-1023) 0x7FF 63 (-22) 22 (-4) 23 (-342) 308 769.
Definition f32 : fmt := Fmt 23 (-127) 0xFF 31 (-10) 10 (-17) 10 (-64) 38 114.
(** max_mantissa_fast_path(power): the tables 480-506 and 520-534 *)
Definition max_mantissa (f : fmt) (power : Z) : Z := 2 ^ (if f_mb f =? 52 then 52 else 24) / 5 ^ power.

(** ** Arithmetic of the floating point type: IEEE 754, round to nearest, ties to even. The
    finite values are [m * 2^e], [e] at least [emin]. *)
Definition emin (f : fmt) : Z := f_minexp f - f_mb f + 1.
(** the result for the exact value [n / d], not negative, as mantissa and exponent *)
Definition rne (f : fmt) (n d : Z) : Z * Z :=
  if n =? 0 then (0, emin f) else
  let l := Z.log2 n - Z.log2 d in
  let below := if 0 <=? l then n <? d * 2 ^ l else n * 2 ^ (- l) <? d in
  let e := Z.max (emin f) ((if below then l - 1 else l) - f_mb f) in
  let num := if 0 <=? e - 1 then n else n * 2 ^ (1 - e) in
  let den := if 0 <=? e - 1 then d * 2 ^ (e - 1) else d in
  let g := num / den in
  let up := Z.odd g && (negb (num mod den =? 0) || (g mod 4 =? 3)) in
  let m := (g + if up then 1 else 0) / 2 in
  if m =? 2 ^ (f_mb f + 1) then (2 ^ f_mb f, e + 1) else (m, e).
Inductive fval := Fin (neg : bool) (m e : Z) | Inf (neg : bool) | NaN.
Definition too_big (f : fmt) (e : Z) : bool := f_inf f <=? e - emin f + 1.
Definition fround (f : fmt) (neg : bool) (n d : Z) : fval :=
  let '(m, e) := rne f n d in if too_big f e then Inf neg else Fin neg m e.
(** the value [m * 2^e] as a fraction *)
Definition frac (m e : Z) : Z * Z := if 0 <=? e then (m * 2 ^ e, 1) else (m, 2 ^ (- e)).
Definition fdiv (f : fmt) (x y : fval) : fval :=
  match x, y with
  | Fin s1 m1 e1, Fin s2 m2 e2 =>
      if m2 =? 0 then (if m1 =? 0 then NaN else Inf (xorb s1 s2))
      else let '(n1, d1) := frac m1 e1 in let '(n2, d2) := frac m2 e2 in fround f (xorb s1 s2) (n1 * d2) (d1 * n2)
  | Fin s1 _ _, Inf s2 => Fin (xorb s1 s2) 0 (emin f)
  | Inf s1, Fin s2 _ _ => Inf (xorb s1 s2)
  | _, _ => NaN
  end.
Definition fmul (f : fmt) (x y : fval) : fval :=
  match x, y with
  | Fin s1 m1 e1, Fin s2 m2 e2 =>
      let '(n1, d1) := frac m1 e1 in let '(n2, d2) := frac m2 e2 in fround f (xorb s1 s2) (n1 * n2) (d1 * d2)
  | Fin s1 m _, Inf s2 | Inf s1, Fin s2 m _ => if m =? 0 then NaN else Inf (xorb s1 s2)
  | Inf s1, Inf s2 => Inf (xorb s1 s2)
  | _, _ => NaN
  end.
Definition fneg (x : fval) : fval :=
  match x with Fin s m e => Fin (negb s) m e | Inf s => Inf (negb s) | NaN => NaN end.
(** conversion of an unsigned integer *)
Definition of_int (f : fmt) (i : Z) : fval := fround f false i 1.
(** the representation: 1 bit sign, exponent, mantissa. The NaN is the quiet one. *)
Definition word (f : fmt) (neg : bool) (mantissa power2 : Z) : Z :=
  Z.lor (Z.lor mantissa (Z.shiftl power2 (f_mb f))) (if neg then 2 ^ f_sidx f else 0).
Definition encode (f : fmt) (x : fval) : Z :=
  match x with
  | Fin s m e => if m <? 2 ^ f_mb f then word f s m 0 else word f s (m - 2 ^ f_mb f) (e - emin f + 1)
  | Inf s => word f s 0 (f_inf f)
  | NaN => word f false (2 ^ (f_mb f - 1)) (f_inf f)
  end.

(** ** Numbers of more than 64 bits *)
(** leading_zeroes: 354-373 *)
Definition leading_zeroes (w : Z) : Z := 63 - Z.log2 w.
(** full_multiplication: 406-429 *)
Definition full_multiplication (a b : Z) : Z * Z := (a * b / 2 ^ 64, u64 (a * b)).

Record am := AM { a_man : Z; a_pow : Z }.
(** 443 *)
Definition invalid_am_bias : Z := -0x8000.
(** to_float: 691-703 *)
Definition to_float (f : fmt) (neg : bool) (a : am) : Z := word f neg (a_man a) (a_pow a).

(** ** Eisel-Lemire: 2142-2317 *)
Definition pow5_entry (q : Z) : Z * Z := nth (Z.to_nat (q + 342)) power_of_five_128 (0, 0).
(** compute_product_approximation: 2148-2169; result (high, low) *)
Definition compute_product_approximation (bit_precision q w : Z) : Z * Z :=
  let '(t1, t0) := pow5_entry q in
  let '(high, low) := full_multiplication w t1 in
  let precision_mask := Z.shiftr (2 ^ 64 - 1) bit_precision in
  if Z.land high precision_mask =? precision_mask then
    let '(shigh, _) := full_multiplication w t0 in
    let low := u64 (low + shigh) in
    (if low <? shigh then u64 (high + 1) else high, low)
  else (high, low).
(** detail::power: 2187-2189 *)
Definition power (q : Z) : Z := Z.shiftr ((152170 + 65536) * q) 16 + 63.
(** compute_error_scaled: 2194-2203 *)
Definition compute_error_scaled (f : fmt) (q w lz : Z) : am :=
  let hilz := Z.lxor (Z.shiftr w 63) 1 in
  let bias := f_mb f - f_minexp f in
  AM (u64 (Z.shiftl w hilz)) (power (wrap i32 q) + bias - hilz - lz - 62 + invalid_am_bias).
(** compute_error: 2207-2214 *)
Definition compute_error (f : fmt) (q w : Z) : am :=
  let lz := leading_zeroes w in
  let w := u64 (Z.shiftl w lz) in
  let '(high, _) := compute_product_approximation (f_mb f + 3) q w in
  compute_error_scaled f q high lz.
(** compute_float: 2221-2315 *)
Definition compute_float (f : fmt) (q w : Z) : am :=
  if (w =? 0) || (q <? f_p10min f) then AM 0 0
  else if f_p10max f <? q then AM 0 (f_inf f)
  else
    let lz := leading_zeroes w in
    let w := u64 (Z.shiftl w lz) in
    let '(high, low) := compute_product_approximation (f_mb f + 3) q w in
    let upperbit := Z.shiftr high 63 in
    let shift := upperbit + 64 - f_mb f - 3 in
    let mantissa := Z.shiftr high shift in
    let power2 := power (wrap i32 q) + upperbit - lz - f_minexp f in
    if power2 <=? 0 then
      if 64 <=? - power2 + 1 then AM 0 0
      else
        let mantissa := Z.shiftr mantissa (- power2 + 1) in
        let mantissa := u64 (mantissa + Z.land mantissa 1) in
        let mantissa := Z.shiftr mantissa 1 in
        AM mantissa (if mantissa <? 2 ^ f_mb f then 0 else 1)
    else
      let mantissa :=
        if (low <=? 1) && (f_rtemin f <=? q) && (q <=? f_rtemax f) && (Z.land mantissa 3 =? 1) then
          if u64 (Z.shiftl mantissa shift) =? high then Z.ldiff mantissa 1 else mantissa
        else mantissa in
      let mantissa := u64 (mantissa + Z.land mantissa 1) in
      let mantissa := Z.shiftr mantissa 1 in
      let '(mantissa, power2) :=
        if 2 * 2 ^ f_mb f <=? mantissa then (2 ^ f_mb f, power2 + 1) else (mantissa, power2) in
      let mantissa := Z.ldiff mantissa (2 ^ f_mb f) in
      if f_inf f <=? power2 then AM 0 (f_inf f) else AM mantissa power2.

(** ** Big integers: 2321-2936. Least significant limb first; at most 62 limbs. A push
    that does not fit fails; the callers ignore the failure (FASTFLOAT_ASSERT does nothing):
    here it is the error [Err], which the theorems exclude. *)
Definition bigint_limbs : Z := 62.
(** try_push: 2410-2417 *)
Definition try_push (v : list Z) (x : Z) : res (list Z) := if len v <? bigint_limbs then Ok (v ++ [x]) else Err.
(** normalize: 2470-2474 *)
Fixpoint normalize (v : list Z) : list Z :=
  match v with
  | [] => []
  | x :: v => match normalize v with [] => if x =? 0 then [] else [x] | r => x :: r end
  end.
(** small_add_from: 2574-2589 *)
Fixpoint add_carry (v : list Z) (carry : Z) : list Z * Z :=
  match v with
  | [] => ([], carry)
  | x :: r =>
      if carry =? 0 then (v, 0)
      else let '(r, c) := add_carry r (if 2 ^ 64 <=? x + carry then 1 else 0) in (u64 (x + carry) :: r, c)
  end.
Definition small_add_from (v : list Z) (y : Z) (start : nat) : res (list Z) :=
  let '(r, c) := add_carry (skipn start v) y in
  let v := firstn start v ++ r in
  if c =? 0 then Ok v else try_push v c.
(** small_add: 2592-2596; small_mul: 2599-2610, with scalar_mul: 2547-2570 *)
Definition small_add (v : list Z) (y : Z) : res (list Z) := small_add_from v y 0.
Fixpoint mul_carry (v : list Z) (y carry : Z) : list Z * Z :=
  match v with
  | [] => ([], carry)
  | x :: v => let z := x * y + carry in let '(r, c) := mul_carry v y (z / 2 ^ 64) in (u64 z :: r, c)
  end.
Definition small_mul (v : list Z) (y : Z) : res (list Z) :=
  let '(v, c) := mul_carry v y 0 in if c =? 0 then Ok v else try_push v c.
(** large_add_from: 2614-2642. The loop over the limbs of [y]; the rest of [x] is unchanged. *)
Fixpoint add_limbs (x y : list Z) (carry : bool) : list Z * bool :=
  match y, x with
  | yi :: y, xi :: x =>
      let z := u64 (xi + yi) in
      let c1 := 2 ^ 64 <=? xi + yi in
      let z' := if carry then u64 (z + 1) else z in
      let c2 := carry && (2 ^ 64 <=? z + 1) in
      let '(r, c) := add_limbs x y (c1 || c2) in (z' :: r, c)
  | _, _ => (x, carry)
  end.
Definition large_add_from (x y : list Z) (start : nat) : res (list Z) :=
  do x <- (if (length x <? start)%nat || (length x - start <? length y)%nat then
             if bigint_limbs <? len y + Z.of_nat start then Err
             else Ok (x ++ repeat 0 (length y + start - length x))
           else Ok x) ;;
  let '(r, c) := add_limbs (skipn start x) y false in
  let x := firstn start x ++ r in
  if c then small_add_from x 1 (length y + start) else Ok x.
(** long_mul: 2652-2678 *)
Fixpoint long_mul_loop (x z y : list Z) (index : nat) : res (list Z) :=
  match y with
  | [] => Ok x
  | yi :: y =>
      do x <- (if yi =? 0 then Ok x else do zi <- small_mul z yi ;; large_add_from x zi index) ;;
      long_mul_loop x z y (S index)
  end.
Definition long_mul (x y : list Z) : res (list Z) :=
  match y with
  | [] => Ok (normalize x)
  | y0 :: ys => do x' <- small_mul x y0 ;; do x' <- long_mul_loop x' x ys 1 ;; Ok (normalize x')
  end.
(** large_mul: 2681-2690 *)
Definition large_mul (x y : list Z) : res (list Z) :=
  match y with [y0] => small_mul x y0 | _ => long_mul x y end.
(** the tables 2692-2712 *)
Definition large_power_of_5 : list Z :=
  [1414648277510068013; 9180637584431281687; 4539964771860779200; 10482974169319127550; 198276706040285095].
Definition small_power_of_5 : list Z :=
  [1; 5; 25; 125; 625; 3125; 15625; 78125; 390625; 1953125; 9765625; 48828125; 244140625; 1220703125;
   6103515625; 30517578125; 152587890625; 762939453125; 3814697265625; 19073486328125; 95367431640625;
   476837158203125; 2384185791015625; 11920928955078125; 59604644775390625; 298023223876953125;
   1490116119384765625; 7450580596923828125].
(** bigint(value): 2737-2745 *)
Definition big_of (value : Z) : list Z := normalize [value].
(** hi64: 2749-2773, with uint64_hi64: 2483-2501. Result (high bits, truncated). *)
Definition uint64_hi64 (r0 r1 : Z) : Z * bool :=
  let shl := leading_zeroes r0 in
  if shl =? 0 then (r0, negb (r1 =? 0))
  else (Z.lor (u64 (Z.shiftl r0 shl)) (Z.shiftr r1 (64 - shl)), negb (u64 (Z.shiftl r1 shl) =? 0)).
Definition hi64 (v : list Z) : Z * bool :=
  match rev v with
  | [] => (0, false)
  | [r0] => (u64 (Z.shiftl r0 (leading_zeroes r0)), false)
  | r0 :: r1 :: r => let '(h, t) := uint64_hi64 r0 r1 in (h, t || existsb (fun x => negb (x =? 0)) r)
  end.
(** compare: 2781-2798, from the most significant limb on *)
Fixpoint compare_rev (x y : list Z) : Z :=
  match x, y with
  | xi :: x, yi :: y => if yi <? xi then 1 else if xi <? yi then -1 else compare_rev x y
  | _, _ => 0
  end.
Definition compare_big (x y : list Z) : Z :=
  if len y <? len x then 1 else if len x <? len y then -1 else compare_rev (rev x) (rev y).
(** shl_bits: 2802-2825 *)
Fixpoint shl_carry (v : list Z) (n prev : Z) : list Z * Z :=
  match v with
  | [] => ([], prev)
  | x :: v => let '(r, p) := shl_carry v n x in (Z.lor (u64 (Z.shiftl x n)) (Z.shiftr prev (64 - n)) :: r, p)
  end.
Definition shl_bits (v : list Z) (n : Z) : res (list Z) :=
  let '(r, prev) := shl_carry v n 0 in
  let carry := Z.shiftr prev (64 - n) in
  if carry =? 0 then Ok r else try_push r carry.
(** shl_limbs: 2828-2846 *)
Definition shl_limbs (v : list Z) (n : Z) : res (list Z) :=
  if bigint_limbs <? n + len v then Err
  else match v with [] => Ok [] | _ => Ok (repeat 0 (Z.to_nat n) ++ v) end.
(** shl: 2849-2859, pow2: 2891-2893 *)
Definition big_pow2 (v : list Z) (n : Z) : res (list Z) :=
  let r := n mod 64 in let d := n / 64 in
  do v <- (if r =? 0 then Ok v else shl_bits v r) ;;
  if d =? 0 then Ok v else shl_limbs v d.
(** ctlz and bit_length: 2862-2880 *)
Definition bit_length (v : list Z) : Z :=
  64 * len v - match rev v with [] => 0 | r0 :: _ => leading_zeroes r0 end.
(** pow5: 2896-2925 *)
Fixpoint pow5_large (fuel : nat) (v : list Z) (e : Z) : res (list Z * Z) :=
  if e <? 135 then Ok (v, e) else
  match fuel with O => Err | S fuel => do v <- large_mul v large_power_of_5 ;; pow5_large fuel v (e - 135) end.
Fixpoint pow5_small (fuel : nat) (v : list Z) (e : Z) : res (list Z * Z) :=
  if e <? 27 then Ok (v, e) else
  match fuel with O => Err | S fuel => do v <- small_mul v 7450580596923828125 ;; pow5_small fuel v (e - 27) end.
Definition big_pow5 (v : list Z) (e : Z) : res (list Z) :=
  do '(v, e) <- pow5_large (Z.to_nat e) v e ;;
  do '(v, e) <- pow5_small 5 v e ;;
  if e =? 0 then Ok v else small_mul v (nth (Z.to_nat e) small_power_of_5 0).
(** pow10: 2928-2931 *)
Definition big_pow10 (v : list Z) (e : Z) : res (list Z) := do v <- big_pow5 v e ;; big_pow2 v e.

(** ** Reading the characters: 935-1136 *)
Definition is_integer (c : Z) : bool := negb ((ch "9" <? c) || (c <? ch "0")).
(** read8_to_u64: 952-970 *)
Definition read8 (c0 c1 c2 c3 c4 c5 c6 c7 : Z) : Z :=
  c0 + 2 ^ 8 * (c1 + 2 ^ 8 * (c2 + 2 ^ 8 * (c3 + 2 ^ 8 * (c4 + 2 ^ 8 * (c5 + 2 ^ 8 * (c6 + 2 ^ 8 * c7)))))).
(** parse_eight_digits_unrolled: 1028-1037 *)
Definition parse_eight_digits_unrolled (val : Z) : Z :=
  let mask := 0x000000FF000000FF in
  let mul1 := 0x000F424000000064 in
  let mul2 := 0x0000271000000001 in
  let val := u64 (val - 0x3030303030303030) in
  let val := u64 (val * 10 + Z.shiftr val 8) in
  let val := Z.shiftr (u64 (u64 (Z.land val mask * mul1) + u64 (Z.land (Z.shiftr val 16) mask * mul2))) 32 in
  u32 val.
(** is_made_of_eight_digits_fast: 1052-1055 *)
Definition is_made_of_eight_digits_fast (val : Z) : bool :=
  Z.land (Z.lor (u64 (val + 0x4646464646464646)) (u64 (val - 0x3030303030303030))) 0x8080808080808080 =? 0.
(** loop_parse_if_eight_digits: 1129-1136 *)
Fixpoint loop_parse_if_eight_digits (p : list Z) (i : Z) : list Z * Z :=
  match p with
  | c0 :: c1 :: c2 :: c3 :: c4 :: c5 :: c6 :: c7 :: r =>
      let val := read8 c0 c1 c2 c3 c4 c5 c6 c7 in
      if is_made_of_eight_digits_fast val
      then loop_parse_if_eight_digits r (u64 (i * 100000000 + parse_eight_digits_unrolled val))
      else (p, i)
  | _ => (p, i)
  end.
(** the loops 1189-1195 and 1215-1219 *)
Fixpoint digit_loop (p : list Z) (i : Z) : list Z * Z :=
  match p with
  | c :: r => if is_integer c then digit_loop r (u64 (10 * i + (c - ch "0"))) else (p, i)
  | [] => (p, i)
  end.
(** the loop 1260-1266 *)
Fixpoint exp_loop (p : list Z) (n : Z) : list Z * Z :=
  match p with
  | c :: r => if is_integer c then exp_loop r (if n <? 0x10000000 then 10 * n + (c - ch "0") else n) else (p, n)
  | [] => (p, n)
  end.
(** the loop 1288-1291 *)
Fixpoint leading_loop (p : list Z) (count : Z) : Z :=
  match p with
  | c :: r => if c =? ch "0" then leading_loop r (count - 1) else if c =? ch "." then leading_loop r count else count
  | [] => count
  end.
(** the loops 1302-1305 and 1312-1315 *)
Fixpoint nineteen_loop (p : list Z) (i : Z) : list Z * Z :=
  match p with
  | c :: r => if i <? 1000000000000000000 then nineteen_loop r (u64 (i * 10 + (c - ch "0"))) else (p, i)
  | [] => (p, i)
  end.
(** parsed_number_string_t: 1138-1149. The spans are the lists of their characters; the
    fraction is [None] if its pointer is null. *)
Record pns := Pns { p_exponent : Z; p_mantissa : Z; p_rest : list Z; p_negative : bool; p_many : bool;
  p_integer : list Z; p_fraction : option (list Z) }.
(** the characters from [a] up to [b] *)
Definition between (a b : list Z) : list Z := firstn (length a - length b) a.
(** the exponent part 1234-1273: the number and the position behind it *)
Definition parse_exponent (p : list Z) : list Z * Z :=
  match p with
  | c :: r =>
      if (ch "e" =? c) || (ch "E" =? c) then
        let '(r, neg) := match r with
          | c :: r' => if ch "-" =? c then (r', true) else if ch "+" =? c then (r', false) else (r, false)
          | [] => (r, false) end in
        match r with
        | c :: _ => if is_integer c then let '(r, n) := exp_loop r 0 in (r, if neg then - n else n) else (p, 0)
        | [] => (p, 0)
        end
      else (p, 0)
  | [] => (p, 0)
  end.
(** parse_number_string: 1156-1324; [None] if the result is not valid *)
Definition parse_number_string (s : list Z) : res (option pns) :=
  match s with
  | [] => Ub
  | c :: r =>
      let negative := c =? ch "-" in
      let p := if negative then r else s in
      if negative && match p with [] => true | c :: _ => negb (is_integer c) && negb (c =? ch ".") end then Ok None
      else
        let start_digits := p in
        let '(p, i) := digit_loop p 0 in
        let integer := between start_digits p in
        let digit_count := len integer in
        let '(p, i, fraction) :=
          match p with
          | c :: before =>
              if c =? ch "." then
                let '(p, i) := loop_parse_if_eight_digits before i in
                let '(p, i) := digit_loop p i in
                (p, i, Some (between before p))
              else (p, i, None)
          | [] => (p, i, None)
          end in
        let exponent := match fraction with Some x => - len x | None => 0 end in
        let digit_count := digit_count - exponent in
        if digit_count =? 0 then Ok None
        else
          let '(p, exp_number) := parse_exponent p in
          let exponent := exponent + exp_number in
          if 19 <? digit_count then
            if 19 <? leading_loop start_digits digit_count then
              let '(rest, i) := nineteen_loop integer 0 in
              if 1000000000000000000 <=? i then
                Ok (Some (Pns (len rest + exp_number) i p negative true integer fraction))
              else
                let frac := match fraction with Some x => x | None => [] end in
                let '(rest, i) := nineteen_loop frac i in
                Ok (Some (Pns (len rest - len frac + exp_number) i p negative true integer fraction))
            else Ok (Some (Pns exponent i p negative false integer fraction))
          else Ok (Some (Pns exponent i p negative false integer fraction))
  end.

(** ** The comparison of all digits: 2938-3360 *)
(** scientific_exponent: 2960-2978 *)
Fixpoint sci_loop (fuel : nat) (by_ step : Z) (m e : Z) : Z * Z :=
  match fuel with
  | O => (m, e)
  | S fuel => if by_ <=? m then sci_loop fuel by_ step (m / by_) (e + step) else (m, e)
  end.
Definition scientific_exponent (n : pns) : Z :=
  let '(m, e) := sci_loop 20 10000 4 (p_mantissa n) (wrap i32 (p_exponent n)) in
  let '(m, e) := sci_loop 20 100 2 m e in
  let '(m, e) := sci_loop 20 10 1 m e in e.
(** to_extended: 2981-3009; to_extended_halfway: 3014-3022. [w] is the representation. *)
Definition to_extended (f : fmt) (w : Z) : am :=
  let bias := f_mb f - f_minexp f in
  let mantissa_mask := 2 ^ f_mb f - 1 in
  let exponent_mask := f_inf f * 2 ^ f_mb f in
  if Z.land w exponent_mask =? 0 then AM (Z.land w mantissa_mask) (1 - bias)
  else AM (Z.lor (Z.land w mantissa_mask) (2 ^ f_mb f)) (Z.shiftr (Z.land w exponent_mask) (f_mb f) - bias).
Definition to_extended_halfway (f : fmt) (w : Z) : am :=
  let a := to_extended f w in AM (u64 (u64 (Z.shiftl (a_man a) 1) + 1)) (a_pow a - 1).
(** round: 3025-3053 *)
Definition round (f : fmt) (cb : am -> Z -> am) (a : am) : am :=
  let mantissa_shift := 64 - f_mb f - 1 in
  if mantissa_shift <=? - a_pow a then
    let a := cb a (Z.min (- a_pow a + 1) 64) in
    AM (a_man a) (if a_man a <? 2 ^ f_mb f then 0 else 1)
  else
    let a := cb a mantissa_shift in
    let a := if 2 * 2 ^ f_mb f <=? a_man a then AM (2 ^ f_mb f) (a_pow a + 1) else a in
    let a := AM (Z.ldiff (a_man a) (2 ^ f_mb f)) (a_pow a) in
    if f_inf f <=? a_pow a then AM 0 (f_inf f) else a.
(** round_nearest_tie_even: 3055-3080; round_down: 3082-3090 *)
Definition round_down (a : am) (shift : Z) : am :=
  AM (if shift =? 64 then 0 else Z.shiftr (a_man a) shift) (a_pow a + shift).
Definition round_nearest_tie_even (cb : bool -> bool -> bool -> bool) (a : am) (shift : Z) : am :=
  let mask := if shift =? 64 then 2 ^ 64 - 1 else 2 ^ shift - 1 in
  let halfway := if shift =? 0 then 0 else 2 ^ (shift - 1) in
  let truncated_bits := Z.land (a_man a) mask in
  let is_above := halfway <? truncated_bits in
  let is_halfway := truncated_bits =? halfway in
  let a := round_down a shift in
  let is_odd := Z.land (a_man a) 1 =? 1 in
  AM (u64 (a_man a + if cb is_odd is_halfway is_above then 1 else 0)) (a_pow a).
(** skip_zeros: 3091-3108. Eight characters are compared at once. *)
Definition zeros8 (c0 c1 c2 c3 c4 c5 c6 c7 : Z) : bool := read8 c0 c1 c2 c3 c4 c5 c6 c7 =? 0x3030303030303030.
Fixpoint skip_zeros1 (p : list Z) : list Z :=
  match p with c :: r => if negb (c =? ch "0") then p else skip_zeros1 r | [] => [] end.
Fixpoint skip_zeros (p : list Z) : list Z :=
  match p with
  | c0 :: c1 :: c2 :: c3 :: c4 :: c5 :: c6 :: c7 :: r =>
      if negb (zeros8 c0 c1 c2 c3 c4 c5 c6 c7) then skip_zeros1 p else skip_zeros r
  | _ => skip_zeros1 p
  end.
(** is_truncated: 3112-3131 *)
Fixpoint is_truncated (p : list Z) : bool :=
  match p with
  | c0 :: c1 :: c2 :: c3 :: c4 :: c5 :: c6 :: c7 :: r =>
      if negb (zeros8 c0 c1 c2 c3 c4 c5 c6 c7) then true else is_truncated r
  | _ => existsb (fun c => negb (c =? ch "0")) p
  end.
(** add_native: 3157-3161; round_up_bigint: 3163-3169 *)
Definition add_native (big : list Z) (power value : Z) : res (list Z) :=
  do big <- small_mul big power ;; small_add big value.
(** the loops 3193-3198 of parse_mantissa: digits into the native [value] *)
Record acc := Acc { c_p : list Z; c_value : Z; c_counter : Z; c_digits : Z }.
Fixpoint eight_loop (maxd : Z) (p : list Z) (value counter digits : Z) : acc :=
  match p with
  | c0 :: c1 :: c2 :: c3 :: c4 :: c5 :: c6 :: c7 :: r =>
      if (8 <=? 19 - counter) && (8 <=? maxd - digits) then
        eight_loop maxd r (u64 (value * 100000000 + parse_eight_digits_unrolled (read8 c0 c1 c2 c3 c4 c5 c6 c7))) (counter + 8) (digits + 8)
      else Acc p value counter digits
  | _ => Acc p value counter digits
  end.
Fixpoint one_loop (maxd : Z) (p : list Z) (value counter digits : Z) : acc :=
  match p with
  | c :: r =>
      if (counter <? 19) && (digits <? maxd) then
        one_loop maxd r (u64 (value * 10 + (c - ch "0"))) (counter + 1) (digits + 1)
      else Acc p value counter digits
  | [] => Acc p value counter digits
  end.
(** the loop 3192-3215, and 3225-3245 for the fraction. [after] are the digits that follow.
    Result: the number, the digits, and whether the function returns. *)
Fixpoint mantissa_loop (fuel : nat) (maxd : Z) (p after big : list Z) (digits : Z) : res (list Z * Z * bool) :=
  match p, fuel with
  | [], _ => Ok (big, digits, false)
  | _, O => Err
  | _, S fuel =>
      let a := eight_loop maxd p 0 0 digits in
      let a := one_loop maxd (c_p a) (c_value a) (c_counter a) (c_digits a) in
      do big <- add_native big (u64 (10 ^ c_counter a)) (c_value a) ;;
      if c_digits a =? maxd then
        if is_truncated (c_p a) || is_truncated after
        then do big <- add_native big 10 1 ;; Ok (big, c_digits a + 1, true)
        else Ok (big, c_digits a, true)
      else mantissa_loop fuel maxd (c_p a) after big (c_digits a)
  end.
(** parse_mantissa: 3172-3251. When the loops end, the counter is 0. *)
Definition parse_mantissa (f : fmt) (n : pns) : res (list Z * Z) :=
  let p := skip_zeros (p_integer n) in
  let frac := match p_fraction n with Some x => x | None => [] end in
  do '(big, digits, done) <- mantissa_loop (length p) (f_maxdig f) p frac [] 0 ;;
  if done then Ok (big, digits) else
  match p_fraction n with
  | None => Ok (big, digits)
  | Some frac =>
      let p := if digits =? 0 then skip_zeros frac else frac in
      do '(big, digits, _) <- mantissa_loop (length p) (f_maxdig f) p [] big digits ;; Ok (big, digits)
  end.
(** positive_digit_comp: 3253-3270 *)
Definition positive_digit_comp (f : fmt) (big : list Z) (exponent : Z) : res am :=
  do big <- big_pow10 big exponent ;;
  let '(h, truncated) := hi64 big in
  let bias := f_mb f - f_minexp f in
  Ok (round f (round_nearest_tie_even (fun odd halfway above => above || (halfway && truncated) || (odd && halfway)))
    (AM h (bit_length big - 64 + bias))).
(** negative_digit_comp: 3277-3323 *)
Definition negative_digit_comp (f : fmt) (big : list Z) (a : am) (exponent : Z) : res am :=
  let b := to_float f false (round f round_down a) in
  let theor := to_extended_halfway f b in
  let pow2_exp := a_pow theor - exponent in
  do theor_digits <- (if negb (- exponent =? 0) then big_pow5 (big_of (a_man theor)) (- exponent) else Ok (big_of (a_man theor))) ;;
  do theor_digits <- (if 0 <? pow2_exp then big_pow2 theor_digits pow2_exp else Ok theor_digits) ;;
  do real_digits <- (if pow2_exp <? 0 then big_pow2 big (- pow2_exp) else Ok big) ;;
  let ord := compare_big real_digits theor_digits in
  Ok (round f (round_nearest_tie_even (fun odd _ _ => if 0 <? ord then true else if ord <? 0 then false else odd)) a).
(** digit_comp: 3338-3356 *)
Definition digit_comp (f : fmt) (n : pns) (a : am) : res am :=
  let a := AM (a_man a) (a_pow a - invalid_am_bias) in
  do '(big, digits) <- parse_mantissa f n ;;
  let exponent := scientific_exponent n + 1 - digits in
  if 0 <=? exponent then positive_digit_comp f big exponent else negative_digit_comp f big a exponent.

(** ** from_chars: 3370-3653 *)
Inductive errc := EOk | EInvalid | ERange.
(** the position behind what was read, the error, the value if it was assigned *)
Record ffres := FFRes { r_rest : list Z; r_ec : errc; r_value : option Z }.
(** fastfloat_strncasecmp: 302-310 *)
Fixpoint running_diff (a b : list Z) : Z :=
  match a, b with x :: a, y :: b => Z.lor (Z.lxor x y) (running_diff a b) | _, _ => 0 end.
Definition strncasecmp (a b : list Z) : bool := let d := running_diff a b in (d =? 0) || (d =? 32).
(** the loop 3401-3408: behind the closing parenthesis, if there is one *)
Fixpoint nan_loop (p : list Z) : option (list Z) :=
  match p with
  | [] => None
  | c :: r =>
      if c =? ch ")" then Some r
      else if ((ch "a" <=? c) && (c <=? ch "z")) || ((ch "A" <=? c) && (c <=? ch "Z")) || ((ch "0" <=? c) && (c <=? ch "9")) || (c =? ch "_")
      then nan_loop r else None
  end.
(** parse_infnan: 3379-3424 *)
Definition parse_infnan (f : fmt) (s : list Z) : res ffres :=
  match s with
  | [] => Ub
  | c :: r =>
      let minus := c =? ch "-" in
      let p := if minus then r else s in
      if 3 <=? len p then
        if strncasecmp (firstn 3 p) (s2z "nan") then
          let r := skipn 3 p in
          let rest := match r with c :: q => if c =? ch "(" then match nan_loop q with Some x => x | None => r end else r | [] => r end in
          Ok (FFRes rest EOk (Some (word f minus (2 ^ (f_mb f - 1)) (f_inf f))))
        else if strncasecmp (firstn 3 p) (s2z "inf") then
          let rest := if (8 <=? len p) && strncasecmp (firstn 5 (skipn 3 p)) (s2z "inity") then skipn 8 p else skipn 3 p in
          Ok (FFRes rest EOk (Some (word f minus 0 (f_inf f))))
        else Ok (FFRes s EInvalid None)
      else Ok (FFRes s EInvalid None)
  end.
(** Clinger's fast path in from_chars_advanced(pns, value): 3569-3603. [rn]: the rounding
    mode is to nearest. In another mode the product is exact, or [None] stands for the
    result in that mode. *)
Definition exact_product (f : fmt) (i p : Z) : option fval :=
  match of_int f i, of_int f p, of_int f (i * p) with
  | Fin _ m1 e1, Fin _ m2 e2, Fin s m e =>
      let k := Z.min 0 (Z.min e1 (Z.min e2 e)) in
      if (m1 * 2 ^ (e1 - k) =? i * 2 ^ (- k)) && (m2 * 2 ^ (e2 - k) =? p * 2 ^ (- k)) && (m * 2 ^ (e - k) =? i * p * 2 ^ (- k))
      then Some (Fin s m e) else None
  | _, _, _ => None
  end.
Definition fast_path (rn : bool) (f : fmt) (n : pns) : res (option fval) :=
  let i := p_mantissa n in let q := p_exponent n in
  if (f_fpmin f <=? q) && (q <=? f_fpmax f) && negb (p_many n) then
    if rn then
      if i <=? 2 * 2 ^ f_mb f then
        Ok (Some (if q <? 0 then fdiv f (of_int f i) (of_int f (10 ^ (- q))) else fmul f (of_int f i) (of_int f (10 ^ q))))
      else Ok None
    else if (0 <=? q) && (i <=? max_mantissa f q) then
      match exact_product f i (10 ^ q) with Some x => Ok (Some x) | None => Err end
    else Ok None
  else Ok None.
(** from_chars_advanced(pns, value): 3552-3619 *)
Definition from_pns (rn : bool) (f : fmt) (n : pns) : res ffres :=
  do x <- fast_path rn f n ;;
  match x with
  | Some x => Ok (FFRes (p_rest n) EOk (Some (encode f (if p_negative n then fneg x else x))))
  | None =>
      let a := compute_float f (p_exponent n) (p_mantissa n) in
      let a :=
        if p_many n && (0 <=? a_pow a) then
          let b := compute_float f (p_exponent n) (u64 (p_mantissa n + 1)) in
          if negb ((a_man a =? a_man b) && (a_pow a =? a_pow b)) then compute_error f (p_exponent n) (p_mantissa n) else a
        else a in
      do a <- (if a_pow a <? 0 then digit_comp f n a else Ok a) ;;
      let ec := if (negb (p_mantissa n =? 0) && (a_man a =? 0) && (a_pow a =? 0)) || (a_pow a =? f_inf f) then ERange else EOk in
      Ok (FFRes (p_rest n) ec (Some (to_float f (p_negative n) a)))
  end.
(** from_chars_advanced(first, last, value, options): 3621-3653 *)
Definition from_chars_float (rn : bool) (f : fmt) (s : list Z) : res ffres :=
  match s with
  | [] => Ok (FFRes [] EInvalid None)
  | _ =>
      do n <- parse_number_string s ;;
      match n with
      | None => parse_infnan f s
      | Some n => from_pns rn f n
      end
  end.
