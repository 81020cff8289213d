(** fast_float, src/c4/ext/fast_float_all.h, with the macros that are off by default:
    FASTFLOAT_ALLOWS_LEADING_PLUS ([plus]) and FASTFLOAT_SKIP_WHITE_SPACE ([ws]); and its way of
    reading eight characters on machines of either byte order. *)
From Verif Require Import Base FloatTable FloatModel FfOptModel FfIntModel.
Open Scope Z_scope.

(** space_lut: 705-722 *)
Definition space_lut : list Z := [
  0; 0; 0; 0; 0; 0; 0; 0; 0; 1; 1; 1; 1; 1; 0; 0; 0; 0; 0; 0; 0; 0; 0; 0;
  0; 0; 0; 0; 0; 0; 0; 0; 1] ++ repeat 0 223.
Definition is_space (c : Z) : bool := nth (Z.to_nat c) space_lut 0 =? 1.
(** 3630-3634, 3662-3666. A character wider than a byte is cut to its lowest one *)
Fixpoint skip_space (s : list Z) : list Z :=
  match s with c :: r => if is_space (c mod 2 ^ 8) then skip_space r else s | [] => [] end.

(** parse_number_string behind the sign: 1186-1324 *)
Definition number_body (o : popts) (negative : bool) (p : list Z) : res (option pns) :=
  let start_digits := p in
  let '(p, i) := digit_loop p 0 in
  let integer := between start_digits p in
  let digit_count := len integer in
  if o_json o && ((digit_count =? 0) || (match start_digits with c :: _ => c =? ch "0" | [] => false end && (1 <? digit_count)))
  then Ok None else
  let '(p, i, fraction) :=
    match p with
    | c :: before =>
        if c =? o_dot o then
          let '(p, i) := loop_parse_if_eight_digits before i in
          let '(p, i) := digit_loop p i in
          (p, i, Some (between before p))
        else (p, i, None)
    | [] => (p, i, None)
    end in
  let exponent := match fraction with Some x => - len x | None => 0 end in
  let digit_count := digit_count - exponent in
  if (if o_json o then match fraction with Some _ => exponent =? 0 | None => false end else digit_count =? 0) then Ok None
  else
    match parse_exponent_o o p with
    | None => Ok None
    | Some (p, exp_number) =>
      let exponent := exponent + exp_number in
      if 19 <? digit_count then
        if 19 <? leading_loop_o (o_dot o) start_digits digit_count then
          let '(rest, i) := nineteen_loop integer 0 in
          if 1000000000000000000 <=? i then
            Ok (Some (Pns (len rest + exp_number) i p negative true integer fraction))
          else
            let frac := match fraction with Some x => x | None => [] end in
            let '(rest, i) := nineteen_loop frac i in
            Ok (Some (Pns (len rest - len frac + exp_number) i p negative true integer fraction))
        else Ok (Some (Pns exponent i p negative false integer fraction))
      else Ok (Some (Pns exponent i p negative false integer fraction))
    end.
(** parse_number_string: 1156-1324 *)
Definition parse_number_string_c (plus : bool) (o : popts) (s : list Z) : res (option pns) :=
  match s with
  | [] => Ub
  | c :: r =>
      let negative := c =? ch "-" in
      let signed := (c =? ch "-") || plus && (negb (o_json o) && (c =? ch "+")) in
      let p := if signed then r else s in
      if signed && match p with
                   | [] => true
                   | c :: _ => if o_json o then negb (is_integer c) else negb (is_integer c) && negb (c =? o_dot o)
                   end then Ok None
      else number_body o negative p
  end.
(** parse_infnan behind the sign: 3395-3424; [s] is the whole text *)
Definition infnan_body (f : fmt) (minus : bool) (s p : list Z) : res ffres :=
  if 3 <=? len p then
    if strncasecmp (firstn 3 p) (s2z "nan") then
      let r := skipn 3 p in
      let rest := match r with c :: q => if c =? ch "(" then match nan_loop q with Some x => x | None => r end else r | [] => r end in
      Ok (FFRes rest EOk (Some (word f minus (2 ^ (f_mb f - 1)) (f_inf f))))
    else if strncasecmp (firstn 3 p) (s2z "inf") then
      let rest := if (8 <=? len p) && strncasecmp (firstn 5 (skipn 3 p)) (s2z "inity") then skipn 8 p else skipn 3 p in
      Ok (FFRes rest EOk (Some (word f minus 0 (f_inf f))))
    else Ok (FFRes s EInvalid None)
  else Ok (FFRes s EInvalid None).
(** parse_infnan: 3379-3424. The test for '+' reads a character without looking whether there is
    one *)
Definition parse_infnan_c (plus : bool) (f : fmt) (s : list Z) : res ffres :=
  match s with
  | [] => Ub
  | c :: r =>
      let minus := c =? ch "-" in
      let p := if minus then r else s in
      do p <- (if plus then match p with [] => Ub | c :: q => Ok (if c =? ch "+" then q else p) end else Ok p) ;;
      infnan_body f minus s p
  end.
(** from_chars_advanced: 3621-3653 *)
Definition from_chars_cfg (plus ws rn : bool) (f : fmt) (o : popts) (s : list Z) : res ffres :=
  let s := if ws then skip_space s else s in
  match s with
  | [] => Ok (FFRes [] EInvalid None)
  | _ =>
      do n <- parse_number_string_c plus o s ;;
      match n with
      | None => if o_noinf o then Ok (FFRes s EInvalid None) else parse_infnan_c plus f s
      | Some n => from_pns rn f n
      end
  end.

(** parse_int_string behind the sign: 1346-1423; [s] is the whole text *)
Definition int_body (t : ity) (base : Z) (negative : bool) (s start_num : list Z) : res ffres :=
  let start_digits := skip_char0 start_num in
  let has_leading_zeros := len start_digits <? len start_num in
  let '(p, i) := if base =? 10 then loop_parse_if_eight_digits start_digits 0 else (start_digits, 0) in
  let '(p, i) := int_loop base p i in
  let digit_count := len start_digits - len p in
  if digit_count =? 0 then
    if has_leading_zeros then Ok (FFRes p EOk (Some 0)) else Ok (FFRes s EInvalid None)
  else
  let max_digits := max_digits_u64 base in
  if max_digits <? digit_count then Ok (FFRes p ERange None)
  else if (digit_count =? max_digits) && (i <? min_safe_u64 base) then Ok (FFRes p ERange None)
  else if u64 (imax t + if negative then 1 else 0) <? i then Ok (FFRes p ERange None)
  else do v <- (if negative then negate t i else Ok (wrap t i)) ;; Ok (FFRes p EOk (Some v)).
(** parse_int_string: 1326-1423 *)
Definition parse_int_string_c (plus : bool) (t : ity) (s : list Z) (base : Z) : res ffres :=
  match s with
  | [] => Ub
  | c :: r =>
      let negative := c =? ch "-" in
      if negb (isgn t) && negative then Ok (FFRes s EInvalid None) else
      int_body t base negative s (if (c =? ch "-") || plus && (c =? ch "+") then r else s)
  end.
(** from_chars(first, last, value, base): 3656-3673 *)
Definition from_chars_int_cfg (plus ws : bool) (t : ity) (s : list Z) (base : Z) : res ffres :=
  let s := if ws then skip_space s else s in
  match s with
  | [] => Ok (FFRes s EInvalid None)
  | _ => if (base <? 2) || (36 <? base) then Ok (FFRes s EInvalid None) else parse_int_string_c plus t s base
  end.

(** ** Reading eight characters *)
(** byteswap: 940-949 *)
Definition byteswap (val : Z) : Z :=
  Z.lor (Z.shiftr (Z.land val 0xFF00000000000000) 56)
  (Z.lor (Z.shiftr (Z.land val 0x00FF000000000000) 40)
  (Z.lor (Z.shiftr (Z.land val 0x0000FF0000000000) 24)
  (Z.lor (Z.shiftr (Z.land val 0x000000FF00000000) 8)
  (Z.lor (u64 (Z.shiftl (Z.land val 0x00000000FF000000) 8))
  (Z.lor (u64 (Z.shiftl (Z.land val 0x0000000000FF0000) 24))
  (Z.lor (u64 (Z.shiftl (Z.land val 0x000000000000FF00) 40))
         (u64 (Z.shiftl (Z.land val 0x00000000000000FF) 56)))))))).
(** the memcpy of eight bytes to a uint64_t *)
Definition load64 (big : bool) (l : list Z) : Z :=
  fold_left (fun v c => v * 256 + c) (if big then l else rev l) 0.
(** read8_to_u64: 952-970. [loop]: in a constant expression (and for wide characters) *)
Fixpoint read_loop (l : list Z) (i val : Z) : Z :=
  match l with c :: r => read_loop r (i + 1) (Z.lor val (u64 (Z.shiftl (c mod 2 ^ 8) (i * 8)))) | [] => val end.
Definition read8_to_u64 (loop big : bool) (l : list Z) : Z :=
  if loop then read_loop l 0 0 else let val := load64 big l in if big then byteswap val else val.
