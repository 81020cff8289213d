(** Model of the conversions between real numbers and text in src/c4/charconv.hpp, in the
    builds with fast_float (the default): atof, atod, scan_rhex, atof_first, atod_first, and
    ftoa, dtoa with std::to_chars or with snprintf. The variable [*v] is the word of the
    number. [dbg]: assertions are enabled. What std::to_chars and snprintf write is a
    parameter; the arithmetic is IEEE 754, to nearest, without contraction. *)
From Verif Require Import Base ScanModel SubstrModel CharconvModel SpanNumModel Base64Model FormatModel FloatTable FloatModel.

(** the sum, to nearest *)
Definition fadd (f : fmt) (x y : fval) : fval :=
  match x, y with
  | Fin s1 m1 e1, Fin s2 m2 e2 =>
      let '(n1, d1) := frac m1 e1 in let '(n2, d2) := frac m2 e2 in
      let n := (if s1 then - n1 else n1) * d2 + (if s2 then - n2 else n2) * d1 in
      if n =? 0 then Fin (s1 && s2) 0 (emin f) else fround f (n <? 0) (Z.abs n) (d1 * d2)
  | Inf s1, Inf s2 => if Bool.eqb s1 s2 then Inf s1 else NaN
  | Inf s, Fin _ _ _ | Fin _ _ _, Inf s => Inf s
  | _, _ => NaN
  end.
(** the value of a word *)
Definition decode (f : fmt) (w : Z) : fval :=
  let man := w mod 2 ^ f_mb f in
  let e := Z.shiftr w (f_mb f) mod 2 ^ (f_sidx f - f_mb f) in
  let neg := Z.testbit w (f_sidx f) in
  if e =? f_inf f then (if man =? 0 then Inf neg else NaN)
  else if e =? 0 then Fin neg man (emin f) else Fin neg (2 ^ f_mb f + man) (e - 1 + emin f).

(** ipow with a real result and the base 16 of another type: memory_util.hpp 519-538 *)
Fixpoint ipow_mul (f : fmt) (n : nat) (r : fval) : fval :=
  match n with O => r | S n => ipow_mul f n (fmul f r (of_int f 16)) end.
Fixpoint ipow_div (f : fmt) (n : nat) (r : fval) : fval :=
  match n with O => r | S n => ipow_div f n (fdiv f r (of_int f 16)) end.
Definition ipow16 (f : fmt) (exponent : Z) : fval :=
  if 0 <=? exponent then ipow_mul f (Z.to_nat exponent) (of_int f 1)
  else ipow_div f (Z.to_nat (wrap i16 (exponent * -1))) (of_int f 1).

(** ** scan_rhex: 1965-2038. Result: the returned bool and the final [*val] *)
Definition rhex_digit (c : Z) : option Z :=
  if (ch "0" <=? schar c) && (schar c <=? ch "9") then Some (schar c - ch "0")
  else if (ch "a" <=? schar c) && (schar c <=? ch "f") then Some (schar c - ch "a")
  else if (ch "A" <=? schar c) && (schar c <=? ch "F") then Some (schar c - ch "A")
  else None.
Definition is_pow (c : Z) : bool := (c =? ch "p") || (c =? ch "P").
(** the label power: 2021-2037. [s] is the text from [pos] on *)
Definition rhex_power (f : fmt) (s : list Z) (val : fval) : res (bool * fval) :=
  match s with
  | [] => Ok (false, val)
  | c :: r =>
      let s := if c =? ch "+" then r else s in
      match s with
      | [] => Ok (false, val)
      | _ =>
          do '(ok, powval) <- atoi W16 s 0 ;;
          if ok then Ok (true, fmul f val (ipow16 f powval)) else Ok (false, val)
      end
  end.
(** the mantissa: 1998-2019 *)
Fixpoint rhex_frac (f : fmt) (s : list Z) (digit val : fval) : res (bool * fval) :=
  match s with
  | [] => Ok (true, val)
  | c :: r =>
      match rhex_digit c with
      | Some d => rhex_frac f r (fdiv f digit (of_int f 16)) (fadd f val (fmul f digit (of_int f d)))
      | None => if is_pow c then rhex_power f r val else Ok (false, val)
      end
  end.
(** the integer part: 1972-1997 *)
Fixpoint rhex_int (f : fmt) (s : list Z) (val : fval) : res (bool * fval) :=
  match s with
  | [] => rhex_frac f [] (fround f false 1 16) val
  | c :: r =>
      match rhex_digit c with
      | Some d => rhex_int f r (fadd f (fmul f val (of_int f 16)) (of_int f d))
      | None =>
          if c =? ch "." then rhex_frac f r (fround f false 1 16) val
          else if is_pow c then rhex_power f r val
          else Ok (false, val)
      end
  end.
Definition begins_0x (s : list Z) : bool :=
  match s with c :: d :: _ => (c =? ch "0") && ((d =? ch "x") || (d =? ch "X")) | _ => false end.
Definition scan_rhex (dbg : bool) (f : fmt) (s : list Z) (val : fval) : res (bool * fval) :=
  dassert dbg (0 <? len s)
    (dassert dbg (match s with c :: _ => negb (c =? ch "-") && negb (c =? ch "+") | [] => true end)
      (dassert dbg (negb (begins_0x s)) (rhex_int f s val))).

(** ** atof: 2111-2142; atod: 2172-2203 *)
Definition atod (dbg rn : bool) (f : fmt) (s : list Z) (w0 : Z) : res (bool * Z) :=
  dassert dbg (0 <? len s)
    (do t <- triml s (s2z " " ++ [13; 9; 10]) ;;
     dassert dbg (vl t =? len s)
       (do c <- rd s 0 ;;
        let isneg := c =? ch "-" in
        do rem <- csub s (if isneg || (c =? ch "+") then 1 else 0) ;;
        if negb (begins_0x rem) then
          do r <- from_chars_float rn f s ;;
          Ok (match r_ec r with EOk => true | _ => false end, match r_value r with Some w => w | None => w0 end)
        else
          do x <- csub rem 2 ;;
          do '(ok, v) <- scan_rhex dbg f x (decode f w0) ;;
          Ok (ok, encode f (if ok then fmul f v (if isneg then fneg (of_int f 1) else of_int f 1) else v)))).
(** atof_first: 2149-2157; atod_first: 2210-2218; from_chars_first: 2399-2400. The returned
    size ([None] is npos) and the final [*v] *)
Definition atod_first (dbg rn : bool) (f : fmt) (s : list Z) (w0 : Z) : res (option Z * Z) :=
  do trimmed <- first_real_span s ;;
  if vl trimmed =? 0 then Ok (None, w0) else
  do '(ok, w) <- atod dbg rn f (contents s trimmed) w0 ;;
  Ok (if ok then Some (vo trimmed + vl trimmed) else None, w).

(** ** ftoa, dtoa *)
(** the functions that write: std::to_chars; and snprintf on a platform other than Windows *)
Inductive printer := StdToChars | Snprintf.
(** rtoa: 1922-1959. [hexa]: the format FTOA_HEXA; [text] is the text std::to_chars writes if
    the range is long enough; else it leaves [junk] there and fails. [digits] is max_digits10. *)
Definition rtoa (hexa : bool) (digits : Z) (text junk : list Z) (m : list Z) (b : view) : res (list Z * Z) :=
  do m <- (if hexa && (2 <? vl b) then do m <- wr m (vo b) (ch "0") ;; wr m (vo b + 1) (ch "x") else Ok m) ;;
  let pos := if hexa then 2 else 0 in
  if vl b <? pos then Ub                  (* the end of the range is before its begin *)
  else if len text <=? vl b - pos then
    do m <- wrs m (vo b + pos) text ;; Ok (m, pos + len text)
  else
    do m <- wrs m (vo b + pos) (firstn (Z.to_nat (vl b - pos)) junk) ;;
    Ok (m, if vl b <? digits then digits else vl b + 1).
(** print_one: 1851-1876. [text] is the complete output of snprintf *)
Definition print_one (text : list Z) (m : list Z) (b : view) : res (list Z * Z) :=
  do m <- (if vl b =? 0 then Ok m else wrs m (vo b) (firstn (Z.to_nat (vl b - 1)) text ++ [0])) ;;
  Ok (m, if vl b <=? len text then len text + 1 else len text).
(** ftoa 2061-2070, dtoa 2087-2096 *)
Definition max_digits10 (f : fmt) : Z := if f_mb f =? 52 then 17 else 9.
Definition dtoa (p : printer) (f : fmt) (hexa : bool) (text junk : list Z) (m : list Z) (b : view) : res (list Z * Z) :=
  match p with
  | StdToChars => rtoa hexa (max_digits10 f) text junk m b
  | Snprintf => print_one text m b
  end.
(** get_real_format_str: 1824-1835, the characters snprintf writes to fmt[16]; [prec] is the
    text of the precision; [lm] the length modifier *)
Definition get_real_format_str (precision : Z) (prec : list Z) (formatting : Z) (lm : list Z) : res (list Z) :=
  let s := if precision =? -1 then s2z "%" ++ lm ++ [formatting]
           else if precision =? 0 then s2z "%." ++ lm ++ [formatting]
           else s2z "%." ++ prec ++ lm ++ [formatting] in
  if (2 <=? len s) && (len s <? 16) then Ok s else Err.

(** cat (format.hpp 578-599), catsep (660-678, 709-732) and format (792-829) of arguments of
    any kinds: each is the conversion its to_chars overload does, a function of the memory and
    the buffer. For the arguments of FormatModel these are [cat], [catsep] and [format]. *)
Definition conv := list Z -> view -> res (list Z * Z).
Fixpoint catw (ws : list conv) (m : list Z) (b : view) : res (list Z * Z) :=
  match ws with
  | [] => Ok (m, 0)
  | w :: more =>
      do '(m, num) <- w m b ;;
      do '(m, n2) <- catw more m (advance m b num) ;;
      Ok (m, u64 (num + n2))
  end.
Fixpoint catsepw_more (sep : conv) (ws : list conv) (m : list Z) (b : view) : res (list Z * Z) :=
  match ws with
  | [] => Ok (m, 0)
  | w :: more =>
      do '(m, r1) <- sep m b ;;
      let b := advance m b r1 in
      do '(m, r2) <- w m b ;;
      let b := advance m b r2 in
      do '(m, r3) <- catsepw_more sep more m b ;;
      Ok (m, u64 (u64 (r1 + r2) + r3))
  end.
Definition catsepw (sep : conv) (ws : list conv) (m : list Z) (b : view) : res (list Z * Z) :=
  match ws with
  | [] => Ok (m, 0)
  | w :: more =>
      do '(m, num) <- w m b ;;
      do '(m, n2) <- catsepw_more sep more m (advance m b num) ;;
      Ok (m, u64 (num + n2))
  end.
Fixpoint formatw (fmt : list Z) (ws : list conv) (m : list Z) (b : view) : res (list Z * Z) :=
  match ws with
  | [] => to_chars_str m b fmt
  | w :: more =>
      do pos <- find fmt (s2z "{}") (Some 0) ;;
      match pos with
      | None => to_chars_str m b fmt
      | Some pos =>
          do head <- sub2 (len fmt) 0 pos ;;
          do '(m, n1) <- to_chars_str m b (contents fmt head) ;;
          let b := advance m b n1 in
          do '(m, n2) <- w m b ;;
          let b := advance m b n2 in
          do rest <- sub1 (len fmt) (pos + 2) ;;
          do '(m, n3) <- formatw (contents fmt rest) more m b ;;
          Ok (m, u64 (u64 (n1 + n2) + n3))
      end
  end.
