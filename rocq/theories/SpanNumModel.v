(** Model of the number-matching methods of c4/substr.hpp (1066-1648), of the
    prefix parsers of c4/charconv.hpp, and of its bool, char and string
    conversions. Views are relative to the string searched; the conventions are
    those of SubstrModel. *)
From Verif Require Import Base ScanModel CharconvModel SubstrModel.

(** the whitespace of first_non_empty_span: substr.hpp 1119 *)
Definition ws_chars : list Z := [32; 10; 13; 9].
(** _is_delim_char: 1271-1276 *)
Definition is_delim_char (c : Z) : bool :=
  (c =? 32) || (c =? 10) || (c =? ch "]") || (c =? ch ")") || (c =? ch "}")
  || (c =? ch ",") || (c =? ch ";") || (c =? 13) || (c =? 9) || (c =? 0).
(** the tests [c < '0' || c > '9'] etc. on (signed) char *)
Definition is_dec_char (c : Z) : bool := (ch "0" <=? schar c) && (schar c <=? ch "9").
Definition is_oct_char (c : Z) : bool := (ch "0" <=? schar c) && (schar c <=? ch "7").
Definition is_bin_char (c : Z) : bool := (c =? ch "0") || (c =? ch "1").
(** _is_hex_char: 1279-1282 *)
Definition is_hex_char (c : Z) : bool :=
  ((ch "0" <=? schar c) && (schar c <=? ch "9")) || ((ch "a" <=? schar c) && (schar c <=? ch "f"))
  || ((ch "A" <=? schar c) && (schar c <=? ch "F")).

(** first_non_empty_span: 1117-1126 *)
Definition first_non_empty_span (s : list Z) : res view :=
  do pos <- first_not_of s ws_chars 0 ;;
  match pos with
  | None => vfirst (len s) 0
  | Some pos =>
      do ret <- sub1 (len s) pos ;;
      on_sub s ret (fun x =>
        do q <- first_of x ws_chars (Some 0) ;;
        vfirst (len x) (match q with Some q => q | None => npos end))
  end.

(** the loops [for(i = skip; i < len; ++i) if(!digit(str[i])) return i > skip &&
    _is_delim_char(c) ? first(i) : first(0);] of _first_integral_span *)
Definition integral_loop (s : list Z) (dig : Z -> bool) (skip : Z) : res (option view) :=
  for_up (Z.to_nat (len s - skip)) skip (fun i =>
    do c <- rd s i ;;
    if negb (dig c)
    then do v <- vfirst (len s) (if (skip <? i) && is_delim_char c then i else 0) ;; Ok (Some v)
    else Ok None).
(** ... followed by [return *this;] *)
Definition integral_or_all (s : list Z) (dig : Z -> bool) (skip : Z) : res view :=
  do r <- integral_loop s dig skip ;;
  match r with Some v => Ok v | None => Ok (full s) end.

(** _first_integral_span(skip_start): 1150-1213 *)
Definition first_integral_span (s : list Z) (skip : Z) : res view :=
  assert (0 <? len s)
  (if skip =? len s then vfirst (len s) 0 else
   assert (skip <? len s)
   (if skip + 3 <=? len s then
      do c0 <- rd s skip ;;
      if negb (c0 =? ch "0") then
        do r <- integral_loop s is_dec_char skip ;;
        match r with Some v => Ok v | None => integral_or_all s is_dec_char skip end
      else
        do next <- rd s (skip + 1) ;;
        if (next =? ch "x") || (next =? ch "X") then integral_or_all s is_hex_char (skip + 2)
        else if (next =? ch "b") || (next =? ch "B") then integral_or_all s is_bin_char (skip + 2)
        else if (next =? ch "o") || (next =? ch "O") then integral_or_all s is_oct_char (skip + 2)
        else integral_or_all s is_dec_char skip
    else integral_or_all s is_dec_char skip)).

(** first_uint_span: 1129-1138 *)
Definition first_uint_span (s : list Z) : res view :=
  do ne <- first_non_empty_span s ;;
  if vl ne =? 0 then Ok ne else
  do c0 <- rd s (vo ne) ;;
  if c0 =? ch "-" then vfirst (len s) 0
  else on_sub s ne (fun x => first_integral_span x (if c0 =? ch "+" then 1 else 0)).
(** first_int_span: 1141-1148 *)
Definition first_int_span (s : list Z) : res view :=
  do ne <- first_non_empty_span s ;;
  if vl ne =? 0 then Ok ne else
  do c0 <- rd s (vo ne) ;;
  on_sub s ne (fun x => first_integral_span x (if (c0 =? ch "+") || (c0 =? ch "-") then 1 else 0)).

(** ** Real number spans *)

(** _word_follows: 1284-1291 *)
Definition word_follows (s : list Z) (pos : Z) (word : list Z) : res view :=
  let posend := pos + len word in
  if posend <=? len s then
    do v <- sub2 (len s) pos (len word) ;;
    do e <- op_eq (contents s v) word ;;
    if e then
      if len s =? posend then vfirst (len s) posend
      else do c <- rd s posend ;;
           if is_delim_char c then vfirst (len s) posend else vfirst (len s) 0
    else vfirst (len s) 0
  else vfirst (len s) 0.

(** where control goes at the end of the integral and fractional loops *)
Inductive where_to :=
| Ret (v : view)                    (* return *)
| GoFrac (pos : Z) (digits : bool)  (* goto fractional_part, after the '.' *)
| GoPow (pos : Z) (digits : bool)   (* goto power_part, after the e or p *)
.

(** _first_real_span_dec 1294-1378, _hex 1381-1468, _bin 1471-1558, _oct 1561-1648.
    The four functions differ in the digit class [dig], the exponent letters
    [isexp], and in the power part: decimal has an optional sign ([optsign]), the
    others a mandatory one. [digits] is intchars in the first loop, and
    intchars || fracchars in the second. *)
Fixpoint int_loop (n : nat) (s : list Z) (dig isexp : Z -> bool) (pos : Z) (intchars : bool) : res where_to :=
  match n with
  | O => do v <- vfirst (len s) (if intchars then len s else 0) ;; Ok (Ret v)
  | S n' =>
      do c <- rd s pos ;;
      if dig c then int_loop n' s dig isexp (pos + 1) true
      else if c =? ch "." then Ok (GoFrac (pos + 1) intchars)
      else if isexp c then Ok (GoPow (pos + 1) intchars)
      else if is_delim_char c then
        do v <- vfirst (len s) (if intchars then pos else 0) ;; Ok (Ret v)
      else do v <- vfirst (len s) 0 ;; Ok (Ret v)
  end.
Fixpoint frac_loop (n : nat) (s : list Z) (dig isexp : Z -> bool) (pos : Z) (intchars fracchars : bool) : res where_to :=
  match n with
  | O => do v <- vfirst (len s) (if intchars || fracchars then len s else 0) ;; Ok (Ret v)
  | S n' =>
      do c <- rd s pos ;;
      if dig c then frac_loop n' s dig isexp (pos + 1) intchars true
      else if isexp c then Ok (GoPow (pos + 1) (intchars || fracchars))
      else if is_delim_char c then
        do v <- vfirst (len s) (if intchars || fracchars then pos else 0) ;; Ok (Ret v)
      else do v <- vfirst (len s) 0 ;; Ok (Ret v)
  end.
(** the loop of the power part; [allow] says whether the final return checks
    powchars (decimal: [return powchars ? *this : first(0)]) or not ([return *this]) *)
Fixpoint pow_loop (n : nat) (s : list Z) (pos : Z) (powchars check : bool) : res view :=
  match n with
  | O => vfirst (len s) (if negb check || powchars then len s else 0)
  | S n' =>
      do c <- rd s pos ;;
      if is_dec_char c then pow_loop n' s (pos + 1) true check
      else if powchars && is_delim_char c then vfirst (len s) pos
      else vfirst (len s) 0
  end.
Definition steps (s : list Z) (pos : Z) : nat := Z.to_nat (len s - pos).
Definition pow_part (s : list Z) (isexp : Z -> bool) (optsign : bool) (pos : Z) (digits : bool) : res view :=
  assert (0 <? pos)
  (do p <- rd s (pos - 1) ;;
   assert (isexp p)
   (if optsign then
      if (len s =? pos) || negb digits then vfirst (len s) 0 else
      do c <- rd s pos ;;
      let pos := if (c =? ch "-") || (c =? ch "+") then pos + 1 else pos in
      pow_loop (steps s pos) s pos false true
    else
      if len s <=? pos + 1 then vfirst (len s) 0 else
      do c <- rd s pos ;;
      if (negb (c =? ch "+") && negb (c =? ch "-")) || negb digits then vfirst (len s) 0
      else pow_loop (steps s (pos + 1)) s (pos + 1) false false)).
Definition frac_part (s : list Z) (dig isexp : Z -> bool) (optsign : bool) (pos : Z) (intchars : bool) : res view :=
  assert (0 <? pos)
  (do p <- rd s (pos - 1) ;;
   assert (p =? ch ".")
   (do w <- frac_loop (steps s pos) s dig isexp pos intchars false ;;
    match w with
    | Ret v => Ok v
    | GoPow pos digits => pow_part s isexp optsign pos digits
    | GoFrac _ _ => Err
    end)).
Definition first_real_span_base (s : list Z) (dig isexp : Z -> bool) (optsign : bool) (pos : Z) : res view :=
  do w <- int_loop (steps s pos) s dig isexp pos false ;;
  match w with
  | Ret v => Ok v
  | GoFrac pos digits => frac_part s dig isexp optsign pos digits
  | GoPow pos digits => pow_part s isexp optsign pos digits
  end.
Definition is_e (c : Z) : bool := (c =? ch "e") || (c =? ch "E").
Definition is_p (c : Z) : bool := (c =? ch "p") || (c =? ch "P").
Definition first_real_span_dec s pos := first_real_span_base s is_dec_char is_e true pos.
Definition first_real_span_hex s pos := first_real_span_base s is_hex_char is_p false pos.
Definition first_real_span_bin s pos := first_real_span_base s is_bin_char is_p false pos.
Definition first_real_span_oct s pos := first_real_span_base s is_oct_char is_p false pos.

(** the body of first_real_span for the non-empty span [s]: 1221-1267 *)
Definition first_real_span_ne (s : list Z) : res view :=
  do c0 <- rd s 0 ;;
  let skip := if (c0 =? ch "+") || (c0 =? ch "-") then 1 else 0 in
  if skip + 3 <=? len s then
    do c <- rd s skip ;;
    if negb (c =? ch "0") then
      if c =? ch "i" then
        do w <- word_follows s (skip + 1) (s2z "nfinity") ;;
        if negb (vl w =? 0) then Ok w else word_follows s (skip + 1) (s2z "nf")
      else if c =? ch "n" then word_follows s (skip + 1) (s2z "an")
      else first_real_span_dec s skip
    else
      do next <- rd s (skip + 1) ;;
      if (next =? ch "x") || (next =? ch "X") then first_real_span_hex s (skip + 2)
      else if (next =? ch "b") || (next =? ch "B") then first_real_span_bin s (skip + 2)
      else if (next =? ch "o") || (next =? ch "O") then first_real_span_oct s (skip + 2)
      else first_real_span_dec s skip
  else first_real_span_dec s skip.
(** first_real_span: 1216-1268 *)
Definition first_real_span (s : list Z) : res view :=
  do ne <- first_non_empty_span s ;;
  if vl ne =? 0 then Ok ne else on_sub s ne first_real_span_ne.

(** ** is_number 1068-1079, is_real 1083-1090, is_integer 1094-1103,
    is_unsigned_integer 1107-1114 *)
Definition span_is (s : list Z) (f : list Z -> res view) : res bool :=
  do v <- f s ;; op_eq (contents s v) s.
Fixpoint any_span (s : list Z) (fs : list (list Z -> res view)) : res bool :=
  match fs with
  | [] => Ok false
  | f :: r => do b <- span_is s f ;; if b then Ok true else any_span s r
  end.
Definition is_some_number (s : list Z) (fs : list (list Z -> res view)) : res bool :=
  if len s =? 0 then Ok false else
  do ne <- first_non_empty_span s ;;
  if vl ne =? 0 then Ok false else any_span s fs.
Definition is_number s := is_some_number s [first_uint_span; first_int_span; first_real_span].
Definition is_real s := is_some_number s [first_real_span].
Definition is_integer s := is_some_number s [first_uint_span; first_int_span].
Definition is_unsigned_integer s := is_some_number s [first_uint_span].

(** ** atoi_first: charconv.hpp 1508-1516; atou_first: 1589-1597;
    from_chars_first of integers: 2385-2403. Result: the returned size ([None] is
    npos) and the final value of [*v]. *)
Definition ato_first (t : ity) (s : list Z) (v0 : Z) : res (option Z * Z) :=
  do trimmed <- (if isgn t then first_int_span s else first_uint_span s) ;;
  if vl trimmed =? 0 then Ok (None, v0) else
  do '(ok, v) <- from_chars_int t (contents s trimmed) v0 ;;
  Ok (if ok then Some (vo trimmed + vl trimmed) else None, v).
(** from_chars 2380-2381 and from_chars_first 2404-2405 into a pointer [*v],
    initially [p0]; [tmp0] is the initial (indeterminate) value of the local [tmp].
    from_chars_first keeps the returned size in a bool, so npos becomes true. *)
Definition from_chars_ptr (s : list Z) (p0 tmp0 : Z) : res (bool * Z) :=
  do '(ok, v) <- from_chars_int i64 s tmp0 ;; Ok (ok, if ok then v else p0).
Definition from_chars_first_ptr (s : list Z) (p0 tmp0 : Z) : res (Z * Z) :=
  do '(n, v) <- ato_first i64 s tmp0 ;;
  let ret := match n with Some n => negb (n =? 0) | None => true end in
  Ok (if ret then 1 else 0, if ret then v else p0).
(** to_chars of a pointer: 2341-2342 *)
Definition to_chars_ptr (m : list Z) (b : view) (p : Z) : res (list Z * Z) := itoa_radix W64 m b p Hex.

(** ** bool: 2437-2497 *)
Definition to_chars_bool (m : list Z) (b : view) (v : bool) : res (list Z * Z) :=
  to_chars_int i32 m b (if v then 1 else 0).
Fixpoint bool_words (s : list Z) (ws : list (list Z * bool)) : res (option bool) :=
  match ws with
  | [] => Ok None
  | (w, b) :: r => do e <- op_eq s w ;; if e then Ok (Some b) else bool_words s r
  end.
Definition from_chars_bool (s : list Z) (v0 : bool) : res (bool * bool) :=
  do e0 <- op_eq_c s (ch "0") ;;
  if (e0 : bool) then Ok (true, false) else
  do e1 <- op_eq_c s (ch "1") ;;
  if (e1 : bool) then Ok (true, true) else
    do w <- bool_words s [(s2z "false", false); (s2z "true", true); (s2z "False", false);
                          (s2z "True", true); (s2z "FALSE", false); (s2z "TRUE", true)] ;;
    match w with
    | Some b => Ok (true, b)
    | None =>
        do '(ok, v) <- from_chars_int i32 s 0 ;;
        Ok (if ok then (true, negb (v =? 0)) else (false, v0))
    end.
(** from_chars_first into a bool: 2491-2497. It converts [buf], not the trimmed span. *)
Definition from_chars_first_bool (s : list Z) (v0 : bool) : res (option Z * bool) :=
  do trimmed <- first_non_empty_span s ;;
  if vl trimmed =? 0 then Ok (None, v0) else
  do '(ok, v) <- from_chars_bool s v0 ;;
  Ok (if ok then Some (vl trimmed) else None, v).

(** ** char: 2504-2534 *)
Definition to_chars_char (m : list Z) (b : view) (c : Z) : res (list Z * Z) :=
  if 0 <? vl b then do m' <- wr m (vo b) c ;; Ok (m', 1) else Ok (m, 1).
Definition from_chars_char (s : list Z) (v0 : Z) : res (bool * Z) :=
  if negb (len s =? 1) then Ok (false, v0) else do c <- rd s 0 ;; Ok (true, c).
Definition from_chars_first_char (s : list Z) (v0 : Z) : res (option Z * Z) :=
  if len s <? 1 then Ok (None, v0) else do c <- rd s 0 ;; Ok (Some 1, c).

(** ** csubstr and substr: 2541-2637. The source text [s] is assumed not to
    overlap the destination (asserted in the code). *)
Definition to_chars_str (m : list Z) (b : view) (s : list Z) : res (list Z * Z) :=
  let n := if vl b <? len s then vl b else len s in
  if 0 <? n then
    do src <- rds s 0 n ;; do m' <- wrs m (vo b) src ;; Ok (m', len s)
  else Ok (m, len s).
(** from_chars into a csubstr: the whole view; from_chars_first into a csubstr *)
Definition from_chars_csubstr (s : list Z) : res (bool * view) := Ok (true, full s).
Definition from_chars_first_csubstr (s : list Z) (v0 : view) : res (option Z * view) :=
  do trimmed <- first_non_empty_span s ;;
  if vl trimmed =? 0 then Ok (None, v0) else Ok (Some (vo trimmed + vl trimmed), trimmed).
(** from_chars into a substr: [d] is the memory of [v], [v] its view *)
Definition from_chars_substr (s : list Z) (d : list Z) (v : view) : res (bool * list Z * view) :=
  if len s <=? vl v then
    do d' <- (if 0 <? len s then wrs d (vo v) s else Ok d) ;; Ok (true, d', View (vo v) (len s))
  else Ok (false, d, v).
(** from_chars_first into a substr: v->len is not updated *)
Definition from_chars_first_substr (s : list Z) (d : list Z) (v : view) : res (option Z * list Z * view) :=
  do trimmed <- first_non_empty_span s ;;
  if vl trimmed =? 0 then Ok (None, d, v) else
  let n := if vl v <? vl trimmed then vl v else vl trimmed in
  do d' <- (if 0 <? n then do src <- rds s (vo trimmed) n ;; wrs d (vo v) src else Ok d) ;;
  Ok (if vl v <? vl trimmed then None else Some (vo trimmed + vl trimmed), d', v).

(** to_chars_sub: 2427-2431, for any conversion [conv] returning (memory, size) *)
Definition to_chars_sub (conv : list Z -> view -> res (list Z * Z)) (m : list Z) (b : view) : res (list Z * view) :=
  do '(m', sz) <- conv m b ;;
  do v <- left_of (vl b) (if sz <=? vl b then sz else vl b) ;; Ok (m', View (vo b) (vl v)).
