(** Model of the integer part of c4/charconv.hpp.

    Integer values are [Z]; the C++ template type is an [ity] (width and
    signedness). Buffers are a memory [list Z] plus a [view] (offset, length);
    a store outside the memory is [Ub]; a failed C4_ASSERT is [Err].
    The floating point part of charconv.hpp is in RealModel.v. *)
From Verif Require Import Base ScanModel.

(** ** Limit tables: detail::charconv_digits_ (charconv.hpp 271-412) *)
Inductive radix := Dec | Hex | Oct | Bin.
Definition base (r : radix) : Z := match r with Dec => 10 | Hex => 16 | Oct => 8 | Bin => 2 end.

(** maxdigits_{dec,hex,oct,bin} (including sign and prefix) *)
Definition maxdigits (t : ity) (r : radix) : Z :=
  match iw t, isgn t, r with
  | W8, true, Bin => 1 + 2 + 8    | W8, true, Oct => 1 + 2 + 3
  | W8, true, Dec => 1 + 3        | W8, true, Hex => 1 + 2 + 2
  | W8, false, Bin => 2 + 8       | W8, false, Oct => 2 + 3
  | W8, false, Dec => 3           | W8, false, Hex => 2 + 2
  | W16, true, Bin => 1 + 2 + 16  | W16, true, Oct => 1 + 2 + 6
  | W16, true, Dec => 1 + 5       | W16, true, Hex => 1 + 2 + 4
  | W16, false, Bin => 2 + 16     | W16, false, Oct => 2 + 6
  | W16, false, Dec => 6          | W16, false, Hex => 2 + 4
  | W32, true, Bin => 1 + 2 + 32  | W32, true, Oct => 1 + 2 + 11
  | W32, true, Dec => 1 + 10      | W32, true, Hex => 1 + 2 + 8
  | W32, false, Bin => 2 + 32     | W32, false, Oct => 2 + 11
  | W32, false, Dec => 10         | W32, false, Hex => 2 + 8
  | W64, true, Bin => 1 + 2 + 64  | W64, true, Oct => 1 + 2 + 22
  | W64, true, Dec => 1 + 19      | W64, true, Hex => 1 + 2 + 16
  | W64, false, Bin => 2 + 64     | W64, false, Oct => 2 + 22
  | W64, false, Dec => 20         | W64, false, Hex => 2 + 16
  end.

(** min_value_{dec,hex,oct,bin}() of the signed types (without sign) *)
Definition min_value (w : width) (r : radix) : list Z :=
  match w, r with
  | W8, Dec => s2z "128"  | W8, Hex => s2z "80" | W8, Oct => s2z "200"
  | W8, Bin => s2z "10000000"
  | W16, Dec => s2z "32768" | W16, Hex => s2z "8000" | W16, Oct => s2z "100000"
  | W16, Bin => s2z "1000000000000000"
  | W32, Dec => s2z "2147483648" | W32, Hex => s2z "80000000" | W32, Oct => s2z "20000000000"
  | W32, Bin => s2z "10000000000000000000000000000000"
  | W64, Dec => s2z "9223372036854775808" | W64, Hex => s2z "8000000000000000"
  | W64, Oct => s2z "1000000000000000000000"
  | W64, Bin => s2z "1000000000000000000000000000000000000000000000000000000000000000"
  end.

(** max_value_dec() *)
Definition max_value_dec (t : ity) : list Z :=
  match iw t, isgn t with
  | W8, true => s2z "127"         | W8, false => s2z "255"
  | W16, true => s2z "32767"      | W16, false => s2z "65535"
  | W32, true => s2z "2147483647" | W32, false => s2z "4294967295"
  | W64, true => s2z "9223372036854775807"
  | W64, false => s2z "18446744073709551615"
  end.

(** is_oct_overflow(str) *)
Definition is_oct_overflow (t : ity) (s : list Z) : bool :=
  let c0 := schar (nth 0 s 0) in
  negb match iw t, isgn t with
  | W8, true => (len s <? 3) || ((len s =? 3) && (c0 <=? ch "1"))
  | W8, false => (len s <? 3) || ((len s =? 3) && (c0 <=? ch "3"))
  | W16, true => len s <? 6
  | W16, false => (len s <? 6) || ((len s =? 6) && (c0 <=? ch "1"))
  | W32, true => (len s <? 11) || ((len s =? 11) && (c0 <=? ch "1"))
  | W32, false => (len s <? 11) || ((len s =? 11) && (c0 <=? ch "3"))
  | W64, true => len s <? 22
  | W64, false => (len s <? 22) || ((len s =? 22) && (c0 <=? ch "1"))
  end.

(** ** Number of digits (charconv.hpp 425-571). The [C4_ASSERT(v >= 0)] is a
    precondition of all of these. *)

(** digits_dec: one overload per width (charconv.hpp 437-519). The nested
    conditionals are written in the order of the source. *)
Definition digits_dec (w : width) (v : Z) : Z :=
  match w with
  | W8 => if 100 <=? v then 3 else if 10 <=? v then 2 else 1
  | W16 => if 10000 <=? v then 5 else if 1000 <=? v then 4 else if 100 <=? v then 3
           else if 10 <=? v then 2 else 1
  | W32 => if 1000000000 <=? v then 10 else if 100000000 <=? v then 9
           else if 10000000 <=? v then 8 else if 1000000 <=? v then 7
           else if 100000 <=? v then 6 else if 10000 <=? v then 5
           else if 1000 <=? v then 4 else if 100 <=? v then 3
           else if 10 <=? v then 2 else 1
  | W64 =>
      if 1000000000 <=? v then
        if 100000000000000 <=? v then
          if 100000000000000000 <=? v then
            if 10000000000000000000 <=? v then 20
            else if 1000000000000000000 <=? v then 19 else 18
          else if 10000000000000000 <=? v then 17
          else if 1000000000000000 <=? v then 16 else 15
        else if 1000000000000 <=? v then
          if 10000000000000 <=? v then 14 else 13
        else if 100000000000 <=? v then 12
        else if 10000000000 <=? v then 11 else 10
      else if 10000 <=? v then
        if 10000000 <=? v then
          if 100000000 <=? v then 9 else 8
        else if 1000000 <=? v then 7
        else if 100000 <=? v then 6 else 5
      else if 100 <=? v then
        if 1000 <=? v then 4 else 3
      else if 10 <=? v then 2 else 1
  end.

(** msb(v) for v > 0: the compiler intrinsic (memory_util.hpp, __builtin_clz
    branch) is taken to return the index of the highest set bit. The portable
    fallbacks are modelled and proved equal to this in MemUtil. *)
Definition msb (v : Z) : Z := Z.log2 v.

(** digits_hex: charconv.hpp 522-529 *)
Definition digits_hex (v : Z) : Z := if v =? 0 then 1 else 1 + Z.shiftr (msb v) 2.
(** digits_bin: charconv.hpp 531-538 *)
Definition digits_bin (v : Z) : Z := if v =? 0 then 1 else 1 + msb v.
(** digits_oct: charconv.hpp 540-569. The [while(true)] loop is recursion on
    [fuel]; running out of fuel returns 0 (never happens: digits_oct_correct). *)
Fixpoint digits_oct_loop (fuel : nat) (v n : Z) : Z :=
  match fuel with
  | O => 0
  | S f =>
      if v <? 8 then n
      else if v <? 64 then n + 1
      else if v <? 512 then n + 2
      else if v <? 4096 then n + 3
      else digits_oct_loop f (v / 4096) (n + 4)
  end.
Definition digits_oct (v : Z) : Z := digits_oct_loop 64 v 1.

Definition digits (w : width) (r : radix) (v : Z) : Z :=
  match r with
  | Dec => digits_dec w v | Hex => digits_hex v | Oct => digits_oct v | Bin => digits_bin v
  end.

(** ** Unchecked writers (charconv.hpp 577-686) *)
Definition hexchars : list Z := s2z "0123456789abcdef".
Definition digits0099 : list Z := s2z
  "00010203040506070809101112131415161718192021222324252627282930313233343536373839404142434445464748495051525354555657585960616263646566676869707172737475767778798081828384858687888990919293949596979899".

(** the while(v >= 100) loop of write_dec_unchecked (charconv.hpp 614-622).
    [off] is the address of buf.str[0]; [d] is the unsigned digits_v. *)
Fixpoint write_dec_loop (fuel : nat) (m : list Z) (off v d : Z) : res (list Z * Z * Z) :=
  if v <? 100 then Ok (m, v, d)
  else match fuel with
  | O => Err
  | S f =>
      let quo := v / 100 in
      let num := (v - quo * 100) * 2 in
      let d1 := u32 (d - 1) in
      let d2 := u32 (d1 - 1) in
      do c1 <- rd digits0099 (num + 1) ;;
      do m1 <- wr m (off + d1) c1 ;;
      do c0 <- rd digits0099 num ;;
      do m2 <- wr m1 (off + d2) c0 ;;
      write_dec_loop f m2 off quo d2
  end.

(** write_dec_unchecked: charconv.hpp 604-636 *)
Definition write_dec_unchecked (m : list Z) (b : view) (v d : Z) : res (list Z) :=
  if vl b <? d then Err                                  (* C4_ASSERT(buf.len >= digits_v) *)
  else
  do '(m1, v1, d1) <- write_dec_loop 64 m (vo b) v d ;;
  if 10 <=? v1 then
    if negb (d1 =? 2) then Err                           (* C4_ASSERT(digits_v == 2) *)
    else
    let num := v1 * 2 in
    do c1 <- rd digits0099 (num + 1) ;;
    do m2 <- wr m1 (vo b + 1) c1 ;;
    do c0 <- rd digits0099 num ;;
    wr m2 (vo b) c0
  else
    if negb (d1 =? 1) then Err                           (* C4_ASSERT(digits_v == 1) *)
    else wr m1 (vo b) (48 + v1).

(** the do { buf.str[--digits_v] = chr(v & mask); v >>= shift; } while(v) loops of
    write_{hex,oct,bin}_unchecked (charconv.hpp 646-650, 662-666, 678-682); the
    three loops differ only in mask, shift and digit character. *)
Fixpoint write_pow2_loop (chr : Z -> res Z) (mask shift : Z) (fuel : nat)
         (m : list Z) (off v d : Z) : res (list Z * Z) :=
  match fuel with
  | O => Err
  | S f =>
      let d1 := u32 (d - 1) in
      do c <- chr (Z.land v mask) ;;
      do m1 <- wr m (off + d1) c ;;
      let v1 := Z.shiftr v shift in
      if v1 =? 0 then Ok (m1, d1) else write_pow2_loop chr mask shift f m1 off v1 d1
  end.

(** write_hex_unchecked 639-652, write_oct_unchecked 655-668,
    write_bin_unchecked 671-684 *)
Definition write_pow2_unchecked (chr : Z -> res Z) (mask shift : Z)
           (m : list Z) (b : view) (v d : Z) : res (list Z) :=
  if vl b <? d then Err
  else
  do '(m1, d1) <- write_pow2_loop chr mask shift 65 m (vo b) v d ;;
  if negb (d1 =? 0) then Err else Ok m1.                 (* C4_ASSERT(digits_v == 0) *)
Definition write_hex_unchecked := write_pow2_unchecked (fun d => rd hexchars d) 15 4.
Definition write_oct_unchecked := write_pow2_unchecked (fun d => Ok (48 + d)) 7 3.
Definition write_bin_unchecked := write_pow2_unchecked (fun d => Ok (48 + d)) 1 1.

Definition write_unchecked (r : radix) : list Z -> view -> Z -> Z -> res (list Z) :=
  match r with
  | Dec => write_dec_unchecked | Hex => write_hex_unchecked
  | Oct => write_oct_unchecked | Bin => write_bin_unchecked
  end.

(** ** write_dec/hex/oct/bin (charconv.hpp 698-774). Returns the memory and the
    returned size. *)
Definition write_num (w : width) (r : radix) (m : list Z) (b : view) (v : Z) : res (list Z * Z) :=
  let d := digits w r v in
  if d <=? vl b then
    do m1 <- write_unchecked r m b v d ;; Ok (m1, d)
  else Ok (m, d).

(** detail::write_num_digits and the four padded writers
    (charconv.hpp 777-833) *)
Definition write_num_digits (w : width) (r : radix) (m : list Z) (b : view) (v nd : Z)
  : res (list Z * Z) :=
  do '(m1, ret) <- write_num w r m b v ;;
  if nd <=? ret then Ok (m1, ret)
  else if (vl b <=? ret) || (vl b <? nd) then Ok (m1, nd)
  else
    let delta := u64 (nd - ret) in
    do src <- rds m1 (vo b) ret ;;
    do m2 <- wrs m1 (vo b + delta) src ;;                     (* memmove *)
    do m3 <- wrs m2 (vo b) (repeat 48 (Z.to_nat delta)) ;;    (* memset '0' *)
    Ok (m3, nd).

(** ** itoa for the minimum value (charconv.hpp 983-1093) *)

(** _itoa2buf(buf, pos, val): 985-990 *)
Definition itoa2buf_at (m : list Z) (b : view) (pos : Z) (val : list Z) : res (list Z * Z) :=
  if vl b <? pos + len val then Err
  else do m1 <- wrs m (vo b + pos) val ;; Ok (m1, pos + len val).

(** the [for(i < num_digits) _c4append('0')] loop, with _c4append from
    charconv.hpp 416 *)
Fixpoint append_zeros (n : nat) (m : list Z) (b : view) (pos : Z) : res (list Z * Z) :=
  match n with
  | O => Ok (m, pos)
  | S n' =>
      if pos <? vl b then
        do m1 <- wr m (vo b + pos) 48 ;; append_zeros n' m1 b (pos + 1)
      else append_zeros n' m b (pos + 1)
  end.

(** _itoa2bufwithdigits: 991-998 *)
Definition itoa2bufwithdigits (m : list Z) (b : view) (pos nd : Z) (val : list Z)
  : res (list Z * Z) :=
  let nd := if len val <? nd then nd - len val else 0 in
  if vl b <? nd + len val then Err
  else
  do '(m1, pos1) <- append_zeros (Z.to_nat nd) m b pos ;;
  itoa2buf_at m1 b pos1 val.

(** _itoadec2buf<I>(buf): 999-1007 *)
Definition itoadec2buf (w : width) (m : list Z) (b : view) : res (list Z * Z) :=
  let md := maxdigits (Ity w true) Dec in
  if vl b <? md then Ok (m, md)
  else do m1 <- wr m (vo b) 45 ;; itoa2buf_at m1 b 1 (min_value w Dec).

(** the prefix character of a radix; none for decimal *)
Definition pfx_char (r : radix) : Z :=
  match r with Hex => ch "x" | Bin => ch "b" | Oct => ch "o" | Dec => 0 end.

(** _itoa2buf<I>(buf, radix): 1008-1045. The cases 16, 2 and 8 differ only in the
    prefix character and the tables. *)
Definition itoa2buf (w : width) (m : list Z) (b : view) (r : radix) : res (list Z * Z) :=
  do '(m0, pos) <- (if 0 <? vl b then do m1 <- wr m (vo b) 45 ;; Ok (m1, 1) else Ok (m, 0)) ;;
  let md := maxdigits (Ity w true) r in
  match r with
  | Dec =>
      if vl b <? md then Ok (m0, md) else itoa2buf_at m0 b pos (min_value w Dec)
  | _ =>
      if vl b <? md then Ok (m0, md)
      else
        do m1 <- wr m0 (vo b + pos) 48 ;;
        do m2 <- wr m1 (vo b + (pos + 1)) (pfx_char r) ;;
        itoa2buf_at m2 b (pos + 2) (min_value w r)
  end.

(** _itoa2buf<I>(buf, radix, num_digits): 1046-1092; [num_digits+1] and
    [num_digits+3] are size_t additions *)
Definition itoa2buf_nd (w : width) (m : list Z) (b : view) (r : radix) (nd : Z)
  : res (list Z * Z) :=
  do '(m0, pos) <- (if 0 <? vl b then do m1 <- wr m (vo b) 45 ;; Ok (m1, 1) else Ok (m, 0)) ;;
  let md := maxdigits (Ity w true) r in
  match r with
  | Dec =>
      let needed := if md <? u64 (nd + 1) then u64 (nd + 1) else md in
      if vl b <? needed then Ok (m0, needed)
      else itoa2bufwithdigits m0 b pos nd (min_value w Dec)
  | _ =>
      let needed := if md <? u64 (nd + 3) then u64 (nd + 3) else md in
      if vl b <? needed then Ok (m0, needed)
      else
        do m1 <- wr m0 (vo b + pos) 48 ;;
        do m2 <- wr m1 (vo b + (pos + 1)) (pfx_char r) ;;
        itoa2bufwithdigits m2 b (pos + 2) nd (min_value w r)
  end.

(** ** itoa (charconv.hpp 1096-1287) *)

(** itoa(buf, v): 1107-1131 *)
Definition itoa (w : width) (m : list Z) (b : view) (v : Z) : res (list Z * Z) :=
  if 0 <=? v then write_num w Dec m b v
  else if negb (v =? imin (Ity w true)) then
    let v := - v in
    let d := digits_dec w v in
    if d + 1 <=? vl b then
      do m1 <- wr m (vo b) 45 ;;
      do m2 <- write_dec_unchecked m1 (vsub b 1) v d ;;
      Ok (m2, d + 1)
    else Ok (m, d + 1)
  else itoadec2buf w m b.

(** the sign part shared by itoa(radix) and itoa(radix,num_digits):
    1150-1160, 1227-1237 *)
Definition itoa_sign (m : list Z) (b : view) (v : Z) : res (list Z * Z * Z) :=
  if v <? 0 then
    do m1 <- (if 0 <? vl b then wr m (vo b) 45 else Ok m) ;; Ok (m1, - v, 1)
  else Ok (m, v, 0).

(** itoa(buf, v, radix): 1140-1206 *)
Definition itoa_radix (w : width) (m : list Z) (b : view) (v : Z) (r : radix)
  : res (list Z * Z) :=
  if negb (v =? imin (Ity w true)) then
    do '(m0, v, pos) <- itoa_sign m b v ;;
    let d := digits w r v in
    match r with
    | Dec =>
        if pos + d <=? vl b then
          do m1 <- write_dec_unchecked m0 (vsub b pos) v d ;; Ok (m1, pos + d)
        else Ok (m0, pos + d)
    | _ =>
        if pos + 2 + d <=? vl b then
          do m1 <- wr m0 (vo b + pos) 48 ;;
          do m2 <- wr m1 (vo b + (pos + 1)) (pfx_char r) ;;
          do m3 <- write_unchecked r m2 (vsub b (pos + 2)) v d ;;
          Ok (m3, pos + (d + 2))
        else Ok (m0, pos + (d + 2))
    end
  else itoa2buf w m b r.

(** the C4_ASSERT(first <= len) of [buf.sub(first)] *)
Definition sub_ok (b : view) (first : Z) : bool := first <=? vl b.

(** itoa(buf, v, radix, num_digits): 1216-1287; total_digits is [unsigned] and
    num_digits is cast to it *)
Definition itoa_nd (w : width) (m : list Z) (b : view) (v : Z) (r : radix) (nd : Z)
  : res (list Z * Z) :=
  if negb (v =? imin (Ity w true)) then
    do '(m0, v, pos) <- itoa_sign m b v ;;
    let d := digits w r v in
    match r with
    | Dec =>
        let total := u32 (pos + u32 (if d <? nd then nd else d)) in
        if total <=? vl b then
          if negb (sub_ok b pos) then Err else
          do '(m1, _) <- write_num_digits w Dec m0 (vsub b pos) v nd ;; Ok (m1, total)
        else Ok (m0, total)
    | _ =>
        let total := u32 (pos + 2 + u32 (if d <? nd then nd else d)) in
        if total <=? vl b then
          do m1 <- wr m0 (vo b + pos) 48 ;;
          do m2 <- wr m1 (vo b + (pos + 1)) (pfx_char r) ;;
          if negb (sub_ok b (pos + 2)) then Err else
          do '(m3, _) <- write_num_digits w r m2 (vsub b (pos + 2)) v nd ;; Ok (m3, total)
        else Ok (m0, total)
    end
  else itoa2buf_nd w m b r nd.

(** ** utoa (charconv.hpp 1295-1418) *)

(** utoa(buf, v): 1303-1309 *)
Definition utoa (w : width) (m : list Z) (b : view) (v : Z) : res (list Z * Z) :=
  write_num w Dec m b v.

(** utoa(buf, v, radix): 1318-1363 *)
Definition utoa_radix (w : width) (m : list Z) (b : view) (v : Z) (r : radix)
  : res (list Z * Z) :=
  let d := digits w r v in
  match r with
  | Dec =>
      if d <=? vl b then
        do m1 <- write_dec_unchecked m b v d ;; Ok (m1, d)
      else Ok (m, d)
  | _ =>
      if d + 2 <=? vl b then
        do m1 <- wr m (vo b) 48 ;;
        do m2 <- wr m1 (vo b + 1) (pfx_char r) ;;
        do m3 <- write_unchecked r m2 (vsub b 2) v d ;;
        Ok (m3, d + 2)
      else Ok (m, d + 2)
  end.

(** utoa(buf, v, radix, num_digits): 1373-1418 *)
Definition utoa_nd (w : width) (m : list Z) (b : view) (v : Z) (r : radix) (nd : Z)
  : res (list Z * Z) :=
  let d := digits w r v in
  match r with
  | Dec =>
      let total := u32 (if d <? nd then nd else d) in
      if total <=? vl b then
        do '(m1, _) <- write_num_digits w Dec m b v nd ;; Ok (m1, total)
      else Ok (m, total)
  | _ =>
      let total := u32 (2 + u32 (if d <? nd then nd else d)) in
      if total <=? vl b then
        do m1 <- wr m (vo b) 48 ;;
        do m2 <- wr m1 (vo b + 1) (pfx_char r) ;;
        if negb (sub_ok b 2) then Err else
        do '(m3, _) <- write_num_digits w r m2 (vsub b 2) v nd ;; Ok (m3, total)
      else Ok (m, total)
  end.

(** ** Reading digits (charconv.hpp 852-972). The result is the returned bool and
    the final value of [*v]. Arithmetic wraps (C4_NO_UBSAN_IOVRFLW): the code
    relies on two's complement wrap for signed types, which is modelled. *)
Fixpoint read_dec_loop (t : ity) (s : list Z) (v : Z) : bool * Z :=
  match s with
  | [] => (true, v)
  | c :: s' =>
      if (schar c <? ch "0") || (ch "9" <? schar c) then (false, v)
      else read_dec_loop t s' (wrap t (v * 10 + (c - ch "0")))
  end.
Definition read_dec (t : ity) (s : list Z) : bool * Z := read_dec_loop t s 0.

(** read_hex: 889-909 *)
Definition hex_cv (c : Z) : option Z :=
  if (ch "0" <=? schar c) && (schar c <=? ch "9") then Some (c - ch "0")
  else if (ch "a" <=? schar c) && (schar c <=? ch "f") then Some (10 + (c - ch "a"))
  else if (ch "A" <=? schar c) && (schar c <=? ch "F") then Some (10 + (c - ch "A"))
  else None.
Fixpoint read_hex_loop (t : ity) (s : list Z) (v : Z) : bool * Z :=
  match s with
  | [] => (true, v)
  | c :: s' =>
      match hex_cv c with
      | None => (false, v)
      | Some cv => read_hex_loop t s' (wrap t (v * 16 + cv))
      end
  end.
Definition read_hex (t : ity) (s : list Z) : bool * Z := read_hex_loop t s 0.

(** read_bin: 924-939; [*v <<= 1] happens before the character is checked *)
Fixpoint read_bin_loop (t : ity) (s : list Z) (v : Z) : bool * Z :=
  match s with
  | [] => (true, v)
  | c :: s' =>
      let v := wrap t (Z.shiftl v 1) in
      if c =? ch "1" then read_bin_loop t s' (Z.lor v 1)
      else if negb (c =? ch "0") then (false, v)
      else read_bin_loop t s' v
  end.
Definition read_bin (t : ity) (s : list Z) : bool * Z := read_bin_loop t s 0.

(** read_oct: 954-968 *)
Fixpoint read_oct_loop (t : ity) (s : list Z) (v : Z) : bool * Z :=
  match s with
  | [] => (true, v)
  | c :: s' =>
      if (schar c <? ch "0") || (ch "7" <? schar c) then (false, v)
      else read_oct_loop t s' (wrap t (v * 8 + (c - ch "0")))
  end.
Definition read_oct (t : ity) (s : list Z) : bool * Z := read_oct_loop t s 0.

(** the readers start with C4_ASSERT(!s.empty()) *)
Definition nonempty (s : list Z) (k : bool * Z) : res (bool * Z) :=
  if len s =? 0 then Err else Ok k.

(** the four readers, by radix (charconv.hpp 863-968) *)
Definition read_num (r : radix) (t : ity) (s : list Z) : res (bool * Z) :=
  nonempty s (match r with Dec => read_dec t s | Hex => read_hex t s | Oct => read_oct t s | Bin => read_bin t s end).

(** ** atoi (charconv.hpp 1453-1499). [v0] is the value of [*v] before the call.
    [C4_ASSERT(str.str[0] != '+')] is an [Err]. *)
Definition atoi (w : width) (s : list Z) (v0 : Z) : res (bool * Z) :=
  let t := Ity w true in
  if len s =? 0 then Ok (false, v0) else
  do c0 <- rd s 0 ;;
  if c0 =? ch "+" then Err else
  let neg := c0 =? ch "-" in
  let start := if neg then 1 else 0 in
  let sign := if neg then -1 else 1 in
  if neg && (len s =? 1) then Ok (false, v0) else
  do c <- rd s start ;;
  do '(ok, v) <-
    (if negb (c =? ch "0") then
       do x <- csub s start ;; nonempty x (read_dec t x)
     else if start + 1 <? len s then
       do pfx <- rd s (start + 1) ;;
       if (pfx =? ch "x") || (pfx =? ch "X") then
         if start + 2 <? len s then do x <- csub s (start + 2) ;; nonempty x (read_hex t x)
         else Ok (false, v0)
       else if (pfx =? ch "b") || (pfx =? ch "B") then
         if start + 2 <? len s then do x <- csub s (start + 2) ;; nonempty x (read_bin t x)
         else Ok (false, v0)
       else if (pfx =? ch "o") || (pfx =? ch "O") then
         if start + 2 <? len s then do x <- csub s (start + 2) ;; nonempty x (read_oct t x)
         else Ok (false, v0)
       else do x <- csub s (start + 1) ;; nonempty x (read_dec t x)
     else do x <- csub s start ;; nonempty x (read_dec t x)) ;;
  if ok then Ok (true, wrap t (v * sign)) else Ok (false, v).

(** ** atou (charconv.hpp 1546-1580); instantiable with any integral type *)
Definition atou (t : ity) (s : list Z) (v0 : Z) : res (bool * Z) :=
  if len s =? 0 then Ok (false, v0) else
  do c0 <- rd s 0 ;;
  if c0 =? ch "-" then Ok (false, v0) else
  if negb (c0 =? ch "0") then nonempty s (read_dec t s)
  else if 1 <? len s then
    do pfx <- rd s 1 ;;
    if (pfx =? ch "x") || (pfx =? ch "X") then
      if 2 <? len s then do x <- csub s 2 ;; nonempty x (read_hex t x) else Ok (false, v0)
    else if (pfx =? ch "b") || (pfx =? ch "B") then
      if 2 <? len s then do x <- csub s 2 ;; nonempty x (read_bin t x) else Ok (false, v0)
    else if (pfx =? ch "o") || (pfx =? ch "O") then
      if 2 <? len s then do x <- csub s 2 ;; nonempty x (read_oct t x) else Ok (false, v0)
    else nonempty s (read_dec t s)
  else Ok (true, 0).

(** ** Overflow detection *)

(** check_overflow: 1618-1633; characters compare as (signed) char *)
Fixpoint check_overflow_loop (s limit : list Z) : bool :=
  match s, limit with
  | c :: s', l :: limit' =>
      if schar c <? schar l then false
      else if schar l <? schar c then true
      else check_overflow_loop s' limit'
  | _, _ => false
  end.
Definition check_overflow (s limit : list Z) : bool :=
  if len s =? len limit then check_overflow_loop s limit else len limit <? len s.

(** the [fno = first_not_of('0', start); if(fno == npos) return false;] prologue,
    continued with k(fno) *)
Definition with_fno (s : list Z) (start : Z) (k : Z -> res bool) : res bool :=
  do r <- first_not_of_from s (ch "0") start ;;
  match r with None => Ok false | Some fno => k fno end.

(** overflows<T> for unsigned T: 1648-1705 *)
Definition overflows_u (w : width) (s : list Z) : res bool :=
  let t := Ity w false in
  let nb := bits w / 8 in
  if len s =? 0 then Ok false else
  do c0 <- rd s 0 ;;
  if c0 =? ch "0" then
    if len s =? 1 then Ok false else
    do c1 <- rd s 1 ;;
    if (c1 =? ch "x") || (c1 =? ch "X") then
      with_fno s 2 (fun fno => Ok (negb (len s <=? fno + nb * 2)))
    else if (c1 =? ch "b") || (c1 =? ch "B") then
      with_fno s 2 (fun fno => Ok (negb (len s <=? fno + nb * 8)))
    else if (c1 =? ch "o") || (c1 =? ch "O") then
      with_fno s 2 (fun fno => do x <- csub s fno ;; Ok (is_oct_overflow t x))
    else
      with_fno s 1 (fun fno => do x <- csub s fno ;; Ok (check_overflow x (max_value_dec t)))
  else if c0 =? ch "-" then Ok true
  else Ok (check_overflow s (max_value_dec t)).

(** overflows<T> for signed T: 1715-1808. Note [str.str[1]] is read without
    checking str.len when the string starts with '-'. *)
Definition overflows_s (w : width) (s : list Z) : res bool :=
  let t := Ity w true in
  let nb := bits w / 8 in
  if len s =? 0 then Ok false else
  do c0 <- rd s 0 ;;
  if c0 =? ch "-" then
    do c1 <- rd s 1 ;;
    if c1 =? ch "0" then
      if len s =? 2 then Ok false else
      do c2 <- rd s 2 ;;
      if (c2 =? ch "x") || (c2 =? ch "X") then
        with_fno s 3 (fun fno => do x <- csub s fno ;; Ok (check_overflow x (min_value w Hex)))
      else if (c2 =? ch "b") || (c2 =? ch "B") then
        with_fno s 3 (fun fno => do x <- csub s fno ;; Ok (check_overflow x (min_value w Bin)))
      else if (c2 =? ch "o") || (c2 =? ch "O") then
        with_fno s 3 (fun fno => do x <- csub s fno ;; Ok (check_overflow x (min_value w Oct)))
      else
        with_fno s 2 (fun fno => do x <- csub s fno ;; Ok (check_overflow x (min_value w Dec)))
    else do x <- csub s 1 ;; Ok (check_overflow x (min_value w Dec))
  else if c0 =? ch "0" then
    if len s =? 1 then Ok false else
    do c1 <- rd s 1 ;;
    if (c1 =? ch "x") || (c1 =? ch "X") then
      with_fno s 2 (fun fno =>
        let l := len s - fno in
        do cf <- rd s fno ;;
        Ok (negb ((l <? nb * 2) || ((l =? nb * 2) && (schar cf <=? ch "7")))))
    else if (c1 =? ch "b") || (c1 =? ch "B") then
      with_fno s 2 (fun fno => Ok (negb (len s <=? fno + (nb * 8 - 1))))
    else if (c1 =? ch "o") || (c1 =? ch "O") then
      with_fno s 2 (fun fno => do x <- csub s fno ;; Ok (is_oct_overflow t x))
    else
      with_fno s 1 (fun fno => do x <- csub s fno ;; Ok (check_overflow x (max_value_dec t)))
  else Ok (check_overflow s (max_value_dec t)).

Definition overflows (t : ity) (s : list Z) : res bool :=
  if isgn t then overflows_s (iw t) s else overflows_u (iw t) s.

(** ** Dispatch (charconv.hpp 2242-2405): to_chars/from_chars of an integer *)
Definition to_chars_int (t : ity) (m : list Z) (b : view) (v : Z) : res (list Z * Z) :=
  if isgn t then itoa (iw t) m b v else utoa (iw t) m b v.
Definition to_chars_radix (t : ity) (m : list Z) (b : view) (v : Z) (r : radix) : res (list Z * Z) :=
  if isgn t then itoa_radix (iw t) m b v r else utoa_radix (iw t) m b v r.
Definition to_chars_nd (t : ity) (m : list Z) (b : view) (v : Z) (r : radix) (nd : Z)
  : res (list Z * Z) :=
  if isgn t then itoa_nd (iw t) m b v r nd else utoa_nd (iw t) m b v r nd.
Definition from_chars_int (t : ity) (s : list Z) (v0 : Z) : res (bool * Z) :=
  if isgn t then atoi (iw t) s v0 else atou t s v0.

(** from_chars(s, overflow_checked(v)): format.hpp 328-343 *)
Definition from_chars_checked (t : ity) (s : list Z) (v0 : Z) : res (bool * Z) :=
  do o <- overflows t s ;;
  if o then Ok (false, v0) else from_chars_int t s v0.
