(** Model of the memory utilities: src/c4/memory_util.hpp, src/c4/memory_util.cpp,
    and the pointer predicates of src/c4/substr.hpp.

    Unsigned types of 8 to 64 bits are given by their number of bits. The compiler
    intrinsics (count of trailing and leading zeros) are modelled by scanning the bits,
    as documented; they are undefined for zero. *)
From Verif Require Import Base Base64Model.

(** ** Bit scans *)
(** [for(; v; ++c) v >>= 1;] *)
Fixpoint shift_count (fuel : nat) (v c : Z) : res Z :=
  match fuel with
  | O => Err
  | S fuel => if v =? 0 then Ok c else shift_count fuel (Z.shiftr v 1) (c + 1)
  end.
(** _c4_lsb_fallback: memory_util.hpp 82-87; the assertion v != 0 of its users *)
Definition lsb_fallback (v : Z) : res Z :=
  if v =? 0 then Err else shift_count 66 (Z.shiftr (Z.lxor v (v - 1)) 1) 0.

Fixpoint ctz_from (fuel : nat) (i v : Z) : res Z :=
  match fuel with
  | O => Ub
  | S fuel => if Z.testbit v i then Ok i else ctz_from fuel (i + 1) v
  end.
(** __builtin_ctz and friends *)
Definition ctz (n v : Z) : res Z := ctz_from (Z.to_nat n) 0 v.
(** lsb with the intrinsic: 90-215. 8 and 16 bits are widened to 32 *)
Definition lsb (w : width) (v : Z) : res Z :=
  if v =? 0 then Err else ctz (match w with W64 => 64 | _ => 32 end) v.

Fixpoint clz_from (i : nat) (k v : Z) : res Z :=
  match i with
  | O => Ub
  | S i => if Z.testbit v (Z.of_nat i) then Ok k else clz_from i (k + 1) v
  end.
(** __builtin_clz and friends *)
Definition clz (n v : Z) : res Z := clz_from (Z.to_nat n) 0 v.
(** msb with the intrinsic: 297-425 *)
Definition msb (w : width) (v : Z) : res Z :=
  if v =? 0 then Err else
  match w with
  | W64 => do k <- clz 64 v ;; Ok (u32 (63 - k))
  | _ => do k <- clz 32 v ;; Ok (u32 (31 - k))
  end.

(** [if(v & mask) v >>= k, n |= k;] *)
Definition msb_step (mask k : Z) (vn : Z * Z) : Z * Z :=
  let '(v, n) := vn in
  if Z.land v mask =? 0 then (v, n) else (Z.shiftr v k, Z.lor n k).
(** _c4_msb8_fallback ... _c4_msb64_fallback: 262-294 *)
Definition msb_fallback (w : width) (v : Z) : res Z :=
  if v =? 0 then Err else
  Ok (snd
  match w with
  | W8 => msb_step 0x02 1 (msb_step 0x0c 2 (msb_step 0xf0 4 (v, 0)))
  | W16 => msb_step 0x0002 1 (msb_step 0x000c 2 (msb_step 0x00f0 4 (msb_step 0xff00 8 (v, 0))))
  | W32 => msb_step 0x00000002 1 (msb_step 0x0000000c 2 (msb_step 0x000000f0 4 (msb_step 0x0000ff00 8 (msb_step 0xffff0000 16 (v, 0)))))
  | W64 => msb_step 0x0000000000000002 1 (msb_step 0x000000000000000c 2 (msb_step 0x00000000000000f0 4
             (msb_step 0x000000000000ff00 8 (msb_step 0x00000000ffff0000 16 (msb_step 0xffffffff00000000 32 (v, 0))))))
  end).

(** detail::_lsb11: 222-234 (template recursion; [finished] as in the source) *)
Fixpoint lsb11_ (fuel : nat) (val num_bits : Z) (finished : bool) : res Z :=
  match fuel with
  | O => Err
  | S fuel =>
      if finished then Ok num_bits
      else lsb11_ fuel (Z.shiftr val 1) (num_bits + 1) (negb (Z.land (Z.shiftr val 1) 1 =? 0))
  end.
(** lsb11: 241-246; zero does not compile *)
Definition lsb11 (v : Z) : res Z :=
  if v =? 0 then Err else lsb11_ 66 v 0 (negb (Z.land v 1 =? 0)).
(** detail::_msb11: 434-447; the counter is in the type itself *)
Fixpoint msb11_ (fuel : nat) (w : width) (val num_bits : Z) (finished : bool) : res Z :=
  match fuel with
  | O => Err
  | S fuel =>
      if finished then Ok (u32 (num_bits - 1))
      else msb11_ fuel w (Z.shiftr val 1) (wrap (Ity w false) (num_bits + 1)) (Z.shiftr val 1 =? 0)
  end.
(** msb11: 454-458 *)
Definition msb11 (w : width) (v : Z) : res Z := msb11_ 66 w v 0 (v =? 0).

(** ** Integer arithmetic with promotion *)
(** types narrower than int are computed in int *)
Definition promote (t : ity) : ity := match iw t with W8 | W16 => i32 | _ => t end.
(** a result in the promoted type: undefined on signed overflow *)
Definition arith (p : ity) (z : Z) : res Z :=
  if isgn p then (if in_rangeb p z then Ok z else Ub) else Ok (wrap p z).

(** contiguous_mask: 583-593. [I(1) << i]: undefined for a negative amount or one beyond
    the promoted type; the sign bit may be set (C++14 and later) *)
Definition shl1 (t : ity) (i : Z) : res Z :=
  if (0 <=? i) && (i <? bits (iw (promote t))) then Ok (wrap (promote t) (2 ^ i)) else Ub.
Fixpoint contiguous_mask_ (t : ity) (n : nat) (i r : Z) : res Z :=
  match n with
  | O => Ok r
  | S n => do b <- shl1 t i ;; contiguous_mask_ t n (i + 1) (wrap t (Z.lor r b))
  end.
(** the loop runs [last - first] times *)
Definition contiguous_mask (t : ity) (first last : Z) : res Z := contiguous_mask_ t (Z.to_nat (last - first)) first 0.

(** detail::_ctgmsk11: 596-613. A value outside the type does not compile ([Err]), nor
    does an endless recursion *)
Fixpoint ctgmsk11_ (fuel : nat) (t : ity) (val first last : Z) (go : bool) : res Z :=
  match fuel with
  | O => Err
  | S fuel =>
      if go then
        do b <- shl1 t first ;;
        if in_rangeb t (Z.lor val b) then ctgmsk11_ fuel t (Z.lor val b) (first + 1) last (negb (first + 1 =? last)) else Err
      else Ok val
  end.
Definition contiguous_mask11 (t : ity) (first last : Z) : res Z := ctgmsk11_ 66 t 0 first last (negb (first =? last)).

(** [r *= base], [r /= base] *)
Fixpoint pow_loop (t : ity) (n : nat) (base r : Z) : res Z :=
  match n with
  | O => Ok r
  | S n => do p <- arith (promote t) (r * base) ;; pow_loop t n base (wrap t p)
  end.
Fixpoint div_loop (t : ity) (n : nat) (base r : Z) : res Z :=
  match n with
  | O => Ok r
  | S n => if base =? 0 then Ub else
           do p <- arith (promote t) (Z.quot r base) ;; div_loop t n base (wrap t p)
  end.
(** ipow: 477-572. [te] is the type of the exponent *)
Definition ipow (t te : ity) (base exponent : Z) : res Z :=
  if isgn te && (exponent <? 0) then
    do e <- arith (promote te) (exponent * -1) ;;
    div_loop t (Z.to_nat (wrap te e)) base 1
  else pow_loop t (Z.to_nat exponent) base 1.
(** the overloads with the base as a template argument of the result's type: 495-511 and
    546-555 *)
Definition ipow_c (t te : ity) (base exponent : Z) : res Z :=
  if isgn te then
    if 0 <=? exponent then pow_loop t (Z.to_nat exponent) base 1
    else do e <- arith (promote te) (exponent * -1) ;; div_loop t (Z.to_nat (wrap te e)) base 1
  else pow_loop t (Z.to_nat exponent) base 1.
(** ... and of another type, converted first: 515-534 and 558-569 *)
Definition ipow_cc (t te : ity) (base exponent : Z) : res Z :=
  let bbase := wrap t base in
  if isgn te then
    if 0 <=? exponent then pow_loop t (Z.to_nat exponent) bbase 1
    else do e <- arith (promote te) (exponent * -1) ;; div_loop t (Z.to_nat (wrap te e)) bbase 1
  else pow_loop t (Z.to_nat exponent) bbase 1.

(** ** Memory *)
(** mem_overlaps: 50-54; substr::overlaps: substr.hpp 313-317, on addresses *)
Definition mem_overlaps (a b sza szb : Z) : bool := (a <? b + szb) && (b <? a + sza).
Definition overlaps (str len that_str that_len : Z) : bool := (str <? that_str + that_len) && (that_str <? str + len).
(** substr::is_super, is_sub: substr.hpp 298-310; address 0 is nullptr *)
Definition is_super (str len that_str that_len : Z) : bool :=
  if 0 <? len then (str <=? that_str) && (that_str + that_len <=? str + len)
  else (that_len =? 0) && (that_str =? str) && negb (str =? 0).
Definition is_sub (str len that_str that_len : Z) : bool := is_super that_str that_len str len.
(** is_aligned: 63-67 *)
Definition is_aligned (ptr alignment : Z) : bool := Z.land ptr (u64 (alignment - 1)) =? 0.

(** memcpy: undefined if the ranges overlap *)
Definition memcpy (m : list Z) (dst src n : Z) : res (list Z) :=
  if mem_overlaps dst src n n then Ub else
  do l <- rds m src n ;; wrs m dst l.
(** mem_repeat: memory_util.cpp 8-29; offsets of dest and pattern in the same memory *)
Fixpoint repeat_loop (fuel : nat) (m : list Z) (d e n : Z) : res (list Z * Z) :=
  match fuel with
  | O => Err
  | S fuel =>
      if d + u64 (2 * n) <? e then
        do m <- memcpy m (d + n) d n ;; repeat_loop fuel m d e (u64 (2 * n))
      else Ok (m, n)
  end.
Definition mem_repeat (dbg : bool) (m : list Z) (dest pattern psz num : Z) : res (list Z) :=
  if num =? 0 then Ok m else
  dassert dbg (negb (mem_overlaps dest pattern (u64 (num * psz)) psz))
  (let e := dest + u64 (num * psz) in
   do m <- memcpy m dest pattern psz ;;
   do '(m, n) <- repeat_loop 65 m dest e psz ;;
   if dest + n <? e then memcpy m (dest + n) dest (e - (dest + n)) else Ok m).
