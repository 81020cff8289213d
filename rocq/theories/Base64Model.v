(** Model of base64 encoding and decoding: src/c4/base64.cpp, src/c4/base64.hpp,
    and of the UTF-8 encoder: src/c4/utf.cpp.

    [dbg] tells whether C4_ASSERT/C4_XASSERT are compiled in (error.hpp 253-309);
    C4_CHECK is always there. The input and output arrays are distinct
    (C4_RESTRICT pointers). *)
From Verif Require Import Base CharconvModel SubstrModel.

Definition dassert (dbg b : bool) {A} (k : res A) : res A := if negb dbg || b then k else Err.

(** base64_sextet_to_char_: base64.cpp 18-35 *)
Definition sextet_to_char : list Z :=
  s2z "ABCDEFGHIJKLMNOPQRSTUVWXYZabcdefghijklmnopqrstuvwxyz0123456789+/".

(** base64_char_to_sextet_: base64.cpp 38-73; -1 stands for char(-1) *)
Definition char_to_sextet : list Z :=
  [
   -1; -1; -1; -1; -1; -1; -1; -1; -1; -1; -1; -1; -1; -1; -1; -1;
   -1; -1; -1; -1; -1; -1; -1; -1; -1; -1; -1; -1; -1; -1; -1; -1;
   -1; -1; -1; -1; -1; -1; -1; -1; -1; -1; -1; 62; -1; -1; -1; 63;
   52; 53; 54; 55; 56; 57; 58; 59; 60; 61; -1; -1; -1; -1; -1; -1;
   -1; 0; 1; 2; 3; 4; 5; 6; 7; 8; 9; 10; 11; 12; 13; 14;
   15; 16; 17; 18; 19; 20; 21; 22; 23; 24; 25; -1; -1; -1; -1; -1;
   -1; 26; 27; 28; 29; 30; 31; 32; 33; 34; 35; 36; 37; 38; 39; 40;
   41; 42; 43; 44; 45; 46; 47; 48; 49; 50; 51; -1; -1; -1; -1; -1].

(** base64_valid: base64.cpp 97-111. [c < 0] on a signed char; the table index is
    bounds-checked by [rd]. *)
Fixpoint valid_loop (s : list Z) : res bool :=
  match s with
  | [] => Ok true
  | c :: r =>
      if schar c <? 0 then Ok false
      else if c =? ch "=" then valid_loop r
      else do v <- rd char_to_sextet (schar c) ;; if v =? -1 then Ok false else valid_loop r
  end.
Definition base64_valid (s : list Z) : res bool :=
  if negb (Z.land (len s) 3 =? 0) then Ok false else valid_loop s.

(** c4append_ (base64.cpp 116 and 159): store when inside the buffer, always
    advance *)
Definition app_ (b : view) (st : list Z * Z) (c : Z) : res (list Z * Z) :=
  let '(m, pos) := st in
  do m' <- (if pos <? vl b then wr m (vo b + pos) c else Ok m) ;; Ok (m', u64 (pos + 1)).

(** c4append_idx_: base64.cpp 117-121 *)
Definition app_idx (dbg : bool) (b : view) (st : list Z * Z) (i : Z) : res (list Z * Z) :=
  dassert dbg (i <? 64) (do c <- rd sextet_to_char i ;; app_ b st c).

Definition sextet (val shift : Z) : Z := Z.land (Z.shiftr val shift) (u32 (Z.shiftl 1 6) - 1).

(** the loop over triplets of base64_encode: base64.cpp 125-132. [i] is the offset
    of [d] in the data, [rem] the remaining bytes. The fuel bounds the number of
    iterations; exhausting it is [Ub]. *)
Fixpoint encode_loop (dbg : bool) (fuel : nat) (b : view) (data : list Z) (i rem : Z) (st : list Z * Z)
  : res (Z * Z * (list Z * Z)) :=
  if 3 <=? rem then
    match fuel with
    | O => Ub
    | S fuel =>
        do d0 <- rd data i ;; do d1 <- rd data (i + 1) ;; do d2 <- rd data (i + 2) ;;
        let val := Z.lor (Z.lor (u32 (Z.shiftl d0 16)) (u32 (Z.shiftl d1 8))) d2 in
        do st <- app_idx dbg b st (sextet val 18) ;;
        do st <- app_idx dbg b st (sextet val 12) ;;
        do st <- app_idx dbg b st (sextet val 6) ;;
        do st <- app_idx dbg b st (sextet val 0) ;;
        encode_loop dbg fuel b data (i + 3) (rem - 3) st
    end
  else Ok (i, rem, st).

(** base64_encode: base64.cpp 114-154 *)
Definition base64_encode (dbg : bool) (m : list Z) (b : view) (data : list Z) : res (list Z * Z) :=
  do '(i, rem, st) <- encode_loop dbg (S (length data)) b data 0 (len data) (m, 0) ;;
  dassert dbg (rem <? 3)
  (if rem =? 2 then
     do d0 <- rd data i ;; do d1 <- rd data (i + 1) ;;
     let val := Z.lor (u32 (Z.shiftl d0 16)) (u32 (Z.shiftl d1 8)) in
     do st <- app_idx dbg b st (sextet val 18) ;;
     do st <- app_idx dbg b st (sextet val 12) ;;
     do st <- app_idx dbg b st (sextet val 6) ;;
     app_ b st (ch "=")
   else if rem =? 1 then
     do d0 <- rd data i ;;
     let val := u32 (Z.shiftl d0 16) in
     do st <- app_idx dbg b st (sextet val 18) ;;
     do st <- app_idx dbg b st (sextet val 12) ;;
     do st <- app_ b st (ch "=") ;;
     app_ b st (ch "=")
   else Ok st).

(** c4appendval_: base64.cpp 160-165. [static_cast<uint32_t>] of a negative char
    wraps modulo 2^32. *)
Definition appval (dbg : bool) (val c shift : Z) : res Z :=
  dassert dbg (0 <=? schar c) (dassert dbg (u64 (schar c) <? 128)
  (do x <- rd char_to_sextet (schar c) ;; Ok (Z.lor val (u32 (Z.shiftl (u32 x) (shift * 6)))))).

Definition byte_of (val shift : Z) : Z := Z.land (Z.shiftr val shift) 255.

(** the loop over quartets of base64_decode: base64.cpp 172-187; returns the offset
    of [d] when the loop ends *)
Fixpoint decode_loop (dbg : bool) (fuel : nat) (b : view) (s : list Z) (i : Z) (st : list Z * Z)
  : res (Z * (list Z * Z)) :=
  if i <? len s then
    match fuel with
    | O => Ub
    | S fuel =>
        do d2 <- rd s (i + 2) ;;
        do pad <- (if d2 =? ch "=" then Ok true else do d3 <- rd s (i + 3) ;; Ok (d3 =? ch "=")) ;;
        if (pad : bool) then dassert dbg (i + 4 =? len s) (Ok (i, st))
        else
          do d3 <- rd s (i + 3) ;; do d1 <- rd s (i + 1) ;; do d0 <- rd s i ;;
          do val <- appval dbg 0 d3 0 ;;
          do val <- appval dbg val d2 1 ;;
          do val <- appval dbg val d1 2 ;;
          do val <- appval dbg val d0 3 ;;
          do st <- app_ b st (byte_of val 16) ;;
          do st <- app_ b st (byte_of val 8) ;;
          do st <- app_ b st (byte_of val 0) ;;
          decode_loop dbg fuel b s (i + 4) st
    end
  else Ok (i, st).

(** base64_decode: base64.cpp 157-213; also from_chars(csubstr, base64_wrapper)
    (base64.hpp 134-137), which returns the same size *)
Definition base64_decode (dbg : bool) (s m : list Z) (b : view) : res (list Z * Z) :=
  do ok <- (if dbg then base64_valid s else Ok true) ;;
  assert ok (assert (Z.land (len s) 3 =? 0)
  (do '(i, st) <- decode_loop dbg (S (length s)) b s 0 (m, 0) ;;
   if i =? len s then Ok st
   else
     do d2 <- rd s (i + 2) ;;
     if d2 =? ch "=" then
       dassert dbg (i + 4 =? len s)
       (do ok3 <- (if dbg then do d3 <- rd s (i + 3) ;; Ok (d3 =? ch "=") else Ok true) ;;
        assert ok3
        (do d1 <- rd s (i + 1) ;; do d0 <- rd s i ;;
         do val <- appval dbg 0 d1 2 ;;
         do val <- appval dbg val d0 3 ;;
         app_ b st (byte_of val 16)))
     else
       do d3 <- rd s (i + 3) ;;
       if d3 =? ch "=" then
         dassert dbg (i + 4 =? len s)
         (do d1 <- rd s (i + 1) ;; do d0 <- rd s i ;;
          do val <- appval dbg 0 d2 1 ;;
          do val <- appval dbg val d1 2 ;;
          do val <- appval dbg val d0 3 ;;
          do st <- app_ b st (byte_of val 16) ;;
          app_ b st (byte_of val 8))
       else Ok st)).

(** decode_code_point(buf, buflen, code): utf.cpp 8-40. [code] is a uint32_t; the
    casts to uint8_t keep the low 8 bits. [buf] is the start of the view. *)
Definition u8 (x : Z) : Z := x mod 256.
Definition decode_code_point (dbg : bool) (m : list Z) (b : view) (code : Z) : res (list Z * Z) :=
  dassert dbg (4 <=? vl b)
  (if code <=? 127 then
     do m <- wr m (vo b) (u8 code) ;; Ok (m, 1)
   else if code <=? 2047 then
     do m <- wr m (vo b) (u8 (Z.lor 192 (Z.shiftr code 6))) ;;
     do m <- wr m (vo b + 1) (u8 (Z.lor 128 (Z.land code 63))) ;; Ok (m, 2)
   else if code <=? 65535 then
     do m <- wr m (vo b) (u8 (Z.lor 224 (Z.shiftr code 12))) ;;
     do m <- wr m (vo b + 1) (u8 (Z.lor 128 (Z.land (Z.shiftr code 6) 63))) ;;
     do m <- wr m (vo b + 2) (u8 (Z.lor 128 (Z.land code 63))) ;; Ok (m, 3)
   else if code <=? 1114111 then
     do m <- wr m (vo b) (u8 (Z.lor 240 (Z.shiftr code 18))) ;;
     do m <- wr m (vo b + 1) (u8 (Z.lor 128 (Z.land (Z.shiftr code 12) 63))) ;;
     do m <- wr m (vo b + 2) (u8 (Z.lor 128 (Z.land (Z.shiftr code 6) 63))) ;;
     do m <- wr m (vo b + 3) (u8 (Z.lor 128 (Z.land code 63))) ;; Ok (m, 4)
   else Ok (m, 0)).

(** decode_code_point(out, code_point): utf.cpp 42-56. The assertions are evaluated
    in order; read_hex is the uint32_t instance; [out.first(ret)]. *)
Definition decode_code_point_str (m : list Z) (b : view) (s : list Z) : res (list Z * view) :=
  assert (4 <=? vl b)
  (do p1 <- begins_with s (s2z "U+") ;; assert (negb p1)
  (do p2 <- begins_with s (s2z "\x") ;; assert (negb p2)
  (do p3 <- begins_with s (s2z "\u") ;; assert (negb p3)
  (do p4 <- begins_with s (s2z "\U") ;; assert (negb p4)
  (do p5 <- begins_with_c s (ch "0") ;; assert (negb p5)
  (assert (len s <=? 8) (assert (0 <? len s)
  (do '(ok, v) <- read_num Hex u32t s ;; assert ok
  (do '(m', ret) <- decode_code_point true m b v ;;
   assert (ret <=? 4) (do f <- vfirst (vl b) ret ;; Ok (m', View (vo b + vo f) (vl f)))))))))))).
