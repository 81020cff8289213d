(** Model of atof and atod of src/c4/charconv.hpp in the builds with neither fast_float nor
    std::from_chars, which read with sscanf. [dbg]: assertions are enabled. The memory [m] is
    that of the program around the view; reading outside it is [Ub]. (The C library may ask for a
    terminator somewhere after the text also where it reads no further; that is not modelled.) *)
From Verif Require Import Base ScanModel SubstrModel CharconvModel SpanNumModel Base64Model FloatModel RealModel.

(** ** sscanf: the C library (ISO C 7.21.6.2), in the "C" locale, for the conversions f and a *)
(** where a text stands in a number: the subject sequence of strtod (ISO C 7.22.1.3) *)
Inductive sstate :=
| Start | Signed | Zero                      (* nothing; after the sign; after a first 0 *)
| Int | Dot | Frac                           (* 12  .  12. or .5 *)
| Exp | ExpSign | ExpInt                     (* 1e  1e+  1e+5 *)
| HexX | HexInt | HexDot | HexFrac           (* 0x  0x1  0x.  0x1. or 0x.8 *)
| Pow | PowSign | PowInt                     (* 0x1p  0x1p-  0x1p-3 *)
| Inf_ (k : Z) | Nan_ (k : Z)                (* the first k letters of infinity, of nan *)
| NanOpen | NanClosed.                       (* nan(ab  nan(ab) *)
Definition lower (c : Z) : Z := if (65 <=? c) && (c <=? 90) then c + 32 else c.
Definition is_dig (c : Z) : bool := (48 <=? c) && (c <=? 57).
Definition is_hexdig (c : Z) : bool := is_dig c || ((97 <=? lower c) && (lower c <=? 102)).
Definition is_sign (c : Z) : bool := (c =? ch "+") || (c =? ch "-").
Definition is_word (c : Z) : bool := is_dig c || ((97 <=? lower c) && (lower c <=? 122)) || (c =? ch "_").
Definition sbegin (c : Z) : option sstate :=
  if c =? ch "0" then Some Zero else if is_dig c then Some Int
  else if c =? ch "." then Some Dot
  else if lower c =? ch "i" then Some (Inf_ 1)
  else if lower c =? ch "n" then Some (Nan_ 1) else None.
Definition sint (c : Z) : option sstate :=
  if is_dig c then Some Int else if c =? ch "." then Some Frac else if lower c =? ch "e" then Some Exp else None.
Definition snext (q : sstate) (c : Z) : option sstate :=
  match q with
  | Start => if is_sign c then Some Signed else sbegin c
  | Signed => sbegin c
  | Zero => if lower c =? ch "x" then Some HexX else sint c
  | Int => sint c
  | Dot => if is_dig c then Some Frac else None
  | Frac => if is_dig c then Some Frac else if lower c =? ch "e" then Some Exp else None
  | Exp => if is_sign c then Some ExpSign else if is_dig c then Some ExpInt else None
  | ExpSign | ExpInt => if is_dig c then Some ExpInt else None
  | HexX => if is_hexdig c then Some HexInt else if c =? ch "." then Some HexDot else None
  | HexInt => if is_hexdig c then Some HexInt else if c =? ch "." then Some HexFrac else if lower c =? ch "p" then Some Pow else None
  | HexDot => if is_hexdig c then Some HexFrac else None
  | HexFrac => if is_hexdig c then Some HexFrac else if lower c =? ch "p" then Some Pow else None
  | Pow => if is_sign c then Some PowSign else if is_dig c then Some PowInt else None
  | PowSign | PowInt => if is_dig c then Some PowInt else None
  | Inf_ k => if (k <? 8) && (lower c =? nth (Z.to_nat k) (s2z "infinity") 0) then Some (Inf_ (k + 1)) else None
  | Nan_ k => if k <? 3 then (if lower c =? nth (Z.to_nat k) (s2z "nan") 0 then Some (Nan_ (k + 1)) else None)
              else if c =? ch "(" then Some NanOpen else None
  | NanOpen => if is_word c then Some NanOpen else if c =? ch ")" then Some NanClosed else None
  | NanClosed => None
  end.
Definition sfinal (q : sstate) : bool :=
  match q with
  | Zero | Int | Frac | ExpInt | HexInt | HexFrac | PowInt | NanClosed => true
  | Inf_ k => (k =? 3) || (k =? 8)
  | Nan_ k => k =? 3
  | _ => false
  end.
(** white space is skipped and does not count in the width. [s] is the memory from there on *)
Definition is_white (c : Z) : bool := (c =? 32) || ((9 <=? c) && (c <=? 13)).
Fixpoint skip_white (s : list Z) : res (list Z) :=
  match s with [] => Ub | c :: r => if is_white c then skip_white r else Ok s end.
(** the input item: the longest sequence of at most [w] characters that begins a number; the
    reading stops at the first character that does not belong to it. The number has been read
    if the item is one; else the conversion fails. *)
Fixpoint scan_item (q : sstate) (w : Z) (s : list Z) : res (list Z * bool) :=
  if w <=? 0 then Ok ([], sfinal q) else
  match s with
  | [] => Ub
  | c :: r =>
      match snext q c with
      | None => Ok ([], sfinal q)
      | Some q => do '(t, ok) <- scan_item q (w - 1) r ;; Ok (c :: t, ok)
      end
  end.
(** the format: '%', the width, an optional l, f or a, and "%n" or nothing more. The result is
    the width and whether there is "%n". Other formats and the width 0 are not valid
    ([None]: the behaviour is undefined). *)
Fixpoint fmt_width (s : list Z) (w : Z) : Z * list Z :=
  match s with c :: r => if is_dig c then fmt_width r (w * 10 + (c - 48)) else (w, s) | [] => (w, s) end.
Definition parse_fmt (s : list Z) : option (Z * bool) :=
  match s with
  | p :: s =>
      if negb (p =? ch "%") then None else
      let '(w, s) := fmt_width s 0 in
      if w =? 0 then None else
      let s := match s with c :: r => if c =? ch "l" then r else s | [] => s end in
      match s with
      | t :: s =>
          if negb ((t =? ch "f") || (t =? ch "a")) then None
          else match s with
               | [] => Some (w, false)
               | [a; b] => if (a =? ch "%") && (b =? ch "n") then Some (w, true) else None
               | _ => None
               end
      | [] => None
      end
  | [] => None
  end.
(** sscanf(s, fmt, v, &num_chars): [None] if the number of conversions is not 1; else the item
    and num_chars, which is [None] if it has not been stored *)
Definition sscanf (s fmt : list Z) : res (option (list Z * option Z)) :=
  match parse_fmt fmt with
  | None => Ub
  | Some (w, n) =>
      do u <- skip_white s ;;
      do '(t, ok) <- scan_item Start w u ;;
      let k := len s - len u + len t in
      if negb ok then Ok None
      else if negb n then Ok (Some (t, None))
      else if 2 ^ 31 <=? k then Ub      (* num_chars is an int *)
      else Ok (Some (t, Some k))
  end.
(** the text of snprintf("%zu") *)
Fixpoint dec_text (fuel : nat) (n : Z) (acc : list Z) : list Z :=
  match fuel with
  | O => acc
  | S fuel => let acc := 48 + n mod 10 :: acc in if n <? 10 then acc else dec_text fuel (n / 10) acc
  end.
Definition zu_text (n : Z) : list Z := dec_text 20 n [].

(** ** scan_one: 1886-1916. The result is the returned size ([None] is npos) and the text of the
    number that was assigned to [*v] *)
Definition scan_fmt (n : Z) (type_fmt : list Z) : list Z := s2z "%" ++ zu_text n ++ type_fmt ++ s2z "%n".
Definition scan_one (dbg : bool) (m : list Z) (str : view) (type_fmt : list Z) : res (option (Z * list Z)) :=
  let full := scan_fmt (vl str) type_fmt in
  dassert dbg (len full <? 16)
    (do r <- sscanf (skipn (Z.to_nat (vo str)) m) (firstn 15 full) ;;
     match r with
     | None => Ok None
     | Some (t, None) => Ub             (* num_chars has no value *)
     | Some (t, Some k) => dassert dbg (0 <=? k) (Ok (Some (u64 k, t)))
     end).
(** ** atof: 2111-2114, 2136-2140; atod: 2172-2175, 2197-2201. [lm] is "" or "l". The text of
    the number that was assigned, [None] if the result is false *)
Definition atof_scanf (dbg : bool) (lm : list Z) (m : list Z) (str : view) : res (option (list Z)) :=
  dassert dbg (0 <? vl str)
    (do t <- triml (contents m str) (s2z " " ++ [13; 9; 10]) ;;
     dassert dbg (vl t =? vl str)
       (do c <- rdv m str 0 ;;
        do rem <- csub (contents m str) (if (c =? ch "-") || (c =? ch "+") then 1 else 0) ;;
        do r <- scan_one dbg m str (lm ++ (if negb (begins_0x rem) then s2z "f" else s2z "a")) ;;
        Ok (match r with Some (k, t) => if k =? npos then None else Some t | None => None end))).
(** ** atof_first: 2149-2157; atod_first: 2210-2218 *)
Definition atof_first_scanf (dbg : bool) (lm : list Z) (m : list Z) (str : view) : res (option (Z * list Z)) :=
  do trimmed <- first_real_span (contents m str) ;;
  if vl trimmed =? 0 then Ok None else
  do r <- atof_scanf dbg lm m (View (vo str + vo trimmed) (vl trimmed)) ;;
  Ok (match r with Some t => Some (vo trimmed + vl trimmed, t) | None => None end).
