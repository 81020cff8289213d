(** Model of formatted writing and reading: src/c4/format.hpp.

    Arguments are a closed type of the argument kinds the library itself knows how
    to convert; each kind names the [to_chars] overload it goes to. Variadic packs
    are lists. The argument data does not overlap the output buffer
    (C4_RESTRICT). *)
From Verif Require Import Base CharconvModel SubstrModel SpanNumModel Base64Model.

Inductive arg : Type :=
| AStr (s : list Z)                        (* csubstr, char array *)
| ACstr (s : list Z)                       (* substr, const char*, std::string, ...: same to_chars, other dump() overload *)
| AChar (c : Z)
| ABool (b : bool)
| ABoolAlpha (b : bool)                    (* fmt::boolalpha: 60-90 *)
| AInt (t : ity) (v : Z)
| ARadix (t : ity) (v : Z) (r : radix)     (* fmt::integral_, hex, oct, bin: 107-315 *)
| APad (t : ity) (v : Z) (r : radix) (nd : Z)  (* fmt::integral_padded_, zpad: 117-324 *)
| APtr (p : Z)
| ABase64 (data : list Z)                  (* fmt::base64: base64.hpp 127-130 *)
| ALeft (a : arg) (width pad : Z)          (* fmt::left_: 503-534 *)
| ARight (a : arg) (width pad : Z).        (* fmt::right_ *)

(** substr::first with and without assertions: substr.hpp 349-353 *)
Definition first_d (dbg : bool) (n num : Z) : res view :=
  dassert dbg ((num <=? n) || (num =? npos)) (Ok (View 0 (if num =? npos then n else num))).
(** substr::sub with and without assertions: substr.hpp 322-326 *)
Definition sub_d (dbg : bool) (n first : Z) : res view :=
  dassert dbg (first <=? n) (Ok (View first (u64 (n - first)))).
(** substr::fill: memset over the view (substr.hpp 2000-2007) *)
Definition fill_v (m : list Z) (o n pad : Z) : res (list Z) := wrs m o (repeat pad (Z.to_nat n)).

(** to_chars of one argument; fmt::left_ and fmt::right_: format.hpp 544-566 *)
Fixpoint to_chars (dbg : bool) (m : list Z) (b : view) (a : arg) : res (list Z * Z) :=
  match a with
  | AStr s | ACstr s => to_chars_str m b s
  | AChar c => to_chars_char m b c
  | ABool v => to_chars_bool m b v
  | ABoolAlpha v => to_chars_str m b (s2z (if v then "true" else "false"))
  | AInt t v => to_chars_int t m b v
  | ARadix t v r => to_chars_radix t m b v r
  | APad t v r nd => to_chars_nd t m b v r nd
  | APtr p => to_chars_ptr m b p
  | ABase64 d => base64_encode dbg m b d
  | ALeft a width pad =>
      do '(m, ret) <- to_chars dbg m b a ;;
      if (vl b <=? ret) || (width <=? ret) then Ok (m, if width <? ret then ret else width)
      else
        do f <- first_d dbg (vl b) width ;;
        do s <- sub_d dbg (vl f) ret ;;
        do m <- fill_v m (vo b + vo s) (vl s) pad ;;
        do '(m, _) <- to_chars dbg m b a ;;
        Ok (m, width)
  | ARight a width pad =>
      do '(m, ret) <- to_chars dbg m b a ;;
      if (vl b <=? ret) || (width <=? ret) then Ok (m, if width <? ret then ret else width)
      else
        let rem := u64 (width - ret) in
        do f <- first_d dbg (vl b) rem ;;
        do m <- fill_v m (vo b) (vl f) pad ;;
        do s <- sub_d dbg (vl b) rem ;;
        do '(m, _) <- to_chars dbg m (View (vo b + vo s) (vl s)) a ;;
        Ok (m, width)
  end.

(** [buf = buf.len >= num ? buf.sub(num) : substr{}]. The null view is placed at the
    end of the memory, so that a store through it is [Ub]. *)
Definition advance (m : list Z) (b : view) (num : Z) : view :=
  if num <=? vl b then vsub b num else View (len m) 0.

(** cat: format.hpp 578-599 *)
Fixpoint cat (dbg : bool) (m : list Z) (b : view) (args : list arg) : res (list Z * Z) :=
  match args with
  | [] => Ok (m, 0)
  | a :: more =>
      do '(m, num) <- to_chars dbg m b a ;;
      do '(m, n2) <- cat dbg m (advance m b num) more ;;
      Ok (m, u64 (num + n2))
  end.

(** cat_sub, catsep_sub, format_sub: 602-609, 736-743, 834-841 *)
Definition out_sub (r : res (list Z * Z)) (b : view) : res (list Z * view) :=
  do '(m, sz) <- r ;; assert (sz <=? vl b) (Ok (m, View (vo b) (if sz <=? vl b then sz else vl b))).

(** detail::catsep_more and catsep: 660-678, 709-732 *)
Fixpoint catsep_more (dbg : bool) (m : list Z) (b : view) (sep : arg) (args : list arg) : res (list Z * Z) :=
  match args with
  | [] => Ok (m, 0)
  | a :: more =>
      do '(m, r1) <- to_chars dbg m b sep ;;
      let b := advance m b r1 in
      do '(m, r2) <- to_chars dbg m b a ;;
      let b := advance m b r2 in
      do '(m, r3) <- catsep_more dbg m b sep more ;;
      Ok (m, u64 (u64 (r1 + r2) + r3))
  end.
Definition catsep (dbg : bool) (m : list Z) (b : view) (sep : arg) (args : list arg) : res (list Z * Z) :=
  match args with
  | [] => Ok (m, 0)
  | a :: more =>
      do '(m, num) <- to_chars dbg m b a ;;
      do '(m, n2) <- catsep_more dbg m (advance m b num) sep more ;;
      Ok (m, u64 (num + n2))
  end.

(** format: 792-829 *)
Fixpoint format (dbg : bool) (m : list Z) (b : view) (fmt : list Z) (args : list arg) : res (list Z * Z) :=
  match args with
  | [] => to_chars_str m b fmt
  | a :: more =>
      do pos <- find fmt (s2z "{}") (Some 0) ;;
      match pos with
      | None => to_chars_str m b fmt
      | Some pos =>
          do head <- sub2 (len fmt) 0 pos ;;
          do '(m, n1) <- to_chars_str m b (contents fmt head) ;;
          let b := advance m b n1 in
          do '(m, n2) <- to_chars dbg m b a ;;
          let b := advance m b n2 in
          do rest <- sub1 (len fmt) (pos + 2) ;;
          do '(m, n3) <- format dbg m b (contents fmt rest) more ;;
          Ok (m, u64 (u64 (n1 + n2) + n3))
      end
  end.

(** ** Growable containers: a container is its content. resize(n) keeps the first n
    bytes and appends zeros (std::vector<char>, std::string). *)
Definition resize (c : list Z) (n : Z) : list Z :=
  firstn (Z.to_nat n) c ++ repeat 0 (Z.to_nat (n - len c)).

(** catrs, catseprs, formatrs: 897-906, 950-959, 1004-1013. [write] is the fixed
    buffer function. The retry loop is fuel-bounded; exhausting the fuel is [Ub]. *)
Fixpoint rs_loop (fuel : nat) (write : list Z -> view -> res (list Z * Z)) (c : list Z) : res (list Z) :=
  match fuel with
  | O => Ub
  | S fuel =>
      do '(c', ret) <- write c (full c) ;;
      let c2 := resize c' ret in
      if len c <? ret then rs_loop fuel write c2 else Ok c2
  end.
(** the append variants: 928-938, 982-992, 1034-1044; returns the container and the
    view of the appended part *)
Fixpoint rs_append_loop (fuel : nat) (write : list Z -> view -> res (list Z * Z)) (pos : Z) (c : list Z)
  : res (list Z * view) :=
  match fuel with
  | O => Ub
  | S fuel =>
      do v <- sub1 (len c) pos ;;
      do '(c', ret) <- write c v ;;
      let c2 := resize c' (u64 (pos + ret)) in
      if vl v <? ret then rs_append_loop fuel write pos c2
      else do r <- range (len c2) pos (len c2) ;; Ok (c2, r)
  end.
Definition catrs dbg fuel c args := rs_loop fuel (fun m b => cat dbg m b args) c.
Definition catrs_append dbg fuel c args := rs_append_loop fuel (fun m b => cat dbg m b args) (len c) c.
Definition catseprs dbg fuel c sep args := rs_loop fuel (fun m b => catsep dbg m b sep args) c.
Definition catseprs_append dbg fuel c sep args := rs_append_loop fuel (fun m b => catsep dbg m b sep args) (len c) c.
Definition formatrs dbg fuel c fmt args := rs_loop fuel (fun m b => format dbg m b fmt args) c.
Definition formatrs_append dbg fuel c fmt args := rs_append_loop fuel (fun m b => format dbg m b fmt args) (len c) c.

(** ** Reading *)

(** a variable to read into, with its current value *)
Inductive slot : Type :=
| SInt (t : ity) (v : Z)
| SBool (b : bool)
| SChar (c : Z)
| SWord (v : view).        (* a csubstr; the view is relative to the whole text.
                              from_chars_first(substr, csubstr* ) takes a writable buffer, so uncat with a csubstr
                              variable does not compile as the code stands; modelled as if it took a csubstr *)

(** from_chars_first into one variable. [buf] is a view of the text [s]. *)
Definition read_first (s : list Z) (buf : view) (x : slot) : res (option Z * slot) :=
  let txt := contents s buf in
  match x with
  | SInt t v => do '(o, v) <- ato_first t txt v ;; Ok (o, SInt t v)
  | SBool v => do '(o, v) <- from_chars_first_bool txt v ;; Ok (o, SBool v)
  | SChar c => do '(o, c) <- from_chars_first_char txt c ;; Ok (o, SChar c)
  | SWord v =>
      do '(o, w) <- from_chars_first_csubstr txt v ;;
      Ok (o, SWord (match o with Some _ => View (vo buf + vo w) (vl w) | None => v end))
  end.

(** [buf = buf.len >= num ? buf.sub(num) : substr{}] for the text *)
Definition radvance (s : list Z) (b : view) (num : Z) : view :=
  if num <=? vl b then vsub b num else View (len s) 0.

(** uncat: format.hpp 621-644. Returns the size (None is npos) and the variables. *)
Fixpoint uncat (s : list Z) (b : view) (xs : list slot) : res (option Z * list slot) :=
  match xs with
  | [] => Ok (Some 0, [])
  | x :: more =>
      do '(o, x) <- read_first s b x ;;
      match o with
      | None => Ok (None, x :: more)
      | Some out =>
          do '(n, more) <- uncat s (radvance s b out) more ;;
          Ok (match n with None => None | Some n => Some (u64 (out + n)) end, x :: more)
      end
  end.

(** detail::uncatsep_more and uncatsep: 681-705, 766-776. The separator variable is
    read too. *)
Fixpoint uncatsep_more (s : list Z) (b : view) (sep : slot) (xs : list slot)
  : res (option Z * slot * list slot) :=
  match xs with
  | [] => Ok (Some 0, sep, [])
  | x :: more =>
      do '(o1, sep) <- read_first s b sep ;;
      match o1 with
      | None => Ok (None, sep, x :: more)
      | Some r1 =>
          let b := radvance s b r1 in
          do '(o2, x) <- read_first s b x ;;
          match o2 with
          | None => Ok (None, sep, x :: more)
          | Some r2 =>
              do '(o3, sep, more) <- uncatsep_more s (radvance s b r2) sep more ;;
              Ok (match o3 with None => None | Some r3 => Some (u64 (u64 (r1 + r2) + r3)) end, sep, x :: more)
          end
      end
  end.
Definition uncatsep (s : list Z) (b : view) (sep : slot) (x : slot) (more : list slot)
  : res (option Z * slot * list slot) :=
  do '(o, x) <- read_first s b x ;;
  match o with
  | None => Ok (None, sep, x :: more)
  | Some num =>
      do '(o2, sep, more) <- uncatsep_more s (radvance s b num) sep more ;;
      Ok (match o2 with None => None | Some r => Some (u64 (num + r)) end, sep, x :: more)
  end.

(** unformat: 852-880 *)
Fixpoint unformat (s : list Z) (b : view) (fmt : list Z) (xs : list slot) : res (option Z * list slot) :=
  match xs with
  | [] => Ok (Some (len fmt), [])
  | x :: more =>
      do pos <- find fmt (s2z "{}") (Some 0) ;;
      match pos with
      | None => Ok (Some (len fmt), x :: more)
      | Some pos =>
          let b := radvance s b pos in
          do '(o, x) <- read_first s b x ;;
          match o with
          | None => Ok (None, x :: more)
          | Some num =>
              do rest <- sub1 (len fmt) (pos + 2) ;;
              do '(o2, more) <- unformat s (radvance s b num) (contents fmt rest) more ;;
              Ok (match o2 with None => None | Some n => Some (u64 (u64 (pos + num) + n)) end, x :: more)
          end
      end
  end.

(** ** Raw binary data: format.cpp 18-55. [addr] is the address of the start of the
    memory; std::align moves the pointer up to the next multiple of [align] (a power
    of two) and fails when the space is too small. *)
Definition align_up (p align : Z) : Z := u64 (p - 1 + align) / align * align.
Definition std_align (align size p space : Z) : option Z :=
  let q := align_up p align in
  let diff := u64 (q - p) in
  if (space <? diff) || (space - diff <? size) then None else Some q.
Definition to_chars_raw (addr : Z) (m : list Z) (b : view) (data : list Z) (align : Z) : res (list Z * Z) :=
  match std_align align (len data) (addr + vo b) (vl b) with
  | None => Ok (m, u64 (align + len data))
  | Some p =>
      assert ((addr + vo b <=? p) && (p <=? addr + vo b + vl b))
      (let sz := u64 (p - (addr + vo b) + len data) in
       if sz <=? vl b then do m' <- wrs m (p - addr) data ;; Ok (m', sz) else Ok (m, sz))
  end.
(** from_chars into a raw_wrapper of [n] bytes at the view [d] of memory [dm] *)
Definition from_chars_raw (addr : Z) (s : list Z) (b : view) (dm : list Z) (d : view) (align : Z) : res (bool * list Z) :=
  match std_align align (vl d) (addr + vo b) (vl b) with
  | None => Err
  | Some p =>
      assert ((addr + vo b <=? p) && (p <=? addr + vo b + vl b))
      (do src <- rds s (p - addr) (vl d) ;; do dm' <- wrs dm (vo d) src ;; Ok (true, dm'))
  end.
(** from_chars_first into a raw_wrapper: 479-488, the bool converted to size_t *)
Definition from_chars_first_raw addr s b dm d align : res (Z * list Z) :=
  do '(ok, dm') <- from_chars_raw addr s b dm d align ;; Ok (if (ok : bool) then 1 else 0, dm').
