(** Model of std/string.hpp, std/string_view.hpp, std/vector.hpp, blob.hpp and
    char_traits.hpp. A std::string, std::vector<char> or std::string_view is the list
    of its characters. *)
From Verif Require Import Base SubstrModel MemUtilModel.

(** ** Mixed comparisons: std/string.hpp 46-58, string_view.hpp 32-44, vector.hpp
    38-50. [ss] is the view, [s] the std object; the second group has [s] on the left.
    In vector.hpp they go through the operators of the view. *)
Definition ss_eq ss s := do c <- compare ss s ;; Ok (c =? 0).
Definition ss_ne ss s := do c <- compare ss s ;; Ok (negb (c =? 0)).
Definition ss_ge ss s := do c <- compare ss s ;; Ok (0 <=? c).
Definition ss_gt ss s := do c <- compare ss s ;; Ok (0 <? c).
Definition ss_le ss s := do c <- compare ss s ;; Ok (c <=? 0).
Definition ss_lt ss s := do c <- compare ss s ;; Ok (c <? 0).
Definition st_eq s ss := do c <- compare ss s ;; Ok (c =? 0).
Definition st_ne s ss := do c <- compare ss s ;; Ok (negb (c =? 0)).
Definition st_ge s ss := do c <- compare ss s ;; Ok (c <=? 0).
Definition st_gt s ss := do c <- compare ss s ;; Ok (c <? 0).
Definition st_le s ss := do c <- compare ss s ;; Ok (0 <=? c).
Definition st_lt s ss := do c <- compare ss s ;; Ok (0 <? c).
Definition vec_ge s ss := op_le ss s.
Definition vec_gt s ss := op_lt ss s.
Definition vec_le s ss := op_ge ss s.
Definition vec_lt s ss := op_gt ss s.
Definition vec_eq s ss := op_eq ss s.
Definition vec_ne s ss := op_ne ss s.

(** ** to_chars: string.hpp 63-77, string_view.hpp 50-65, vector.hpp 55-68. The
    std object is not in the memory [m] of the buffer [b]. *)
Definition to_chars_std (m : list Z) (b : view) (s : list Z) : res (list Z * Z) :=
  let n := if vl b <? len s then vl b else len s in
  if negb (n =? 0) then do src <- rds s 0 n ;; do m' <- wrs m (vo b) src ;; Ok (m', len s)
  else Ok (m, len s).

(** ** from_chars: string.hpp 80-93, vector.hpp 71-84 *)
(** std::string::resize and std::vector::resize *)
Definition resize (s : list Z) (n : Z) : list Z :=
  firstn (Z.to_nat n) s ++ repeat 0 (Z.to_nat n - length s).
(** the source is not in the storage of the std object *)
Definition from_chars_std (src : list Z) (s : list Z) : res (bool * list Z) :=
  let s := resize s (len src) in
  if negb (len src =? 0) then do x <- rds src 0 (len src) ;; do s <- wrs s 0 x ;; Ok (true, s)
  else Ok (true, s).
(** the source is a view [v] of the std::string itself: the storage holds the
    characters and the terminator; shrinking keeps the storage and moves the
    terminator. [memcpy] of overlapping memory is undefined. *)
Definition from_chars_self (dbg : bool) (v : view) (s : list Z) : res (bool * list Z) :=
  do mem <- wr (s ++ [0]) (vl v) 0 ;;
  if dbg && overlaps (vo v) (vl v) 0 (vl v) then Err
  else
    do mem <- (if negb (vl v =? 0) then memcpy mem 0 (vo v) (vl v) else Ok mem) ;;
    Ok (true, firstn (Z.to_nat (vl v)) mem).

(** ** blob.hpp: a blob is the address and the number of bytes *)
Record blob := Blob { baddr : Z; blen : Z }.
(** from a void pointer and a number of bytes (45-46), a variable of size [sz] (49, 51), a typed
    pointer with a count (50), an array (52-53). The typed pointer is asserted to be aligned to
    [al], the alignof of its type; [dbg]: assertions are on. The constructors are noexcept, so
    an error handler that throws would end the program; that is not modelled. For a type outside
    the namespace c4 line 50 compiles only if memory_util.hpp comes first. *)
Definition blob_void (addr n : Z) : blob := Blob addr n.
Definition blob_var (addr sz : Z) : blob := Blob addr sz.
Definition blob_ptr (dbg : bool) (addr sz al n : Z) : res blob :=
  let b := Blob addr (u64 (sz * n)) in assert (negb dbg || is_aligned addr al) (Ok b).
Definition blob_arr (addr sz n : Z) : blob := Blob addr (u64 (sz * n)).
(** assignment of a blob to a cblob (42-43): the function has a result type but no
    return statement; flowing off its end is undefined *)
Definition cblob_assign (dst : blob) (that : blob) : res blob := let _ := Blob (baddr that) (blen that) in Ub.
(** construction of a cblob from a blob (40-41) *)
Definition cblob_make (that : blob) : blob := Blob (baddr that) (blen that).

(** ** char_traits.hpp: [w] is the size of the character type *)
(** isspace(char): 12. std::isspace in the "C" locale on a signed char converted to int;
    EOF is not a space. isspace(wchar_t), 13, is not modelled. *)
Definition isspace (c : Z) : res bool :=
  if ctype_arg c then Ok ((c =? 32) || ((9 <=? c) && (c <=? 13))) else Ub.
(** num_whitespace_chars: 23, 30. The array has 6 characters and the terminator. *)
Definition whitespace_chars : list Z := [32; 12; 10; 13; 9; 11].
Definition num_whitespace_chars (w : Z) : Z := (len whitespace_chars + 1) * w - 1.
(** needed_chars<char> and needed_chars<wchar_t>: 38-57 *)
Definition needed_chars_char (n : Z) : Z := n.
Definition needed_chars_wchar (w n : Z) : Z := n / w + (if negb (Z.land n (w - 1) =? 0) then 1 else 0).
