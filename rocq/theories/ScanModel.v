(** Forward and backward scans of c4/substr.hpp, shared by several models.
    [npos] results are [None]. *)
From Verif Require Import Base.

(** [for(size_t i = pos; i < len; ++i) if(p(str[i])) return i; return npos;]
    where [s] is the text from position [pos] on. This is the loop of
    first_of(c) / first_not_of(c) and their [start] variants
    (substr.hpp 786-841, 845-866, 890-930). *)
Fixpoint scan_fwd (p : Z -> bool) (s : list Z) (pos : Z) : option Z :=
  match s with
  | [] => None
  | c :: s' => if p c then Some pos else scan_fwd p s' (pos + 1)
  end.

(** first_not_of(c, start): substr.hpp 855-864; the assertion
    [start <= len] is an [Err]. *)
Definition first_not_of_from (s : list Z) (c : Z) (start : Z) : res (option Z) :=
  if (0 <=? start) && (start <=? len s)
  then Ok (scan_fwd (fun x => negb (x =? c)) (skipn (Z.to_nat start) s) start)
  else Err.

(** [sub(first)] on a read-only string, as its contents (substr.hpp 322-326);
    the assertion [first <= len] is an [Err]. *)
Definition csub (s : list Z) (first : Z) : res (list Z) :=
  if (0 <=? first) && (first <=? len s) then Ok (skipn (Z.to_nat first) s) else Err.
