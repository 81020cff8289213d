(** Model of src/c4/type_name.hpp, of the sizes and the integer sequences of src/c4/types.hpp,
    and of the macros of src/c4/preprocessor.hpp. *)
From Verif Require Import Base.

(** ** type_name.hpp 33-114. [p] is the text of C4_PRETTY_FUNC in [_c4tn<T>]: 19-27 *)
Inductive compiler := MsvcClang2022 | MsvcClang | Msvc | Icc | Clang | Gcc7 | GccOld.
Definition tstart (c : compiler) : Z :=
  match c with MsvcClang2022 => 30 | MsvcClang => 26 | Msvc => 26 | Icc => 23 | Clang => 18 | Gcc7 => 33 | GccOld => 23 end.
Definition tend (c : compiler) : Z := match c with Msvc => 7 | _ => 1 end.
(** 67, 72: the characters are compared one after the other and the first difference ends the
    comparison *)
Fixpoint all_at (p : list Z) (i : Z) (w : list Z) : res bool :=
  match w with
  | [] => Ok true
  | c :: w => do x <- rd p i ;; if x =? c then all_at p (i + 1) w else Ok false
  end.
(** the text ends with a zero character, which the comparison may read *)
Definition type_name (c : compiler) (p : list Z) : res (list Z) :=
  do start <-
    (match c with
     | Msvc =>
         do cl <- (if 6 <? len p then all_at (p ++ [0]) (tstart c) (s2z "class ") else Ok false) ;;
         if cl : bool then Ok (tstart c + 6) else
         do st <- (if 7 <? len p then all_at (p ++ [0]) (tstart c) (s2z "struct ") else Ok false) ;;
         Ok (if st : bool then tstart c + 7 else tstart c)
     | _ => Ok (tstart c)
     end) ;;
  rds p start (u64 (u64 (len p - start) - tend c)).

(** ** types.hpp 139-192 *)
Definition min_remainder (size minsize : Z) : Z := if size <? minsize then minsize - size else 0.
Definition mult_remainder (size multipleof : Z) : Z :=
  if negb (size mod multipleof =? 0) then multipleof - size mod multipleof else 0.
(** The layout of a class: sizeof, and where the members of a derived class may begin; that is
    less than sizeof for a class that is empty or has padding at its end and is not a POD
    (Itanium C++ ABI). [Padded] is packed, its alignment is 1. *)
Record layout := { l_size : Z; l_dsize : Z }.
Definition padded (t : layout) (n : Z) : layout :=
  if n =? 0 then t else {| l_size := Z.max (l_size t) (l_dsize t + n); l_dsize := l_dsize t + n |}.
Definition min_sized (t : layout) (mn : Z) : layout := padded t (min_remainder (l_size t) mn).
Definition mult_sized (t : layout) (mult : Z) : layout := padded t (mult_remainder (l_size t) mult).
Definition min_mult_sized (t : layout) (mn mult : Z) : layout := mult_sized (min_sized t mn) mult.
Definition ubuf_sized (t : layout) : layout := min_mult_sized t 64 16.

(** ** integer sequences: types.hpp 404-447. The depth of the templates is the fuel *)
Definition repeat8 (np extra : list Z) : list Z :=
  let n := len np in
  np ++ map (Z.add n) np ++ map (Z.add (2 * n)) np ++ map (Z.add (3 * n)) np ++ map (Z.add (4 * n)) np ++
  map (Z.add (5 * n)) np ++ map (Z.add (6 * n)) np ++ map (Z.add (7 * n)) np ++ extra.
(** the extra arguments in __parity<n % 8> *)
Definition parity_extra (n : Z) : list Z :=
  match n mod 8 with
  | 0 => []
  | 1 => [n - 1]
  | 2 => [n - 2; n - 1]
  | 3 => [n - 3; n - 2; n - 1]
  | 4 => [n - 4; n - 3; n - 2; n - 1]
  | 5 => [n - 5; n - 4; n - 3; n - 2; n - 1]
  | 6 => [n - 6; n - 5; n - 4; n - 3; n - 2; n - 1]
  | _ => [n - 7; n - 6; n - 5; n - 4; n - 3; n - 2; n - 1]
  end.
Fixpoint make_seq (fuel : nat) (n : Z) : res (list Z) :=
  match fuel with
  | O => Err
  | S fuel =>
      match n with
      | 0 => Ok []
      | 1 => Ok [0]
      | 2 => Ok [0; 1]
      | 3 => Ok [0; 1; 2]
      | 4 => Ok [0; 1; 2; 3]
      | 5 => Ok [0; 1; 2; 3; 4]
      | 6 => Ok [0; 1; 2; 3; 4; 5]
      | 7 => Ok [0; 1; 2; 3; 4; 5; 6]
      | _ => do s <- make_seq fuel (n / 8) ;; Ok (repeat8 s (parity_extra n))
      end
  end.

(** ** preprocessor.hpp 68-116. A macro argument, or a number of _C4_FOR_EACH_RSEQ_N *)
Inductive pp (A : Type) := PArg (a : A) | PNum (n : nat).
Arguments PArg {A} a.
Arguments PNum {A} n.
(** 32, 31, ..., 01: 113 *)
Definition rseq_n {A} : list (pp A) := map PNum (rev (seq 1 32)).
(** _C4_FOR_EACH_ARG_N returns its 33rd argument: 110-112 *)
Definition for_each_narg {A} (args : list A) : option (pp A) := nth_error (map PArg args ++ rseq_n) 32.
(** _C4_FOR_EACH_01 to _32: 78-109. The tokens: [what] of an argument, then [sep]. A wrong
    number of arguments is an error of the preprocessor *)
Inductive tok (A : Type) := What (a : A) | Sep.
Arguments What {A} a.
Arguments Sep {A}.
Fixpoint for_each_n {A} (n : nat) (args : list A) : res (list (tok A)) :=
  match n, args with
  | 1%nat, [x] => Ok [What x; Sep]
  | S n, x :: r => do t <- for_each_n n r ;; Ok (What x :: Sep :: t)
  | _, _ => Err
  end.
(** C4_FOR_EACH_SEP: 74, 114. The name of the macro is pasted from the count; there is none for
    anything but the numbers *)
Definition for_each_sep {A} (args : list A) : res (list (tok A)) :=
  match for_each_narg args with Some (PNum n) => for_each_n n args | _ => Err end.
(** C4_VERSION_CAT: 46 *)
Definition version_cat (major minor patch : Z) : Z := major * 10000 + minor * 100 + patch.

(** ** C4_DEFINE_HAS_TYPEDEF(member_typedef): types.hpp 280-299. The body has the parameter, other
    identifiers, and identifiers joined with ##; only the parameter is replaced *)
Inductive ident := Id (name : list Z) | Join (a b : list Z).
Definition replace_id (param arg name : list Z) : list Z := if list_eq_dec Z.eq_dec name param then arg else name.
Definition expand (param arg : list Z) (i : ident) : list Z :=
  match i with Id n => replace_id param arg n | Join a b => replace_id param arg a ++ replace_id param arg b end.
(** the name of the struct, 282, and the member that _test asks for, 290 *)
Definition trait_struct : ident := Join (s2z "has_") (s2z "stype").
Definition trait_member : ident := Id (s2z "member_typedef").
(** a type is the list of its member typedefs; for each whether it is a reference. The parameter
    of the first _test is a pointer to the member. There is no pointer to a reference, so then the
    other one is chosen, which returns two characters: 286-297 *)
Record trait := Trait { t_name : list Z; t_value : list (list Z * bool) -> bool }.
Definition define_has_typedef (arg : list Z) : trait :=
  let param := s2z "member_typedef" in
  let size (members : list (list Z * bool)) :=
    if existsb (fun m => if list_eq_dec Z.eq_dec (fst m) (expand param arg trait_member) then negb (snd m) else false) members then 1 else 2 in
  Trait (expand param arg trait_struct) (fun members => size members =? 1).
