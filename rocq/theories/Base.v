(** Base definitions shared by all models.

    Conventions (see DESIGN.md, section 1.1):
    - a C++ [char] is a [Z] in [0,256) (its byte value);
    - memory (an array of char) is a [list Z];
    - a [substr] is a [view]: an offset into the memory and a length;
    - outcomes: [Ok], [Ub] (undefined behaviour), [Err] (library error path or
      failed assertion). *)
From Coq Require Export String Ascii.
From Coq Require Export List ZArith Lia Bool.
From Coq Require Export ZifyBool ZifyNat ZifyN.
Export ListNotations.
Open Scope Z_scope.

Ltac Zify.zify_post_hook ::= Z.div_mod_to_equations.

(** ** Outcomes *)
Inductive res (A : Type) : Type :=
| Ok (a : A)      (* normal return *)
| Ub              (* undefined behaviour: out-of-bounds access, bad shift, ... *)
| Err.            (* C4_ERROR / C4_CHECK / failed C4_ASSERT *)
Arguments Ok {A} a.
Arguments Ub {A}.
Arguments Err {A}.

Definition bind {A B} (r : res A) (f : A -> res B) : res B :=
  match r with Ok a => f a | Ub => Ub | Err => Err end.
Notation "'do' x <- r ;; k" := (bind r (fun x => k))
  (at level 200, x name, r at level 100, k at level 200).
Notation "'do' ' p <- r ;; k" := (bind r (fun x => match x with p => k end))
  (at level 200, p pattern, r at level 100, k at level 200).

Definition is_ok {A} (r : res A) : bool := match r with Ok _ => true | _ => false end.

(** ** Sizes and elements *)
Definition len {A} (l : list A) : Z := Z.of_nat (length l).

(** bounds-checked read: outside the array is undefined behaviour *)
Definition rd (m : list Z) (i : Z) : res Z :=
  if (0 <=? i) && (i <? len m) then Ok (nth (Z.to_nat i) m 0) else Ub.

Fixpoint upd {A} (l : list A) (i : nat) (x : A) : list A :=
  match l, i with
  | [], _ => []
  | _ :: t, O => x :: t
  | h :: t, S i => h :: upd t i x
  end.

(** bounds-checked write: outside the array is undefined behaviour *)
Definition wr (m : list Z) (i : Z) (c : Z) : res (list Z) :=
  if (0 <=? i) && (i <? len m) then Ok (upd m (Z.to_nat i) c) else Ub.

(** [blit m i l]: [m] with the segment starting at [i] overwritten by [l] *)
Definition blit {A} (m : list A) (i : Z) (l : list A) : list A :=
  firstn (Z.to_nat i) m ++ l ++ skipn (Z.to_nat i + length l) m.

(** [slice m i n]: the [n] elements of [m] starting at [i] *)
Definition slice {A} (m : list A) (i n : Z) : list A :=
  firstn (Z.to_nat n) (skipn (Z.to_nat i) m).

(** bounds-checked bulk write of [l] at [i] (memcpy/memset destination). Zero
    bytes are accepted anywhere. *)
Definition wrs (m : list Z) (i : Z) (l : list Z) : res (list Z) :=
  match l with
  | [] => Ok m
  | _ => if (0 <=? i) && (i + len l <=? len m) then Ok (blit m i l) else Ub
  end.

(** bounds-checked bulk read (memcpy/memmove source) *)
Definition rds (m : list Z) (i n : Z) : res (list Z) :=
  if n <=? 0 then Ok []
  else if (0 <=? i) && (i + n <=? len m) then Ok (slice m i n) else Ub.

(** ** Machine integers *)
Definition u64 (x : Z) : Z := x mod 2 ^ 64.       (* size_t arithmetic *)
Definition u32 (x : Z) : Z := x mod 2 ^ 32.       (* unsigned arithmetic *)
Definition npos : Z := 2 ^ 64 - 1.

Inductive width := W8 | W16 | W32 | W64.
Definition bits (w : width) : Z :=
  match w with W8 => 8 | W16 => 16 | W32 => 32 | W64 => 64 end.
(** an integer type: width and signedness *)
Record ity := Ity { iw : width; isgn : bool }.

Definition imin (t : ity) : Z := if isgn t then - 2 ^ (bits (iw t) - 1) else 0.
Definition imax (t : ity) : Z :=
  if isgn t then 2 ^ (bits (iw t) - 1) - 1 else 2 ^ bits (iw t) - 1.
Definition in_range (t : ity) (v : Z) : Prop := imin t <= v <= imax t.
Definition in_rangeb (t : ity) (v : Z) : bool := (imin t <=? v) && (v <=? imax t).

(** two's complement wrap into the type *)
Definition wrap (t : ity) (v : Z) : Z :=
  let m := v mod 2 ^ bits (iw t) in
  if isgn t && (2 ^ (bits (iw t) - 1) <=? m) then m - 2 ^ bits (iw t) else m.

Definition i8 := Ity W8 true.   Definition u8t := Ity W8 false.
Definition i16 := Ity W16 true. Definition u16t := Ity W16 false.
Definition i32 := Ity W32 true. Definition u32t := Ity W32 false.
Definition i64 := Ity W64 true. Definition u64t := Ity W64 false.
Definition all_ity := [i8; u8t; i16; u16t; i32; u32t; i64; u64t].

(** a [substr]: offset of [str] in the memory, and [len] (a size_t) *)
Record view := View { vo : Z; vl : Z }.
(** the view covering the whole memory *)
Definition full {A} (m : list A) : view := View 0 (len m).
(** [substr::sub(first)] (substr.hpp 321-328): pointer + first, len - first in
    size_t arithmetic. The C4_ASSERT(first <= len) is the caller's business. *)
Definition vsub (v : view) (first : Z) : view := View (vo v + first) (u64 (vl v - first)).
Definition vin {A} (v : view) (m : list A) : Prop :=
  0 <= vo v /\ 0 <= vl v /\ vo v + vl v <= len m.
Definition contents {A} (m : list A) (v : view) : list A := slice m (vo v) (vl v).

(** ** Text literals *)
Fixpoint s2z (s : String.string) : list Z :=
  match s with
  | String.EmptyString => []
  | String.String a r => Z.of_N (Ascii.N_of_ascii a) :: s2z r
  end.
Definition ch (a : Ascii.ascii) : Z := Z.of_N (Ascii.N_of_ascii a).
Arguments s2z s%string_scope.

Definition is_byte (c : Z) : Prop := 0 <= c < 256.
Definition bytes (s : list Z) : Prop := Forall is_byte s.
(** the value of a [char] with that byte, where char is signed (x86 ABI) *)
Definition schar (c : Z) : Z := if c <? 128 then c else c - 256.
