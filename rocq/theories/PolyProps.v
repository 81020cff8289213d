(** The additions for GCC 4.8 and fastcref: C125 and C126. *)
From Verif Require Import Base FormatModel PolyModel PolySpec PolyProofs.
Open Scope Z_scope.

(** ** C125: what is added for GCC 4.8 *)

(** std::align is the one of the standard. *)
Theorem C125_align : forall k size ptr space, 0 <= k < 64 -> 0 <= size < 2 ^ 64 -> 0 <= ptr -> 0 <= space -> ptr + space < 2 ^ 64 ->
  aligned_at (2 ^ k) size ptr space (align48 (2 ^ k) size ptr space).
Proof. exact align48_spec. Qed.
Print Assumptions C125_align.

(** It gives the addresses that the models of the memory resources and of raw data have. *)
Theorem C125_align_same : forall k size ptr space, 0 <= k < 64 -> 0 <= size < 2 ^ 64 -> 0 <= ptr -> 0 <= space -> ptr + space < 2 ^ 64 ->
  snd (align48 (2 ^ k) size ptr space) = std_align (2 ^ k) size ptr space.
Proof. exact align48_same. Qed.
Print Assumptions C125_align_same.

(** Classes that may be copied byte by byte are found, and the traits of single members never
    take a member that does something for a trivial one; *)
Theorem C125_traits_partial : forall c,
  (bytewise c -> is_trivially_copyable48 c = true) /\
  (is_trivially_copyable48 c = true <-> c_dtor c = Trivial /\ (c_ctor c <> Nontrivial \/ c_copy c <> Nontrivial \/ c_copy_assign c <> Nontrivial)) /\
  (is_trivially_default_constructible48 c = true <-> c_ctor c <> Nontrivial) /\
  (is_trivially_copy_constructible48 c = true <-> c_copy c <> Nontrivial) /\
  (is_trivially_copy_assignable48 c = true <-> c_copy_assign c <> Nontrivial) /\
  is_trivially_move_constructible48 c = false /\ is_trivially_move_assignable48 c = false.
Proof. exact traits48. Qed.
Print Assumptions C125_traits_partial.

(** but is_trivially_copyable takes classes with a trivial destructor for ones that may be
    copied byte by byte though their copy constructor, or their assignment, does something. *)
Theorem C125_copyable_refuted : forall c, c_dtor c = Trivial ->
  c_copy c = Nontrivial /\ c_ctor c <> Nontrivial \/ c_copy_assign c = Nontrivial /\ c_copy c <> Nontrivial ->
  is_trivially_copyable48 c = true /\ ~ bytewise c.
Proof. exact copyable48. Qed.
Print Assumptions C125_copyable_refuted.

Example C125_ex1 : align48 16 24 0x1001 64 = (0x1010, 49, Some 0x1010) /\ align48 16 50 0x1001 64 = (0x1001, 64, None) /\
  align48 (2 ^ 63) 1 (2 ^ 64 - 8) 7 = (2 ^ 64 - 8, 7, None).
Proof. repeat split; reflexivity. Qed.
(** a class whose copy constructor counts its objects *)
Example C125_ex2 : let c := Cls Trivial Nontrivial Nontrivial Trivial Trivial Trivial in
  ~ bytewise c /\ is_trivially_copyable48 c = true /\ is_trivially_copyable c = false.
Proof. cbn zeta. split; [|split; reflexivity]. intros [H _]. now apply H. Qed.

(** ** C126: fastcref *)

(** A class is passed by value if and only if its objects may be copied byte by byte, its layout
    is standard and its size is at most the one of size_t; before C++20 its default
    constructor must be trivial too. Scalars always are. *)
Theorem C126_choice : forall cpp20 n std c,
  cref_uses_val cpp20 (Class n std c) = true <->
  bytewise c /\ std = true /\ n <= 8 /\ (cpp20 = false -> c_ctor c = Trivial).
Proof. exact choice. Qed.
Print Assumptions C126_choice.
Theorem C126_scalar : forall cpp20 n, pass cpp20 (Scalar n) = Ok ByValue.
Proof. reflexivity. Qed.
Print Assumptions C126_scalar.

(** The call compiles for every class with a copy constructor; *)
Theorem C126_compiles_partial : forall cpp20 n std c, c_copy c <> Deleted ->
  pass cpp20 (Class n std c) = Ok (if cref_uses_val cpp20 (Class n std c) then ByValue else ByRef).
Proof. exact compiles. Qed.
Print Assumptions C126_compiles_partial.

(** small classes that can only be moved do not compile, though a reference would. *)
Theorem C126_compiles_refuted : forall cpp20 n c, n <= 8 -> bytewise c -> c_ctor c = Trivial -> c_copy c = Deleted ->
  pass cpp20 (Class n true c) = Err.
Proof. exact no_copy. Qed.
Print Assumptions C126_compiles_refuted.

Example C126_ex1 : pass false (Class 8 true (Cls Trivial Trivial Trivial Trivial Trivial Trivial)) = Ok ByValue /\
  pass true (Class 9 true (Cls Trivial Trivial Trivial Trivial Trivial Trivial)) = Ok ByRef /\
  pass false (Class 4 true (Cls Nontrivial Trivial Trivial Trivial Trivial Trivial)) = Ok ByRef /\
  pass true (Class 4 true (Cls Nontrivial Trivial Trivial Trivial Trivial Trivial)) = Ok ByValue /\
  pass true (Class 4 true (Cls Trivial Deleted Trivial Deleted Trivial Trivial)) = Err.
Proof. repeat split; reflexivity. Qed.
