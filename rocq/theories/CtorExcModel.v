(** Model of src/c4/ctor_dtor.hpp, elements whose constructors and assignments throw.

    The functions for non-trivial types of CtorModel.v, with the same memory. [th] says
    which iterations of the loop throw. A constructor that throws leaves no object, and an
    assignment that throws is taken to leave both objects as they were. Destructors do not
    throw. A failed assertion still is [Err]. *)
From Verif Require Import Base SubstrModel CtorModel.

(** returned, left by an exception, std::terminate was called *)
Inductive outcome := Done (st : objs) | Thrown (st : objs) | Terminated.
Definition attempt (throws : bool) (r : res objs) (st : objs) : res outcome :=
  do st' <- r ;; Ok (if throws then Thrown st else Done st').
(** for(I i = 0; i < n; ++i) *)
Fixpoint xloop (n : nat) (i : Z) (th : Z -> bool) (f : Z -> objs -> res objs) (st : objs) : res outcome :=
  match n with
  | O => Ok (Done st)
  | S n => do o <- attempt (th i) (f i st) st ;; match o with Done st => xloop n (i + 1) th f st | _ => Ok o end
  end.
Definition xfor_n (n : Z) := xloop (Z.to_nat n) 0.
(** the specifier noexcept; C4_NOEXCEPT_A (error.hpp 26-30, 265, 270) is noexcept unless
    both assertions and C4_ERROR_THROWS_EXCEPTION are on *)
Definition noexcept_if (nx : bool) (r : res outcome) : res outcome :=
  do o <- r ;; Ok (match o with Thrown st => if nx then Terminated else Thrown st | o => o end).
Definition noexcept := noexcept_if true.
Definition noexcept_a (asserts error_throws : bool) : bool := negb (asserts && error_throws).

(** construct_n: 39-46; with arguments: 62-69 *)
Definition construct_n_x (th : Z -> bool) (st : objs) (ptr n v : Z) : res outcome :=
  noexcept (xfor_n n th (fun i st => new_at st (ptr + i) (Live v)) st).
Definition construct_n_args_x (th : Z -> bool) (st : objs) (ptr n v : Z) : res outcome :=
  xfor_n n th (fun i st => new_at st (ptr + i) (Live v)) st.
(** copy_construct_n: 99-107; of one value by reference: 128-136; of arrays: 138-142 *)
Definition copy_construct_n_x (th : Z -> bool) (st : objs) (dst src n : Z) : res outcome :=
  assert (negb (dst =? src)) (xfor_n n th (fun i st => new_copy st (dst + i) (src + i)) st).
Definition copy_construct_ref_n_x (th : Z -> bool) (st : objs) (dst src n : Z) : res outcome :=
  assert (negb (dst =? src)) (xfor_n n th (fun i st => new_copy st (dst + i) src) st).
Definition copy_construct_array_x (th : Z -> bool) (st : objs) (dst src n : Z) : res outcome :=
  noexcept (copy_construct_n_x th st dst src n).
(** copy_assign_n: 165-173; of one value by reference: 194-202; move_construct_n: 231-239;
    move_assign_n: 262-270 *)
Definition copy_assign_n_x (th : Z -> bool) (st : objs) (dst src n : Z) : res outcome :=
  noexcept (assert (negb (dst =? src)) (xfor_n n th (fun i st => copy_to st (dst + i) (src + i)) st)).
Definition copy_assign_ref_n_x (th : Z -> bool) (st : objs) (dst src n : Z) : res outcome :=
  noexcept (assert (negb (dst =? src)) (xfor_n n th (fun i st => copy_to st (dst + i) src) st)).
Definition move_construct_n_x (th : Z -> bool) (st : objs) (dst src n : Z) : res outcome :=
  noexcept (assert (negb (dst =? src)) (xfor_n n th (fun i st => new_move st (dst + i) (src + i)) st)).
Definition move_assign_n_x (th : Z -> bool) (st : objs) (dst src n : Z) : res outcome :=
  noexcept (assert (negb (dst =? src)) (xfor_n n th (fun i st => move_to st (dst + i) (src + i)) st)).
(** make_room (one buffer): 317-337 *)
Definition make_room_x (nx : bool) (th : Z -> bool) (st : objs) (buf bufsz room : Z) : res outcome :=
  noexcept_if nx
  (assert ((0 <=? bufsz) && (0 <=? room))
   (if bufsz <=? room then xfor_n bufsz th (fun i st => new_move st (buf + (i + room)) (buf + i)) st
    else xfor_n bufsz th (fun i st => let w := bufsz - 1 - i in new_move st (buf + (w + room)) (buf + w)) st)).
(** make_room (two buffers): 360-375, not noexcept; [th] counts on in the second loop *)
Definition make_room2_x (th : Z -> bool) (st : objs) (dst src srcsz room pos : Z) : res outcome :=
  assert ((0 <=? srcsz) && (0 <=? room) && (0 <=? pos))
  (assert ((pos <? srcsz) || ((pos =? 0) && (srcsz =? 0)))
  (do o <- xfor_n pos th (fun i st => new_copy st (dst + i) (src + i)) st ;;
   match o with
   | Done st => xfor_n (srcsz - pos) (fun i => th (pos + i)) (fun i st => new_copy st (dst + (room + pos) + i) (src + pos + i)) st
   | _ => Ok o
   end)).
