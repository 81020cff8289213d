(** Model of src/c4/ext/sg14/inplace_function.h: a function object with the closure in
    its own storage and a pointer to a table of operations.
    A closure type has a number; [env] says what a type of that number does. A closure
    value is an integer (its captured state). *)
From Verif Require Import Base.

(** [cinv v x]: calling a closure in state [v] with argument [x] gives a result and the
    new state. [cmvd v] is the state left behind by a move. [ccopy_throws], [cmove_throws]:
    whether the copy or move constructor throws for that state. *)
Record ctype := CType { csize : Z; cinv : Z -> Z -> Z * Z; cmvd : Z -> Z;
  ccopy_throws : Z -> bool; cmove_throws : Z -> bool }.
Definition env := nat -> ctype.

(** the storage: raw, or a closure (type and state) lives in it *)
Definition store := option (nat * Z).
(** the table pointer: the empty table, or that of a closure type *)
Definition vtable := option nat.

(** ** The tables: 70-128. Constructing over a live closure leaks it and using a closure
    that is not there is undefined: both are [Ub]. The flag says that an exception
    was thrown. *)
Definition live (t : nat) (s : store) : res Z :=
  match s with Some (t', v) => if Nat.eqb t t' then Ok v else Ub | None => Ub end.
Definition place (t : nat) (v : Z) (dst : store) : res store :=
  match dst with Some _ => Ub | None => Ok (Some (t, v)) end.
(** copy_ptr: 95, 107-110 *)
Definition vt_copy (E : env) (vt : vtable) (dst src : store) : res (bool * store) :=
  match vt with
  | None => Ok (false, dst)
  | Some t =>
      do v <- live t src ;;
      if ccopy_throws (E t) v then Ok (true, dst) else
      do dst <- place t v dst ;; Ok (false, dst)
  end.
(** move_ptr: 96, 111-114 *)
Definition vt_move (E : env) (vt : vtable) (dst src : store) : res (bool * (store * store)) :=
  match vt with
  | None => Ok (false, (dst, src))
  | Some t =>
      do v <- live t src ;;
      if cmove_throws (E t) v then Ok (true, (dst, src)) else
      do dst <- place t v dst ;; Ok (false, (dst, Some (t, cmvd (E t) v)))
  end.
(** destructor_ptr: 97, 115-118 *)
Definition vt_dtor (vt : vtable) (s : store) : res store :=
  match vt with None => Ok s | Some t => do _ <- live t s ;; Ok None end.

(** ** The objects. [heap i] is the object number [i], if there is one *)
Record obj := Obj { ocap : Z; ovt : vtable; ost : store }.
Definition heap := nat -> option obj.
Definition hset (h : heap) (i : nat) (o : option obj) : heap := fun j => if Nat.eqb j i then o else h j.
Definition hget (h : heap) (i : nat) : res obj := match h i with Some o => Ok o | None => Ub end.
(** creating an object where there is one is misuse of the model *)
Definition vacant (h : heap) (i : nat) : res unit := match h i with Some _ => Ub | None => Ok tt end.
(** result: an exception was thrown; the observed value; the objects *)
Definition outcome : Type := bool * list Z * heap.
Definition quiet (h : heap) : res outcome := Ok (false, [], h).

(** inplace_function(), inplace_function(nullptr): 170-172, 207-209 *)
Definition f_null (h : heap) (i : nat) (cap : Z) : res outcome :=
  do _ <- vacant h i ;; quiet (hset h i (Some (Obj cap None None))).
(** inplace_function(closure): 182-205. A closure that is too large does not compile. An lvalue
    is copied, an rvalue moved. If that throws there is no object. *)
Definition f_closure (E : env) (h : heap) (i : nat) (cap : Z) (t : nat) (v : Z) : res outcome :=
  do _ <- vacant h i ;;
  if cap <? csize (E t) then Err else
  if ccopy_throws (E t) v then Ok (true, [], h) else
  do s <- place t v None ;; quiet (hset h i (Some (Obj cap (Some t) s))).
Definition f_closure_move (E : env) (h : heap) (i : nat) (cap : Z) (t : nat) (v : Z) : res outcome :=
  do _ <- vacant h i ;;
  if cap <? csize (E t) then Err else
  if cmove_throws (E t) v then Ok (true, [], h) else
  do s <- place t v None ;; quiet (hset h i (Some (Obj cap (Some t) s))).
(** inplace_function(other): 211-218, and the conversion to a larger capacity: 294-302,
    344-351. A smaller capacity does not compile. *)
Definition f_copy (E : env) (h : heap) (i : nat) (cap : Z) (j : nat) : res outcome :=
  do _ <- vacant h i ;; do o <- hget h j ;;
  if cap <? ocap o then Err else
  do '(th, s) <- vt_copy E (ovt o) None (ost o) ;;
  if th then Ok (true, [], h) else quiet (hset h i (Some (Obj cap (ovt o) s))).
(** inplace_function(std::move(other)): 220-227, conversion: 304-312, 344-351 *)
Definition f_move (E : env) (h : heap) (i : nat) (cap : Z) (j : nat) : res outcome :=
  do _ <- vacant h i ;; do o <- hget h j ;;
  if cap <? ocap o then Err else
  do '(th, (s, s')) <- vt_move E (ovt o) None (ost o) ;;
  if th then Ok (true, [], h) else
  quiet (hset (hset h j (Some (Obj (ocap o) (ovt o) s'))) i (Some (Obj cap (ovt o) s))).
(** operator= (nullptr): 229-234 *)
Definition f_reset (h : heap) (i : nat) : res outcome :=
  do o <- hget h i ;; do s <- vt_dtor (ovt o) (ost o) ;; quiet (hset h i (Some (Obj (ocap o) None s))).
(** operator= (other): 236-249, for two objects of the same type *)
Definition f_assign (E : env) (h : heap) (i j : nat) : res outcome :=
  do o <- hget h i ;; do p <- hget h j ;;
  if negb (ocap o =? ocap p) then Err else
  if Nat.eqb i j then quiet h else
  do s <- vt_dtor (ovt o) (ost o) ;;
  do '(th, s) <- vt_copy E (ovt p) s (ost p) ;;
  Ok (th, [], hset h i (Some (Obj (ocap o) (ovt p) s))).
(** operator= (std::move(other)): 251-264 *)
Definition f_assign_move (E : env) (h : heap) (i j : nat) : res outcome :=
  do o <- hget h i ;; do p <- hget h j ;;
  if negb (ocap o =? ocap p) then Err else
  if Nat.eqb i j then quiet h else
  do s <- vt_dtor (ovt o) (ost o) ;;
  do '(th, (s, s')) <- vt_move E (ovt p) s (ost p) ;;
  Ok (th, [], hset (hset h j (Some (Obj (ocap p) (ovt p) s'))) i (Some (Obj (ocap o) (ovt p) s))).
(** ~inplace_function: 266-269. A closure still in the storage afterwards is lost. *)
Definition f_destroy (h : heap) (i : nat) : res outcome :=
  do o <- hget h i ;; do s <- vt_dtor (ovt o) (ost o) ;;
  match s with Some _ => Ub | None => quiet (hset h i None) end.
(** operator(): 271-277; the empty table throws bad_function_call (89). The storage is
    mutable: the closure may change its state. *)
Definition f_call (E : env) (h : heap) (i : nat) (x : Z) : res outcome :=
  do o <- hget h i ;;
  match ovt o with
  | None => Ok (true, [], h)
  | Some t => do v <- live t (ost o) ;;
      Ok (false, [fst (cinv (E t) v x)], hset h i (Some (Obj (ocap o) (ovt o) (Some (t, snd (cinv (E t) v x))))))
  end.
(** operator bool, and the comparisons with nullptr: 279-292 *)
Definition f_test (h : heap) (i : nat) : res outcome :=
  do o <- hget h i ;;
  let b := match ovt o with None => 0 | Some _ => 1 end in Ok (false, [b; 1 - b; b], h).
(** swap: 314-338. If a move throws, the closure in [tmp] is lost. *)
Definition f_swap (E : env) (h : heap) (i j : nat) : res outcome :=
  do o <- hget h i ;; do p <- hget h j ;;
  if negb (ocap o =? ocap p) then Err else
  if Nat.eqb i j then quiet h else
  let put so sp := hset (hset h i (Some (Obj (ocap o) (ovt o) so))) j (Some (Obj (ocap p) (ovt p) sp)) in
  do '(th, (tmp, so)) <- vt_move E (ovt o) None (ost o) ;;
  if th then Ok (true, [], put so (ost p)) else
  do so <- vt_dtor (ovt o) so ;;
  do '(th, (so, sp)) <- vt_move E (ovt p) so (ost p) ;;
  if th then Ok (true, [], put so sp) else
  do sp <- vt_dtor (ovt p) sp ;;
  do '(th, (sp, tmp)) <- vt_move E (ovt o) sp tmp ;;
  if th then Ok (true, [], put so sp) else
  do tmp <- vt_dtor (ovt o) tmp ;;
  match tmp with
  | Some _ => Ub
  | None => quiet (hset (hset h i (Some (Obj (ocap o) (ovt p) so))) j (Some (Obj (ocap p) (ovt o) sp)))
  end.

(** ** Programs *)
Inductive fop :=
| ONull (i : nat) (cap : Z) | OClosure (i : nat) (cap : Z) (t : nat) (v : Z)
| OCopy (i : nat) (cap : Z) (j : nat) | OMove (i : nat) (cap : Z) (j : nat)
| OClosureMove (i : nat) (cap : Z) (t : nat) (v : Z)
| OReset (i : nat) | OAssign (i j : nat) | OAssignMove (i j : nat) | OSwap (i j : nat)
| OCall (i : nat) (x : Z) | OTest (i : nat) | ODestroy (i : nat).
Definition fstep (E : env) (h : heap) (op : fop) : res outcome :=
  match op with
  | ONull i c => f_null h i c | OClosure i c t v => f_closure E h i c t v
  | OClosureMove i c t v => f_closure_move E h i c t v
  | OCopy i c j => f_copy E h i c j | OMove i c j => f_move E h i c j
  | OReset i => f_reset h i | OAssign i j => f_assign E h i j | OAssignMove i j => f_assign_move E h i j
  | OSwap i j => f_swap E h i j | OCall i x => f_call E h i x | OTest i => f_test h i | ODestroy i => f_destroy h i
  end.
(** the observations of a run; a thrown exception is caught by the caller and noted *)
Fixpoint frun (E : env) (h : heap) (ops : list fop) : res (list (bool * list Z) * heap) :=
  match ops with
  | [] => Ok ([], h)
  | op :: ops => do '(th, x, h) <- fstep E h op ;; do '(xs, h) <- frun E h ops ;; Ok ((th, x) :: xs, h)
  end.
