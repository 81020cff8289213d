(** Specification of inplace_function: a variable that holds nothing or a closure. *)
From Verif Require Import Base InplaceModel.

(** a variable of a given capacity, with what it holds *)
Definition vars := nat -> option (Z * option (nat * Z)).
Definition vset (a : vars) (i : nat) (x : option (Z * option (nat * Z))) : vars := fun j => if Nat.eqb j i then x else a j.
(** the state left in a variable whose closure was moved away *)
Definition gone (E : env) (c : option (nat * Z)) : option (nat * Z) :=
  match c with Some (t, v) => Some (t, cmvd (E t) v) | None => None end.
Definition filled (c : option (nat * Z)) : list Z := match c with Some _ => [1; 0; 1] | None => [0; 1; 0] end.

(** what each operation does to the variables and what is seen; operations on variables
    that do not exist, and those that do not compile, have no meaning *)
Inductive step (E : env) (a : vars) : fop -> bool -> list Z -> vars -> Prop :=
| s_null i cap : a i = None -> step E a (ONull i cap) false [] (vset a i (Some (cap, None)))
| s_closure i cap t v : a i = None -> csize (E t) <= cap ->
    step E a (OClosure i cap t v) false [] (vset a i (Some (cap, Some (t, v))))
| s_copy i cap j cap' c : a i = None -> a j = Some (cap', c) -> cap' <= cap ->
    step E a (OCopy i cap j) false [] (vset a i (Some (cap, c)))
| s_move i cap j cap' c : a i = None -> a j = Some (cap', c) -> cap' <= cap ->
    step E a (OMove i cap j) false [] (vset (vset a j (Some (cap', gone E c))) i (Some (cap, c)))
| s_reset i cap c : a i = Some (cap, c) -> step E a (OReset i) false [] (vset a i (Some (cap, None)))
| s_assign i j cap c d : a i = Some (cap, c) -> a j = Some (cap, d) ->
    step E a (OAssign i j) false [] (vset a i (Some (cap, d)))
| s_assign_move i j cap c d : i <> j -> a i = Some (cap, c) -> a j = Some (cap, d) ->
    step E a (OAssignMove i j) false [] (vset (vset a j (Some (cap, gone E d))) i (Some (cap, d)))
| s_assign_self i cap c : a i = Some (cap, c) -> step E a (OAssignMove i i) false [] a
| s_swap i j cap c d : a i = Some (cap, c) -> a j = Some (cap, d) ->
    step E a (OSwap i j) false [] (vset (vset a i (Some (cap, d))) j (Some (cap, c)))
| s_call i x cap t v r v' : a i = Some (cap, Some (t, v)) -> cinv (E t) v x = (r, v') ->
    step E a (OCall i x) false [r] (vset a i (Some (cap, Some (t, v'))))
| s_call_empty i x cap : a i = Some (cap, None) -> step E a (OCall i x) true [] a
| s_test i cap c : a i = Some (cap, c) -> step E a (OTest i) false (filled c) a
| s_destroy i cap c : a i = Some (cap, c) -> step E a (ODestroy i) false [] (vset a i None)
| s_closure_move i cap t v : a i = None -> csize (E t) <= cap ->
    step E a (OClosureMove i cap t v) false [] (vset a i (Some (cap, Some (t, v)))).
Inductive steps (E : env) (a : vars) : list fop -> list (bool * list Z) -> vars -> Prop :=
| ss_nil : steps E a [] [] a
| ss_cons op th x a' ops xs a'' : step E a op th x a' -> steps E a' ops xs a'' -> steps E a (op :: ops) ((th, x) :: xs) a''.

(** an object is what the variable says: a closure lives in the storage exactly if the
    table is that of its type, and it fits *)
Definition means (E : env) (o : option obj) (x : option (Z * option (nat * Z))) : Prop :=
  match o, x with
  | None, None => True
  | Some o, Some (cap, c) => ocap o = cap /\ ost o = c /\ ovt o = option_map fst c /\
      match c with Some (t, _) => csize (E t) <= cap | None => True end
  | _, _ => False
  end.
Definition models (E : env) (h : heap) (a : vars) : Prop := forall i, means E (h i) (a i).
(** no copy or move throws *)
Definition nothrow (E : env) : Prop := forall t v, ccopy_throws (E t) v = false /\ cmove_throws (E t) v = false.

(** operations on variables that do not exist, or that make one that does *)
Definition misuse (a : vars) (op : fop) : Prop :=
  match op with
  | ONull i _ | OClosure i _ _ _ | OClosureMove i _ _ _ => a i <> None
  | OCopy i _ j | OMove i _ j => a i <> None \/ a j = None
  | OAssign i j | OAssignMove i j | OSwap i j => a i = None \/ a j = None
  | OReset i | OCall i _ | OTest i | ODestroy i => a i = None
  end.
Definition capacity (a : vars) (i : nat) : Z := match a i with Some (cap, _) => cap | None => 0 end.
(** operations that do not compile: too large a closure or object, objects of different types *)
Definition mistyped (E : env) (a : vars) (op : fop) : Prop :=
  match op with
  | OClosure _ cap t _ | OClosureMove _ cap t _ => cap < csize (E t)
  | OCopy _ cap j | OMove _ cap j => cap < capacity a j
  | OAssign i j | OAssignMove i j | OSwap i j => capacity a i <> capacity a j
  | _ => False
  end.
