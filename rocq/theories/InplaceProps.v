(** Property C92: inplace_function. *)
From Verif Require Import Base InplaceModel InplaceSpec InplaceProofs.

(** ** C92: an inplace_function is a variable holding nothing or a closure; every closure is destroyed exactly once and none is used after *)
(** every sequence of operations that means something runs without undefined behaviour
    and without losing a closure, and shows and does what the specification says. What
    is missing: closures whose copy or move throws *)
Theorem C92_run_partial E ops h a xs a' : nothrow E -> models E h a -> steps E a ops xs a' ->
  exists h', frun E h ops = Ok (xs, h') /\ models E h' a'.
Proof. intros N. exact (run_ok E ops N h a xs a'). Qed.
Print Assumptions C92_run_partial.
(** every other operation is one on a variable that does not exist or exists already, which is
    undefined, or does not compile *)
Theorem C92_misuse E h a op : models E h a ->
  (misuse a op -> fstep E h op = Ub) /\
  (~ misuse a op -> mistyped E a op -> fstep E h op = Err) /\
  (~ misuse a op -> ~ mistyped E a op -> exists th x a', step E a op th x a').
Proof. exact (fun M => conj (misuse_ub E h a op M) (conj (mistyped_err E h a op M) (has_meaning E a op))). Qed.
Print Assumptions C92_misuse.
(** no closure is constructed over another: that would be undefined, and does not happen by
    C92_run_partial *)
Theorem C92_no_overwrite E t v s : s <> None ->
  (ccopy_throws (E t) v = false -> vt_copy E (Some t) s (Some (t, v)) = Ub) /\
  (cmove_throws (E t) v = false -> vt_move E (Some t) s (Some (t, v)) = Ub).
Proof. exact (no_overwrite E t v s). Qed.
Print Assumptions C92_no_overwrite.
(** a constructor that throws leaves all objects as they were *)
Theorem C92_ctor_throws E h a i cap t v : models E h a -> a i = None -> csize (E t) <= cap ->
  (ccopy_throws (E t) v = true -> f_closure E h i cap t v = Ok (true, [], h)) /\
  (cmove_throws (E t) v = true -> f_closure_move E h i cap t v = Ok (true, [], h)).
Proof. exact (fun M H C => conj (ctor_throws E h a i cap t v M H C) (ctor_move_throws E h a i cap t v M H C)). Qed.
Print Assumptions C92_ctor_throws.
Theorem C92_copy_throws E h a i cap j cap' t v : models E h a -> a i = None -> a j = Some (cap', Some (t, v)) -> cap' <= cap ->
  (ccopy_throws (E t) v = true -> f_copy E h i cap j = Ok (true, [], h)) /\
  (cmove_throws (E t) v = true -> f_move E h i cap j = Ok (true, [], h)).
Proof. intros M H Hj Hc. split; [exact (copy_throws E h a i cap j cap' t v M H Hj Hc)|exact (move_throws E h a i cap j cap' t v M H Hj Hc)]. Qed.
Print Assumptions C92_copy_throws.
(** but an assignment that throws leaves an object that claims a closure it has not got:
    destroying, calling or resetting it is undefined *)
Theorem C92_assign_throws_refuted E h a i j cap c t v : models E h a -> i <> j -> a i = Some (cap, c) -> a j = Some (cap, Some (t, v)) ->
  ccopy_throws (E t) v = true ->
  exists h', f_assign E h i j = Ok (true, [], h') /\ f_destroy h' i = Ub /\ (forall x, f_call E h' i x = Ub) /\ f_reset h' i = Ub.
Proof. exact (assign_throws E h a i j cap c t v). Qed.
Print Assumptions C92_assign_throws_refuted.
(** and so does a swap whose second move throws *)
Theorem C92_swap_throws_refuted E h a i j cap t v t' v' : models E h a -> i <> j -> a i = Some (cap, Some (t, v)) -> a j = Some (cap, Some (t', v')) ->
  cmove_throws (E t) v = false -> cmove_throws (E t') v' = true ->
  exists h', f_swap E h i j = Ok (true, [], h') /\ f_destroy h' i = Ub.
Proof. exact (swap_throws E h a i j cap t v t' v'). Qed.
Print Assumptions C92_swap_throws_refuted.

(** type 0 counts its calls, type 1 multiplies, type 2 keeps its argument and
    cannot be copied in state 7 *)
Definition E3 : env := fun t => match t with
  | O => CType 8 (fun v x => (v + x, v + 1)) (fun _ => -1) (fun _ => false) (fun _ => false)
  | 1%nat => CType 16 (fun v x => (v * x, v)) (fun v => v) (fun _ => false) (fun _ => false)
  | _ => CType 8 (fun v x => (v, x)) (fun v => v) (fun v => v =? 7) (fun _ => false)
  end.
Definition start : heap := fun _ => None.
Definition obs (r : res (list (bool * list Z) * heap)) : res (list (bool * list Z)) := do '(xs, _) <- r ;; Ok xs.
Example C92_ex1 : obs (frun E3 start [OClosure 0 32 0 5; OClosure 1 32 1 3; OCall 0 10; OCall 0 10; OSwap 0 1; OCall 0 10; OCall 1 10; OTest 0]) =
  Ok [(false, []); (false, []); (false, [15]); (false, [16]); (false, []); (false, [30]); (false, [17]); (false, [1; 0; 1])].
Proof. reflexivity. Qed.
Example C92_ex2 : obs (frun E3 start [OClosure 0 32 0 5; OCopy 1 64 0; OCall 0 0; OCall 1 0; OReset 0; OTest 0; OCall 0 1; ODestroy 0; ODestroy 1]) =
  Ok [(false, []); (false, []); (false, [5]); (false, [5]); (false, []); (false, [0; 1; 0]); (true, []); (false, []); (false, [])].
Proof. reflexivity. Qed.
Example C92_ex3 : obs (frun E3 start [OClosure 0 8 1 5]) = Err /\ obs (frun E3 start [OClosure 0 32 0 5; OCopy 1 16 0]) = Err.
Proof. split; reflexivity. Qed.
Example C92_ex4 : obs (frun E3 start [OClosure 0 32 0 5; OClosure 1 32 2 1; OAssign 0 1; OAssignMove 1 1; OCall 0 0; OCall 1 0]) =
  Ok [(false, []); (false, []); (false, []); (false, []); (false, [1]); (false, [1])].
Proof. reflexivity. Qed.
Example C92_ex5 : obs (frun E3 start [OClosure 0 32 0 5; OClosure 1 32 2 1; OCall 1 7; OAssign 0 1]) =
  Ok [(false, []); (false, []); (false, [1]); (true, [])] /\
  obs (frun E3 start [OClosure 0 32 0 5; OClosure 1 32 2 1; OCall 1 7; OAssign 0 1; ODestroy 0]) = Ub.
Proof. split; reflexivity. Qed.
Example C92_ex6 : obs (frun E3 start [OClosureMove 0 32 2 7; OCall 0 1; OReset 0; OCall 0 1]) =
  Ok [(false, []); (false, [7]); (false, []); (true, [])] /\ (* a copy would throw *)
  obs (frun E3 start [OClosure 0 32 2 7]) = Ok [(true, [])] /\
  obs (frun E3 start [OClosure 0 32 0 5; ONull 0 32]) = Ub /\ obs (frun E3 start [OTest 0]) = Ub.
Proof. repeat split. Qed.
