(** C119: element types whose constructors and assignments throw. *)
From Verif Require Import Base BaseLemmas SubstrModel CtorModel CtorSpec CtorProofs CtorProofs2 CtorExcModel CtorExcSpec CtorExcProofs.

(** ** C119: an element that throws *)
(** If no element throws, nothing differs from C81. *)
Theorem C119_quiet : forall th st d s n v, quiet th n ->
  construct_n_x th st d n v = (do st' <- construct_n st d n v ;; Ok (Done st')) /\
  construct_n_args_x th st d n v = (do st' <- construct_n st d n v ;; Ok (Done st')) /\
  copy_construct_n_x th st d s n = (do st' <- copy_construct_n st d s n ;; Ok (Done st')) /\
  copy_construct_ref_n_x th st d s n = (do st' <- copy_construct_ref_n st d s n ;; Ok (Done st')) /\
  copy_construct_array_x th st d s n = (do st' <- copy_construct_n st d s n ;; Ok (Done st')) /\
  copy_assign_n_x th st d s n = (do st' <- copy_assign_n st d s n ;; Ok (Done st')) /\
  move_construct_n_x th st d s n = (do st' <- move_construct_n st d s n ;; Ok (Done st')) /\
  move_assign_n_x th st d s n = (do st' <- move_assign_n st d s n ;; Ok (Done st')).
Proof.
  intros th st d s n v Q.
  unfold construct_n_x, construct_n_args_x, copy_construct_array_x, copy_construct_n_x, copy_construct_ref_n_x, copy_assign_n_x, move_construct_n_x,
    move_assign_n_x, construct_n, copy_construct_n, copy_construct_ref_n, copy_assign_n, move_construct_n, move_assign_n, assert.
  destruct (negb (d =? s)); rewrite ?xfor_quiet by exact Q; rewrite ?noexcept_done; repeat split; reflexivity.
Qed.
Theorem C119_quiet_assign_value : forall th m lost d s n, quiet th n -> within m d n -> within m s 1 -> 0 < n -> d <> s ->
  objects m s 1 -> objects m d n ->
  exists m', copy_assign_ref_n_x th (m, lost) d s n = Ok (Done (m', lost)) /\ changed m m' (fun j => if range d n j then at_ m s else at_ m j).
Proof.
  intros th m lost d s n Q D S N DS O W. unfold copy_assign_ref_n_x, assert. replace (negb (d =? s)) with true by lia.
  rewrite xfor_quiet by exact Q. destruct (copy_assign_ref_ok m lost d s n) as [m' [E C]]; auto. exists m'. rewrite E. split; [reflexivity|exact C].
Qed.
(** If the first element throws, the caller sees the exception and nothing has changed. *)
Theorem C119_first_partial : forall th m lost d s n v, 0 < n -> th 0 = true -> within m d n -> within m s n -> apart_ranges d n s n ->
  objects m s n -> raw m d n ->
  undone (construct_n_args_x th (m, lost) d n v) (m, lost) /\ undone (copy_construct_n_x th (m, lost) d s n) (m, lost) /\
  undone (copy_construct_ref_n_x th (m, lost) d s n) (m, lost).
Proof.
  intros th m lost d s n v N T D S A O R. assert (first_throw th 0) as F by (split; [lia|]; split; [exact T|intros; lia]).
  assert (negb (d =? s) = true) as DS by (unfold apart_ranges in A; lia).
  destruct D as [D1 D2], S as [S1 S2]. unfold undone.
  unfold construct_n_args_x, copy_construct_n_x, copy_construct_ref_n_x, assert. rewrite DS.
  split; [|split].
  - destruct (construct_loop_ok m lost d 1 v) as [m2 [E2 _]]; [split; lia|lia|apply raw_sub with n; auto; lia|].
    eapply (xfor_throw n 0 th _ _ _ _ F N); [reflexivity|exact E2].
  - destruct (copy_loop m lost d s 1) as [m2 [E2 _]]; [split; lia|split; lia|lia|unfold apart_ranges in *; lia|apply objects_sub with n; auto; lia|apply raw_sub with n; auto; lia|].
    eapply (xfor_throw n 0 th _ _ _ _ F N); [reflexivity|exact E2].
  - destruct (copy_ref_loop m lost d s 1) as [m2 [E2 _]]; [split; lia|split; lia|lia|right; unfold apart_ranges in *; lia|apply objects_sub with n; auto; lia|apply raw_sub with n; auto; lia|].
    eapply (xfor_throw n 0 th _ _ _ _ F N); [reflexivity|exact E2].
Qed.
(** In general the elements before the one that throws stay. The source is as it was. *)
Theorem C119_construct_partial : forall th k m lost d n v, first_throw th k -> k < n -> within m d n -> raw m d n ->
  exists m', construct_n_args_x th (m, lost) d n v = Ok (Thrown (m', lost)) /\ changed m m' (fun j => if range d k j then Live v else at_ m j).
Proof. intros th k m lost d n v T K W R. exact (construct_throw n k th m lost d v T K W R). Qed.
Theorem C119_copy_partial : forall th k m lost d s n, first_throw th k -> k < n -> within m d n -> within m s n -> apart_ranges d n s n ->
  objects m s n -> raw m d n ->
  exists m', copy_construct_n_x th (m, lost) d s n = Ok (Thrown (m', lost)) /\
    changed m m' (fun j => if range d k j then at_ m (j - d + s) else at_ m j).
Proof.
  intros th k m lost d s n T K D S A O R. unfold copy_construct_n_x, assert.
  replace (negb (d =? s)) with true by (destruct T; unfold apart_ranges in A; lia). apply copy_throw; auto.
Qed.
Theorem C119_copy_value_partial : forall th k m lost d s n, first_throw th k -> k < n -> within m d n -> within m s 1 -> apart_ranges d n s 1 ->
  objects m s 1 -> raw m d n ->
  exists m', copy_construct_ref_n_x th (m, lost) d s n = Ok (Thrown (m', lost)) /\
    changed m m' (fun j => if range d k j then at_ m s else at_ m j).
Proof.
  intros th k m lost d s n T K D S A O R. unfold copy_construct_ref_n_x, assert.
  replace (negb (d =? s)) with true by (destruct T; unfold apart_ranges in A; lia). apply copy_ref_throw; auto.
Qed.
(** So whenever an element after the first throws, objects are left alive that nobody destroys. *)
Theorem C119_leak_refuted : forall th k m lost d s n v, first_throw th k -> 0 < k < n -> within m d n -> within m s n -> apart_ranges d n s n ->
  objects m s n -> raw m d n ->
  (~ undone (construct_n_args_x th (m, lost) d n v) (m, lost)) /\ (~ undone (copy_construct_n_x th (m, lost) d s n) (m, lost)) /\
  exists m', copy_construct_n_x th (m, lost) d s n = Ok (Thrown (m', lost)) /\ objects m' d k.
Proof.
  intros th k m lost d s n v T K D S A O R.
  destruct (C119_copy_partial th k m lost d s n T) as [m2 [E2 [L2 C2]]]; auto; [lia|].
  destruct (C119_construct_partial th k m lost d n v T) as [m1 [E1 [L1 C1]]]; auto; [lia|].
  destruct D as [D1 D2], S as [S1 S2]. unfold undone. rewrite E1, E2.
  assert (at_ m d = Raw) as RD by (apply R; lia).
  split; [|split].
  - intros H. injection H as H. subst m1. specialize (C1 d). rewrite RD in C1. unfold range in C1. replace (_ && _) with true in C1 by lia. discriminate C1. lia.
  - intros H. injection H as H. subst m2. specialize (C2 d). rewrite RD in C2. unfold range in C2. replace (_ && _) with true in C2 by lia.
    specialize (O (d - d + s)). rewrite <- C2 in O by lia. discriminate O. lia.
  - exists m2. split; [reflexivity|]. intros j J. rewrite C2 by lia. unfold range. replace (_ && _) with true by lia. apply O. lia.
Qed.
(** The functions that are noexcept never throw. They end the program instead. *)
Theorem C119_noexcept : forall th st d s n v st', construct_n_x th st d n v <> Ok (Thrown st') /\
  copy_construct_array_x th st d s n <> Ok (Thrown st') /\ copy_assign_n_x th st d s n <> Ok (Thrown st') /\
  copy_assign_ref_n_x th st d s n <> Ok (Thrown st') /\ move_construct_n_x th st d s n <> Ok (Thrown st') /\ move_assign_n_x th st d s n <> Ok (Thrown st').
Proof. intros. repeat split; apply noexcept_never. Qed.
Theorem C119_terminate_construct_refuted : forall th k m lost d n v, first_throw th k -> k < n -> within m d n -> raw m d n ->
  construct_n_x th (m, lost) d n v = Ok Terminated.
Proof.
  intros th k m lost d n v T K D R. unfold construct_n_x. apply xfor_terminates with k; auto.
  destruct (construct_loop_ok m lost d n v) as [m' [E _]]; auto; [destruct T; lia|]. eexists. exact E.
Qed.
Theorem C119_terminate_array_refuted : forall th k m lost d s n, first_throw th k -> k < n -> within m d n -> within m s n -> apart_ranges d n s n ->
  objects m s n -> raw m d n -> copy_construct_array_x th (m, lost) d s n = Ok Terminated.
Proof.
  intros th k m lost d s n T K D S A O R. destruct (C119_copy_partial th k m lost d s n) as [m' [E _]]; auto.
  unfold copy_construct_array_x. rewrite E. reflexivity.
Qed.
Theorem C119_terminate_assign_refuted : forall th k m lost d s n, first_throw th k -> k < n -> within m d n -> within m s n -> apart_ranges d n s n ->
  objects m s n -> objects m d n ->
  copy_assign_n_x th (m, lost) d s n = Ok Terminated /\ copy_assign_ref_n_x th (m, lost) d s n = Ok Terminated /\
  move_assign_n_x th (m, lost) d s n = Ok Terminated.
Proof.
  intros th k m lost d s n T K D S A O W. assert (0 < n) by (destruct T; lia). assert (negb (d =? s) = true) as DS by (unfold apart_ranges in A; lia).
  unfold copy_assign_n_x, copy_assign_ref_n_x, move_assign_n_x, assert. rewrite DS.
  split; [|split]; apply xfor_terminates with k; auto.
  - destruct (copy_assign_n_ok m lost d s n) as [m' [E _]]; auto. unfold copy_assign_n, assert in E. rewrite DS in E. eexists. exact E.
  - destruct (copy_assign_ref_ok m lost d s n) as [m' [E _]]; auto; [destruct S; split; lia|apply objects_sub with n; auto; lia|]. eexists. exact E.
  - destruct (move_assign_n_ok m lost d s n) as [m' [E _]]; auto. unfold move_assign_n, assert in E. rewrite DS in E. eexists. exact E.
Qed.
Theorem C119_terminate_move_refuted : forall th k m lost d s n, first_throw th k -> k < n -> within m d n -> within m s n -> apart_ranges d n s n ->
  objects m s n -> raw m d n -> move_construct_n_x th (m, lost) d s n = Ok Terminated.
Proof.
  intros th k m lost d s n T K D S A O W. assert (0 < n) by (destruct T; lia). assert (negb (d =? s) = true) as DS by (unfold apart_ranges in A; lia).
  unfold move_construct_n_x, assert. rewrite DS. apply xfor_terminates with k; auto.
  destruct (move_construct_n_ok m lost d s n) as [m' [E _]]; auto. unfold move_construct_n, assert in E. rewrite DS in E. eexists. exact E.
Qed.
(** make_room of one buffer ends the program, except in the builds where assertions throw.
    In those, and from one buffer to another in every build, some elements have moved. *)
Theorem C119_make_room_refuted : forall asserts error_throws th k m buf n room,
  first_throw th k -> k < n -> 0 <= buf -> n <= room -> buf + n + room <= len m -> objects m buf n -> raw m (buf + room) n ->
  exists m', make_room_x (noexcept_a asserts error_throws) th (m, []) buf n room =
      Ok (if asserts && error_throws then Thrown (m', []) else Terminated) /\
    changed m m' (fun j => if range (buf + room) k j then at_ m (j - room) else if range buf k j then Moved else at_ m j).
Proof.
  intros a e th k m buf n room T K B NR L O R. destruct (make_room_throw (noexcept_a a e) n k th m buf room) as [m' [E C]]; auto.
  exists m'. split; [|exact C]. rewrite E. destruct a, e; reflexivity.
Qed.
(** With less room than elements the last ones have moved, and objects moved from have been
    constructed over. *)
Theorem C119_make_room_near_refuted : forall asserts error_throws th k m buf n room,
  first_throw th k -> k < n -> 0 <= buf -> 0 < room < n -> buf + n + room <= len m -> objects m buf n -> raw m (buf + n) room ->
  exists m', make_room_x (noexcept_a asserts error_throws) th (m, []) buf n room =
      Ok (if asserts && error_throws then Thrown (m', repeat Moved (Z.to_nat (k - room))) else Terminated) /\
    changed m m' (fun j => if range (buf + n - k + room) k j then at_ m (j - room) else if range (buf + n - k) k j then Moved else at_ m j).
Proof.
  intros a e th k m buf n room T K B NR L O R. destruct (make_room_near_throw (noexcept_a a e) n k th m buf room) as [m' [E C]]; auto.
  exists m'. split; [|exact C]. rewrite E. destruct a, e; reflexivity.
Qed.
Theorem C119_make_room2_refuted : forall th k m lost dst src n room pos, first_throw th k -> k < n ->
  0 <= room -> 0 <= pos < n -> within m dst (n + room) -> within m src n -> apart_ranges dst (n + room) src n ->
  objects m src n -> raw m dst (n + room) ->
  exists m', make_room2_x th (m, lost) dst src n room pos = Ok (Thrown (m', lost)) /\
    changed m m' (fun j => if range dst (Z.min k pos) j then at_ m (j - dst + src)
      else if range (dst + pos + room) (k - pos) j then at_ m (j - room - dst + src) else at_ m j).
Proof. intros th k m lost dst src n room pos. apply make_room2_throw. Qed.
Print Assumptions C119_quiet.
Print Assumptions C119_quiet_assign_value.
Print Assumptions C119_first_partial.
Print Assumptions C119_construct_partial.
Print Assumptions C119_copy_partial.
Print Assumptions C119_copy_value_partial.
Print Assumptions C119_leak_refuted.
Print Assumptions C119_noexcept.
Print Assumptions C119_terminate_construct_refuted.
Print Assumptions C119_terminate_array_refuted.
Print Assumptions C119_terminate_assign_refuted.
Print Assumptions C119_terminate_move_refuted.
Print Assumptions C119_make_room_refuted.
Print Assumptions C119_make_room_near_refuted.
Print Assumptions C119_make_room2_refuted.
(** the third of four copies throws: two stay, with copy_construct of arrays the program ends *)
Example C119_ex1 : first_throw (Z.eqb 2) 2 /\
  copy_construct_n_x (Z.eqb 2) ([Live 1; Live 2; Live 3; Live 4; Raw; Raw; Raw; Raw], []) 4 0 4 =
    Ok (Thrown ([Live 1; Live 2; Live 3; Live 4; Live 1; Live 2; Raw; Raw], [])) /\
  copy_construct_array_x (Z.eqb 2) ([Live 1; Live 2; Live 3; Live 4; Raw; Raw; Raw; Raw], []) 4 0 4 = Ok Terminated.
Proof. split; [split; [lia|]; split; [reflexivity|intros i I; lia]|]. split; reflexivity. Qed.
Example C119_ex2 : make_room_x (noexcept_a true true) (Z.eqb 1) ([Live 1; Live 2; Raw; Raw; Raw], []) 0 2 3 =
    Ok (Thrown ([Moved; Live 2; Raw; Live 1; Raw], [])) /\
  make_room_x (noexcept_a true false) (Z.eqb 1) ([Live 1; Live 2; Raw; Raw; Raw], []) 0 2 3 = Ok Terminated /\
  make_room_x (noexcept_a true false) (Z.eqb 2) ([Live 1; Live 2; Raw; Raw; Raw], []) 0 2 3 = Ok (Done ([Moved; Moved; Raw; Live 1; Live 2], [])).
Proof. repeat split; reflexivity. Qed.
Example C119_ex3 : make_room2_x (Z.eqb 2) ([Live 1; Live 2; Live 3; Raw; Raw; Raw; Raw], []) 3 0 3 1 1 =
  Ok (Thrown ([Live 1; Live 2; Live 3; Live 1; Raw; Live 2; Raw], [])).
Proof. reflexivity. Qed.
Example C119_ex4 : copy_assign_ref_n_x (Z.eqb 9) ([Live 1; Live 2; Live 3], []) 0 1 3 = Ok (Done ([Live 2; Live 2; Live 2], [])) /\
  construct_n_args_x (Z.eqb 1) ([Raw; Raw], []) 0 2 5 = Ok (Thrown ([Live 5; Raw], [])).
Proof. split; reflexivity. Qed.
Example C119_ex5 : make_room_x (noexcept_a true true) (Z.eqb 2) ([Live 1; Live 2; Live 3; Raw; Raw], []) 0 3 1 =
    Ok (Thrown ([Live 1; Moved; Live 2; Live 3; Raw], [Moved])) /\
  make_room_x (noexcept_a false true) (Z.eqb 2) ([Live 1; Live 2; Live 3; Raw; Raw], []) 0 3 1 = Ok Terminated.
Proof. split; reflexivity. Qed.
