(** Proofs about element types that throw. *)
From Verif Require Import Base BaseLemmas SubstrModel CtorModel CtorSpec CtorProofs CtorProofs2 CtorExcModel CtorExcSpec.

(** the loop of CtorModel, from the front *)
Lemma loop_front n f st : loop (S n) f st = do st' <- f 0 st ;; loop n (fun i => f (i + 1)) st'.
Proof.
  induction n as [|n IH]; [cbn; destruct (f 0 st); reflexivity|].
  change (loop (S (S n)) f st) with (do st <- loop (S n) f st ;; f (Z.of_nat (S n)) st). rewrite IH.
  destruct (f 0 st) as [s1| |]; cbn [bind]; [|reflexivity|reflexivity].
  cbn [loop]. destruct (loop n (fun i => f (i + 1)) s1); cbn [bind]; [|reflexivity|reflexivity].
  replace (Z.of_nat (S n)) with (Z.of_nat n + 1) by lia. reflexivity.
Qed.
Lemma xloop_shift n i th f st : xloop n (i + 1) th f st = xloop n i (fun j => th (j + 1)) (fun j => f (j + 1)) st.
Proof.
  revert i st. induction n as [|n IH]; intros i st; cbn [xloop]; [reflexivity|]. unfold attempt.
  destruct (f (i + 1) st); cbn [bind]; [|reflexivity|reflexivity]. destruct (th (i + 1)); [reflexivity|]. apply IH.
Qed.
Lemma loop_ext n f g st : (forall i st, f i st = g i st) -> loop n f st = loop n g st.
Proof. intros H. induction n as [|n IH]; cbn [loop]; [reflexivity|]. rewrite IH. destruct (loop n g st); cbn [bind]; [apply H|reflexivity|reflexivity]. Qed.
Lemma xloop_quiet n th f st : (forall i, 0 <= i < Z.of_nat n -> th i = false) ->
  xloop n 0 th f st = do st' <- loop n f st ;; Ok (Done st').
Proof.
  revert th f st. induction n as [|n IH]; intros th f st Q; [reflexivity|].
  rewrite loop_front. cbn [xloop]. unfold attempt. rewrite (Q 0) by lia.
  destruct (f 0 st) as [s1| |]; cbn [bind]; [|reflexivity|reflexivity].
  rewrite xloop_shift. apply IH. intros i I. apply Q. lia.
Qed.
Lemma xloop_throw n k th f st st1 st2 : (k < n)%nat -> th (Z.of_nat k) = true -> (forall i, 0 <= i < Z.of_nat k -> th i = false) ->
  loop k f st = Ok st1 -> loop (S k) f st = Ok st2 -> xloop n 0 th f st = Ok (Thrown st1).
Proof.
  revert n th f st. induction k as [|k IH]; intros n th f st K T Q E1 E2; (destruct n as [|n]; [lia|]).
  - cbn in E1. injection E1 as <-. cbn in E2. cbn [xloop]. unfold attempt. change (Z.of_nat 0) with 0 in T. rewrite T, E2. reflexivity.
  - rewrite loop_front in E1, E2. cbn [xloop]. unfold attempt. rewrite (Q 0) by lia.
    destruct (f 0 st) as [s1| |]; cbn [bind] in *; [|discriminate|discriminate].
    rewrite xloop_shift. apply IH; [lia| |intros i I; apply Q; lia|exact E1|exact E2].
    replace (Z.of_nat k + 1) with (Z.of_nat (S k)) by lia. exact T.
Qed.
Lemma xfor_quiet n th f st : quiet th n -> xfor_n n th f st = do st' <- for_n n f st ;; Ok (Done st').
Proof. intros Q. apply xloop_quiet. intros i I. apply Q. lia. Qed.
Lemma xfor_throw n k th f st st1 st2 : first_throw th k -> k < n ->
  for_n k f st = Ok st1 -> for_n (k + 1) f st = Ok st2 -> xfor_n n th f st = Ok (Thrown st1).
Proof.
  intros [K [T Q]] N E1 E2. unfold for_n in *. replace (Z.to_nat (k + 1)) with (S (Z.to_nat k)) in E2 by lia.
  apply xloop_throw with (k := Z.to_nat k) (st2 := st2); auto; [lia| |]; rewrite Z2Nat.id by lia; auto.
Qed.

Lemma objects_sub m s k n : k <= n -> objects m s n -> objects m s k.
Proof. intros K O j J. apply O. lia. Qed.
Lemma raw_sub m s k n : k <= n -> raw m s n -> raw m s k.
Proof. intros K O j J. apply O. lia. Qed.

(** ** what is left behind *)
Lemma construct_loop_ok m lost p n v : within m p n -> 0 <= n -> raw m p n ->
  exists m', for_n n (fun i st => new_at st (p + i) (Live v)) (m, lost) = Ok (m', lost) /\ changed m m' (fun j => if range p n j then Live v else at_ m j).
Proof. exact (construct_n_ok m lost p n v). Qed.
Lemma construct_throw n k th m lost p v : first_throw th k -> k < n -> within m p n -> raw m p n ->
  exists m', xfor_n n th (fun i st => new_at st (p + i) (Live v)) (m, lost) = Ok (Thrown (m', lost)) /\
    changed m m' (fun j => if range p k j then Live v else at_ m j).
Proof.
  intros T K [W1 W2] R. assert (0 <= k) by apply T.
  destruct (construct_loop_ok m lost p k v) as [m1 [E1 C1]]; [split; lia|lia|apply raw_sub with n; auto; lia|].
  destruct (construct_loop_ok m lost p (k + 1) v) as [m2 [E2 C2]]; [split; lia|lia|apply raw_sub with n; auto; lia|].
  exists m1. split; [|exact C1]. eapply xfor_throw; eauto.
Qed.
Lemma copy_throw n k th m lost d s : first_throw th k -> k < n -> within m d n -> within m s n -> apart_ranges d n s n ->
  objects m s n -> raw m d n ->
  exists m', xfor_n n th (fun i st => new_copy st (d + i) (s + i)) (m, lost) = Ok (Thrown (m', lost)) /\
    changed m m' (fun j => if range d k j then at_ m (j - d + s) else at_ m j).
Proof.
  intros T K [W1 W2] [S1 S2] A O R. assert (0 <= k) by apply T. unfold apart_ranges in A.
  assert (forall k', 0 <= k' <= n -> exists m', for_n k' (fun i st => new_copy st (d + i) (s + i)) (m, lost) = Ok (m', lost) /\
    changed m m' (fun j => if range d k' j then at_ m (j - d + s) else at_ m j)) as G.
  { intros k' K'. apply copy_loop; [split; lia|split; lia|lia|unfold apart_ranges; lia|apply objects_sub with n; auto; lia|apply raw_sub with n; auto; lia]. }
  destruct (G k) as [m1 [E1 C1]]; [lia|]. destruct (G (k + 1)) as [m2 [E2 C2]]; [lia|].
  exists m1. split; [|exact C1]. eapply xfor_throw; eauto.
Qed.
(** with no hypothesis on which range comes first for a single value *)
Lemma copy_ref_loop m lost d s n : within m d n -> within m s 1 -> 0 <= n -> (n = 0 \/ apart_ranges d n s 1) ->
  objects m s 1 -> raw m d n ->
  exists m', for_n n (fun i st => new_copy st (d + i) s) (m, lost) = Ok (m', lost) /\
    changed m m' (fun j => if range d n j then at_ m s else at_ m j).
Proof.
  intros D S N A O R. destruct (Z.eq_dec n 0) as [->|NZ].
  - exists m. split; [reflexivity|]. split; [reflexivity|]. intros j J. unfold range. replace (_ && _) with false by lia. reflexivity.
  - destruct A as [A|A]; [lia|]. destruct (copy_construct_ref_ok m lost d s n) as [m' [E C]]; auto; [lia|].
    exists m'. split; [|exact C]. unfold copy_construct_ref_n, assert in E. unfold apart_ranges in A.
    replace (negb (d =? s)) with true in E by lia. exact E.
Qed.
Lemma copy_ref_throw n k th m lost d s : first_throw th k -> k < n -> within m d n -> within m s 1 -> apart_ranges d n s 1 ->
  objects m s 1 -> raw m d n ->
  exists m', xfor_n n th (fun i st => new_copy st (d + i) s) (m, lost) = Ok (Thrown (m', lost)) /\
    changed m m' (fun j => if range d k j then at_ m s else at_ m j).
Proof.
  intros T K [W1 W2] S A O R. assert (0 <= k) by apply T. unfold apart_ranges in A.
  assert (forall k', 0 <= k' <= n -> exists m', for_n k' (fun i st => new_copy st (d + i) s) (m, lost) = Ok (m', lost) /\
    changed m m' (fun j => if range d k' j then at_ m s else at_ m j)) as G.
  { intros k' K'. apply copy_ref_loop; [split; lia|exact S|lia|right; unfold apart_ranges; lia|exact O|apply raw_sub with n; auto; lia]. }
  destruct (G k) as [m1 [E1 C1]]; [lia|]. destruct (G (k + 1)) as [m2 [E2 C2]]; [lia|].
  exists m1. split; [|exact C1]. eapply xfor_throw; eauto.
Qed.

(** ** a function that is noexcept *)
Lemma noexcept_never r st : noexcept r <> Ok (Thrown st).
Proof. unfold noexcept, noexcept_if. destruct r as [[| |]| |]; cbn; discriminate. Qed.
(** the loop throws at the first iteration that throws, or an operation before it is undefined *)
Lemma xfor_outcome n k th f st : first_throw th k -> k < n -> (exists st2, for_n (k + 1) f st = Ok st2) ->
  exists st1, xfor_n n th f st = Ok (Thrown st1).
Proof.
  intros T K [st2 E2]. assert (0 <= k) by apply T.
  assert (exists st1, for_n k f st = Ok st1) as [st1 E1].
  { unfold for_n in *. replace (Z.to_nat (k + 1)) with (S (Z.to_nat k)) in E2 by lia. cbn [loop] in E2.
    destruct (loop (Z.to_nat k) f st) as [s| |]; [exists s; reflexivity|discriminate|discriminate]. }
  exists st1. eapply xfor_throw; eauto.
Qed.
Lemma xfor_terminates n k th f st : first_throw th k -> k < n -> (exists st2, for_n n f st = Ok st2) ->
  noexcept (xfor_n n th f st) = Ok Terminated.
Proof.
  intros T K [st2 E2]. assert (0 <= k) by apply T.
  assert (forall a b : nat, (a <= b)%nat -> (exists s, loop b f st = Ok s) -> exists s, loop a f st = Ok s) as G.
  { intros a b L. induction L as [|b L IH]; [auto|]. intros [s E]. cbn [loop] in E. apply IH.
    destruct (loop b f st) as [s'| |]; [exists s'; reflexivity|discriminate|discriminate]. }
  destruct (xfor_outcome n k th f st T K) as [st1 E].
  { unfold for_n in *. apply (G _ (Z.to_nat n)); [lia|exists st2; exact E2]. }
  rewrite E. reflexivity.
Qed.
Lemma noexcept_done (r : res objs) : noexcept (do st <- r ;; Ok (Done st)) = do st <- r ;; Ok (Done st).
Proof. destruct r; reflexivity. Qed.
Lemma copy_assign_ref_ok m lost d s n : within m d n -> within m s 1 -> 0 < n -> objects m s 1 -> objects m d n ->
  exists m', for_n n (fun i st => copy_to st (d + i) s) (m, lost) = Ok (m', lost) /\
    changed m m' (fun j => if range d n j then at_ m s else at_ m j).
Proof.
  intros [D1 D2] [S1 S2] N O W.
  destruct (for_n_inv (fun k st => snd st = lost /\ changed m (fst st) (fun j => if range d k j then at_ m s else at_ m j)) n
     (fun i st => copy_to st (d + i) s) (m, lost)) as [[m' l'] [E [H1 H2]]]; [lia| | |].
  - split; [reflexivity|]. split; [reflexivity|]. intros j J. unfold range. cbn [fst]. replace (_ && _) with false by lia. reflexivity.
  - intros i [m1 l1] I [H1 [H2 H3]]. cbn [fst snd] in *. subst l1.
    assert (at_ m1 s = at_ m s) as X1.
    { rewrite H3 by lia. destruct (range d i s); reflexivity. }
    assert (at_ m1 (d + i) = at_ m (d + i)) as X2.
    { rewrite H3 by lia. unfold range. replace (_ && _) with false by lia. reflexivity. }
    rewrite copy_to_ok; [|lia|lia|rewrite X1; apply O; lia|rewrite X2; apply W; lia]. rewrite X1. eexists. split; [reflexivity|].
    cbn [fst snd]. split; [reflexivity|]. split; [rewrite !len_setc; lia|]. intros j J. setc_solve.
    destruct (j =? d + i) eqn:J1.
    + unfold range. replace (_ && _) with true by lia. reflexivity.
    + rewrite H3 by lia. unfold range. replace ((d <=? j) && (j <? d + (i + 1))) with ((d <=? j) && (j <? d + i)) by lia. reflexivity.
  - cbn [fst snd] in *. subst l'. exists m'. split; [exact E|exact H2].
Qed.

(** ** make_room *)
Lemma make_room_throw nx n k th m buf room : first_throw th k -> k < n -> 0 <= buf -> n <= room -> buf + n + room <= len m ->
  objects m buf n -> raw m (buf + room) n ->
  exists m', make_room_x nx th (m, []) buf n room = Ok (if nx then Terminated else Thrown (m', [])) /\
    changed m m' (fun j => if range (buf + room) k j then at_ m (j - room) else if range buf k j then Moved else at_ m j).
Proof.
  intros T K B NR L O R. assert (0 <= k) by apply T.
  assert (forall k', 0 <= k' <= n -> exists m', for_n k' (fun i st => new_move st (buf + (i + room)) (buf + i)) (m, []) = Ok (m', []) /\
    changed m m' (fun j => if range (buf + room) k' j then at_ m (j - room) else if range buf k' j then Moved else at_ m j)) as G.
  { intros k' K'. destruct (make_room_far m buf k' room) as [m' [E C]]; try lia; [apply objects_sub with n; auto; lia|apply raw_sub with n; auto; lia|].
    exists m'. split; [|exact C]. unfold make_room, assert in E. replace ((0 <=? k') && (0 <=? room)) with true in E by lia.
    replace (k' <=? room) with true in E by lia. exact E. }
  destruct (G k) as [m1 [E1 C1]]; [lia|]. destruct (G (k + 1)) as [m2 [E2 C2]]; [lia|].
  exists m1. split; [|exact C1]. unfold make_room_x, assert, noexcept_if. replace ((0 <=? n) && (0 <=? room)) with true by lia.
  replace (n <=? room) with true by lia. rewrite (xfor_throw n k th _ _ _ _ T K E1 E2). destruct nx; reflexivity.
Qed.
Lemma make_room2_throw n k th m lost dst src room pos : first_throw th k -> k < n ->
  0 <= room -> 0 <= pos < n -> within m dst (n + room) -> within m src n -> apart_ranges dst (n + room) src n ->
  objects m src n -> raw m dst (n + room) ->
  exists m', make_room2_x th (m, lost) dst src n room pos = Ok (Thrown (m', lost)) /\
    changed m m' (fun j => if range dst (Z.min k pos) j then at_ m (j - dst + src)
      else if range (dst + pos + room) (k - pos) j then at_ m (j - room - dst + src) else at_ m j).
Proof.
  intros T K RM P [W1 W2] [S1 S2] A O R. assert (0 <= k) by apply T. unfold apart_ranges in A.
  unfold make_room2_x, assert. replace ((0 <=? n) && (0 <=? room) && (0 <=? pos)) with true by lia.
  replace ((pos <? n) || ((pos =? 0) && (n =? 0))) with true by lia.
  destruct (Z_lt_dec k pos) as [KP|KP].
  - destruct (copy_throw pos k th m lost dst src) as [m' [E C]]; auto; [split; lia|split; lia|unfold apart_ranges; lia|
      apply objects_sub with n; auto; lia|apply raw_sub with (n + room); auto; lia|].
    exists m'. rewrite E. cbn [bind]. split; [reflexivity|]. destruct C as [C1 C2]. split; [exact C1|]. intros j J. rewrite C2 by lia.
    replace (Z.min k pos) with k by lia. destruct (range dst k j); [reflexivity|].
    unfold range. replace (_ && _) with false by lia. reflexivity.
  - rewrite xfor_quiet by (intros i I; apply T; lia).
    destruct (copy_loop m lost dst src pos) as [m1 [E1 [L1 C1]]]; [split; lia|split; lia|lia|unfold apart_ranges; lia|
      apply objects_sub with n; auto; lia|apply raw_sub with (n + room); auto; lia|].
    rewrite E1. cbn [bind].
    assert (forall j, 0 <= j < len m -> range dst pos j = false -> at_ m1 j = at_ m j) as X. { intros j J Hj. rewrite C1 by lia. rewrite Hj. reflexivity. }
    destruct (copy_throw (n - pos) (k - pos) (fun i => th (pos + i)) m1 lost (dst + (room + pos)) (src + pos)) as [m2 [E2 [L2 C2]]].
    + destruct T as [_ [T1 T2]]. split; [lia|]. split; [replace (pos + (k - pos)) with k by lia; exact T1|]. intros i I. apply T2. lia.
    + lia.
    + split; lia.
    + split; lia.
    + unfold apart_ranges. lia.
    + intros j J. rewrite X; [apply O; lia|lia|unfold range; lia].
    + intros j J. rewrite X; [apply R; lia|lia|unfold range; lia].
    + exists m2. split; [exact E2|]. split; [lia|]. intros j J. rewrite C2 by lia.
      replace (Z.min k pos) with pos by lia. replace (dst + (room + pos)) with (dst + pos + room) by lia.
      destruct (range (dst + pos + room) (k - pos) j) eqn:Q.
      * assert (range dst pos j = false) as Q2 by (unfold range in *; lia). rewrite Q2.
        rewrite X; [f_equal; lia|unfold range in Q; lia|unfold range in *; lia].
      * rewrite C1 by lia. reflexivity.
Qed.
(** the first [k] steps backwards *)
Lemma near_steps m buf n room k : 0 <= buf -> 0 < room < n -> buf + n + room <= len m -> 0 <= k <= n ->
  objects m buf n -> raw m (buf + n) room ->
  exists m', for_n k (fun i st => new_move st (buf + (n - 1 - i + room)) (buf + (n - 1 - i))) (m, []) = Ok (m', repeat Moved (Z.to_nat (k - room))) /\
    changed m m' (fun j => if range (buf + room + (n - k)) k j then at_ m (j - room) else if range (buf + (n - k)) k j then Moved else at_ m j).
Proof.
  intros B R L K O W.
  destruct (for_n_inv (fun k st => snd st = repeat Moved (Z.to_nat (k - room)) /\ changed m (fst st)
     (fun j => if range (buf + room + (n - k)) k j then at_ m (j - room) else if range (buf + (n - k)) k j then Moved else at_ m j)) k
     (fun i st => new_move st (buf + (n - 1 - i + room)) (buf + (n - 1 - i))) (m, [])) as [[m' l'] [E [H1 H2]]]; [lia| | |].
  - split; [replace (Z.to_nat (0 - room)) with 0%nat by lia; reflexivity|]. split; [reflexivity|]. intros j J. unfold range. cbn [fst].
    replace (_ && _) with false by lia. replace ((buf + _ <=? j) && _) with false by lia. reflexivity.
  - intros i [m1 l1] I [H1 [H2 H3]]. cbn [fst snd] in *. subst l1.
    assert (at_ m1 (buf + (n - 1 - i)) = at_ m (buf + (n - 1 - i))) as X1.
    { rewrite H3 by lia. unfold range. replace (_ && _) with false by lia. replace ((buf + (n - i) <=? _) && _) with false by lia. reflexivity. }
    assert (at_ m1 (buf + (n - 1 - i + room)) = if i <? room then Raw else Moved) as X2.
    { rewrite H3 by lia. unfold range. replace (_ && _) with false by lia. destruct (i <? room) eqn:IR.
      - replace ((buf + (n - i) <=? _) && _) with false by lia. apply W. lia.
      - replace ((buf + (n - i) <=? _) && _) with true by lia. reflexivity. }
    rewrite new_move_ok; [|lia|lia|lia|rewrite X1; apply O; lia]. rewrite X1, X2. eexists. split; [reflexivity|].
    cbn [fst snd]. split.
    { destruct (i <? room) eqn:IR; cbn [is_object].
      - replace (Z.to_nat (i - room)) with 0%nat by lia. replace (Z.to_nat (i + 1 - room)) with 0%nat by lia. reflexivity.
      - replace (Z.to_nat (i + 1 - room)) with (Datatypes.S (Z.to_nat (i - room))) by lia. apply repeat_snoc. }
    split; [rewrite !len_setc; lia|]. intros j J. setc_solve.
    destruct (j =? buf + (n - 1 - i)) eqn:J1.
    + unfold range. replace (_ && _) with false by lia. replace ((buf + _ <=? j) && _) with true by lia. reflexivity.
    + destruct (j =? buf + (n - 1 - i + room)) eqn:J2.
      * unfold range. replace (_ && _) with true by lia. f_equal. lia.
      * rewrite H3 by lia. unfold range.
        replace ((buf + room + (n - (i + 1)) <=? j) && (j <? buf + room + (n - (i + 1)) + (i + 1))) with ((buf + room + (n - i) <=? j) && (j <? buf + room + (n - i) + i)) by lia.
        replace ((buf + (n - (i + 1)) <=? j) && (j <? buf + (n - (i + 1)) + (i + 1))) with ((buf + (n - i) <=? j) && (j <? buf + (n - i) + i)) by lia. reflexivity.
  - cbn [fst snd] in *. subst l'. exists m'. split; [exact E|exact H2].
Qed.
Lemma make_room_near_throw nx n k th m buf room : first_throw th k -> k < n -> 0 <= buf -> 0 < room < n -> buf + n + room <= len m ->
  objects m buf n -> raw m (buf + n) room ->
  exists m', make_room_x nx th (m, []) buf n room = Ok (if nx then Terminated else Thrown (m', repeat Moved (Z.to_nat (k - room)))) /\
    changed m m' (fun j => if range (buf + n - k + room) k j then at_ m (j - room) else if range (buf + n - k) k j then Moved else at_ m j).
Proof.
  intros T K B NR L O R. assert (0 <= k) by apply T.
  destruct (near_steps m buf n room k) as [m1 [E1 [L1 C1]]]; auto; [lia|].
  destruct (near_steps m buf n room (k + 1)) as [m2 [E2 C2]]; auto; [lia|].
  exists m1. split.
  - unfold make_room_x, assert, noexcept_if. replace ((0 <=? n) && (0 <=? room)) with true by lia.
    replace (n <=? room) with false by lia. rewrite (xfor_throw n k th _ _ _ _ T K E1 E2). destruct nx; reflexivity.
  - split; [exact L1|]. intros j J. rewrite C1 by lia. replace (buf + room + (n - k)) with (buf + n - k + room) by lia.
    replace (buf + (n - k)) with (buf + n - k) by lia. reflexivity.
Qed.
