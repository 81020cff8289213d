(** Proofs about construction, assignment and destruction of [n] objects. *)
From Verif Require Import Base BaseLemmas SubstrModel MemUtilModel MemUtilProofs MemUtilProofs2 SpanProofs MemResModel CtorModel CtorSpec CtorProofs.

Lemma construct_n_ok m lost p n v : within m p n -> 0 <= n -> raw m p n ->
  exists m', construct_n (m, lost) p n v = Ok (m', lost) /\ changed m m' (fun j => if range p n j then Live v else at_ m j).
Proof.
  intros [D1 D2] N W. unfold construct_n.
  destruct (for_n_inv (fun k st => snd st = lost /\ changed m (fst st) (fun j => if range p k j then Live v else at_ m j)) n
     (fun i st => new_at st (p + i) (Live v)) (m, lost)) as [[m' l'] [E [H1 H2]]]; [lia| | |].
  - split; [reflexivity|]. split; [reflexivity|]. intros j J. unfold range. cbn [fst]. replace (_ && _) with false by lia. reflexivity.
  - intros i [m1 l1] I [H1 [H2 H3]]. cbn [fst snd] in *. subst l1.
    assert (at_ m1 (p + i) = Raw) as X2.
    { rewrite H3 by lia. unfold range. replace (_ && _) with false by lia. apply W. lia. }
    unfold new_at. rewrite rdc_ok by lia. rewrite X2. cbn [bind is_object]. eexists. split; [reflexivity|].
    cbn [fst snd]. split; [reflexivity|]. split; [rewrite !len_setc; lia|]. intros j J. setc_solve.
    destruct (j =? p + i) eqn:J1.
    + unfold range. replace (_ && _) with true by lia. reflexivity.
    + rewrite H3 by lia. unfold range. replace ((p <=? j) && (j <? p + (i + 1))) with ((p <=? j) && (j <? p + i)) by lia. reflexivity.
  - cbn [fst snd] in *. subst l'. exists m'. split; [exact E|exact H2].
Qed.
Lemma copy_construct_n_ok m lost d s n : within m d n -> within m s n -> 0 < n -> apart_ranges d n s n ->
  objects m s n -> raw m d n ->
  exists m', copy_construct_n (m, lost) d s n = Ok (m', lost) /\
    changed m m' (fun j => if range d n j then at_ m (j - d + s) else at_ m j).
Proof.
  intros D S N A O W. unfold copy_construct_n, assert. unfold apart_ranges in A.
  replace (negb (d =? s)) with true by lia. apply copy_loop; auto; lia.
Qed.
Lemma copy_construct_ref_ok m lost d s n : within m d n -> within m s 1 -> 0 < n -> apart_ranges d n s 1 ->
  objects m s 1 -> raw m d n ->
  exists m', copy_construct_ref_n (m, lost) d s n = Ok (m', lost) /\
    changed m m' (fun j => if range d n j then at_ m s else at_ m j).
Proof.
  intros [D1 D2] [S1 S2] N A O W. unfold apart_ranges in A. unfold copy_construct_ref_n, assert.
  replace (negb (d =? s)) with true by lia.
  destruct (for_n_inv (fun k st => snd st = lost /\ changed m (fst st) (fun j => if range d k j then at_ m s else at_ m j)) n
     (fun i st => new_copy st (d + i) s) (m, lost)) as [[m' l'] [E [H1 H2]]]; [lia| | |].
  - split; [reflexivity|]. split; [reflexivity|]. intros j J. unfold range. cbn [fst]. replace (_ && _) with false by lia. reflexivity.
  - intros i [m1 l1] I [H1 [H2 H3]]. cbn [fst snd] in *. subst l1.
    assert (at_ m1 s = at_ m s) as X1.
    { rewrite H3 by lia. unfold range. replace (_ && _) with false by lia. reflexivity. }
    assert (at_ m1 (d + i) = Raw) as X2.
    { rewrite H3 by lia. unfold range. replace (_ && _) with false by lia. apply W. lia. }
    rewrite new_copy_ok; [|lia|lia|lia|rewrite X1; apply O; lia]. rewrite X1, X2. eexists. split; [reflexivity|].
    cbn [fst snd is_object]. split; [reflexivity|]. split; [rewrite !len_setc; lia|]. intros j J. setc_solve.
    destruct (j =? d + i) eqn:J1.
    + unfold range. replace (_ && _) with true by lia. reflexivity.
    + rewrite H3 by lia. unfold range. replace ((d <=? j) && (j <? d + (i + 1))) with ((d <=? j) && (j <? d + i)) by lia. reflexivity.
  - cbn [fst snd] in *. subst l'. exists m'. split; [exact E|exact H2].
Qed.
Lemma copy_assign_n_ok m lost d s n : within m d n -> within m s n -> 0 < n -> apart_ranges d n s n ->
  objects m s n -> objects m d n ->
  exists m', copy_assign_n (m, lost) d s n = Ok (m', lost) /\
    changed m m' (fun j => if range d n j then at_ m (j - d + s) else at_ m j).
Proof.
  intros [D1 D2] [S1 S2] N A O W. unfold apart_ranges in A. unfold copy_assign_n, assert.
  replace (negb (d =? s)) with true by lia.
  destruct (for_n_inv (fun k st => snd st = lost /\ changed m (fst st) (fun j => if range d k j then at_ m (j - d + s) else at_ m j)) n
     (fun i st => copy_to st (d + i) (s + i)) (m, lost)) as [[m' l'] [E [H1 H2]]]; [lia| | |].
  - split; [reflexivity|]. split; [reflexivity|]. intros j J. unfold range. cbn [fst]. replace (_ && _) with false by lia. reflexivity.
  - intros i [m1 l1] I [H1 [H2 H3]]. cbn [fst snd] in *. subst l1.
    assert (at_ m1 (s + i) = at_ m (s + i)) as X1.
    { rewrite H3 by lia. unfold range. replace (_ && _) with false by lia. reflexivity. }
    assert (at_ m1 (d + i) = at_ m (d + i)) as X2.
    { rewrite H3 by lia. unfold range. replace (_ && _) with false by lia. reflexivity. }
    rewrite copy_to_ok; [|lia|lia|rewrite X1; apply O; lia|rewrite X2; apply W; lia]. rewrite X1. eexists. split; [reflexivity|].
    cbn [fst snd]. split; [reflexivity|]. split; [rewrite !len_setc; lia|]. intros j J. setc_solve.
    destruct (j =? d + i) eqn:J1.
    + unfold range. replace (_ && _) with true by lia. f_equal. lia.
    + rewrite H3 by lia. unfold range. replace ((d <=? j) && (j <? d + (i + 1))) with ((d <=? j) && (j <? d + i)) by lia. reflexivity.
  - cbn [fst snd] in *. subst l'. exists m'. split; [exact E|exact H2].
Qed.
Lemma move_construct_n_ok m lost d s n : within m d n -> within m s n -> 0 < n -> apart_ranges d n s n ->
  objects m s n -> raw m d n ->
  exists m', move_construct_n (m, lost) d s n = Ok (m', lost) /\
    changed m m' (fun j => if range d n j then at_ m (j - d + s) else if range s n j then Moved else at_ m j).
Proof.
  intros [D1 D2] [S1 S2] N A O W. unfold apart_ranges in A. unfold move_construct_n, assert.
  replace (negb (d =? s)) with true by lia.
  destruct (for_n_inv (fun k st => snd st = lost /\ changed m (fst st) (fun j => if range d k j then at_ m (j - d + s) else if range s k j then Moved else at_ m j)) n
     (fun i st => new_move st (d + i) (s + i)) (m, lost)) as [[m' l'] [E [H1 H2]]]; [lia| | |].
  - split; [reflexivity|]. split; [reflexivity|]. intros j J. unfold range. cbn [fst]. replace (_ && _) with false by lia.
    replace ((s <=? j) && _) with false by lia. reflexivity.
  - intros i [m1 l1] I [H1 [H2 H3]]. cbn [fst snd] in *. subst l1.
    assert (at_ m1 (s + i) = at_ m (s + i)) as X1.
    { rewrite H3 by lia. unfold range. replace (_ && _) with false by lia. replace ((s <=? s + i) && _) with false by lia. reflexivity. }
    assert (at_ m1 (d + i) = Raw) as X2.
    { rewrite H3 by lia. unfold range. replace (_ && _) with false by lia. replace ((s <=? d + i) && _) with false by lia. apply W. lia. }
    rewrite new_move_ok; [|lia|lia|lia|rewrite X1; apply O; lia]. rewrite X1, X2. eexists. split; [reflexivity|].
    cbn [fst snd is_object]. split; [reflexivity|]. split; [rewrite !len_setc; lia|]. intros j J. setc_solve.
    destruct (j =? s + i) eqn:J1.
    + unfold range. replace (_ && _) with false by lia. replace ((s <=? j) && _) with true by lia. reflexivity.
    + destruct (j =? d + i) eqn:J2.
      * unfold range. replace (_ && _) with true by lia. f_equal. lia.
      * rewrite H3 by lia. unfold range. replace ((d <=? j) && (j <? d + (i + 1))) with ((d <=? j) && (j <? d + i)) by lia.
        replace ((s <=? j) && (j <? s + (i + 1))) with ((s <=? j) && (j <? s + i)) by lia. reflexivity.
  - cbn [fst snd] in *. subst l'. exists m'. split; [exact E|exact H2].
Qed.
Lemma move_assign_n_ok m lost d s n : within m d n -> within m s n -> 0 < n -> apart_ranges d n s n ->
  objects m s n -> objects m d n ->
  exists m', move_assign_n (m, lost) d s n = Ok (m', lost) /\
    changed m m' (fun j => if range d n j then at_ m (j - d + s) else if range s n j then Moved else at_ m j).
Proof.
  intros [D1 D2] [S1 S2] N A O W. unfold apart_ranges in A. unfold move_assign_n, assert.
  replace (negb (d =? s)) with true by lia.
  destruct (for_n_inv (fun k st => snd st = lost /\ changed m (fst st) (fun j => if range d k j then at_ m (j - d + s) else if range s k j then Moved else at_ m j)) n
     (fun i st => move_to st (d + i) (s + i)) (m, lost)) as [[m' l'] [E [H1 H2]]]; [lia| | |].
  - split; [reflexivity|]. split; [reflexivity|]. intros j J. unfold range. cbn [fst]. replace (_ && _) with false by lia.
    replace ((s <=? j) && _) with false by lia. reflexivity.
  - intros i [m1 l1] I [H1 [H2 H3]]. cbn [fst snd] in *. subst l1.
    assert (at_ m1 (s + i) = at_ m (s + i)) as X1.
    { rewrite H3 by lia. unfold range. replace (_ && _) with false by lia. replace ((s <=? s + i) && _) with false by lia. reflexivity. }
    assert (at_ m1 (d + i) = at_ m (d + i)) as X2.
    { rewrite H3 by lia. unfold range. replace (_ && _) with false by lia. replace ((s <=? d + i) && _) with false by lia. reflexivity. }
    rewrite move_to_ok; [|lia|lia|rewrite X1; apply O; lia|rewrite X2; apply W; lia]. rewrite X1. eexists. split; [reflexivity|].
    cbn [fst snd]. split; [reflexivity|]. split; [rewrite !len_setc; lia|]. intros j J. setc_solve.
    destruct (j =? s + i) eqn:J1.
    + unfold range. replace (_ && _) with false by lia. replace ((s <=? j) && _) with true by lia. reflexivity.
    + destruct (j =? d + i) eqn:J2.
      * unfold range. replace (_ && _) with true by lia. f_equal. lia.
      * rewrite H3 by lia. unfold range. replace ((d <=? j) && (j <? d + (i + 1))) with ((d <=? j) && (j <? d + i)) by lia.
        replace ((s <=? j) && (j <? s + (i + 1))) with ((s <=? j) && (j <? s + i)) by lia. reflexivity.
  - cbn [fst snd] in *. subst l'. exists m'. split; [exact E|exact H2].
Qed.
(** trivial types *)
Lemma copy_n_t_ok m d s n : within m d n -> within m s n -> 0 < n -> apart_ranges d n s n ->
  exists m', copy_n_t m d s n = Ok m' /\ len m' = len m /\
    forall j, 0 <= j -> nth (Z.to_nat j) m' 0 = if range d n j then nth (Z.to_nat (j - d + s)) m 0 else nth (Z.to_nat j) m 0.
Proof.
  intros D S N A. unfold copy_n_t, assert. replace (negb (d =? s)) with true by (unfold apart_ranges in A; lia).
  apply memcpy_chg; auto; lia.
Qed.
Lemma construct_n_t_ok m p n : within m p n -> 0 <= n ->
  exists m', construct_n_t m p n = Ok m' /\ len m' = len m /\
    forall j, 0 <= j -> nth (Z.to_nat j) m' 0 = if range p n j then 0 else nth (Z.to_nat j) m 0.
Proof.
  intros [D1 D2] N. unfold construct_n_t.
  assert (len (repeat 0 (Z.to_nat n)) = n) as L by (unfold len; rewrite repeat_length; lia).
  eexists. split; [apply wrs_ok; lia|]. split; [apply len_blit; lia|]. intros j J. rewrite nth_blit by lia. rewrite L.
  unfold range. destruct (_ && _); [|reflexivity]. apply nth_repeat.
Qed.

(** ** Positions *)
(** what the assertions say, without machine arithmetic *)
Lemma room_checks_ok {A} t bufsz currsz pos room (k : res A) : 0 <= pos <= currsz -> 0 <= room -> room + currsz <= bufsz ->
  in_range t bufsz -> room_checks t bufsz currsz pos room k = k.
Proof.
  intros P R0 R I. unfold room_checks, assert. replace ((0 <=? pos) && (pos <=? currsz)) with true by lia.
  replace (currsz <=? bufsz) with true by lia.
  rewrite arith_id. 2: { apply promote_range. apply range_mid with bufsz; [lia|apply I]. }
  cbn [bind]. replace (room + currsz <=? bufsz) with true by lia. reflexivity.
Qed.
Lemma room2_checks_ok {A} t dstsz srcsz room pos (k : res A) : 0 <= pos -> pos < srcsz \/ (pos = 0 /\ srcsz = 0) -> 0 <= room ->
  srcsz + room <= dstsz -> in_range t dstsz -> room2_checks t dstsz srcsz room pos k = k.
Proof.
  intros P PS R0 R I. unfold room2_checks, assert.
  replace (((0 <=? pos) && (pos <? srcsz)) || ((srcsz =? 0) && (pos =? 0))) with true by lia.
  replace (((0 <=? pos) && (pos <? dstsz)) || ((dstsz =? 0) && (pos =? 0))) with true by lia.
  rewrite arith_id. 2: { apply promote_range. apply range_mid with dstsz; [lia|apply I]. }
  cbn [bind]. replace (srcsz + room <=? dstsz) with true by lia. reflexivity.
Qed.
(** below 32 bits the sum is exact, and so are the checks *)
Lemma room_checks_small {A} t bufsz currsz pos room (k : res A) : (iw t = W8 \/ iw t = W16) ->
  in_range t bufsz -> in_range t currsz -> in_range t room ->
  room_checks t bufsz currsz pos room k =
  if (0 <=? pos) && (pos <=? currsz) && (currsz <=? bufsz) && (room + currsz <=? bufsz) then k else Err.
Proof.
  intros T I1 I2 I3. unfold room_checks, assert.
  destruct ((0 <=? pos) && (pos <=? currsz)); [|reflexivity]. destruct (currsz <=? bufsz); [|reflexivity]. cbn [andb].
  rewrite arith_id. 2: { destruct t as [w s]. cbn in T. unfold in_range in *. destruct T as [-> | ->], s; cbn in *; lia. }
  reflexivity.
Qed.
Lemma make_room_pos_t_chg t m buf bufsz currsz pos room : 0 <= pos <= currsz -> 0 <= room -> room + currsz <= bufsz ->
  in_range t bufsz -> within m buf bufsz ->
  exists m', make_room_pos_t t m buf bufsz currsz pos room = Ok m' /\ len m' = len m /\
    forall j, 0 <= j -> nth (Z.to_nat j) m' 0 = if range (buf + pos + room) (currsz - pos) j then nth (Z.to_nat (j - room)) m 0 else nth (Z.to_nat j) m 0.
Proof.
  intros P R0 R I [W1 W2]. unfold make_room_pos_t. rewrite room_checks_ok by auto.
  apply make_room_t_chg; lia.
Qed.
Lemma make_room2_sz_t_ok t m dst dstsz src srcsz room pos : 0 <= srcsz -> 0 <= pos -> pos < srcsz \/ (pos = 0 /\ srcsz = 0) -> 0 <= room ->
  srcsz + room <= dstsz -> in_range t dstsz -> within m dst dstsz -> within m src srcsz -> apart_ranges dst dstsz src srcsz ->
  exists m', make_room2_sz_t t m dst dstsz src srcsz room pos = Ok m' /\ len m' = len m /\
    forall j, 0 <= j -> nth (Z.to_nat j) m' 0 =
      if range dst pos j then nth (Z.to_nat (j - dst + src)) m 0
      else if range (dst + pos + room) (srcsz - pos) j then nth (Z.to_nat (j - room - dst + src)) m 0
      else nth (Z.to_nat j) m 0.
Proof.
  intros N P PS R0 R I [W1 W2] [S1 S2] A. unfold make_room2_sz_t. rewrite room2_checks_ok by auto.
  unfold apart_ranges in A. apply make_room2_t_chg; auto; try (split; lia). unfold apart_ranges. lia.
Qed.
(** pos at the end of a source with elements is refused *)
Lemma make_room2_end m dst src n room : 0 < n -> make_room2_t m dst src n room n = Err.
Proof.
  intros N. unfold make_room2_t, assert. destruct (_ && _); [|reflexivity].
  replace ((n <? n) || ((n =? 0) && (n =? 0))) with false by lia. reflexivity.
Qed.

(** ** Lifetimes *)
Lemma make_room_any m buf n room : 0 <= buf -> 0 <= n -> 0 < room -> buf + n + room <= len m ->
  objects m buf n -> raw m (buf + n) room ->
  exists m', make_room (m, []) buf n room = Ok (m', repeat Moved (Z.to_nat (n - room))) /\
    changed m m' (fun j => if range (buf + room) n j then at_ m (j - room) else if range buf (Z.min room n) j then Moved else at_ m j).
Proof.
  intros B N R L O W. destruct (Z_lt_le_dec room n) as [H|H].
  - destruct (make_room_near m buf n room) as [m' [E C]]; auto; try lia. exists m'. rewrite Z.min_l by lia. auto.
  - destruct (make_room_far m buf n room) as [m' [E C]]; auto; try lia.
    { intros j J. apply W. lia. }
    exists m'. rewrite Z.min_r by lia. replace (Z.to_nat (n - room)) with 0%nat by lia. auto.
Qed.
Lemma make_room_zero m lost buf n : 0 < n -> make_room (m, lost) buf n 0 = Ub.
Proof.
  intros N. unfold make_room, assert. replace ((0 <=? n) && (0 <=? 0)) with true by lia. replace (n <=? 0) with false by lia.
  unfold for_n. assert (forall k : nat, loop (Datatypes.S k) (fun (i : Z) (st : objs) => let w := n - 1 - i in new_move st (buf + (w + 0)) (buf + w)) (m, lost) = Ub) as H.
  { induction k as [|k IH].
    - cbn [loop bind]. unfold new_move. rewrite (proj2 (Z.eqb_eq _ _)) by lia. reflexivity.
    - cbn [loop] in *. rewrite IH. reflexivity. }
  replace (Z.to_nat n) with (Datatypes.S (Z.to_nat (n - 1))) by lia. apply H.
Qed.
Lemma destroy_room_zero m lost buf n : 0 <= buf -> 0 < n -> buf + n <= len m -> objects m buf n ->
  exists m', destroy_room (m, lost) buf n 0 = Ok (m', lost) /\ changed m m' (fun j => if range buf n j then Moved else at_ m j).
Proof.
  intros B N L O. unfold destroy_room, assert. replace ((0 <=? n) && (0 <=? 0)) with true by lia.
  replace (0 <=? n) with true by lia. replace (0 <? n) with true by lia.
  destruct (for_n_inv (fun k st => snd st = lost /\ changed m (fst st) (fun j => if range buf k j then Moved else at_ m j)) (n - 0)
     (fun i st => move_to st (buf + i) (buf + (i + 0))) (m, lost)) as [[m' l'] [E [H1 H2]]]; [lia| | |].
  - split; [reflexivity|]. split; [reflexivity|]. intros j J. unfold range. cbn [fst]. replace (_ && _) with false by lia. reflexivity.
  - intros i [m1 l1] I [H1 [H2 H3]]. cbn [fst snd] in *. subst l1. replace (i + 0) with i by lia.
    assert (at_ m1 (buf + i) = at_ m (buf + i)) as X1.
    { rewrite H3 by lia. unfold range. replace (_ && _) with false by lia. reflexivity. }
    rewrite move_to_ok; [|lia|lia|rewrite X1; apply O; lia|rewrite X1; apply O; lia]. eexists. split; [reflexivity|].
    cbn [fst snd]. split; [reflexivity|]. split; [rewrite !len_setc; lia|]. intros j J. setc_solve.
    destruct (j =? buf + i) eqn:J1.
    + unfold range. replace (_ && _) with true by lia. reflexivity.
    + rewrite H3 by lia. unfold range. replace ((buf <=? j) && (j <? buf + (i + 1))) with ((buf <=? j) && (j <? buf + i)) by lia. reflexivity.
  - cbn [fst snd] in *. subst l'. exists m'. split; [exact E|]. replace (n - 0) with n in H2 by lia. exact H2.
Qed.
(** the first [n - room] have the values of the last ones, and all [n] are still objects *)
Lemma destroy_room_leaves m lost buf n room : 0 <= buf -> 0 < room < n -> buf + n <= len m -> objects m buf n ->
  exists m', destroy_room (m, lost) buf n room = Ok (m', lost) /\
    (forall j, buf <= j < buf + (n - room) -> at_ m' j = at_ m (j + room)) /\ objects m' (buf + (n - room)) room.
Proof.
  intros B R L O. destruct (destroy_room_some m lost buf n room) as [m' [E [H1 H2]]]; auto; try lia.
  exists m'. split; [exact E|]. split.
  - intros j J. rewrite H2 by lia. unfold range. replace (_ && _) with true by lia. reflexivity.
  - intros j J. rewrite H2 by lia. unfold range. replace (_ && _) with false by lia.
    destruct (_ && _); [reflexivity|]. apply O. lia.
Qed.
(** make room, put objects into the gap, and take the room away again *)
Lemma room_inverse m buf n room : 0 <= buf -> 0 <= n -> 0 < room -> buf + n + room <= len m ->
  objects m buf n -> raw m (buf + n) room -> forall m1 m2 lost,
  make_room (m, []) buf n room = Ok (m1, lost) ->
  len m2 = len m1 -> objects m2 buf room -> (forall j, buf + room <= j < buf + room + n -> at_ m2 j = at_ m1 j) ->
  0 < n ->
  exists m3, destroy_room (m2, lost) buf (n + room) room = Ok (m3, lost) /\
    forall j, buf <= j < buf + n -> at_ m3 j = at_ m j.
Proof.
  intros B N R L O W m1 m2 lost E1 L2 O2 H2 N0.
  destruct (make_room_any m buf n room) as [m1' [E1' [L1 H1]]]; auto. rewrite E1 in E1'. inversion E1'; subst m1' lost.
  destruct (destroy_room_leaves m2 (repeat Moved (Z.to_nat (n - room))) buf (n + room) room) as [m3 [E3 [H3 _]]]; auto; try lia.
  - intros j J. destruct (Z_lt_le_dec j (buf + room)); [apply O2; lia|]. rewrite H2 by lia. rewrite H1 by lia.
    unfold range. replace (_ && _) with true by lia. apply O. lia.
  - exists m3. split; [exact E3|]. intros j J. rewrite H3 by lia. rewrite H2 by lia. rewrite H1 by lia.
    unfold range. replace (_ && _) with true by lia. f_equal. lia.
Qed.
