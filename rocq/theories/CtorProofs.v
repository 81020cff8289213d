(** Proofs about construction, destruction, make_room and destroy_room. *)
From Verif Require Import Base BaseLemmas SubstrModel MemUtilModel MemUtilProofs2 SpanProofs MemResModel CtorModel CtorSpec.

(** ** Trivial element types *)
Lemma memmove_ok m d s n : 0 <= d -> 0 <= s -> 0 <= n -> d + n <= len m -> s + n <= len m ->
  memmove m d s n = Ok (blit m d (slice m s n)).
Proof.
  intros D S N L1 L2. unfold memmove, rds.
  destruct (Z.leb_spec n 0) as [Z|Z].
  - cbn [bind wrs]. replace n with 0 by lia. unfold slice. simpl firstn. rewrite blit_nil by lia. reflexivity.
  - replace ((0 <=? s) && (s + n <=? len m)) with true by lia. cbn [bind]. apply wrs_ok; [lia|]. rewrite len_slice; lia.
Qed.
Lemma make_room_t_ok m buf n room : 0 <= buf -> 0 <= n -> 0 <= room -> buf + n + room <= len m ->
  make_room_t m buf n room = Ok (blit m (buf + room) (slice m buf n)).
Proof.
  intros B N R L. unfold make_room_t, assert. replace ((0 <=? n) && (0 <=? room)) with true by lia.
  destruct (n <=? room) eqn:E.
  - apply memcpy_ok; try lia. unfold mem_overlaps. lia.
  - apply memmove_ok; lia.
Qed.
Lemma destroy_room_t_ok m buf n room : 0 <= buf -> 0 <= room <= n -> buf + n <= len m ->
  destroy_room_t m buf n room = Ok (blit m buf (slice m (buf + room) (n - room))).
Proof.
  intros B R L. unfold destroy_room_t, assert. replace ((0 <=? n) && (0 <=? room)) with true by lia.
  replace (room <=? n) with true by lia. destruct (room <? n) eqn:E.
  - apply memmove_ok; lia.
  - replace (n - room) with 0 by lia. unfold slice. simpl firstn. rewrite blit_nil by lia. reflexivity.
Qed.
Lemma nth_slice_Z (m : list Z) i n k : 0 <= i -> 0 <= k < n -> nth (Z.to_nat k) (slice m i n) 0 = nth (Z.to_nat (i + k)) m 0.
Proof.
  intros I K. unfold slice. rewrite nth_firstn_lt by lia. rewrite nth_skipn. f_equal. lia.
Qed.
Lemma nth_blit_slice (m : list Z) d s n j : 0 <= d -> 0 <= s -> 0 <= n -> d + n <= len m -> s + n <= len m -> 0 <= j ->
  nth (Z.to_nat j) (blit m d (slice m s n)) 0 = if range d n j then nth (Z.to_nat (j - d + s)) m 0 else nth (Z.to_nat j) m 0.
Proof.
  intros D S N L1 L2 J. assert (len (slice m s n) = n) as LS by (rewrite len_slice; lia).
  rewrite nth_blit by lia. rewrite LS. unfold range.
  destruct (_ && _) eqn:E; [|reflexivity]. rewrite nth_slice_Z by lia. f_equal. lia.
Qed.
Lemma memcpy_chg m d s n : within m d n -> within m s n -> 0 <= n -> apart_ranges d n s n ->
  exists m', memcpy m d s n = Ok m' /\ len m' = len m /\
    forall j, 0 <= j -> nth (Z.to_nat j) m' 0 = if range d n j then nth (Z.to_nat (j - d + s)) m 0 else nth (Z.to_nat j) m 0.
Proof.
  intros [D1 D2] [S1 S2] N A. eexists. split; [apply memcpy_ok; try lia; unfold mem_overlaps, apart_ranges in *; lia|].
  split; [apply len_blit; rewrite ?len_slice; lia|]. intros j J. apply nth_blit_slice; lia.
Qed.
Lemma make_room_t_chg m buf n room : 0 <= buf -> 0 <= n -> 0 <= room -> buf + n + room <= len m ->
  exists m', make_room_t m buf n room = Ok m' /\ len m' = len m /\
    forall j, 0 <= j -> nth (Z.to_nat j) m' 0 = if range (buf + room) n j then nth (Z.to_nat (j - room)) m 0 else nth (Z.to_nat j) m 0.
Proof.
  intros B N R L. eexists. split; [apply make_room_t_ok; lia|]. split; [apply len_blit; rewrite ?len_slice; lia|].
  intros j J. rewrite nth_blit_slice by lia. destruct (range _ _ _); [|reflexivity]. f_equal. lia.
Qed.
Lemma destroy_room_t_chg m buf n room : 0 <= buf -> 0 <= room <= n -> buf + n <= len m ->
  exists m', destroy_room_t m buf n room = Ok m' /\ len m' = len m /\
    forall j, 0 <= j -> nth (Z.to_nat j) m' 0 = if range buf (n - room) j then nth (Z.to_nat (j + room)) m 0 else nth (Z.to_nat j) m 0.
Proof.
  intros B R L. eexists. split; [apply destroy_room_t_ok; lia|]. split; [apply len_blit; rewrite ?len_slice; lia|].
  intros j J. rewrite nth_blit_slice by lia. destruct (range _ _ _); [|reflexivity]. f_equal. lia.
Qed.
Lemma room_inverse_t m buf n room : 0 <= buf -> 0 <= n -> 0 <= room -> buf + n + room <= len m ->
  exists m1 m2, make_room_t m buf n room = Ok m1 /\ destroy_room_t m1 buf (n + room) room = Ok m2 /\
    len m2 = len m /\ forall j, 0 <= j < buf + n -> nth (Z.to_nat j) m2 0 = nth (Z.to_nat j) m 0.
Proof.
  intros B N R L. destruct (make_room_t_chg m buf n room) as [m1 [E1 [L1 H1]]]; try lia.
  destruct (destroy_room_t_chg m1 buf (n + room) room) as [m2 [E2 [L2 H2]]]; try lia.
  exists m1, m2. split; [exact E1|]. split; [exact E2|]. split; [lia|]. intros j J. rewrite H2 by lia. unfold range.
  destruct (_ && _) eqn:E.
  - rewrite H1 by lia. unfold range. replace (_ && _) with true by lia. f_equal. lia.
  - rewrite H1 by lia. unfold range. replace (_ && _) with false by lia. reflexivity.
Qed.
Lemma make_room2_t_chg m dst src n room pos :
  0 <= n -> 0 <= room -> 0 <= pos -> pos < n \/ (pos = 0 /\ n = 0) ->
  within m dst (n + room) -> within m src n -> apart_ranges dst (n + room) src n ->
  exists m', make_room2_t m dst src n room pos = Ok m' /\ len m' = len m /\
    forall j, 0 <= j -> nth (Z.to_nat j) m' 0 =
      if range dst pos j then nth (Z.to_nat (j - dst + src)) m 0
      else if range (dst + pos + room) (n - pos) j then nth (Z.to_nat (j - room - dst + src)) m 0
      else nth (Z.to_nat j) m 0.
Proof.
  intros N R P PN [D1 D2] [S1 S2] A. unfold make_room2_t, assert.
  replace ((0 <=? n) && (0 <=? room) && (0 <=? pos)) with true by lia.
  replace ((pos <? n) || ((pos =? 0) && (n =? 0))) with true by lia.
  destruct (memcpy_chg m dst src pos) as [m1 [E1 [L1 H1]]]; [split; lia|split; lia|lia|unfold apart_ranges in *; lia|].
  rewrite E1. cbn [bind].
  destruct (memcpy_chg m1 (dst + room + pos) (src + pos) (n - pos)) as [m2 [E2 [L2 H2]]]; [split; lia|split; lia|lia|unfold apart_ranges in *; lia|].
  exists m2. split; [exact E2|]. split; [lia|]. intros j J. rewrite H2 by lia. unfold range, apart_ranges in *.
  destruct ((dst + room + pos <=? j) && (j <? dst + room + pos + (n - pos))) eqn:E.
  - rewrite H1 by lia. unfold range. replace ((dst <=? _) && _) with false by lia.
    replace ((dst <=? j) && (j <? dst + pos)) with false by lia.
    replace ((dst + pos + room <=? j) && (j <? dst + pos + room + (n - pos))) with true by lia. f_equal. lia.
  - rewrite H1 by lia. unfold range. destruct ((dst <=? j) && (j <? dst + pos)); [reflexivity|].
    replace ((dst + pos + room <=? j) && (j <? dst + pos + room + (n - pos))) with false by lia. reflexivity.
Qed.
Lemma destroy_room2_t_chg m dst src n room pos :
  0 <= room -> 0 <= pos < n -> pos + room <= n ->
  within m dst (n - room) -> within m src n -> apart_ranges dst (n - room) src n ->
  exists m', destroy_room2_t m dst src n room pos = Ok m' /\ len m' = len m /\
    forall j, 0 <= j -> nth (Z.to_nat j) m' 0 =
      if range dst pos j then nth (Z.to_nat (j - dst + src)) m 0
      else if range (dst + pos) (n - room - pos) j then nth (Z.to_nat (j + room - dst + src)) m 0
      else nth (Z.to_nat j) m 0.
Proof.
  intros R P PN [D1 D2] [S1 S2] A. unfold destroy_room2_t, assert.
  replace ((0 <=? n) && (0 <=? room) && (0 <=? pos)) with true by lia.
  replace (pos <? n) with true by lia. replace (pos + room <=? n) with true by lia.
  destruct (memcpy_chg m dst src pos) as [m1 [E1 [L1 H1]]]; [split; lia|split; lia|lia|unfold apart_ranges in *; lia|].
  rewrite E1. cbn [bind].
  destruct (memcpy_chg m1 (dst + pos) (src + room + pos) (n - pos - room)) as [m2 [E2 [L2 H2]]]; [split; lia|split; lia|lia|unfold apart_ranges in *; lia|].
  exists m2. split; [exact E2|]. split; [lia|]. intros j J. rewrite H2 by lia. unfold range, apart_ranges in *.
  destruct ((dst + pos <=? j) && (j <? dst + pos + (n - pos - room))) eqn:E.
  - rewrite H1 by lia. unfold range. replace ((dst <=? _) && _) with false by lia.
    replace ((dst <=? j) && (j <? dst + pos)) with false by lia.
    replace ((dst + pos <=? j) && (j <? dst + pos + (n - room - pos))) with true by lia. f_equal. lia.
  - rewrite H1 by lia. unfold range. destruct ((dst <=? j) && (j <? dst + pos)); [reflexivity|].
    replace ((dst + pos <=? j) && (j <? dst + pos + (n - room - pos))) with false by lia. reflexivity.
Qed.

(** ** Cells *)
Lemma len_setc m i c : len (setc m i c) = len m.
Proof.
  unfold setc, len. f_equal. generalize (Z.to_nat i). induction m as [|h m IH]; intros [|k]; cbn; auto.
Qed.
Lemma nth_upd {A} (m : list A) i j c d : (i < length m)%nat -> nth j (upd m i c) d = if (i =? j)%nat then c else nth j m d.
Proof.
  revert i j. induction m as [|h m IH]; intros [|i] [|j] H; cbn in *; try lia; auto. apply IH. lia.
Qed.
Lemma at_setc m i c j : 0 <= i < len m -> 0 <= j -> at_ (setc m i c) j = if j =? i then c else at_ m j.
Proof.
  intros I J. unfold at_, setc. rewrite nth_upd by (unfold len in I; lia).
  replace (Z.to_nat i =? Z.to_nat j)%nat with (j =? i) by lia. reflexivity.
Qed.
Lemma rdc_ok m i : 0 <= i < len m -> rdc m i = Ok (at_ m i).
Proof. intros I. unfold rdc. replace ((0 <=? i) && (i <? len m)) with true by lia. reflexivity. Qed.
Lemma obj_ok m i : 0 <= i < len m -> is_object (at_ m i) = true -> obj m i = Ok (at_ m i).
Proof. intros I O. unfold obj. rewrite rdc_ok by auto. cbn. destruct (at_ m i); [discriminate|reflexivity..]. Qed.
Lemma new_move_ok m lost d s : 0 <= d < len m -> 0 <= s < len m -> d <> s -> is_object (at_ m s) = true ->
  new_move (m, lost) d s = Ok (setc (setc m d (at_ m s)) s Moved, if is_object (at_ m d) then lost ++ [at_ m d] else lost).
Proof.
  intros D S N O. unfold new_move. rewrite (proj2 (Z.eqb_neq d s)) by auto. cbn [fst]. rewrite obj_ok by auto.
  cbn [bind]. unfold new_at. rewrite rdc_ok by auto. reflexivity.
Qed.
Lemma new_copy_ok m lost d s : 0 <= d < len m -> 0 <= s < len m -> d <> s -> is_object (at_ m s) = true ->
  new_copy (m, lost) d s = Ok (setc m d (at_ m s), if is_object (at_ m d) then lost ++ [at_ m d] else lost).
Proof.
  intros D S N O. unfold new_copy. rewrite (proj2 (Z.eqb_neq d s)) by auto. cbn [fst]. rewrite obj_ok by auto.
  cbn [bind]. unfold new_at. rewrite rdc_ok by auto. reflexivity.
Qed.
Lemma move_to_ok m lost d s : 0 <= d < len m -> 0 <= s < len m -> is_object (at_ m s) = true -> is_object (at_ m d) = true ->
  move_to (m, lost) d s = Ok (setc (setc m d (at_ m s)) s Moved, lost).
Proof. intros D S O1 O2. unfold move_to. rewrite !obj_ok by auto. reflexivity. Qed.
Lemma copy_to_ok m lost d s : 0 <= d < len m -> 0 <= s < len m -> is_object (at_ m s) = true -> is_object (at_ m d) = true ->
  copy_to (m, lost) d s = Ok (setc m d (at_ m s), lost).
Proof. intros D S O1 O2. unfold copy_to. rewrite !obj_ok by auto. reflexivity. Qed.
Lemma destroy_at_ok m lost i : 0 <= i < len m -> is_object (at_ m i) = true -> destroy_at (m, lost) i = Ok (setc m i Raw, lost).
Proof. intros D O. unfold destroy_at. rewrite obj_ok by auto. reflexivity. Qed.

(** invariant rule for the loop *)
Lemma for_n_inv (P : Z -> objs -> Prop) n f st : 0 <= n -> P 0 st ->
  (forall i st, 0 <= i < n -> P i st -> exists st', f i st = Ok st' /\ P (i + 1) st') ->
  exists st', for_n n f st = Ok st' /\ P n st'.
Proof.
  intros N P0 H. unfold for_n.
  assert (forall k : nat, Z.of_nat k <= n -> exists st', loop k f st = Ok st' /\ P (Z.of_nat k) st') as G.
  { induction k as [|k IH]; intros K; cbn [loop].
    - exists st. split; [reflexivity|exact P0].
    - destruct IH as [s1 [E1 P1]]; [lia|]. rewrite E1. cbn [bind].
      destruct (H (Z.of_nat k) s1) as [s2 [E2 P2]]; [lia|exact P1|].
      exists s2. split; [exact E2|]. replace (Z.of_nat (Datatypes.S k)) with (Z.of_nat k + 1) by lia. exact P2. }
  destruct (G (Z.to_nat n)) as [s' [E P']]; [lia|]. exists s'. split; [exact E|]. rewrite Z2Nat.id in P' by lia. exact P'.
Qed.

Ltac setc_solve :=
  repeat match goal with
  | |- context [at_ (setc _ _ _) _] => rewrite at_setc by (rewrite ?len_setc; lia)
  end.

(** make_room forwards: the target has no objects *)
Lemma make_room_far m buf n room : 0 <= buf -> 0 <= n -> n <= room -> buf + n + room <= len m ->
  objects m buf n -> raw m (buf + room) n ->
  exists m', make_room (m, []) buf n room = Ok (m', []) /\
    changed m m' (fun j => if range (buf + room) n j then at_ m (j - room) else if range buf n j then Moved else at_ m j).
Proof.
  intros B N R L O W. unfold make_room, assert. replace ((0 <=? n) && (0 <=? room)) with true by lia.
  replace (n <=? room) with true by lia.
  destruct (for_n_inv (fun k st => snd st = [] /\ changed m (fst st)
     (fun j => if range (buf + room) k j then at_ m (j - room) else if range buf k j then Moved else at_ m j)) n
     (fun i st => new_move st (buf + (i + room)) (buf + i)) (m, [])) as [[m' l'] [E [H1 H2]]]; [lia| | |].
  - split; [reflexivity|]. split; [reflexivity|]. intros j J. unfold range. cbn [fst].
    replace (_ && _) with false by lia. replace ((buf <=? j) && _) with false by lia. reflexivity.
  - intros i [m1 l1] I [H1 [H2 H3]]. cbn [fst snd] in *. subst l1.
    assert (at_ m1 (buf + i) = at_ m (buf + i)) as X1.
    { rewrite H3 by lia. unfold range. replace (_ && _) with false by lia. replace ((buf <=? _) && _) with false by lia. reflexivity. }
    assert (at_ m1 (buf + (i + room)) = Raw) as X2.
    { rewrite H3 by lia. unfold range. replace (_ && _) with false by lia. replace ((buf <=? _) && _) with false by lia. apply W. lia. }
    rewrite new_move_ok; [|lia|lia|lia|rewrite X1; apply O; lia]. rewrite X1, X2. eexists. split; [reflexivity|].
    cbn [fst snd is_object]. split; [reflexivity|]. split; [rewrite !len_setc; lia|]. intros j J. setc_solve.
    destruct (j =? buf + i) eqn:J1.
    + unfold range. replace (_ && _) with false by lia. replace ((buf <=? j) && _) with true by lia. reflexivity.
    + destruct (j =? buf + (i + room)) eqn:J2.
      * unfold range. replace (_ && _) with true by lia. f_equal. lia.
      * rewrite H3 by lia. unfold range.
        replace ((buf + room <=? j) && (j <? buf + room + (i + 1))) with ((buf + room <=? j) && (j <? buf + room + i)) by lia.
        replace ((buf <=? j) && (j <? buf + (i + 1))) with ((buf <=? j) && (j <? buf + i)) by lia. reflexivity.
  - cbn [fst snd] in *. subst l'. exists m'. split; [exact E|exact H2].
Qed.
(** backwards: objects already moved from are overwritten *)
Lemma repeat_snoc {A} (x : A) n : repeat x n ++ [x] = repeat x (Datatypes.S n).
Proof. induction n; cbn; [reflexivity|]. rewrite IHn. reflexivity. Qed.
Lemma make_room_near m buf n room : 0 <= buf -> 0 < room < n -> buf + n + room <= len m ->
  objects m buf n -> raw m (buf + n) room ->
  exists m', make_room (m, []) buf n room = Ok (m', repeat Moved (Z.to_nat (n - room))) /\
    changed m m' (fun j => if range (buf + room) n j then at_ m (j - room) else if range buf room j then Moved else at_ m j).
Proof.
  intros B R L O W. unfold make_room, assert. replace ((0 <=? n) && (0 <=? room)) with true by lia.
  replace (n <=? room) with false by lia.
  destruct (for_n_inv (fun k st => snd st = repeat Moved (Z.to_nat (k - room)) /\ changed m (fst st)
     (fun j => if range (buf + room + (n - k)) k j then at_ m (j - room) else if range (buf + (n - k)) k j then Moved else at_ m j)) n
     (fun i st => new_move st (buf + (n - 1 - i + room)) (buf + (n - 1 - i))) (m, [])) as [[m' l'] [E [H1 H2]]]; [lia| | |].
  - split; [replace (Z.to_nat (0 - room)) with 0%nat by lia; reflexivity|]. split; [reflexivity|]. intros j J. unfold range. cbn [fst].
    replace (_ && _) with false by lia. replace ((buf + _ <=? j) && _) with false by lia. reflexivity.
  - intros i [m1 l1] I [H1 [H2 H3]]. cbn [fst snd] in *. subst l1.
    assert (at_ m1 (buf + (n - 1 - i)) = at_ m (buf + (n - 1 - i))) as X1.
    { rewrite H3 by lia. unfold range. replace (_ && _) with false by lia. replace ((buf + (n - i) <=? _) && _) with false by lia. reflexivity. }
    assert (at_ m1 (buf + (n - 1 - i + room)) = if i <? room then Raw else Moved) as X2.
    { rewrite H3 by lia. unfold range. replace (_ && _) with false by lia. destruct (i <? room) eqn:IR.
      - replace ((buf + (n - i) <=? _) && _) with false by lia. apply W. lia.
      - replace ((buf + (n - i) <=? _) && _) with true by lia. reflexivity. }
    rewrite new_move_ok; [|lia|lia|lia|rewrite X1; apply O; lia]. rewrite X1, X2. eexists. split; [reflexivity|].
    cbn [fst snd]. split.
    { destruct (i <? room) eqn:IR; cbn [is_object].
      - replace (Z.to_nat (i - room)) with 0%nat by lia. replace (Z.to_nat (i + 1 - room)) with 0%nat by lia. reflexivity.
      - replace (Z.to_nat (i + 1 - room)) with (Datatypes.S (Z.to_nat (i - room))) by lia. apply repeat_snoc. }
    split; [rewrite !len_setc; lia|]. intros j J. setc_solve.
    destruct (j =? buf + (n - 1 - i)) eqn:J1.
    + unfold range. replace (_ && _) with false by lia. replace ((buf + _ <=? j) && _) with true by lia. reflexivity.
    + destruct (j =? buf + (n - 1 - i + room)) eqn:J2.
      * unfold range. replace (_ && _) with true by lia. f_equal. lia.
      * rewrite H3 by lia. unfold range.
        replace ((buf + room + (n - (i + 1)) <=? j) && (j <? buf + room + (n - (i + 1)) + (i + 1))) with ((buf + room + (n - i) <=? j) && (j <? buf + room + (n - i) + i)) by lia.
        replace ((buf + (n - (i + 1)) <=? j) && (j <? buf + (n - (i + 1)) + (i + 1))) with ((buf + (n - i) <=? j) && (j <? buf + (n - i) + i)) by lia. reflexivity.
  - cbn [fst snd] in *. subst l'. exists m'. split; [exact E|]. destruct H2 as [H2 H3]. split; [exact H2|].
    intros j J. rewrite H3 by lia. unfold range.
    replace ((buf + room + (n - n) <=? j) && (j <? buf + room + (n - n) + n)) with ((buf + room <=? j) && (j <? buf + room + n)) by lia.
    destruct ((buf + room <=? j) && (j <? buf + room + n)) eqn:X; [reflexivity|].
    replace ((buf + (n - n) <=? j) && (j <? buf + (n - n) + n)) with ((buf <=? j) && (j <? buf + room)) by lia. reflexivity.
Qed.

(** destroy_room *)
Lemma destroy_room_some m lost buf n room : 0 <= buf -> 0 < room < n -> buf + n <= len m -> objects m buf n ->
  exists m', destroy_room (m, lost) buf n room = Ok (m', lost) /\
    changed m m' (fun j => if range buf (n - room) j then at_ m (j + room) else if range (buf + room) (n - room) j then Moved else at_ m j).
Proof.
  intros B R L O. unfold destroy_room, assert. replace ((0 <=? n) && (0 <=? room)) with true by lia.
  replace (room <=? n) with true by lia. replace (room <? n) with true by lia.
  destruct (for_n_inv (fun k st => snd st = lost /\ changed m (fst st)
     (fun j => if range buf k j then at_ m (j + room) else if range (buf + room) k j then Moved else at_ m j)) (n - room)
     (fun i st => move_to st (buf + i) (buf + (i + room))) (m, lost)) as [[m' l'] [E [H1 H2]]]; [lia| | |].
  - split; [reflexivity|]. split; [reflexivity|]. intros j J. unfold range. cbn [fst].
    replace (_ && _) with false by lia. replace ((buf + room <=? j) && _) with false by lia. reflexivity.
  - intros i [m1 l1] I [H1 [H2 H3]]. cbn [fst snd] in *. subst l1.
    assert (at_ m1 (buf + (i + room)) = at_ m (buf + (i + room))) as X1.
    { rewrite H3 by lia. unfold range. replace (_ && _) with false by lia. replace ((buf + room <=? _) && _) with false by lia. reflexivity. }
    assert (is_object (at_ m1 (buf + i)) = true) as X2.
    { rewrite H3 by lia. unfold range. replace (_ && _) with false by lia. destruct (_ && _); [reflexivity|]. apply O. lia. }
    rewrite move_to_ok; [|lia|lia|rewrite X1; apply O; lia|exact X2]. rewrite X1. eexists. split; [reflexivity|].
    cbn [fst snd]. split; [reflexivity|]. split; [rewrite !len_setc; lia|]. intros j J. setc_solve.
    destruct (j =? buf + (i + room)) eqn:J1.
    + unfold range. replace (_ && _) with false by lia. replace ((buf + room <=? j) && _) with true by lia. reflexivity.
    + destruct (j =? buf + i) eqn:J2.
      * unfold range. replace (_ && _) with true by lia. f_equal. lia.
      * rewrite H3 by lia. unfold range.
        replace ((buf + room <=? j) && (j <? buf + room + (i + 1))) with ((buf + room <=? j) && (j <? buf + room + i)) by lia.
        replace ((buf <=? j) && (j <? buf + (i + 1))) with ((buf <=? j) && (j <? buf + i)) by lia. reflexivity.
  - cbn [fst snd] in *. subst l'. exists m'. split; [exact E|exact H2].
Qed.
Lemma destroy_n_ok m lost buf n : 0 <= buf -> 0 <= n -> buf + n <= len m -> objects m buf n ->
  exists m', destroy_n (m, lost) buf n = Ok (m', lost) /\ changed m m' (fun j => if range buf n j then Raw else at_ m j).
Proof.
  intros B N L O. unfold destroy_n.
  destruct (for_n_inv (fun k st => snd st = lost /\ changed m (fst st) (fun j => if range buf k j then Raw else at_ m j)) n
     (fun i st => destroy_at st (buf + i)) (m, lost)) as [[m' l'] [E [H1 H2]]]; [lia| | |].
  - split; [reflexivity|]. split; [reflexivity|]. intros j J. unfold range. cbn [fst]. replace (_ && _) with false by lia. reflexivity.
  - intros i [m1 l1] I [H1 [H2 H3]]. cbn [fst snd] in *. subst l1.
    rewrite destroy_at_ok; [|lia|].
    2: { rewrite H3 by lia. unfold range. replace (_ && _) with false by lia. apply O. lia. }
    eexists. split; [reflexivity|]. cbn [fst snd]. split; [reflexivity|]. split; [rewrite !len_setc; lia|]. intros j J. setc_solve.
    destruct (j =? buf + i) eqn:J1.
    + unfold range. replace (_ && _) with true by lia. reflexivity.
    + rewrite H3 by lia. unfold range. replace ((buf <=? j) && (j <? buf + (i + 1))) with ((buf <=? j) && (j <? buf + i)) by lia. reflexivity.
  - cbn [fst snd] in *. subst l'. exists m'. split; [exact E|exact H2].
Qed.
Lemma destroy_room_all m lost buf n : 0 <= buf -> 0 <= n -> buf + n <= len m -> objects m buf n ->
  exists m', destroy_room (m, lost) buf n n = Ok (m', lost) /\ changed m m' (fun j => if range buf n j then Raw else at_ m j).
Proof.
  intros B N L O. unfold destroy_room, assert. replace ((0 <=? n) && (0 <=? n)) with true by lia.
  replace (n <=? n) with true by lia. replace (n <? n) with false by lia. apply destroy_n_ok; auto.
Qed.

(** copies into another range *)
Lemma copy_loop m lost d s n : within m d n -> within m s n -> 0 <= n -> apart_ranges d n s n ->
  objects m s n -> raw m d n ->
  exists m', for_n n (fun i st => new_copy st (d + i) (s + i)) (m, lost) = Ok (m', lost) /\
    changed m m' (fun j => if range d n j then at_ m (j - d + s) else at_ m j).
Proof.
  intros [D1 D2] [S1 S2] N A O W. unfold apart_ranges in A.
  destruct (for_n_inv (fun k st => snd st = lost /\ changed m (fst st) (fun j => if range d k j then at_ m (j - d + s) else at_ m j)) n
     (fun i st => new_copy st (d + i) (s + i)) (m, lost)) as [[m' l'] [E [H1 H2]]]; [lia| | |].
  - split; [reflexivity|]. split; [reflexivity|]. intros j J. unfold range. cbn [fst]. replace (_ && _) with false by lia. reflexivity.
  - intros i [m1 l1] I [H1 [H2 H3]]. cbn [fst snd] in *. subst l1.
    assert (at_ m1 (s + i) = at_ m (s + i)) as X1.
    { rewrite H3 by lia. unfold range. replace (_ && _) with false by lia. reflexivity. }
    assert (at_ m1 (d + i) = Raw) as X2.
    { rewrite H3 by lia. unfold range. replace (_ && _) with false by lia. apply W. lia. }
    rewrite new_copy_ok; [|lia|lia|lia|rewrite X1; apply O; lia]. rewrite X1, X2. eexists. split; [reflexivity|].
    cbn [fst snd is_object]. split; [reflexivity|]. split; [rewrite !len_setc; lia|]. intros j J. setc_solve.
    destruct (j =? d + i) eqn:J1.
    + unfold range. replace (_ && _) with true by lia. f_equal. lia.
    + rewrite H3 by lia. unfold range. replace ((d <=? j) && (j <? d + (i + 1))) with ((d <=? j) && (j <? d + i)) by lia. reflexivity.
  - cbn [fst snd] in *. subst l'. exists m'. split; [exact E|exact H2].
Qed.
Lemma make_room2_ok m lost dst src n room pos :
  0 <= n -> 0 <= room -> 0 <= pos -> pos < n \/ (pos = 0 /\ n = 0) ->
  within m dst (n + room) -> within m src n -> apart_ranges dst (n + room) src n ->
  objects m src n -> raw m dst (n + room) ->
  exists m', make_room2 (m, lost) dst src n room pos = Ok (m', lost) /\
    changed m m' (fun j => if range dst pos j then at_ m (j - dst + src)
      else if range (dst + pos + room) (n - pos) j then at_ m (j - room - dst + src) else at_ m j).
Proof.
  intros N R P PN [D1 D2] [S1 S2] A O W. unfold make_room2, assert.
  replace ((0 <=? n) && (0 <=? room) && (0 <=? pos)) with true by lia.
  replace ((pos <? n) || ((pos =? 0) && (n =? 0))) with true by lia.
  unfold apart_ranges in *.
  destruct (copy_loop m lost dst src pos) as [m1 [E1 [L1 H1]]]; [split; lia|split; lia|lia|unfold apart_ranges; lia|intros j J; apply O; lia|intros j J; apply W; lia|].
  rewrite E1. cbn [bind].
  destruct (copy_loop m1 lost (dst + (room + pos)) (src + pos) (n - pos)) as [m2 [E2 [L2 H2]]]; [split; lia|split; lia|lia|unfold apart_ranges; lia| | |].
  - intros j J. rewrite H1 by lia. unfold range. replace (_ && _) with false by lia. apply O. lia.
  - intros j J. rewrite H1 by lia. unfold range. replace (_ && _) with false by lia. apply W. lia.
  - exists m2. split; [exact E2|]. split; [lia|]. intros j J. rewrite H2 by lia. unfold range.
    destruct ((dst + (room + pos) <=? j) && (j <? dst + (room + pos) + (n - pos))) eqn:E.
    + rewrite H1 by lia. unfold range. replace ((dst <=? _) && _) with false by lia.
      replace ((dst <=? j) && (j <? dst + pos)) with false by lia.
      replace ((dst + pos + room <=? j) && (j <? dst + pos + room + (n - pos))) with true by lia. f_equal. lia.
    + rewrite H1 by lia. unfold range. destruct ((dst <=? j) && (j <? dst + pos)); [reflexivity|].
      replace ((dst + pos + room <=? j) && (j <? dst + pos + room + (n - pos))) with false by lia. reflexivity.
Qed.
Lemma destroy_room2_ok m lost dst src n room pos :
  0 <= room -> 0 <= pos < n -> pos + room <= n ->
  within m dst (n - room) -> within m src n -> apart_ranges dst (n - room) src n ->
  objects m src n -> raw m dst (n - room) ->
  exists m', destroy_room2 (m, lost) dst src n room pos = Ok (m', lost) /\
    changed m m' (fun j => if range dst pos j then at_ m (j - dst + src)
      else if range (dst + pos) (n - room - pos) j then at_ m (j + room - dst + src) else at_ m j).
Proof.
  intros R P PN [D1 D2] [S1 S2] A O W. unfold destroy_room2, assert.
  replace ((0 <=? n) && (0 <=? room) && (0 <=? pos)) with true by lia.
  replace (pos <? n) with true by lia. replace (pos + room <=? n) with true by lia.
  unfold apart_ranges in *.
  destruct (copy_loop m lost dst src pos) as [m1 [E1 [L1 H1]]]; [split; lia|split; lia|lia|unfold apart_ranges; lia|intros j J; apply O; lia|intros j J; apply W; lia|].
  rewrite E1. cbn [bind].
  destruct (copy_loop m1 lost (dst + pos) (src + (room + pos)) (n - pos - room)) as [m2 [E2 [L2 H2]]]; [split; lia|split; lia|lia|unfold apart_ranges; lia| | |].
  - intros j J. rewrite H1 by lia. unfold range. replace (_ && _) with false by lia. apply O. lia.
  - intros j J. rewrite H1 by lia. unfold range. replace (_ && _) with false by lia. apply W. lia.
  - exists m2. split; [exact E2|]. split; [lia|]. intros j J. rewrite H2 by lia. unfold range.
    destruct ((dst + pos <=? j) && (j <? dst + pos + (n - pos - room))) eqn:E.
    + rewrite H1 by lia. unfold range. replace ((dst <=? _) && _) with false by lia.
      replace ((dst <=? j) && (j <? dst + pos)) with false by lia.
      replace ((dst + pos <=? j) && (j <? dst + pos + (n - room - pos))) with true by lia. f_equal. lia.
    + rewrite H1 by lia. unfold range. destruct ((dst <=? j) && (j <? dst + pos)); [reflexivity|].
      replace ((dst + pos <=? j) && (j <? dst + pos + (n - room - pos))) with false by lia. reflexivity.
Qed.
