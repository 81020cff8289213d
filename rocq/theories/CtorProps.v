(** C67, C68, C81: construction, destruction, make_room and destroy_room. *)
From Verif Require Import Base SubstrModel MemUtilModel MemResModel CtorModel CtorSpec CtorProofs CtorProofs2.

(** ** C67: make_room and destroy_room shift values *)
Theorem C67_make_room : forall m buf n room, 0 <= buf -> 0 <= n -> 0 <= room -> buf + n + room <= len m ->
  exists m', make_room_t m buf n room = Ok m' /\ len m' = len m /\
    forall j, 0 <= j -> nth (Z.to_nat j) m' 0 = if range (buf + room) n j then nth (Z.to_nat (j - room)) m 0 else nth (Z.to_nat j) m 0.
Proof. exact make_room_t_chg. Qed.
Theorem C67_make_room_pos : forall t m buf bufsz currsz pos room, 0 <= pos <= currsz -> 0 <= room -> room + currsz <= bufsz ->
  in_range t bufsz -> within m buf bufsz ->
  exists m', make_room_pos_t t m buf bufsz currsz pos room = Ok m' /\ len m' = len m /\
    forall j, 0 <= j -> nth (Z.to_nat j) m' 0 = if range (buf + pos + room) (currsz - pos) j then nth (Z.to_nat (j - room)) m 0 else nth (Z.to_nat j) m 0.
Proof. exact make_room_pos_t_chg. Qed.
Theorem C67_destroy_room : forall m buf n room, 0 <= buf -> 0 <= room <= n -> buf + n <= len m ->
  exists m', destroy_room_t m buf n room = Ok m' /\ len m' = len m /\
    forall j, 0 <= j -> nth (Z.to_nat j) m' 0 = if range buf (n - room) j then nth (Z.to_nat (j + room)) m 0 else nth (Z.to_nat j) m 0.
Proof. exact destroy_room_t_chg. Qed.
Theorem C67_inverse : forall m buf n room, 0 <= buf -> 0 <= n -> 0 <= room -> buf + n + room <= len m ->
  exists m1 m2, make_room_t m buf n room = Ok m1 /\ destroy_room_t m1 buf (n + room) room = Ok m2 /\
    len m2 = len m /\ forall j, 0 <= j < buf + n -> nth (Z.to_nat j) m2 0 = nth (Z.to_nat j) m 0.
Proof. exact room_inverse_t. Qed.
(** into another buffer *)
Theorem C67_make_room2 : forall t m dst dstsz src srcsz room pos,
  0 <= srcsz -> 0 <= pos -> pos < srcsz \/ (pos = 0 /\ srcsz = 0) -> 0 <= room ->
  srcsz + room <= dstsz -> in_range t dstsz -> within m dst dstsz -> within m src srcsz -> apart_ranges dst dstsz src srcsz ->
  exists m', make_room2_sz_t t m dst dstsz src srcsz room pos = Ok m' /\ len m' = len m /\
    forall j, 0 <= j -> nth (Z.to_nat j) m' 0 =
      if range dst pos j then nth (Z.to_nat (j - dst + src)) m 0
      else if range (dst + pos + room) (srcsz - pos) j then nth (Z.to_nat (j - room - dst + src)) m 0
      else nth (Z.to_nat j) m 0.
Proof. exact make_room2_sz_t_ok. Qed.
Theorem C67_destroy_room2 : forall m dst src n room pos,
  0 <= room -> 0 <= pos < n -> pos + room <= n ->
  within m dst (n - room) -> within m src n -> apart_ranges dst (n - room) src n ->
  exists m', destroy_room2_t m dst src n room pos = Ok m' /\ len m' = len m /\
    forall j, 0 <= j -> nth (Z.to_nat j) m' 0 =
      if range dst pos j then nth (Z.to_nat (j - dst + src)) m 0
      else if range (dst + pos) (n - room - pos) j then nth (Z.to_nat (j + room - dst + src)) m 0
      else nth (Z.to_nat j) m 0.
Proof. exact destroy_room2_t_chg. Qed.
(** the same for objects that are moved *)
Theorem C67_make_room_objects : forall m buf n room, 0 <= buf -> 0 <= n -> 0 < room -> buf + n + room <= len m ->
  objects m buf n -> raw m (buf + n) room ->
  exists m', make_room (m, []) buf n room = Ok (m', repeat Moved (Z.to_nat (n - room))) /\
    changed m m' (fun j => if range (buf + room) n j then at_ m (j - room) else if range buf (Z.min room n) j then Moved else at_ m j).
Proof. exact make_room_any. Qed.
Theorem C67_inverse_objects : forall m buf n room, 0 <= buf -> 0 <= n -> 0 < room -> buf + n + room <= len m ->
  objects m buf n -> raw m (buf + n) room -> forall m1 m2 lost,
  make_room (m, []) buf n room = Ok (m1, lost) ->
  len m2 = len m1 -> objects m2 buf room -> (forall j, buf + room <= j < buf + room + n -> at_ m2 j = at_ m1 j) ->
  0 < n ->
  exists m3, destroy_room (m2, lost) buf (n + room) room = Ok (m3, lost) /\
    forall j, buf <= j < buf + n -> at_ m3 j = at_ m j.
Proof. exact room_inverse. Qed.
(** The checks of the position are exact for 8- and 16-bit sizes. *)
Theorem C67_checks_small : forall A t bufsz currsz pos room (k : res A), (iw t = W8 \/ iw t = W16) ->
  in_range t bufsz -> in_range t currsz -> in_range t room ->
  room_checks t bufsz currsz pos room k =
  if (0 <=? pos) && (pos <=? currsz) && (currsz <=? bufsz) && (room + currsz <=? bufsz) then k else Err.
Proof. exact @room_checks_small. Qed.
(** For 64-bit sizes the sum in the check wraps around (or overflows), and a room that does
    not fit is accepted. *)
Theorem C67_room_wraps_refuted : exists m room, in_range u64t room /\ room > len m /\
  make_room_pos_t u64t m 0 (len m) 2 0 room = Ub /\
  room_checks u64t (len m) 2 0 room (Ok tt) = Ok tt.
Proof.
  exists [1; 2; 3; 4], (2 ^ 64 - 1). split; [split; vm_compute; discriminate|].
  split; [vm_compute; reflexivity|]. split; reflexivity.
Qed.
Theorem C67_room_overflows_refuted : exists room, in_range i64 room /\
  room_checks i64 4 2 0 room (Ok tt) = Ub.
Proof. exists (2 ^ 63 - 1). split; [split; vm_compute; discriminate|reflexivity]. Qed.
(** Room at the end of the source is refused by the version with two buffers (the one with
    one buffer accepts pos == currsz). *)
Theorem C67_end_refuted : forall m dst src n room, 0 < n -> make_room2_t m dst src n room n = Err.
Proof. exact make_room2_end. Qed.
Print Assumptions C67_make_room.
Print Assumptions C67_make_room_pos.
Print Assumptions C67_destroy_room.
Print Assumptions C67_inverse.
Print Assumptions C67_make_room2.
Print Assumptions C67_destroy_room2.
Print Assumptions C67_make_room_objects.
Print Assumptions C67_inverse_objects.
Print Assumptions C67_checks_small.
Print Assumptions C67_room_wraps_refuted.
Print Assumptions C67_room_overflows_refuted.
Print Assumptions C67_end_refuted.
Example C67_ex1 : make_room_t [1; 2; 3; 4; 0; 0; 9] 0 4 2 = Ok [1; 2; 1; 2; 3; 4; 9].
Proof. reflexivity. Qed.
Example C67_ex2 : make_room_pos_t u8t [1; 2; 3; 4; 0; 0; 9] 0 6 4 1 2 = Ok [1; 2; 3; 2; 3; 4; 9].
Proof. reflexivity. Qed.
Example C67_ex3 : destroy_room_t [1; 2; 1; 2; 3; 4; 9] 0 6 2 = Ok [1; 2; 3; 4; 3; 4; 9].
Proof. reflexivity. Qed.
Example C67_ex4 : make_room2_sz_t i32 [1; 2; 3; 0; 0; 0; 0; 0] 3 5 0 3 2 1 = Ok [1; 2; 3; 1; 0; 0; 2; 3].
Proof. reflexivity. Qed.
Example C67_ex5 : destroy_room2_t [1; 2; 3; 4; 0; 0; 0] 4 0 4 2 1 = Ok [1; 2; 3; 4; 1; 4; 0].
Proof. reflexivity. Qed.
Example C67_ex6 : make_room ([Live 1; Live 2; Live 3; Raw; Raw], []) 0 3 2 = Ok ([Moved; Moved; Live 1; Live 2; Live 3], [Moved]).
Proof. reflexivity. Qed.
Example C67_ex7 : make_room_pos_t u8t [1; 2; 3; 4] 0 4 4 1 255 = Err.
Proof. reflexivity. Qed.

(** ** C68: lifetimes *)
(** Whole range moved away: nothing constructed over an object, everything else as it was.
    (The objects moved from are still there, see below.) *)
Theorem C68_make_room_partial : forall m buf n room, 0 <= buf -> 0 <= n -> n <= room -> buf + n + room <= len m ->
  objects m buf n -> raw m (buf + room) n ->
  exists m', make_room (m, []) buf n room = Ok (m', []) /\
    changed m m' (fun j => if range (buf + room) n j then at_ m (j - room) else if range buf n j then Moved else at_ m j).
Proof. exact make_room_far. Qed.
(** Into another buffer: constructed only in raw storage, the source unchanged. *)
Theorem C68_make_room2 : forall m lost dst src n room pos,
  0 <= n -> 0 <= room -> 0 <= pos -> pos < n \/ (pos = 0 /\ n = 0) ->
  within m dst (n + room) -> within m src n -> apart_ranges dst (n + room) src n ->
  objects m src n -> raw m dst (n + room) ->
  exists m', make_room2 (m, lost) dst src n room pos = Ok (m', lost) /\
    changed m m' (fun j => if range dst pos j then at_ m (j - dst + src)
      else if range (dst + pos + room) (n - pos) j then at_ m (j - room - dst + src) else at_ m j).
Proof. exact make_room2_ok. Qed.
Theorem C68_destroy_room2 : forall m lost dst src n room pos,
  0 <= room -> 0 <= pos < n -> pos + room <= n ->
  within m dst (n - room) -> within m src n -> apart_ranges dst (n - room) src n ->
  objects m src n -> raw m dst (n - room) ->
  exists m', destroy_room2 (m, lost) dst src n room pos = Ok (m', lost) /\
    changed m m' (fun j => if range dst pos j then at_ m (j - dst + src)
      else if range (dst + pos) (n - room - pos) j then at_ m (j + room - dst + src) else at_ m j).
Proof. exact destroy_room2_ok. Qed.
Theorem C68_destroy_all : forall m lost buf n, 0 <= buf -> 0 <= n -> buf + n <= len m -> objects m buf n ->
  exists m', destroy_room (m, lost) buf n n = Ok (m', lost) /\ changed m m' (fun j => if range buf n j then Raw else at_ m j).
Proof. exact destroy_room_all. Qed.
(** Whenever less room is made than there are elements, objects are constructed over
    [n - room] objects moved from, which are never destroyed. *)
Theorem C68_overwrites_refuted : forall m buf n room, 0 <= buf -> 0 < room < n -> buf + n + room <= len m ->
  objects m buf n -> raw m (buf + n) room ->
  exists m', make_room (m, []) buf n room = Ok (m', repeat Moved (Z.to_nat (n - room))) /\
    changed m m' (fun j => if range (buf + room) n j then at_ m (j - room) else if range buf room j then Moved else at_ m j).
Proof. exact make_room_near. Qed.
(** Making no room of a non-empty range constructs each object from itself. *)
Theorem C68_no_room_refuted : forall m lost buf n, 0 < n -> make_room (m, lost) buf n 0 = Ub.
Proof. exact make_room_zero. Qed.
(** Removing a part destroys nothing: all [n] objects are still there. *)
Theorem C68_destroys_nothing_refuted : forall m lost buf n room, 0 <= buf -> 0 < room < n -> buf + n <= len m -> objects m buf n ->
  exists m', destroy_room (m, lost) buf n room = Ok (m', lost) /\
    (forall j, buf <= j < buf + (n - room) -> at_ m' j = at_ m (j + room)) /\ objects m' (buf + (n - room)) room.
Proof. exact destroy_room_leaves. Qed.
Theorem C68_destroy_room : forall m lost buf n room, 0 <= buf -> 0 < room < n -> buf + n <= len m -> objects m buf n ->
  exists m', destroy_room (m, lost) buf n room = Ok (m', lost) /\
    changed m m' (fun j => if range buf (n - room) j then at_ m (j + room) else if range (buf + room) (n - room) j then Moved else at_ m j).
Proof. exact destroy_room_some. Qed.
(** Removing nothing moves each object to itself. *)
Theorem C68_destroy_nothing_refuted : forall m lost buf n, 0 <= buf -> 0 < n -> buf + n <= len m -> objects m buf n ->
  exists m', destroy_room (m, lost) buf n 0 = Ok (m', lost) /\ changed m m' (fun j => if range buf n j then Moved else at_ m j).
Proof. exact destroy_room_zero. Qed.
(** the versions with a position and the sizes of the buffers *)
Theorem C68_make_room_pos_partial : forall t m buf bufsz currsz pos room, 0 <= pos <= currsz -> currsz - pos <= room -> room + currsz <= bufsz -> in_range t bufsz ->
  within m buf bufsz -> objects m (buf + pos) (currsz - pos) -> raw m (buf + pos + room) (currsz - pos) ->
  exists m', make_room_pos t (m, []) buf bufsz currsz pos room = Ok (m', []) /\
    changed m m' (fun j => if range (buf + pos + room) (currsz - pos) j then at_ m (j - room) else if range (buf + pos) (currsz - pos) j then Moved else at_ m j).
Proof.
  intros t m buf bufsz currsz pos room P R F I [W1 W2] O RW. unfold make_room_pos. rewrite room_checks_ok by (auto; lia). apply make_room_far; auto; lia.
Qed.
Print Assumptions C68_make_room_pos_partial.
Theorem C68_make_room2_sz : forall t m lost dst dstsz src srcsz room pos, 0 <= srcsz -> 0 <= pos -> pos < srcsz \/ (pos = 0 /\ srcsz = 0) -> 0 <= room ->
  srcsz + room <= dstsz -> in_range t dstsz -> within m dst dstsz -> within m src srcsz -> apart_ranges dst (srcsz + room) src srcsz ->
  objects m src srcsz -> raw m dst (srcsz + room) ->
  exists m', make_room2_sz t (m, lost) dst dstsz src srcsz room pos = Ok (m', lost) /\
    changed m m' (fun j => if range dst pos j then at_ m (j - dst + src)
      else if range (dst + pos + room) (srcsz - pos) j then at_ m (j - room - dst + src) else at_ m j).
Proof.
  intros t m lost dst dstsz src srcsz room pos N P PS R0 R I [W1 W2] S A O RW. unfold make_room2_sz. rewrite room2_checks_ok by auto.
  apply make_room2_ok; auto. split; lia.
Qed.
Print Assumptions C68_make_room2_sz.
Print Assumptions C68_make_room_partial.
Print Assumptions C68_make_room2.
Print Assumptions C68_destroy_room2.
Print Assumptions C68_destroy_all.
Print Assumptions C68_overwrites_refuted.
Print Assumptions C68_no_room_refuted.
Print Assumptions C68_destroys_nothing_refuted.
Print Assumptions C68_destroy_room.
Print Assumptions C68_destroy_nothing_refuted.
Example C68_ex1 : make_room ([Live 1; Live 2; Raw; Raw; Raw], []) 0 2 3 = Ok ([Moved; Moved; Raw; Live 1; Live 2], []).
Proof. reflexivity. Qed.
Example C68_ex2 : make_room2 ([Live 1; Live 2; Live 3; Raw; Raw; Raw; Raw], []) 3 0 3 1 1 =
  Ok ([Live 1; Live 2; Live 3; Live 1; Raw; Live 2; Live 3], []).
Proof. reflexivity. Qed.
Example C68_ex3 : destroy_room2 ([Live 1; Live 2; Live 3; Raw; Raw], []) 3 0 3 1 1 = Ok ([Live 1; Live 2; Live 3; Live 1; Live 3], []).
Proof. reflexivity. Qed.
Example C68_ex4 : destroy_room ([Live 1; Live 2; Live 3], []) 0 3 1 = Ok ([Live 2; Live 3; Moved], []).
Proof. reflexivity. Qed.
(** more removed than remains: an element that should be gone is alive *)
Example C68_ex5 : destroy_room ([Live 1; Live 2; Live 3; Live 4], []) 0 4 3 = Ok ([Live 4; Live 2; Live 3; Moved], []).
Proof. reflexivity. Qed.
Example C68_ex6 : destroy_room ([Live 1; Live 2; Live 3], []) 0 3 3 = Ok ([Raw; Raw; Raw], []).
Proof. reflexivity. Qed.

(** ** C81: construct_n, copy_*_n, move_*_n, destroy_n *)
Theorem C81_construct_n : forall m lost p n v, within m p n -> 0 <= n -> raw m p n ->
  exists m', construct_n (m, lost) p n v = Ok (m', lost) /\ changed m m' (fun j => if range p n j then Live v else at_ m j).
Proof. exact construct_n_ok. Qed.
Theorem C81_copy_construct_n : forall m lost d s n, within m d n -> within m s n -> 0 < n -> apart_ranges d n s n ->
  objects m s n -> raw m d n ->
  exists m', copy_construct_n (m, lost) d s n = Ok (m', lost) /\
    changed m m' (fun j => if range d n j then at_ m (j - d + s) else at_ m j).
Proof. exact copy_construct_n_ok. Qed.
Theorem C81_copy_construct_value : forall m lost d s n, within m d n -> within m s 1 -> 0 < n -> apart_ranges d n s 1 ->
  objects m s 1 -> raw m d n ->
  exists m', copy_construct_ref_n (m, lost) d s n = Ok (m', lost) /\
    changed m m' (fun j => if range d n j then at_ m s else at_ m j).
Proof. exact copy_construct_ref_ok. Qed.
Theorem C81_copy_assign_n : forall m lost d s n, within m d n -> within m s n -> 0 < n -> apart_ranges d n s n ->
  objects m s n -> objects m d n ->
  exists m', copy_assign_n (m, lost) d s n = Ok (m', lost) /\
    changed m m' (fun j => if range d n j then at_ m (j - d + s) else at_ m j).
Proof. exact copy_assign_n_ok. Qed.
Theorem C81_move_construct_n : forall m lost d s n, within m d n -> within m s n -> 0 < n -> apart_ranges d n s n ->
  objects m s n -> raw m d n ->
  exists m', move_construct_n (m, lost) d s n = Ok (m', lost) /\
    changed m m' (fun j => if range d n j then at_ m (j - d + s) else if range s n j then Moved else at_ m j).
Proof. exact move_construct_n_ok. Qed.
Theorem C81_move_assign_n : forall m lost d s n, within m d n -> within m s n -> 0 < n -> apart_ranges d n s n ->
  objects m s n -> objects m d n ->
  exists m', move_assign_n (m, lost) d s n = Ok (m', lost) /\
    changed m m' (fun j => if range d n j then at_ m (j - d + s) else if range s n j then Moved else at_ m j).
Proof. exact move_assign_n_ok. Qed.
Theorem C81_destroy_n : forall m lost buf n, 0 <= buf -> 0 <= n -> buf + n <= len m -> objects m buf n ->
  exists m', destroy_n (m, lost) buf n = Ok (m', lost) /\ changed m m' (fun j => if range buf n j then Raw else at_ m j).
Proof. exact destroy_n_ok. Qed.
(** only objects can be destroyed *)
Lemma destroy_only m lost buf k : forall st, 0 <= buf -> loop k (fun i st => destroy_at st (buf + i)) (m, lost) = Ok st ->
  (k = O \/ buf + Z.of_nat k <= len m) /\ objects m buf (Z.of_nat k).
Proof.
  induction k as [|k IH]; intros st B E.
  - split; [left; reflexivity|]. intros j J. lia.
  - cbn [loop] in E. destruct (loop k _ _) as [st1| |] eqn:E1; try discriminate E. cbn [bind] in E.
    destruct (IH _ B eq_refl) as [L O].
    assert (H : exists m1, st1 = (m1, lost) /\ changed m m1 (fun j => if range buf (Z.of_nat k) j then Raw else at_ m j)).
    { destruct L as [->|L].
      - cbn [loop] in E1. inversion E1; subst. exists m. split; [reflexivity|]. split; [reflexivity|]. intros j J. unfold range. replace (_ && _) with false by lia. reflexivity.
      - destruct (destroy_n_ok m lost buf (Z.of_nat k) B ltac:(lia) L O) as (m1 & D & C). unfold destroy_n, for_n in D. rewrite Nat2Z.id in D. rewrite E1 in D.
        inversion D; subst. exists m1. split; [reflexivity|exact C]. }
    destruct H as (m1 & -> & LM & C). unfold destroy_at, obj, rdc in E.
    destruct ((0 <=? buf + Z.of_nat k) && (buf + Z.of_nat k <? len m1)) eqn:R; cbn [bind] in E; [|discriminate E].
    assert (V : is_object (at_ m (buf + Z.of_nat k)) = true).
    { specialize (C (buf + Z.of_nat k) ltac:(lia)). unfold range in C. replace (_ && _) with false in C by lia. rewrite <- C. unfold at_.
      destruct (nth (Z.to_nat (buf + Z.of_nat k)) m1 Raw); [discriminate E|reflexivity..]. }
    split; [right; lia|]. intros j J. destruct (Z.eq_dec j (buf + Z.of_nat k)) as [->|Q]; [exact V|]. apply O. lia.
Qed.
Theorem C81_destroy_only : forall m lost buf n st, 0 <= buf -> 0 < n -> destroy_n (m, lost) buf n = Ok st ->
  buf + n <= len m /\ objects m buf n.
Proof.
  intros m lost buf n st B N E. destruct (destroy_only m lost buf (Z.to_nat n) st B E) as [[L|L] O]; [lia|]. rewrite Z2Nat.id in * by lia. split; assumption.
Qed.
Theorem C81_trivial_copy : forall m d s n, within m d n -> within m s n -> 0 < n -> apart_ranges d n s n ->
  exists m', copy_n_t m d s n = Ok m' /\ len m' = len m /\
    forall j, 0 <= j -> nth (Z.to_nat j) m' 0 = if range d n j then nth (Z.to_nat (j - d + s)) m 0 else nth (Z.to_nat j) m 0.
Proof. exact copy_n_t_ok. Qed.
Theorem C81_trivial_construct : forall m p n, within m p n -> 0 <= n ->
  exists m', construct_n_t m p n = Ok m' /\ len m' = len m /\
    forall j, 0 <= j -> nth (Z.to_nat j) m' 0 = if range p n j then 0 else nth (Z.to_nat j) m 0.
Proof. exact construct_n_t_ok. Qed.
(** The assertion compares only the first addresses. Overlapping ranges get past it, and so
    does a value inside the range to be filled. An empty copy from a range to itself does not. *)
Theorem C81_overlap_refuted : copy_n_t [1; 2; 3] 1 0 2 = Ub /\
  copy_construct_ref_n ([Raw; Live 7; Raw], []) 0 1 3 = Ub /\
  copy_construct_n ([Live 1; Live 2; Raw], []) 1 0 2 = Ok ([Live 1; Live 1; Live 1], [Live 2]) /\
  copy_n_t [1; 2; 3] 1 1 0 = Err.
Proof. repeat split; reflexivity. Qed.
Print Assumptions C81_construct_n.
Print Assumptions C81_copy_construct_n.
Print Assumptions C81_copy_construct_value.
Print Assumptions C81_copy_assign_n.
Print Assumptions C81_move_construct_n.
Print Assumptions C81_move_assign_n.
Print Assumptions C81_destroy_n.
Print Assumptions C81_destroy_only.
Print Assumptions C81_trivial_copy.
Print Assumptions C81_trivial_construct.
Print Assumptions C81_overlap_refuted.
Example C81_ex1 : construct_n ([Raw; Raw; Raw], []) 1 2 5 = Ok ([Raw; Live 5; Live 5], []).
Proof. reflexivity. Qed.
Example C81_ex2 : copy_construct_n ([Live 1; Live 2; Raw; Raw], []) 2 0 2 = Ok ([Live 1; Live 2; Live 1; Live 2], []).
Proof. reflexivity. Qed.
Example C81_ex3 : move_construct_n ([Live 1; Live 2; Raw; Raw], []) 2 0 2 = Ok ([Moved; Moved; Live 1; Live 2], []).
Proof. reflexivity. Qed.
Example C81_ex4 : move_assign_n ([Live 1; Live 2; Live 3; Moved], []) 2 0 2 = Ok ([Moved; Moved; Live 1; Live 2], []).
Proof. reflexivity. Qed.
Example C81_ex5 : copy_assign_n ([Live 1; Live 2; Live 3; Moved], []) 2 0 2 = Ok ([Live 1; Live 2; Live 1; Live 2], []).
Proof. reflexivity. Qed.
Example C81_ex6 : destroy_n ([Live 1; Live 2; Raw], []) 0 2 = Ok ([Raw; Raw; Raw], []) /\ destroy_n ([Live 1; Raw], []) 0 2 = Ub.
Proof. split; reflexivity. Qed.
Example C81_ex7 : construct_n_t [1; 2; 3] 1 2 = Ok [1; 0; 0] /\ copy_n_t [1; 2; 3; 4] 2 0 2 = Ok [1; 2; 1; 2].
Proof. split; reflexivity. Qed.
Example C81_ex8 : copy_construct_ref_n ([Live 7; Raw; Raw], []) 1 0 2 = Ok ([Live 7; Live 7; Live 7], []).
Proof. reflexivity. Qed.
