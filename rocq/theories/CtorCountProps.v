(** C120: the count of elements of the bytewise versions, and mem_zero. *)
From Verif Require Import Base BaseLemmas SubstrModel MemUtilModel CtorModel CtorSpec CtorProofs CtorProofs2 CtorCountModel.

(** all but [k] bytes from [p] on are the same, and those are zero *)
Definition zeroed (m m' : list Z) (p k : Z) : Prop :=
  len m' = len m /\ forall j, 0 <= j -> nth (Z.to_nat j) m' 0 = if range p k j then 0 else nth (Z.to_nat j) m 0.
Definition copied (m m' : list Z) (d s k : Z) : Prop :=
  len m' = len m /\ forall j, 0 <= j -> nth (Z.to_nat j) m' 0 = if range d k j then nth (Z.to_nat (j - d + s)) m 0 else nth (Z.to_nat j) m 0.

Lemma memset0_ok m p k : within m p k -> 0 <= k -> exists m', memset0 m p k = Ok m' /\ zeroed m m' p k.
Proof. exact (construct_n_t_ok m p k). Qed.
Lemma memset0_big m p k : 0 <= p -> len m < k -> memset0 m p k = Ub.
Proof.
  intros P K. unfold memset0, wrs. assert (0 <= len m) by (unfold len; lia).
  assert (len (repeat 0 (Z.to_nat k)) = k) as L by (unfold len; rewrite repeat_length; lia).
  destruct (repeat 0 (Z.to_nat k)) eqn:E; [change (len (@nil Z)) with 0 in L; lia|]. rewrite L. replace (_ && _) with false by lia. reflexivity.
Qed.
Lemma count_ok n sz : 0 <= n -> 0 < sz -> n * sz < 2 ^ 64 -> count_bytes n sz = n * sz.
Proof. intros N S H. unfold count_bytes. rewrite (u64_id n) by nia. apply u64_id. nia. Qed.
Lemma count_neg n sz : n < 0 -> 0 < sz -> - n * sz <= 2 ^ 63 -> 2 ^ 63 <= count_bytes n sz.
Proof.
  intros N S H. unfold count_bytes, u64. rewrite Z.mul_mod_idemp_l by lia.
  replace (n * sz) with (2 ^ 64 - (- n * sz) + (-1) * 2 ^ 64) by lia. rewrite Z.mod_add by lia. rewrite Z.mod_small; [|nia].
  change (2 ^ 64) with (2 * 2 ^ 63). lia.
Qed.

(** ** C120: counts of the bytewise versions *)
(** A count that is not negative is that many elements, and nothing else is touched. *)
Theorem C120_construct_n : forall m p n sz, 0 <= n -> 0 < sz -> n * sz < 2 ^ 64 -> within m p (n * sz) ->
  exists m', construct_n_b m p n sz = Ok m' /\ zeroed m m' p (n * sz).
Proof. intros m p n sz N S H W. unfold construct_n_b. rewrite count_ok by auto. apply memset0_ok; auto; nia. Qed.
Theorem C120_copy_n : forall m d s n sz, 0 < n -> 0 < sz -> n * sz < 2 ^ 64 -> within m d (n * sz) -> within m s (n * sz) ->
  apart_ranges d (n * sz) s (n * sz) -> exists m', copy_n_b m d s n sz = Ok m' /\ copied m m' d s (n * sz).
Proof.
  intros m d s n sz N S H D W A. unfold copy_n_b, assert. replace (negb (d =? s)) with true by (unfold apart_ranges in A; nia).
  rewrite count_ok by (auto; lia). apply memcpy_chg; auto; nia.
Qed.
Theorem C120_mem_zero : forall m p n sz, 0 <= n -> 0 < sz -> n * sz < 2 ^ 64 -> within m p (n * sz) ->
  exists m', mem_zero_n m p n sz = Ok m' /\ zeroed m m' p (n * sz) /\ mem_zero_bytes m p (n * sz) = Ok m'.
Proof.
  intros m p n sz N S H W. destruct (memset0_ok m p (n * sz)) as [m' [E Z]]; auto; [nia|]. exists m'. unfold mem_zero_n, mem_zero_bytes.
  rewrite (u64_id n) by nia. rewrite (Z.mul_comm sz). rewrite (u64_id (n * sz)) by nia. auto.
Qed.
Theorem C120_one : forall m p sz, 0 < sz -> within m p sz ->
  exists m', construct_b m p sz = Ok m' /\ zeroed m m' p sz /\ mem_zero_1 m p sz = Ok m'.
Proof. intros m p sz S W. destruct (memset0_ok m p sz) as [m' [E Z]]; auto; [lia|]. exists m'. auto. Qed.
(** A negative count does nothing for other types. For bytewise ones it is always undefined:
    the size in bytes is larger than any memory. *)
Theorem C120_negative_refuted : forall m lost n v, n < 0 -> construct_n (m, lost) 0 n v = Ok (m, lost) /\
  forall b sz p q, 0 < sz -> - n * sz <= 2 ^ 63 -> len b < 2 ^ 63 -> 0 <= p -> 0 <= q -> p <> q ->
    construct_n_b b p n sz = Ub /\ copy_n_b b p q n sz = Ub.
Proof.
  intros m lost n v N. split; [unfold construct_n, for_n; replace (Z.to_nat n) with O by lia; reflexivity|].
  intros b sz p q S H L P Q D. pose proof (count_neg n sz N S H) as C. split; [apply memset0_big; lia|].
  unfold copy_n_b, assert. replace (negb (p =? q)) with true by lia. unfold memcpy. destruct (mem_overlaps _ _ _ _); [reflexivity|].
  unfold rds. assert (0 <= len b) by (unfold len; lia). set (c := count_bytes n sz) in *. clearbody c.
  replace (c <=? 0) with false by lia. replace (_ && _) with false by lia. reflexivity.
Qed.
(** The product wraps: for 2^61 elements of 8 bytes nothing is done. *)
Theorem C120_wrap_refuted : forall m p q, p <> q ->
  construct_n_b m p (2 ^ 61) 8 = Ok m /\ copy_n_b m p q (2 ^ 61) 8 = Ok m /\ mem_zero_n m p (2 ^ 61) 8 = Ok m.
Proof.
  intros m p q D. split; [reflexivity|]. split; [|reflexivity]. unfold copy_n_b, assert. replace (negb (p =? q)) with true by lia.
  change (count_bytes (2 ^ 61) 8) with 0. unfold memcpy. replace (mem_overlaps p q 0 0) with false; [reflexivity|]. unfold mem_overlaps. lia.
Qed.
Print Assumptions C120_wrap_refuted.
Print Assumptions C120_construct_n.
Print Assumptions C120_copy_n.
Print Assumptions C120_mem_zero.
Print Assumptions C120_one.
Print Assumptions C120_negative_refuted.
Example C120_ex1 : construct_n_b [1; 2; 3; 4; 5] 1 2 2 = Ok [1; 0; 0; 0; 0] /\ mem_zero_n [1; 2; 3; 4; 5] 0 1 4 = Ok [0; 0; 0; 0; 5].
Proof. split; reflexivity. Qed.
Example C120_ex2 : copy_n_b [1; 2; 3; 4] 2 0 1 2 = Ok [1; 2; 1; 2] /\ copy_n_b [1; 2; 3; 4] 2 0 (-1) 2 = Ub.
Proof. split; [reflexivity|]. refine (proj2 (proj2 (C120_negative_refuted [] [] (-1) 0 _) _ 2 2 0 _ _ _ _ _ _)); try lia. reflexivity. Qed.
