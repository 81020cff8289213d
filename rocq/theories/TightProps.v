From Verif Require Import Base BaseLemmas TightModel TightSpec TightProofs TightProofs2.

(** ** C113: tight_pair *)
(** Missing: a type that is not a class or is final cannot be a base. *)
Theorem C113_layout_partial : forall f s, valid f -> valid s -> named f s -> well_formed f s = true ->
  exists z o1 o2, tight_layout f s = Ok (z, o1, o2) /\
    0 <= o1 /\ 0 <= o2 /\ o1 + vbytes f <= z /\ o2 + vbytes s <= z /\ (talign f | o1) /\ (talign s | o2) /\
    apart o1 (vbytes f) o2 (vbytes s) /\ (forall y, struct_size f s y -> z <= y).
Proof. intros f s Hf Hs Hn Hw. destruct (tight_ok f s Hf Hs Hn Hw) as (z & o1 & o2 & E & G & _). exists z, o1, o2. split; [exact E|exact G]. Qed.
Print Assumptions C113_layout_partial.
(** the pair holds the values it was made of *)
Theorem C113_values_partial : forall f s z o1 o2 m a b, valid f -> valid s -> named f s -> tight_layout f s = Ok (z, o1, o2) ->
  len m = z -> len a = vbytes f -> len b = vbytes s ->
  exists m', pair_ctor f s m a b = Ok m' /\ len m' = z /\ first_ f s m' = Ok a /\ second_ f s m' = Ok b.
Proof.
  intros f s z o1 o2 m a b Hf Hs Hn HL Hm Ha Hb.
  destruct (well_formed f s) eqn:Hw; [|unfold tight_layout in HL; rewrite Hw in HL; discriminate].
  destruct (tight_ok f s Hf Hs Hn Hw) as (z' & p & q & E & G & _). assert (X := eq_trans (eq_sym HL) E). injection X as <- <- <-.
  apply (pair_ctor_ok f s z o1 o2); auto.
Qed.
Print Assumptions C113_values_partial.
(** and writing one leaves the other *)
Theorem C113_writes_partial : forall f s z o1 o2 m v, valid f -> valid s -> named f s -> tight_layout f s = Ok (z, o1, o2) -> len m = z ->
  (len v = vbytes f -> exists m', set_first f s m v = Ok m' /\ len m' = z /\ first_ f s m' = Ok v /\ second_ f s m' = second_ f s m) /\
  (len v = vbytes s -> exists m', set_second f s m v = Ok m' /\ len m' = z /\ second_ f s m' = Ok v /\ first_ f s m' = first_ f s m).
Proof.
  intros f s z o1 o2 m v Hf Hs Hn HL Hm.
  destruct (well_formed f s) eqn:Hw; [|unfold tight_layout in HL; rewrite Hw in HL; discriminate].
  destruct (tight_ok f s Hf Hs Hn Hw) as (z' & p & q & E & G & _). assert (X := eq_trans (eq_sym HL) E). injection X as <- <- <-.
  split; intros Hv; [apply (set_first_ok f s z o1 o2)|apply (set_second_ok f s z o1 o2)]; auto.
Qed.
Print Assumptions C113_writes_partial.
(** an empty class takes no room, unless the other type has a subobject of that class *)
Theorem C113_size_partial : forall f s, valid f -> valid s -> well_formed f s = true -> tid f <> tid s -> unrelated f s ->
  (tempty f = true -> tempty s = false -> tsize f = 1 -> tight_layout f s = Ok (tsize s, 0, 0)) /\
  (tempty f = false -> tempty s = true -> tsize s = 1 -> tight_layout f s = Ok (tsize f, 0, 0)) /\
  (tempty f = true -> tempty s = true -> tsize f = 1 -> tsize s = 1 -> tight_layout f s = Ok (1, 0, 0)).
Proof.
  intros f s Hf Hs Hw Hid Hu. split; [|split]; intros;
    [apply first_empty_size|apply second_empty_size|apply both_empty_size]; auto.
Qed.
Print Assumptions C113_size_partial.
Theorem C113_size_general : forall f s z o1 o2, valid f -> valid s -> tid f <> tid s -> tempty f = false -> tempty s = false ->
  tight_layout f s = Ok (z, o1, o2) -> struct_size f s z /\ o1 = 0.
Proof.
  intros f s z o1 o2 Hf Hs Hid Ef Es. apply general_size; auto. unfold which_case. rewrite Ef, Es.
  destruct (tid f =? tid s) eqn:E; [apply Z.eqb_eq in E; tauto|reflexivity].
Qed.
Print Assumptions C113_size_general.
(** subobjects of one class are at different addresses *)
Theorem C113_distinct_partial : forall f s z o1 o2, valid f -> valid s -> named f s -> tid f <> tid s \/ tempty f = false -> tight_layout f s = Ok (z, o1, o2) ->
  forall q r t, In (q, t) (tsubs f) -> In (r, t) (tsubs s) -> o1 + q <> o2 + r.
Proof.
  intros f s z o1 o2 Hf Hs Hn Hid HL.
  destruct (well_formed f s) eqn:Hw; [|unfold tight_layout in HL; rewrite Hw in HL; discriminate].
  destruct (tight_ok f s Hf Hs Hn Hw) as (z' & p & q & E & G & D). assert (X := eq_trans (eq_sym HL) E). injection X as <- <- <-.
  apply D. unfold which_case. destruct (tid f =? tid s) eqn:Ei; [|destruct (tempty f), (tempty s); discriminate].
  apply Z.eqb_eq in Ei. destruct Hid as [Hid| ->]; [tauto|discriminate].
Qed.
Print Assumptions C113_distinct_partial.
(** except in a pair of two objects of one empty class, which are one object *)
Theorem C113_alias_refuted : forall f z o1 o2, valid f -> tempty f = true -> tight_layout f f = Ok (z, o1, o2) -> o1 = o2 /\ z = tsize f.
Proof.
  intros f z o1 o2 Hf Ef HL. destruct (well_formed f f) eqn:Hw; [|unfold tight_layout in HL; rewrite Hw in HL; discriminate].
  destruct (same_size f z o1 o2 Hf Ef Hw HL). auto.
Qed.
Print Assumptions C113_alias_refuted.
(** a pair of one scalar type, or of one final class, does not compile *)
Theorem C113_compiles_refuted : forall f, tclass f = false \/ tfinal f = true -> tight_layout f f = Err.
Proof.
  intros f H. unfold tight_layout. replace (well_formed f f) with false; [reflexivity|].
  unfold well_formed, which_case. rewrite Z.eqb_refl. unfold can_derive. destruct (tempty f), (tclass f), (tfinal f); cbn; auto; destruct H; discriminate.
Qed.
Print Assumptions C113_compiles_refuted.
(** it does not compile exactly if it would derive from a scalar or a final class, or from two
    empty classes of which one is a base of the other *)
Theorem C113_compiles : forall f s, valid f -> valid s -> named f s ->
  (tight_layout f s = Err <->
   (exists d, derives f s d /\ (tclass d = false \/ tfinal d = true)) \/
   (tid f <> tid s /\ tempty f = true /\ tempty s = true /\ (In (tid s) (tbases f) \/ In (tid f) (tbases s)))).
Proof. exact tight_compiles. Qed.
Print Assumptions C113_compiles.
(** default construction: both are value-initialised, except ... *)
Theorem C113_default_partial : forall f s z o1 o2 m, valid f -> valid s -> named f s -> tight_layout f s = Ok (z, o1, o2) -> len m = z ->
  tid f <> tid s \/ tempty f = true \/ tctor s <> None ->
  exists m' a b, pair_default f s m = Ok m' /\ len m' = z /\ first_ f s m' = Ok a /\ value_of f a /\ second_ f s m' = Ok b /\ value_of s b.
Proof.
  intros f s z o1 o2 m Hf Hs Hn HL Hm Hc.
  destruct (well_formed f s) eqn:Hw; [|unfold tight_layout in HL; rewrite Hw in HL; discriminate].
  destruct (tight_ok f s Hf Hs Hn Hw) as (z' & p & q & E & G & _). assert (X := eq_trans (eq_sym HL) E). injection X as <- <- <-.
  enough (X : exists m', pair_default f s m = Ok m' /\ len m' = z /\ first_ f s m' = Ok (value_init f) /\ second_ f s m' = Ok (value_init s)).
  { destruct X as (m' & A & B & C & D). exists m', (value_init f), (value_init s). auto 7 using value_init_ok. }
  apply (pair_default_ok f s z o1 o2); auto. destruct Hc as [Hc|[Hc|Hc]]; auto; left; unfold which_case.
  - destruct (tid f =? tid s) eqn:Ei; [apply Z.eqb_eq in Ei; tauto|]. destruct (tempty f), (tempty s); discriminate.
  - rewrite Hc. destruct (tid f =? tid s), (tempty s); discriminate.
Qed.
Print Assumptions C113_default_partial.
(** ... the second of a pair of one class with a trivial constructor, which keeps what was in memory *)
Theorem C113_default_refuted : forall f z o1 o2 m, valid f -> tempty f = false -> tctor f = None -> tight_layout f f = Ok (z, o1, o2) -> len m = z ->
  exists m' a, pair_default f f m = Ok m' /\ first_ f f m' = Ok a /\ value_of f a /\ second_ f f m' = second_ f f m.
Proof.
  intros f z o1 o2 m Hf Ef Ht HL Hm.
  destruct (well_formed f f) eqn:Hw; [|unfold tight_layout in HL; rewrite Hw in HL; discriminate].
  destruct (tight_ok f f Hf Hf (fun _ => eq_refl) Hw) as (z' & p & q & E & G & _). assert (X := eq_trans (eq_sym HL) E). injection X as <- <- <-.
  destruct (pair_default_same f f z o1 o2 Hf Hf HL G m Hm) as (m' & A & _ & B & C); auto; [|exists m', (value_init f); auto 6 using value_init_ok].
  unfold which_case. rewrite Z.eqb_refl, Ef. reflexivity.
Qed.
Print Assumptions C113_default_refuted.
(** struct E {}; struct I { int x; }; struct B { E e; int x; }; *)
Definition tyE := Ty 1 1 1 1 true true false [(0, 1)] [] None.
Definition tyI := Ty 2 4 4 4 false true false [] [] None.
Definition tyB := Ty 3 8 8 4 false true false [(0, 1)] [] None.
Definition tyint := Ty 4 4 4 4 false false false [] [] None.
Definition tychar := Ty 5 1 1 1 false false false [] [] None.
Example C113_ex_valid : valid tyE /\ valid tyI /\ valid tyB.
Proof.
  assert (forall v, @None (list Z) = Some v -> forall n, len v = n) by discriminate.
  unfold valid, tyE, tyI, tyB; cbn. repeat split; try lia; auto; try (exists 0; split; [lia|reflexivity]);
    try (exists 2; split; [lia|reflexivity]); try (exists 1; reflexivity); try (exists 2; reflexivity);
    try (destruct H0 as [E|[]]; injection E as <- <-; lia); try destruct H0.
Qed.
Example C113_ex1 : tight_layout tyE tyI = Ok (4, 0, 0) /\ tight_layout tyI tyE = Ok (4, 0, 0) /\ tight_layout tyE tyE = Ok (1, 0, 0) /\
  tight_layout tyint tychar = Ok (8, 0, 4) /\ tight_layout tyI tyI = Ok (8, 0, 4). Proof. repeat split; reflexivity. Qed.
(** B has an E at its first byte: an E and a B take 12 bytes, not the 8 of a B *)
Example C113_ex2 : tight_layout tyE tyB = Ok (12, 0, 4) /\ tight_layout tyB tyE = Ok (12, 4, 0). Proof. repeat split; reflexivity. Qed.
Example C113_ex3 : tight_layout tyint tyint = Err. Proof. reflexivity. Qed.
Example C113_ex4 : pair_default tyI tyI [9;9;9;9;9;9;9;9] = Ok [0;0;0;0;9;9;9;9] /\
  pair_ctor tyI tyI [9;9;9;9;9;9;9;9] [1;2;3;4] [5;6;7;8] = Ok [1;2;3;4;5;6;7;8] /\
  pair_default tyI tyint [9;9;9;9;9;9;9;9] = Ok [0;0;0;0;0;0;0;0]. Proof. repeat split; reflexivity. Qed.
