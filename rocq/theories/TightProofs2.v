From Verif Require Import Base BaseLemmas TightModel TightSpec TightProofs FormatProofs4.

Lemma slice_blit_apart (m : list Z) i l j n : 0 <= i -> i + len l <= len m -> 0 <= j -> j + n <= len m -> i + len l <= j \/ j + n <= i ->
  slice (blit m i l) j n = slice m j n.
Proof.
  intros Hi Hl Hj Hn Hd. destruct (Z_le_gt_dec n 0). { unfold slice. replace (Z.to_nat n) with 0%nat by lia. reflexivity. }
  apply (nth_ext _ _ 0 0).
  - assert (len (slice (blit m i l) j n) = len (slice m j n)) by (rewrite !len_slice; rewrite ?len_blit; lia). unfold len in *. lia.
  - intros k Hk. assert (Hk' : (k < Z.to_nat n)%nat).
    { pose proof (len_slice (blit m i l) j n ltac:(lia) ltac:(lia) ltac:(rewrite len_blit; lia)). unfold len in *. lia. }
    unfold slice. rewrite !nth_firstn_lt by lia. rewrite !nth_skipn. replace (Z.to_nat j + k)%nat with (Z.to_nat (j + Z.of_nat k)) by lia. rewrite nth_blit by lia.
    destruct ((i <=? _) && _) eqn:E; [lia|reflexivity].
Qed.

(** reading and writing one of two regions that are apart *)
Lemma rds_region (m : list Z) o n : 0 <= o -> 0 <= n -> o + n <= len m -> rds m o n = Ok (slice m o n).
Proof.
  intros Ho Hn H. unfold rds. destruct (n <=? 0) eqn:E.
  - replace n with 0 by lia. reflexivity.
  - replace ((0 <=? o) && (o + n <=? len m)) with true by lia. reflexivity.
Qed.
Lemma region_set (m v : list Z) o1 n1 o2 n2 : 0 <= o1 -> 0 <= o2 -> 0 <= n1 -> 0 <= n2 -> o1 + n1 <= len m -> o2 + n2 <= len m ->
  apart o1 n1 o2 n2 -> len v = n1 -> exists m', wrs m o1 v = Ok m' /\ len m' = len m /\ rds m' o1 n1 = Ok v /\ rds m' o2 n2 = rds m o2 n2.
Proof.
  intros H1 H2 N1 N2 L1 L2 Ha Hv. exists (blit m o1 v). rewrite wrs_ok by lia. split; [reflexivity|].
  assert (Hl : len (blit m o1 v) = len m) by (apply len_blit; lia). split; [exact Hl|].
  rewrite !rds_region by lia. split.
  - f_equal. subst n1. apply slice_blit_same; lia.
  - f_equal. destruct (Z.eq_dec n2 0) as [->|]; [reflexivity|].
    destruct (Z.eq_dec n1 0) as [->|]. { destruct v; [|unfold len in Hv; cbn in Hv; lia]. rewrite blit_nil by lia. reflexivity. }
    apply slice_blit_apart; try lia. unfold apart in Ha. lia.
Qed.
Lemma apart_sym o1 n1 o2 n2 : apart o1 n1 o2 n2 -> apart o2 n2 o1 n1.
Proof. unfold apart. lia. Qed.

Section pair.
  Variables (f s : ty) (z o1 o2 : Z).
  Hypotheses (Hf : valid f) (Hs : valid s) (Hnm : named f s) (HL : tight_layout f s = Ok (z, o1, o2)) (HG : good f s z o1 o2).
  Lemma set_first_ok m v : len m = z -> len v = vbytes f ->
    exists m', set_first f s m v = Ok m' /\ len m' = z /\ first_ f s m' = Ok v /\ second_ f s m' = second_ f s m.
  Proof.
    intros Hm Hv. destruct HG as (G1 & G2 & G3 & G4 & _ & _ & G5 & _). unfold set_first, first_, second_. rewrite HL. cbn [bind].
    pose proof (vbytes_bound f Hf). pose proof (vbytes_bound s Hs).
    destruct (region_set m v o1 (vbytes f) o2 (vbytes s)) as (m' & E & L & R1 & R2); try lia; auto.
    exists m'. rewrite E, R1, R2. repeat split; auto. lia.
  Qed.
  Lemma set_second_ok m v : len m = z -> len v = vbytes s ->
    exists m', set_second f s m v = Ok m' /\ len m' = z /\ second_ f s m' = Ok v /\ first_ f s m' = first_ f s m.
  Proof.
    intros Hm Hv. destruct HG as (G1 & G2 & G3 & G4 & _ & _ & G5 & _). unfold set_second, first_, second_. rewrite HL. cbn [bind].
    pose proof (vbytes_bound f Hf). pose proof (vbytes_bound s Hs).
    destruct (region_set m v o2 (vbytes s) o1 (vbytes f)) as (m' & E & L & R1 & R2); try lia; auto using apart_sym.
    exists m'. rewrite E, R1, R2. repeat split; auto. lia.
  Qed.
  Lemma both_ok m a b : len m = z -> len a = vbytes f -> len b = vbytes s -> exists m',
    (do m <- set_first f s m a ;; set_second f s m b) = Ok m' /\ len m' = z /\ first_ f s m' = Ok a /\ second_ f s m' = Ok b.
  Proof.
    intros Hm Ha Hb. destruct (set_first_ok m a Hm Ha) as (m1 & E1 & L1 & F1 & S1).
    destruct (set_second_ok m1 b L1 Hb) as (m2 & E2 & L2 & F2 & S2). exists m2. rewrite E1. cbn [bind]. rewrite E2, S2, F2. auto.
  Qed.
  Lemma both_ok' m a b : len m = z -> len a = vbytes f -> len b = vbytes s -> exists m',
    (do m <- set_second f s m b ;; set_first f s m a) = Ok m' /\ len m' = z /\ first_ f s m' = Ok a /\ second_ f s m' = Ok b.
  Proof.
    intros Hm Ha Hb. destruct (set_second_ok m b Hm Hb) as (m1 & E1 & L1 & F1 & S1).
    destruct (set_first_ok m1 a L1 Ha) as (m2 & E2 & L2 & F2 & S2). exists m2. rewrite E1. cbn [bind]. rewrite E2, S2, F2. auto.
  Qed.
  Lemma same_empty_ok m a b : which_case f s = SameEmpty -> len m = z -> len a = vbytes f -> len b = vbytes s -> exists m',
    set_first f s m a = Ok m' /\ len m' = z /\ first_ f s m' = Ok a /\ second_ f s m' = Ok b.
  Proof.
    intros Hc Hm Ha Hb. destruct (set_first_ok m a Hm Ha) as (m1 & E1 & L1 & F1 & S1). exists m1. rewrite E1, F1. repeat split; auto.
    assert (Hv : vbytes s = 0).
    { unfold which_case in Hc. destruct (tid f =? tid s) eqn:E; [|destruct (tempty f), (tempty s); discriminate].
      apply Z.eqb_eq in E. rewrite <- (Hnm E). unfold vbytes. destruct (tempty f); [reflexivity|discriminate]. }
    unfold second_. rewrite HL. cbn [bind]. rewrite Hv. destruct b; [reflexivity|]. unfold len in Hb. cbn in Hb. lia.
  Qed.
  Lemma pair_ctor_ok m a b : len m = z -> len a = vbytes f -> len b = vbytes s -> exists m',
    pair_ctor f s m a b = Ok m' /\ len m' = z /\ first_ f s m' = Ok a /\ second_ f s m' = Ok b.
  Proof.
    intros Hm Ha Hb. unfold pair_ctor. destruct (which_case f s) eqn:Ec;
      [apply both_ok|apply same_empty_ok|apply both_ok|apply both_ok|apply both_ok'|apply both_ok]; auto.
  Qed.
  Lemma len_value_init d : valid d -> len (value_init d) = vbytes d.
  Proof.
    intros Hd. unfold value_init. pose proof (vbytes_bound d Hd). destruct Hd as (_ & _ & _ & _ & _ & H'). destruct (tctor d) as [v|] eqn:E.
    - auto.
    - unfold len. rewrite repeat_length. lia.
  Qed.
  Lemma value_init_ok d : valid d -> value_of d (value_init d).
  Proof.
    intros Hd. pose proof (len_value_init d Hd) as L. unfold value_of, value_init in *. destruct (tctor d); [now left|right]. repeat split; auto.
    apply Forall_forall. intros x I. symmetry. exact (repeat_spec _ _ _ I).
  Qed.
  Lemma pair_default_ok m : len m = z -> which_case f s <> Same \/ tctor s <> None -> exists m',
    pair_default f s m = Ok m' /\ len m' = z /\ first_ f s m' = Ok (value_init f) /\ second_ f s m' = Ok (value_init s).
  Proof.
    intros Hm Hc. pose proof (len_value_init f Hf) as Lf. pose proof (len_value_init s Hs) as Ls.
    unfold pair_default. destruct (which_case f s) eqn:Ec;
      [|apply same_empty_ok|apply both_ok|apply both_ok|apply both_ok'|apply both_ok]; auto.
    destruct Hc as [Hc|Hc]; [congruence|]. destruct (both_ok m (value_init f) (value_init s) Hm Lf Ls) as (m' & E & H).
    exists m'. split; auto. rewrite <- E. destruct (tctor s) as [v|] eqn:Et; [|congruence]. replace (value_init s) with v by (unfold value_init; rewrite Et; reflexivity). reflexivity.
  Qed.
  Lemma pair_default_same m : len m = z -> which_case f s = Same -> tctor s = None -> exists m',
    pair_default f s m = Ok m' /\ len m' = z /\ first_ f s m' = Ok (value_init f) /\ second_ f s m' = second_ f s m.
  Proof.
    intros Hm Ec Ht. pose proof (len_value_init f Hf) as Lf. unfold pair_default. rewrite Ec, Ht.
    destruct (set_first_ok m (value_init f) Hm Lf) as (m1 & E1 & H). exists m1. rewrite E1. cbn [bind]. auto.
  Qed.
End pair.

(** exact sizes *)
Lemma unrelated_clear f s o : unrelated f s -> clear (tsubs f) (tsubs s) o.
Proof. intros H p q t Hp Hq. destruct (H p q t Hp Hq). Qed.
Lemma align_1 d : valid d -> tsize d = 1 -> talign d = 1.
Proof. intros (P & D & _) H. apply pow_1 in P. rewrite H in D. apply Z.divide_1_r_nonneg in D; lia. Qed.
Lemma first_empty_size f s : valid f -> valid s -> well_formed f s = true -> tid f <> tid s -> tempty f = true -> tempty s = false ->
  tsize f = 1 -> unrelated f s -> tight_layout f s = Ok (tsize s, 0, 0).
Proof.
  intros Hf Hs Hw Hid Ef Es Sf Hu. unfold tight_layout. rewrite Hw. cbn [negb].
  assert (Ec : which_case f s = FirstEmpty). { unfold which_case. rewrite Ef, Es. destruct (tid f =? tid s) eqn:E; [lia|reflexivity]. }
  rewrite Ec, first_base by auto. cbn [bind]. rewrite shift_0, Ef. replace (vbytes f) with 0 by (unfold vbytes; rewrite Ef; reflexivity).
  destruct (second_member f (tsize f) 0 s Hf Hs ltac:(lia)) as (o & E & H1 & H2 & H3 & H4). rewrite E. cbn [bind].
  assert (o = 0). { pose proof (H4 0 ltac:(lia) (Z.divide_0_r _) (unrelated_clear f s 0 Hu)). lia. } subst o.
  unfold finish. cbn [csize calign]. rewrite (align_1 f Hf Sf), Sf. destruct Hs as (P & D & S & _). apply pow_1 in P.
  rewrite Z.max_r, Z.max_r, Z.max_r by lia. cbn [Z.add]. rewrite least_id; auto.
Qed.
Lemma second_empty_size f s : valid f -> valid s -> well_formed f s = true -> tid f <> tid s -> tempty f = false -> tempty s = true ->
  tsize s = 1 -> unrelated f s -> tight_layout f s = Ok (tsize f, 0, 0).
Proof.
  intros Hf Hs Hw Hid Ef Es Ss Hu. unfold tight_layout. rewrite Hw. cbn [negb].
  assert (Ec : which_case f s = SecondEmpty). { unfold which_case. rewrite Ef, Es. destruct (tid f =? tid s) eqn:E; [lia|reflexivity]. }
  rewrite Ec, first_base by auto. cbn [bind]. rewrite shift_0, Es. replace (vbytes s) with 0 by (unfold vbytes; rewrite Es; reflexivity).
  assert (Hu' : unrelated s f) by (intros q r t A B; apply (Hu r q t); auto).
  destruct (second_member s (tsize s) 0 f Hs Hf ltac:(lia)) as (o & E & H1 & H2 & H3 & H4). rewrite E. cbn [bind].
  assert (o = 0). { pose proof (H4 0 ltac:(lia) (Z.divide_0_r _) (unrelated_clear s f 0 Hu')). lia. } subst o.
  unfold finish. cbn [csize calign]. rewrite (align_1 s Hs Ss), Ss. destruct Hf as (P & D & S & _). apply pow_1 in P.
  rewrite Z.max_r, Z.max_r, Z.max_r by lia. cbn [Z.add]. rewrite least_id; auto.
Qed.
Lemma both_empty_size f s : valid f -> valid s -> well_formed f s = true -> tempty f = true -> tempty s = true ->
  tsize f = 1 -> tsize s = 1 -> tid f <> tid s -> unrelated f s -> tight_layout f s = Ok (1, 0, 0).
Proof.
  intros Hf Hs Hw Ef Es Sf Ss Hid Hu. unfold tight_layout. rewrite Hw. cbn [negb].
  assert (Ec : which_case f s = BothEmpty). { unfold which_case. rewrite Ef, Es. destruct (tid f =? tid s) eqn:E; [lia|reflexivity]. }
  rewrite Ec, first_base by auto. cbn [bind]. rewrite shift_0, Ef. replace (vbytes f) with 0 by (unfold vbytes; rewrite Ef; reflexivity).
  destruct (second_empty_base f (tsize f) s Hf Hs Es) as (o & E & H1 & H2 & H3 & H4). rewrite E. cbn [bind].
  assert (o = 0). { pose proof (H4 0 ltac:(lia) (Z.divide_0_r _) (unrelated_clear f s 0 Hu)). lia. } subst o.
  unfold finish. cbn [csize calign]. rewrite (align_1 f Hf Sf), (align_1 s Hs Ss), Sf, Ss. reflexivity.
Qed.
Lemma same_size f z o1 o2 : valid f -> tempty f = true -> well_formed f f = true -> tight_layout f f = Ok (z, o1, o2) -> z = tsize f /\ o1 = o2.
Proof.
  intros Hf Ef Hw. unfold tight_layout. rewrite Hw. cbn [negb].
  assert (Ec : which_case f f = SameEmpty). { unfold which_case. rewrite Z.eqb_refl, Ef. reflexivity. }
  rewrite Ec, first_base by auto. cbn [bind]. rewrite Ef. unfold finish. cbn [csize calign]. intros E. injection E as <- <- <-.
  destruct Hf as (P & D & S & _). apply pow_1 in P. rewrite Z.max_r by lia. rewrite least_id; auto.
Qed.
Lemma general_size f s z o1 o2 : valid f -> valid s -> which_case f s = General -> tight_layout f s = Ok (z, o1, o2) -> struct_size f s z /\ o1 = 0.
Proof.
  intros Hf Hs Ec. unfold tight_layout. replace (well_formed f s) with true by (unfold well_formed; rewrite Ec; reflexivity). cbn [negb].
  rewrite Ec, first_member by auto. cbn [bind]. rewrite shift_0. pose proof Hf as (Pf & Df & Sf & _). pose proof Hs as (Ps & Ds & Ss & _).
  pose proof (pow_1 _ Pf) as Af. pose proof (pow_1 _ Ps) as As.
  destruct (second_member f (tsize f) (tsize f) s Hf Hs ltac:(lia)) as (o & E & H1 & H2 & H3 & H4). rewrite E. cbn [bind].
  unfold finish. cbn [csize calign]. intros X. injection X as <- <- <-. split; auto.
  exists o. split.
  - destruct (up_spec (tsize f) (talign s) As) as [U1 U2]. assert (o <= up (tsize f) (talign s)) by (apply H4; auto; [lia|apply clear_past; auto; lia]).
    split; auto. lia.
  - replace (Z.max 1 (Z.max (tsize f) (o + tsize s))) with (o + tsize s) by lia. apply up_spec. lia.
Qed.

(** when a pair does not compile *)
Lemma bad_derive d : can_derive d = false <-> tclass d = false \/ tfinal d = true.
Proof. unfold can_derive. destruct (tclass d), (tfinal d); cbn; intuition discriminate. Qed.
Lemma in_existsb x l : existsb (Z.eqb x) l = true <-> In x l.
Proof.
  rewrite existsb_exists. split; [intros (y & H & E); apply Z.eqb_eq in E; now subst|intros H; exists x; split; [assumption|apply Z.eqb_refl]].
Qed.
Lemma well_formed_iff f s : well_formed f s = false <->
   (exists d, derives f s d /\ (tclass d = false \/ tfinal d = true)) \/
   (tid f <> tid s /\ tempty f = true /\ tempty s = true /\ (In (tid s) (tbases f) \/ In (tid f) (tbases s))).
Proof.
  unfold well_formed, which_case, derives. rewrite <- !in_existsb.
  assert (B : forall d, (tclass d = false \/ tfinal d = true) <-> can_derive d = false) by (intros d; symmetry; apply bad_derive).
  destruct (Z.eqb_spec (tid f) (tid s)) as [E|E].
  - transitivity (can_derive f = false); [destruct (tempty f); reflexivity|]. rewrite <- B. split.
    + intros H. left. exists f. auto.
    + intros [(d & [[_ ->]|[N _]] & H)|[N _]]; [exact H|tauto|tauto].
  - destruct (tempty f) eqn:Ef, (tempty s) eqn:Es; cbn [andb].
    + split.
      * intros H. destruct (can_derive f) eqn:Df; [|left; exists f; rewrite B; auto 10].
        destruct (can_derive s) eqn:Ds; [|left; exists s; rewrite B; auto 10]. right. cbn [andb] in H.
        destruct (existsb (Z.eqb (tid s)) (tbases f)), (existsb (Z.eqb (tid f)) (tbases s)); cbn in H; try discriminate; auto 10.
      * intros [(d & [[N _]|[_ [_ [-> | ->]]]] & H)|(_ & _ & _ & H)]; [tauto| | |].
        -- apply B in H. rewrite H. reflexivity.
        -- apply B in H. rewrite H, andb_false_r. reflexivity.
        -- destruct H as [-> | ->]; cbn [negb]; rewrite ?andb_false_r; reflexivity.
    + rewrite <- B. split.
      * intros H. left. exists f. auto 6.
      * intros [(d & [[N _]|[_ [D [-> | ->]]]] & H)|(_ & _ & D & _)]; [tauto|exact H|congruence|discriminate].
    + rewrite <- B. split.
      * intros H. left. exists s. auto 6.
      * intros [(d & [[N _]|[_ [D [-> | ->]]]] & H)|(_ & D & _)]; [tauto|congruence|exact H|discriminate].
    + split; [discriminate|]. intros [(d & [[N _]|[_ [D [-> | ->]]]] & H)|(_ & D & _)]; [tauto|congruence|congruence|discriminate].
Qed.
Lemma tight_compiles f s : valid f -> valid s -> named f s ->
  (tight_layout f s = Err <->
   (exists d, derives f s d /\ (tclass d = false \/ tfinal d = true)) \/
   (tid f <> tid s /\ tempty f = true /\ tempty s = true /\ (In (tid s) (tbases f) \/ In (tid f) (tbases s)))).
Proof.
  intros Hf Hs Hn. rewrite <- well_formed_iff. destruct (well_formed f s) eqn:W.
  - destruct (tight_ok f s Hf Hs Hn W) as (z & p & q & E & _). split; [intros H; rewrite H in E; discriminate|discriminate].
  - split; [reflexivity|]. intros _. unfold tight_layout. rewrite W. reflexivity.
Qed.
