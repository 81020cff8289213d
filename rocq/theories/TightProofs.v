From Verif Require Import Base BaseLemmas TightModel TightSpec.

Lemma up_spec n a : 1 <= a -> least_multiple n a (up n a).
Proof.
  intros H. unfold least_multiple, up. split; [exists ((n + a - 1) / a); reflexivity|].
  pose proof (Z.div_mod (n + a - 1) a). pose proof (Z.mod_pos_bound (n + a - 1) a). nia.
Qed.
Lemma least_le n a k x : 1 <= a -> least_multiple n a k -> (a | x) -> n <= x -> k <= x.
Proof. intros Ha [[j ->] H] [i ->] Hx. destruct (Z_lt_le_dec i j); [|nia]. assert (i * a + a <= j * a) by nia. lia. Qed.
Lemma least_mono n n' a k k' : 1 <= a -> n <= n' -> least_multiple n a k -> least_multiple n' a k' -> k <= k'.
Proof. intros Ha Hn H H'. apply (least_le n a); auto; [apply H'|destruct H'; lia]. Qed.
Lemma least_id n a : 1 <= a -> (a | n) -> up n a = n.
Proof. intros Ha Hd. destruct (up_spec n a Ha) as [_ H]. pose proof (least_le n a (up n a) n Ha (up_spec n a Ha) Hd). lia. Qed.

Lemma pow_1 a : (exists k, 0 <= k /\ a = 2 ^ k) -> 1 <= a.
Proof. intros (k & Hk & ->). pose proof (Z.pow_pos_nonneg 2 k). lia. Qed.
Lemma pow_div a b : (exists k, 0 <= k /\ a = 2 ^ k) -> (exists k, 0 <= k /\ b = 2 ^ k) -> a <= b -> (a | b).
Proof.
  intros (k & Hk & ->) (l & Hl & ->) H. assert (k <= l). { destruct (Z_lt_le_dec l k); [|lia]. pose proof (Z.pow_lt_mono_r 2 l k ltac:(lia) ltac:(lia) ltac:(lia)). lia. }
  exists (2 ^ (l - k)). rewrite <- Z.pow_add_r by lia. f_equal. lia.
Qed.

Lemma in_shift o l p t : In (p, t) (shift o l) <-> In (p - o, t) l.
Proof.
  unfold shift. rewrite in_map_iff. split.
  - intros ([q u] & E & H). injection E as <- <-. now replace (o + q - o) with q by lia.
  - intros H. exists (p - o, t). split; auto. f_equal. lia.
Qed.
Lemma conflict_false placed l : conflict placed l = false <-> forall p t, In (p, t) placed -> In (p, t) l -> False.
Proof.
  unfold conflict. split.
  - intros H p t Hp Hl. assert (existsb (fun '(p, t) => existsb (fun '(q, u) => (p =? q) && (t =? u)) placed) l = true).
    { apply existsb_exists. exists (p, t). split; auto. apply existsb_exists. exists (p, t). split; auto. rewrite !Z.eqb_refl. reflexivity. }
    congruence.
  - intros H. destruct (existsb _ l) eqn:E; auto. apply existsb_exists in E as ([p t] & Hl & E).
    apply existsb_exists in E as ([q u] & Hp & E). apply andb_true_iff in E as [E1 E2].
    apply Z.eqb_eq in E1, E2. subst. exfalso. eauto.
Qed.
Lemma max_offset_ge l p t : In (p, t) l -> p <= max_offset l.
Proof. induction l as [|x l IH]; [intros []|]. change (max_offset (x :: l)) with (Z.max (fst x) (max_offset l)). intros [->|H]; [cbn [fst]; lia|apply IH in H; lia]. Qed.
Lemma max_offset_0 l : 0 <= max_offset l.
Proof. induction l; [cbn; lia|]. change (max_offset (a :: l)) with (Z.max (fst a) (max_offset l)). lia. Qed.
Definition clear (placed subs : list (Z * Z)) (o : Z) : Prop := forall p q t, In (p, t) placed -> In (q, t) subs -> p <> o + q.
Lemma conflict_clear placed subs o : conflict placed (shift o subs) = false <-> clear placed subs o.
Proof.
  rewrite conflict_false. unfold clear. split; intros H.
  - intros p q t Hp Hq E. apply (H p t); auto. rewrite in_shift. now replace (p - o) with q by lia.
  - intros p t Hp Hl. rewrite in_shift in Hl. apply (H p (p - o) t); auto. lia.
Qed.
(** beyond every placed subobject there is no conflict *)
Lemma clear_beyond placed subs o : (forall q t, In (q, t) subs -> 0 <= q) -> max_offset placed < o -> clear placed subs o.
Proof. intros Hq Ho p q t Hp Hs. apply max_offset_ge in Hp. apply Hq in Hs. lia. Qed.
Lemma seek_ok placed subs step : 1 <= step -> (forall q t, In (q, t) subs -> 0 <= q) -> forall fuel o,
  (1 <= fuel)%nat -> max_offset placed + 1 - o < Z.of_nat fuel ->
  exists r, seek fuel placed subs o step = Ok r /\ o <= r /\ (step | r - o) /\ clear placed subs r /\
    forall x, o <= x -> (step | x - o) -> clear placed subs x -> r <= x.
Proof.
  intros Hs Hq. induction fuel as [|f IH]; intros o Hf1 Hf; [lia|]. cbn [seek].
  destruct (conflict placed (shift o subs)) eqn:E.
  - assert (o <= max_offset placed).
    { destruct (Z_lt_le_dec (max_offset placed) o); [|lia]. pose proof (clear_beyond placed subs o Hq ltac:(lia)) as Hc.
      apply conflict_clear in Hc. congruence. }
    destruct (IH (o + step)) as (r & Hr & H1 & H2 & H3 & H4); [lia|lia|]. exists r. split; auto. split; [lia|]. split.
    { replace (r - o) with ((r - (o + step)) + step) by lia. apply Z.divide_add_r; auto. apply Z.divide_refl. }
    split; auto. intros x Hx Hd Hc. apply H4; auto.
    + destruct Hd as [k Hk]. assert (k <> 0). { intros ->. assert (x = o) by lia. subst. apply conflict_clear in Hc. congruence. }
      nia.
    + replace (x - (o + step)) with ((x - o) - step) by lia. apply Z.divide_sub_r; auto. apply Z.divide_refl.
  - exists o. apply conflict_clear in E. repeat split; auto; try lia. rewrite Z.sub_diag. apply Z.divide_0_r.
Qed.
Lemma find_ok c d : valid d -> 0 <= cdsize c -> exists o, find_offset c d (up (cdsize c) (talign d)) = Ok o /\
  cdsize c <= o /\ (talign d | o) /\ clear (cplaced c) (tsubs d) o /\
  forall x, cdsize c <= x -> (talign d | x) -> clear (cplaced c) (tsubs d) x -> o <= x.
Proof.
  intros (Ha & _ & _ & _ & Hsub & _) Hc. apply pow_1 in Ha. unfold find_offset.
  destruct (up_spec (cdsize c) (talign d) Ha) as [Hd [Hu1 Hu2]].
  destruct (seek_ok (cplaced c) (tsubs d) (talign d) Ha (fun q t H => proj1 (Hsub q t H)) (Z.to_nat (max_offset (cplaced c)) + 2) (up (cdsize c) (talign d)))
    as (r & Hr & H1 & H2 & H3 & H4); [lia|pose proof (max_offset_0 (cplaced c)); lia|].
  exists r. split; auto. split; [lia|]. split.
  { replace r with ((r - up (cdsize c) (talign d)) + up (cdsize c) (talign d)) by lia. apply Z.divide_add_r; auto. }
  split; auto. intros x Hx Hdx Hcx. apply H4; auto.
  - apply (least_le (cdsize c) (talign d)); auto. apply up_spec; auto.
  - apply Z.divide_sub_r; auto.
Qed.
Lemma clear_nil subs o : clear [] subs o.
Proof. intros p q t []. Qed.
(** the first component goes to offset 0 *)
Lemma first_base d : valid d -> add_base new_class d =
  Ok (Cls (if tempty d then tsize d else tnv d) (vbytes d) (talign d) (shift 0 (tsubs d) ++ []), 0).
Proof.
  intros H. pose proof H as (Ha & Hd & Hs & Hn & _). apply pow_1 in Ha. unfold add_base, vbytes. destruct (tempty d).
  - assert (E : conflict (cplaced new_class) (tsubs d) = false) by (apply conflict_false; intros p t []).
    rewrite E. cbn [bind]. do 3 f_equal; cbn; try lia.
  - destruct (find_ok new_class d H) as (o & E & H1 & H2 & H3 & H4); [cbn; lia|]. rewrite E. cbn [bind].
    assert (o = 0). { cbn in H1. pose proof (H4 0 ltac:(cbn; lia) (Z.divide_0_r _) (clear_nil _ _)). lia. } subst o.
    do 3 f_equal; cbn; lia.
Qed.
Lemma first_member d : valid d -> add_member new_class d =
  Ok (Cls (tsize d) (tsize d) (talign d) (shift 0 (tsubs d) ++ []), 0).
Proof.
  intros H. pose proof H as (Ha & Hd & Hs & Hn & _). apply pow_1 in Ha. unfold add_member.
  destruct (find_ok new_class d H) as (o & E & H1 & H2 & H3 & H4); [cbn; lia|]. rewrite E. cbn [bind].
  assert (o = 0). { cbn in H1. pose proof (H4 0 ltac:(cbn; lia) (Z.divide_0_r _) (clear_nil _ _)). lia. } subst o.
  do 3 f_equal; cbn; lia.
Qed.
Lemma shift_0 l : shift 0 l ++ [] = l.
Proof. rewrite app_nil_r. unfold shift. induction l as [|[q t] l IH]; cbn; [reflexivity|]. f_equal; auto. Qed.
(** past the first component there is no conflict *)
Lemma clear_past d e o : valid d -> valid e -> tsize d <= o -> clear (tsubs d) (tsubs e) o.
Proof.
  intros (_ & _ & _ & _ & Hd & _) (_ & _ & _ & _ & He & _) Ho p q t Hp Hq.
  apply Hd in Hp. apply He in Hq. lia.
Qed.
(** the second component, with data of n bytes before it *)
Lemma second_member d z n e : valid d -> valid e -> 0 <= n <= tsize d -> exists o,
  add_member (Cls z n (talign d) (tsubs d)) e = Ok (Cls (Z.max z (o + tsize e)) (o + tsize e) (Z.max (talign d) (talign e)) (shift o (tsubs e) ++ tsubs d), o) /\
  n <= o /\ (talign e | o) /\ clear (tsubs d) (tsubs e) o /\
  forall x, n <= x -> (talign e | x) -> clear (tsubs d) (tsubs e) x -> o <= x.
Proof.
  intros Hd He Hn. unfold add_member. destruct (find_ok (Cls z n (talign d) (tsubs d)) e He) as (o & E & H); [cbn; lia|].
  rewrite E. exists o. cbn in H. split; [reflexivity|auto].
Qed.
Lemma second_empty_base d z e : valid d -> valid e -> tempty e = true -> exists o,
  add_base (Cls z 0 (talign d) (tsubs d)) e = Ok (Cls (Z.max z (o + tsize e)) 0 (Z.max (talign d) (talign e)) (shift o (tsubs e) ++ tsubs d), o) /\
  0 <= o /\ (talign e | o) /\ clear (tsubs d) (tsubs e) o /\
  forall x, 0 <= x -> (talign e | x) -> clear (tsubs d) (tsubs e) x -> o <= x.
Proof.
  intros Hd He Ee. unfold add_base. rewrite Ee. cbn [cplaced cdsize csize calign].
  destruct (conflict (tsubs d) (tsubs e)) eqn:E.
  - destruct (find_ok (Cls z 0 (talign d) (tsubs d)) e He) as (o & Eo & H); [cbn; lia|]. cbn [cdsize] in Eo. rewrite Eo.
    exists o. cbn in H. split; [reflexivity|auto].
  - exists 0. cbn [bind]. split; [reflexivity|]. split; [lia|]. split; [apply Z.divide_0_r|]. split; [|auto].
    apply conflict_clear. rewrite <- (app_nil_r (shift 0 (tsubs e))), shift_0. exact E.
Qed.
Definition distinct (f s : ty) (o1 o2 : Z) : Prop :=
  forall q r t, In (q, t) (tsubs f) -> In (r, t) (tsubs s) -> o1 + q <> o2 + r.
Definition good (f s : ty) (z o1 o2 : Z) : Prop :=
  0 <= o1 /\ 0 <= o2 /\ o1 + vbytes f <= z /\ o2 + vbytes s <= z /\ (talign f | o1) /\ (talign s | o2) /\
  apart o1 (vbytes f) o2 (vbytes s) /\ (forall y, struct_size f s y -> z <= y).

Lemma up_le n a y : 1 <= a -> (a | y) -> n <= y -> up n a <= y.
Proof. intros Ha Hy H. apply (least_le n a); auto. apply up_spec; auto. Qed.
Lemma up_ge n a : 1 <= a -> n <= up n a.
Proof. intros Ha. destruct (up_spec n a Ha). lia. Qed.
Lemma vbytes_bound d : valid d -> 0 <= vbytes d <= tsize d.
Proof. intros (_ & _ & _ & H & _). unfold vbytes. destruct (tempty d); lia. Qed.

Lemma tight_ok f s : valid f -> valid s -> named f s -> well_formed f s = true ->
  exists z o1 o2, tight_layout f s = Ok (z, o1, o2) /\ good f s z o1 o2 /\ (which_case f s <> SameEmpty -> distinct f s o1 o2).
Proof.
  intros Hf Hs Hnm Hw. unfold tight_layout. rewrite Hw. cbn [negb].
  pose proof (vbytes_bound f Hf) as Vf. pose proof (vbytes_bound s Hs) as Vs.
  pose proof Hf as (Pf & Df & Sf & Nf & _). pose proof Hs as (Ps & Ds & Ss & Ns & _).
  pose proof (pow_1 _ Pf) as Af. pose proof (pow_1 _ Ps) as As.
  destruct (which_case f s) eqn:Ec.
  - (* Same *)
    rewrite first_base by auto. cbn [bind]. rewrite shift_0.
    assert (E : f = s /\ tempty f = false).
    { unfold which_case in Ec. destruct (tid f =? tid s) eqn:E; [|destruct (tempty f), (tempty s); discriminate].
      destruct (tempty f) eqn:E'; [discriminate|]. apply Z.eqb_eq in E. auto. }
    destruct E as [<- Ee]. rewrite Ee.
    destruct (second_member f (tnv f) (vbytes f) f Hf Hf ltac:(lia)) as (o & E & H1 & H2 & H3 & H4).
    rewrite E. cbn [bind]. do 3 eexists. split; [reflexivity|]. unfold finish. cbn [csize calign]. split.
    + assert (Ho : o <= tsize f) by (apply H4; auto; [lia|]; apply clear_past; auto; lia).
      pose proof (up_ge (Z.max 1 (Z.max (tnv f) (o + tsize f))) (Z.max (talign f) (talign f)) ltac:(lia)).
      unfold good. repeat split; try lia; auto using Z.divide_0_r.
      * unfold apart. lia.
      * intros y (o' & [Ho1 Ho2] & [Hy1 Hy2]). apply up_le; auto; lia.
    + intros _ q r t Hq Hr Heq. apply (H3 q r t); auto; lia.
  - (* SameEmpty *)
    rewrite first_base by auto. cbn [bind]. rewrite shift_0.
    assert (E : f = s /\ tempty f = true).
    { unfold which_case in Ec. destruct (tid f =? tid s) eqn:E; [|destruct (tempty f), (tempty s); discriminate].
      destruct (tempty f) eqn:E'; [|discriminate]. apply Z.eqb_eq in E. auto. }
    destruct E as [<- Ee]. rewrite Ee. unfold finish. cbn [csize calign]. do 3 eexists. split; [reflexivity|]. split; [|congruence].
    assert (Ev : vbytes f = 0) by (unfold vbytes; rewrite Ee; reflexivity).
    pose proof (up_ge (Z.max 1 (tsize f)) (talign f) ltac:(lia)).
    unfold good. repeat split; try lia; auto using Z.divide_0_r.
    + left. auto.
    + intros y (o' & [Ho1 Ho2] & [Hy1 Hy2]). rewrite Z.max_id in *. apply up_le; auto; lia.
  - (* BothEmpty *)
    rewrite first_base by auto. cbn [bind]. rewrite shift_0.
    assert (Ee : tempty f = true /\ tempty s = true).
    { unfold which_case in Ec. destruct (tid f =? tid s); [destruct (tempty f); discriminate|]. destruct (tempty f), (tempty s); auto; discriminate. }
    destruct Ee as [Ef Es]. rewrite Ef. assert (Evf : vbytes f = 0) by (unfold vbytes; rewrite Ef; reflexivity).
    assert (Evs : vbytes s = 0) by (unfold vbytes; rewrite Es; reflexivity). rewrite Evf.
    destruct (second_empty_base f (tsize f) s Hf Hs Es) as (o & E & H1 & H2 & H3 & H4).
    rewrite E. cbn [bind]. do 3 eexists. split; [reflexivity|]. unfold finish. cbn [csize calign]. split.
    + pose proof (up_ge (Z.max 1 (Z.max (tsize f) (o + tsize s))) (Z.max (talign f) (talign s)) ltac:(lia)).
      unfold good. repeat split; try lia; auto using Z.divide_0_r.
      * left. auto.
      * intros y (o' & [Ho1 Ho2] & [Hy1 Hy2]). apply up_le; auto; [lia|].
        assert (o <= o') by (apply H4; auto; [lia|]; apply clear_past; auto; lia). lia.
    + intros _ q r t Hq Hr Heq. apply (H3 q r t); auto; lia.
  - (* FirstEmpty *)
    rewrite first_base by auto. cbn [bind]. rewrite shift_0.
    assert (Ef : tempty f = true).
    { unfold which_case in Ec. destruct (tid f =? tid s); [destruct (tempty f); discriminate|]. destruct (tempty f), (tempty s); auto; discriminate. }
    rewrite Ef. assert (Evf : vbytes f = 0) by (unfold vbytes; rewrite Ef; reflexivity). rewrite Evf.
    destruct (second_member f (tsize f) 0 s Hf Hs ltac:(lia)) as (o & E & H1 & H2 & H3 & H4).
    rewrite E. cbn [bind]. do 3 eexists. split; [reflexivity|]. unfold finish. cbn [csize calign]. split.
    + pose proof (up_ge (Z.max 1 (Z.max (tsize f) (o + tsize s))) (Z.max (talign f) (talign s)) ltac:(lia)).
      unfold good. repeat split; try lia; auto using Z.divide_0_r.
      * left. auto.
      * intros y (o' & [Ho1 Ho2] & [Hy1 Hy2]). apply up_le; auto; [lia|].
        assert (o <= o') by (apply H4; auto; [lia|]; apply clear_past; auto; lia). lia.
    + intros _ q r t Hq Hr Heq. apply (H3 q r t); auto; lia.
  - (* SecondEmpty *)
    rewrite first_base by auto. cbn [bind]. rewrite shift_0.
    assert (Es : tempty s = true).
    { unfold which_case in Ec. destruct (tid f =? tid s); [destruct (tempty f); discriminate|]. destruct (tempty f), (tempty s); auto; discriminate. }
    rewrite Es. assert (Evs : vbytes s = 0) by (unfold vbytes; rewrite Es; reflexivity). rewrite Evs.
    destruct (second_member s (tsize s) 0 f Hs Hf ltac:(lia)) as (o & E & H1 & H2 & H3 & H4).
    rewrite E. cbn [bind]. do 3 eexists. split; [reflexivity|]. unfold finish. cbn [csize calign]. split.
    + pose proof (up_ge (Z.max 1 (Z.max (tsize s) (o + tsize f))) (Z.max (talign s) (talign f)) ltac:(lia)).
      unfold good. repeat split; try lia; auto using Z.divide_0_r.
      * right; left. auto.
      * intros y (o' & [Ho1 Ho2] & [Hy1 Hy2]). rewrite (Z.max_comm (talign s)).
        assert (Ho : o <= up (tsize s) (talign f)).
        { destruct (up_spec (tsize s) (talign f) Af) as [U1 U2]. apply H4; auto; [lia|]. apply clear_past; auto; lia. }
        apply up_le; [lia|auto|].
        enough (o + tsize f <= y) by lia.
        destruct (Z_le_gt_dec (talign s) (talign f)).
        -- rewrite Z.max_l in Hy1 by lia. assert (up (tsize s) (talign f) <= y - tsize f); [|lia].
           apply up_le; auto; [apply Z.divide_sub_r; auto|lia].
        -- rewrite least_id in Ho by (auto; apply (Z.divide_trans _ (talign s)); auto; apply pow_div; auto; lia). lia.
    + intros _ q r t Hq Hr Heq. apply (H3 r q t); auto; lia.
  - (* General *)
    rewrite first_member by auto. cbn [bind]. rewrite shift_0.
    destruct (second_member f (tsize f) (tsize f) s Hf Hs ltac:(lia)) as (o & E & H1 & H2 & H3 & H4).
    rewrite E. cbn [bind]. do 3 eexists. split; [reflexivity|]. unfold finish. cbn [csize calign]. split.
    + pose proof (up_ge (Z.max 1 (Z.max (tsize f) (o + tsize s))) (Z.max (talign f) (talign s)) ltac:(lia)).
      unfold good. repeat split; try lia; auto using Z.divide_0_r.
      * right; right; left. lia.
      * intros y (o' & [Ho1 Ho2] & [Hy1 Hy2]). apply up_le; auto; [lia|].
        assert (o <= o') by (apply H4; auto; [lia|]; apply clear_past; auto; lia). lia.
    + intros _ q r t Hq Hr Heq. apply (H3 q r t); auto; lia.
Qed.
