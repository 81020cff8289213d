(** skip_empty pops and bracketed ranges. *)
From Verif Require Import Base BaseLemmas ScanModel CharconvSpec SubstrModel SubstrSpec SubstrProofs SubstrProofs2 SubstrProofs3 SubstrProofs4 SubstrProofs5 SubstrProofs7.

Lemma gpop_left_skip (l w t : list Z) c : small (l ++ w ++ t) -> ends_sep c l -> w <> [] -> ~ In c w -> Forall (fun x => x = c) t ->
  exists v, gpop_left (l ++ w ++ t) c true = Ok v /\ vin v (l ++ w ++ t) /\
    trimmed_right (fun x => x = c) l (contents (l ++ w ++ t) v).
Proof.
  intros Hs Hl Hw Hn Ht. unfold gpop_left. rewrite pop_right_skip by auto. cbn [bind].
  set (s := l ++ w ++ t) in *. pose proof (nonneg_len l). pose proof (nonneg_len w). pose proof (nonneg_len t).
  assert (Ls : len s = len l + len w + len t) by (unfold s; lens; lia).
  rewrite left_of_v_at; auto. 2:{ apply vin_view; lens; lia. }
  cbn [bind vo].
  assert (C : contents s (View 0 (len l)) = l) by (apply (contents_head _ _ (w ++ t)); reflexivity).
  assert (V : vin (View 0 (len l)) s) by (apply vin_view; lia).
  rewrite C. destruct Hl as [->|(l' & ->)].
  - rewrite find_c_notin by auto. cbn [bind]. eexists; split; [reflexivity|]. split; auto.
    exists []. rewrite C. repeat split; auto. intros x u X. destruct u; discriminate.
  - destruct (find_c_in (l' ++ [c]) c) as (p & Ef). { apply in_or_app; right; left; auto. }
    rewrite Ef. cbn [bind]. rewrite ends_with_snoc. cbn [bind].
    destruct (trimr_c_ok (l' ++ [c]) c) as (v & E & Hv & HT). { nas. lia. }
    erewrite on_sub_ok; eauto; try (rewrite C; eauto; fail). 
    rewrite <- C in Hv. destruct (sub_sub s _ v V Hv) as (S1 & S2). eexists; split; [reflexivity|]. split; auto.
    rewrite S2, C. auto.
Qed.

Lemma pop_left_skip (t w r : list Z) c : small (t ++ w ++ r) -> begins_sep c r -> w <> [] -> ~ In c w -> Forall (fun x => x = c) t ->
  pop_left (t ++ w ++ r) c true = Ok (Some (View 0 (len t + len w))).
Proof.
  nas. intros Hs Hr Hw Hn Ht. set (s := t ++ w ++ r) in *. pose proof (nonneg_len r). pose proof (nonneg_len t).
  assert (Lw : 0 < len w) by (destruct w; [congruence|rewrite len_cons; pose proof (nonneg_len w); lia]).
  assert (Ls : len s = len t + len w + len r) by (unfold s; lens; lia).
  assert (Lpos : first_of_c s c (Some (len t)) = Ok (if len r =? 0 then None else Some (len t + len w))).
  { destruct Hr as [->|(r' & ->)].
    - unfold s. rewrite app_nil_r. apply first_none_at; auto.
    - rewrite len_cons. pose proof (nonneg_len r'). replace (1 + len r' =? 0) with false by lia. apply first_pos_at; auto. }
  assert (Fs : sub1 (len s) 0 = Ok (View 0 (len s))) by (rewrite sub1_ok by lia; do 2 f_equal; lia).
  unfold pop_left. destruct (Z.ltb_spec 1 (len s)).
  - destruct t as [|x t].
    + rewrite len_nil in *. rewrite Lpos. cbn [bind]. destruct (Z.eqb_spec (len r) 0).
      * rewrite Fs. unfold some_v. cbn [bind]. do 3 f_equal. lia.
      * replace (0 <? 0 + len w) with true by lia. rewrite sub2_ok by lia. reflexivity.
    + inversion Ht; subst.
      assert (EP : first_of_c s c (Some 0) = Ok (Some 0)) by (apply (first_pos_at [] [] (t ++ w ++ r) c); auto).
      rewrite EP. cbn [bind]. replace (0 <? 0) with false by reflexivity. cbn [negb].
      destruct w as [|y w]; [congruence|].
      assert (EQ : first_not_of_c s c 0 = Ok (Some (len (c :: t)))).
      { unfold s. change ((c :: t) ++ (y :: w) ++ r) with ((c :: t) ++ y :: (w ++ r)). apply first_not_pos; auto. intros ->. apply Hn; left; auto. }
      rewrite EQ. cbn [bind]. rewrite Lpos. cbn [bind]. destruct (Z.eqb_spec (len r) 0).
      * rewrite Fs. unfold some_v. cbn [bind]. do 3 f_equal. lia.
      * rewrite sub2_ok by lia. reflexivity.
  - destruct (Z.eqb_spec (len s) 1); [|lia].
    assert (t = []) by (apply len_0_nil; lia). assert (r = []) by (apply len_0_nil; lia). subst t r.
    rewrite Fs. unfold s in *. cbn [app] in *. rewrite app_nil_r in *.
    destruct (begins_with_c_ok w c) as (b & Eb & Hb). rewrite Eb. cbn [bind]. destruct b.
    { destruct Hb as [Hb _]. destruct (Hb eq_refl) as (r & Er). destruct Hn. rewrite Er. left; auto. }
    unfold some_v. cbn [bind]. rewrite len_nil. do 3 f_equal.
Qed.
Lemma pop_left_all (t : list Z) c : small t -> t <> [] -> Forall (fun x => x = c) t -> pop_left t c true = Ok (Some (View 0 0)).
Proof.
  nas. intros Hs Hne Ht. unfold pop_left. pose proof (nonneg_len t).
  assert (L : 0 < len t) by (destruct t; [congruence|rewrite len_cons; pose proof (nonneg_len t); lia]).
  destruct t as [|x t]; [congruence|]. inversion Ht; subst.
  destruct (Z.ltb_spec 1 (len (c :: t))).
  - assert (EP : first_of_c (c :: t) c (Some 0) = Ok (Some 0)) by (apply (first_pos_at [] [] t c); auto).
    rewrite EP. cbn [bind]. replace (0 <? 0) with false by reflexivity. cbn [negb].
    rewrite first_not_none by auto. cbn [bind]. rewrite sub2_ok by lia. reflexivity.
  - replace (len (c :: t) =? 1) with true by lia. rewrite begins_with_cons. cbn [bind]. rewrite sub2_ok by lia. reflexivity.
Qed.
Lemma gpop_right_skip (t w r : list Z) c : small (t ++ w ++ r) -> begins_sep c r -> w <> [] -> ~ In c w -> Forall (fun x => x = c) t ->
  exists v, gpop_right (t ++ w ++ r) c true = Ok v /\ vin v (t ++ w ++ r) /\
    trimmed_left (fun x => x = c) r (contents (t ++ w ++ r) v).
Proof.
  intros Hs Hr Hw Hn Ht. unfold gpop_right. rewrite pop_left_skip by auto. cbn [bind].
  set (s := t ++ w ++ r) in *. pose proof (nonneg_len r). pose proof (nonneg_len w). pose proof (nonneg_len t).
  assert (Ls : len s = len t + len w + len r) by (unfold s; lens; lia).
  rewrite right_of_v_at; auto. 2:{ apply vin_view; lens; lia. }
  cbn [bind vo vl]. rewrite Z.add_0_l.
  assert (V : vin (View (len t + len w) (len s - (len t + len w))) s) by (apply vin_view; lia).
  assert (C : contents s (View (len t + len w) (len s - (len t + len w))) = r).
  { rewrite <- len_app. apply contents_tail. unfold s. rewrite <- app_assoc. reflexivity. }
  rewrite C. destruct Hr as [->|(r' & ->)].
  - rewrite find_c_notin by auto. cbn [bind]. eexists; split; [reflexivity|]. split; auto.
    exists []. rewrite C. repeat split; auto. intros x u X. discriminate.
  - destruct (find_c_in (c :: r') c) as (p & Ef). { left; auto. }
    rewrite Ef. cbn [bind]. rewrite begins_with_cons. cbn [bind].
    destruct (triml_c_ok (c :: r') c) as (v & E & Hv & HT). { nas. lia. }
    erewrite on_sub_ok; eauto; try (rewrite C; eauto; fail).
    rewrite <- C in Hv. destruct (sub_sub s _ v V Hv) as (S1 & S2). eexists; split; [reflexivity|]. split; auto.
    rewrite S2, C. auto.
Qed.

(** ** pair_range *)
Lemma find_pos_at (t l r : list Z) c : ~ In c l -> find_c (t ++ l ++ c :: r) c (Some (len t)) = Ok (Some (len t + len l)).
Proof. apply first_pos_at. Qed.
Lemma find_none_at (t l : list Z) c : ~ In c l -> find_c (t ++ l) c (Some (len t)) = Ok None.
Proof. apply first_none_at. Qed.
Lemma pair_range_some (a m t : list Z) o c : small (a ++ o :: m ++ c :: t) -> o <> c -> ~ In o a -> ~ In c m ->
  pair_range (a ++ o :: m ++ c :: t) o c =
    if in_dec Z.eq_dec o m then Err else Ok (Some (View (len a) (len m + 2))).
Proof.
  nas. intros Hs Hoc Ha Hm. set (s := a ++ o :: m ++ c :: t) in *. pose proof (nonneg_len a). pose proof (nonneg_len m). pose proof (nonneg_len t).
  assert (Ls : len s = len a + 1 + len m + 1 + len t) by (unfold s; lens; lia). unfold pair_range.
  pose proof (find_pos_at [] a (m ++ c :: t) o Ha) as P. cbn [app] in P. change (len (@nil Z)) with 0 in P. fold s in P. rewrite P. cbn [bind].
  rewrite Z.add_0_l.
  pose proof (find_pos_at (a ++ [o]) m t c Hm) as P2. rewrite <- app_assoc in P2. cbn [app] in P2. fold s in P2.
  rewrite len_app in P2. change (len [o]) with 1 in P2. rewrite P2. cbn [bind].
  rewrite range_ok by lia. cbn [bind vl vo]. replace (len a + 1 + len m + 1 - len a) with (len m + 2) by lia.
  assert (E1 : sub1 (len m + 2) 1 = Ok (View 1 (len m + 1))).
  { unfold sub1, assert. replace (1 <=? len m + 2) with true by lia. rewrite u64_id by lia. do 2 f_equal. lia. }
  rewrite E1. cbn [bind vo vl].
  assert (C : contents s (View (len a + 1) (len m + 1)) = m ++ [c]).
  { replace (len a + 1) with (len (a ++ [o])) by (lens; lia). replace (len m + 1) with (len (m ++ [c])) by (lens; lia).
    apply (contents_app _ _ _ t). unfold s. rewrite <- !app_assoc. reflexivity. }
  rewrite C. destruct (in_dec Z.eq_dec o m) as [Hi|Hi].
  - destruct (find_c_in (m ++ [c]) o) as (p & Ef). { apply in_or_app; auto. } rewrite Ef. reflexivity.
  - rewrite find_c_notin. { reflexivity. } intros X. apply in_app_or in X. destruct X as [X|[X|[]]]; auto.
Qed.
Lemma pair_range_none (s : list Z) o c : (forall a m, s = a ++ o :: m -> ~ In o a -> ~ In c m) -> pair_range s o c = Ok None.
Proof.
  intros H. unfold pair_range. destruct (in_dec Z.eq_dec o s) as [Hi|Hi].
  - destruct (in_split _ _ Hi) as (a0 & b0 & E0).
    assert (X : exists a b, s = a ++ o :: b /\ ~ In o a).
    { clear -Hi. induction s as [|x s IH]; [destruct Hi|]. destruct (Z.eq_dec x o) as [->|N]; [exists [], s; auto|].
      destruct Hi as [Hi|Hi]; [congruence|]. destruct (IH Hi) as (a & b & -> & Ha). exists (x :: a), b. split; auto. intros [X|X]; auto. }
    destruct X as (a & b & -> & Ha). specialize (H a b eq_refl Ha).
    pose proof (find_pos_at [] a b o Ha) as P. cbn [app] in P. change (len (@nil Z)) with 0 in P. rewrite P. cbn [bind].
    rewrite Z.add_0_l. pose proof (find_none_at (a ++ [o]) b c H) as P2. rewrite <- app_assoc in P2. cbn [app] in P2.
    rewrite len_app in P2. change (len [o]) with 1 in P2. rewrite P2. reflexivity.
  - rewrite find_c_notin by auto. reflexivity.
Qed.

(** ** pair_range_nested *)
Lemma balance_app o c a b : balance o c (a ++ b) = balance o c a + balance o c b.
Proof. induction a as [|x a IH]; cbn [balance app]; lia. Qed.
Lemma balance_free o c a : ~ In o a -> ~ In c a -> balance o c a = 0.
Proof.
  induction a as [|x a IH]; intros H1 H2; auto. cbn [balance]. cbn in H1, H2.
  replace (x =? o) with false by (symmetry; apply Z.eqb_neq; intros ->; tauto).
  replace (x =? c) with false by (symmetry; apply Z.eqb_neq; intros ->; tauto). rewrite IH by tauto. reflexivity.
Qed.
Definition nonneg_prefixes o c (m : list Z) : Prop := forall m1 m2, m = m1 ++ m2 -> 0 <= balance o c m1.
Lemma nonneg_snoc o c m x : nonneg_prefixes o c m -> 0 <= balance o c (m ++ [x]) -> nonneg_prefixes o c (m ++ [x]).
Proof.
  intros H H' m1 m2 E.
  destruct m2 as [|z m2 _] using rev_ind.
  - rewrite app_nil_r in E. subst. auto.
  - rewrite app_assoc in E. apply app_inj_tail in E. destruct E as [-> ->]. apply (H m1 m2). auto.
Qed.
Lemma nonneg_app_free o c m g : nonneg_prefixes o c m -> ~ In o g -> ~ In c g -> nonneg_prefixes o c (m ++ g).
Proof.
  revert m. induction g as [|x g IH]; intros m H H1 H2; [rewrite app_nil_r; auto|].
  cbn in H1, H2. replace (m ++ x :: g) with ((m ++ [x]) ++ g) by (rewrite <- app_assoc; reflexivity). apply IH; try tauto.
  apply nonneg_snoc; auto. rewrite balance_app. rewrite (balance_free o c [x]) by (cbn; tauto).
  rewrite Z.add_0_r. apply (H m []). rewrite app_nil_r; auto.
Qed.

(** the first [o] or [c] at or after a position *)
Lemma first_set_pos (t g r : list Z) x cs : (forall y, In y g -> ~ In y cs) -> In x cs ->
  first_of (t ++ g ++ x :: r) cs (Some (len t)) = Ok (Some (len t + len g)).
Proof.
  intros H Hx. set (s := t ++ g ++ x :: r). pose proof (nonneg_len g). pose proof (nonneg_len r). pose proof (nonneg_len t).
  assert (Ls : len s = len t + len g + 1 + len r) by (unfold s; rewrite !len_app, len_cons; lia).
  destruct (first_of_ok s cs (len t)) as (o & E & Ho); [lia|]. rewrite E. f_equal.
  eapply is_first_unique; [exact Ho|]. cbn. split; [lia|]. split.
  - unfold s. rewrite byte_at_app2 by lia. replace (len t + len g - len t) with (len g) by lia. rewrite byte_at_app2, Z.sub_diag by lia. auto.
  - intros j Hj X. apply (H (byte_at s j)); auto. unfold s. rewrite byte_at_app2, byte_at_app1 by lia. apply byte_at_in. lia.
Qed.
Lemma first_set_none (t g : list Z) cs : (forall y, In y g -> ~ In y cs) -> first_of (t ++ g) cs (Some (len t)) = Ok None.
Proof.
  intros H. pose proof (nonneg_len g). pose proof (nonneg_len t).
  destruct (first_of_ok (t ++ g) cs (len t)) as (o & E & Ho); [rewrite len_app; lia|]. rewrite E. f_equal.
  eapply is_first_unique; [exact Ho|]. cbn. intros j Hj X. rewrite len_app in Hj. apply (H (byte_at (t ++ g) j)); auto. rewrite byte_at_app2 by lia. apply byte_at_in. lia.
Qed.
Lemma first_of_set_cases (r cs : list Z) : (forall y, In y r -> ~ In y cs) \/
  exists g x r', r = g ++ x :: r' /\ (forall y, In y g -> ~ In y cs) /\ In x cs.
Proof.
  induction r as [|x r IH]; [left; intros y []|]. destruct (in_dec Z.eq_dec x cs) as [Hi|Hi].
  - right. exists [], x, r. repeat split; auto.
  - destruct IH as [IH|(g & z & r' & -> & Hg & Hz)].
    + left. intros y [->|Hy]; auto.
    + right. exists (x :: g), z, r'. repeat split; auto. intros y [->|Hy]; auto.
Qed.

Lemma nested_loop_ok (a : list Z) o c : o <> c -> forall fuel m r, small (a ++ o :: m ++ r) -> (length r < fuel)%nat ->
  nonneg_prefixes o c m ->
  let s := a ++ o :: m ++ r in
  (exists m' t, r = m' ++ c :: t /\ closes o c (m ++ m') /\
     nested_loop fuel s o c (len a) (len a + 1 + len m) (balance o c m) = Ok (Some (View (len a) (len (m ++ m') + 2)))) \/
  ((forall m' t, r = m' ++ c :: t -> ~ closes o c (m ++ m')) /\
     nested_loop fuel s o c (len a) (len a + 1 + len m) (balance o c m) = Ok None).
Proof.
  intros Hoc. induction fuel as [|fuel IH]; intros m r Hs Hf Hm s; [lia|]. cbn [nested_loop].
  pose proof (nonneg_len a). pose proof (nonneg_len m).
  assert (Es : s = (a ++ o :: m) ++ r) by (unfold s; rewrite <- app_assoc; reflexivity).
  assert (Lm : len a + 1 + len m = len (a ++ o :: m)) by (lens; lia).
  destruct (first_of_set_cases r [o; c]) as [Hfree|(g & x & r' & Er & Hg & Hx)].
  - right. split.
    + intros m' t ->. exfalso. apply (Hfree c); [apply in_or_app; right; left; auto|]. right; left; auto.
    + rewrite Lm, Es. rewrite first_set_none by auto. reflexivity.
  - assert (Hgo : ~ In o g) by (intros X; apply (Hg o X); left; auto).
    assert (Hgc : ~ In c g) by (intros X; apply (Hg c X); right; left; auto).
    assert (E1 : first_of s [o; c] (Some (len a + 1 + len m)) = Ok (Some (len a + 1 + len m + len g))).
    { rewrite Lm, Es, Er. apply first_set_pos; auto. }
    rewrite E1. cbn [bind].
    assert (Es2 : s = (a ++ o :: m ++ g) ++ x :: r') by (unfold s; rewrite Er, <- !app_assoc; cbn [app]; rewrite <- app_assoc; reflexivity).
    assert (Lg : len a + 1 + len m + len g = len (a ++ o :: m ++ g)) by (lens; lia).
    assert (E2 : rd s (len a + 1 + len m + len g) = Ok x).
    { rewrite Lg, Es2. pose proof (nonneg_len (a ++ o :: m ++ g)). pose proof (nonneg_len r'). rewrite rd_ok by (rewrite (len_app _ (x :: r')), len_cons; lia).
      rewrite byte_at_app2, Z.sub_diag by lia. reflexivity. }
    rewrite E2. cbn [bind].
    assert (Es3 : s = a ++ o :: (m ++ g ++ [x]) ++ r') by (unfold s; rewrite Er, <- !app_assoc; reflexivity).
    assert (Lx : len a + 1 + len m + len g + 1 = len a + 1 + len (m ++ g ++ [x])) by (lens; change (len [x]) with 1; lia).
    assert (Hmg : nonneg_prefixes o c (m ++ g)) by (apply nonneg_app_free; auto).
    assert (Bmg : balance o c (m ++ g) = balance o c m) by (rewrite balance_app, (balance_free o c g); auto; lia).
    assert (Bm : 0 <= balance o c m) by (apply (Hm m []); rewrite app_nil_r; auto).
    assert (Lf : (length r' < fuel)%nat) by (rewrite Er, app_length in Hf; cbn [length] in Hf; lia).
    assert (Hs' : small (a ++ o :: (m ++ g ++ [x]) ++ r')) by (rewrite <- Es3; exact Hs).
    assert (DEC : forall m' t, r = m' ++ c :: t -> closes o c (m ++ m') ->
                  (x = c /\ balance o c m = 0 /\ m' = g) \/ exists m'', m' = g ++ x :: m'' /\ r' = m'' ++ c :: t).
    { intros m' t E HC. rewrite Er in E. apply app_eq_app in E. destruct E as (d & [[E1' E2']|[E1' E2']]).
      - destruct d as [|z d].
        + rewrite app_nil_r in E1'. cbn [app] in E2'. injection E2' as -> ->. left. subst m'. destruct HC as (HC & _). rewrite Bmg in HC. auto.
        + cbn [app] in E2'. injection E2' as -> _. exfalso. apply Hgc. rewrite E1'. apply in_or_app; right; left; auto.
      - destruct d as [|z d].
        + cbn [app] in E2'. rewrite app_nil_r in E1'. injection E2' as -> ->. left. subst m'. destruct HC as (HC & _). rewrite Bmg in HC. auto.
        + cbn [app] in E2'. injection E2' as -> E3. right. exists d. split; auto. }
    assert (STEP : nonneg_prefixes o c (m ++ g ++ [x]) -> forall cnt, cnt = balance o c (m ++ g ++ [x]) ->
       ~ (x = c /\ balance o c m = 0) ->
      (exists m' t, r = m' ++ c :: t /\ closes o c (m ++ m') /\
         nested_loop fuel s o c (len a) (len a + 1 + len m + len g + 1) cnt = Ok (Some (View (len a) (len (m ++ m') + 2)))) \/
      ((forall m' t, r = m' ++ c :: t -> ~ closes o c (m ++ m')) /\
         nested_loop fuel s o c (len a) (len a + 1 + len m + len g + 1) cnt = Ok None)).
    { intros Hmgx cnt -> Hno. specialize (IH (m ++ g ++ [x]) r' Hs' Lf Hmgx). cbv zeta in IH. rewrite <- Es3, <- Lx in IH.
      destruct IH as [(m' & t & -> & HC & EN)|(HN & EN)].
      - left. exists (g ++ x :: m'), t. rewrite Er. split; [rewrite <- app_assoc; reflexivity|].
        replace (m ++ g ++ x :: m') with ((m ++ g ++ [x]) ++ m') by (rewrite <- !app_assoc; reflexivity). auto.
      - right. split; auto. intros m' t E HC. destruct (DEC m' t E HC) as [(X1 & X2 & X3)|(m'' & -> & E')]; [tauto|].
        apply (HN m'' t E'). replace ((m ++ g ++ [x]) ++ m'') with (m ++ g ++ x :: m'') by (rewrite <- !app_assoc; reflexivity). auto. }
    assert (Bx : balance o c (m ++ g ++ [x]) = balance o c m + (if x =? o then 1 else if x =? c then -1 else 0)).
    { rewrite app_assoc, balance_app, Bmg. cbn [balance]. lia. }
    destruct (Z.eqb_spec x o) as [->|Nxo].
    + apply STEP; try tauto.
      * rewrite app_assoc. apply nonneg_snoc; auto. rewrite <- app_assoc, Bx. lia.
      * rewrite Bx. reflexivity.
    + destruct Hx as [Hx|[Hx|[]]]; [congruence|]. subst x. rewrite Z.eqb_refl in *.
      destruct (Z.eqb_spec (balance o c m) 0) as [B0|B0].
      * left. exists g, r'. split; auto. split; [split; [lia|exact Hmg]|].
        nas. pose proof (nonneg_len r').
        assert (Ls : len s = len a + 1 + len m + len g + 1 + len r') by (rewrite Es2; lens; lia).
        pose proof (nonneg_len g). fold s in Hs.
        rewrite range_ok by lia. cbn [bind]. do 3 f_equal. lens. lia.
      * apply STEP; try lia; try (rewrite Bx; lia).
        rewrite app_assoc. apply nonneg_snoc; auto. rewrite <- app_assoc, Bx. lia.
Qed.
Lemma first_occ (s : list Z) o : In o s -> exists a b, s = a ++ o :: b /\ ~ In o a.
Proof.
  induction s as [|x s IH]; intros Hi; [destruct Hi|]. destruct (Z.eq_dec x o) as [->|N]; [exists [], s; auto|].
  destruct Hi as [Hi|Hi]; [congruence|]. destruct (IH Hi) as (a & b & -> & Ha). exists (x :: a), b. split; auto. intros [X|X]; auto.
Qed.
Lemma closes_unique o c m m' t t' : o <> c -> closes o c m -> closes o c m' -> m ++ c :: t = m' ++ c :: t' -> m = m' /\ t = t'.
Proof.
  intros Hoc (H1 & H2) (H3 & H4) E. apply app_eq_app in E. destruct E as (d & [[E1 E2]|[E1 E2]]); destruct d as [|z d].
  - rewrite app_nil_r in E1. cbn in E2. injection E2 as ->. auto.
  - cbn in E2. injection E2 as <- E3. exfalso. pose proof (H2 (m' ++ [c]) d) as X. rewrite <- app_assoc in X. specialize (X E1).
    rewrite balance_app, H3 in X. cbn [balance] in X. replace (c =? o) with false in X by (symmetry; apply Z.eqb_neq; auto). rewrite Z.eqb_refl in X. lia.
  - rewrite app_nil_r in E1. cbn in E2. injection E2 as ->. auto.
  - cbn in E2. injection E2 as <- E3. exfalso. pose proof (H4 (m ++ [c]) d) as X. rewrite <- app_assoc in X. specialize (X E1).
    rewrite balance_app, H1 in X. cbn [balance] in X. replace (c =? o) with false in X by (symmetry; apply Z.eqb_neq; auto). rewrite Z.eqb_refl in X. lia.
Qed.
Lemma pair_range_nested_cases s o c : small s -> o <> c ->
  (exists a m t, s = a ++ o :: m ++ c :: t /\ ~ In o a /\ closes o c m /\ pair_range_nested s o c = Ok (Some (View (len a) (len m + 2)))) \/
  ((forall a m t, s = a ++ o :: m ++ c :: t -> ~ In o a -> ~ closes o c m) /\ pair_range_nested s o c = Ok None).
Proof.
  intros Hs Hoc. unfold pair_range_nested. destruct (in_dec Z.eq_dec o s) as [Hi|Hi].
  - destruct (first_occ s o Hi) as (a & b & -> & Ha).
    pose proof (find_pos_at [] a b o Ha) as P. cbn [app] in P. change (len (@nil Z)) with 0 in P. rewrite P. cbn [bind]. rewrite Z.add_0_l.
    destruct (nested_loop_ok a o c Hoc (S (Z.to_nat (len (a ++ o :: b)))) [] b) as [(m' & t & Eb & HC & EN)|(HN & EN)]; auto.
    { rewrite to_nat_len, app_length. cbn [length]. lia. }
    { intros m1 m2 E. symmetry in E. apply app_eq_nil in E. destruct E as [-> _]. cbn. lia. }
    + cbn [app] in *. change (len (@nil Z)) with 0 in *. rewrite Z.add_0_r in EN. left. exists a, m', t. rewrite Eb in *. auto.
    + cbn [app] in *. change (len (@nil Z)) with 0 in *. rewrite Z.add_0_r in EN. right. split; auto.
      intros a' m t E Ha'. apply head_unique in E; auto. destruct E as [_ E]. apply (HN m t E).
  - right. rewrite find_c_notin by auto. split; auto. intros a m t -> _. exfalso. apply Hi, in_or_app; right; left; auto.
Qed.
Lemma pair_range_nested_some (a m t : list Z) o c : small (a ++ o :: m ++ c :: t) -> o <> c -> ~ In o a -> closes o c m ->
  pair_range_nested (a ++ o :: m ++ c :: t) o c = Ok (Some (View (len a) (len m + 2))).
Proof.
  intros Hs Hoc Ha HC. destruct (pair_range_nested_cases _ o c Hs Hoc) as [(a' & m' & t' & E & Ha' & HC' & EN)|(HN & EN)].
  - rewrite EN. apply head_unique in E; auto. destruct E as [<- E]. apply closes_unique with (o := o) in E; auto. destruct E as [<- _]. reflexivity.
  - destruct (HN a m t); auto.
Qed.

(** ** pair_range_esc *)
Lemma esc_loop (s : list Z) q esc b : small s -> 0 <= b < len s ->
  exists r, for_up (Z.to_nat (len s - (b + 1))) (b + 1) (fun i =>
        do c <- rd s i ;;
        if c =? q then
          do d <- rd s (i - 1) ;;
          if negb (d =? esc) then do v <- range (len s) b (i + 1) ;; Ok (Some v) else Ok None
        else Ok None) = Ok (option_map (fun e => View b (e + 1 - b)) r) /\
    is_first (fun i => byte_at s i = q /\ byte_at s (i - 1) <> esc) (b + 1) (len s) r.
Proof.
  nas. intros Hs Hb.
  destruct (for_up_first (fun i =>
        do c <- rd s i ;;
        if c =? q then
          do d <- rd s (i - 1) ;;
          if negb (d =? esc) then do v <- range (len s) b (i + 1) ;; Ok (Some v) else Ok None
        else Ok None) (Z.to_nat (len s - (b + 1))) (b + 1) (fun i => byte_at s i = q /\ byte_at s (i - 1) <> esc) (fun e => View b (e + 1 - b))) as (o & E & Ho).
  { intros j Hj. rewrite !rd_ok by lia. cbn [bind]. destruct (Z.eqb_spec (byte_at s j) q); [|right; tauto].
    destruct (Z.eqb_spec (byte_at s (j - 1)) esc); cbn [negb]; [right; tauto|]. left. split; auto. rewrite range_ok by lia. reflexivity. }
  exists o. split; [exact E|]. replace (b + 1 + Z.of_nat (Z.to_nat (len s - (b + 1)))) with (len s) in Ho by lia. exact Ho.
Qed.
Lemma pair_range_esc_some (a m t : list Z) q esc : small (a ++ q :: m ++ q :: t) -> ~ In q a ->
  ~ ends_in esc (q :: m) -> (forall m1 m2, m = m1 ++ q :: m2 -> ends_in esc (q :: m1)) ->
  pair_range_esc (a ++ q :: m ++ q :: t) q esc = Ok (Some (View (len a) (len m + 2))).
Proof.
  intros Hs Ha Hm Hin. unfold pair_range_esc.
  pose proof (find_pos_at [] a (m ++ q :: t) q Ha) as P. cbn [app] in P. change (len (@nil Z)) with 0 in P. rewrite P. cbn [bind]. rewrite Z.add_0_l.
  set (s := a ++ q :: m ++ q :: t) in *. pose proof (nonneg_len a). pose proof (nonneg_len m). pose proof (nonneg_len t).
  assert (Ls : len s = len a + 1 + len m + 1 + len t) by (unfold s; lens; lia).
  destruct (esc_loop s q esc (len a) Hs) as (o & E & Ho); [lia|]. rewrite E.
  assert (PREV : forall m1 m2, q :: m ++ q :: t = m1 ++ q :: m2 -> m1 <> [] -> byte_at s (len a + len m1 - 1) = esc -> ends_in esc m1).
  { intros m1 m2 Em Hne HB. destruct (exists_last Hne) as (m1' & y & ->). exists m1'. f_equal. f_equal. rewrite <- HB. unfold s. rewrite Em.
    rewrite byte_at_app2 by (rewrite len_app; change (len [y]) with 1; pose proof (nonneg_len m1'); lia).
    rewrite byte_at_app1 by (rewrite len_app; change (len [y]) with 1; pose proof (nonneg_len m1'); lia).
    rewrite byte_at_app2 by (rewrite len_app; change (len [y]) with 1; lia). rewrite len_app. change (len [y]) with 1.
    replace (len a + (len m1' + 1) - 1 - len a - len m1') with 0 by lia. reflexivity. }
  assert (X : o = Some (len a + 1 + len m)).
  { eapply is_first_unique; [exact Ho|]. cbn. split; [lia|]. split.
    - split.
      + unfold s. change (a ++ q :: m ++ q :: t) with (a ++ (q :: m) ++ q :: t). rewrite app_assoc, byte_at_app2 by (lens; lia).
        replace (len a + 1 + len m - len (a ++ q :: m)) with 0 by (lens; lia). reflexivity.
      + intros HB. apply Hm. apply (PREV (q :: m) t); auto; [discriminate|]. rewrite len_cons. rewrite <- HB. f_equal. lia.
    - intros j Hj (HB & HE). apply HE. 
      destruct (split_elem m (j - len a - 1)) as (m1 & m2 & Em & Lm1); [lia|].
      assert (EB : byte_at s j = byte_at m (j - len a - 1)).
      { unfold s. rewrite byte_at_app2, byte_at_consS, byte_at_app1 by lia. reflexivity. }
      rewrite HB in EB. rewrite <- EB in Em. destruct (Hin m1 m2 Em) as (r & Er).
      assert (Lr : len r = len m1). { apply (f_equal len) in Er. rewrite len_cons, len_app in Er. change (len [esc]) with 1 in Er. lia. }
      unfold s. rewrite Em. replace (a ++ q :: (m1 ++ q :: m2) ++ q :: t) with (a ++ (q :: m1) ++ q :: m2 ++ q :: t) by (rewrite <- !app_assoc; reflexivity).
      rewrite Er. rewrite byte_at_app2 by lia. rewrite byte_at_app1 by (rewrite len_app; change (len [esc]) with 1; lia).
      rewrite byte_at_app2 by lia. replace (j - 1 - len a - len r) with 0 by lia. reflexivity. }
  subst o. cbn [option_map]. do 3 f_equal. lia.
Qed.
Lemma pair_range_esc_none (s : list Z) q esc : small s ->
  (forall a m t, s = a ++ q :: m ++ q :: t -> ~ In q a -> ends_in esc (q :: m)) ->
  pair_range_esc s q esc = Ok None.
Proof.
  intros Hs H. unfold pair_range_esc. destruct (in_dec Z.eq_dec q s) as [Hi|Hi].
  - destruct (first_occ s q Hi) as (a & b & -> & Ha).
    pose proof (find_pos_at [] a b q Ha) as P. cbn [app] in P. change (len (@nil Z)) with 0 in P. rewrite P. cbn [bind]. rewrite Z.add_0_l.
    pose proof (nonneg_len a). pose proof (nonneg_len b).
    destruct (esc_loop (a ++ q :: b) q esc (len a) Hs) as (o & E & Ho); [lens; lia|]. rewrite E.
    destruct o as [i|]; [|reflexivity]. exfalso. destruct Ho as (G1 & (G2 & G3) & _). apply G3.
    destruct (split_elem b (i - len a - 1)) as (m & t & Eb & Lm). { lens; lia. }
    assert (EB : byte_at (a ++ q :: b) i = byte_at b (i - len a - 1)) by (rewrite byte_at_app2, byte_at_consS by lia; reflexivity).
    rewrite G2 in EB. rewrite <- EB in Eb. destruct (H a m t) as (r & Er); auto. { rewrite Eb; auto. }
    assert (Lr : len r = len m). { apply (f_equal len) in Er. rewrite len_cons, len_app in Er. change (len [esc]) with 1 in Er. lia. }
    rewrite Eb. change (a ++ q :: m ++ q :: t) with (a ++ (q :: m) ++ q :: t). rewrite Er. pose proof (nonneg_len m).
    rewrite byte_at_app2 by lia. rewrite byte_at_app1 by (rewrite len_app; change (len [esc]) with 1; lia).
    rewrite byte_at_app2 by lia. replace (i - 1 - len a - len r) with 0 by lia. reflexivity.
  - rewrite find_c_notin by auto. reflexivity.
Qed.
(** a properly quoted string without doubled escapes satisfies the hypotheses *)
Lemma quoted_simple q esc m : q <> esc -> quoted q esc m -> (forall a b, m <> a ++ esc :: esc :: b) ->
  ~ ends_in esc m /\ (forall m1 m2, m = m1 ++ q :: m2 -> ends_in esc m1).
Proof.
  intros Hqe HQ. induction HQ as [|c r Hc1 Hc2 HQ IH|c r HQ IH]; intros Hd.
  - split; [intros (r & E); destruct r; discriminate|]. intros m1 m2 E. destruct m1; discriminate.
  - destruct IH as [IH1 IH2]. { intros a b E. apply (Hd (c :: a) b). rewrite E. reflexivity. }
    split.
    + intros (u & E). destruct u as [|y u]; cbn in E; injection E as -> E; [congruence|]. apply IH1. exists u. auto.
    + intros m1 m2 E. destruct m1 as [|y m1]; cbn in E; injection E as -> E; [congruence|].
      destruct (IH2 m1 m2 E) as (u & ->). exists (y :: u). reflexivity.
  - destruct IH as [IH1 IH2]. { intros a b E. apply (Hd (esc :: c :: a) b). rewrite E. reflexivity. }
    assert (Hce : c <> esc) by (intros ->; apply (Hd [] r); reflexivity).
    split.
    + intros (u & E). destruct u as [|y [|z u]]; cbn in E; [discriminate|injection E as _ -> _; congruence|].
      injection E as <- -> E. apply IH1. exists u. auto.
    + intros m1 m2 E. destruct m1 as [|y [|z m1]]; cbn in E.
      * injection E as E _. congruence.
      * injection E as <- <- <-. exists []. reflexivity.
      * injection E as <- -> E. destruct (IH2 m1 m2 E) as (u & ->). exists (esc :: z :: u). reflexivity.
Qed.
Lemma pair_range_esc_quoted (a m t : list Z) q esc : small (a ++ q :: m ++ q :: t) -> ~ In q a -> q <> esc ->
  quoted q esc m -> (forall x y, m <> x ++ esc :: esc :: y) ->
  pair_range_esc (a ++ q :: m ++ q :: t) q esc = Ok (Some (View (len a) (len m + 2))).
Proof.
  intros Hs Ha Hqe HQ Hd. destruct (quoted_simple q esc m Hqe HQ Hd) as [H1 H2].
  apply pair_range_esc_some; auto.
  - intros (u & E). destruct u as [|y u]; cbn in E; injection E as -> E; [congruence|]. apply H1. exists u. auto.
  - intros m1 m2 E. destruct (H2 m1 m2 E) as (u & ->). exists (q :: u). reflexivity.
Qed.
