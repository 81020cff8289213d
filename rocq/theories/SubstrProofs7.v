(** Popping, path-like methods and bracketed ranges. *)
From Verif Require Import Base BaseLemmas ScanModel CharconvSpec SubstrModel SubstrSpec SubstrProofs SubstrProofs2 SubstrProofs3 SubstrProofs4 SubstrProofs5.

(** ** where the searches land in a decomposed string *)
Lemma last_pos_at (l r t : list Z) c : ~ In c r ->
  last_of_c (l ++ c :: r ++ t) c (Some (len l + 1 + len r)) = Ok (Some (len l)).
Proof.
  intros H. set (s := l ++ c :: r ++ t). pose proof (nonneg_len l). pose proof (nonneg_len r). pose proof (nonneg_len t).
  assert (Ls : len s = len l + 1 + len r + len t) by (unfold s; rewrite len_app, len_cons, len_app; lia).
  destruct (last_of_c_ok s c (len l + 1 + len r)) as (o & E & Ho); [lia|]. rewrite E. f_equal.
  eapply is_last_unique; [exact Ho|]. cbn. split; [lia|]. split.
  - unfold s. rewrite byte_at_app2, Z.sub_diag by lia. reflexivity.
  - intros j Hj X. apply H. rewrite <- X. unfold s. rewrite byte_at_app2, byte_at_consS, byte_at_app1 by lia. apply byte_at_in. lia.
Qed.
Lemma last_none_at (r t : list Z) c : ~ In c r -> last_of_c (r ++ t) c (Some (len r)) = Ok None.
Proof.
  intros H. pose proof (nonneg_len r). pose proof (nonneg_len t).
  destruct (last_of_c_ok (r ++ t) c (len r)) as (o & E & Ho); [rewrite len_app; lia|]. rewrite E. f_equal.
  eapply is_last_unique; [exact Ho|]. cbn. intros j Hj X. apply H. rewrite <- X. rewrite byte_at_app1 by lia. apply byte_at_in; lia.
Qed.
Lemma last_of_npos s c : last_of_c s c None = last_of_c s c (Some (len s)).
Proof. unfold last_of_c. rewrite bwd_from_npos. pose proof (nonneg_len s). rewrite chk_ok by lia. reflexivity. Qed.
Lemma last_not_of_npos s c : last_not_of_c s c None = last_not_of_c s c (Some (len s)).
Proof. unfold last_not_of_c. rewrite bwd_from_npos. pose proof (nonneg_len s). rewrite chk_ok by lia. reflexivity. Qed.
Lemma last_pos (l r : list Z) c : ~ In c r -> last_of_c (l ++ c :: r) c None = Ok (Some (len l)).
Proof.
  intros H. rewrite last_of_npos. pose proof (last_pos_at l r [] c H) as P. rewrite app_nil_r in P.
  rewrite len_app, len_cons. rewrite <- P. f_equal. f_equal. lia.
Qed.
Lemma last_none (r : list Z) c : ~ In c r -> last_of_c r c None = Ok None.
Proof. intros H. rewrite last_of_npos. pose proof (last_none_at r [] c H) as P. rewrite app_nil_r in P. exact P. Qed.
Lemma first_pos_at (t l r : list Z) c : ~ In c l ->
  first_of_c (t ++ l ++ c :: r) c (Some (len t)) = Ok (Some (len t + len l)).
Proof.
  intros H. set (s := t ++ l ++ c :: r). pose proof (nonneg_len l). pose proof (nonneg_len r). pose proof (nonneg_len t).
  assert (Ls : len s = len t + len l + 1 + len r) by (unfold s; rewrite !len_app, len_cons; lia).
  destruct (first_of_c_ok s c (len t)) as (o & E & Ho); [lia|]. rewrite E. f_equal.
  eapply is_first_unique; [exact Ho|]. cbn. split; [lia|]. split.
  - unfold s. rewrite byte_at_app2 by lia. replace (len t + len l - len t) with (len l) by lia. rewrite byte_at_app2, Z.sub_diag by lia. reflexivity.
  - intros j Hj X. apply H. rewrite <- X. unfold s. rewrite byte_at_app2, byte_at_app1 by lia. apply byte_at_in. lia.
Qed.
Lemma first_none_at (t l : list Z) c : ~ In c l -> first_of_c (t ++ l) c (Some (len t)) = Ok None.
Proof.
  intros H. pose proof (nonneg_len l). pose proof (nonneg_len t).
  destruct (first_of_c_ok (t ++ l) c (len t)) as (o & E & Ho); [rewrite len_app; lia|]. rewrite E. f_equal.
  eapply is_first_unique; [exact Ho|]. cbn. intros j Hj X. rewrite len_app in Hj. apply H. rewrite <- X. rewrite byte_at_app2 by lia. apply byte_at_in; lia.
Qed.
Lemma last_not_pos (l r : list Z) x c : x <> c -> Forall (fun y => y = c) r ->
  last_not_of_c (l ++ x :: r) c None = Ok (Some (len l)).
Proof.
  intros H HF. rewrite last_not_of_npos. set (s := l ++ x :: r). pose proof (nonneg_len l). pose proof (nonneg_len r).
  assert (Ls : len s = len l + 1 + len r) by (unfold s; rewrite len_app, len_cons; lia).
  destruct (last_not_of_c_ok s c (len s)) as (o & E & Ho); [lia|]. rewrite E. f_equal.
  eapply is_last_unique; [exact Ho|]. cbn. split; [lia|]. split.
  - unfold s. rewrite byte_at_app2, Z.sub_diag by lia. exact H.
  - intros j Hj X. apply X. unfold s. rewrite byte_at_app2, byte_at_consS by lia.
    apply (Forall_at (fun y => y = c)); auto. lia.
Qed.
Lemma last_not_none (r : list Z) c : Forall (fun y => y = c) r -> last_not_of_c r c None = Ok None.
Proof.
  intros HF. rewrite last_not_of_npos. pose proof (nonneg_len r).
  destruct (last_not_of_c_ok r c (len r)) as (o & E & Ho); [lia|]. rewrite E. f_equal.
  eapply is_last_unique; [exact Ho|]. cbn. intros j Hj X. apply X. apply (Forall_at (fun y => y = c)); auto.
Qed.
Lemma first_not_pos (l r : list Z) x c : x <> c -> Forall (fun y => y = c) l ->
  first_not_of_c (l ++ x :: r) c 0 = Ok (Some (len l)).
Proof.
  intros H HF. set (s := l ++ x :: r). pose proof (nonneg_len l). pose proof (nonneg_len r).
  assert (Ls : len s = len l + 1 + len r) by (unfold s; rewrite len_app, len_cons; lia).
  destruct (first_not_of_c_ok s c 0) as (o & E & Ho); [lia|]. rewrite E. f_equal.
  eapply is_first_unique; [exact Ho|]. cbn. split; [lia|]. split.
  - unfold s. rewrite byte_at_app2, Z.sub_diag by lia. exact H.
  - intros j Hj X. apply X. unfold s. rewrite byte_at_app1 by lia. apply (Forall_at (fun y => y = c)); auto.
Qed.
Lemma first_not_none (r : list Z) c : Forall (fun y => y = c) r -> first_not_of_c r c 0 = Ok None.
Proof.
  intros HF. pose proof (nonneg_len r).
  destruct (first_not_of_c_ok r c 0) as (o & E & Ho); [lia|]. rewrite E. f_equal.
  eapply is_first_unique; [exact Ho|]. cbn. intros j Hj X. apply X. apply (Forall_at (fun y => y = c)); auto.
Qed.

Ltac lens := repeat (progress (rewrite ?len_app, ?len_cons, ?len_nil in *)).

(** ** pop_right, gpop_left *)

Lemma one_elem (s : list Z) : len s = 1 -> exists x, s = [x].
Proof.
  destruct s as [|x [|y s]]; intros H.
  - discriminate.
  - eauto.
  - rewrite !len_cons in H. pose proof (nonneg_len s). lia.
Qed.
Lemma pop_right_sep (l r : list Z) c : small (l ++ c :: r) -> ~ In c r ->
  exists v, pop_right (l ++ c :: r) c false = Ok (Some v) /\ vin v (l ++ c :: r) /\
    contents (l ++ c :: r) v = r /\ (vo v = len l + 1 \/ l = [] /\ r = [] /\ v = View 0 0).
Proof.
  nas. intros Hs H. set (s := l ++ c :: r) in *. pose proof (nonneg_len l). pose proof (nonneg_len r).
  assert (Ls : len s = len l + 1 + len r) by (unfold s; lens; lia). unfold pop_right.
  destruct (Z.ltb_spec 1 (len s)).
  - unfold s at 1. rewrite last_pos by auto. cbn [bind].
    assert (C : contents s (View (len l + 1) (len r)) = r).
    { replace (len l + 1) with (len (l ++ [c])) by (lens; lia). apply (contents_app _ _ _ []). unfold s. rewrite app_nil_r, <- app_assoc. reflexivity. }
    destruct (Z.ltb_spec (len l + 1) (len s)).
    + rewrite sub1_ok by lia. unfold some_v. cbn [bind]. replace (len s - (len l + 1)) with (len r) by lia.
      eexists; split; [reflexivity|]. split; [apply vin_view; lia|]. auto.
    + cbn [negb]. rewrite sub2_ok by lia. unfold some_v. cbn [bind]. replace 0 with (len r) by lia.
      eexists; split; [reflexivity|]. split; [apply vin_view; lia|]. auto.
  - assert (l = []) by (apply len_0_nil; lia). assert (r = []) by (apply len_0_nil; lia). subst l r.
    change s with [c]. exists (View 0 0). split.
    { cbn. unfold begins_with_c. cbn. rewrite Z.eqb_refl. reflexivity. }
    split; [apply vin_view; cbn; lia|]. split; auto.
Qed.
Lemma pop_right_nosep s c skip : ~ In c s ->
  exists o, pop_right s c skip = Ok o /\ ocontents s o = s /\ (o = None <-> s = []) /\ (s <> [] -> o = Some (full s)).
Proof.
  intros H. unfold pop_right. pose proof (nonneg_len s). destruct (Z.ltb_spec 1 (len s)).
  - rewrite last_none by auto. cbn [bind]. eexists; split; [reflexivity|]. split; [apply contents_full|].
    split; auto. split; [discriminate|intros ->; discriminate].
  - destruct (Z.eqb_spec (len s) 1) as [E|E].
    + destruct (begins_with_c_ok s c) as (b & Eb & Hb). rewrite Eb. cbn [bind]. destruct b.
      { destruct Hb as [Hb _]. destruct (Hb eq_refl) as (r & Er). destruct H. rewrite Er. left; auto. }
      eexists; split; [reflexivity|]. split; [apply contents_full|].
      split; auto. split; [discriminate|intros ->; discriminate].
    + assert (s = []) by (apply len_0_nil; lia). subst. exists None. split; [reflexivity|]. cbn. split; auto. split; [tauto|congruence].
Qed.

Lemma find_c_in s c : In c s -> exists p, find_c s c (Some 0) = Ok (Some p).
Proof.
  intros H. pose proof (nonneg_len s). destruct (find_c_ok s c 0) as (o & E & Ho); [lia|]. rewrite E. destruct o as [p|]; eauto.
  exfalso. apply in_byte_at in H. destruct H as (i & Hi & Ei). apply (Ho i); [lia|]. apply occurs_char. auto.
Qed.
Lemma find_c_notin s c : ~ In c s -> find_c s c (Some 0) = Ok None.
Proof. intros H. apply (first_none_at [] s c H). Qed.
Lemma ends_with_snoc l c : ends_with_c (l ++ [c]) c = Ok true.
Proof.
  destruct (ends_with_c_ok (l ++ [c]) c) as (b & E & Hb). rewrite E. f_equal. apply Hb. eauto.
Qed.
Lemma begins_with_cons l c : begins_with_c (c :: l) c = Ok true.
Proof.
  destruct (begins_with_c_ok (c :: l) c) as (b & E & Hb). rewrite E. f_equal. apply Hb. eauto.
Qed.
Lemma gpop_left_sep (l r : list Z) c : small (l ++ c :: r) -> ~ In c r ->
  exists v, gpop_left (l ++ c :: r) c false = Ok v /\ vin v (l ++ c :: r) /\ contents (l ++ c :: r) v = l.
Proof.
  intros Hs H. destruct (pop_right_sep l r c Hs H) as (v & E & Hv & Hc & HD). unfold gpop_left. rewrite E. cbn [bind].
  set (s := l ++ c :: r) in *. nas. pose proof (nonneg_len l). pose proof (nonneg_len r).
  assert (Ls : len s = len l + 1 + len r) by (unfold s; lens; lia).
  destruct HD as [HD|(-> & -> & ->)].
  - destruct Hv as (V1 & V2 & V3).
    assert (EL : left_of_v (len s) (Some v) = Ok (View 0 (len l + 1))).
    { unfold left_of_v. replace (is_super_v (len s) v || (vl v =? 0)) with true.
      2:{ symmetry. unfold is_super_v. replace (0 <? len s) with true by lia. lia. }
      cbn [assert]. replace ((0 <=? vo v) && (vo v <=? len s)) with true by lia. rewrite HD. apply sub2_ok; lia. }
    rewrite EL. cbn [bind].
    assert (C1 : contents s (View 0 (len l + 1)) = l ++ [c]).
    { replace (len l + 1) with (len (l ++ [c])) by (lens; lia). apply (contents_head _ _ r). unfold s. rewrite <- app_assoc. reflexivity. }
    rewrite C1. destruct (find_c_in (l ++ [c]) c) as (p & Ef). { apply in_or_app; right; left; auto. }
    rewrite Ef. cbn [bind]. rewrite ends_with_snoc. cbn [bind]. unfold on_sub. rewrite C1.
    rewrite sub2_ok by (lens; lia). cbn [bind vo vl]. eexists; split; [reflexivity|].
    replace (len (l ++ [c]) - 1) with (len l) by (lens; lia). split; [apply vin_view; lia|].
    apply (contents_head _ _ (c :: r)). reflexivity.
  - change s with [c]. cbn. eexists; split; [reflexivity|]. split; [apply vin_view; cbn; lia|reflexivity].
Qed.
Lemma gpop_left_nosep s c skip : small s -> ~ In c s ->
  exists v, gpop_left s c skip = Ok v /\ vin v s /\ contents s v = [].
Proof.
  nas. intros Hs H. destruct (pop_right_nosep s c skip H) as (o & E & _ & H1 & H2). unfold gpop_left. rewrite E. cbn [bind].
  pose proof (nonneg_len s). destruct s as [|x s].
  - replace o with (@None view) by (symmetry; apply H1; auto). cbn. eexists; split; [reflexivity|]. split; [apply vin_view; cbn; lia|reflexivity].
  - rewrite H2 by discriminate. unfold left_of_v, full. cbn [vo vl].
    assert (L : 0 < len (x :: s)) by (rewrite len_cons; pose proof (nonneg_len s); lia).
    replace (is_super_v (len (x :: s)) (View 0 (len (x :: s))) || (len (x :: s) =? 0)) with true.
    2:{ unfold is_super_v. cbn [vo vl]. replace (0 <? len (x :: s)) with true by lia. lia. }
    cbn [assert]. replace ((0 <=? 0) && (0 <=? len (x :: s))) with true by lia. rewrite sub2_ok by lia. cbn [bind].
    replace (contents (x :: s) (View 0 0)) with (@nil Z) by reflexivity. rewrite find_c_notin by auto. cbn [bind].
    eexists; split; [reflexivity|]. split; [apply vin_view; lia|reflexivity].
Qed.

(** ** pop_left, gpop_right *)
Lemma pop_left_sep (l r : list Z) c : small (l ++ c :: r) -> ~ In c l ->
  exists v, pop_left (l ++ c :: r) c false = Ok (Some v) /\ vo v = 0 /\ vl v = len l.
Proof.
  nas. intros Hs H. set (s := l ++ c :: r) in *. pose proof (nonneg_len l). pose proof (nonneg_len r).
  assert (Ls : len s = len l + 1 + len r) by (unfold s; lens; lia). unfold pop_left.
  destruct (Z.ltb_spec 1 (len s)).
  - pose proof (first_pos_at [] l r c H) as P. cbn [app] in P. change (len (@nil Z)) with 0 in P. fold s in P. rewrite P. cbn [bind].
    rewrite Z.add_0_l. destruct (Z.ltb_spec 0 (len l)).
    + rewrite sub2_ok by lia. unfold some_v. cbn. eauto.
    + cbn [negb]. rewrite sub2_ok by lia. unfold some_v. cbn. eexists; split; [reflexivity|]. cbn. lia.
  - assert (l = []) by (apply len_0_nil; lia). assert (r = []) by (apply len_0_nil; lia). subst l r.
    change s with [c]. exists (View 0 0). split; auto. cbn. unfold begins_with_c. cbn. rewrite Z.eqb_refl. reflexivity.
Qed.
Lemma pop_left_nosep s c skip : small s -> ~ In c s ->
  exists o, pop_left s c skip = Ok o /\ ocontents s o = s /\ (o = None <-> s = []) /\ (s <> [] -> o = Some (full s)).
Proof.
  nas. intros Hs H. unfold pop_left. pose proof (nonneg_len s).
  assert (F : sub1 (len s) 0 = Ok (full s)) by (rewrite sub1_ok by lia; unfold full; do 2 f_equal; lia).
  destruct (Z.ltb_spec 1 (len s)).
  - pose proof (first_none_at [] s c H) as P. cbn [app] in P. change (len (@nil Z)) with 0 in P. rewrite P. cbn [bind]. rewrite F. unfold some_v; cbn [bind].
    eexists; split; [reflexivity|]. split; [apply contents_full|]. split; auto. split; [discriminate|intros ->; discriminate].
  - destruct (Z.eqb_spec (len s) 1) as [E|E].
    + destruct (begins_with_c_ok s c) as (b & Eb & Hb). rewrite Eb. cbn [bind]. destruct b.
      { destruct Hb as [Hb _]. destruct (Hb eq_refl) as (r & Er). destruct H. rewrite Er. left; auto. }
      rewrite F. unfold some_v; cbn [bind]. eexists; split; [reflexivity|]. split; [apply contents_full|].
      split; auto. split; [discriminate|intros ->; discriminate].
    + assert (s = []) by (apply len_0_nil; lia). subst. exists None. split; [reflexivity|]. cbn. split; auto. split; [tauto|congruence].
Qed.
Lemma right_of_v_at s v : small s -> vin v s -> right_of_v (len s) (Some v) = Ok (View (vo v + vl v) (len s - (vo v + vl v))).
Proof.
  nas. intros Hs (V1 & V2 & V3). unfold right_of_v.
  replace (is_super_v (len s) v || (vl v =? 0)) with true.
  2:{ symmetry. unfold is_super_v. destruct (0 <? len s) eqn:E; lia. }
  cbn [assert]. replace ((0 <=? vo v + vl v) && (vo v + vl v <=? len s)) with true by lia. apply sub2_ok; lia.
Qed.
Lemma left_of_v_at s v : small s -> vin v s -> left_of_v (len s) (Some v) = Ok (View 0 (vo v)).
Proof.
  nas. intros Hs (V1 & V2 & V3). unfold left_of_v.
  replace (is_super_v (len s) v || (vl v =? 0)) with true.
  2:{ symmetry. unfold is_super_v. destruct (0 <? len s) eqn:E; lia. }
  cbn [assert]. replace ((0 <=? vo v) && (vo v <=? len s)) with true by lia. apply sub2_ok; lia.
Qed.
Lemma gpop_right_sep (l r : list Z) c : small (l ++ c :: r) -> ~ In c l ->
  exists v, gpop_right (l ++ c :: r) c false = Ok v /\ vin v (l ++ c :: r) /\ contents (l ++ c :: r) v = r.
Proof.
  intros Hs H. destruct (pop_left_sep l r c Hs H) as (v & E & V1 & V2). unfold gpop_right. rewrite E. cbn [bind].
  set (s := l ++ c :: r) in *. pose proof (nonneg_len l). pose proof (nonneg_len r).
  assert (Ls : len s = len l + 1 + len r) by (unfold s; lens; lia).
  rewrite right_of_v_at by (auto; unfold vin; lia). cbn [bind]. rewrite V1, V2, Z.add_0_l. nas.
  assert (C1 : contents s (View (len l) (len s - len l)) = c :: r) by (apply contents_tail; reflexivity).
  rewrite C1. destruct (find_c_in (c :: r) c) as (p & Ef); [left; auto|]. rewrite Ef. cbn [bind].
  rewrite begins_with_cons. cbn [bind]. unfold on_sub. rewrite C1. rewrite sub1_ok by (lens; lia). cbn [bind vo vl].
  eexists; split; [reflexivity|]. split; [apply vin_view; lens; lia|].
  replace (len l + 1) with (len (l ++ [c])) by (lens; lia). replace (len (c :: r) - 1) with (len r) by (lens; lia).
  apply (contents_app _ _ _ []). unfold s. rewrite app_nil_r, <- app_assoc. reflexivity.
Qed.
Lemma gpop_right_nosep s c skip : small s -> ~ In c s ->
  exists v, gpop_right s c skip = Ok v /\ vin v s /\ contents s v = [].
Proof.
  intros Hs H. destruct (pop_left_nosep s c skip Hs H) as (o & E & _ & H1 & H2). unfold gpop_right. rewrite E. cbn [bind].
  pose proof (nonneg_len s). destruct s as [|x s].
  - replace o with (@None view) by (symmetry; apply H1; auto). cbn. eexists; split; [reflexivity|]. split; [apply vin_view; cbn; lia|reflexivity].
  - rewrite H2 by discriminate. rewrite right_of_v_at by (auto; unfold vin, full; cbn [vo vl]; lia). nas. unfold full. cbn [bind vo vl].
    rewrite Z.add_0_l, Z.sub_diag. 
    replace (contents (x :: s) (View (len (x :: s)) 0)) with (@nil Z) by reflexivity. rewrite find_c_notin by auto. cbn [bind].
    eexists; split; [reflexivity|]. split; [apply vin_view; lia|reflexivity].
Qed.

(** ** skip_empty: the trailing separators belong to the piece *)
Lemma pop_right_skip (l w t : list Z) c : small (l ++ w ++ t) -> ends_sep c l -> w <> [] -> ~ In c w -> Forall (fun x => x = c) t ->
  pop_right (l ++ w ++ t) c true = Ok (Some (View (len l) (len (w ++ t)))).
Proof.
  nas. intros Hs Hl Hw Hn Ht. set (s := l ++ w ++ t) in *. pose proof (nonneg_len l). pose proof (nonneg_len t).
  assert (Lw : 0 < len w) by (destruct w; [congruence|rewrite len_cons; pose proof (nonneg_len w); lia]).
  assert (Ls : len s = len l + len w + len t) by (unfold s; lens; lia). rewrite len_app.
  assert (Lpos : last_of_c s c (Some (len l + len w)) = Ok (if len l =? 0 then None else Some (len l - 1))).
  { destruct Hl as [->|(l' & ->)].
    - cbn [app] in *. rewrite len_nil, Z.add_0_l. apply last_none_at; auto.
    - rewrite len_app in *. change (len [c]) with 1 in *. pose proof (nonneg_len l').
      replace (len l' + 1 =? 0) with false by lia. replace (len l' + 1 - 1) with (len l') by lia. unfold s. rewrite <- app_assoc. cbn [app].
      apply last_pos_at; auto. }
  unfold pop_right. destruct (Z.ltb_spec 1 (len s)).
  - destruct t as [|x t].
    + unfold s in *. rewrite app_nil_r in *. rewrite len_nil in *. rewrite Z.add_0_r in *. rewrite last_of_npos, len_app, Lpos. cbn [bind].
      destruct (Z.eqb_spec (len l) 0) as [E|E].
      * rewrite (len_0_nil l) by auto. cbn [app]. reflexivity.
      * replace (len l - 1 + 1) with (len l) by lia. rewrite <- len_app. replace (len l <? len (l ++ w)) with true by lia.
        rewrite sub1_ok by lia. unfold some_v. cbn [bind]. do 3 f_equal. lia.
    + assert (Hlast : exists t', x :: t = t' ++ [c]).
      { destruct (exists_last (l := x :: t)) as (t' & y & Et); [discriminate|]. exists t'. rewrite Et in *.
        apply Forall_app in Ht. destruct Ht as [_ Ht]. inversion Ht; subst. reflexivity. }
      destruct Hlast as (t' & Et).
      assert (LT : len (x :: t) = len t' + 1) by (rewrite Et, len_app; reflexivity).
      assert (EP : last_of_c s c None = Ok (Some (len s - 1))).
      { unfold s. rewrite Et. rewrite !app_assoc. rewrite last_pos by auto. do 2 f_equal. rewrite !len_app. change (len [c]) with 1. lia. }
      rewrite EP. cbn [bind]. replace (len s - 1 + 1 <? len s) with false by lia. cbn [negb].
      destruct (exists_last (l := w)) as (w' & y & Ew); [auto|].
      assert (EQ : last_not_of_c s c None = Ok (Some (len l + len w - 1))).
      { unfold s. rewrite Ew. rewrite <- !app_assoc. cbn [app]. rewrite app_assoc. rewrite last_not_pos; auto.
        - do 2 f_equal. rewrite !len_app. change (len [y]) with 1. lia.
        - intros ->. apply Hn. rewrite Ew. apply in_or_app. right; left; auto. }
      rewrite EQ. cbn [bind].
      assert (EN : last_of_c s c (Some (len l + len w - 1)) = Ok (if len l =? 0 then None else Some (len l - 1))).
      { unfold s. rewrite Ew in *. assert (Hn' : ~ In c w') by (intros X; apply Hn, in_or_app; auto). rewrite len_app. change (len [y]) with 1.
        destruct Hl as [->|(l' & ->)].
        - cbn [app]. rewrite len_nil. replace (0 + (len w' + 1) - 1) with (len w') by lia. rewrite <- app_assoc. apply last_none_at; auto.
        - rewrite len_app in *. change (len [c]) with 1 in *. pose proof (nonneg_len l').
          replace (len l' + 1 =? 0) with false by lia. replace (len l' + 1 - 1) with (len l') by lia.
          replace (len l' + 1 + (len w' + 1) - 1) with (len l' + 1 + len w') by lia. rewrite <- !app_assoc. cbn [app].
          apply last_pos_at; auto. }
      rewrite EN. cbn [bind]. destruct (Z.eqb_spec (len l) 0).
      * rewrite sub1_ok by lia. unfold some_v. cbn [bind]. do 3 f_equal; lia.
      * rewrite sub1_ok by lia. unfold some_v. cbn [bind]. do 3 f_equal; lia.
  - destruct (Z.eqb_spec (len s) 1); [|lia].
    assert (l = []) by (apply len_0_nil; lia). assert (t = []) by (apply len_0_nil; lia). subst l t.
    unfold s in *. cbn [app] in *. rewrite app_nil_r in *.
    destruct (begins_with_c_ok w c) as (b & Eb & Hb). rewrite Eb. cbn [bind]. destruct b.
    { destruct Hb as [Hb _]. destruct (Hb eq_refl) as (r & Er). destruct Hn. rewrite Er. left; auto. }
    unfold full. rewrite len_nil. do 3 f_equal. lia.
Qed.
Lemma pop_right_all (t : list Z) c : small t -> t <> [] -> Forall (fun x => x = c) t -> pop_right t c true = Ok (Some (View 0 0)).
Proof.
  nas. intros Hs Hne Ht. unfold pop_right. pose proof (nonneg_len t).
  assert (L : 0 < len t) by (destruct t; [congruence|rewrite len_cons; pose proof (nonneg_len t); lia]).
  destruct (exists_last (l := t)) as (t' & y & Et); [auto|].
  assert (y = c) by (rewrite Et in Ht; apply Forall_app in Ht; destruct Ht as [_ Ht]; inversion Ht; auto). subst y.
  destruct (Z.ltb_spec 1 (len t)).
  - assert (EP : last_of_c t c None = Ok (Some (len t - 1))).
    { rewrite Et. rewrite last_pos by auto. do 2 f_equal. rewrite len_app. change (len [c]) with 1. lia. }
    rewrite EP. cbn [bind]. replace (len t - 1 + 1 <? len t) with false by lia. cbn [negb].
    rewrite last_not_none by auto. cbn [bind]. rewrite sub2_ok by lia. reflexivity.
  - replace (len t =? 1) with true by lia. destruct (one_elem t) as (x & ->); [lia|]. inversion Ht; subst.
    rewrite begins_with_cons. cbn [bind]. reflexivity.
Qed.

(** ** basename, dirname *)
Lemma sub2_vo n k x v : sub2 n k x = Ok v -> vo v = k.
Proof.
  unfold sub2, assert. destruct (k <=? n); [|discriminate]. destruct ((x <=? n) || (x =? npos)); [|discriminate].
  cbv zeta. destruct (_ || (x =? 0)); [|discriminate]. intros E. injection E as <-. reflexivity.
Qed.
Lemma basename_ok (l w t : list Z) c : small (l ++ w ++ t) -> ends_sep c l -> w <> [] -> ~ In c w -> Forall (fun x => x = c) t ->
  basename (l ++ w ++ t) c = Ok (Some (View (len l) (len w))).
Proof.
  intros Hs Hl Hw Hn Ht. unfold basename. rewrite pop_right_skip by auto. cbn [bind].
  set (s := l ++ w ++ t) in *.
  assert (C : contents s (View (len l) (len (w ++ t))) = w ++ t) by (apply (contents_app _ _ _ []); unfold s; rewrite app_nil_r; reflexivity).
  unfold on_sub. rewrite C.
  destruct (trimr_c_ok (w ++ t) c) as (v & E & Hv & HT).
  { nas. unfold s in Hs. rewrite len_app in Hs. pose proof (nonneg_len l). lia. }
  rewrite E. unfold some_v. cbn [bind vo vl].
  assert (EC : contents (w ++ t) v = w).
  { eapply trimmed_right_unique; [exact HT|]. exists t. split; auto. split; auto. intros x u -> ->. apply Hn, in_or_app. right; left; auto. }
  assert (Hv0 : vo v = 0).
  { unfold trimr_c, trimr_by in E. destruct (len (w ++ t) =? 0).
    - eapply sub2_vo; eauto.
    - destruct (last_not_of_c (w ++ t) c None) as [o| |]; try discriminate. cbn [bind] in E.
      destruct o as [p|]; eapply sub2_vo; eauto. }
  destruct v as [v1 v2]. cbn [vo vl] in *. subst v1. rewrite Z.add_0_r.
  assert (L2 : v2 = len w). { rewrite <- EC. rewrite contents_slice. destruct Hv as (X1 & X2 & X3). cbn [vo vl] in *. rewrite len_slice; lia. }
  subst v2. reflexivity.
Qed.
Lemma basename_all (t : list Z) c : small t -> t <> [] -> Forall (fun x => x = c) t -> basename t c = Ok (Some (View 0 0)).
Proof. intros Hs Hne Ht. unfold basename. rewrite pop_right_all by auto. reflexivity. Qed.
Lemma dirname_ok (l w t : list Z) c : small (l ++ w ++ t) -> ends_sep c l -> w <> [] -> ~ In c w -> Forall (fun x => x = c) t ->
  dirname (l ++ w ++ t) c = Ok (View 0 (len l)).
Proof.
  intros Hs Hl Hw Hn Ht. unfold dirname. rewrite basename_ok by auto. cbn [bind vl].
  assert (Lw : 0 < len w) by (destruct w; [congruence|rewrite len_cons; pose proof (nonneg_len w); lia]).
  replace (len w =? 0) with false by lia. pose proof (nonneg_len l). pose proof (nonneg_len t).
  rewrite left_of_v_at; auto. apply vin_view; lens; lia.
Qed.
Lemma dirname_all (t : list Z) c : small t -> Forall (fun x => x = c) t -> dirname t c = Ok (full t).
Proof.
  intros Hs Ht. unfold dirname. destruct t as [|x t]; [reflexivity|]. rewrite basename_all by (auto; discriminate). reflexivity.
Qed.
(** every string has such a decomposition *)
Lemma path_cases (s : list Z) c : Forall (fun x => x = c) s \/
  exists l w t, s = l ++ w ++ t /\ ends_sep c l /\ w <> [] /\ ~ In c w /\ Forall (fun x => x = c) t.
Proof.
  induction s as [|x s IH]; [left; constructor|].
  destruct IH as [IH|(l & w & t & -> & Hl & Hw & Hn & Ht)].
  - destruct (Z.eq_dec x c) as [->|N]; [left; constructor; auto|].
    right. exists [], [x], s. split; [reflexivity|]. split; [left; auto|]. split; [discriminate|]. split; auto. intros [X|[]]; auto.
  - right. destruct l as [|y l].
    + destruct (Z.eq_dec x c) as [->|N].
      * exists [c], w, t. split; [reflexivity|]. split; [right; exists []; reflexivity|auto].
      * exists [], (x :: w), t. split; [reflexivity|]. split; [left; auto|]. split; [discriminate|]. split; auto. intros [X|X]; auto.
    + exists (x :: y :: l), w, t. split; [reflexivity|]. split; [|auto]. right. destruct Hl as [Hl|(r & Hr)]; [discriminate|]. exists (x :: r). rewrite Hr. reflexivity.
Qed.
