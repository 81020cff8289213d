(** Proofs about the allocators and the scoped settings. *)
From Verif Require Import Base BaseLemmas SubstrModel SpanProofs MemResModel MemResProofs AllocModel AllocSpec.

(** ** SmallAllocator, last in first out *)
Fixpoint sinv (a : small) (live : list (Z * Z)) : Prop :=
  match live with
  | [] => True
  | (p, n) :: rest =>
      1 <= n /\ n * stsz a < 2 ^ 64 /\ total rest + n < 2 ^ 64 /\
      (if total rest + n <=? scap a then p = sarr a + total rest * stsz a
       else off_array a (p, n) /\ forall b, In b rest -> is_off a b = true -> disjoint_blocks (stsz a) b (p, n)) /\
      sinv a rest
  end.
Lemma total_cons p n l : total ((p, n) :: l) = total l + n.
Proof. unfold total. simpl. lia. Qed.
Lemma total_pos a l : sinv a l -> 0 <= total l.
Proof.
  induction l as [|[p n] l IH]; intros H; [unfold total; simpl; lia|].
  destruct H as [H1 [_ [_ [_ H]]]]. rewrite total_cons. specialize (IH H). lia.
Qed.
Lemma total_bound a l : sinv a l -> total l < 2 ^ 64.
Proof.
  destruct l as [|[p n] l]; intros H; [unfold total; simpl; lia|].
  destruct H as [_ [_ [H _]]]. rewrite total_cons. lia.
Qed.
Lemma off_is_off a p n : small_ok a -> 1 <= n -> off_array a (p, n) -> is_off a (p, n) = true.
Proof.
  intros [K1 [K2 [K3 _]]] N O. unfold off_array, disjoint_blocks, is_off in *. cbn [fst snd] in *.
  assert (1 * stsz a <= n * stsz a) by (apply Z.mul_le_mono_nonneg_r; lia).
  apply negb_true_iff, andb_false_iff. lia.
Qed.
Lemma mul_step u v n t : 0 < t -> u + n <= v -> u * t + n * t <= v * t.
Proof. intros T L. rewrite <- Z.mul_add_distr_r. apply Z.mul_le_mono_nonneg_r; lia. Qed.
(** inline blocks fill the array from the bottom *)
Lemma inline_below a l : small_ok a -> sinv a l -> total l <= scap a ->
  forall b, In b l -> sarr a <= fst b /\ fst b + snd b * stsz a <= sarr a + total l * stsz a.
Proof.
  intros K. induction l as [|[p n] l IH]; intros H T b B; [contradiction|].
  pose proof (total_pos _ _ H) as TP. destruct K as [K1 [K2 [K3 K4]]].
  destruct H as [H1 [H2 [H3 [H4 H]]]]. pose proof (total_pos _ _ H). rewrite total_cons in *.
  destruct B as [<-|B].
  - cbn [fst snd]. replace (total l + n <=? scap a) with true in H4 by lia. subst p.
    assert (0 <= total l * stsz a) by (apply Z.mul_nonneg_nonneg; lia). rewrite Z.mul_add_distr_r. lia.
  - destruct (IH H ltac:(lia) b B) as [L U]. split; [exact L|].
    assert (0 <= n * stsz a) by (apply Z.mul_nonneg_nonneg; lia). rewrite Z.mul_add_distr_r. lia.
Qed.
Lemma classify a l : small_ok a -> sinv a l -> forall b, In b l ->
  (in_array a b /\ is_off a b = false) \/ (off_array a b /\ is_off a b = true).
Proof.
  intros K. induction l as [|[p n] l IH]; intros H b B; [contradiction|].
  assert (H' := H). destruct H as [H1 [H2 [H3 [H4 H]]]].
  destruct B as [<-|B]; [|apply IH; auto].
  destruct (total l + n <=? scap a) eqn:E.
  - left. apply Z.leb_le in E. destruct (inline_below a ((p, n) :: l) K H' ltac:(rewrite total_cons; lia) (p, n) ltac:(left; reflexivity)) as [L U].
    rewrite total_cons in U. destruct K as [K1 [K2 [K3 K4]]].
    assert ((total l + n) * stsz a <= scap a * stsz a) by (apply Z.mul_le_mono_nonneg_r; lia).
    split; [split; lia|]. unfold is_off. cbn [fst snd] in *. apply negb_false_iff, andb_true_iff. lia.
  - right. destruct H4 as [H4 _]. split; [exact H4|]. apply off_is_off; auto.
Qed.
Lemma disjoint_sym t b c : disjoint_blocks t b c -> disjoint_blocks t c b.
Proof. unfold disjoint_blocks. tauto. Qed.
Lemma in_off_disjoint a b c : in_array a b -> off_array a c -> disjoint_blocks (stsz a) b c.
Proof. unfold in_array, off_array, disjoint_blocks. cbn. lia. Qed.
Lemma sinv_pairwise a l : small_ok a -> sinv a l -> pairwise (disjoint_blocks (stsz a)) l.
Proof.
  intros K. induction l as [|[p n] l IH]; intros H i j b c N X Y; [destruct i; discriminate|].
  assert (H' := H). destruct H as [H1 [H2 [H3 [H4 H]]]].
  assert (forall d, In d l -> disjoint_blocks (stsz a) d (p, n)) as HD.
  { intros d D. destruct (total l + n <=? scap a) eqn:E.
    - apply Z.leb_le in E. subst p. destruct (inline_below a l K H ltac:(lia) d D).
      left. cbn [fst]. lia.
    - destruct H4 as [O F]. destruct (classify a l K H d D) as [[C1 C2]|[C1 C2]].
      + apply in_off_disjoint; auto.
      + apply F; auto. }
  destruct i as [|i], j as [|j]; cbn in X, Y.
  - contradiction.
  - injection X as <-. apply disjoint_sym, HD. eapply nth_error_In; eauto.
  - injection Y as <-. apply HD. eapply nth_error_In; eauto.
  - apply (IH H i j); auto.
Qed.

Lemma outstanding_app ev : forall l ev', outstanding l (ev ++ ev') =
  match outstanding l ev with Some l => outstanding l ev' | None => None end.
Proof.
  induction ev as [|[x n|x n] ev IH]; intros l ev'; cbn; auto.
  destruct (remove1 (x, n) l); auto.
Qed.
Definition res_blocks (a : small) (live : list (Z * Z)) : list (Z * Z) := map (in_bytes a) (filter (is_off a) live).

Lemma small_step_ok a num live o : small_ok a -> sinv a live -> num = total live ->
  small_legal a live o -> lifo o ->
  exists live' e, small_step a (num, live) o = Ok (total live', live', e) /\ sinv a live' /\
    outstanding (res_blocks a live) e = Some (res_blocks a live').
Proof.
  intros K H -> L F. pose proof (total_pos _ _ H) as TP. pose proof (total_bound _ _ H) as TB.
  assert (K' := K). destruct K' as [K1 [K2 [K3 K4]]].
  destruct o as [n got|i]; cbn [small_step].
  - destruct L as [L1 [L2 [L3 [L4 L5]]]]. unfold small_allocate.
    rewrite (u64_id (total live + n)) by lia.
    assert (0 <= n * stsz a) by (apply Z.mul_nonneg_nonneg; lia).
    destruct (total live + n <=? scap a) eqn:E.
    + eexists _, _. split; [rewrite <- total_cons with (p := sarr a + total live * stsz a); reflexivity|].
      assert (sinv a ((sarr a + total live * stsz a, n) :: live)) as SI.
      { cbn [sinv]. rewrite E. repeat split; auto; lia. }
      split; [exact SI|]. cbn. unfold res_blocks. cbn [filter].
      destruct (classify a _ K SI (sarr a + total live * stsz a, n) ltac:(left; reflexivity)) as [[_ ->]|[C _]]; [reflexivity|].
      exfalso. apply Z.leb_le in E. assert (C2 := mul_step (total live) (scap a) n (stsz a) K3 E).
      assert (1 * stsz a <= n * stsz a) by (apply Z.mul_le_mono_nonneg_r; lia).
      assert (0 <= total live * stsz a) by (apply Z.mul_nonneg_nonneg; lia).
      unfold off_array, disjoint_blocks in C. cbn in C. lia.
    + eexists _, _. split; [rewrite <- total_cons with (p := got); reflexivity|].
      split; [cbn [sinv]; rewrite E; repeat split; auto; lia|].
      cbn [outstanding]. rewrite (u64_id (n * stsz a)) by lia. unfold res_blocks. cbn [filter].
      rewrite off_is_off by auto. reflexivity.
  - cbn in F. subst i. destruct live as [|[p n] rest]; cbn [nth_error].
    { exists [], []. repeat split. }
    assert (H' := H). destruct H as [H1 [H2 [H3 [H4 H]]]]. pose proof (total_pos _ _ H).
    assert (0 <= n * stsz a) by (apply Z.mul_nonneg_nonneg; lia).
    unfold small_deallocate, assert. rewrite total_cons in *. replace (n <=? total rest + n) with true by lia.
    cbn [bind]. rewrite (u64_id (total rest + n - n)) by lia. rewrite (u64_id (n * stsz a)) by lia.
    replace (total rest + n - n) with (total rest) by lia.
    eexists _, _. split; [reflexivity|]. cbn [drop_nth]. split; [exact H|].
    unfold res_blocks. cbn [filter].
    destruct (classify a _ K H' (p, n) ltac:(left; reflexivity)) as [[C1 ->]|[C1 ->]].
    + assert (p < sarr a + scap a * stsz a).
      { destruct C1 as [_ C1]. cbn in C1. assert (1 * stsz a <= n * stsz a) by (apply Z.mul_le_mono_nonneg_r; lia). lia. }
      destruct C1 as [C1 _]. cbn in C1. replace ((sarr a <=? p) && (p <? sarr a + scap a * stsz a)) with true by lia. reflexivity.
    + replace ((sarr a <=? p) && (p <? sarr a + scap a * stsz a)) with false.
      2: { unfold off_array, disjoint_blocks in C1. cbn in C1. assert (1 * stsz a <= n * stsz a) by (apply Z.mul_le_mono_nonneg_r; lia). lia. }
      cbn. rewrite !Z.eqb_refl. reflexivity.
Qed.
Lemma small_run_ok os : forall a live, small_ok a -> sinv a live ->
  small_history a (total live, live) os -> Forall lifo os ->
  exists live' e, small_run a (total live, live) os = Ok (total live', live', e) /\ sinv a live' /\
    outstanding (res_blocks a live) e = Some (res_blocks a live').
Proof.
  induction os as [|o os IH]; intros a live K S H F; cbn [small_run].
  - exists live, []. repeat split; auto.
  - inversion F as [|? ? F1 F2]; subst. destruct H as [H1 H2].
    destruct (small_step_ok a (total live) live o K S eq_refl H1 F1) as [l1 [e1 [E1 [S1 O1]]]].
    rewrite E1. cbn [bind].
    destruct (IH a l1 K S1 (H2 _ _ _ E1) F2) as [l2 [e2 [E2 [S2 O2]]]].
    rewrite E2. cbn [bind]. exists l2, (e1 ++ e2). repeat split; auto.
    rewrite outstanding_app, O1. exact O2.
Qed.
Lemma small_lifo a os : small_ok a -> small_history a (0, []) os -> Forall lifo os ->
  exists num live e, small_run a (0, []) os = Ok (num, live, e) /\
    pairwise (disjoint_blocks (stsz a)) live /\
    (forall b, In b live -> (in_array a b /\ is_off a b = false) \/ (off_array a b /\ is_off a b = true)) /\
    outstanding [] e = Some (map (in_bytes a) (filter (is_off a) live)).
Proof.
  intros K H F. destruct (small_run_ok os a [] K I H F) as [live [e [E [S O]]]].
  exists (total live), live, e. split; [exact E|]. split; [apply sinv_pairwise; auto|].
  split; [apply classify; auto|]. exact O.
Qed.

(** ** Allocator *)
Lemma size_for_exact t n : 0 <= t -> 0 <= n -> size_for t n = n * t <-> n * t < 2 ^ 64.
Proof.
  intros T N. unfold size_for, u64. assert (0 <= n * t) by (apply Z.mul_nonneg_nonneg; lia).
  split; intro H0.
  - rewrite <- H0. apply Z.mod_pos_bound. lia.
  - apply Z.mod_small. lia.
Qed.
Lemma size_for_less t n : 0 <= t -> 0 <= n -> 2 ^ 64 <= n * t -> size_for t n < n * t.
Proof.
  intros T N H. unfold size_for, u64. assert (0 <= (n * t) mod 2 ^ 64 < 2 ^ 64) by (apply Z.mod_pos_bound; lia). lia.
Qed.

(** ** Scopes *)
Lemma set_res_ok g r g' : set_memory_resource g r = Ok g' -> g' = Glob (gflags g) (gcb g) r.
Proof. unfold set_memory_resource, assert. destruct (negb _); [|discriminate]. intro X. injection X as <-. reflexivity. Qed.
Lemma enter_mem k g g' : enter k g = Ok g' ->
  match k with SErrCb _ | SErrFlags _ | SErrBoth _ _ => gres g' = gres g | _ => gflags g' = gflags g /\ gcb g' = gcb g end.
Proof.
  destruct k; cbn; intro X; try (injection X as <-; reflexivity).
  - apply set_res_ok in X. subst. auto.
  - unfold assert in X. destruct (negb _) in X; [|discriminate]. apply set_res_ok in X. subst. auto.
  - unfold assert in X. destruct (negb _) in X; [|discriminate]. apply set_res_ok in X. subst. auto.
Qed.
Lemma leave_ok k s g g' : leave k s g = Ok g' ->
  match k with
  | SErrCb _ | SErrFlags _ | SErrBoth _ _ => g' = Glob (gflags s) (gcb s) (gres g)
  | SMem _ | SCounts _ => g' = Glob (gflags g) (gcb g) (gres s)
  | SCountsOf _ m => g' = Glob (gflags g) (gcb g) m
  end.
Proof. destruct k; cbn; intro X; try (injection X as <-; reflexivity); apply set_res_ok in X; exact X. Qed.
Lemma err_restored p : err_scoped p = true -> forall g g' t, exec p g = Ok (g', t) -> gflags g' = gflags g /\ gcb g' = gcb g.
Proof.
  induction p as [| |f|c|r|p IHp q IHq|p IHp|k p IHp]; cbn [err_scoped exec]; intros S g g' t E; try discriminate.
  - injection E as <- _. auto.
  - injection E as <- _. auto.
  - destruct (set_memory_resource g r) as [g1| |] eqn:X; try discriminate. cbn in E. injection E as <- _.
    apply set_res_ok in X. subst. auto.
  - apply andb_prop in S. destruct S as [S1 S2].
    destruct (exec p g) as [[g1 []]| |] eqn:X; try discriminate; cbn in E.
    + injection E as <- _. eapply IHp; eauto.
    + destruct (IHp S1 _ _ _ X) as [A1 A2]. destruct (IHq S2 _ _ _ E) as [B1 B2]. split; congruence.
  - destruct (exec p g) as [[g1 t1]| |] eqn:X; try discriminate. cbn in E. injection E as <- _. eapply IHp; eauto.
  - destruct (enter k g) as [g1| |] eqn:E1; try discriminate. cbn [bind] in E.
    destruct (exec p g1) as [[g2 t2]| |] eqn:E2; try discriminate. cbn [bind] in E.
    destruct (leave k g g2) as [g3| |] eqn:E3; try discriminate. cbn [bind] in E. injection E as <- _.
    apply enter_mem in E1. apply leave_ok in E3.
    destruct k; subst g3; cbn; auto; destruct E1 as [E1 E1']; destruct (IHp S _ _ _ E2) as [A1 A2]; split; congruence.
Qed.
Lemma mem_restored p : mem_scoped p = true -> forall g g' t, exec p g = Ok (g', t) -> gres g' = gres g.
Proof.
  induction p as [| |f|c|r|p IHp q IHq|p IHp|k p IHp]; cbn [mem_scoped exec]; intros S g g' t E; try discriminate.
  1-4: injection E as <- _; auto.
  - apply andb_prop in S. destruct S as [S1 S2].
    destruct (exec p g) as [[g1 []]| |] eqn:X; try discriminate; cbn in E.
    + injection E as <- _. eapply IHp; eauto.
    + pose proof (IHp S1 _ _ _ X). pose proof (IHq S2 _ _ _ E). congruence.
  - destruct (exec p g) as [[g1 t1]| |] eqn:X; try discriminate. cbn in E. injection E as <- _. eapply IHp; eauto.
  - destruct (enter k g) as [g1| |] eqn:E1; try discriminate. cbn [bind] in E.
    destruct (exec p g1) as [[g2 t2]| |] eqn:E2; try discriminate. cbn [bind] in E.
    destruct (leave k g g2) as [g3| |] eqn:E3; try discriminate. cbn [bind] in E. injection E as <- _.
    apply enter_mem in E1. apply leave_ok in E3.
    destruct k; subst g3; cbn; auto; try discriminate S; pose proof (IHp S _ _ _ E2); congruence.
Qed.
Lemma counts_of_leaves self m p g g' t : exec (PScope (SCountsOf self m) p) g = Ok (g', t) -> gres g' = m.
Proof.
  cbn [exec]. destruct (enter _ g) as [g1| |] eqn:E1; try discriminate. cbn [bind].
  destruct (exec p g1) as [[g2 t2]| |] eqn:E2; try discriminate. cbn [bind].
  destruct (leave _ g g2) as [g3| |] eqn:E3; try discriminate. cbn [bind]. intro X. injection X as <- _.
  apply leave_ok in E3. subst. reflexivity.
Qed.
Lemma enter_inside k g g' : enter k g = Ok g' -> g' = body_settings k g.
Proof.
  destruct k; cbn; intro X; try (injection X as <-; reflexivity).
  - apply set_res_ok in X. exact X.
  - unfold assert in X. destruct (negb _) in X; [|discriminate]. apply set_res_ok in X. exact X.
  - unfold assert in X. destruct (negb _) in X; [|discriminate]. apply set_res_ok in X. exact X.
Qed.
Lemma exec_ok p : nonnull_prog p -> forall g, gres g <> 0 -> exists g' t, exec p g = Ok (g', t) /\ gres g' <> 0.
Proof.
  assert (forall g r, r <> 0 -> set_memory_resource g r = Ok (Glob (gflags g) (gcb g) r)) as SM.
  { intros g r R. unfold set_memory_resource, assert. rewrite (proj2 (Z.eqb_neq _ _)) by auto. reflexivity. }
  induction p as [| |f|c|r|p IHp q IHq|p IHp|k p IHp]; cbn [nonnull_prog exec]; intros N g G.
  1-4: eexists _, _; split; [reflexivity|exact G].
  - rewrite SM by auto. cbn. eexists _, _; split; [reflexivity|exact N].
  - destruct N as [N1 N2]. destruct (IHp N1 g G) as [g1 [t [E G1]]]. rewrite E. cbn.
    destruct t; [eexists _, _; split; [reflexivity|exact G1]|]. apply IHq; auto.
  - destruct (IHp N g G) as [g1 [t [E G1]]]. rewrite E. cbn. eexists _, _; split; [reflexivity|exact G1].
  - destruct k; try contradiction N; cbn [enter].
    1-3: cbn [bind]; match goal with |- context [exec ?q ?h] => destruct (IHp N h G) as [g1 [t [E G1]]] end;
         rewrite E; cbn; eexists _, _; split; [reflexivity|exact G1].
    destruct N as [N1 N2]. rewrite SM by auto. cbn [bind].
    match goal with |- context [exec ?q ?h] => destruct (IHp N2 h N1) as [g1 [t [E G1]]] end.
    rewrite E. cbn [bind leave]. rewrite SM by auto. cbn. eexists _, _; split; [reflexivity|exact G].
Qed.
