(** Proofs about the memory resources. *)
From Verif Require Import Base BaseLemmas SubstrModel FormatModel FormatProofs4 MemUtilModel MemUtilProofs2 SpanProofs MemResModel MemResSpec.

(** ** std::align *)
Lemma align_up_least p a : 0 < a -> 0 < p -> p + a <= 2 ^ 64 ->
  p <= align_up p a /\ (a | align_up p a) /\ forall r, p <= r -> (a | r) -> align_up p a <= r.
Proof.
  intros A P B. destruct (align_up_ok p a A) as [R M]; [lia..|].
  split; [lia|]. split; [apply Z.mod_divide; lia|].
  intros r L [k ->]. apply Z.mod_divide in M; [|lia]. destruct M as [j E]. rewrite E in *.
  destruct (Z_lt_le_dec k j) as [K|K]; [|apply Z.mul_le_mono_nonneg_r; lia].
  assert (k * a <= (j - 1) * a) by (apply Z.mul_le_mono_nonneg_r; lia).
  rewrite Z.mul_sub_distr_r in H. lia.
Qed.
Lemma align_up_wrap p a : 0 < a < 2 ^ 64 -> 0 < p < 2 ^ 64 -> 2 ^ 64 < p + a -> align_up p a = 0.
Proof.
  intros A P B. unfold align_up, u64.
  replace ((p - 1 + a) mod 2 ^ 64) with (p - 1 + a - 2 ^ 64).
  2: { apply Z.mod_unique with 1; lia. }
  rewrite Z.div_small by lia. reflexivity.
Qed.
Lemma std_align_some al sz p space q :
  0 < al < 2 ^ 64 -> 0 < sz -> 0 < p -> 0 <= space -> p + space < 2 ^ 64 ->
  std_align al sz p space = Some q ->
  fits p (p + space) sz al q /\ forall r, fits p (p + space) sz al r -> q <= r.
Proof.
  intros A Z0 P S B E. unfold std_align in E.
  destruct (Z_le_gt_dec (p + al) (2 ^ 64)) as [W|W].
  - destruct (align_up_least p al) as [L [D M]]; [lia..|].
    destruct (align_up_ok p al) as [[_ U] _]; [lia..|].
    rewrite u64_id in E by lia.
    destruct (_ || _) eqn:C in E; [discriminate|]. injection E as <-.
    apply orb_false_elim in C. destruct C as [C1 C2].
    unfold fits. repeat split; try lia; auto. intros r [R1 [_ R3]]. auto.
  - rewrite align_up_wrap in E by lia.
    replace (u64 (0 - p)) with (2 ^ 64 - p) in E.
    2: { unfold u64. apply Z.mod_unique with (-1); lia. }
    destruct (_ || _) eqn:C in E; [discriminate|].
    apply orb_false_elim in C. lia.
Qed.
Lemma multiple_ge_wrap p a r : 0 < a -> 2 ^ 64 < p + a -> (a | 2 ^ 64) -> p <= r -> (a | r) -> 2 ^ 64 <= r.
Proof.
  intros A W [k E] L [j ->].
  destruct (Z_lt_le_dec j k) as [K|K].
  - assert (j * a <= (k - 1) * a) by (apply Z.mul_le_mono_nonneg_r; lia).
    rewrite Z.mul_sub_distr_r in H. lia.
  - rewrite E. apply Z.mul_le_mono_nonneg_r; lia.
Qed.
Lemma std_align_none al sz p space :
  0 < al < 2 ^ 64 -> (al | 2 ^ 64) -> 0 < sz -> 0 < p -> 0 <= space -> p + space < 2 ^ 64 ->
  std_align al sz p space = None -> forall q, ~ fits p (p + space) sz al q.
Proof.
  intros A D Z0 P S B E q [F1 [F2 F3]]. unfold std_align in E.
  destruct (Z_le_gt_dec (p + al) (2 ^ 64)) as [W|W].
  - destruct (align_up_least p al) as [L [_ M]]; [lia..|]. specialize (M q F1 F3).
    destruct (align_up_ok p al) as [[_ U] _]; [lia..|].
    rewrite u64_id in E by lia.
    destruct (_ || _) eqn:C in E; [|discriminate].
    apply orb_true_iff in C. lia.
  - assert (2 ^ 64 <= q) by (apply (multiple_ge_wrap p al); auto; lia). lia.
Qed.

(** ** One call *)
Definition lin_ok (s : lin) : Prop := 0 < lmem s /\ 0 <= lpos s <= lsize s /\ lmem s + lsize s < 2 ^ 64.
Lemma do_alloc_some stop s sz al q :
  lin_ok s -> 0 < sz < 2 ^ 64 -> 0 < al < 2 ^ 64 ->
  std_align al sz (lmem s + lpos s) (lsize s - lpos s) = Some q ->
  lin_do_allocate stop s sz al = Ok (set_pos s (q + sz - lmem s), q).
Proof.
  intros [L1 [L2 L3]] Z0 A E.
  assert (F := E). apply std_align_some in F; [|lia..]. destruct F as [[F1 [F2 F3]] _].
  unfold lin_do_allocate. rewrite (proj2 (Z.eqb_neq _ _)) by lia.
  rewrite (u64_id (lsize s - lpos s)) by lia. rewrite E.
  rewrite (u64_id (q - _)) by lia. rewrite (u64_id (lsize s - lpos s - _)) by lia.
  rewrite (u64_id (_ - (_ - _ - _))) by lia.
  rewrite (u64_id (lpos s + sz)) by lia.
  rewrite (proj2 (Z.ltb_ge _ _)) by lia.
  unfold assert. rewrite !(u64_id (lpos s + _)) by lia. rewrite u64_id by lia.
  repeat rewrite (proj2 (Z.leb_le _ _)) by lia.
  do 3 f_equal. lia.
Qed.
Lemma do_alloc_none s sz al :
  lin_ok s -> 0 < sz -> std_align al sz (lmem s + lpos s) (lsize s - lpos s) = None ->
  lin_do_allocate true s sz al = Err.
Proof.
  intros [L1 [L2 L3]] Z0 E. unfold lin_do_allocate. rewrite (proj2 (Z.eqb_neq _ _)) by lia.
  rewrite (u64_id (lsize s - lpos s)) by lia. rewrite E.
  destruct (_ <? _); reflexivity.
Qed.

(** allocate: the least fitting address, or an error if none fits *)
Lemma alloc_exact s sz al :
  lin_ok s -> 0 < sz < 2 ^ 64 -> 0 < al < 2 ^ 64 -> (al | 2 ^ 64) ->
  (exists q, fits (lmem s + lpos s) (lmem s + lsize s) sz al q /\
     (forall r, fits (lmem s + lpos s) (lmem s + lsize s) sz al r -> q <= r) /\
     lin_allocate true s sz al = Ok (set_pos s (q + sz - lmem s), q)) \/
  ((forall q, ~ fits (lmem s + lpos s) (lmem s + lsize s) sz al q) /\ lin_allocate true s sz al = Err).
Proof.
  intros K Z0 A D. assert (K' := K). destruct K' as [L1 [L2 L3]].
  replace (lmem s + lsize s) with (lmem s + lpos s + (lsize s - lpos s)) by lia.
  unfold lin_allocate, nonnull.
  destruct (std_align al sz (lmem s + lpos s) (lsize s - lpos s)) as [q|] eqn:E.
  - left. exists q. assert (F := E). apply std_align_some in F; [|lia..]. destruct F as [F M].
    split; [exact F|]. split; [exact M|].
    rewrite (do_alloc_some _ _ _ _ q) by (auto; lia). simpl.
    destruct F as [F1 _]. rewrite (proj2 (Z.eqb_neq _ _)) by lia. reflexivity.
  - right. split.
    + apply std_align_none; auto; lia.
    + rewrite do_alloc_none by (auto; lia). reflexivity.
Qed.
Lemma alloc_zero s al : lin_allocate true s 0 al = Err.
Proof. reflexivity. Qed.

(** ** Histories *)
Definition linv (s : lin) (live : list blk) : Prop :=
  lin_ok s /\ blocks_ok (lmem s) (lsize s) live /\
  forall b, In b live -> bn b = 0 \/ bp b + bn b <= lmem s + lpos s.
(** nothing about the bounds changes *)
Definition same_arena (s s' : lin) : Prop := lmem s' = lmem s /\ lsize s' = lsize s.

Lemma nth_error_upd {A} (l : list A) i x j :
  nth_error (upd l i x) j = if (i =? j)%nat then (if (i <? length l)%nat then Some x else None) else nth_error l j.
Proof.
  revert i j. induction l as [|h t IH]; intros [|i] [|j]; simpl; auto.
  - destruct (_ =? _)%nat; reflexivity.
  - rewrite IH. reflexivity.
Qed.
Lemma in_upd {A} (l : list A) i x y : In y (upd l i x) -> In y l \/ y = x.
Proof.
  revert i. induction l as [|h t IH]; intros [|i]; simpl; intuition.
  destruct (IH _ H0); auto.
Qed.
Lemma in_drop {A} (l : list A) i y : In y (drop_nth l i) -> In y l.
Proof. revert i. induction l as [|h t IH]; intros [|i]; simpl; intuition. right. eapply IH; eauto. Qed.
Definition skip (i j : nat) : nat := if (j <? i)%nat then j else Datatypes.S j.
Lemma nth_error_drop {A} (l : list A) i j : nth_error (drop_nth l i) j = nth_error l (skip i j).
Proof.
  revert i j. induction l as [|h t IH]; intros i j.
  - destruct i; simpl; rewrite !(proj2 (nth_error_None _ _)) by (simpl; lia); reflexivity.
  - destruct i as [|i]; [reflexivity|]. destruct j as [|j]; [reflexivity|].
    simpl drop_nth. simpl nth_error at 1. rewrite IH. unfold skip.
    change (Datatypes.S j <? Datatypes.S i)%nat with (j <? i)%nat.
    destruct (j <? i)%nat; reflexivity.
Qed.
Lemma skip_inj i j k : skip i j = skip i k -> j = k.
Proof. unfold skip. destruct (j <? i)%nat eqn:?, (k <? i)%nat eqn:?; lia. Qed.

Lemma apart_sym b c : apart b c -> apart c b.
Proof. unfold apart. lia. Qed.

Lemma linv_drop s live i : linv s live -> linv s (drop_nth live i).
Proof.
  intros [K [[B1 B2] P]]. repeat split.
  1-4: destruct K; lia.
  1-4: apply in_drop in H; apply B1 in H; destruct H as [[? []] ?]; auto.
  - intros x y b c N X Y. rewrite nth_error_drop in X, Y.
    apply (B2 (skip i x) (skip i y)); auto. intro E. apply skip_inj in E. auto.
  - intros b H. apply in_drop in H. auto.
Qed.

(** a new or moved block beyond everything used so far *)
Lemma linv_app s live q sz al pos :
  linv s live -> 0 <= sz -> lmem s + lpos s <= q -> pos = q + sz - lmem s -> pos <= lsize s -> (al | q) ->
  linv (set_pos s pos) (live ++ [Blk q sz al]).
Proof.
  intros [[K1 [K2 K3]] [[B1 B2] P]] Z0 Q -> U D. simpl.
  split; [repeat split; simpl; lia|]. split; [split|].
  - intros b H. apply in_app_or in H. destruct H as [H|[<-|[]]]; simpl; auto.
    split; [repeat split; simpl; lia|exact D].
  - intros i j b c N X Y.
    assert (forall k d, nth_error (live ++ [Blk q sz al]) k = Some d ->
              (k < length live)%nat /\ nth_error live k = Some d \/ k = length live /\ d = Blk q sz al) as G.
    { intros k d E. destruct (Nat.lt_ge_cases k (length live)) as [L|L].
      - rewrite nth_error_app1 in E by lia. auto.
      - rewrite nth_error_app2 in E by lia.
        destruct (k - length live)%nat as [|u] eqn:W; simpl in E.
        + injection E as <-. right. split; [lia|reflexivity].
        + destruct u; discriminate. }
    apply G in X. apply G in Y.
    destruct X as [[X1 X2]|[X1 ->]], Y as [[Y1 Y2]|[Y1 ->]].
    + eapply B2; eauto.
    + apply nth_error_In in X2. apply P in X2. unfold apart; simpl. lia.
    + apply nth_error_In in Y2. apply P in Y2. unfold apart; simpl. lia.
    + lia.
  - intros b H. apply in_app_or in H. destruct H as [H|[<-|[]]]; simpl; [|lia].
    apply P in H. lia.
Qed.
(** replacing block [i]: enough that the new one is good and apart from the others *)
Lemma linv_upd s s' live i b b' :
  linv s live -> nth_error live i = Some b -> same_arena s s' -> lin_ok s' ->
  inside (lmem s) (lsize s) b' -> aligned b' ->
  (forall j c, j <> i -> nth_error live j = Some c -> apart c b' /\ (bn c = 0 \/ bp c + bn c <= lmem s + lpos s')) ->
  (bn b' = 0 \/ bp b' + bn b' <= lmem s + lpos s') ->
  linv s' (upd live i b').
Proof.
  intros [K [[B1 B2] P]] E [A1 A2] K' I L AP PB.
  split; [exact K'|]. rewrite A1, A2.
  assert (forall j c, nth_error (upd live i b') j = Some c -> j = i /\ c = b' \/ j <> i /\ nth_error live j = Some c) as G.
  { intros j c X. rewrite nth_error_upd in X. destruct (i =? j)%nat eqn:W.
    - apply Nat.eqb_eq in W. destruct (_ <? _)%nat; [|discriminate]. injection X as <-. auto.
    - apply Nat.eqb_neq in W. auto. }
  split; [split|].
  - intros c H. apply in_upd in H. destruct H as [H| ->]; auto.
  - intros x y c d N X Y. apply G in X. apply G in Y.
    destruct X as [[X1 ->]|[X1 X2]], Y as [[Y1 ->]|[Y1 Y2]].
    + lia.
    + apply apart_sym. apply (AP _ _ Y1 Y2).
    + apply (AP _ _ X1 X2).
    + apply (B2 x y); auto.
  - intros c H. apply In_nth_error in H. destruct H as [j H]. apply G in H.
    destruct H as [[_ ->]|[H1 H2]]; auto. apply (AP _ _ H1 H2).
Qed.

Lemma step_ok s live o : linv s live -> legal_op live o ->
  exists s' live', lin_step true (s, live) o = Ok (s', live') /\ same_arena s s' /\ linv s' live'.
Proof.
  intros V O. assert (V' := V). destruct V' as [K [[B1 B2] P]]. assert (K' := K). destruct K' as [K1 [K2 K3]].
  destruct o as [sz al|i|i n al]; simpl lin_step.
  - destruct O as [Z0 A]. destruct (Z.eq_dec sz 0) as [->|N].
    { exists s, live. split; [reflexivity|]. split; [split; reflexivity|exact V]. }
    unfold lin_allocate, nonnull.
    destruct (std_align al sz (lmem s + lpos s) (lsize s - lpos s)) as [q|] eqn:E.
    + rewrite (do_alloc_some _ _ _ _ q) by (auto; lia). simpl.
      apply std_align_some in E; [|lia..]. destruct E as [[F1 [F2 F3]] _].
      rewrite (proj2 (Z.eqb_neq _ _)) by lia. simpl.
      eexists _, _. split; [reflexivity|]. split; [split; reflexivity|].
      apply linv_app; auto; lia.
    + rewrite do_alloc_none by (auto; lia). exists s, live. split; [reflexivity|]. split; [split; reflexivity|exact V].
  - exists s, (drop_nth live i). split; [reflexivity|]. split; [split; reflexivity|]. apply linv_drop; auto.
  - destruct O as [A [Z0 O]]. destruct (nth_error live i) as [b|] eqn:E.
    2: { exists s, live. split; [reflexivity|]. split; [split; reflexivity|exact V]. }
    specialize (O b eq_refl). destruct O as [O1 O2].
    assert (In b live) as IB by (eapply nth_error_In; eauto).
    destruct (B1 b IB) as [[I1 [I2 I3]] AL]. assert (PB := P b IB).
    assert ((al | bp b)) as ALb by (eapply Z.divide_trans; eauto).
    assert (forall j c, j <> i -> nth_error live j = Some c -> apart c b /\ (bn c = 0 \/ bp c + bn c <= lmem s + lpos s)) as OTH.
    { intros j c J X. split; [eapply B2; eauto|]. apply P. eapply nth_error_In; eauto. }
    unfold lin_reallocate, nonnull, lin_do_reallocate.
    rewrite (u64_id (lmem s + lpos s)), (u64_id (bp b + bn b)), (u64_id (bp b + n)), (u64_id (lmem s + lsize s)) by lia.
    destruct (n =? bn b) eqn:NE.
    { simpl. rewrite (proj2 (Z.eqb_neq _ _)) by lia. simpl. eexists _, _. split; [reflexivity|]. split; [split; reflexivity|].
      apply Z.eqb_eq in NE. subst n. apply (linv_upd s s live i b); auto.
      - split; reflexivity.
      - repeat split; simpl; lia. }
    apply Z.eqb_neq in NE. destruct (n <? bn b) eqn:LT.
    + apply Z.ltb_lt in LT. simpl. rewrite (proj2 (Z.eqb_neq _ _)) by lia. simpl. eexists _, _. split; [reflexivity|].
      destruct (lmem s + lpos s =? bp b + bn b) eqn:SP.
      * apply Z.eqb_eq in SP. rewrite (u64_id (bn b - n)) by lia. rewrite u64_id by lia.
        split; [split; reflexivity|]. apply (linv_upd s (set_pos s (lpos s - (bn b - n))) live i b); auto.
        -- split; reflexivity.
        -- repeat split; simpl; lia.
        -- repeat split; simpl; lia.
        -- intros j c J X. specialize (OTH j c J X). destruct (B1 c) as [[? [? ?]] _]; [eapply nth_error_In; eauto|]. unfold apart in *. simpl. lia.
        -- simpl. lia.
      * apply Z.eqb_neq in SP. split; [split; reflexivity|]. apply (linv_upd s s live i b); auto.
        -- split; reflexivity.
        -- repeat split; simpl; lia.
        -- intros j c J X. specialize (OTH j c J X). unfold apart in *. simpl. lia.
        -- simpl. lia.
    + apply Z.ltb_ge in LT.
      destruct ((lmem s + lpos s =? bp b + bn b) && (bp b + n <=? lmem s + lsize s)) eqn:SP.
      * apply andb_prop in SP. destruct SP as [SP1 SP2]. apply Z.eqb_eq in SP1. apply Z.leb_le in SP2.
        simpl. rewrite (proj2 (Z.eqb_neq _ _)) by lia. simpl. eexists _, _. split; [reflexivity|].
        rewrite (u64_id (n - bn b)) by lia. rewrite u64_id by lia.
        split; [split; reflexivity|]. apply (linv_upd s (set_pos s (lpos s + (n - bn b))) live i b); auto.
        -- split; reflexivity.
        -- repeat split; simpl; lia.
        -- repeat split; simpl; lia.
        -- intros j c J X. specialize (OTH j c J X). destruct (B1 c) as [[? [? ?]] _]; [eapply nth_error_In; eauto|]. unfold apart in *. simpl. lia.
        -- simpl. lia.
      * destruct (std_align al n (lmem s + lpos s) (lsize s - lpos s)) as [q|] eqn:EA.
        -- rewrite (do_alloc_some _ _ _ _ q) by (auto; lia). simpl.
           apply std_align_some in EA; [|lia..]. destruct EA as [[F1 [F2 F3]] _].
           rewrite (proj2 (Z.eqb_neq _ _)) by lia. simpl.
           eexists _, _. split; [reflexivity|]. split; [split; reflexivity|].
           apply (linv_upd s (set_pos s (q + n - lmem s)) live i b); auto.
           ++ split; reflexivity.
           ++ repeat split; simpl; lia.
           ++ repeat split; simpl; lia.
           ++ intros j c J X. specialize (OTH j c J X). unfold apart in *. simpl. lia.
           ++ simpl. lia.
        -- rewrite do_alloc_none by (auto; lia). exists s, live. split; [reflexivity|]. split; [split; reflexivity|exact V].
Qed.

Lemma run_ok os : forall s live, linv s live -> legal true (s, live) os ->
  exists s' live', lin_run true (s, live) os = Ok (s', live') /\ same_arena s s' /\ linv s' live'.
Proof.
  induction os as [|o os IH]; intros s live V L; cbn [lin_run].
  - exists s, live. split; [reflexivity|]. split; [split; reflexivity|exact V].
  - destruct L as [L1 L2]. destruct (step_ok s live o V L1) as [s1 [l1 [E [[A1 A2] V1]]]].
    rewrite E. simpl. destruct (IH s1 l1 V1 (L2 _ E)) as [s2 [l2 [E2 [[A3 A4] V2]]]].
    exists s2, l2. split; [exact E2|]. split; [split; congruence|exact V2].
Qed.
Lemma history base size os : arena base size -> legal true (Lin base size 0, []) os ->
  exists s live, lin_run true (Lin base size 0, []) os = Ok (s, live) /\ blocks_ok base size live.
Proof.
  intros [A1 [A2 A3]] L.
  destruct (run_ok os (Lin base size 0) []) as [s [live [E [[S1 S2] [_ [B _]]]]]]; [|exact L|].
  - split; [repeat split; simpl; lia|]. split; [split|].
    + intros b [].
    + intros i j b c N X. destruct i; discriminate.
    + intros b [].
  - exists s, live. split; [exact E|]. simpl in *. rewrite S1, S2 in B. exact B.
Qed.

(** ** Contents under reallocation *)
Lemma realloc_in_place s ptr oldsz newsz al :
  0 < lmem s -> lmem s + lsize s < 2 ^ 64 -> 0 <= lpos s <= lsize s ->
  0 < ptr -> 0 <= oldsz -> 0 <= newsz -> ptr + oldsz < 2 ^ 64 -> ptr + newsz < 2 ^ 64 ->
  newsz <= oldsz \/ (ptr + oldsz = lmem s + lpos s /\ ptr + newsz <= lmem s + lsize s) ->
  exists s', lin_reallocate true s ptr oldsz newsz al = Ok (s', ptr).
Proof.
  intros A1 A2 A3 P O N B1 B2 H. unfold lin_reallocate, nonnull, lin_do_reallocate.
  rewrite (u64_id (lmem s + lpos s)), (u64_id (ptr + oldsz)), (u64_id (ptr + newsz)), (u64_id (lmem s + lsize s)) by lia.
  destruct (newsz =? oldsz) eqn:E1; [|destruct (newsz <? oldsz) eqn:E2; [|destruct (_ && _) eqn:E3]].
  1-3: simpl; rewrite (proj2 (Z.eqb_neq _ _)) by lia; eexists; reflexivity.
  exfalso. apply andb_false_iff in E3. lia.
Qed.
Lemma realloc_moved s ptr oldsz newsz al s' p :
  lin_ok s -> 0 < al < 2 ^ 64 ->
  0 < ptr -> 0 <= oldsz -> oldsz < newsz -> ptr + newsz < 2 ^ 64 -> newsz < 2 ^ 64 ->
  ptr + oldsz <= lmem s + lpos s ->
  ptr + oldsz <> lmem s + lpos s \/ lmem s + lsize s < ptr + newsz ->
  lin_reallocate true s ptr oldsz newsz al = Ok (s', p) -> ptr + oldsz <= p.
Proof.
  intros K A P O N B1 B2 LE H. assert (K' := K). destruct K' as [K1 [K2 K3]]. unfold lin_reallocate, nonnull, lin_do_reallocate.
  rewrite (u64_id (lmem s + lpos s)), (u64_id (ptr + oldsz)), (u64_id (ptr + newsz)), (u64_id (lmem s + lsize s)) by lia.
  destruct (newsz =? oldsz) eqn:E1; [lia|]. destruct (newsz <? oldsz) eqn:E2; [lia|].
  destruct (_ && _) eqn:E3; [apply andb_prop in E3; lia|].
  destruct (std_align al newsz (lmem s + lpos s) (lsize s - lpos s)) as [q|] eqn:EA.
  - rewrite (do_alloc_some _ _ _ _ q) by (auto; lia). simpl.
    apply std_align_some in EA; [|lia..]. destruct EA as [[F1 [F2 F3]] _].
    rewrite (proj2 (Z.eqb_neq _ _)) by lia. intro X. injection X as _ <-. lia.
  - rewrite do_alloc_none by (auto; lia). discriminate.
Qed.
(** the memory of every address its own low byte: a moved block with at least one byte and
    no aliasing modulo 256 shows a different content; a general witness is simpler *)
Lemma realloc_preserved_iff s ptr oldsz newsz al s' p :
  lin_reallocate true s ptr oldsz newsz al = Ok (s', p) -> 0 < Z.min oldsz newsz ->
  (forall m, exists m', lin_reallocate_mem true m s ptr oldsz newsz al = Ok (m', s', p) /\
     forall k, 0 <= k < Z.min oldsz newsz -> m' (p + k) = m (ptr + k)) <-> p = ptr.
Proof.
  intros E L. unfold lin_reallocate_mem. rewrite E. simpl. split.
  - intros H. destruct (H (fun a => if a =? ptr then 1 else 0)) as [m' [X Y]]. injection X as <-.
    specialize (Y 0). rewrite !Z.add_0_r, Z.eqb_refl in Y. specialize (Y ltac:(lia)).
    destruct (p =? ptr) eqn:W; [lia|discriminate].
  - intros -> m. exists m. split; [reflexivity|]. auto.
Qed.

(** ** Ownership *)
Lemma crun_events os : forall stop c live c' live' e,
  crun stop (c, live) os = Ok (c', live', e) -> e = [].
Proof.
  induction os as [|o os IH]; intros stop c live c' live' e; cbn [crun].
  - intro X. injection X as _ _ <-. reflexivity.
  - destruct (cstep stop (c, live) o) as [[[c1 l1] e1]| |] eqn:E; simpl; try discriminate.
    assert (e1 = []) as ->.
    { destruct o; cbn [cstep release acquire_mem] in E.
      - injection E as _ _ <-. reflexivity.
      - unfold acquire in E. destruct (lin_allocate _ _ _ _) as [[? ?]| |]; simpl in E; try discriminate. injection E as _ _ <-. reflexivity.
      - injection E as _ _ <-. reflexivity.
      - destruct (lin_step stop (clin c, live) o) as [[? ?]| |]; simpl in E; try discriminate. injection E as _ _ <-. reflexivity. }
    destruct (crun stop (c1, l1) os) as [[[c2 l2] e2]| |] eqn:E2; simpl; try discriminate.
    intro X. injection X as _ _ <-. simpl. eapply IH; eauto.
Qed.
Lemma lin_step_arena stop s live o s' live' : lin_step stop (s, live) o = Ok (s', live') -> same_arena s s'.
Proof.
  assert (forall sz al s1 p, lin_do_allocate stop s sz al = Ok (s1, p) -> same_arena s s1) as DA.
  { intros sz al s1 p. unfold lin_do_allocate, c4_error, assert.
    repeat match goal with |- context [if ?b then _ else _] => destruct b | |- context [match ?b with Some _ => _ | None => _ end] => destruct b end;
    intro X; try discriminate; injection X as <- _; split; reflexivity. }
  assert (forall r, (forall s1 p, r = Ok (s1, p) -> same_arena s s1) -> forall s1 p, nonnull stop r = Ok (s1, p) -> same_arena s s1) as NN.
  { intros [[s1 p]| |] H s2 q; unfold nonnull; simpl; try discriminate.
    destruct (p =? 0); unfold c4_error; [destruct stop|]; intro X; try discriminate; injection X as <- _; eapply H; reflexivity. }
  destruct o as [sz al|i|i n al]; simpl.
  - destruct (lin_allocate stop s sz al) as [[s1 p]| |] eqn:E; simpl; intro X; try discriminate; injection X as <- _.
    + eapply (NN _ (DA sz al)); eauto.
    + split; reflexivity.
  - intro X. injection X as <- _. split; reflexivity.
  - destruct (nth_error live i) as [b|].
    2: { intro X. injection X as <- _. split; reflexivity. }
    destruct (lin_reallocate stop s (bp b) (bn b) n al) as [[s1 p]| |] eqn:E; simpl; intro X; try discriminate; injection X as <- _; [|split; reflexivity].
    eapply (NN (lin_do_reallocate stop s (bp b) (bn b) n al)); [|exact E].
    intros s2 q. unfold lin_do_reallocate.
    destruct (_ =? _); [intro X; injection X as <- _; split; reflexivity|].
    destruct (_ <? _).
    { intro X. injection X as <- _. destruct (_ =? _); split; reflexivity. }
    destruct (_ && _); [intro X; injection X as <- _; split; reflexivity|]. apply DA.
Qed.
Lemma crun_only_use os : forall stop c live c' live' e,
  Forall only_use os -> crun stop (c, live) os = Ok (c', live', e) ->
  same_arena (clin c) (clin c') /\ cowner c' = cowner c.
Proof.
  induction os as [|o os IH]; intros stop c live c' live' e F; cbn [crun].
  - intro X. injection X as <- _ _. repeat split; reflexivity.
  - inversion F as [|? ? F1 F2]; subst. destruct o; try contradiction F1. cbn [cstep].
    destruct (lin_step stop (clin c, live) o) as [[s1 l1]| |] eqn:E; simpl; try discriminate.
    apply lin_step_arena in E. destruct E as [E1 E2].
    destruct (crun stop _ os) as [[[c2 l2] e2]| |] eqn:E3; simpl; try discriminate.
    intro X. injection X as -> _ _. apply IH in E3; auto. destruct E3 as [[A1 A2] A3]. simpl in *.
    repeat split; congruence.
Qed.
Lemma life_owned stop sz a os ev : a <> 0 -> Forall only_use os ->
  life stop (fst (ctor_owned sz a)) (snd (ctor_owned sz a)) os = Ok ev -> ev = [EAlloc a sz; EFree a sz].
Proof.
  intros A F. unfold life. destruct (crun _ _ os) as [[[c l] e]| |] eqn:E; simpl; try discriminate.
  intro X. injection X as <-. assert (E2 := E). apply crun_events in E. subst e.
  apply crun_only_use in E2; auto. destruct E2 as [[E1 E2] E3]. simpl in *.
  unfold dtor. rewrite E1, E2, E3. rewrite (proj2 (Z.eqb_neq _ _)) by lia. reflexivity.
Qed.
Lemma crun_not_owner os : forall stop c live c' live' e,
  Forall no_acquire os -> cowner c = false -> crun stop (c, live) os = Ok (c', live', e) -> cowner c' = false.
Proof.
  induction os as [|o os IH]; intros stop c live c' live' e F O; cbn [crun].
  - intro X. injection X as <- _ _. exact O.
  - inversion F as [|? ? F1 F2]; subst.
    destruct (cstep stop (c, live) o) as [[[c1 l1] e1]| |] eqn:E; simpl; try discriminate.
    destruct (crun stop _ os) as [[[c2 l2] e2]| |] eqn:E3; simpl; try discriminate.
    intro X. injection X as -> _ _. apply IH in E3; auto.
    destruct o; cbn [cstep release acquire_mem] in E; try contradiction F1; try (injection E as <- _ _; reflexivity).
    destruct (lin_step _ _ _) as [[? ?]| |]; simpl in E; try discriminate. injection E as <- _ _. exact O.
Qed.
Lemma life_borrowed stop mem sz os ev : Forall no_acquire os ->
  life stop (ctor_borrowed mem sz) [] os = Ok ev -> ev = [].
Proof.
  intros F. unfold life. destruct (crun _ _ os) as [[[c l] e]| |] eqn:E; simpl; try discriminate.
  intro X. injection X as <-. assert (E2 := E). apply crun_events in E. subst e.
  apply crun_not_owner in E2; auto. unfold dtor. rewrite E2, andb_false_r. reflexivity.
Qed.
Lemma life_once stop c os ev : life stop c [] os = Ok ev -> len (filter is_free ev) <= 1.
Proof.
  unfold life. destruct (crun _ _ os) as [[[c' l] e]| |] eqn:E; simpl; try discriminate.
  intro X. injection X as <-. apply crun_events in E. subst e. unfold dtor.
  destruct (_ && _); unfold len; simpl; lia.
Qed.
Lemma life_release stop sz a : 
  life stop (fst (ctor_owned sz a)) (snd (ctor_owned sz a)) [CRelease] = Ok [EAlloc a sz].
Proof. reflexivity. Qed.
Lemma acquire_after_release c sz : 0 <= sz < 2 ^ 64 -> acquire true (fst (release c)) sz = Err.
Proof.
  intros Z0. unfold acquire. simpl. unfold set_pos. simpl. unfold lin_allocate, nonnull, lin_do_allocate. simpl lpos. simpl lsize. simpl lmem.
  destruct (sz =? 0) eqn:E; [reflexivity|]. apply Z.eqb_neq in E.
  rewrite (u64_id (0 + sz)) by lia. rewrite (proj2 (Z.ltb_lt _ _)) by lia. reflexivity.
Qed.
Lemma acquire_borrowed base size sz os ev :
  arena base size -> (16 | base) -> 0 < sz <= size -> Forall only_use os ->
  life true (ctor_borrowed base size) [] (CAcquire sz :: os) = Ok ev -> ev = [EFree base sz].
Proof.
  intros [A1 [A2 A3]] D Z0 F. unfold life. cbn [crun cstep]. unfold acquire. cbn [ctor_borrowed clin]. change (set_pos (Lin base size 0) 0) with (Lin base size 0).
  assert (exists s, lin_allocate true (Lin base size 0) sz 16 = Ok (s, base)) as [s E0].
  { destruct (alloc_exact (Lin base size 0) sz 16) as [[q [Q1 [Q2 Q3]]]|[Q _]].
    - repeat split; simpl; lia.
    - lia.
    - lia.
    - exists (2 ^ 60). reflexivity.
    - simpl in *. rewrite Z.add_0_r in *. exists (set_pos (Lin base size 0) (q + sz - base)). rewrite Q3. f_equal. f_equal.
      assert (q <= base) by (apply Q2; repeat split; auto; lia). destruct Q1. lia.
    - simpl in *. rewrite Z.add_0_r in *. exfalso. apply (Q base). repeat split; auto; lia. }
  rewrite E0. simpl bind. destruct (crun _ _ os) as [[[c l] e]| |] eqn:E; simpl; try discriminate.
  intro X. injection X as <-. assert (E2 := E). apply crun_events in E. subst e.
  apply crun_only_use in E2; auto. destruct E2 as [[E1 E2] E3]. simpl in *.
  unfold dtor. rewrite E1, E2, E3. rewrite (proj2 (Z.eqb_neq _ _)) by lia. reflexivity.
Qed.
