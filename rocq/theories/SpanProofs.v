(** Proofs about the spans. *)
From Verif Require Import Base BaseLemmas SubstrModel SubstrProofs MemUtilModel MemUtilProofs2 SpanModel SpanSpec.

Lemma promote_range t z : in_range t z -> in_range (promote t) z.
Proof. destruct t as [[| | |] [|]]; auto; unfold in_range; cbv [promote imin imax isgn iw bits i32]; lia. Qed.
Lemma iadd_ok t a b : in_range t (a + b) -> iadd t a b = Ok (a + b).
Proof. intros R. unfold iadd. rewrite arith_id by (apply promote_range; auto). cbn [bind]. rewrite wrap_id by auto. reflexivity. Qed.
Lemma isub_ok t a b : in_range t (a - b) -> isub t a b = Ok (a - b).
Proof. intros R. unfold isub. rewrite arith_id by (apply promote_range; auto). cbn [bind]. rewrite wrap_id by auto. reflexivity. Qed.
Lemma imin_neg t : imin t <= 0.
Proof. unfold imin. destruct t as [[| | |] [|]]; simpl; lia. Qed.
Lemma imax_bound t : imax t < 2 ^ 64.
Proof. unfold imax. destruct t as [[| | |] [|]]; simpl; lia. Qed.
Lemma range_mid t z n : 0 <= z <= n -> n <= imax t -> in_range t z.
Proof. intros. pose proof (imin_neg t). unfold in_range. lia. Qed.
Lemma assert_true b {A} (k : res A) : b = true -> assert b k = k.
Proof. intros ->. reflexivity. Qed.
Lemma assert_false b {A} (k : res A) : b = false -> assert b k = Err.
Proof. intros ->. reflexivity. Qed.

Lemma select_ok k t base total w s f n : 0 <= total <= imax t -> inside total w -> stands k base total w s ->
  0 <= f -> 0 <= n -> f + n <= snd w ->
  exists s', select k t s (sp s + f) n = Ok s' /\ stands k base total (fst w + f, n) s'.
Proof.
  intros T I (A & B & C & D) F N L. destruct w as [o z]. unfold inside in I. cbn [fst snd] in *. pose proof (imax_bound t).
  destruct k; cbn [select room snd fst] in *.
  - exists (Span (sp s + f) n n 0). split; auto. repeat split; cbn [sp ssz scap soff room fst snd]; lia.
  - rewrite assert_true by lia. replace (sp s + f - sp s) with f by lia.
    rewrite u64_id by lia. rewrite C. rewrite u64_id by lia. rewrite assert_true by lia.
    rewrite u64_id by lia. rewrite wrap_id by (apply (range_mid t _ total); lia).
    eexists. split; [reflexivity|]. repeat split; cbn [sp ssz scap soff room fst snd]; lia.
  - rewrite assert_true by lia. replace (sp s + f - sp s) with f by lia.
    rewrite wrap_id by (apply (range_mid t _ total); lia). rewrite C, D. rewrite assert_true by lia.
    rewrite isub_ok by (apply (range_mid t _ total); lia). cbn [bind].
    rewrite iadd_ok by (apply (range_mid t _ total); lia). cbn [bind].
    eexists. split; [reflexivity|]. repeat split; cbn [sp ssz scap soff room fst snd]; lia.
Qed.

Lemma run1_ok k t base total w s o : 0 <= total <= imax t -> inside total w -> stands k base total w s ->
  legal (room k total w) w o ->
  exists s', run1 k t s o = Ok s' /\ stands k base total (picks w o) s' /\ inside total (picks w o).
Proof.
  intros T I ST L. destruct w as [o0 n0]. pose proof ST as (A & B & C & D). unfold inside in *. cbn [fst snd] in *.
  assert (RT : forall z, 0 <= z <= total -> in_range t z) by (intros; apply (range_mid t _ total); lia).
  destruct o as [f n|f|f l|f|n|n|z|n|n|]; cbn [run1 legal picks fst snd] in *.
  - destruct (select_ok k t base total (o0, n0) s f n) as (s' & E & S'); cbn [fst snd]; try lia; auto; try (unfold inside; cbn; lia).
    exists s'. split; [|split; [exact S'|lia]]. unfold subspan2. rewrite assert_true by lia.
    rewrite arith_id by (apply promote_range, RT; lia). cbn [bind]. rewrite assert_true by lia. exact E.
  - destruct (select_ok k t base total (o0, n0) s f (n0 - f)) as (s' & E & S'); cbn [fst snd]; try lia; auto; try (unfold inside; cbn; lia).
    exists s'. split; [|split; [exact S'|lia]]. unfold subspan1. rewrite assert_true by lia. rewrite B.
    rewrite isub_ok by (apply RT; lia). cbn [bind]. exact E.
  - destruct (select_ok k t base total (o0, n0) s f (l - f)) as (s' & E & S'); cbn [fst snd]; try lia; auto; try (unfold inside; cbn; lia).
    exists s'. split; [|split; [exact S'|lia]]. unfold range2. rewrite !assert_true by lia.
    rewrite isub_ok by (apply RT; lia). cbn [bind]. exact E.
  - destruct (select_ok k t base total (o0, n0) s f (n0 - f)) as (s' & E & S'); cbn [fst snd]; try lia; auto; try (unfold inside; cbn; lia).
    exists s'. split; [|split; [exact S'|lia]]. unfold range1. rewrite assert_true by lia. rewrite B.
    rewrite isub_ok by (apply RT; lia). cbn [bind]. exact E.
  - destruct (select_ok k t base total (o0, n0) s 0 n) as (s' & E & S'); cbn [fst snd]; try lia; auto; try (unfold inside; cbn; lia).
    exists s'. rewrite !Z.add_0_r in *.
    split; [|split; [exact S'|lia]]. unfold first_n. rewrite assert_true by lia. exact E.
  - destruct (select_ok k t base total (o0, n0) s (n0 - n) n) as (s' & E & S'); cbn [fst snd]; try lia; auto; try (unfold inside; cbn; lia).
    exists s'. cbn [fst] in S'. replace (o0 + (n0 - n)) with (o0 + n0 - n) in S' by lia.
    split; [|split; [exact S'|lia]]. unfold last_n. rewrite assert_true by lia. rewrite B.
    replace (sp s + n0 - n) with (sp s + (n0 - n)) by lia. exact E.
  - eexists. split; [unfold resize; rewrite assert_true by lia; reflexivity|].
    split; [|destruct k; cbn [room fst snd] in *; lia].
    destruct k; repeat split; cbn [mk sp ssz scap soff room fst snd] in *; lia.
  - unfold rtrim. rewrite assert_true by lia. rewrite B. rewrite isub_ok by (apply RT; lia). cbn [bind].
    eexists. split; [reflexivity|]. split; [|lia]. destruct k; repeat split; cbn [mk sp ssz scap soff room fst snd] in *; lia.
  - unfold ltrim. rewrite assert_true by lia. rewrite B. rewrite isub_ok by (apply RT; lia). cbn [bind].
    destruct k; cbn [room fst snd] in *; rewrite ?C, ?D.
    + eexists. split; [reflexivity|]. split; [|lia]. repeat split; cbn [mk sp ssz scap soff room fst snd] in *; lia.
    + rewrite isub_ok by (apply RT; lia). cbn [bind].
      eexists. split; [reflexivity|]. split; [|lia]. repeat split; cbn [mk sp ssz scap soff room fst snd] in *; lia.
    + rewrite iadd_ok by (apply RT; lia). cbn [bind]. rewrite isub_ok by (apply RT; lia). cbn [bind].
      eexists. split; [reflexivity|]. split; [|lia]. repeat split; cbn [mk sp ssz scap soff room fst snd] in *; lia.
  - eexists. split; [reflexivity|]. split; [|lia]. destruct k; repeat split; cbn [clear mk sp ssz scap soff room fst snd] in *; lia.
Qed.
Lemma run1_err k t base total w s o : 0 <= total <= imax t -> inside total w -> stands k base total w s ->
  args_in t o -> sane t o -> ~ legal (room k total w) w o -> run1 k t s o = Err.
Proof.
  intros T I ST AI SA L. destruct w as [o0 n0]. pose proof ST as (A & B & C & D). unfold inside in *. cbn [fst snd] in *.
  unfold args_in in AI.
  destruct o as [f n|f|f l|f|n|n|z|n|n|]; cbn [run1 legal picks fst snd sane op_args] in *.
  - unfold subspan2.
    destruct (((0 <=? f) && (f <? ssz s)) || ((f =? ssz s) && (n =? 0))) eqn:E; [|reflexivity].
    cbn [assert].
    assert (R : in_range (promote t) (f + n)) by (pose proof (imin_neg (promote t)); unfold in_range; lia).
    rewrite arith_id by exact R. cbn [bind]. apply assert_false. lia.
  - unfold subspan1. apply assert_false. lia.
  - unfold range2.
    destruct (((0 <=? f) && (f <? ssz s)) || ((f =? ssz s) && (f =? l))) eqn:E; [|reflexivity].
    rewrite assert_true by reflexivity.
    destruct ((0 <=? l) && (l <=? ssz s)) eqn:E2; [|reflexivity]. rewrite assert_true by reflexivity. apply assert_false. lia.
  - unfold range1. apply assert_false. lia.
  - unfold first_n. apply assert_false. lia.
  - unfold last_n. apply assert_false. lia.
  - unfold resize. apply assert_false. lia.
  - unfold rtrim. apply assert_false. lia.
  - unfold ltrim. apply assert_false. lia.
  - tauto.
Qed.
Lemma legal_dec r w o : legal r w o \/ ~ legal r w o.
Proof. destruct w as [a b]. destruct o; cbn [legal]; try lia. Qed.

Lemma runs_ok k t base total : 0 <= total <= imax t -> forall os w s s', inside total w -> stands k base total w s ->
  Forall (args_in t) os -> Forall (sane t) os -> runs k t s os = Ok s' ->
  stands k base total (fold_left picks os w) s' /\ inside total (fold_left picks os w).
Proof.
  intros T. induction os as [|o os IH]; intros w s s' I S AI SA R; cbn [runs fold_left] in *.
  - inversion R; subst; auto.
  - inversion AI as [|? ? A1 A2]; subst. inversion SA as [|? ? S1 S2]; subst.
    destruct (legal_dec (room k total w) w o) as [L|L].
    + destruct (run1_ok k t base total w s o T I S L) as (s1 & E & S' & I'). rewrite E in R. cbn [bind] in R.
      exact (IH _ _ _ I' S' A2 S2 R).
    + rewrite (run1_err k t base total w s o T I S A1 S1 L) in R. discriminate.
Qed.
Lemma original_ok t base total w s : 0 <= total <= imax t -> inside total w -> stands KRsl base total w s ->
  original t s = Ok (Span base total total 0).
Proof.
  intros T I (A & B & C & D). unfold original. unfold inside in I. destruct w as [a b]. cbn [room fst snd] in *. rewrite C, D.
  replace (total - a + a) with total by lia.
  rewrite iadd_ok; replace (total - a + a) with total by lia; [|apply (range_mid t _ total); lia].
  cbn [bind]. rewrite A. replace (base + a - a) with base by lia. reflexivity.
Qed.
Lemma size_cap k base total w s : inside total w -> stands k base total w s -> 0 <= ssz s <= scap s /\ base <= sp s /\ sp s + scap s <= base + total.
Proof. intros I (A & B & C & D). unfold inside in I. destruct w as [a b], k; cbn [room fst snd] in *; lia. Qed.

(** narrow unsigned size types need no extra care *)
Lemma sane_narrow t o : isgn t = false -> iw t = W8 \/ iw t = W16 -> args_in t o -> sane t o.
Proof.
  intros G W A. destruct t as [w g]. simpl in *. subst g. unfold args_in in A. destruct o; cbn [sane op_args] in *; auto.
  - inversion A as [|? ? A1 A2]; subst. inversion A2; subst. unfold in_range in *.
    destruct W as [-> | ->]; cbv [promote iw i32 imin imax isgn bits] in *; lia.
  - inversion A; subst. unfold in_range in *. destruct W as [-> | ->]; cbv [imin imax isgn bits iw] in *; lia.
Qed.

(** ** complements *)
Lemma compll_in k t base total w s ss : 0 <= total <= imax t -> inside total w -> stands k base total w s ->
  sp s <= sp ss <= sp s + ssz s ->
  exists s', compll k t s ss = Ok s' /\ sp s' = sp s /\ sp s' + ssz s' = sp ss.
Proof.
  intros T I ST P. pose proof ST as (A & B & C & D). pose proof I as I'. unfold inside in I'. pose proof (imax_bound t).
  unfold compll. replace ((sp s <=? sp ss) && (sp ss <=? sp s + ssz s)) with true by lia.
  rewrite u64_id by lia. rewrite wrap_id by (apply (range_mid t _ total); lia).
  destruct (run1_ok k t base total w s (OSub 0 (sp ss - sp s)) T I ST) as (s' & E & S' & _).
  { destruct w. cbn [legal fst snd] in *. lia. }
  exists s'. split; [exact E|]. destruct S' as (A' & B' & _). destruct w. cbn [picks fst snd] in *. lia.
Qed.
Lemma complr_in k t base total w s ss : 0 <= total <= imax t -> inside total w -> stands k base total w s ->
  sp s <= sp ss + ssz ss <= sp s + ssz s ->
  exists s', complr k t s ss = Ok s' /\ sp s' = sp ss + ssz ss /\ sp s' + ssz s' = sp s + ssz s.
Proof.
  intros T I ST P. pose proof ST as (A & B & C & D). pose proof I as I'. unfold inside in I'. pose proof (imax_bound t).
  unfold complr. replace ((sp s <=? sp ss + ssz ss) && (sp ss + ssz ss <=? sp s + ssz s)) with true by lia.
  rewrite !u64_id by lia. rewrite !wrap_id by (apply (range_mid t _ total); lia).
  destruct (run1_ok k t base total w s (OSub (sp ss + ssz ss - sp s) (sp s + ssz s - (sp ss + ssz ss))) T I ST) as (s' & E & S' & _).
  { destruct w. cbn [legal fst snd] in *. lia. }
  exists s'. split; [exact E|]. destruct S' as (A' & B' & _). destruct w. cbn [picks fst snd] in *. lia.
Qed.
Lemma empty_in k t base total w s : 0 <= total <= imax t -> inside total w -> stands k base total w s ->
  exists s', subspan2 k t s 0 0 = Ok s' /\ sp s' = sp s /\ ssz s' = 0.
Proof.
  intros T I ST. pose proof ST as (A & B & C & D).
  destruct (run1_ok k t base total w s (OSub 0 0) T I ST) as (s' & E & S' & _).
  { destruct w. unfold inside in I. cbn [legal fst snd] in *. lia. }
  exists s'. split; [exact E|]. destruct S' as (A' & B' & _). destruct w. cbn [picks fst snd] in *. lia.
Qed.
Lemma compl_outside k t base total w s ss : 0 <= total <= imax t -> inside total w -> stands k base total w s ->
  (~ sp s <= sp ss <= sp s + ssz s -> exists s', compll k t s ss = Ok s' /\ sp s' = sp s /\ ssz s' = 0) /\
  (~ sp s <= sp ss + ssz ss <= sp s + ssz s -> exists s', complr k t s ss = Ok s' /\ sp s' = sp s /\ ssz s' = 0).
Proof.
  intros T I ST. split; intros N.
  - unfold compll. replace ((sp s <=? sp ss) && (sp ss <=? sp s + ssz s)) with false by lia. eapply empty_in; eauto.
  - unfold complr. replace ((sp s <=? sp ss + ssz ss) && (sp ss + ssz ss <=? sp s + ssz s)) with false by lia. eapply empty_in; eauto.
Qed.
Lemma slice_cut (m : list Z) i a b : 0 <= a -> 0 <= b -> slice m i (a + b) = slice m i a ++ skipn (Z.to_nat a) (slice m i (a + b)).
Proof.
  intros A B. unfold slice. rewrite <- (firstn_skipn (Z.to_nat a) (firstn (Z.to_nat (a + b)) _)) at 1.
  rewrite firstn_firstn. replace (Nat.min (Z.to_nat a) (Z.to_nat (a + b))) with (Z.to_nat a) by lia. reflexivity.
Qed.
Lemma slice_split2 (m : list Z) i a b : 0 <= i -> 0 <= a -> 0 <= b -> slice m i (a + b) = slice m i a ++ slice m (i + a) b.
Proof.
  intros I A B. rewrite slice_cut by lia. f_equal. unfold slice.
  rewrite skipn_firstn_comm, skipn_skipn.
  f_equal; [lia|]. f_equal. lia.
Qed.
Lemma complements k t base total w (m : list Z) s ss : 0 <= base -> base + total <= len m -> 0 <= total <= imax t -> inside total w -> stands k base total w s ->
  0 <= ssz ss -> sp s <= sp ss -> sp ss + ssz ss <= sp s + ssz s ->
  exists l r, compll k t s ss = Ok l /\ complr k t s ss = Ok r /\
    elements m l ++ elements m ss ++ elements m r = elements m s /\
    sp l = sp s /\ sp l + ssz l = sp ss /\ sp r = sp ss + ssz ss /\ sp r + ssz r = sp s + ssz s.
Proof.
  intros B0 LM T I ST Z0 P1 P2.
  destruct (compll_in k t base total w s ss T I ST ltac:(lia)) as (l & El & L1 & L2).
  destruct (complr_in k t base total w s ss T I ST ltac:(lia)) as (r & Er & R1 & R2).
  exists l, r. repeat split; auto. unfold elements.
  pose proof (size_cap k base total w s I ST).
  replace (ssz s) with (ssz l + (ssz ss + ssz r)) by lia.
  rewrite slice_split2 by lia. rewrite <- L1. f_equal. rewrite L2. rewrite slice_split2 by lia. f_equal. rewrite R1. reflexivity.
Qed.
Lemma is_subspan_ok s ss : 0 <= ssz ss -> is_subspan false s ss = true <-> sp s <= sp ss /\ sp ss + ssz ss <= sp s + ssz s.
Proof. intros. unfold is_subspan. lia. Qed.

(** ** comparison *)
Lemma slice_cons (m : list Z) i n : 0 <= i -> i + Z.of_nat (S n) <= len m -> slice m i (Z.of_nat (S n)) = nth (Z.to_nat i) m 0 :: slice m (i + 1) (Z.of_nat n).
Proof.
  intros I L. replace (Z.of_nat (S n)) with (1 + Z.of_nat n) by lia. rewrite slice_split2 by lia.
  change (nth (Z.to_nat i) m 0 :: slice m (i + 1) (Z.of_nat n)) with ([nth (Z.to_nat i) m 0] ++ slice m (i + 1) (Z.of_nat n)). f_equal.
  unfold slice. change (Z.to_nat 1) with 1%nat.
  assert (H : (Z.to_nat i < length m)%nat) by (unfold len in *; lia).
  destruct (skipn (Z.to_nat i) m) as [|x l] eqn:E.
  - assert (length (skipn (Z.to_nat i) m) = 0%nat) by (rewrite E; reflexivity). rewrite skipn_length in *. lia.
  - simpl. f_equal. replace (Z.to_nat i) with (Z.to_nat i + 0)%nat by lia. rewrite <- nth_skipn, E. reflexivity.
Qed.
Fixpoint zlist_eqb (a b : list Z) : bool :=
  match a, b with
  | [], [] => true
  | x :: a, y :: b => (x =? y) && zlist_eqb a b
  | _, _ => false
  end.
Lemma zlist_eqb_iff a : forall b, zlist_eqb a b = true <-> a = b.
Proof.
  induction a as [|x a IH]; intros [|y b]; cbn [zlist_eqb]; split; intros H; try discriminate; auto.
  - apply andb_prop in H as [H1 H2]. apply IH in H2. f_equal; [lia|auto].
  - inversion H; subst. rewrite Z.eqb_refl. simpl. apply IH. reflexivity.
Qed.
Lemma rd_nth (m : list Z) i : 0 <= i < len m -> rd m i = Ok (nth (Z.to_nat i) m 0).
Proof. intros. unfold rd. replace ((0 <=? i) && (i <? len m)) with true by lia. reflexivity. Qed.
Lemma equal_n_ok m : forall n a b, 0 <= a -> 0 <= b -> a + Z.of_nat n <= len m -> b + Z.of_nat n <= len m ->
  equal_n m n a b = Ok (zlist_eqb (slice m a (Z.of_nat n)) (slice m b (Z.of_nat n))).
Proof.
  induction n as [|n IH]; intros a b A B LA LB; [reflexivity|]. cbn [equal_n].
  rewrite !rd_nth by lia. cbn [bind]. rewrite !slice_cons by lia. cbn [zlist_eqb].
  destruct (Z.eqb_spec (nth (Z.to_nat a) m 0) (nth (Z.to_nat b) m 0)) as [E|E]; cbn [andb]; [apply IH; lia|reflexivity].
Qed.
Lemma span_eq_ok m l r : sin m l -> sin m r -> exists b, span_eq m l r = Ok b /\ (b = true <-> elements m l = elements m r).
Proof.
  intros (L0 & L1 & L2) (R0 & R1 & R2). unfold span_eq, elements.
  destruct (Z.eqb_spec (ssz l) (ssz r)) as [E|E].
  - rewrite equal_n_ok by lia. eexists. split; [reflexivity|]. rewrite zlist_eqb_iff.
    rewrite Z2Nat.id by lia. rewrite E. tauto.
  - exists false. split; auto. split; [discriminate|]. intros H. exfalso. apply E.
    rewrite <- (len_slice m (sp l) (ssz l)), <- (len_slice m (sp r) (ssz r)) by lia. rewrite H. reflexivity.
Qed.
Lemma lexlt_nil a : ~ lexlt a []. Proof. intros H; inversion H. Qed.
Lemma lexlt_cons x a y b : lexlt (x :: a) (y :: b) <-> x < y \/ (x = y /\ lexlt a b).
Proof. split; [intros H; inversion H; subst; auto|intros [H|[-> H]]; [apply lex_lt; auto|apply lex_eq; auto]]. Qed.
Lemma lex_ok m : forall na nb a b, 0 <= a -> 0 <= b -> a + Z.of_nat na <= len m -> b + Z.of_nat nb <= len m ->
  exists r, lex m na nb a b = Ok r /\ (r = true <-> lexlt (slice m a (Z.of_nat na)) (slice m b (Z.of_nat nb))).
Proof.
  induction na as [|na IH]; intros [|nb] a b A B LA LB; cbn [lex].
  - exists false. split; auto. split; [discriminate|]. intros H. inversion H.
  - exists true. split; auto. split; [|auto]. intros _. rewrite (slice_cons m b) by lia. apply lex_nil.
  - exists false. split; auto. split; [discriminate|]. intros H. apply lexlt_nil in H. tauto.
  - rewrite !rd_nth by lia. cbn [bind]. rewrite !slice_cons by lia.
    set (x := nth (Z.to_nat a) m 0). set (y := nth (Z.to_nat b) m 0).
    destruct (Z.ltb_spec x y) as [L|L].
    + exists true. split; auto. split; auto. intros _. apply lex_lt; auto.
    + destruct (Z.ltb_spec y x) as [L2|L2].
      * exists false. split; auto. split; [discriminate|]. rewrite lexlt_cons. lia.
      * destruct (IH nb (a + 1) (b + 1)) as (r & E & H); try lia. exists r. split; auto.
        rewrite H, lexlt_cons. split; [intros; right; split; [lia|auto]|intros [?|[? ?]]; [lia|auto]].
Qed.
Lemma span_lt_ok m l r : sin m l -> sin m r -> exists b, span_lt m l r = Ok b /\ (b = true <-> lexlt (elements m l) (elements m r)).
Proof.
  intros (L0 & L1 & L2) (R0 & R1 & R2). unfold span_lt, elements.
  destruct (lex_ok m (Z.to_nat (ssz l)) (Z.to_nat (ssz r)) (sp l) (sp r)) as (b & E & H); try lia.
  exists b. rewrite !Z2Nat.id in H by lia. auto.
Qed.
Lemma span_cmp_ok m l r : sin m l -> sin m r ->
  exists bne bgt ble bge,
    span_ne m l r = Ok bne /\ (bne = true <-> elements m l <> elements m r) /\
    span_gt m l r = Ok bgt /\ (bgt = true <-> lexlt (elements m r) (elements m l)) /\
    span_le m l r = Ok ble /\ (ble = true <-> ~ lexlt (elements m r) (elements m l)) /\
    span_ge m l r = Ok bge /\ (bge = true <-> ~ lexlt (elements m l) (elements m r)).
Proof.
  intros L R. destruct (span_eq_ok m l r L R) as (be & E1 & H1). destruct (span_lt_ok m l r L R) as (bl & E2 & H2).
  destruct (span_lt_ok m r l R L) as (bg & E3 & H3).
  exists (negb be), bg, (negb bg), (negb bl). unfold span_ne, span_le, span_ge, span_gt. rewrite E1, E2, E3. cbn [bind].
  repeat split; auto; try tauto; intros H.
  - intros X. apply H1 in X. subst. discriminate.
  - destruct be; auto. exfalso. apply H. apply H1. reflexivity.
  - intros X. apply H3 in X. subst. discriminate.
  - destruct bg; auto. exfalso. apply H. apply H3. reflexivity.
  - intros X. apply H2 in X. subst. discriminate.
  - destruct bl; auto. exfalso. apply H. apply H2. reflexivity.
Qed.
(** exactly one of <, ==, > *)
Lemma lexlt_irrefl a : ~ lexlt a a.
Proof. induction a as [|x a IH]; intros H; inversion H; subst; [lia|auto]. Qed.
Lemma lexlt_trans a : forall b c, lexlt a b -> lexlt b c -> lexlt a c.
Proof.
  induction a as [|x a IH]; intros [|y b] [|z c] H1 H2; try (apply lexlt_nil in H1; tauto); try (apply lexlt_nil in H2; tauto).
  - apply lex_nil.
  - rewrite lexlt_cons in *. destruct H1 as [H1|[-> H1]], H2 as [H2|[-> H2]]; try (left; lia). right. split; auto. eapply IH; eauto.
Qed.
Lemma lexlt_total a : forall b, lexlt a b \/ a = b \/ lexlt b a.
Proof.
  induction a as [|x a IH]; intros [|y b]; auto using lex_nil.
  rewrite !lexlt_cons. destruct (Ztrichotomy x y) as [H|[H|H]]; [auto| |right; right; left; lia].
  subst. destruct (IH b) as [H|[H|H]]; [auto|subst; auto|auto].
Qed.

(** element access *)
Lemma at_ok m s i : sin m s -> 0 <= i < ssz s -> exists c, at_ m s i = Ok c /\ nth_error (elements m s) (Z.to_nat i) = Some c.
Proof.
  intros (A & B & C) I. unfold at_, elements. rewrite assert_true by lia. rewrite rd_nth by lia.
  eexists. split; [reflexivity|]. unfold slice.
  assert (L : (Z.to_nat i < length (firstn (Z.to_nat (ssz s)) (skipn (Z.to_nat (sp s)) m)))%nat)
    by (rewrite firstn_length, skipn_length; unfold len in *; lia).
  rewrite (nth_error_nth' _ 0 L). f_equal. rewrite nth_firstn_lt by lia. rewrite nth_skipn. f_equal. lia.
Qed.
Lemma at_err m s i : ~ (0 <= i < ssz s) -> at_ m s i = Err.
Proof. intros I. unfold at_. apply assert_false. lia. Qed.
Lemma front_ok m s : 0 < ssz s -> front m s = at_ m s 0.
Proof. intros. unfold front, at_. rewrite !assert_true by lia. f_equal. lia. Qed.
Lemma back_ok t m s : 0 < ssz s <= imax t -> back t m s = at_ m s (ssz s - 1).
Proof.
  intros. unfold back, at_. rewrite !assert_true by lia. rewrite isub_ok by (apply (range_mid t _ (ssz s)); lia). reflexivity.
Qed.

Lemma eq11_ok m l r : sin m l -> sin m r -> ssz l = ssz r -> span_eq11 m l r = span_eq m l r.
Proof.
  intros (L0 & L1 & L2) (R0 & R1 & R2) E. unfold span_eq11, span_eq, same_span.
  replace (ssz l =? ssz r) with true by lia. cbn [andb].
  destruct (Z.eqb_spec (sp l) (sp r)) as [P|P]; auto.
  rewrite P, E. rewrite equal_n_ok by lia. f_equal. symmetry. apply zlist_eqb_iff. reflexivity.
Qed.
(** a wrapping end is accepted *)
Lemma subspan_wraps k t base total w s : t = u32t \/ t = u64t -> 0 <= total <= imax t -> inside total w -> stands k base total w s ->
  2 <= snd w -> exists s', subspan2 k t s 1 (imax t) = Ok s' /\ ssz s' = imax t /\ sp s' = sp s + 1.
Proof.
  intros T TT I ST N. destruct (select_ok k t base total w s 1 0 TT I ST) as (s' & E & S'); try lia.
  pose proof ST as (A & B & C & D). unfold inside in I. unfold subspan2. rewrite assert_true by lia.
  replace (arith (promote t) (1 + imax t)) with (@Ok Z 0) by (destruct T; subst t; reflexivity). cbn [bind].
  rewrite assert_true by lia.
  destruct k; cbn [select] in *.
  - eexists. split; [reflexivity|]. auto.
  - destruct (sp s <=? sp s + 1); cbn [assert] in *; [|discriminate].
    destruct (u64 (sp s + 1 - sp s) <=? u64 (scap s)); cbn [assert] in *; [|discriminate].
    eexists. split; [reflexivity|]. auto.
  - destruct (sp s <=? sp s + 1); cbn [assert] in *; [|discriminate].
    destruct (wrap t (sp s + 1 - sp s) <=? scap s); cbn [assert] in *; [|discriminate].
    destruct (isub t (scap s) (wrap t (sp s + 1 - sp s))); cbn [bind] in *; try discriminate.
    destruct (iadd t (soff s) (wrap t (sp s + 1 - sp s))); cbn [bind] in *; try discriminate.
    eexists. split; [reflexivity|]. auto.
Qed.
(** a negative size is accepted *)
Lemma resize_negative k t s z : 0 <= scap s -> z < 0 -> exists s', resize k t s z = Ok s' /\ ssz s' = z.
Proof. intros C Z0. unfold resize. rewrite assert_true by lia. eexists. split; [reflexivity|]. destruct k; reflexivity. Qed.
Lemma front_back_empty t m s : ssz s = 0 -> front m s = Err /\ back t m s = Err.
Proof. intros E. unfold front, back. rewrite E. auto. Qed.
