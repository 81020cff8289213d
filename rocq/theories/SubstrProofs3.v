(** Patterns: begins_with, ends_with, strip, find, count, first_of_any; trimming. *)
From Verif Require Import Base BaseLemmas ScanModel SubstrModel SubstrSpec SubstrProofs SubstrProofs2.

Lemma list_eq_at (a b : list Z) : len a = len b -> (forall i, 0 <= i < len a -> byte_at a i = byte_at b i) -> a = b.
Proof.
  intros HL H. apply (list_eq_nth _ _ 0); [unfold len in *; lia|].
  intros i Hi. specialize (H (Z.of_nat i)). unfold byte_at in H. rewrite Nat2Z.id in H. apply H. unfold len; lia.
Qed.
Lemma byte_at_slice (s : list Z) i n j : 0 <= i -> 0 <= j < n -> byte_at (slice s i n) j = byte_at s (i + j).
Proof.
  intros. unfold byte_at, slice. rewrite nth_firstn_lt by lia. rewrite nth_skipn. f_equal. lia.
Qed.
Lemma byte_at_skipn (s : list Z) i j : 0 <= i -> 0 <= j -> byte_at (skipn (Z.to_nat i) s) j = byte_at s (i + j).
Proof. intros. unfold byte_at. rewrite nth_skipn. f_equal. lia. Qed.

Lemma occurs_slice s pat i : occurs s pat i <-> 0 <= i /\ i + len pat <= len s /\ slice s i (len pat) = pat.
Proof.
  split.
  - intros (a & b & -> & <-). rewrite !len_app. pose proof (nonneg_len a). pose proof (nonneg_len b).
    repeat split; try lia. apply slice_app_mid.
  - intros (H1 & H2 & H3). destruct (slice_parts s i (len pat)) as (a & c & E & La & _); auto using nonneg_len.
    rewrite H3 in E. exists a, c. auto.
Qed.
Lemma occurs_skipn s pat i : 0 <= i <= len s -> (occurs s pat i <-> exists x, skipn (Z.to_nat i) s = pat ++ x).
Proof.
  intros Hi. split.
  - intros (a & b & -> & <-). exists b. unfold len. rewrite Nat2Z.id, skipn_app, skipn_all, Nat.sub_diag. reflexivity.
  - intros (x & E). exists (firstn (Z.to_nat i) s), x. rewrite <- E, firstn_skipn. split; auto.
    rewrite len_firstn; lia.
Qed.

Lemma all_from_ok s off pat : 0 <= off -> off + len pat <= len s ->
  exists b, all_from s off pat = Ok b /\ (b = true <-> occurs s pat off).
Proof.
  intros H1 H2. unfold all_from. pose proof (nonneg_len pat).
  destruct (for_up_first (fun i => do a <- rd s (off + i) ;; do b <- rd pat i ;; Ok (if negb (a =? b) then Some tt else None))
    (Z.to_nat (len pat)) 0 (fun j => byte_at s (off + j) <> byte_at pat j) (fun _ => tt)) as (o & E & Ho).
  { intros j Hj. rewrite !rd_ok by lia. cbn [bind].
    destruct (Z.eqb_spec (byte_at s (off + j)) (byte_at pat j)); cbn [negb]; [right|left]; auto. }
  rewrite E. cbn [bind]. replace (0 + Z.of_nat (Z.to_nat (len pat))) with (len pat) in Ho by lia.
  eexists; split; [reflexivity|]. rewrite occurs_slice. destruct o as [k|]; cbn [option_map is_first] in *.
  - split; [discriminate|]. intros (_ & _ & H3). destruct Ho as (Hk & Hne & _).
    destruct Hne. rewrite <- (byte_at_slice s off (len pat)) by lia. rewrite H3. reflexivity.
  - split; auto. intros _. repeat split; auto. apply list_eq_at; [apply len_slice; lia|].
    rewrite len_slice by lia. intros i Hi. rewrite byte_at_slice by lia.
    destruct (Z.eq_dec (byte_at s (off + i)) (byte_at pat i)); auto. destruct (Ho i); auto.
Qed.

(** ** begins_with / ends_with *)
Lemma begins_with_ok s pat : exists b, begins_with s pat = Ok b /\ (b = true <-> exists r, s = pat ++ r).
Proof.
  unfold begins_with. pose proof (nonneg_len pat). destruct (Z.ltb_spec (len s) (len pat)).
  - eexists; split; [reflexivity|]. split; [discriminate|]. intros (r & ->). rewrite len_app in *. pose proof (nonneg_len r). lia.
  - destruct (all_from_ok s 0 pat) as (b & E & Hb); try lia. exists b; split; auto. rewrite Hb.
    rewrite occurs_skipn by lia. reflexivity.
Qed.
Lemma ends_with_ok s pat : exists b, ends_with s pat = Ok b /\ (b = true <-> exists r, s = r ++ pat).
Proof.
  unfold ends_with. pose proof (nonneg_len pat). destruct (Z.ltb_spec (len s) (len pat)).
  - eexists; split; [reflexivity|]. split; [discriminate|]. intros (r & ->). rewrite len_app in *. pose proof (nonneg_len r). lia.
  - destruct (all_from_ok s (len s - len pat) pat) as (b & E & Hb); try lia. exists b; split; auto. rewrite Hb.
    split.
    + intros (a & x & -> & La). exists a. rewrite !len_app in La. pose proof (nonneg_len x).
      rewrite (len_0_nil x) by lia. rewrite app_nil_r; auto.
    + intros (r & ->). exists r, []. rewrite app_nil_r. split; auto. rewrite len_app; lia.
Qed.
Lemma begins_with_c_ok s c : exists b, begins_with_c s c = Ok b /\ (b = true <-> exists r, s = c :: r).
Proof.
  unfold begins_with_c. destruct s as [|x s].
  - cbn. eexists; split; [reflexivity|]. split; [discriminate|]. intros (r & E); discriminate.
  - pose proof (nonneg_len s). rewrite len_cons. replace (0 <? 1 + len s) with true by lia.
    rewrite rd_ok by (rewrite len_cons; lia). cbn [bind]. eexists; split; [reflexivity|].
    rewrite byte_at_cons0, Z.eqb_eq. split; [intros ->; eauto|intros (r & E); congruence].
Qed.
Lemma ends_with_c_ok s c : exists b, ends_with_c s c = Ok b /\ (b = true <-> exists r, s = r ++ [c]).
Proof.
  unfold ends_with_c. destruct (Z.ltb_spec 0 (len s)).
  - rewrite rd_ok by lia. cbn [bind]. eexists; split; [reflexivity|]. rewrite Z.eqb_eq.
    destruct (split_elem s (len s - 1) ltac:(lia)) as (a & b & E & La).
    assert (b = []). { apply len_0_nil. apply (f_equal len) in E. rewrite len_app, len_cons in E. pose proof (nonneg_len b). lia. }
    subst b. split.
    + intros Hc. exists a. rewrite <- Hc. auto.
    + intros (r & ->). rewrite byte_at_app2; rewrite len_app; change (len [c]) with 1; [|lia].
      replace (len r + 1 - 1 - len r) with 0 by lia. reflexivity.
  - eexists; split; [reflexivity|]. split; [discriminate|]. intros (r & ->). rewrite len_app in H. change (len [c]) with 1 in H.
    pose proof (nonneg_len r). lia.
Qed.
Lemma byte_at_repeat c n i : 0 <= i < Z.of_nat n -> byte_at (repeat c n) i = c.
Proof. intros. unfold byte_at. rewrite (nth_indep _ 0 c) by (rewrite repeat_length; lia). apply nth_repeat. Qed.
Lemma begins_with_n_ok s c num : 0 <= num ->
  exists b, begins_with_n s c num = Ok b /\ (b = true <-> exists r, s = repeat c (Z.to_nat num) ++ r).
Proof.
  intros Hn. unfold begins_with_n. destruct (Z.ltb_spec (len s) num).
  - eexists; split; [reflexivity|]. split; [discriminate|]. intros (r & ->). rewrite len_app, len_repeat in *. pose proof (nonneg_len r). lia.
  - destruct (for_up_first (at_ s (fun x => negb (x =? c))) (Z.to_nat num) 0 (fun j => negb (byte_at s j =? c) = true) (fun x => x)) as (o & E & Ho).
    { intros j Hj. apply (at_ok s (fun x => negb (x =? c))). lia. }
    rewrite E. cbn [bind]. eexists; split; [reflexivity|]. rewrite option_map_id.
    replace (0 + Z.of_nat (Z.to_nat num)) with num in Ho by lia. destruct o as [k|]; cbn in Ho.
    + split; [discriminate|]. intros (r & ->). destruct Ho as (Hk & Hne & _).
      rewrite byte_at_app1 in Hne by (rewrite len_repeat; lia). rewrite byte_at_repeat in Hne by lia. lia.
    + split; auto. intros _. exists (skipn (Z.to_nat num) s). rewrite <- (firstn_skipn (Z.to_nat num) s) at 1. f_equal.
      apply list_eq_at; [rewrite len_firstn, len_repeat by lia; lia|]. rewrite len_firstn by lia. intros i Hi.
      unfold byte_at at 1. rewrite nth_firstn_lt by lia. fold (byte_at s i).
      specialize (Ho i ltac:(lia)). rewrite byte_at_repeat; lia.
Qed.

(** ** strip *)
Lemma contents_full (s : list Z) : contents s (full s) = s.
Proof. apply slice_full. Qed.
Lemma stripl_ok s pat : small s -> exists v, stripl s pat = Ok v /\ vin v s /\
  (forall r, s = pat ++ r -> contents s v = r) /\ ((forall r, s <> pat ++ r) -> contents s v = s).
Proof.
  nas. intros Hs. unfold stripl. destruct (begins_with_ok s pat) as (b & E & Hb). rewrite E. cbn [bind].
  pose proof (nonneg_len s). pose proof (nonneg_len pat). destruct b; cbn [negb].
  - destruct Hb as [Hb _]. destruct (Hb eq_refl) as (r & Er).
    assert (len s = len pat + len r) by (rewrite Er, len_app; auto). pose proof (nonneg_len r).
    replace (if len pat <? len s then len pat else len s) with (len pat) by (destruct (Z.ltb_spec (len pat) (len s)); lia).
    rewrite sub1_ok by lia. eexists; split; [reflexivity|].
    assert (C : contents s (View (len pat) (len s - len pat)) = r).
    { unfold contents. cbn [vo vl]. rewrite Er at 1. replace (len s - len pat) with (len r) by lia.
      rewrite <- (app_nil_r r) at 1. apply slice_app_mid. }
    split; [apply vin_view; lia|]. split.
    + intros r' E'. rewrite C. subst s. apply app_inv_head in E'. auto.
    + intros Hn. destruct (Hn r). auto.
  - eexists; split; [reflexivity|]. split; [apply vin_view; lia|].
    rewrite contents_full. split; auto. intros r Er. destruct Hb as [_ Hb]. discriminate Hb. eauto.
Qed.
Lemma stripr_ok s pat : small s -> exists v, stripr s pat = Ok v /\ vin v s /\
  (forall r, s = r ++ pat -> contents s v = r) /\ ((forall r, s <> r ++ pat) -> contents s v = s).
Proof.
  nas. intros Hs. unfold stripr. destruct (ends_with_ok s pat) as (b & E & Hb). rewrite E. cbn [bind].
  pose proof (nonneg_len s). pose proof (nonneg_len pat). destruct b; cbn [negb].
  - destruct Hb as [Hb _]. destruct (Hb eq_refl) as (r & Er).
    assert (len s = len r + len pat) by (rewrite Er, len_app; auto). pose proof (nonneg_len r).
    replace (if len pat <? len s then len pat else len s) with (len pat) by (destruct (Z.ltb_spec (len pat) (len s)); lia).
    replace (len s - len pat) with (len r) by lia.
    assert (C : contents s (View 0 (len r)) = r).
    { unfold contents. cbn [vo vl]. rewrite Er at 1. apply (slice_app_mid [] r pat). }
    exists (View 0 (len r)). split.
    { unfold left_of. rewrite npos_big. replace (len r <=? len s) with true by lia. replace (len r =? 2 ^ 64 - 1) with false by lia. reflexivity. }
    split; [apply vin_view; lia|]. split.
    + intros r' E'. rewrite C. subst s. apply app_inv_tail in E'. auto.
    + intros Hn. destruct (Hn r). auto.
  - eexists; split; [reflexivity|]. split; [apply vin_view; lia|].
    rewrite contents_full. split; auto. intros r Er. destruct Hb as [_ Hb]. discriminate Hb. eauto.
Qed.

(** ** find *)
Lemma find_ok s pat st : 0 <= st <= len s ->
  exists o, find s pat (Some st) = Ok o /\ is_first (occurs s pat) st (len s + 1) o.
Proof.
  intros Hst. unfold find, assert. rewrite chk_ok by auto. pose proof (nonneg_len pat).
  destruct (Z.ltb_spec (len s) (len pat)).
  { exists None. split; auto. cbn. intros j Hj. rewrite occurs_slice. lia. }
  set (e := len s - len pat + 1).
  destruct (for_up_first (fun i => do b <- all_from s i pat ;; Ok (if b then Some i else None))
    (Z.to_nat (e - st)) st (occurs s pat) (fun x => x)) as (o & E & Ho).
  { intros j Hj. destruct (all_from_ok s j pat) as (b & Eb & Hb); try lia. rewrite Eb. cbn [bind].
    destruct b; [left|right]; split; auto; try (apply Hb; auto). intros X. apply Hb in X. discriminate. }
  rewrite option_map_id in E. exists o. split; [exact E|]. destruct o as [k|]; cbn in *.
  - destruct Ho as (H1 & H2 & H3). split; [|auto]. rewrite occurs_slice in H2. lia.
  - intros j Hj. rewrite occurs_slice. intros (H1 & H2 & H3). apply (Ho j); [lia|]. rewrite occurs_slice. auto.
Qed.
Lemma find_none s pat : find s pat None = Ok None.
Proof. unfold find. cbn [chk_start assert]. destruct (len s <? len pat); reflexivity. Qed.
Lemma find_is s pat st o : 0 <= st <= len s -> find s pat (Some st) = Ok o -> is_first (occurs s pat) st (len s + 1) o.
Proof. intros H E. destruct (find_ok s pat st H) as (o' & E' & Ho). congruence. Qed.

Lemma occurs_char s c i : occurs s [c] i <-> 0 <= i < len s /\ byte_at s i = c.
Proof.
  rewrite occurs_slice. change (len [c]) with 1. split.
  - intros (H1 & H2 & H3). split; [lia|]. rewrite <- (Z.add_0_r i), <- (byte_at_slice s i 1) by lia. rewrite H3. reflexivity.
  - intros (H1 & H2). repeat split; try lia. apply list_eq_at; rewrite len_slice by lia; [reflexivity|].
    intros j Hj. rewrite byte_at_slice by lia. replace j with 0 by lia. rewrite Z.add_0_r, H2. reflexivity.
Qed.
Lemma find_c_ok s c st : 0 <= st <= len s ->
  exists o, find_c s c (Some st) = Ok o /\ is_first (occurs s [c]) st (len s + 1) o.
Proof.
  intros H. destruct (first_of_c_ok s c st H) as (o & E & Ho). exists o; split; [exact E|].
  destruct o as [k|]; cbn in *.
  - destruct Ho as (H1 & H2 & H3). rewrite occurs_char. repeat split; try lia. intros j Hj. rewrite occurs_char.
    intros (_ & X). apply (H3 j); auto.
  - intros j Hj. rewrite occurs_char. intros (H1 & H2). apply (Ho j); [lia|auto].
Qed.

(** ** count *)
Lemma occurrences_fun pat s n m : pat <> [] -> occurrences pat s n -> occurrences pat s m -> n = m.
Proof.
  intros Hp H. revert m. induction H as [|r n H IH|c r n Hm H IH]; intros m H'.
  - inversion H'; subst; auto. destruct pat; [congruence|discriminate].
  - inversion H' as [E|r' n' H'' E|c' r' n' Hm H'' E]; subst.
    + destruct pat; [congruence|discriminate].
    + apply app_inv_head in E. subst. f_equal. apply IH; auto.
    + destruct (Hm r). auto.
  - inversion H' as [E|r' n' H'' E|c' r' n' Hm' H'' E]; subst.
    + destruct (Hm r'). auto.
    + apply IH; auto.
Qed.
Lemma skipn_at (s : list Z) i : 0 <= i < len s ->
  skipn (Z.to_nat i) s = byte_at s i :: skipn (Z.to_nat (i + 1)) s.
Proof.
  intros H. destruct (split_elem s i H) as (a & b & E & La). rewrite E at 1.
  rewrite skipn_app. replace (Z.to_nat i - length a)%nat with 0%nat by (unfold len in *; lia).
  rewrite skipn_all2 by (unfold len in *; lia). cbn [skipn app]. f_equal.
  rewrite E. rewrite skipn_app. replace (Z.to_nat (i + 1) - length a)%nat with 1%nat by (unfold len in *; lia).
  rewrite skipn_all2 by (unfold len in *; lia). reflexivity.
Qed.
Lemma occ_gap s pat pos q n : 0 <= pos <= q -> q <= len s -> (forall j, pos <= j < q -> ~ occurs s pat j) ->
  occurrences pat (skipn (Z.to_nat q) s) n -> occurrences pat (skipn (Z.to_nat pos) s) n.
Proof.
  intros H1 H2 H3 HO. remember (Z.to_nat (q - pos)) as k. revert pos H1 H3 Heqk.
  induction k as [|k IH]; intros pos H1 H3 Hk.
  - replace pos with q by lia. auto.
  - rewrite skipn_at by lia. apply occ_miss.
    + intros x Hx. apply (H3 pos); [lia|]. apply occurs_skipn; [lia|]. exists x. rewrite skipn_at by lia. auto.
    + apply IH; try lia. intros j Hj. apply H3. lia.
Qed.
Lemma skipn_len (s : list Z) : skipn (Z.to_nat (len s)) s = [].
Proof. rewrite to_nat_len. apply skipn_all. Qed.

Lemma count_loop_ok s pat (next : Z -> res (option Z)) : 0 < len pat ->
  (forall q, occurs s pat q -> exists o, next q = Ok o /\ is_first (occurs s pat) (q + len pat) (len s + 1) o) ->
  forall k pos o, (Z.to_nat (len s - pos) <= k)%nat -> 0 <= pos <= len s ->
  is_first (occurs s pat) pos (len s + 1) o ->
  exists n, 0 <= n /\ occurrences pat (skipn (Z.to_nat pos) s) n /\
    forall fuel num, len s - pos <= Z.of_nat fuel -> count_loop fuel next o num = Ok (Some (num + n)).
Proof.
  intros Hp Hnext. induction k as [|k IH]; intros pos o Hk Hpos Ho.
  - exists 0. replace pos with (len s) in * by lia. rewrite skipn_len. split; [lia|]. split; [constructor|].
    destruct o as [q|].
    + destruct Ho as (Hq & Ho & _). rewrite occurs_slice in Ho. lia.
    + intros fuel num _. destruct fuel; cbn; rewrite Z.add_0_r; reflexivity.
  - destruct o as [q|].
    + destruct Ho as (Hq & HO & Hmin). pose proof HO as HO'. rewrite occurs_slice in HO'.
      destruct (Hnext q HO) as (o' & E' & Ho').
      destruct (IH (q + len pat) o') as (n & Hn & Hocc & HF); auto; try lia.
      exists (n + 1). split; [lia|]. split.
      * apply (occ_gap s pat pos q); auto; try lia.
        assert (skipn (Z.to_nat q) s = pat ++ skipn (Z.to_nat (q + len pat)) s) as ->.
        { destruct HO as (a & b & -> & La). unfold len in La.
          rewrite (skipn_app (Z.to_nat q)). replace (Z.to_nat q - length a)%nat with 0%nat by lia.
          rewrite skipn_all2 by lia. cbn [app skipn]. f_equal.
          rewrite app_assoc, skipn_app, app_length. unfold len.
          replace (Z.to_nat (q + Z.of_nat (length pat)) - (length a + length pat))%nat with 0%nat by lia.
          rewrite skipn_all2 by (rewrite app_length; lia). reflexivity. }
        apply occ_hit; auto.
      * intros fuel num Hf. destruct fuel as [|fuel]; [lia|]. cbn [count_loop]. rewrite E'. cbn [bind].
        rewrite HF by lia. do 2 f_equal. lia.
    + exists 0. split; [lia|]. split.
      * apply (occ_gap s pat pos (len s)); auto; try lia. { intros j Hj. apply Ho. lia. }
        rewrite skipn_len. constructor.
      * intros fuel num _. destruct fuel; cbn; rewrite Z.add_0_r; reflexivity.
Qed.

Lemma count_ok s pat pos : pat <> [] -> 0 <= pos <= len s ->
  exists n, occurrences pat (skipn (Z.to_nat pos) s) n /\
    forall fuel, len s <= Z.of_nat fuel -> count fuel s pat pos = Ok (Some n).
Proof.
  intros Hp Hpos. assert (Hl : 0 < len pat) by (destruct pat; [congruence|rewrite len_cons; pose proof (nonneg_len pat); lia]).
  destruct (find_ok s pat pos Hpos) as (o & E & Ho).
  destruct (count_loop_ok s pat (fun p => find s pat (Some (p + len pat))) Hl) with (k := Z.to_nat (len s - pos)) (pos := pos) (o := o) as (n & Hn & Hocc & HF); auto.
  { intros q Hq. rewrite occurs_slice in Hq. apply find_ok. lia. }
  exists n. split; auto. intros fuel Hf. unfold count, assert. replace ((0 <=? pos) && (pos <=? len s)) with true by lia.
  rewrite E. cbn [bind]. rewrite HF by lia. reflexivity.
Qed.
Lemma count_c_ok s c pos : 0 <= pos <= len s ->
  exists n, occurrences [c] (skipn (Z.to_nat pos) s) n /\
    forall fuel, len s <= Z.of_nat fuel -> count_c fuel s c pos = Ok (Some n).
Proof.
  intros Hpos. destruct (find_c_ok s c pos Hpos) as (o & E & Ho).
  destruct (count_loop_ok s [c] (fun p => find_c s c (Some (p + 1)))) with (k := Z.to_nat (len s - pos)) (pos := pos) (o := o) as (n & Hn & Hocc & HF); auto.
  { reflexivity. }
  { intros q Hq. change (len [c]) with 1. rewrite occurs_char in Hq. apply find_c_ok. lia. }
  exists n. split; auto. intros fuel Hf. unfold count_c, assert. replace ((0 <=? pos) && (pos <=? len s)) with true by lia.
  rewrite E. cbn [bind]. rewrite HF by lia. reflexivity.
Qed.
Lemma occurrences_count_occ c s : occurrences [c] s (Z.of_nat (count_occ Z.eq_dec s c)).
Proof.
  induction s as [|x s IH]; [constructor|]. cbn [count_occ]. destruct (Z.eq_dec x c) as [->|N].
  - rewrite Nat2Z.inj_succ. apply (occ_hit [c]). auto.
  - apply occ_miss; auto. intros y Hy. cbn in Hy. congruence.
Qed.
Lemma count_c_occ s c pos fuel : 0 <= pos <= len s -> len s <= Z.of_nat fuel ->
  count_c fuel s c pos = Ok (Some (Z.of_nat (count_occ Z.eq_dec (skipn (Z.to_nat pos) s) c))).
Proof.
  intros Hpos Hf. destruct (count_c_ok s c pos Hpos) as (n & Hn & HF). rewrite HF by auto.
  do 2 f_equal. apply (occurrences_fun [c] (skipn (Z.to_nat pos) s)); auto using occurrences_count_occ. discriminate.
Qed.
(** with an empty pattern the loop never ends *)
Lemma count_empty_diverges s pos : 0 <= pos <= len s -> forall fuel, count fuel s [] pos = Ok None.
Proof.
  intros Hpos fuel. unfold count, assert. replace ((0 <=? pos) && (pos <=? len s)) with true by lia.
  assert (F : find s [] (Some pos) = Ok (Some pos)).
  { destruct (find_ok s [] pos Hpos) as (o & E & Ho). rewrite E. f_equal.
    apply (is_first_unique (occurs s []) pos (len s + 1)); auto. cbn. split; [lia|]. split; [|lia].
    apply occurs_skipn; [lia|]. exists (skipn (Z.to_nat pos) s). reflexivity. }
  rewrite F. cbn [bind]. generalize 0. induction fuel as [|fuel IH]; intros num; cbn [count_loop]; auto.
  rewrite len_nil, Z.add_0_r. rewrite F. cbn [bind]. apply IH.
Qed.
