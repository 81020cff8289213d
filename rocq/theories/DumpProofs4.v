From Coq Require Import Sorted.
From Verif Require Import Base BaseLemmas CharconvModel CharconvSpec CharconvProofs CharconvProofs5 SubstrModel SubstrSpec SubstrProofs SubstrProofs2 SubstrProofs3 SubstrProofs4 SpanNumModel SpanNumSpec SpanNumProofs5 SpanNumProofs6 Base64Model Base64Spec Base64Proofs FormatModel FormatSpec FormatProofs FormatProofs2 FormatProofs3 FormatProofs4 DumpModel DumpSpec DumpProofs DumpProofs2 DumpProofs3.

(** ** cat_dump_resume *)
Lemma fits_size n a t : 0 < n -> (fits n a t <-> vsize a t <= n).
Proof. intros. destruct a; cbn; lia. Qed.
Lemma cstep_fits dbg i k r m b a t : arg_text a t -> vin b m -> 0 < vl b < 2 ^ 64 -> fits (vl b) a t ->
  lastok r = u64 (k - 1) -> 0 <= k <= i -> i < 2 ^ 64 - 1 ->
  exists m', cat_dump_resume1 dbg i r m b a = Ok (m', [t], DRes (Z.max (vsize a t) (bufsize r)) (if i =? k then i else lastok r)) /\ same_outside m m' b.
Proof.
  intros T V B F E K I. unfold cat_dump_resume1. rewrite (state_write r k i) by (auto; lia). replace (k <=? i) with true by lia.
  destruct (dump_fits dbg m b a t) as (m' & -> & O); auto; try lia. cbn [bind]. exists m'. split; auto.
  rewrite E, state_succ, zmax_max by lia. apply (fits_size (vl b)) in F; try lia. replace (vsize a t <=? vl b) with true by lia. rewrite andb_true_r. reflexivity.
Qed.
Lemma cstep_small dbg i k r m b a t : arg_text a t -> vin b m -> 0 < vl b < 2 ^ 64 -> safe_in (vl b) a -> ~ fits (vl b) a t ->
  lastok r = u64 (k - 1) -> 0 <= k <= i -> i < 2 ^ 64 - 1 ->
  exists m', cat_dump_resume1 dbg i r m b a = Ok (m', [], DRes (Z.max (vsize a t) (bufsize r)) (lastok r)) /\ same_outside m m' b.
Proof.
  intros T V B SF F E K I. unfold cat_dump_resume1. rewrite (state_write r k i) by (auto; lia). replace (k <=? i) with true by lia.
  destruct (dump_small dbg m b a t) as (m' & -> & O); auto; try lia. cbn [bind]. exists m'. split; auto.
  rewrite (fits_size (vl b)) in F by lia. replace (vsize a t <=? vl b) with false by lia. rewrite andb_false_r, zmax_max. reflexivity.
Qed.
(** after an argument that did not fit: [k] done, at [i > k] *)
Lemma cat_after dbg al ts : Forall2 arg_text al ts -> forall i k r m b, Forall (safe_in (vl b)) al -> vin b m -> 0 < vl b < 2 ^ 64 ->
  lastok r = u64 (k - 1) -> 0 <= k < i -> i + len al < 2 ^ 64 - 1 ->
  exists m' tr bs, cat_dump_resume_ dbg i r m b al = Ok (m', tr, DRes bs (lastok r)) /\ same_outside m m' b /\ fit_some (vl b) al ts tr /\
    bufsize r <= bs /\ enough_for bs al ts /\ (forall M, bufsize r <= M -> enough_for M al ts -> bs <= M).
Proof.
  induction 1 as [|a t al ts T H IH]; intros i k r m b SF V B E K I; cbn [cat_dump_resume_].
  - exists m, [], (bufsize r). destruct r; repeat split; auto; try (apply same_outside_refl); try lia; constructor.
  - inversion SF as [|? ? Sa Sl]; subst. rewrite len_cons in I. pose proof (len_nonneg al).
    destruct (fits_dec (vl b) a t) as [F|F].
    + destruct (cstep_fits dbg i k r m b a t) as (m1 & -> & O1); auto; try lia. cbn [bind]. replace (i =? k) with false by lia.
      destruct (IH (i + 1) k (DRes (Z.max (vsize a t) (bufsize r)) (lastok r)) m1 b) as (m2 & tr & bs & -> & O2 & S2 & B1 & B2 & B3);
        auto; try lia; [eapply outside_vin; eauto|]. cbn [bind]. cbn [bufsize lastok] in *.
      exists m2, ([t] ++ tr), bs. split; auto. split; [eapply outside_trans; eauto|]. split; [apply fo_go; auto|]. split; [lia|].
      split; [constructor; auto; lia|]. intros M HM HE. inversion HE; subst. apply B3; auto. lia.
    + destruct (cstep_small dbg i k r m b a t) as (m1 & -> & O1); auto; try lia. cbn [bind].
      destruct (IH (i + 1) k (DRes (Z.max (vsize a t) (bufsize r)) (lastok r)) m1 b) as (m2 & tr & bs & -> & O2 & S2 & B1 & B2 & B3);
        auto; try lia; [eapply outside_vin; eauto|]. cbn [bind]. cbn [bufsize lastok] in *.
      exists m2, ([] ++ tr), bs. split; auto. split; [eapply outside_trans; eauto|]. split; [apply fo_skip; auto|]. split; [lia|].
      split; [constructor; auto; lia|]. intros M HM HE. inversion HE; subst. apply B3; auto. lia.
Qed.
Lemma cat_go dbg al ts : Forall2 arg_text al ts -> forall i r m b, Forall (safe_in (vl b)) al -> vin b m -> 0 < vl b < 2 ^ 64 ->
  lastok r = u64 (i - 1) -> 0 <= i -> i + len al < 2 ^ 64 - 1 ->
  exists m' tr ts1 bs, cat_dump_resume_ dbg i r m b al = Ok (m', tr, DRes bs (u64 (i + len ts1 - 1))) /\ same_outside m m' b /\ fit_some (vl b) al ts tr /\
    fit_prefix (vl b) al ts ts1 /\ bufsize r <= bs /\ enough_for bs al ts /\ (forall M, bufsize r <= M -> enough_for M al ts -> bs <= M).
Proof.
  induction 1 as [|a t al ts T H IH]; intros i r m b SF V B E K I; cbn [cat_dump_resume_].
  - exists m, [], [], (bufsize r). replace (i + len (@nil (list Z)) - 1) with (i - 1) by (change (len (@nil (list Z))) with 0; lia). rewrite <- E.
    destruct r; repeat split; auto; try (apply same_outside_refl); try lia; constructor.
  - inversion SF as [|? ? Sa Sl]; subst. rewrite len_cons in I. pose proof (len_nonneg al).
    destruct (fits_dec (vl b) a t) as [F|F].
    + destruct (cstep_fits dbg i i r m b a t) as (m1 & -> & O1); auto; try lia. cbn [bind]. rewrite Z.eqb_refl.
      destruct (IH (i + 1) (DRes (Z.max (vsize a t) (bufsize r)) i) m1 b) as (m2 & tr & ts1 & bs & -> & O2 & S2 & P2 & B1 & B2 & B3);
        auto; try lia; [eapply outside_vin; eauto|cbn [lastok]; rewrite u64_id by lia; lia|]. cbn [bind]. cbn [bufsize lastok] in *.
      exists m2, ([t] ++ tr), (t :: ts1), bs. rewrite len_cons. replace (i + (1 + len ts1) - 1) with (i + 1 + len ts1 - 1) by lia.
      split; auto. split; [eapply outside_trans; eauto|]. split; [apply fo_go; auto|]. split; [constructor; auto|]. split; [lia|].
      split; [constructor; auto; lia|]. intros M HM HE. inversion HE; subst. apply B3; auto. lia.
    + destruct (cstep_small dbg i i r m b a t) as (m1 & -> & O1); auto; try lia. cbn [bind].
      destruct (cat_after dbg al ts H (i + 1) i (DRes (Z.max (vsize a t) (bufsize r)) (lastok r)) m1 b) as (m2 & tr & bs & -> & O2 & S2 & B1 & B2 & B3);
        auto; try lia; [eapply outside_vin; eauto|]. cbn [bind]. cbn [bufsize lastok] in *.
      exists m2, ([] ++ tr), [], bs. replace (i + len (@nil (list Z)) - 1) with (i - 1) by (change (len (@nil (list Z))) with 0; lia). rewrite E.
      split; auto. split; [eapply outside_trans; eauto|]. split; [apply fo_skip; auto|]. split; [constructor; auto|]. split; [lia|].
      split; [constructor; auto; lia|]. intros M HM HE. inversion HE; subst. apply B3; auto. lia.
Qed.
Lemma cat_skip dbg al : forall i k r m b, lastok r = u64 (k - 1) -> 0 <= i <= k -> k <= i + len al -> k < 2 ^ 64 - 1 ->
  cat_dump_resume_ dbg i r m b al = cat_dump_resume_ dbg k r m b (skipn (Z.to_nat (k - i)) al).
Proof.
  induction al as [|a al IH]; intros i k r m b E K L K'.
  - rewrite skipn_nil. reflexivity.
  - destruct (Z.eq_dec i k) as [->|N]; [rewrite Z.sub_diag; reflexivity|].
    cbn [cat_dump_resume_]. unfold cat_dump_resume1. rewrite (state_write r k i) by (auto; lia). replace (k <=? i) with false by lia. cbn [bind].
    rewrite len_cons in L. rewrite (IH (i + 1) k) by (auto; lia).
    replace (Z.to_nat (k - i)) with (S (Z.to_nat (k - (i + 1)))) by lia. cbn [skipn app].
    destruct (cat_dump_resume_ dbg k r m b (skipn _ al)) as [[[m2 tr2] r2]| |]; reflexivity.
Qed.
(** one call in the state where [k] arguments are done *)
Lemma cat_call dbg al ts : Forall2 arg_text al ts -> Forall simple al -> len al < 2 ^ 64 - 1 ->
  forall k r m b, vin b m -> 0 < vl b < 2 ^ 64 -> lastok r = u64 (k - 1) -> 0 <= k <= len al -> bufsize r <= vl b ->
  exists m' tr ts1 bs, cat_dump_resume dbg r m b al = Ok (m', tr, DRes bs (u64 (k + len ts1 - 1))) /\ same_outside m m' b /\
    fit_some (vl b) (skipn (Z.to_nat k) al) (skipn (Z.to_nat k) ts) tr /\
    fit_prefix (vl b) (skipn (Z.to_nat k) al) (skipn (Z.to_nat k) ts) ts1 /\
    enough_for bs (skipn (Z.to_nat k) al) (skipn (Z.to_nat k) ts) /\
    (forall M, bufsize r <= M -> enough_for M al ts -> bs <= M).
Proof.
  intros T SI L k r m b V B E K BS. unfold cat_dump_resume. replace (vl b <? bufsize r) with false by lia.
  rewrite (cat_skip dbg al 0 k) by (auto; lia). replace (k - 0) with k by lia.
  destruct (cat_go dbg (skipn (Z.to_nat k) al) (skipn (Z.to_nat k) ts)) with (i := k) (r := r) (m := m) (b := b)
    as (m' & tr & ts1 & bs & H1 & H2 & H3 & H4 & H5 & H6 & H7); auto using Forall2_skipn; try lia.
  - apply Forall_skipn. eapply Forall_impl; [|exact SI]. intros. apply simple_safe; auto.
  - rewrite len_skipn_z by lia. lia.
  - exists m', tr, ts1, bs. repeat (split; auto). intros M HM HE. apply H7; auto. apply Forall2_skipn; auto.
Qed.
(** when the needed space does not decrease from one argument to the next, what fits is a prefix *)
Lemma some_none n al ts : 0 < n -> Forall2 (fun a t => n < vsize a t) al ts -> fit_some n al ts [].
Proof. intros N H. induction H; constructor; auto. rewrite fits_size by auto. lia. Qed.
Lemma some_prefix n al ts tr ts1 : 0 < n -> StronglySorted Z.le (sizes al ts) -> fit_some n al ts tr -> fit_prefix n al ts ts1 -> tr = ts1.
Proof.
  intros N SS S. revert ts1. induction S as [|a t al ts r F S IH|a t al ts r F S IH]; intros ts1 P; inversion P; subst; auto; try contradiction.
  - cbn in SS. inversion SS as [|? ? _ LE]; subst. rewrite fits_size in F by auto.
    assert (forall al ts r, fit_some n al ts r -> Forall (fun x => n < x) (sizes al ts) -> r = []) as X.
    { clear - N. induction 1 as [|a t al ts r F S IH|a t al ts r F S IH]; intros H; auto; cbn in H; inversion H; subst; auto.
      exfalso. rewrite fits_size in F by auto. lia. }
    eapply X; eauto. eapply Forall_impl; [|exact LE]. cbn. intros. lia.
  - f_equal. apply IH; auto. cbn in SS. inversion SS; auto.
Qed.
Lemma sorted_skipn al ts k : StronglySorted Z.le (sizes al ts) -> StronglySorted Z.le (sizes (skipn k al) (skipn k ts)).
Proof.
  revert al ts. induction k as [|k IH]; intros al ts H; [exact H|]. destruct al as [|a al]; [constructor|].
  destruct ts as [|t ts]; [cbn [skipn]; destruct (skipn k al); constructor|]. cbn [skipn]. apply IH. cbn in H. inversion H; auto.
Qed.
Lemma cat_drive dbg al ts m bs : Forall2 arg_text al ts -> StronglySorted Z.le (sizes al ts) -> Forall simple al -> al <> [] -> len al < 2 ^ 64 - 1 ->
  Forall (fun b => vin b m /\ 0 < vl b < 2 ^ 64) bs ->
  exists m' tr r' k, drive (fun r m b => cat_dump_resume dbg r m b al) (len ts - 1) dres0 m bs = Ok (m', tr, r') /\
    0 <= k <= len ts /\ tr = firstn (Z.to_nat k) ts /\ lastok r' = u64 (k - 1) /\
    (Exists (fun b => enough_for (vl b) al ts) bs -> k = len ts).
Proof.
  intros T SS SI N L HB. pose proof (Forall2_len' _ _ _ T) as LL.
  assert (LP : 0 < len ts). { rewrite <- LL. destruct al; [contradiction|]. rewrite len_cons. pose proof (len_nonneg al). lia. }
  destruct (drive_ok (fun r m b => cat_dump_resume dbg r m b al) ts (fun b => 0 < vl b < 2 ^ 64) (fun b => enough_for (vl b) al ts)
      (fun r => forall M, 0 <= M -> enough_for M al ts -> bufsize r <= M))
    with (bs := bs) (k := 0) (r := dres0) (m := m) as (m' & tr & r' & k & H1 & H2 & H3 & H4 & H5); auto; try lia.
  - intros k r m0 b K E IV B V. destruct (Z.le_gt_cases (bufsize r) (vl b)) as [BS|BS].
    + destruct (cat_call dbg al ts T SI L k r m0 b) as (m' & tr & ts1 & z & H1 & H2 & H3 & H4 & H5 & H6); auto; try lia.
      assert (tr = ts1) by (eapply some_prefix with (n := vl b); [lia|apply sorted_skipn; eauto|eauto|eauto]). subst tr.
      exists m', ts1, (DRes z (u64 (k + len ts1 - 1))), (k + len ts1). pose proof (prefix_le _ _ _ _ H4) as PL. rewrite skipn_length in PL.
      unfold len in *. split; auto. split; [lia|]. split.
      { replace (Z.to_nat (k + Z.of_nat (length ts1) - k)) with (length ts1) by lia. eapply prefix_firstn; eauto. }
      split; auto. split; [intros M HM HE; cbn [bufsize]; apply H6; auto|]. split; [destruct H2; auto|]. intros En.
      assert (ts1 = skipn (Z.to_nat k) ts).
      { eapply prefix_all; eauto. apply Forall2_skipn. unfold enough_for in En. clear - En B. induction En; constructor; auto. apply fits_size; auto. lia. }
      subst ts1. rewrite skipn_length. lia.
    + exists m0, [], r, k. unfold cat_dump_resume. replace (vl b <? bufsize r) with true by lia. rewrite Z.sub_diag.
      repeat split; auto; try lia. intros En. apply IV in En; lia.
  - eapply Forall_impl; [|exact HB]. cbn. tauto.
  - eapply Forall_impl; [|exact HB]. cbn. tauto.
  - exists m', tr, r', k. replace (k - 0) with k in H3 by lia. change (Z.to_nat 0) with 0%nat in H3. cbn [skipn] in H3. auto.
Qed.

(** ** Putting it together *)
Lemma drive_ext c1 c2 e : (forall r m b, c1 r m b = c2 r m b) -> forall bs r m, drive c1 e r m bs = drive c2 e r m bs.
Proof.
  intros H. induction bs as [|b bs IH]; intros r m; [reflexivity|]. cbn [drive]. rewrite H.
  destruct (c2 r m b) as [[[m1 tr1] r1]| |]; cbn [bind]; auto. destruct (success_until r1 e); auto. rewrite IH. reflexivity.
Qed.
Lemma all_fit n al ts : 0 < n -> enough_for n al ts -> Forall2 (fits n) al ts.
Proof. intros N E. unfold enough_for in E. induction E; constructor; auto. apply fits_size; auto. Qed.
Lemma largest_enough n al ts : Forall2 arg_text al ts -> largest n (sizes al ts) -> enough_for n al ts.
Proof.
  intros T L. assert (F : Forall (fun x => x <= n) (sizes al ts)).
  { destruct L as [[E _]|[_ F]]; auto. rewrite E. constructor. }
  clear L. induction T; [constructor|]. cbn in F. inversion F; subst. constructor; auto. apply IHT. auto.
Qed.
Lemma catsep_drive dbg sep st al ts m bs : arg_text sep st -> Forall2 arg_text al ts -> solid sep st -> Forall2 solid al ts ->
  simple sep -> Forall simple al -> al <> [] -> len al < 2 ^ 63 ->
  Forall (fun b => vin b m /\ vl b < 2 ^ 64) bs ->
  exists m' tr r' k, drive (fun r m b => catsep_dump_resume dbg r m b sep al) (2 * len al - 2) dres0 m bs = Ok (m', tr, r') /\
    0 <= k <= 2 * len al - 1 /\ tr = firstn (Z.to_nat k) (intersperse st ts) /\ lastok r' = u64 (k - 1) /\
    (Exists (fun b => enough_for (vl b) (intersperse sep al) (intersperse st ts)) bs -> k = 2 * len al - 1).
Proof.
  intros Ts T Ss S SIs SI N L HB. pose proof (Forall2_len' _ _ _ T) as LL.
  assert (N' : ts <> []) by (intros ->; inversion T; subst; contradiction).
  assert (NI : intersperse sep al <> []) by (destruct al as [|x [|y l]]; [contradiction|discriminate|discriminate]).
  assert (LI : len (intersperse st ts) = 2 * len al - 1) by (rewrite len_intersperse, LL; auto).
  destruct (flat_drive dbg (intersperse sep al) (intersperse st ts) m bs) as (m' & tr & r' & k & H1 & H2 & H3 & H4 & H5);
    auto using intersperse_Forall2, intersperse_Forall.
  { rewrite len_intersperse by auto. lia. }
  exists m', tr, r', k. rewrite LI in *. split; [|auto]. rewrite <- H1. replace (2 * len al - 1 - 1) with (2 * len al - 2) by lia.
  apply drive_ext. intros. unfold catsep_dump_resume. apply catsep_flat.
Qed.
(** after any first call, a second one with the buffer size reported by the first completes *)
Lemma catsep_twice dbg sep st al ts m b1 : arg_text sep st -> Forall2 arg_text al ts -> solid sep st -> Forall2 solid al ts ->
  simple sep -> Forall simple al -> len al < 2 ^ 63 -> vin b1 m -> vl b1 < 2 ^ 64 ->
  exists m1 tr1 r1, catsep_dump_resume dbg dres0 m b1 sep al = Ok (m1, tr1, r1) /\
    forall b2, vin b2 m1 -> vl b2 < 2 ^ 64 -> bufsize r1 <= vl b2 ->
    exists m2 tr2 r2, catsep_dump_resume dbg r1 m1 b2 sep al = Ok (m2, tr2, r2) /\ tr1 ++ tr2 = intersperse st ts.
Proof.
  intros Ts T Ss S SIs SI L V1 B1. pose proof (Forall2_len' _ _ _ T) as LL.
  assert (LI : len (intersperse sep al) < 2 ^ 64 - 1).
  { destruct al; [reflexivity|]. rewrite len_intersperse by discriminate. lia. }
  pose proof (intersperse_Forall2 _ _ _ _ _ Ts T) as TT. pose proof (intersperse_Forall2 _ _ _ _ _ Ss S) as SS.
  pose proof (intersperse_Forall _ _ _ SIs SI) as II.
  unfold catsep_dump_resume. rewrite catsep_flat.
  destruct (flat_call dbg _ _ TT SS II LI 0 dres0 m b1) as (m1 & ts1 & bs & H1 & H2 & H3 & H4); auto; try reflexivity; [pose proof (len_nonneg (intersperse sep al)); lia|].
  change (Z.to_nat 0) with 0%nat in *. cbn [skipn] in *.
  exists m1, ts1, (DRes bs (u64 (0 + len ts1 - 1))). split; auto. cbn [bufsize]. intros b2 V2 B2 E2.
  rewrite catsep_flat. pose proof (prefix_le _ _ _ _ H3) as PL. pose proof (Forall2_len _ _ _ TT) as LE.
  destruct (flat_call dbg _ _ TT SS II LI (len ts1) (DRes bs (u64 (0 + len ts1 - 1))) m1 b2) as (m2 & ts2 & bs2 & G1 & G2 & G3 & G4); auto; [unfold len; lia|].
  exists m2, ts2, (DRes bs2 (u64 (len ts1 + len ts2 - 1))). split; auto.
  assert (ts2 = skipn (Z.to_nat (len ts1)) (intersperse st ts)).
  { eapply prefix_all; eauto. apply enough_fits; [destruct V2 as (? & ? & ?); auto|apply Forall2_skipn; auto|apply Forall2_skipn]. eapply enough_mono; [|exact H4]. lia. }
  subst ts2. rewrite (prefix_firstn _ _ _ _ H3) at 1. unfold len. rewrite Nat2Z.id. apply firstn_skipn.
Qed.
Lemma fmt_drive dbg f al ps ts pts m bs : fmt_pieces f al ps -> small f -> Forall2 arg_text al ts -> Forall2 solid al ts -> Forall2 arg_text ps pts ->
  Forall simple al -> len ps < 2 ^ 64 - 1 -> Forall (fun b => vin b m /\ vl b < 2 ^ 64) bs ->
  exists m' tr r' k, drive (fun r m b => format_dump_resume dbg r m b f al) (len ps - 1) dres0 m bs = Ok (m', tr, r') /\
    0 <= k <= len ps /\ tr = firstn (Z.to_nat k) pts /\ lastok r' = u64 (k - 1) /\
    (Exists (fun b => 0 < vl b /\ enough_for (vl b) ps pts) bs -> k = len ps).
Proof.
  intros FP L T S PT SI LN HB. pose proof (Forall2_len' _ _ _ PT) as LL. rewrite LL.
  destruct (fdr_drive dbg f al ps ts pts m bs) as (m' & tr & r' & k & H1 & H2 & H3 & H4 & H5); auto.
  exists m', tr, r', k. auto.
Qed.
(** the pieces joined are the formatted text *)
Lemma pieces_subst f ts out : fmt_subst f ts out -> forall al, Forall2 arg_text al ts ->
  exists ps pts, fmt_pieces f al ps /\ Forall2 arg_text ps pts /\ concat pts = out.
Proof. intros H al T. destruct (subst_pieces f ts out H al T) as (ps & pts & H1 & H2 & H3 & _). exists ps, pts. auto. Qed.
