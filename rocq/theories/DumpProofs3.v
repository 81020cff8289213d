From Verif Require Import Base BaseLemmas CharconvModel CharconvSpec CharconvProofs CharconvProofs5 SubstrModel SubstrSpec SubstrProofs SubstrProofs2 SubstrProofs3 SubstrProofs4 SpanNumModel SpanNumSpec SpanNumProofs5 SpanNumProofs6 Base64Model Base64Spec Base64Proofs FormatModel FormatSpec FormatProofs FormatProofs2 FormatProofs3 FormatProofs4 DumpModel DumpSpec DumpProofs DumpProofs2.

Lemma len_intersperse {A} (s : A) l : l <> [] -> len (intersperse s l) = 2 * len l - 1.
Proof.
  induction l as [|a l IH]; intros N; [contradiction|]. destruct l as [|b l]; [reflexivity|].
  change (intersperse s (a :: b :: l)) with (a :: s :: intersperse s (b :: l)). rewrite !len_cons, IH by discriminate. rewrite !len_cons. lia.
Qed.
Lemma intersperse_Forall2 {A B} (R : A -> B -> Prop) sa sb l l' : R sa sb -> Forall2 R l l' -> Forall2 R (intersperse sa l) (intersperse sb l').
Proof.
  intros S H. induction H as [|a b l l' Hab H IH]; [constructor|]. destruct H as [|a2 b2 l l' Hab2 H]; [repeat constructor; auto|].
  cbn [intersperse]. repeat (constructor; auto).
Qed.
Lemma intersperse_Forall {A} (P : A -> Prop) s l : P s -> Forall P l -> Forall P (intersperse s l).
Proof.
  intros S H. induction H as [|a l Ha H IH]; [constructor|]. destruct H as [|a2 l Ha2 H]; [repeat constructor; auto|].
  cbn [intersperse]. repeat (constructor; auto).
Qed.
Lemma Forall2_len' {A B} (R : A -> B -> Prop) l l' : Forall2 R l l' -> len l = len l'.
Proof. intros H. unfold len. rewrite (Forall2_len _ _ _ H). reflexivity. Qed.
Lemma enough_fits n al ts : 0 <= n -> Forall2 solid al ts -> enough_for n al ts -> Forall2 (fits n) al ts.
Proof.
  intros N S E. unfold enough_for in E. induction S; inversion E; subst; constructor; auto. apply solid_fits; auto.
Qed.
Lemma len_skipn_z {A} (l : list A) k : 0 <= k <= len l -> len (skipn (Z.to_nat k) l) = len l - k.
Proof. intros H. unfold len in *. rewrite skipn_length. lia. Qed.

(** one call of catsep_dump_resume in the state where [k] items are done *)
Lemma flat_call dbg al ts : Forall2 arg_text al ts -> Forall2 solid al ts -> Forall simple al -> len al < 2 ^ 64 - 1 ->
  forall k r m b, vin b m -> vl b < 2 ^ 64 -> lastok r = u64 (k - 1) -> 0 <= k <= len al ->
  exists m' ts1 bs, resume_flat dbg 0 r m b al = Ok (m', ts1, DRes bs (u64 (k + len ts1 - 1))) /\ same_outside m m' b /\
    fit_prefix (vl b) (skipn (Z.to_nat k) al) (skipn (Z.to_nat k) ts) ts1 /\
    enough_for bs (skipn (Z.to_nat k) al) (skipn (Z.to_nat k) ts).
Proof.
  intros T S SI L k r m b V B E K. rewrite (flat_skip dbg al 0 k) by (auto; lia). replace (k - 0) with k by lia.
  destruct (flat_go dbg (skipn (Z.to_nat k) al) (skipn (Z.to_nat k) ts)) with (i := k) (r := r) (m := m) (b := b)
    as (m' & ts1 & bs & H1 & H2 & H3 & H4 & H5 & H6); auto using Forall2_skipn; try lia.
  - apply Forall_skipn. eapply Forall_impl; [|exact SI]. intros. apply simple_safe; auto.
  - rewrite len_skipn_z by lia. lia.
  - exists m', ts1, bs. auto.
Qed.
Lemma flat_drive dbg al ts m bs : Forall2 arg_text al ts -> Forall2 solid al ts -> Forall simple al -> al <> [] -> len al < 2 ^ 64 - 1 ->
  Forall (fun b => vin b m /\ vl b < 2 ^ 64) bs ->
  exists m' tr r' k, drive (fun r m b => resume_flat dbg 0 r m b al) (len ts - 1) dres0 m bs = Ok (m', tr, r') /\
    0 <= k <= len ts /\ tr = firstn (Z.to_nat k) ts /\ lastok r' = u64 (k - 1) /\
    (Exists (fun b => enough_for (vl b) al ts) bs -> k = len ts).
Proof.
  intros T S SI N L HB. pose proof (Forall2_len' _ _ _ T) as LL.
  assert (LP : 0 < len ts). { rewrite <- LL. destruct al; [contradiction|]. rewrite len_cons. pose proof (len_nonneg al). lia. }
  destruct (drive_ok (fun r m b => resume_flat dbg 0 r m b al) ts (fun b => vl b < 2 ^ 64) (fun b => enough_for (vl b) al ts) (fun _ => True))
    with (bs := bs) (k := 0) (r := dres0) (m := m) as (m' & tr & r' & k & H1 & H2 & H3 & H4 & H5); auto; try lia.
  - intros k r m0 b K E _ B V.
    destruct (flat_call dbg al ts T S SI L k r m0 b) as (m' & ts1 & z & H1 & H2 & H3 & H4); auto; try lia.
    exists m', ts1, (DRes z (u64 (k + len ts1 - 1))), (k + len ts1). pose proof (prefix_le _ _ _ _ H3) as PL. rewrite skipn_length in PL.
    unfold len in *. split; auto. split; [lia|]. split.
    { replace (Z.to_nat (k + Z.of_nat (length ts1) - k)) with (length ts1) by lia. eapply prefix_firstn; eauto. }
    split; auto. split; auto. split; [destruct H2; auto|]. intros En.
    assert (ts1 = skipn (Z.to_nat k) ts).
    { eapply prefix_all; eauto. apply enough_fits; [destruct V as (? & ? & ?); auto|apply Forall2_skipn; auto|apply Forall2_skipn; auto]. }
    subst ts1. rewrite skipn_length. lia.
  - eapply Forall_impl; [|exact HB]. cbn. tauto.
  - eapply Forall_impl; [|exact HB]. cbn. tauto.
  - exists m', tr, r', k. replace (k - 0) with k in H3 by lia. cbn [skipn] in H3. change (Z.to_nat 0) with 0%nat in H3. cbn [skipn] in H3. auto.
Qed.

(** ** format_dump_resume *)
Lemma hole_views dbg f pre post : first_placeholder f pre post -> small f ->
  find f (s2z "{}") (Some 0) = Ok (Some (len pre)) /\ first_d dbg (len f) (len pre) = Ok (View 0 (len pre)) /\
  contents f (View 0 (len pre)) = pre /\
  sub_d dbg (len f) (u64 (len pre + 2)) = Ok (View (len pre + 2) (len post)) /\ contents f (View (len pre + 2) (len post)) = post /\
  (len f <? len pre + 2 + len post) = false /\ small post.
Proof.
  intros P L. pose proof (placeholder_len _ _ _ P) as PL. pose proof (len_nonneg pre). pose proof (len_nonneg post).
  split.
  { destruct (find_placeholder f) as (o & E & Ho). rewrite E.
    destruct o as [p|]; [|exfalso; destruct P as [P _]; apply Ho; exists pre, post; auto].
    destruct Ho as (x & y & P' & ->). destruct (first_placeholder_fun _ _ _ _ _ P' P) as [-> ->]. reflexivity. }
  split; [apply first_d_ok; unfold small in *; lia|].
  split; [destruct P as [-> _]; apply (contents_app _ [] pre (s2z "{}" ++ post)); auto|].
  split; [rewrite u64_id by (unfold small in *; lia); rewrite sub_d_ok by (unfold small in *; lia); do 2 f_equal; lia|].
  split.
  { destruct P as [-> _].
      replace (len pre + 2) with (len (pre ++ s2z "{}")) by (rewrite len_app; reflexivity).
      apply (contents_app _ (pre ++ s2z "{}") post []). rewrite app_nil_r, app_assoc. reflexivity. }
  split; [lia|unfold small in *; lia].
Qed.
Lemma nohole_find f : ~ has_placeholder f -> find f (s2z "{}") (Some 0) = Ok None.
Proof.
  intros N. destruct (find_placeholder f) as (o & E & Ho). rewrite E. destruct o; auto.
  exfalso. destruct Ho as (x & y & [E' _] & _). apply N. exists x, y. auto.
Qed.
Definition fdr := format_dump_resume_.
Lemma fdr_hole dbg i r m b f pre post a al : first_placeholder f pre post -> small f ->
  fdr dbg i r m b f (a :: al) =
    let '(tr0, r1) := if write_arg r i && (0 <? vl b) then ([pre], DRes (bufsize r) i) else ([], r) in
    do '(m, b, tr, r) <- catsep_dump_resume1 dbg (i + 1) r1 m b a ;;
    do '(m, tr2, r) <- fdr dbg (i + 2) r m b post al ;;
    Ok (m, tr0 ++ tr ++ tr2, r).
Proof.
  intros P L. destruct (hole_views dbg f pre post P L) as (H1 & H2 & H3 & H4 & H5 & H6 & _).
  unfold fdr. cbn [format_dump_resume_]. rewrite H1. cbn [bind].
  destruct (write_arg r i); cbn [andb]; [destruct (0 <? vl b)|].
  - rewrite H2. cbn [bind]. rewrite H3, H4. cbn [bind vo vl]. rewrite H6, H5. reflexivity.
  - cbn [bind]. rewrite H4. cbn [bind vo vl]. rewrite H6, H5. reflexivity.
  - cbn [bind]. rewrite H4. cbn [bind vo vl]. rewrite H6, H5. reflexivity.
Qed.
Lemma fdr_end dbg i r m b f al ps : fmt_pieces f al ps -> ps = [AStr f] -> write_arg r i = true ->
  fdr dbg i r m b f al = if 0 <? vl b then Ok (m, [f], DRes (bufsize r) i) else Ok (m, [], r).
Proof.
  intros P E W. inversion P; subst; try discriminate.
  - reflexivity.
  - destruct al as [|a al]; [reflexivity|]. unfold fdr. cbn [format_dump_resume_]. rewrite nohole_find by auto. cbn [bind]. rewrite W. reflexivity.
Qed.

(** with an empty buffer *)
Lemma fdr_zero dbg f al ps : fmt_pieces f al ps -> small f -> forall ts pts, Forall2 arg_text al ts -> Forall2 solid al ts -> Forall2 arg_text ps pts ->
  forall i k r m b, vin b m -> vl b = 0 -> lastok r = u64 (k - 1) -> 0 <= k <= i -> k < 2 ^ 64 - 1 -> 0 <= bufsize r ->
  exists m' bs, fdr dbg i r m b f al = Ok (m', [], DRes bs (lastok r)) /\ same_outside m m' b /\ bufsize r <= bs /\ enough_for bs ps pts.
Proof.
  induction 1 as [f|f al N|f pre post a al out P H IH]; intros L ts pts T S PT i k r m b V Z0 E K K' BN.
  1,2: rewrite (fdr_end dbg i r m b f _ [AStr f]); [|constructor; auto|auto|rewrite (state_write r k i) by (auto; lia); lia].
  1,2: replace (0 <? vl b) with false by lia; exists m, (bufsize r).
  1,2: destruct r as [bs lo]; cbn [lastok bufsize] in *; split; auto; split; [apply same_outside_refl|]; split; [lia|].
  1,2: inversion PT as [|? ? ? ? _ PT2]; inversion PT2; subst; repeat constructor; cbn; lia.
  - rewrite (fdr_hole dbg i r m b f pre post) by auto. replace (0 <? vl b) with false by lia. rewrite andb_false_r.
    inversion T as [|? t ? ts' Ta Tl]; subst. inversion S as [|? ? ? ? Sa Sl]; subst. unfold solid in Sa.
    inversion PT as [|? p0 ? pts0 _ PT2]; subst. inversion PT2 as [|? t2 ? pts' Ta2 PT3]; subst.
    rewrite (arg_text_fun _ _ _ Ta2 Ta) in *. clear Ta2.
    destruct (step_small dbg (i + 1) r m b a t) as (m1 & -> & O1); auto; try lia; [rewrite Z0; eapply safe_in_0; eauto|rewrite (state_write r k) by (auto; lia); lia|].
    cbn [bind]. destruct (hole_views dbg f pre post P L) as (_ & _ & _ & _ & _ & _ & LP).
    destruct (IH LP ts' pts' Tl Sl PT3 (i + 2) k (DRes (Z.max (vsize a t) (bufsize r)) (lastok r)) m1 (zero b)) as (m2 & bs & -> & O2 & B1 & B2);
      auto; cbn [bufsize]; try lia; [apply vin_zero; eapply outside_vin; eauto|]. cbn [bind]. cbn [bufsize lastok] in *.
    exists m2, bs. split; auto. split; [eapply outside_trans; [eauto|]; apply outside_zero; auto; eapply outside_vin; eauto|].
    split; [lia|]. constructor; [cbn; lia|constructor; [lia|auto]].
Qed.
Lemma len_pieces f al ps : fmt_pieces f al ps -> 0 < len ps.
Proof. intros H. assert (ps <> []) by (inversion H; discriminate). destruct ps; [contradiction|]. rewrite len_cons. pose proof (len_nonneg ps). lia. Qed.
(** one call in the state where [k] pieces are done, not all *)
Lemma fdr_call dbg f al ps : fmt_pieces f al ps -> small f -> forall ts pts, Forall2 arg_text al ts -> Forall2 solid al ts -> Forall2 arg_text ps pts ->
  Forall simple al ->
  forall i k r m b, vin b m -> vl b < 2 ^ 64 -> lastok r = u64 (k - 1) -> 0 <= i <= k -> k < i + len ps -> i + len ps < 2 ^ 64 - 1 -> 0 <= bufsize r ->
  exists m' ts1 bs, fdr dbg i r m b f al = Ok (m', ts1, DRes bs (u64 (k + len ts1 - 1))) /\ same_outside m m' b /\ bufsize r <= bs /\
    fit_prefix (vl b) (skipn (Z.to_nat (k - i)) ps) (skipn (Z.to_nat (k - i)) pts) ts1 /\
    enough_for bs (skipn (Z.to_nat (k - i)) ps) (skipn (Z.to_nat (k - i)) pts).
Proof.
  assert (BASE : forall f al, fmt_pieces f al [AStr f] -> forall pts dbg i k r m b, Forall2 arg_text [AStr f] pts -> vin b m -> lastok r = u64 (k - 1) -> 0 <= i <= k -> k < i + 1 -> i + 1 < 2 ^ 64 - 1 -> 0 <= bufsize r ->
    exists m' ts1 bs, fdr dbg i r m b f al = Ok (m', ts1, DRes bs (u64 (k + len ts1 - 1))) /\ same_outside m m' b /\ bufsize r <= bs /\
    fit_prefix (vl b) (skipn (Z.to_nat (k - i)) [AStr f]) (skipn (Z.to_nat (k - i)) pts) ts1 /\
    enough_for bs (skipn (Z.to_nat (k - i)) [AStr f]) (skipn (Z.to_nat (k - i)) pts)).
  { clear. intros f al FP pts dbg i k r m b PT V E K K' KL BN.
    assert (k = i) by lia. subst k. rewrite Z.sub_diag. change (Z.to_nat 0) with 0%nat. cbn [skipn].
    inversion PT as [|? y ? ? TX PT2]; subst. inversion PT2; subst. assert (y = f) by (inversion TX; auto). subst y.
    rewrite (fdr_end dbg i r m b f al [AStr f]); [|auto|auto|rewrite (state_write r i i) by (auto; lia); lia].
    destruct (Z.ltb_spec 0 (vl b)) as [Z0|Z0].
    - exists m, [f], (bufsize r). change (len [f]) with 1. replace (i + 1 - 1) with i by lia. rewrite u64_id by lia.
      split; auto. split; [apply same_outside_refl|]. split; [lia|]. split; repeat constructor; cbn; lia.
    - exists m, [], (bufsize r). change (len (@nil (list Z))) with 0. replace (i + 0 - 1) with (i - 1) by lia. rewrite <- E.
      split; [destruct r; auto|]. split; [apply same_outside_refl|]. split; [lia|]. split; [constructor; cbn; lia|repeat constructor; cbn; lia]. }
  induction 1 as [f|f al N|f pre post a al out P H IH]; intros L ts pts T S PT SI i k r m b V B E K K' KL BN.
  - apply BASE; auto. constructor.
  - apply BASE; auto. constructor; auto.
  - rewrite (fdr_hole dbg i r m b f pre post) by auto.
    inversion T as [|? t ? ts' Ta Tl]; subst. inversion S as [|? ? ? ? Sa Sl]; subst. pose proof Sa as Sa'. unfold solid in Sa.
    inversion PT as [|? p0 ? pts0 TX PT2]; subst. assert (p0 = pre) by (inversion TX; auto). subst p0. inversion PT2 as [|? t2 ? pts' Ta2 PT3]; subst.
    rewrite (arg_text_fun _ _ _ Ta2 Ta) in *. clear Ta2 PT2 PT. inversion SI as [|? ? SIa SIl]; subst.
    destruct (hole_views dbg f pre post P L) as (_ & _ & _ & _ & _ & _ & LP). rewrite !len_cons in K', KL. pose proof (len_nonneg out).
    assert (VV : 0 <= vl b) by (destruct V as (? & ? & ?); auto).
    (* the argument [a], with the literal done: state [i+1] *)
    assert (ARG : forall r m, vin b m -> lastok r = u64 (i + 1 - 1) -> 0 <= bufsize r -> exists m' ts1 bs,
      (do '(m, b, tr, r) <- catsep_dump_resume1 dbg (i + 1) r m b a ;;
       do '(m, tr2, r) <- fdr dbg (i + 2) r m b post al ;; Ok (m, tr ++ tr2, r)) = Ok (m', ts1, DRes bs (u64 (i + 1 + len ts1 - 1))) /\
      same_outside m m' b /\ bufsize r <= bs /\ fit_prefix (vl b) (a :: out) (t :: pts') ts1 /\ enough_for bs (a :: out) (t :: pts')).
    { clear r m V E BN. intros r m V E BN.
      assert (W : write_arg r (i + 1) = true) by (rewrite (state_write r (i + 1)) by (auto; lia); lia).
      destruct (Z.le_gt_cases (vsize a t) (vl b)) as [F|F].
      - assert (Ft : fits (vl b) a t) by (apply solid_fits; auto).
        destruct (step_fits dbg (i + 1) r m b a t) as (m1 & -> & O1); auto. cbn [bind].
        destruct (IH LP ts' pts' Tl Sl PT3 SIl (i + 2) (i + 2) (DRes (Z.max (vsize a t) (bufsize r)) (i + 1)) m1 b) as (m2 & ts1 & bs & -> & O2 & B1 & P2 & B2);
          auto; cbn [bufsize lastok]; try lia; [eapply outside_vin; eauto|rewrite u64_id by lia; lia|pose proof (len_pieces _ _ _ H); lia|].
        cbn [bind]. rewrite Z.sub_diag in *. change (Z.to_nat 0) with 0%nat in *. cbn [skipn bufsize] in *.
        exists m2, (t :: ts1), bs. rewrite len_cons. replace (i + 1 + (1 + len ts1) - 1) with (i + 2 + len ts1 - 1) by lia.
        split; auto. split; [eapply outside_trans; eauto|]. split; [lia|]. split; [constructor; auto|]. constructor; auto; lia.
      - destruct (step_small dbg (i + 1) r m b a t) as (m1 & -> & O1); auto; [apply simple_safe; auto|]. cbn [bind].
        destruct (fdr_zero dbg post al out H LP ts' pts' Tl Sl PT3 (i + 2) (i + 1) (DRes (Z.max (vsize a t) (bufsize r)) (lastok r)) m1 (zero b)) as (m2 & bs & -> & O2 & B1 & B2);
          auto; cbn [bufsize]; try lia; [apply vin_zero; eapply outside_vin; eauto|]. cbn [bind]. cbn [bufsize lastok] in *.
        exists m2, [], bs. change (len (@nil (list Z))) with 0. replace (i + 1 + 0 - 1) with (i + 1 - 1) by lia. rewrite E.
        split; auto. split; [eapply outside_trans; [eauto|]; apply outside_zero; auto; eapply outside_vin; eauto|].
        split; [lia|]. split; [constructor; rewrite solid_fits by auto; lia|]. constructor; auto; lia. }
    destruct (Z.eq_dec k i) as [->|NK].
    + rewrite Z.sub_diag. change (Z.to_nat 0) with 0%nat. cbn [skipn].
      rewrite (state_write r i i) by (auto; lia). replace (i <=? i) with true by lia. cbn [andb].
      destruct (Z.ltb_spec 0 (vl b)) as [Z0|Z0].
      * destruct (ARG (DRes (bufsize r) i) m) as (m' & ts1 & bs & A1 & A2 & A3 & A4 & A5); auto; [cbn [lastok]; rewrite u64_id by lia; lia|].
        exists m', (pre :: ts1), bs. split.
        { destruct (catsep_dump_resume1 dbg (i + 1) (DRes (bufsize r) i) m b a) as [[[[m1 b1] tr1] r1]| |]; cbn [bind] in *; try discriminate.
          destruct (fdr dbg (i + 2) r1 m1 b1 post al) as [[[m2 tr2] r2]| |]; cbn [bind] in *; try discriminate.
          rewrite len_cons. replace (i + (1 + len ts1) - 1) with (i + 1 + len ts1 - 1) by lia. cbn [app]. congruence. }
        split; auto. split; auto. split; [constructor; cbn; auto|]. constructor; auto. cbn. cbn in A3. lia.
      * destruct (fdr_zero dbg f (a :: al) (AStr pre :: a :: out)) with (ts := t :: ts') (pts := pre :: t :: pts') (i := i) (k := i) (r := r) (m := m) (b := b)
          as (m' & bs & A1 & A2 & A3 & A4); auto; try lia; try (apply fp_hole with post; auto); try (constructor; [auto|constructor; auto]).
        exists m', [], bs. rewrite (fdr_hole dbg i r m b f pre post) in A1 by auto. replace (0 <? vl b) with false in A1 by lia. rewrite andb_false_r in A1.
        change (len (@nil (list Z))) with 0. replace (i + 0 - 1) with (i - 1) by lia. rewrite <- E. split; auto. split; auto. split; auto.
        split; auto. constructor. cbn. lia.
    + rewrite (state_write r k i) by (auto; lia). replace (k <=? i) with false by lia. cbn [andb app].
      destruct (Z.eq_dec k (i + 1)) as [->|NK2].
      * replace (i + 1 - i) with 1 by lia. change (Z.to_nat 1) with 1%nat. cbn [skipn].
        destruct (ARG r m) as (m' & ts1 & bs & A1 & A2 & A3 & A4 & A5); auto.
      * rewrite step_skip by (rewrite (state_write r k) by (auto; lia); lia). cbn [bind].
        destruct (IH LP ts' pts' Tl Sl PT3 SIl (i + 2) k r m b) as (m2 & ts1 & bs & -> & O2 & B1 & P2 & B2); auto; try lia. cbn [bind app].
        replace (Z.to_nat (k - i)) with (Datatypes.S (Datatypes.S (Z.to_nat (k - (i + 2))))) by lia. cbn [skipn]. exists m2, ts1, bs. auto.
Qed.
Lemma pieces_fits f al ps : fmt_pieces f al ps -> forall n ts pts, 0 < n -> Forall2 arg_text al ts -> Forall2 arg_text ps pts -> Forall2 solid al ts ->
  enough_for n ps pts -> Forall2 (fits n) ps pts.
Proof.
  induction 1 as [f|f al N|f pre post a al out P H IH]; intros n ts pts N0 T PT S E; unfold enough_for in E.
  1,2: inversion PT as [|? ? ? ? _ PT2]; inversion PT2; subst; repeat constructor; cbn; lia.
  - inversion T as [|? t ? ts' Ta Tl]; subst. inversion S as [|? ? ? ? Sa Sl]; subst.
    inversion PT as [|? p0 ? pts0 TX PT2]; subst. inversion PT2 as [|? t2 ? pts' Ta2 PT3]; subst.
    rewrite (arg_text_fun _ _ _ Ta2 Ta) in *. inversion E as [|? ? ? ? _ E2]; subst. inversion E2; subst.
    constructor; [cbn; lia|]. constructor; [apply solid_fits; auto; lia|]. eapply IH; eauto.
Qed.
Lemma fdr_drive dbg f al ps ts pts m bs : fmt_pieces f al ps -> small f -> Forall2 arg_text al ts -> Forall2 solid al ts -> Forall2 arg_text ps pts ->
  Forall simple al -> len ps < 2 ^ 64 - 1 -> Forall (fun b => vin b m /\ vl b < 2 ^ 64) bs ->
  exists m' tr r' k, drive (fun r m b => fdr dbg 0 r m b f al) (len pts - 1) dres0 m bs = Ok (m', tr, r') /\
    0 <= k <= len pts /\ tr = firstn (Z.to_nat k) pts /\ lastok r' = u64 (k - 1) /\
    (Exists (fun b => 0 < vl b /\ enough_for (vl b) ps pts) bs -> k = len pts).
Proof.
  intros FP L T S PT SI LN HB. pose proof (Forall2_len' _ _ _ PT) as LL. pose proof (len_pieces _ _ _ FP) as LP.
  destruct (drive_ok (fun r m b => fdr dbg 0 r m b f al) pts (fun b => vl b < 2 ^ 64) (fun b => 0 < vl b /\ enough_for (vl b) ps pts) (fun r => 0 <= bufsize r))
    with (bs := bs) (k := 0) (r := dres0) (m := m) as (m' & tr & r' & k & H1 & H2 & H3 & H4 & H5); auto; try lia.
  - intros k r m0 b K E BN B V.
    destruct (fdr_call dbg f al ps FP L ts pts T S PT SI 0 k r m0 b) as (m' & ts1 & z & H1 & H2 & H3 & H4 & H5); auto; try lia.
    replace (k - 0) with k in * by lia.
    exists m', ts1, (DRes z (u64 (k + len ts1 - 1))), (k + len ts1). pose proof (prefix_le _ _ _ _ H4) as PL. rewrite skipn_length in PL.
    unfold len in *. split; auto. split; [lia|]. split.
    { replace (Z.to_nat (k + Z.of_nat (length ts1) - k)) with (length ts1) by lia. eapply prefix_firstn; eauto. }
    split; auto. split; [cbn [bufsize]; lia|]. split; [destruct H2; auto|]. intros [En1 En].
    assert (ts1 = skipn (Z.to_nat k) pts).
    { eapply prefix_all; eauto. apply Forall2_skipn. eapply pieces_fits; eauto. }
    subst ts1. rewrite skipn_length. lia.
  - cbn. lia.
  - eapply Forall_impl; [|exact HB]. cbn. tauto.
  - eapply Forall_impl; [|exact HB]. cbn. tauto.
  - exists m', tr, r', k. replace (k - 0) with k in H3 by lia. change (Z.to_nat 0) with 0%nat in H3. cbn [skipn] in H3. auto.
Qed.
