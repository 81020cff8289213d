From Verif Require Import Base BaseLemmas CharconvModel CharconvSpec CharconvProofs CharconvProofs5 SubstrModel SubstrSpec SubstrProofs SubstrProofs2 SubstrProofs3 SubstrProofs4 SpanNumModel SpanNumSpec SpanNumProofs5 SpanNumProofs6 Base64Model Base64Spec Base64Proofs FormatModel FormatSpec FormatProofs FormatProofs2 FormatProofs3 FormatProofs4 DumpModel DumpSpec DumpProofs.

Lemma chunks_of f ts out : fmt_subst f ts out -> forall al, Forall2 arg_text al ts ->
  exists ps pts, fmt_chunks f al ps /\ Forall2 arg_text ps pts /\ concat pts = out /\
    (forall P : arg -> list Z -> Prop, Forall2 P al ts -> (forall s, P (AStr s) s) -> Forall2 P ps pts).
Proof.
  assert (L : forall g, exists pts, Forall2 arg_text (lit g) pts /\ concat pts = g /\
    forall P : arg -> list Z -> Prop, (forall s, P (AStr s) s) -> Forall2 P (lit g) pts).
  { clear. intros [|c f]; [exists []; repeat split; constructor|]. exists [c :: f]. cbn [lit concat]. rewrite app_nil_r.
    repeat split; repeat constructor; auto. }
  induction 1 as [f|f ts N|f pre post t ts out P H IH]; intros al Hal.
  - inversion Hal; subst. destruct (L f) as (pts & H1 & H2 & H3). exists (lit f), pts. repeat split; auto; constructor.
  - destruct (L f) as (pts & H1 & H2 & H3). exists (lit f), pts. repeat split; auto; constructor; auto.
  - inversion Hal as [|a ? al' ? Ha Hal']; subst. destruct (IH al' Hal') as (ps & pts & H1 & H2 & H3 & H4).
    destruct (L pre) as (pt0 & K1 & K2 & K3).
    exists (lit pre ++ a :: ps), (pt0 ++ t :: pts). split; [apply fc_hole with post; auto|].
    split; [apply Forall2_app; auto|]. split; [rewrite concat_app; cbn; rewrite K2, H3; reflexivity|].
    intros Q HQ HS. inversion HQ; subst. apply Forall2_app; [auto|]. constructor; auto.
Qed.

(** ** Resuming *)
Lemma state_write r k i : lastok r = u64 (k - 1) -> 0 <= k < 2 ^ 64 - 1 -> 0 <= i -> write_arg r i = (k <=? i).
Proof.
  intros E K I. unfold write_arg, noarg. rewrite E. destruct (Z.eq_dec k 0) as [->|N].
  - replace (u64 (0 - 1) =? 2 ^ 64 - 1) with true by reflexivity. cbn [orb]. lia.
  - rewrite u64_id by lia. lia.
Qed.
Lemma state_succ k : 0 <= k < 2 ^ 64 -> u64 (u64 (k - 1) + 1) = k.
Proof. intros H. rewrite u64_add_l. replace (k - 1 + 1) with k by lia. apply u64_id. lia. Qed.

Lemma solid_fits n a t : solid a t -> 0 <= n -> (fits n a t <-> vsize a t <= n).
Proof. unfold solid. intros. destruct a; cbn in *; lia. Qed.
Lemma simple_safe n a : simple a -> safe_in n a.
Proof. apply si_simple. Qed.

(** the common step of catsep_dump_resume and format_dump_resume *)
Lemma step_fits dbg i r m b a t : arg_text a t -> vin b m -> vl b < 2 ^ 64 -> fits (vl b) a t -> write_arg r i = true ->
  exists m', catsep_dump_resume1 dbg i r m b a = Ok (m', b, [t], DRes (Z.max (vsize a t) (bufsize r)) i) /\ same_outside m m' b.
Proof.
  intros T V B F W. unfold catsep_dump_resume1. rewrite W. destruct (dump_fits dbg m b a t) as (m' & -> & O); auto.
  cbn [bind]. exists m'. split; auto. replace (vsize a t <=? vl b) with true; [rewrite zmax_max; reflexivity|].
  symmetry. apply Z.leb_le. destruct V as (? & ? & ?), a; cbn in *; lia.
Qed.
Lemma step_small dbg i r m b a t : arg_text a t -> vin b m -> vl b < 2 ^ 64 -> safe_in (vl b) a -> vl b < vsize a t -> write_arg r i = true ->
  exists m', catsep_dump_resume1 dbg i r m b a = Ok (m', zero b, [], DRes (Z.max (vsize a t) (bufsize r)) (lastok r)) /\ same_outside m m' b.
Proof.
  intros T V B S F W. unfold catsep_dump_resume1. rewrite W. destruct (dump_small dbg m b a t) as (m' & -> & O); auto.
  { destruct V as (? & ? & ?), a; cbn in *; lia. }
  cbn [bind]. exists m'. split; auto. replace (vsize a t <=? vl b) with false by lia. rewrite zmax_max. reflexivity.
Qed.
Lemma step_skip dbg i r m b a : write_arg r i = false -> catsep_dump_resume1 dbg i r m b a = Ok (m, b, [], r).
Proof. intros W. unfold catsep_dump_resume1. rewrite W. reflexivity. Qed.

(** catsep_dump_resume over the flat list of arguments and separators *)
Fixpoint resume_flat dbg i r m b (items : list arg) : res (list Z * trace * dres) :=
  match items with
  | [] => Ok (m, [], r)
  | a :: more =>
      do '(m, b, tr, r) <- catsep_dump_resume1 dbg i r m b a ;;
      do '(m, tr2, r) <- resume_flat dbg (i + 1) r m b more ;;
      Ok (m, tr ++ tr2, r)
  end.
Lemma catsep_flat dbg sep al : forall i r m b, catsep_dump_resume_ dbg i r m b sep al = resume_flat dbg i r m b (intersperse sep al).
Proof.
  induction al as [|a al IH]; intros i r m b; [reflexivity|]. destruct al as [|a2 al].
  - cbn [catsep_dump_resume_ intersperse resume_flat].
    destruct (catsep_dump_resume1 dbg i r m b a) as [[[[m1 b1] tr1] r1]| |]; cbn [bind]; auto. rewrite app_nil_r. reflexivity.
  - assert (E : intersperse sep (a :: a2 :: al) = a :: sep :: intersperse sep (a2 :: al)) by reflexivity. rewrite E. clear E.
    transitivity (do '(m, b, tr, r) <- catsep_dump_resume1 dbg i r m b a ;;
       do '(m, b, tr1, r) <- catsep_dump_resume1 dbg (i + 1) r m b sep ;;
       do '(m, tr2, r) <- catsep_dump_resume_ dbg (i + 2) r m b sep (a2 :: al) ;;
       Ok (m, tr ++ tr1 ++ tr2, r)); [reflexivity|]. revert IH.
    generalize (intersperse sep (a2 :: al)) as il. intros il IH. cbn [resume_flat].
    destruct (catsep_dump_resume1 dbg i r m b a) as [[[[m1 b1] tr1] r1]| |]; cbn [bind]; auto.
    destruct (catsep_dump_resume1 dbg (i + 1) r1 m1 b1 sep) as [[[[m2 b2] tr2] r2]| |]; cbn [bind]; auto.
    replace (i + 1 + 1) with (i + 2) by lia.
    rewrite IH. destruct (resume_flat dbg (i + 2) r2 m2 b2 il) as [[[m3 tr3] r3]| |]; cbn [bind]; auto.
Qed.

Lemma enough_mono n n' al ts : n <= n' -> enough_for n al ts -> enough_for n' al ts.
Proof. intros H E. unfold enough_for in *. induction E; constructor; auto; lia. Qed.

Lemma flat_zero dbg al ts : Forall2 arg_text al ts -> Forall2 solid al ts -> forall i k r m b, vin b m -> vl b = 0 ->
  lastok r = u64 (k - 1) -> 0 <= k <= i -> k < 2 ^ 64 - 1 ->
  exists m' bs, resume_flat dbg i r m b al = Ok (m', [], DRes bs (lastok r)) /\ same_outside m m' b /\
    bufsize r <= bs /\ enough_for bs al ts /\ (forall M, bufsize r <= M -> enough_for M al ts -> bs <= M).
Proof.
  induction 1 as [|a t al ts T H IH]; intros HS i k r m b V Z0 E K K'; cbn [resume_flat].
  - exists m, (bufsize r). destruct r; repeat split; auto; try (apply same_outside_refl); try lia. constructor.
  - inversion HS as [|? ? ? ? Sa Sl]; subst. unfold solid in Sa.
    destruct (step_small dbg i r m b a t) as (m1 & -> & O1); auto; try lia; [rewrite Z0; eapply safe_in_0; eauto|rewrite (state_write r k i) by (auto; lia); lia|].
    cbn [bind]. destruct (IH Sl (i + 1) k (DRes (Z.max (vsize a t) (bufsize r)) (lastok r)) m1 (zero b)) as (m2 & bs & -> & O2 & B1 & B2 & B3);
      auto; try lia; [apply vin_zero; eapply outside_vin; eauto|]. cbn [bind]. cbn [bufsize] in *.
    exists m2, bs. split; auto. split; [eapply outside_trans; [eauto|]; apply outside_zero; auto; eapply outside_vin; eauto|].
    split; [lia|]. split; [constructor; auto; lia|]. intros M HM HE. inversion HE; subst. apply B3; auto. lia.
Qed.
Lemma flat_go dbg al ts : Forall2 arg_text al ts -> Forall2 solid al ts -> forall i r m b, Forall (safe_in (vl b)) al ->
  vin b m -> vl b < 2 ^ 64 ->
  lastok r = u64 (i - 1) -> 0 <= i -> i + len al < 2 ^ 64 - 1 ->
  exists m' ts1 bs, resume_flat dbg i r m b al = Ok (m', ts1, DRes bs (u64 (i + len ts1 - 1))) /\ same_outside m m' b /\
    fit_prefix (vl b) al ts ts1 /\ bufsize r <= bs /\ enough_for bs al ts /\ (forall M, bufsize r <= M -> enough_for M al ts -> bs <= M).
Proof.
  induction 1 as [|a t al ts T H IH]; intros HS i r m b SF V B E K K'; cbn [resume_flat].
  - exists m, [], (bufsize r). replace (i + len (@nil (list Z)) - 1) with (i - 1) by (change (len (@nil (list Z))) with 0; lia).
    destruct r; cbn in *; subst; repeat split; auto; try (apply same_outside_refl); try lia; constructor.
  - inversion HS as [|? ? ? ? Sa Sl]; subst. inversion SF as [|? ? Fa Fl]; subst. pose proof Sa as Sa'. unfold solid in Sa.
    rewrite len_cons in K'. pose proof (len_nonneg al).
    assert (W : write_arg r i = true) by (rewrite (state_write r i i) by (auto; lia); lia).
    destruct (Z.le_gt_cases (vsize a t) (vl b)) as [F|F].
    + assert (Ft : fits (vl b) a t) by (apply solid_fits; auto; destruct V as (? & ? & ?); lia).
      destruct (step_fits dbg i r m b a t) as (m1 & -> & O1); auto.
      cbn [bind]. destruct (IH Sl (i + 1) (DRes (Z.max (vsize a t) (bufsize r)) i) m1 b) as (m2 & ts1 & bs & -> & O2 & P & B1 & B2 & B3);
        auto; try lia; [eapply outside_vin; eauto|cbn [lastok]; rewrite u64_id by lia; lia|]. cbn [bind]. cbn [bufsize] in *.
      exists m2, (t :: ts1), bs. rewrite len_cons. replace (i + (1 + len ts1) - 1) with (i + 1 + len ts1 - 1) by lia.
      split; auto. split; [eapply outside_trans; eauto|]. split; [constructor; auto|].
      split; [lia|]. split; [constructor; auto; lia|]. intros M HM HE. inversion HE; subst. apply B3; auto. lia.
    + destruct (step_small dbg i r m b a t) as (m1 & -> & O1); auto.
      cbn [bind]. destruct (flat_zero dbg al ts H Sl (i + 1) i (DRes (Z.max (vsize a t) (bufsize r)) (lastok r)) m1 (zero b)) as (m2 & bs & -> & O2 & B1 & B2 & B3);
        auto; try lia; [apply vin_zero; eapply outside_vin; eauto|]. cbn [bind]. cbn [bufsize lastok] in *.
      exists m2, [], bs. replace (i + len (@nil (list Z)) - 1) with (i - 1) by (change (len (@nil (list Z))) with 0; lia). rewrite E.
      split; auto. split; [eapply outside_trans; [eauto|]; apply outside_zero; auto; eapply outside_vin; eauto|].
      split; [constructor|].
      { rewrite solid_fits; auto; [lia|]. destruct V as (? & ? & ?); lia. }
      split; [lia|]. split; [constructor; auto; lia|]. intros M HM HE. inversion HE; subst. apply B3; auto. lia.
Qed.
Lemma flat_skip dbg al : forall i k r m b, lastok r = u64 (k - 1) -> 0 <= i <= k -> k <= i + len al -> k < 2 ^ 64 - 1 ->
  resume_flat dbg i r m b al = resume_flat dbg k r m b (skipn (Z.to_nat (k - i)) al).
Proof.
  induction al as [|a al IH]; intros i k r m b E K L K'.
  - rewrite skipn_nil. reflexivity.
  - destruct (Z.eq_dec i k) as [->|N]; [rewrite Z.sub_diag; reflexivity|].
    cbn [resume_flat]. rewrite step_skip by (rewrite (state_write r k i) by (auto; lia); lia). cbn [bind].
    rewrite len_cons in L. rewrite (IH (i + 1) k) by (auto; lia).
    replace (Z.to_nat (k - i)) with (S (Z.to_nat (k - (i + 1)))) by lia. cbn [skipn app].
    destruct (resume_flat dbg k r m b (skipn _ al)) as [[[m2 tr2] r2]| |]; reflexivity.
Qed.

(** a prefix as a segment *)
Lemma prefix_firstn n al ts ts1 : fit_prefix n al ts ts1 -> ts1 = firstn (length ts1) ts.
Proof. induction 1; cbn [length firstn]; auto. f_equal. auto. Qed.
Lemma prefix_le n al ts ts1 : fit_prefix n al ts ts1 -> (length ts1 <= length ts)%nat.
Proof. induction 1; cbn [length]; lia. Qed.
Lemma prefix_all n al ts ts1 : fit_prefix n al ts ts1 -> Forall2 (fits n) al ts -> ts1 = ts.
Proof. induction 1; intros F; auto; inversion F; subst; [contradiction|]. f_equal. auto. Qed.
Lemma Forall2_skipn {A B} (R : A -> B -> Prop) l l' k : Forall2 R l l' -> Forall2 R (skipn k l) (skipn k l').
Proof. intros H. revert k. induction H; intros [|k]; cbn [skipn]; auto. Qed.
Lemma Forall_skipn {A} (P : A -> Prop) l k : Forall P l -> Forall P (skipn k l).
Proof. intros H. revert k. induction H; intros [|k]; cbn [skipn]; auto. Qed.

(** the caller's loop *)
Lemma drive_ok call (ts : list (list Z)) (good enough : view -> Prop) (Inv : dres -> Prop) :
  len ts < 2 ^ 64 - 1 ->
  (forall k r m b, 0 <= k < len ts -> lastok r = u64 (k - 1) -> Inv r -> good b -> vin b m ->
     exists m' tr r' k', call r m b = Ok (m', tr, r') /\ k <= k' <= len ts /\ tr = firstn (Z.to_nat (k' - k)) (skipn (Z.to_nat k) ts) /\
       lastok r' = u64 (k' - 1) /\ Inv r' /\ len m' = len m /\ (enough b -> k' = len ts)) ->
  forall bs k r m, 0 <= k < len ts -> lastok r = u64 (k - 1) -> Inv r -> Forall good bs -> Forall (fun b => vin b m) bs ->
  exists m' tr r' k', drive call (len ts - 1) r m bs = Ok (m', tr, r') /\ k <= k' <= len ts /\
    tr = firstn (Z.to_nat (k' - k)) (skipn (Z.to_nat k) ts) /\ lastok r' = u64 (k' - 1) /\ (Exists enough bs -> k' = len ts).
Proof.
  intros HL Hc. induction bs as [|b bs IH]; intros k r m K E I G V; cbn [drive].
  - exists m, [], r, k. rewrite Z.sub_diag. repeat split; auto; try lia. intros X. inversion X.
  - inversion G as [|? ? Gb Gl]; subst. inversion V as [|? ? Vb Vl]; subst.
    destruct (Hc k r m b K E I Gb Vb) as (m1 & tr1 & r1 & k1 & -> & K1 & T1 & E1 & I1 & L1 & N1). cbn [bind].
    assert (SU : success_until r1 (len ts - 1) = (k1 =? len ts)).
    { unfold success_until, noarg. rewrite E1. destruct (Z.eq_dec k1 0) as [->|NZ].
      - replace (u64 (0 - 1) =? 2 ^ 64 - 1) with true by reflexivity. lia.
      - rewrite u64_id by lia. replace (k1 - 1 =? 2 ^ 64 - 1) with false by lia. lia. }
    rewrite SU. destruct (Z.eqb_spec k1 (len ts)) as [D|D].
    + exists m1, tr1, r1, k1. repeat split; auto; lia.
    + destruct (IH k1 r1 m1) as (m2 & tr2 & r2 & k2 & -> & K2 & T2 & E2 & X2); auto; try lia.
      { eapply Forall_impl; [|exact Vl]. intros v. unfold vin. rewrite L1. auto. }
      cbn [bind]. exists m2, (tr1 ++ tr2), r2, k2. split; auto. split; [lia|]. split.
      * rewrite T1, T2. replace (Z.to_nat (k2 - k)) with (Z.to_nat (k1 - k) + Z.to_nat (k2 - k1))%nat by lia.
        replace (Z.to_nat k1) with (Z.to_nat (k1 - k) + Z.to_nat k)%nat by lia. rewrite <- skipn_skipn.
        generalize (skipn (Z.to_nat k) ts) as l. generalize (Z.to_nat (k1 - k)) as x, (Z.to_nat (k2 - k1)) as y. clear.
        induction x as [|x IH]; intros y [|c l]; cbn [firstn skipn app Nat.add]; auto.
        { rewrite firstn_nil. reflexivity. } f_equal. auto.
      * split; auto. intros X. inversion X as [? ? Y|? ? Y]; subst; [|auto]. exfalso. apply D. auto.
Qed.
