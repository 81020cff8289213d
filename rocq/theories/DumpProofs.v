From Verif Require Import Base BaseLemmas CharconvModel CharconvSpec CharconvProofs CharconvProofs5 SubstrModel SubstrSpec SubstrProofs SubstrProofs2 SubstrProofs3 SubstrProofs4 SpanNumModel SpanNumSpec SpanNumProofs5 SpanNumProofs6 Base64Model Base64Spec Base64Proofs FormatModel FormatSpec FormatProofs FormatProofs2 FormatProofs3 DumpModel DumpSpec.

Lemma zmax_max a b : zmax a b = Z.max a b.
Proof. unfold zmax. destruct (Z.ltb_spec b a); lia. Qed.
Lemma slice_blit (m : list Z) i t : 0 <= i -> i + len t <= len m -> contents (blit m i t) (View i (len t)) = t.
Proof. intros. unfold contents. cbn [vo vl]. apply slice_blit_same; auto. Qed.

(** one argument *)
Lemma dump_fits dbg m b a t : arg_text a t -> vin b m -> vl b < 2 ^ 64 -> fits (vl b) a t ->
  exists m', dump dbg m b a = Ok (m', [t], vsize a t) /\ same_outside m m' b.
Proof.
  intros T V B F. destruct (match a with AStr _ => true | _ => false end) eqn:K.
  - destruct a; try discriminate. inversion T; subst. exists m. cbn in F |- *.
    destruct (Z.ltb_spec 0 (vl b)); [|lia]. split; auto. apply same_outside_refl.
  - assert (F' : len t <= vl b) by (destruct a; cbn in F; auto; discriminate).
    assert (S : vsize a t = len t) by (destruct a; auto; discriminate).
    exists (blit m (vo b) t).
    split; [|apply same_outside_blit; auto].
    transitivity (do '(m, sz) <- to_chars dbg m b a ;; Ok (m, if sz <=? vl b then [contents m (View (vo b) sz)] else [], sz));
      [destruct a; try discriminate; reflexivity|].
    rewrite (to_chars_fits dbg a t) by auto. cbn [bind]. destruct (Z.leb_spec (len t) (vl b)); [|lia].
    destruct V as (V1 & V2 & V3). rewrite slice_blit by lia. rewrite S. reflexivity.
Qed.
Lemma dump_small dbg m b a t : arg_text a t -> vin b m -> vl b < 2 ^ 64 -> safe_in (vl b) a -> ~ fits (vl b) a t ->
  exists m', dump dbg m b a = Ok (m', [], vsize a t) /\ same_outside m m' b.
Proof.
  intros T V B SF F. destruct (match a with AStr _ => true | _ => false end) eqn:K.
  - destruct a; try discriminate. inversion T; subst. exists m. cbn in F |- *.
    destruct (Z.ltb_spec 0 (vl b)); [lia|]. split; auto. apply same_outside_refl.
  - assert (F' : vl b < len t) by (destruct a; cbn in F; try lia; discriminate).
    assert (S : vsize a t = len t) by (destruct a; auto; discriminate).
    destruct (to_chars_small dbg a t T m b V B SF F') as (m' & E & O). exists m'. split; auto.
    transitivity (do '(m, sz) <- to_chars dbg m b a ;; Ok (m, if sz <=? vl b then [contents m (View (vo b) sz)] else [], sz));
      [destruct a; try discriminate; reflexivity|].
    rewrite E. cbn [bind]. destruct (Z.leb_spec (len t) (vl b)); [lia|]. rewrite S. reflexivity.
Qed.
Lemma fits_dec n a t : fits n a t \/ ~ fits n a t.
Proof. destruct a; cbn; lia. Qed.
Lemma vsize_nonneg a t : 0 <= vsize a t.
Proof. pose proof (len_nonneg t). destruct a; cbn; lia. Qed.

Definition zero (b : view) : view := View (vo b) 0.
Lemma shrink_zero b sz : shrink b sz = zero b \/ shrink b sz = b.
Proof. unfold shrink, zero. destruct (vl b <? sz); auto. Qed.
Lemma vin_zero b (m : list Z) : vin b m -> vin (zero b) m.
Proof. unfold vin, zero. cbn. lia. Qed.
Lemma outside_zero m m' b : vin b m -> same_outside m m' (zero b) -> same_outside m m' b.
Proof. intros V O. apply outside_sub with (zero b); auto; destruct V as (V1 & V2 & V3); cbn; lia. Qed.

Lemma largest_cons a t al ts n : largest n (sizes al ts) -> largest (Z.max n (vsize a t)) (sizes (a :: al) (t :: ts)).
Proof.
  pose proof (vsize_nonneg a t). unfold sizes. cbn [combine map fst snd].
  intros [[-> ->]|[I F]]; right.
  - split; [left; lia|repeat constructor; lia].
  - split.
    + destruct (Z.max_spec n (vsize a t)) as [[_ ->]|[_ ->]]; [left|right]; auto.
    + constructor; [lia|]. eapply Forall_impl; [|exact F]. cbn. lia.
Qed.
(** with an empty buffer *)
Lemma cat_dump_zero dbg al ts : Forall2 arg_text al ts -> forall m b, vin b m -> vl b = 0 ->
  exists m' tr n, cat_dump dbg m b al = Ok (m', tr, n) /\ same_outside m m' b /\ concat tr = [] /\ largest n (sizes al ts).
Proof.
  induction 1 as [|a t al ts T H IH]; intros m b V Z0; cbn [cat_dump].
  - exists m, [], 0. repeat split; auto; try (apply same_outside_refl). left. auto.
  - assert (D : exists m1 tr1, dump dbg m b a = Ok (m1, tr1, vsize a t) /\ same_outside m m1 b /\ concat tr1 = []).
    { destruct (fits_dec (vl b) a t) as [F|F].
      - destruct (dump_fits dbg m b a t) as (m1 & E & O); auto; try lia. exists m1, [t]. split; auto. split; auto.
        pose proof (len_nonneg t). assert (len t = 0) by (destruct a; cbn in F; lia).
        destruct t; auto. cbn in *. lia.
      - destruct (dump_small dbg m b a t) as (m1 & E & O); auto; try lia; [rewrite Z0; eapply safe_in_0; eauto|].
        exists m1, []. auto. }
    destruct D as (m1 & tr1 & -> & O1 & C1). cbn [bind].
    assert (B : shrink b (vsize a t) = zero b \/ shrink b (vsize a t) = b) by apply shrink_zero.
    assert (V1 : vin (shrink b (vsize a t)) m1).
    { destruct B as [-> | ->]; [apply vin_zero|]; eapply outside_vin; eauto. }
    assert (L1 : vl (shrink b (vsize a t)) = 0) by (destruct B as [-> | ->]; auto).
    destruct (IH m1 _ V1 L1) as (m2 & tr2 & n & -> & O2 & C2 & M). cbn [bind].
    exists m2, (tr1 ++ tr2), (zmax n (vsize a t)). split; [auto|]. split; [|split].
    + apply outside_trans with m1; auto. destruct B as [B | B]; rewrite B in O2; auto. apply outside_zero; auto. eapply outside_vin; eauto.
    + rewrite concat_app, C1, C2. reflexivity.
    + rewrite zmax_max. apply largest_cons; auto.
Qed.
Lemma cat_dump_any dbg al ts : Forall2 arg_text al ts -> forall m b, vin b m -> vl b < 2 ^ 64 -> Forall (safe_in (vl b)) al ->
  exists m' tr n ts1, cat_dump dbg m b al = Ok (m', tr, n) /\ same_outside m m' b /\ fit_prefix (vl b) al ts ts1 /\
    concat tr = concat ts1 /\ largest n (sizes al ts).
Proof.
  induction 1 as [|a t al ts T H IH]; intros m b V B S; cbn [cat_dump].
  - exists m, [], 0, []. repeat split; auto; try (apply same_outside_refl); [constructor|]. left. auto.
  - inversion S as [|? ? Sa Sl]; subst. destruct (fits_dec (vl b) a t) as [F|F].
    + destruct (dump_fits dbg m b a t) as (m1 & E & O); auto. rewrite E. cbn [bind].
      assert (shrink b (vsize a t) = b) as ->.
      { unfold shrink. destruct (Z.ltb_spec (vl b) (vsize a t)); auto. destruct a; cbn in *; lia. }
      destruct (IH m1 b) as (m2 & tr2 & n & ts1 & -> & O2 & P & C & M); auto; [eapply outside_vin; eauto|]. cbn [bind].
      exists m2, ([t] ++ tr2), (zmax n (vsize a t)), (t :: ts1). split; auto. split; [eapply outside_trans; eauto|].
      split; [constructor; auto|]. split; [cbn; rewrite C; auto|]. rewrite zmax_max. apply largest_cons; auto.
    + destruct (dump_small dbg m b a t) as (m1 & E & O); auto. rewrite E. cbn [bind].
      assert (ZB : vl (shrink b (vsize a t)) = 0).
      { unfold shrink. destruct V as (? & ? & ?). destruct (Z.ltb_spec (vl b) (vsize a t)); auto. destruct a; cbn in *; lia. }
      assert (BB : shrink b (vsize a t) = zero b \/ shrink b (vsize a t) = b) by apply shrink_zero.
      destruct (cat_dump_zero dbg al ts H m1 (shrink b (vsize a t))) as (m2 & tr2 & n & -> & O2 & C & M); auto.
      { destruct BB as [-> | ->]; [apply vin_zero|]; eapply outside_vin; eauto. }
      cbn [bind]. exists m2, ([] ++ tr2), (zmax n (vsize a t)), []. split; auto. split.
      * apply outside_trans with m1; auto. destruct BB as [BB | BB]; rewrite BB in O2; auto. apply outside_zero; auto. eapply outside_vin; eauto.
      * split; [constructor; auto|]. split; [auto|]. rewrite zmax_max. apply largest_cons; auto.
Qed.
Lemma cat_dump_fits dbg al ts : Forall2 arg_text al ts -> forall m b, vin b m -> vl b < 2 ^ 64 -> Forall2 (fits (vl b)) al ts ->
  exists m' n, cat_dump dbg m b al = Ok (m', ts, n) /\ same_outside m m' b /\ largest n (sizes al ts).
Proof.
  induction 1 as [|a t al ts T H IH]; intros m b V B F; cbn [cat_dump].
  - exists m, 0. split; auto. split; [apply same_outside_refl|left; auto].
  - inversion F as [|? ? ? ? Fa Fl]; subst.
    destruct (dump_fits dbg m b a t) as (m1 & E & O); auto. rewrite E. cbn [bind].
    assert (shrink b (vsize a t) = b) as ->.
    { unfold shrink. destruct (Z.ltb_spec (vl b) (vsize a t)); auto. destruct a; cbn in *; lia. }
    destruct (IH m1 b) as (m2 & n & -> & O2 & M); auto; [eapply outside_vin; eauto|]. cbn [bind].
    exists m2, (zmax n (vsize a t)). split; auto. split; [eapply outside_trans; eauto|]. rewrite zmax_max. apply largest_cons; auto.
Qed.

Lemma bind_assoc {A B C} (r : res A) (f : A -> res B) (g : B -> res C) : bind (bind r f) g = bind r (fun x => bind (f x) g).
Proof. destruct r; reflexivity. Qed.
Lemma zmax_assoc a b c : zmax (zmax a c) b = zmax a (zmax b c).
Proof. rewrite !zmax_max. lia. Qed.
Lemma catsep_dump_eq dbg sep al : forall m b, catsep_dump dbg m b sep al = cat_dump dbg m b (intersperse sep al).
Proof.
  induction al as [|a al IH]; intros m b; [reflexivity|]. destruct al as [|a2 al].
  - cbn [catsep_dump intersperse cat_dump]. destruct (dump dbg m b a) as [[[m1 tr1] n1]| |]; reflexivity.
  - assert (E : intersperse sep (a :: a2 :: al) = a :: sep :: intersperse sep (a2 :: al)) by reflexivity. rewrite E. clear E.
    transitivity (do '(m, tr, sz) <- dump dbg m b a ;;
       let b := shrink b sz in
       do '(m, b, tr, sz) <- (do '(m, trs, szs) <- dump dbg m b sep ;; Ok (m, shrink b szs, tr ++ trs, zmax sz szs)) ;;
       do '(m, tr2, sz2) <- catsep_dump dbg m b sep (a2 :: al) ;;
       Ok (m, tr ++ tr2, zmax sz2 sz)); [reflexivity|]. revert IH.
    generalize (intersperse sep (a2 :: al)) as il. intros il IH. cbn [cat_dump].
    destruct (dump dbg m b a) as [[[m1 tr1] n1]| |]; cbn [bind]; auto.
    destruct (dump dbg m1 (shrink b n1) sep) as [[[m2 tr2] n2]| |]; cbn [bind]; auto.
    rewrite IH. destruct (cat_dump dbg m2 _ il) as [[[m3 tr3] n3]| |]; cbn [bind]; auto.
    rewrite <- app_assoc. replace (zmax n3 (zmax n1 n2)) with (zmax (zmax n3 n2) n1) by (rewrite !zmax_max; lia). reflexivity.
Qed.
Lemma cat_dump_nonneg dbg al : forall m b m1 tr n, cat_dump dbg m b al = Ok (m1, tr, n) -> 0 <= n.
Proof.
  induction al as [|a al IH]; cbn [cat_dump]; intros m b m1 tr n H; [inversion H; lia|].
  destruct (dump dbg m b a) as [[[m2 tr2] n2]| |] eqn:D; cbn [bind] in H; try discriminate.
  destruct (cat_dump dbg m2 _ al) as [[[m3 tr3] n3]| |] eqn:E; cbn [bind] in H; try discriminate. inversion H; subst.
  apply IH in E. rewrite zmax_max. lia.
Qed.
Lemma cat_dump_lit dbg m b s al : 0 <= vl b ->
  cat_dump dbg m b (lit s ++ al) = do '(m1, tr, n) <- cat_dump dbg m b al ;; Ok (m1, lit_dump b s ++ tr, n).
Proof.
  intros B. unfold lit_dump. destruct s as [|c s]; cbn [lit app cat_dump dump].
  - replace (0 <? len (@nil Z)) with false by reflexivity. rewrite andb_false_r. cbn [app].
    destruct (cat_dump dbg m b al) as [[[m1 tr] n]| |]; reflexivity.
  - cbn [bind]. assert (shrink b 0 = b) as -> by (unfold shrink; destruct (Z.ltb_spec (vl b) 0); auto; lia).
    destruct (cat_dump dbg m b al) as [[[m1 tr] n]| |] eqn:E; cbn [bind]; auto. apply cat_dump_nonneg in E.
    replace (zmax n 0) with n by (rewrite zmax_max; lia).
    replace (0 <? len (c :: s)) with true by (pose proof (len_nonneg s); rewrite len_cons; symmetry; apply Z.ltb_lt; lia).
    rewrite andb_true_r. reflexivity.
Qed.
Lemma lit_dump_one dbg m b s : 0 <= vl b -> cat_dump dbg m b (lit s) = Ok (m, lit_dump b s, 0).
Proof. intros B. rewrite <- (app_nil_r (lit s)), cat_dump_lit by auto. cbn [cat_dump bind]. rewrite app_nil_r. reflexivity. Qed.
Lemma first_d_ok dbg (n p : Z) : 0 <= p <= n -> n < 2 ^ 63 -> first_d dbg n p = Ok (View 0 p).
Proof.
  intros H1 H2. unfold first_d, dassert, npos. replace (p <=? n) with true by lia. cbn [orb]. rewrite orb_true_r.
  replace (p =? 2 ^ 64 - 1) with false by lia. reflexivity.
Qed.
Lemma sub_d_ok dbg (n p : Z) : 0 <= p <= n -> n < 2 ^ 63 -> sub_d dbg n p = Ok (View p (n - p)).
Proof.
  intros H1 H2. unfold sub_d, dassert. replace (p <=? n) with true by lia. rewrite orb_true_r, u64_id by lia. reflexivity.
Qed.
Lemma format_dump_eq dbg f al ps : fmt_chunks f al ps -> small f -> forall m b, 0 <= vl b -> format_dump dbg m b f al = cat_dump dbg m b ps.
Proof.
  induction 1 as [f|f al N|f pre post a al out P H IH]; intros L m b B.
  - rewrite lit_dump_one by auto. reflexivity.
  - rewrite lit_dump_one by auto. destruct al as [|a al]; [reflexivity|]. cbn [format_dump].
    destruct (find_placeholder f) as (o & E & Ho). rewrite E. cbn [bind]. destruct o; [|reflexivity].
    exfalso. destruct Ho as (x & y & [E' _] & _). apply N. exists x, y. auto.
  - rewrite cat_dump_lit by auto. cbn [format_dump cat_dump]. destruct (find_placeholder f) as (o & E & Ho). rewrite E. cbn [bind].
    destruct o as [p|]; [|exfalso; destruct P as [P _]; apply Ho; exists pre, post; auto].
    destruct Ho as (x & y & P' & ->). destruct (first_placeholder_fun _ _ _ _ _ P' P) as [-> ->]. clear P'.
    pose proof (placeholder_len _ _ _ P) as PL. pose proof (len_nonneg pre). pose proof (len_nonneg post).
    rewrite first_d_ok by (unfold small in *; lia). cbn [bind].
    assert (C : contents f (View 0 (len pre)) = pre).
    { destruct P as [-> _]. apply (contents_app _ [] pre (s2z "{}" ++ post)); auto. }
    rewrite C. rewrite sub_d_ok by (unfold small in *; lia). cbn [bind].
    assert (C2 : contents f (View (len pre + 2) (len f - (len pre + 2))) = post).
    { rewrite PL. replace (len pre + 2 + len post - (len pre + 2)) with (len post) by lia. destruct P as [-> _].
      replace (len pre + 2) with (len (pre ++ s2z "{}")) by (rewrite len_app; reflexivity).
      apply (contents_app _ (pre ++ s2z "{}") post []). rewrite app_nil_r, app_assoc. reflexivity. }
    rewrite C2. destruct (dump dbg m b a) as [[[m1 tr1] n1]| |]; cbn [bind]; auto.
    rewrite IH; [|unfold small in *; lia|unfold shrink; destruct (_ <? _); cbn; lia].
    destruct (cat_dump dbg m1 _ out) as [[[m3 tr3] n3]| |]; cbn [bind]; auto.
Qed.
