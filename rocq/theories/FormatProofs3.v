From Verif Require Import Base BaseLemmas CharconvModel CharconvSpec CharconvProofs CharconvProofs5 SubstrModel SubstrSpec SubstrProofs SubstrProofs2 SubstrProofs3 SubstrProofs4 SpanNumModel SpanNumSpec SpanNumProofs5 SpanNumProofs6 Base64Model Base64Spec Base64Proofs Base64Props FormatModel FormatSpec FormatProofs FormatProofs2.

Lemma to_chars_str_len m b s m' n : to_chars_str m b s = Ok (m', n) -> n = len s.
Proof.
  unfold to_chars_str. destruct (0 <? _).
  - destruct (rds s 0 _); cbn [bind]; try discriminate. destruct (wrs m (vo b) _); cbn [bind]; try discriminate. congruence.
  - congruence.
Qed.
Lemma cat_one dbg m b f : len f < 2 ^ 64 -> cat dbg m b [AStr f] = to_chars_str m b f.
Proof.
  intros H. cbn [cat to_chars]. destruct (to_chars_str m b f) as [[m1 n]| |] eqn:E; cbn [bind]; auto.
  apply to_chars_str_len in E. subst n. pose proof (len_nonneg f). rewrite u64_id by lia. rewrite Z.add_0_r. reflexivity.
Qed.
Lemma placeholder_len f pre post : first_placeholder f pre post -> len f = len pre + 2 + len post.
Proof. intros [-> _]. rewrite !len_app. change (len (s2z "{}")) with 2. lia. Qed.
Lemma format_eq dbg f al ps : fmt_pieces f al ps -> small f -> forall m b, format dbg m b f al = cat dbg m b ps.
Proof.
  induction 1 as [f|f al N|f pre post a al out P H IH]; intros L m b.
  - rewrite cat_one by (unfold small in *; lia). reflexivity.
  - rewrite cat_one by (unfold small in *; lia). destruct al as [|a al]; [reflexivity|]. cbn [format].
    destruct (find_placeholder f) as (o & E & Ho). rewrite E. cbn [bind]. destruct o; [|reflexivity].
    exfalso. destruct Ho as (x & y & [E' _] & _). apply N. exists x, y. auto.
  - cbn [format]. destruct (find_placeholder f) as (o & E & Ho). rewrite E. cbn [bind].
    destruct o as [p|]; [|exfalso; destruct P as [P _]; apply Ho; exists pre, post; auto].
    destruct Ho as (x & y & P' & ->). destruct (first_placeholder_fun _ _ _ _ _ P' P) as [-> ->]. clear P'.
    pose proof (placeholder_len _ _ _ P) as PL. pose proof (len_nonneg pre). pose proof (len_nonneg post).
    rewrite sub2_ok by (unfold small in *; lia). cbn [bind].
    assert (C : contents f (View 0 (len pre)) = pre).
    { destruct P as [-> _]. apply (contents_app _ [] pre (s2z "{}" ++ post)); auto. }
    rewrite C. cbn [cat to_chars].
    destruct (to_chars_str m b pre) as [[m1 n1]| |]; cbn [bind]; auto.
    destruct (to_chars dbg m1 (advance m1 b n1) a) as [[m2 n2]| |]; cbn [bind]; auto.
    rewrite sub1_ok by (unfold small in *; lia). cbn [bind].
    assert (C2 : contents f (View (len pre + 2) (len f - (len pre + 2))) = post).
    { rewrite PL. replace (len pre + 2 + len post - (len pre + 2)) with (len post) by lia. destruct P as [-> _].
      replace (len pre + 2) with (len (pre ++ s2z "{}")) by (rewrite len_app; reflexivity).
      apply (contents_app _ (pre ++ s2z "{}") post []). rewrite app_nil_r, app_assoc. reflexivity. }
    rewrite C2, IH by (unfold small in *; lia).
    destruct (cat dbg m2 _ out) as [[m3 n3]| |]; cbn [bind]; auto. rewrite u64_add_l, u64_add_r, Z.add_assoc. reflexivity.
Qed.
Lemma subst_pieces f ts out : fmt_subst f ts out -> forall al, Forall2 arg_text al ts ->
  exists ps pts, fmt_pieces f al ps /\ Forall2 arg_text ps pts /\ concat pts = out /\ (Forall simple al -> Forall simple ps).
Proof.
  induction 1 as [f|f ts N|f pre post t ts out P H IH]; intros al Hal.
  - inversion Hal; subst. exists [AStr f], [f]. repeat split; [constructor|repeat constructor|cbn; apply app_nil_r|repeat constructor].
  - exists [AStr f], [f]. repeat split; [constructor; auto|repeat constructor|cbn; apply app_nil_r|repeat constructor].
  - inversion Hal as [|a ? al' ? Ha Hal']; subst. destruct (IH al' Hal') as (ps & pts & H1 & H2 & H3 & H4).
    exists (AStr pre :: a :: ps), (pre :: t :: pts). split; [apply fp_hole with post; auto|]. split; [repeat constructor; auto|].
    split; [cbn; rewrite H3; reflexivity|]. intros HS. inversion HS; subst. constructor; [exact I|]. constructor; auto.
Qed.
Lemma subst_exists f ts : exists out, fmt_subst f ts out.
Proof.
  revert f. induction ts as [|t ts IH]; intros f; [exists f; constructor|].
  destruct (find_placeholder f) as ([p|] & E & Ho).
  - destruct Ho as (pre & post & P & _). destruct (IH post) as (out & H). exists (pre ++ t ++ out). apply fs_hole with post; auto.
  - exists f. apply fs_nohole; auto.
Qed.
Lemma subst_fun f ts o1 o2 : fmt_subst f ts o1 -> fmt_subst f ts o2 -> o1 = o2.
Proof.
  intros H. revert o2. induction H as [f|f ts N|f pre post t ts out P H IH]; intros o2 H2; inversion H2; subst; auto.
  - exfalso. destruct H as [E _]. apply N. eexists; eexists; eauto.
  - exfalso. destruct P as [E _]. match goal with X : ~ has_placeholder _ |- _ => apply X end. eexists; eexists; eauto.
  - match goal with X : first_placeholder f ?a ?b |- _ => destruct (first_placeholder_fun _ _ _ _ _ X P) as [-> ->] end.
    match goal with X : fmt_subst post ts ?o |- _ => rewrite (IH o X) end. auto.
Qed.

Lemma format_fits dbg f ts out al m b : fmt_subst f ts out -> Forall2 arg_text al ts -> small f ->
  vin b m -> vl b < 2 ^ 64 -> len out <= vl b -> format dbg m b f al = Ok (blit m (vo b) out, len out).
Proof.
  intros Hf Hal Lf Hb H64 L. destruct (subst_pieces _ _ _ Hf _ Hal) as (ps & pts & H1 & H2 & <- & _).
  rewrite (format_eq _ _ _ _ H1) by auto. apply cat_fits; auto.
Qed.
Lemma format_any dbg f ts out al m b : fmt_subst f ts out -> Forall2 arg_text al ts -> small f ->
  vin b m -> vl b < 2 ^ 64 -> len out < 2 ^ 64 -> Forall simple al \/ vl b = 0 ->
  exists m', format dbg m b f al = Ok (m', len out) /\ same_outside m m' b.
Proof.
  intros Hf Hal Lf Hb H64 L S. destruct (subst_pieces _ _ _ Hf _ Hal) as (ps & pts & H1 & H2 & <- & HS).
  rewrite (format_eq _ _ _ _ H1) by auto. destruct (cat_any dbg ps pts H2 m b) as (m' & E & O & _); eauto.
  destruct S as [S|S]; [apply room_simple; auto|rewrite S; apply room_0; auto].
Qed.

(** ** growable containers *)
Lemma len_resize c n : 0 <= n -> len (resize c n) = n.
Proof. intros H. unfold resize. pose proof (len_nonneg c). rewrite len_app, len_repeat, len_firstn by lia. lia. Qed.
Lemma resize_prefix (a b : list Z) : resize (a ++ b) (len a) = a.
Proof.
  unfold resize. rewrite len_app. pose proof (len_nonneg b). replace (Z.to_nat (len a - (len a + len b))) with O by lia.
  cbn [repeat]. rewrite to_nat_len, firstn_app, Nat.sub_diag, firstn_O, firstn_all, !app_nil_r. reflexivity.
Qed.
Lemma resize_same (a : list Z) : resize a (len a) = a.
Proof. rewrite <- (app_nil_r a) at 1. apply resize_prefix. Qed.
Lemma blit_0 (c t : list Z) : len t <= len c -> exists r, blit c 0 t = t ++ r /\ len r = len c - len t.
Proof.
  intros H. exists (skipn (length t) c). unfold blit. cbn [Z.to_nat firstn app Nat.add]. split; auto.
  unfold len in *. rewrite skipn_length. lia.
Qed.
Section rs.
  Variables (W : list Z -> view -> res (list Z * Z)) (out : list Z).
  Hypothesis Wfit : forall m b, vin b m -> vl b < 2 ^ 64 -> len out <= vl b -> W m b = Ok (blit m (vo b) out, len out).
  Definition W_any (m : list Z) (b : view) : Prop :=
    exists m', W m b = Ok (m', len out) /\ same_outside m m' b.
  Lemma rs_fits k c : len c < 2 ^ 64 -> len out <= len c -> rs_loop (S k) W c = Ok out.
  Proof.
    intros L H. cbn [rs_loop]. pose proof (len_nonneg c).
    rewrite Wfit; [|unfold vin, full; cbn [vo vl]; lia|cbn; lia|cbn; lia]. cbn [bind full vo].
    destruct (blit_0 c out) as (r & -> & _); auto. rewrite resize_prefix. replace (len c <? len out) with false by lia. reflexivity.
  Qed.
  Lemma rs_ok k c : len c < 2 ^ 64 -> len out < 2 ^ 64 -> len out <= len c \/ W_any c (full c) ->
    rs_loop (S (S k)) W c = Ok out.
  Proof.
    intros L Lo H. destruct (Z.leb_spec (len out) (len c)) as [F|F]; [apply rs_fits; auto|].
    destruct H as [H|(m' & E & O)]; [lia|]. cbn [rs_loop]. rewrite E. cbn [bind]. replace (len c <? len out) with true by lia.
    pose proof (len_nonneg out). apply (rs_fits k (resize m' (len out))); rewrite len_resize; lia.
  Qed.
  Lemma append_last k pos c : 0 <= pos -> len c = pos + len out -> len c < 2 ^ 64 - 1 ->
    rs_append_loop (S k) W pos c = Ok (firstn (Z.to_nat pos) c ++ out, View pos (len out)).
  Proof.
    intros Hp Hc L. cbn [rs_append_loop]. pose proof (len_nonneg out). rewrite sub1_ok by lia. cbn [bind].
    rewrite Wfit; [|unfold vin; cbn [vo vl]; lia|cbn [vl]; lia|cbn [vl]; lia]. cbn [bind vo vl].
    assert (B : blit c pos out = firstn (Z.to_nat pos) c ++ out).
    { unfold blit. rewrite (skipn_all2 c) by (unfold len in *; lia). rewrite app_nil_r. reflexivity. }
    rewrite B. assert (LF : len (firstn (Z.to_nat pos) c ++ out) = pos + len out) by (rewrite len_app, len_firstn; lia).
    rewrite u64_id by lia. pose proof (resize_same (firstn (Z.to_nat pos) c ++ out)) as RS. rewrite LF in RS. rewrite RS. replace (len c - pos <? len out) with false by lia.
    rewrite range_ok by lia. cbn [bind]. rewrite LF. do 3 f_equal. lia.
  Qed.
  Lemma rs_append_ok k c : len c + len out < 2 ^ 64 - 1 -> W_any c (View (len c) 0) ->
    rs_append_loop (S (S k)) W (len c) c = Ok (c ++ out, View (len c) (len out)).
  Proof.
    intros L (m' & E & O). pose proof (len_nonneg out). pose proof (len_nonneg c).
    destruct (Z.eqb_spec (len out) 0) as [Z|Z].
    - rewrite append_last by lia. rewrite to_nat_len, firstn_all. reflexivity.
    - change (rs_append_loop (S (S k)) W (len c) c) with
        (do v <- sub1 (len c) (len c) ;;
         do '(c', ret) <- W c v ;;
         let c2 := resize c' (u64 (len c + ret)) in
         if vl v <? ret then rs_append_loop (S k) W (len c) c2
         else do r <- range (len c2) (len c) (len c2) ;; Ok (c2, r)).
      rewrite sub1_ok by lia. cbn [bind]. replace (len c - len c) with 0 by lia. rewrite E. cbn [bind vl].
      replace (0 <? len out) with true by lia. rewrite u64_id by lia. rewrite append_last by (rewrite ?len_resize; lia).
      assert (m' = c) as ->.
      { destruct O as [O1 O2]. apply mem_ext; auto. intros i Hi. apply O2; cbn [vo vl]; lia. }
      do 3 f_equal. unfold resize. rewrite (firstn_all2 c) by (unfold len in *; lia).
      rewrite to_nat_len, firstn_app, Nat.sub_diag, firstn_O, firstn_all, app_nil_r. reflexivity.
  Qed.
End rs.

(** ** aligned arguments in a buffer between the text and the width *)
Lemma bad_first n w : n < w -> w <> npos -> first_d true n w = Err.
Proof. intros H1 H2. unfold first_d, dassert. replace (w <=? n) with false by lia. replace (w =? npos) with false by lia. reflexivity. Qed.
Lemma left_overrun_dbg a t w p m b : arg_text a t -> vin b m -> vl b < 2 ^ 64 -> len t < vl b < w -> w < npos ->
  to_chars true m b (ALeft a w p) = Err.
Proof.
  intros Ha Hb H64 L Hw. cbn [to_chars]. rewrite (to_chars_fits true a t) by (auto; lia). cbn [bind].
  replace ((vl b <=? len t) || (w <=? len t)) with false by lia. rewrite bad_first by lia. reflexivity.
Qed.
Lemma right_overrun_dbg a t w p m b : arg_text a t -> vin b m -> vl b < 2 ^ 64 -> len t < vl b -> vl b + len t < w -> w < npos ->
  to_chars true m b (ARight a w p) = Err.
Proof.
  intros Ha Hb H64 L L2 Hw. pose proof (len_nonneg t). cbn [to_chars]. rewrite (to_chars_fits true a t) by (auto; lia). cbn [bind].
  replace ((vl b <=? len t) || (w <=? len t)) with false by lia. pose proof (len_nonneg t). unfold npos in *.
  rewrite u64_id by lia. rewrite bad_first by (unfold npos; lia). reflexivity.
Qed.
(** without assertions: the whole padded text is stored, past the end of the buffer *)
Lemma left_overrun a t w p m b : arg_text a t -> vin b m -> vl b < 2 ^ 64 -> len t < vl b < w -> w < npos ->
  to_chars false m b (ALeft a w p) =
    if vo b + w <=? len m then Ok (blit m (vo b) (t ++ repeat p (Z.to_nat (w - len t))), w) else Ub.
Proof.
  intros Ha Hb H64 L Hw. cbn [to_chars]. rewrite (to_chars_fits false a t) by (auto; lia). cbn [bind].
  replace ((vl b <=? len t) || (w <=? len t)) with false by lia. unfold first_d, sub_d, dassert. cbn [negb orb bind].
  replace (w =? npos) with false by lia. cbn [bind vl vo]. pose proof (len_nonneg t). unfold npos in *. rewrite u64_id by lia.
  pose proof Hb as (B1 & B2 & B3). assert (LB : len (blit m (vo b) t) = len m) by (apply len_blit; lia).
  unfold fill_v. set (q := repeat p (Z.to_nat (w - len t))). assert (LQ : len q = w - len t) by (unfold q; rewrite len_repeat; lia).
  destruct (Z.leb_spec (vo b + w) (len m)).
  - rewrite wrs_ok by lia. cbn [bind]. rewrite blit_app by lia.
    assert (LB2 : len (blit m (vo b) (t ++ q)) = len m) by (apply len_blit; rewrite ?len_app; lia).
    rewrite (to_chars_fits false a t); [|auto|unfold vin; lia|lia|lia]. cbn [bind]. rewrite blit_back by lia. reflexivity.
  - unfold wrs. rewrite LB, LQ. destruct q as [|z q'] eqn:EQ; [rewrite len_nil in LQ; lia|]. replace ((0 <=? vo b + len t) && (vo b + len t + (w - len t) <=? len m)) with false by lia. reflexivity.
Qed.
