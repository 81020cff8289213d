From Verif Require Import Base BaseLemmas ScanModel CharconvModel CharconvSpec CharconvProofs CharconvProofs2 CharconvProofs3 CharconvProofs4 CharconvProofs5 SubstrModel SubstrSpec SubstrProofs SubstrProofs2 SubstrProofs3 SubstrProofs4 SubstrProofs5 SubstrProofs6 SpanNumModel SpanNumSpec SpanNumProofs SpanNumProofs2 SpanNumProofs3 SpanNumProofs4 SpanNumProofs5.

(** ** strings *)
Lemma to_chars_str_eq m b s : vin b m ->
  to_chars_str m b s = Ok (blit m (vo b) (firstn (Z.to_nat (Z.min (vl b) (len s))) s), len s).
Proof.
  intros (Ho & Hl & Hi). pose proof (nonneg_len s). unfold to_chars_str.
  replace (if vl b <? len s then vl b else len s) with (Z.min (vl b) (len s)) by (destruct (Z.ltb_spec (vl b) (len s)); lia).
  set (n := Z.min (vl b) (len s)). destruct (split_at s n) as (x & y & -> & Lx & Ly); [lia|].
  assert (FN : firstn (Z.to_nat n) (x ++ y) = x).
  { rewrite <- Lx. unfold len. rewrite Nat2Z.id, firstn_app, Nat.sub_diag, firstn_O, app_nil_r. apply firstn_all. }
  rewrite FN. destruct (Z.ltb_spec 0 n).
  - rewrite <- Lx. pose proof (rds_mid [] x y) as R. change (len []) with 0 in R. cbn [app] in R. rewrite R. cbn [bind].
    rewrite wrs_ok by lia. reflexivity.
  - assert (x = []) as -> by (apply len_0_nil; pose proof (nonneg_len x); lia). rewrite blit_nil by lia. reflexivity.
Qed.
Lemma to_chars_str_ok m b s n : vin b m -> n = Z.min (vl b) (len s) -> exists m', to_chars_str m b s = Ok (m', len s) /\
  same_outside m m' (View (vo b) n) /\ exists r, s = contents m' (View (vo b) n) ++ r.
Proof.
  intros Hb ->. rewrite to_chars_str_eq by auto. set (n := Z.min (vl b) (len s)). destruct Hb as (Ho & Hl & Hi). pose proof (nonneg_len s).
  eexists; split; [reflexivity|].
  assert (L : len (firstn (Z.to_nat n) s) = n) by (unfold len in *; rewrite firstn_length; lia).
  split.
  - apply (same_outside_blit m (View (vo b) n)); cbn; [unfold vin; cbn; lia|lia].
  - exists (skipn (Z.to_nat n) s). unfold contents. cbn [vo vl].
    pose proof (slice_blit_same m (vo b) (firstn (Z.to_nat n) s)) as X. rewrite L in X. rewrite X by lia. symmetry. apply firstn_skipn.
Qed.
Lemma from_chars_substr_ok s d v : vin v d -> len s <= vl v ->
  from_chars_substr s d v = Ok (true, blit d (vo v) s, View (vo v) (len s)) /\ contents (blit d (vo v) s) (View (vo v) (len s)) = s.
Proof.
  intros (Ho & Hl & Hi) H. pose proof (nonneg_len s). unfold from_chars_substr. replace (len s <=? vl v) with true by lia.
  split; [|unfold contents; cbn [vo vl]; apply slice_blit_same; lia]. destruct (Z.ltb_spec 0 (len s)).
  - rewrite wrs_ok by lia. reflexivity.
  - assert (s = []) as -> by (apply len_0_nil; lia). rewrite blit_nil by lia. reflexivity.
Qed.
Lemma from_chars_substr_small s d v : vl v < len s -> from_chars_substr s d v = Ok (false, d, v).
Proof. intros H. unfold from_chars_substr. replace (len s <=? vl v) with false by lia. reflexivity. Qed.
Lemma roundtrip_str m b s d v m' n : vin b m -> vin v d -> to_chars_str m b s = Ok (m', n) -> n <= vl b -> n <= vl v ->
  exists d' v', from_chars_substr (contents m' (View (vo b) n)) d v = Ok (true, d', v') /\ contents d' v' = s.
Proof.
  intros Hb Hv E H1 H2. destruct (to_chars_str_ok m b s _ Hb eq_refl) as (m2 & E2 & _ & r & Hr). rewrite E2 in E. injection E as -> <-.
  rewrite Z.min_r in Hr by lia.
  assert (C : contents m' (View (vo b) (len s)) = s).
  { assert (r = []) as ->; [|rewrite app_nil_r in Hr; auto]. apply len_0_nil.
    assert (X : len s = len (contents m' (View (vo b) (len s))) + len r) by (rewrite Hr at 1; apply len_app).
    pose proof (nonneg_len r). pose proof (nonneg_len s).
    assert (len (contents m' (View (vo b) (len s))) = len s); [|lia].
    rewrite to_chars_str_eq in E2 by auto. injection E2 as <-. destruct Hb as (Ho & Hl & Hi).
    unfold contents, slice, len. cbn [vo vl]. rewrite firstn_length, skipn_length.
    assert (LB : len (blit m (vo b) (firstn (Z.to_nat (Z.min (vl b) (len s))) s)) = len m).
    { apply len_blit; [lia|]. unfold len in *. rewrite firstn_length. lia. }
    unfold len in LB at 1. unfold len in *. lia. }
  rewrite C. destruct (from_chars_substr_ok s d v Hv H2) as [E3 E4]. eauto.
Qed.

(** ** first words *)
Lemma fnes_word s : small s -> exists v, first_word s v /\ first_non_empty_span s = Ok v.
Proof.
  intros Hs. destruct (word_split s) as (a & w & b & -> & Ha & Hw & Hb & Hwb). rewrite fnes_ok by auto.
  eexists; split; [|reflexivity]. exists a, w, b. split; auto. split; auto. split; auto. split; auto. split; auto. split.
  - intros ->. reflexivity.
  - intros N. destruct (Z.eqb_spec (len w) 0) as [E|E]; [exfalso; apply N, len_0_nil; auto|reflexivity].
Qed.
Lemma first_csubstr_ok s v0 : small s -> exists v, first_word s v /\
  from_chars_first_csubstr s v0 = Ok (if vl v =? 0 then (None, v0) else (Some (vo v + vl v), v)).
Proof.
  intros Hs. destruct (fnes_word s Hs) as (v & H & E). exists v. split; auto. unfold from_chars_first_csubstr. rewrite E. cbn [bind].
  destruct (vl v =? 0); reflexivity.
Qed.
Lemma first_substr_ok s d (v : view) : small s -> vin v d -> exists x, first_word s x /\
  (vl x = 0 -> from_chars_first_substr s d v = Ok (None, d, v)) /\
  (0 < vl x <= vl v -> from_chars_first_substr s d v = Ok (Some (vo x + vl x), blit d (vo v) (contents s x), v)) /\
  (vl v < vl x -> exists d', from_chars_first_substr s d v = Ok (None, d', v) /\ same_outside d d' v).
Proof.
  intros Hs (Ho & Hl & Hi). destruct (fnes_word s Hs) as (x & H & E). exists x. split; auto.
  assert (VX : exists a w b, s = a ++ w ++ b /\ (vl x <> 0 -> x = View (len a) (len w)) /\ 0 <= vl x).
  { destruct H as (a & w & b & Es & _ & _ & _ & _ & H1 & H2). exists a, w, b. split; auto.
    destruct w as [|c w]; [rewrite H1 by auto; split; [lia|lia]|]. rewrite H2 by discriminate. split; auto. cbn [vl]. apply nonneg_len. }
  destruct VX as (a & w & b & Es & VX & VN).
  unfold from_chars_first_substr. rewrite E. cbn [bind]. split; [|split].
  - intros ->. reflexivity.
  - intros HX. rewrite VX by lia. rewrite VX in HX by lia. cbn [vl vo] in *. replace (len w =? 0) with false by lia.
    replace (vl v <? len w) with false by lia. replace (0 <? len w) with true by lia.
    rewrite (contents_app s a w b Es). rewrite Es, rds_mid. cbn [bind]. rewrite wrs_ok by lia. reflexivity.
  - intros HX. rewrite VX by lia. rewrite VX in HX by lia. cbn [vl vo] in *. replace (len w =? 0) with false by lia.
    replace (vl v <? len w) with true by lia. destruct (Z.ltb_spec 0 (vl v)).
    + destruct (split_at w (vl v)) as (w1 & w2 & -> & L1 & L2); [lia|]. rewrite Es, <- app_assoc, <- L1, rds_mid. cbn [bind].
      rewrite wrs_ok by lia. cbn [bind]. eexists; split; [reflexivity|]. apply same_outside_blit; [unfold vin; lia|lia].
    + eexists; split; [reflexivity|]. split; auto.
Qed.

(** ** from_chars_first of a bool *)
Lemma first_bool_word s b v0 : bytes s -> s <> [] -> len s < 2 ^ 31 -> Forall (fun c => ~ blank c) s -> bool_text s b ->
  from_chars_first_bool s v0 = Ok (Some (len s), b).
Proof.
  intros Hs N Hl Hw Hb. unfold from_chars_first_bool.
  pose proof (fnes_ok [] s []) as F. cbn [app] in F. rewrite app_nil_r in F.
  rewrite F by (auto; unfold small; lia). cbn [bind].
  destruct (Z.eqb_spec (len s) 0) as [E|E]; [exfalso; apply N, len_0_nil, E|]. cbn [vl]. replace (len s =? 0) with false by lia.
  rewrite (from_chars_bool_text s b) by auto. reflexivity.
Qed.
Lemma signed_nodelim s v : signed_text s v -> Forall (fun c => ~ delim c) s.
Proof.
  intros [t x H|t x H]; [apply (unsigned_nodelim t x H)|]. constructor; [nodelim|apply (unsigned_nodelim t x H)].
Qed.
Lemma first_bool_blank s v0 : bytes s -> len s < 2 ^ 31 -> (exists c, In c s /\ blank c) -> (forall r, s <> ch "+" :: r) ->
  from_chars_first_bool s v0 = Ok (None, v0).
Proof.
  intros Hs Hl (c & Ic & Bc) Hp. unfold from_chars_first_bool. destruct (fnes_word s) as (v & _ & E); [unfold small; lia|].
  rewrite E. cbn [bind]. destruct (vl v =? 0); auto. rewrite from_chars_bool_reject; auto.
  - intros b I. cbn in I. repeat (destruct I as [I|I]; [injection I as <- <-; revert Ic Bc; unfold blank; cbn; lia|]). destruct I.
  - intros (x & H). apply signed_nodelim in H. rewrite Forall_forall in H. apply (H c Ic), blank_delim, Bc.
Qed.
