From Verif Require Import Base BaseLemmas CharconvModel CharconvSpec CharconvProofs CharconvProofs5 SubstrModel SubstrSpec SubstrProofs SubstrProofs2 SubstrProofs3 SubstrProofs4 SpanNumModel SpanNumSpec SpanNumProofs5 SpanNumProofs6 Base64Model Base64Spec Base64Proofs Base64Props FormatModel FormatSpec FormatProofs.

(** ** argument lists *)
Fixpoint room_ok (n : Z) (al : list arg) (ts : list (list Z)) : Prop :=
  match al, ts with
  | a :: al, t :: ts => safe_in n a /\ room_ok (if len t <=? n then n - len t else 0) al ts
  | _, _ => True
  end.
Lemma room_simple al ts n : Forall simple al -> room_ok n al ts.
Proof. intros H. revert n ts. induction H; intros n [|t ts]; cbn; auto. split; auto. apply si_simple; auto. Qed.
Lemma room_0 al ts : Forall2 arg_text al ts -> room_ok 0 al ts.
Proof.
  induction 1; cbn [room_ok]; auto. split; [eapply safe_in_0; eauto|]. destruct (Z.leb_spec (len y) 0); auto.
  pose proof (len_nonneg y). replace (0 - len y) with 0 by lia. auto.
Qed.
Lemma app_inj_len (a b c d : list Z) : a ++ b = c ++ d -> len a = len c -> a = c /\ b = d.
Proof.
  intros E L. assert (L' : length a = length c) by (unfold len in L; lia). clear L. revert c E L'.
  induction a as [|x a IH]; intros [|y c] E L; cbn in L; try discriminate L; auto.
  injection E as <- E. destruct (IH c E); [lia|]. subst. auto.
Qed.

Lemma vsub_eq b n : 0 <= n <= vl b -> vl b < 2 ^ 64 -> vsub b n = View (vo b + n) (vl b - n).
Proof. intros. unfold vsub. rewrite u64_id by lia. reflexivity. Qed.
Lemma null_vin (m m' : list Z) : len m' = len m -> vin (View (len m) 0) m'.
Proof. intros H. unfold vin. cbn. pose proof (len_nonneg m). lia. Qed.
Lemma null_outside (m m1 m2 : list Z) b : len m1 = len m -> same_outside m1 m2 (View (len m) 0) -> same_outside m1 m2 b.
Proof. intros H [H1 H2]. split; auto. intros k K _. apply H2; auto. cbn [vo vl]. lia. Qed.

Lemma u64_add_r a b : u64 (a + u64 b) = u64 (a + b).
Proof. unfold u64. apply Z.add_mod_idemp_r. lia. Qed.
Lemma u64_add_l a b : u64 (u64 a + b) = u64 (a + b).
Proof. unfold u64. apply Z.add_mod_idemp_l. lia. Qed.

Lemma cat_fits dbg al ts : Forall2 arg_text al ts -> forall m b, vin b m -> vl b < 2 ^ 64 -> len (concat ts) <= vl b ->
  cat dbg m b al = Ok (blit m (vo b) (concat ts), len (concat ts)).
Proof.
  induction 1 as [|a t al ts Ha _ IH]; intros m b Hb H64 Hl; cbn [cat concat] in *.
  - destruct Hb. rewrite blit_nil by lia. reflexivity.
  - rewrite len_app in *. pose proof (len_nonneg t). pose proof (len_nonneg (concat ts)).
    rewrite (to_chars_fits dbg a t) by (auto; lia). cbn [bind]. unfold advance. replace (len t <=? vl b) with true by lia.
    destruct Hb as (B1 & B2 & B3).
    assert (LB : len (blit m (vo b) t) = len m) by (apply len_blit; lia).
    rewrite vsub_eq by lia. rewrite IH; [|unfold vin; cbn [vo vl]; lia|cbn [vl]; lia|cbn [vl]; lia].
    cbn [bind vo]. rewrite blit_app by lia. rewrite u64_id by lia. reflexivity.
Qed.

Lemma contents_outside m m' v w : same_outside m m' w -> vin v m -> vo v + vl v <= vo w \/ vo w + vl w <= vo v -> contents m' v = contents m v.
Proof.
  intros [H1 H2] (A & B & C) D. unfold contents.
  apply mem_ext; [rewrite !len_slice by lia; auto|]. intros k Hk. rewrite len_slice in Hk by lia.
  unfold slice. rewrite !nth_firstn_lt by lia. rewrite !nth_skipn.
  replace (Z.to_nat (vo v) + Z.to_nat k)%nat with (Z.to_nat (vo v + k)) by lia. apply H2; lia.
Qed.
Lemma slice_split (m : list Z) i a b : 0 <= i -> 0 <= a -> 0 <= b -> slice m i (a + b) = slice m i a ++ slice m (i + a) b.
Proof.
  intros. unfold slice. rewrite Z2Nat.inj_add, (Z2Nat.inj_add i a) by lia.
  rewrite <- (firstn_skipn (Z.to_nat a) (firstn (Z.to_nat a + Z.to_nat b) (skipn (Z.to_nat i) m))).
  rewrite firstn_firstn, Nat.min_l by lia. f_equal.
  rewrite skipn_firstn_comm, skipn_skipn. f_equal; [lia|]. f_equal. lia.
Qed.

Lemma cat_any dbg al ts : Forall2 arg_text al ts -> forall m b, vin b m -> vl b < 2 ^ 64 -> room_ok (vl b) al ts ->
  len (concat ts) < 2 ^ 64 ->
  exists m', cat dbg m b al = Ok (m', len (concat ts)) /\ same_outside m m' b /\
    forall ts1 ts2, ts = ts1 ++ ts2 -> len (concat ts1) <= vl b -> contents m' (View (vo b) (len (concat ts1))) = concat ts1.
Proof.
  induction 1 as [|a t al ts Ha Hall IH]; intros m b Hb H64 Hr Hl; cbn [cat concat room_ok] in *.
  - exists m. split; [reflexivity|]. split; [apply same_outside_refl|]. intros [|] ? E; [|discriminate]. intros _. reflexivity.
  - rewrite len_app in *. pose proof (len_nonneg t). pose proof (len_nonneg (concat ts)). destruct Hr as [Hs Hr].
    destruct (Z.leb_spec (len t) (vl b)) as [L|L].
    + rewrite (to_chars_fits dbg a t) by (auto; lia). cbn [bind]. unfold advance. replace (len t <=? vl b) with true by lia.
      pose proof Hb as (B1 & B2 & B3).
      assert (LB : len (blit m (vo b) t) = len m) by (apply len_blit; lia).
      rewrite vsub_eq by lia. destruct (IH (blit m (vo b) t) (View (vo b + len t) (vl b - len t))) as (m' & E & O & P);
        [unfold vin; cbn [vo vl]; lia|cbn [vl]; lia|exact Hr|lia|].
      rewrite E. cbn [bind]. rewrite u64_id by lia. exists m'. split; auto. cbn [vo vl] in *. split.
      { apply (outside_trans _ (blit m (vo b) t)); [apply same_outside_blit; auto|].
        eapply outside_sub; [exact O| |]; cbn; lia. }
      intros [|t1 ts1] ts2 E'; [intros; reflexivity|]. injection E' as <- E'. cbn [concat]. rewrite len_app. intros L'.
      pose proof (len_nonneg (concat ts1)).
      unfold contents. cbn [vo vl]. rewrite slice_split by lia. f_equal.
      * pose proof (contents_outside _ _ (View (vo b) (len t)) _ O) as X. unfold contents in X. cbn [vo vl] in X.
        rewrite X; [|unfold vin; cbn; lia|lia]. apply slice_blit_same; lia.
      * apply (P ts1 ts2); auto. lia.
    + destruct (to_chars_small dbg a t Ha m b Hb H64 Hs L) as (m1 & E1 & O1). rewrite E1. cbn [bind]. unfold advance.
      replace (len t <=? vl b) with false by lia. destruct (IH m1 (View (len m1) 0)) as (m' & E & O & _);
        [apply null_vin; auto|reflexivity|exact Hr|lia|].
      rewrite E. cbn [bind]. rewrite u64_id by lia. exists m'. split; auto. split.
      { apply (outside_trans _ m1); auto. eapply null_outside; eauto. }
      intros [|t1 ts1] ts2 E'; [intros; reflexivity|]. injection E' as <- E'. cbn [concat]. rewrite len_app. intros L'.
      pose proof (len_nonneg (concat ts1)). lia.
Qed.

(** ** catsep *)
Lemma catsep_more_eq dbg sep al : forall m b,
  catsep_more dbg m b sep al = cat dbg m b (flat_map (fun a => [sep; a]) al).
Proof.
  induction al as [|a al IH]; intros m b; [reflexivity|]. cbn [catsep_more flat_map app cat].
  destruct (to_chars dbg m b sep) as [[m1 r1]| |]; cbn [bind]; auto.
  destruct (to_chars dbg m1 (advance m1 b r1) a) as [[m2 r2]| |]; cbn [bind]; auto. rewrite IH.
  destruct (cat dbg m2 (advance m2 (advance m1 b r1) r2) _) as [[m3 r3]| |]; cbn [bind]; auto.
  rewrite u64_add_l, u64_add_r, Z.add_assoc. reflexivity.
Qed.
Lemma intersperse_cons {A} (sep a : A) l : intersperse sep (a :: l) = a :: flat_map (fun x => [sep; x]) l.
Proof. revert a. induction l as [|b l IH]; intros a; [reflexivity|]. change (intersperse sep (a :: b :: l)) with (a :: sep :: intersperse sep (b :: l)). rewrite IH. reflexivity. Qed.
Lemma catsep_eq dbg m b sep al : catsep dbg m b sep al = cat dbg m b (intersperse sep al).
Proof.
  destruct al as [|a al]; [reflexivity|]. rewrite intersperse_cons. cbn [catsep cat].
  destruct (to_chars dbg m b a) as [[m1 r1]| |]; cbn [bind]; auto. rewrite catsep_more_eq. reflexivity.
Qed.
Lemma intersperse_text sep st al ts : arg_text sep st -> Forall2 arg_text al ts -> Forall2 arg_text (intersperse sep al) (intersperse st ts).
Proof.
  intros Hs H. destruct H as [|a t al ts Ha H]; [constructor|]. rewrite !intersperse_cons. constructor; auto.
  induction H; cbn; constructor; auto.
Qed.
Lemma intersperse_in {A} (sep : A) l : Forall (fun x => x = sep \/ In x l) (intersperse sep l).
Proof.
  destruct l as [|a l]; [constructor|]. rewrite intersperse_cons. constructor; [right; left; auto|].
  apply Forall_forall. intros x Hx. apply in_flat_map in Hx. destruct Hx as (y & Hy & [<-|[<-|[]]]); auto. right. right. auto.
Qed.

(** ** format *)
Lemma occurs_mid s pat a b : s = a ++ pat ++ b -> occurs s pat (len a).
Proof. intros ->. exists a, b. auto. Qed.
Lemma find_placeholder f : exists o, find f (s2z "{}") (Some 0) = Ok o /\
  match o with
  | None => ~ has_placeholder f
  | Some p => exists pre post, first_placeholder f pre post /\ p = len pre
  end.
Proof.
  pose proof (len_nonneg f). destruct (find_ok f (s2z "{}") 0) as (o & E & Ho); [lia|]. exists o. split; auto.
  destruct o as [p|]; cbn in Ho.
  - destruct Ho as (H1 & (a & b & H2 & H3) & H4). exists a, b. split; auto. split; auto.
    intros a' b' E'. destruct (Z.leb_spec (len a) (len a')); auto. exfalso. apply (H4 (len a')); [pose proof (len_nonneg a'); lia|].
    eapply occurs_mid; eauto.
  - intros (a & b & E'). apply (Ho (len a)). { subst f. rewrite !len_app. pose proof (len_nonneg a). pose proof (len_nonneg (s2z "{}")). pose proof (len_nonneg b). lia. }
    eapply occurs_mid; eauto.
Qed.
Lemma first_placeholder_fun f p1 q1 p2 q2 : first_placeholder f p1 q1 -> first_placeholder f p2 q2 -> p1 = p2 /\ q1 = q2.
Proof.
  intros [E1 H1] [E2 H2]. pose proof (H1 _ _ E2). pose proof (H2 _ _ E1). rewrite E1 in E2.
  apply app_inj_len in E2; [|lia]. destruct E2 as [<- E2]. apply app_inv_head in E2. auto.
Qed.
