(** Proofs about cat, catsep and format of arguments of any kinds, in a buffer and in a container. *)
From Verif Require Import Base BaseLemmas ScanModel SubstrModel SubstrSpec SubstrProofs SubstrProofs2 SubstrProofs3 SubstrProofs4 SpanNumModel SpanNumSpec SpanNumProofs5 SpanNumProofs6 CharconvModel CharconvSpec CharconvProofs CharconvProofs2 CharconvProofs5 Base64Model.
From Verif Require Import MemUtilProofs2 FormatModel FormatSpec FormatProofs FormatProofs2 FormatProofs3.
From Verif Require Import RealModel RealSpec RealProofs3.
From Coq Require Import Lia.
Open Scope Z_scope.

(** ** cat and catrs of any arguments *)
Lemma cat_catw dbg al : forall m b, cat dbg m b al = catw (map (fun a m b => to_chars dbg m b a) al) m b.
Proof.
  induction al as [|a al IH]; intros m b; cbn [cat map catw]; [reflexivity|]. destruct (to_chars dbg m b a) as [[m1 n1]| |]; cbn [bind]; [|reflexivity|reflexivity].
  now rewrite IH.
Qed.
Lemma catw_writes ws ts : Forall2 (fun w t => writes w t 1) ws ts -> len (concat ts) + 18 * len ts < 2 ^ 62 -> puts (catw ws) (concat ts) (len (concat ts) + 18 * len ts).
Proof.
  intros H B m b V L. revert B m b V L. induction H as [|w t ws ts W HF IH]; intros B m b V L; cbn [catw concat] in *.
  - exists m, 0. destruct V as [V1 [V2 V3]]. change (len (@nil Z)) with 0 in *. change (len (@nil (list Z))) with 0 in *.
    split; [reflexivity|]. split; [apply same_outside_refl|]. split; [lia|]. split; [|lia]. intros _. split; reflexivity.
  - rewrite len_app, len_cons in *. pose proof (len_nonneg t). pose proof (len_nonneg (concat ts)). pose proof (len_nonneg ts).
    destruct (W m b V L) as [m1 [n1 [-> [S1 [R1 [A1 C1]]]]]]. cbn [bind]. assert (V1 := outside_vin m m1 b b S1 V). destruct V as [VA [VB VC]]. destruct V1 as [_ [_ VC1]].
    unfold advance. destruct (Z.leb_spec n1 (vl b)) as [F|F].
    + destruct (A1 F) as [E1 E2]. rewrite vsub_eq by lia.
      destruct (IH ltac:(lia) m1 (View (vo b + n1) (vl b - n1))) as [m2 [n2 [-> [S2 [R2 [A2 C2]]]]]]; [unfold vin; cbn [vo vl]; lia|cbn [vl]; lia|].
      cbn [vo vl] in *. cbn [bind]. rewrite u64_id by lia. exists m2, (n1 + n2). split; [reflexivity|].
      split; [apply (outside_trans _ _ _ _ S1); eapply outside_sub; [exact S2| |]; cbn [vo vl]; lia|]. split; [lia|]. split.
      * intros K. destruct (A2 ltac:(lia)) as [E3 E4]. split; [lia|]. rewrite slice_split by lia. f_equal; [|exact E4].
        rewrite <- E2. pose proof (contents_outside _ _ (View (vo b) n1) _ S2) as X. unfold contents in X. cbn [vo vl] in X. apply X; [unfold vin; cbn [vo vl]; lia|lia].
      * intros K. specialize (C2 ltac:(lia)). lia.
    + destruct (IH ltac:(lia) m1 (View (len m1) 0)) as [m2 [n2 [-> [S2 [R2 _]]]]]; [apply null_vin; reflexivity|cbn [vl]; lia|].
      cbn [vl] in R2. cbn [bind]. rewrite u64_id by lia. exists m2, (n1 + n2). split; [reflexivity|].
      split; [apply (outside_trans _ _ _ _ S1); eapply null_outside; [|exact S2]; reflexivity|]. split; [lia|]. split; lia.
Qed.
Lemma puts_ext W W' out k : (forall m b, W m b = W' m b) -> puts W out k -> puts W' out k.
Proof. intros E P m b V L. destruct (P m b V L) as [m' [n [H R]]]. exists m', n. rewrite <- E. auto. Qed.

(** ** containers *)
Lemma rs_loop_puts W out k : puts W out k -> 0 <= k -> len out + k < 2 ^ 61 ->
  forall fuel c, len c < 2 ^ 62 -> len out + 1 - len c < Z.of_nat fuel -> (0 < fuel)%nat -> rs_loop fuel W c = Ok out.
Proof.
  intros P KP B. induction fuel as [|fuel IH]; intros c LC F FP; [lia|]. cbn [rs_loop].
  assert (VC : vin (full c) c) by (unfold vin, full; cbn [vo vl]; pose proof (len_nonneg c); lia).
  pose proof (len_nonneg out). pose proof (len_nonneg c).
  destruct (P c (full c) VC) as [c' [n [-> [S [R [A C]]]]]]; [cbn [full vl]; lia|]. cbn [full vo vl] in *. cbn [bind].
  destruct S as [SL _]. destruct (Z.ltb_spec (len c) n) as [K|K].
  - assert (len c < len out + 1) by lia. apply IH; rewrite ?len_resize by lia; lia.
  - destruct (A K) as [E1 E2]. f_equal. unfold resize. replace (Z.to_nat (n - len c')) with O by lia. cbn [repeat]. rewrite app_nil_r.
    unfold slice in E2. cbn [Z.to_nat skipn] in E2. exact E2.
Qed.
Lemma firstn_outside m m' pos l : same_outside m m' (View pos l) -> 0 <= pos <= len m -> firstn (Z.to_nat pos) m' = firstn (Z.to_nat pos) m.
Proof.
  intros S R. pose proof (contents_outside m m' (View 0 pos) _ S) as X. unfold contents, slice in X. cbn [vo vl Z.to_nat skipn] in X.
  apply X; [unfold vin; cbn [vo vl]; lia|lia].
Qed.
Lemma rs_append_puts W out k pos pre : puts W out k -> 0 <= k -> len pre = pos -> len pre + len out + k < 2 ^ 61 ->
  forall fuel c, firstn (Z.to_nat pos) c = pre -> pos <= len c -> len c < 2 ^ 62 -> len out + 1 - (len c - pos) < Z.of_nat fuel -> (0 < fuel)%nat ->
  rs_append_loop fuel W pos c = Ok (pre ++ out, View pos (len out)).
Proof.
  intros P KP LP B. pose proof (len_nonneg pre). pose proof (len_nonneg out). induction fuel as [|fuel IH]; intros c PC LPC LC F FP; [lia|]. cbn [rs_append_loop].
  rewrite sub1_ok by lia. cbn [bind]. assert (VC : vin (View pos (len c - pos)) c) by (unfold vin; cbn [vo vl]; lia).
  destruct (P c _ VC) as [c' [n [-> [S [R [A C]]]]]]; [cbn [vl]; lia|]. cbn [vo vl] in *. cbn [bind].
  assert (FO := firstn_outside _ _ _ _ S ltac:(lia)). rewrite PC in FO. assert (LCC : len c' = len c) by (destruct S; congruence). rewrite u64_id by lia.
  destruct (Z.ltb_spec (len c - pos) n) as [K|K].
  - apply IH; rewrite ?len_resize by lia; try lia. rewrite <- FO. unfold resize. rewrite firstn_app, firstn_firstn, firstn_length.
    replace (Nat.min (Z.to_nat pos) (Z.to_nat (pos + n))) with (Z.to_nat pos) by lia.
    replace (Z.to_nat pos - Nat.min (Z.to_nat (pos + n)) (length c'))%nat with O by (unfold len in *; lia). rewrite firstn_O, app_nil_r. reflexivity.
  - destruct (A K) as [E1 E2].
    assert (E : resize c' (pos + n) = pre ++ out).
    { unfold resize. replace (Z.to_nat (pos + n - len c')) with O by lia. cbn [repeat]. rewrite app_nil_r.
      assert (X := slice_split c' 0 pos n ltac:(lia) ltac:(lia) ltac:(lia)). unfold slice in X, E2. cbn [Z.to_nat skipn] in X. rewrite Z.add_0_l in X. rewrite X.
      f_equal; [exact FO|exact E2]. }
    rewrite E. rewrite range_ok by (rewrite ?len_app; lia). cbn [bind]. rewrite len_app. do 3 f_equal. lia.
Qed.

(** ** catsep and format *)
Lemma catsepw_more_eq sep ws : forall m b, catsepw_more sep ws m b = catw (flat_map (fun w => [sep; w]) ws) m b.
Proof.
  induction ws as [|w ws IH]; intros m b; [reflexivity|]. cbn [catsepw_more flat_map app catw].
  destruct (sep m b) as [[m1 r1]| |]; cbn [bind]; auto.
  destruct (w m1 (advance m1 b r1)) as [[m2 r2]| |]; cbn [bind]; auto. rewrite IH.
  destruct (catw _ m2 (advance m2 (advance m1 b r1) r2)) as [[m3 r3]| |]; cbn [bind]; auto.
  rewrite u64_add_l, u64_add_r, Z.add_assoc. reflexivity.
Qed.
Lemma catsepw_eq sep ws m b : catsepw sep ws m b = catw (intersperse sep ws) m b.
Proof.
  destruct ws as [|w ws]; [reflexivity|]. rewrite intersperse_cons. cbn [catsepw catw].
  destruct (w m b) as [[m1 r1]| |]; cbn [bind]; auto. rewrite catsepw_more_eq. reflexivity.
Qed.
Lemma intersperse_F2 {A B} (R : A -> B -> Prop) x y l l' : R x y -> Forall2 R l l' -> Forall2 R (intersperse x l) (intersperse y l').
Proof. intros Hs H. destruct H as [|a t al ts Ha H]; [constructor|]. rewrite !intersperse_cons. constructor; auto. induction H; cbn; constructor; auto. Qed.
Lemma intersperse_len {A} (x : A) l : len (intersperse x l) <= 2 * len l.
Proof.
  destruct l as [|a l]; [cbn; lia|]. rewrite intersperse_cons, !len_cons. induction l as [|c l IH]; [cbn; lia|].
  cbn [flat_map app]. rewrite !len_cons. lia.
Qed.
Definition wstr (s : list Z) : conv := fun m b => to_chars_str m b s.
Lemma wstr_writes s : writes (wstr s) s 1.
Proof. apply writes_slack; [|lia]. exact (arg_writes true (AStr s) s (at_str s) I). Qed.
Lemma catw_one m b f : len f < 2 ^ 64 -> catw [wstr f] m b = to_chars_str m b f.
Proof.
  intros H. cbn [catw]. unfold wstr. destruct (to_chars_str m b f) as [[m1 n]| |] eqn:E; cbn [bind]; auto.
  apply to_chars_str_len in E. subst n. pose proof (len_nonneg f). rewrite u64_id by lia. rewrite Z.add_0_r. reflexivity.
Qed.
Lemma formatw_eq f ts out : fmt_subst f ts out -> small f -> forall ws, Forall2 (fun w t => writes w t 1) ws ts ->
  exists ps pts, (forall m b, formatw f ws m b = catw ps m b) /\ Forall2 (fun w t => writes w t 1) ps pts /\ concat pts = out /\ len pts <= 2 * len ts + 1.
Proof.
  induction 1 as [f|f ts N|f pre post t ts out P H IH]; intros L ws HW.
  - inversion HW; subst. exists [wstr f], [f]. split; [intros; now rewrite catw_one by (unfold small in *; lia)|].
    split; [repeat constructor; apply wstr_writes|]. split; [cbn; apply app_nil_r|cbn; lia].
  - exists [wstr f], [f]. split.
    + intros m b. rewrite catw_one by (unfold small in *; lia). destruct ws as [|w ws]; [reflexivity|]. cbn [formatw].
      destruct (find_placeholder f) as (o & E & Ho). rewrite E. cbn [bind]. destruct o; [|reflexivity].
      exfalso. destruct Ho as (x & y & [E' _] & _). apply N. exists x, y. auto.
    + split; [repeat constructor; apply wstr_writes|]. split; [cbn; apply app_nil_r|]. pose proof (len_nonneg ts). change (len [f]) with 1. lia.
  - inversion HW as [|w ? ws' ? Hw HW']; subst. pose proof (placeholder_len _ _ _ P) as PL. pose proof (len_nonneg pre). pose proof (len_nonneg post).
    destruct (IH ltac:(unfold small in *; lia) ws' HW') as (ps & pts & E & FP & CC & LL).
    exists (wstr pre :: w :: ps), (pre :: t :: pts). split; [|split; [constructor; [apply wstr_writes|constructor; auto]|split; [cbn; now rewrite CC|rewrite !len_cons; lia]]].
    intros m b. cbn [formatw]. destruct (find_placeholder f) as (o & Ef & Ho). rewrite Ef. cbn [bind].
    destruct o as [p|]; [|exfalso; destruct P as [P _]; apply Ho; exists pre, post; auto].
    destruct Ho as (x & y & P' & ->). destruct (first_placeholder_fun _ _ _ _ _ P' P) as [-> ->]. clear P'.
    rewrite sub2_ok by (unfold small in *; lia). cbn [bind].
    assert (C : contents f (View 0 (len pre)) = pre).
    { destruct P as [-> _]. apply (contents_app _ [] pre (s2z "{}" ++ post)); auto. }
    rewrite C. cbn [catw]. unfold wstr at 1.
    destruct (to_chars_str m b pre) as [[m1 n1]| |]; cbn [bind]; auto.
    destruct (w m1 (advance m1 b n1)) as [[m2 n2]| |]; cbn [bind]; auto.
    rewrite sub1_ok by (unfold small in *; lia). cbn [bind].
    assert (C2 : contents f (View (len pre + 2) (len f - (len pre + 2))) = post).
    { rewrite PL. replace (len pre + 2 + len post - (len pre + 2)) with (len post) by lia. destruct P as [-> _].
      replace (len pre + 2) with (len (pre ++ s2z "{}")) by (rewrite len_app; reflexivity).
      apply (contents_app _ (pre ++ s2z "{}") post []). rewrite app_nil_r, app_assoc. reflexivity. }
    rewrite C2, E. destruct (catw ps m2 _) as [[m3 n3]| |]; cbn [bind]; auto. rewrite u64_add_l, u64_add_r, Z.add_assoc. reflexivity.
Qed.
(** the model of the other arguments *)
Lemma catsep_catw dbg sep al m b : catsep dbg m b sep al = catsepw (fun m b => to_chars dbg m b sep) (map (fun a m b => to_chars dbg m b a) al) m b.
Proof.
  assert (MORE : forall al m b, catsep_more dbg m b sep al = catsepw_more (fun m b => to_chars dbg m b sep) (map (fun a m b => to_chars dbg m b a) al) m b).
  { clear. induction al as [|a al IH]; intros m b; cbn [catsep_more map catsepw_more]; [reflexivity|]. destruct (to_chars dbg m b sep) as [[m1 n1]| |]; cbn [bind]; auto.
    destruct (to_chars dbg m1 (advance m1 b n1) a) as [[m2 n2]| |]; cbn [bind]; auto. now rewrite IH. }
  destruct al as [|a al]; [reflexivity|]. cbn [catsep map catsepw]. destruct (to_chars dbg m b a) as [[m1 n1]| |]; cbn [bind]; auto. now rewrite MORE.
Qed.
Lemma format_catw dbg al : forall f m b, format dbg m b f al = formatw f (map (fun a m b => to_chars dbg m b a) al) m b.
Proof.
  induction al as [|a al IH]; intros f m b; cbn [format map formatw]; [reflexivity|]. destruct (find f (s2z "{}") (Some 0)) as [[p|]| |]; cbn [bind]; auto.
  destruct (sub2 (len f) 0 p); cbn [bind]; auto. destruct (to_chars_str m b _) as [[m1 n1]| |]; cbn [bind]; auto.
  destruct (to_chars dbg m1 (advance m1 b n1) a) as [[m2 n2]| |]; cbn [bind]; auto. destruct (sub1 (len f) (p + 2)); cbn [bind]; auto. now rewrite IH.
Qed.

(** ** the three, as conversions *)
Lemma catsepw_writes sep st ws ts : writes sep st 1 -> Forall2 (fun w t => writes w t 1) ws ts -> len (concat (intersperse st ts)) + 36 * len ts < 2 ^ 62 ->
  puts (catsepw sep ws) (concat (intersperse st ts)) (len (concat (intersperse st ts)) + 36 * len ts).
Proof.
  intros HS HW B. assert (LI := intersperse_len st ts). pose proof (len_nonneg ts).
  apply (puts_ext (catw (intersperse sep ws))); [intros; symmetry; apply catsepw_eq|].
  assert (P := catw_writes _ _ (intersperse_F2 _ sep st ws ts HS HW) ltac:(lia)).
  intros m b V L. destruct (P m b V L) as [m' [n [E [S [R Q]]]]]. exists m', n. split; [exact E|]. split; [exact S|]. split; [lia|exact Q].
Qed.
Lemma formatw_writes f ts out ws : fmt_subst f ts out -> small f -> Forall2 (fun w t => writes w t 1) ws ts -> len out + 36 * len ts + 18 < 2 ^ 62 ->
  puts (formatw f ws) out (len out + 36 * len ts + 18).
Proof.
  intros HF SM HW B. destruct (formatw_eq f ts out HF SM ws HW) as (ps & pts & E & FP & CC & LL).
  apply (puts_ext (catw ps)); [intros; symmetry; apply E|]. assert (P := catw_writes _ _ FP). rewrite CC in P. specialize (P ltac:(lia)).
  intros m b V L. destruct (P m b V L) as [m' [n [E2 [S [R Q]]]]]. exists m', n. split; [exact E2|]. split; [exact S|]. split; [lia|exact Q].
Qed.
