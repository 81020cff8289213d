(** Proofs about scan_one and the functions that use it. *)
From Verif Require Import Base BaseLemmas CharconvSpec CharconvProofs SpanNumSpec FloatSpec ScanModel SubstrModel SubstrSpec CharconvModel SpanNumModel Base64Model FloatModel RealModel RealSpec RealProofs ScanfModel ScanfSpec ScanfProofs.
From Verif Require Import CharconvProofs3.
From Coq Require Import Lia.
Open Scope Z_scope.

(** ** the begin of a number *)
Definition good (q : sstate) : Prop := match q with Inf_ k => 1 <= k <= 8 | Nan_ k => 1 <= k <= 3 | _ => True end.
Lemma good_next q c q' : good q -> snext q c = Some q' -> good q'.
Proof.
  intros G E. destruct q; cbn [snext] in E; unfold sbegin, sint in E; cbn [good] in G;
    repeat match type of E with context [if ?b then _ else _] => destruct b eqn:?; try discriminate E end; inversion E; subst; cbn [good]; auto; try lia.
Qed.
Lemma good_run s : forall q q', good q -> run q s = Some q' -> good q'.
Proof.
  induction s as [|c s IH]; intros q q' G E; cbn in E; [inversion E; subst; exact G|].
  destruct (snext q c) as [q1|] eqn:E1; [|discriminate]. apply (IH q1 q'); [apply (good_next q c); auto|exact E].
Qed.
Lemma good_acc q : good q -> exists w, acc q w.
Proof.
  intros G. destruct q; cbn [good] in G;
    try (exists [48]; eexists; split; reflexivity); try (exists []; eexists; split; reflexivity); try (exists [41]; eexists; split; reflexivity).
  - assert (K : k = 1 \/ k = 2 \/ k = 3 \/ k = 4 \/ k = 5 \/ k = 6 \/ k = 7 \/ k = 8) by lia.
    exists (skipn (Z.to_nat k) (s2z "infinity")). decompose [or] K; subst; eexists; split; reflexivity.
  - assert (K : k = 1 \/ k = 2 \/ k = 3) by lia.
    exists (skipn (Z.to_nat k) (s2z "nan")). decompose [or] K; subst; eexists; split; reflexivity.
Qed.
Lemma viable_iff t : viable t <-> exists q, run Start t = Some q.
Proof.
  split.
  - intros (w & Hw). apply start_lang in Hw. destruct Hw as (q' & E & _). rewrite run_app in E. destruct (run Start t); [eauto|discriminate].
  - intros (q & E). destruct (good_acc q) as (w & q' & Ew & Hf); [apply (good_run t Start); [exact I|exact E]|].
    exists w. apply start_lang. exists q'. split; [rewrite run_app, E; exact Ew|exact Hf].
Qed.
(** ** the item *)
Lemma scan_item_ok s : forall q w, 0 <= w <= len s ->
  exists t r q', s = t ++ r /\ len t <= w /\ run q t = Some q' /\ scan_item q w s = Ok (t, sfinal q') /\
    (len t = w \/ exists c r', r = c :: r' /\ snext q' c = None).
Proof.
  induction s as [|c s IH]; intros q w Hw.
  - change (len []) with 0 in Hw. exists [], [], q. cbn. destruct (Z.leb_spec w 0); [|lia]. repeat split; auto. unfold len; cbn; lia. left. unfold len; cbn; lia.
  - rewrite len_cons in Hw. cbn [scan_item]. destruct (Z.leb_spec w 0) as [L|L].
    + exists [], (c :: s), q. change (len []) with 0. repeat split; auto; lia.
    + destruct (snext q c) as [q1|] eqn:E.
      * destruct (IH q1 (w - 1)) as (t & r & q' & -> & Lt & R & E' & M); [lia|]. exists (c :: t), r, q'. rewrite len_cons, E'. cbn [bind run app]. rewrite E.
        repeat split; auto; [lia|]. destruct M as [M|M]; [left; lia|right; exact M].
      * exists [], (c :: s), q. change (len []) with 0. repeat split; auto; [lia|]. right. eauto.
Qed.
Lemma item_ok s w : 0 <= w <= len s -> exists t q, scan_item Start w s = Ok (t, sfinal q) /\ run Start t = Some q /\ item (firstn (Z.to_nat w) s) t /\ len t <= w.
Proof.
  intros Hw. destruct (scan_item_ok s Start w Hw) as (t & r & q & -> & Lt & R & E & M). exists t, q. split; [exact E|]. split; [exact R|]. split; [|exact Lt].
  assert (W : firstn (Z.to_nat w) (t ++ r) = t ++ firstn (Z.to_nat (w - len t)) r).
  { rewrite firstn_app. rewrite firstn_all2 by (unfold len in *; lia). f_equal. f_equal. unfold len in *. lia. }
  rewrite W. split; [eauto|]. split; [apply viable_iff; eauto|].
  intros u r' Eu V. destruct (Z.le_gt_cases (len u) (len t)) as [L|L]; [exact L|exfalso].
  destruct M as [M|(c & r0 & -> & NX)].
  - replace (w - len t) with 0 in Eu by lia. cbn [Z.to_nat firstn] in Eu. rewrite app_nil_r in Eu. apply (f_equal (@length Z)) in Eu. rewrite app_length in Eu. unfold len in *. lia.
  - assert (Z.to_nat (w - len t) <> 0%nat \/ w - len t <= 0) as [N|N] by lia.
    2:{ replace (Z.to_nat (w - len t)) with 0%nat in Eu by lia. cbn [firstn] in Eu. rewrite app_nil_r in Eu. apply (f_equal (@length Z)) in Eu. rewrite app_length in Eu. unfold len in *. lia. }
    destruct (Z.to_nat (w - len t)) as [|n]; [congruence|]. cbn [firstn] in Eu.
    assert (exists u', u = t ++ c :: u') as (u' & ->).
    { exists (skipn (S (length t)) u). apply (f_equal (firstn (S (length t)))) in Eu. rewrite firstn_app in Eu.
      replace (S (length t) - length t)%nat with 1%nat in Eu by lia. rewrite firstn_all2 in Eu by lia. change (firstn 1 (c :: firstn n r0)) with [c] in Eu.
      rewrite firstn_app in Eu. replace (S (length t) - length u)%nat with 0%nat in Eu by (unfold len in *; lia). change (firstn 0 r') with (@nil Z) in Eu. rewrite app_nil_r in Eu.
      rewrite <- (firstn_skipn (S (length t)) u) at 1. rewrite <- Eu. rewrite <- app_assoc. reflexivity. }
    apply viable_iff in V. destruct V as (q1 & E1). rewrite run_app, R in E1. cbn [run] in E1. rewrite NX in E1. discriminate.
Qed.
Lemma item_unique s t t' : item s t -> item s t' -> t = t'.
Proof.
  intros ((r & ->) & V & M) ((r' & E) & V' & M'). pose proof (M t' r' E V') as L1. pose proof (M' t r eq_refl V) as L2.
  apply (f_equal (firstn (length t))) in E. rewrite !firstn_app in E. assert (L : length t = length t') by (unfold len in *; lia).
  rewrite L, Nat.sub_diag in E. rewrite <- L, firstn_all, L, firstn_all in E. cbn [firstn] in E. rewrite !app_nil_r in E. exact E.
Qed.
Lemma subject_run t q : run Start t = Some q -> (subject t <-> sfinal q = true).
Proof.
  intros R. rewrite <- start_lang. unfold acc. split; [intros (q' & E & F); congruence|eauto].
Qed.
Lemma subject_viable t : subject t -> viable t.
Proof. intros S. exists []. rewrite app_nil_r. exact S. Qed.
Lemma subject_item t : subject t -> item t t.
Proof.
  intros S. split; [exists []; symmetry; apply app_nil_r|]. split; [apply subject_viable; exact S|].
  intros u r -> _. rewrite len_app. pose proof (len_nonneg r). lia.
Qed.
Lemma is_white_iff c : is_white c = true <-> white c.
Proof. unfold is_white, white. rewrite orb_true_iff, andb_true_iff, Z.eqb_eq, !Z.leb_le. cbn [In]. lia. Qed.

(** ** the format *)
Lemma dec_text_app fuel : forall n acc, 0 <= n < 10 ^ Z.of_nat fuel -> (0 < fuel)%nat -> dec_text fuel n acc = numeral 10 n ++ acc.
Proof.
  induction fuel as [|fuel IH]; intros n acc Hn Hf; [lia|]. cbn [dec_text]. destruct (Z.ltb_spec n 10) as [L|L].
  - rewrite Z.mod_small by lia. rewrite numeral_small by lia. unfold digit_char. destruct (Z.ltb_spec n 10); [reflexivity|lia].
  - rewrite Nat2Z.inj_succ, Z.pow_succ_r in Hn by lia. pose proof (Z.div_mod n 10 ltac:(lia)). pose proof (Z.mod_pos_bound n 10 ltac:(lia)).
    rewrite IH; [|split; [apply Z.div_pos; lia|apply Z.div_lt_upper_bound; lia]|destruct fuel; [cbn in Hn; lia|lia]].
    rewrite (numeral_step 10 n) by lia. rewrite <- app_assoc. unfold digit_char. destruct (Z.ltb_spec (n mod 10) 10); [reflexivity|lia].
Qed.
Lemma zu_numeral n : 0 <= n < 2 ^ 64 -> zu_text n = numeral 10 n.
Proof. intros Hn. unfold zu_text. rewrite dec_text_app by (try (change (10 ^ Z.of_nat 20) with 100000000000000000000); lia). apply app_nil_r. Qed.
Lemma width_numeral fuel : forall n w r, 0 <= n < 10 ^ Z.of_nat fuel -> (0 < fuel)%nat -> exists k, 1 <= k /\ fmt_width (numeral 10 n ++ r) w = fmt_width r (w * 10 ^ k + n).
Proof.
  induction fuel as [|fuel IH]; intros n w r Hn Hf; [lia|]. assert (DG : forall d x, 0 <= d < 10 -> fmt_width (digit_char d :: r) x = fmt_width r (x * 10 + d)).
  { intros d x Hd. unfold digit_char. destruct (Z.ltb_spec d 10); [|lia]. cbn [fmt_width]. unfold is_dig. replace ((48 <=? 48 + d) && (48 + d <=? 57)) with true by lia. f_equal. lia. }
  destruct (Z.ltb_spec n 10) as [L|L].
  - rewrite numeral_small by lia. exists 1. split; [lia|]. cbn [app]. rewrite DG by lia. f_equal.
  - rewrite Nat2Z.inj_succ, Z.pow_succ_r in Hn by lia. pose proof (Z.div_mod n 10 ltac:(lia)) as DM. pose proof (Z.mod_pos_bound n 10 ltac:(lia)).
    rewrite numeral_step by lia. rewrite <- app_assoc. destruct (IH (n / 10) w ([digit_char (n mod 10)] ++ r)) as (k & Hk & E).
    + split; [apply Z.div_pos; lia|apply Z.div_lt_upper_bound; lia].
    + destruct fuel; [cbn in Hn; lia|lia].
    + exists (k + 1). split; [lia|]. rewrite E. cbn [app]. rewrite DG by lia. rewrite Z.pow_add_r by lia. f_equal. lia.
Qed.
Definition type_fmts : list (list Z) := [s2z "f"; s2z "lf"; s2z "a"; s2z "la"].
Lemma parse_ok n tf : 0 < n < 2 ^ 64 -> In tf type_fmts -> parse_fmt (scan_fmt n tf) = Some (n, true).
Proof.
  intros Hn Ht. unfold scan_fmt, parse_fmt. change (s2z "%" ++ zu_text n ++ tf ++ s2z "%n") with (ch "%" :: (zu_text n ++ tf ++ s2z "%n")).
  cbv beta iota. rewrite Z.eqb_refl. cbn [negb]. rewrite zu_numeral by lia.
  destruct (width_numeral 20 n 0 (tf ++ s2z "%n")) as (k & _ & E); [change (10 ^ Z.of_nat 20) with 100000000000000000000; lia|lia|]. rewrite E.
  rewrite Z.mul_0_l, Z.add_0_l. unfold type_fmts in Ht. cbn [In] in Ht. destruct Ht as [<-|[<-|[<-|[<-|[]]]]]; cbn [app s2z fmt_width is_dig]; cbn; (destruct (Z.eqb_spec n 0); [lia|reflexivity]).
Qed.
Lemma fmt_len n tf : 0 <= n < 2 ^ 64 -> len (scan_fmt n tf) = 3 + len (numeral 10 n) + len tf.
Proof. intros Hn. unfold scan_fmt. rewrite !len_app, zu_numeral by lia. change (len (s2z "%")) with 1. change (len (s2z "%n")) with 2. lia. Qed.
Lemma numeral_len_le n k : 0 <= n < 10 ^ k -> 1 <= k -> len (numeral 10 n) <= k.
Proof.
  intros Hn Hk. destruct (numeral_count 10 n) as (L & _ & Z0 & P); [lia|lia|]. destruct (Z.le_gt_cases (len (numeral 10 n)) k) as [G|G]; [exact G|exfalso].
  assert (n <> 0) by (intros ->; rewrite Z0 in G; lia). specialize (P ltac:(lia)).
  assert (10 ^ k <= 10 ^ (len (numeral 10 n) - 1)) by (apply Z.pow_le_mono_r; lia). lia.
Qed.
Lemma numeral_len_ge n k : 10 ^ k <= n -> 0 <= k -> k < len (numeral 10 n).
Proof.
  intros Hn Hk. assert (0 < 10 ^ k) by (apply Z.pow_pos_nonneg; lia). destruct (numeral_count 10 n) as (L & U & _ & _); [lia|lia|].
  destruct (Z.lt_ge_cases k (len (numeral 10 n))) as [G|G]; [exact G|exfalso].
  assert (10 ^ len (numeral 10 n) <= 10 ^ k) by (apply Z.pow_le_mono_r; lia). lia.
Qed.
Lemma type_len tf : In tf type_fmts -> 1 <= len tf <= 2.
Proof. unfold type_fmts. cbn [In]. intros [<-|[<-|[<-|[<-|[]]]]]; cbn; lia. Qed.

(** ** scan_one *)
Lemma skipn_contents (m : list Z) v : vin v m -> exists r, skipn (Z.to_nat (vo v)) m = contents m v ++ r /\ len (contents m v) = vl v /\ contents m v = firstn (Z.to_nat (vl v)) (skipn (Z.to_nat (vo v)) m).
Proof.
  intros V. unfold vin in V. unfold contents, slice. exists (skipn (Z.to_nat (vl v)) (skipn (Z.to_nat (vo v)) m)).
  split; [symmetry; apply firstn_skipn|]. split; [|reflexivity]. unfold len in *. rewrite firstn_length, skipn_length. lia.
Qed.
Lemma dassert_true dbg b A (k : res A) : b = true -> dassert dbg b k = k.
Proof. intros ->. unfold dassert. rewrite orb_true_r. reflexivity. Qed.
Definition clear_start (s : list Z) : Prop := exists c r, s = c :: r /\ ~ white c.
Lemma scan_one_gen dbg m v tf : vin v m -> vl v < 10 ^ 10 -> In tf type_fmts -> clear_start (contents m v) ->
  exists t, item (contents m v) t /\ (subject t /\ scan_one dbg m v tf = (if 2 ^ 31 <=? len t then Ub else Ok (Some (len t, t))) \/ ~ subject t /\ scan_one dbg m v tf = Ok None).
Proof.
  intros V L Ht (c & r & Ec & Nw). destruct (skipn_contents m v V) as (x & Es & Lc & Ef). rewrite Ec, len_cons in Lc. pose proof (len_nonneg r).
  change (10 ^ 10) with 10000000000 in L. unfold scan_one. assert (FL : len (scan_fmt (vl v) tf) <= 15).
  { rewrite fmt_len by lia. pose proof (type_len tf Ht). assert (len (numeral 10 (vl v)) <= 10) by (apply numeral_len_le; [change (10 ^ 10) with 10000000000; lia|lia]). lia. }
  rewrite dassert_true by (apply Z.ltb_lt; lia).
  rewrite firstn_all2 by (unfold len in FL; lia). unfold sscanf. rewrite parse_ok; [|lia|exact Ht].
  rewrite Es. rewrite Ec. change ((c :: r) ++ x) with (c :: (r ++ x)). cbn [skip_white]. rewrite <- is_white_iff in Nw. apply not_true_is_false in Nw. rewrite Nw. cbn [bind].
  destruct (item_ok (c :: r ++ x) (vl v)) as (t & q & E & R & I & Lt). { rewrite len_cons, len_app. pose proof (len_nonneg x). lia. }
  exists t. assert (EI : firstn (Z.to_nat (vl v)) (c :: r ++ x) = c :: r).
  { rewrite <- Ec, Ef, Es, Ec. reflexivity. }
  rewrite EI in I. split; [exact I|]. rewrite E. cbn [bind]. pose proof (subject_run t q R) as SR. destruct (sfinal q) eqn:F; cbn [negb].
  - left. split; [apply SR; reflexivity|]. pose proof (len_nonneg t). rewrite Z.sub_diag, Z.add_0_l.
    destruct (Z.leb_spec (2 ^ 31) (len t)); [reflexivity|]. cbn [bind]. rewrite dassert_true by (apply Z.leb_le; lia).
    rewrite u64_id by lia. reflexivity.
  - right. split; [intros S; apply SR in S; discriminate|reflexivity].
Qed.
Lemma item_len s t : item s t -> len t <= len s.
Proof. intros ((r & ->) & _). rewrite len_app. pose proof (len_nonneg r). lia. Qed.
Lemma scan_one_ok dbg m v tf : vin v m -> vl v < 2 ^ 31 -> In tf type_fmts -> clear_start (contents m v) ->
  exists t, item (contents m v) t /\ (subject t /\ scan_one dbg m v tf = Ok (Some (len t, t)) \/ ~ subject t /\ scan_one dbg m v tf = Ok None).
Proof.
  intros V L Ht C. destruct (scan_one_gen dbg m v tf V) as (t & I & [[S E]|K]); auto; [change (10 ^ 10) with 10000000000; lia| |eauto].
  exists t. split; [exact I|]. left. split; [exact S|]. rewrite E. apply item_len in I. destruct (skipn_contents m v V) as (_ & _ & Lc & _).
  destruct (Z.leb_spec (2 ^ 31) (len t)); [lia|reflexivity].
Qed.
(** ** atof and atod *)
Lemma clear_starts s : clear_start s -> starts s.
Proof. intros (c & r & -> & N). exists c, r. split; [reflexivity|]. intros B. apply N. unfold blank, white in *. cbn in *. tauto. Qed.
Lemma atof_eq dbg lm m v : vin v m -> vl v < 2 ^ 64 -> starts (contents m v) -> atof_scanf dbg lm m v =
  do r <- scan_one dbg m v (lm ++ (if negb (begins_0x (unsign (contents m v))) then s2z "f" else s2z "a")) ;;
  Ok (match r with Some (k, t) => if k =? npos then None else Some t | None => None end).
Proof.
  intros V L S. destruct (skipn_contents m v V) as (x & Es & Lc & Ef). destruct (triml_starts _ S) as (w & T & W); [lia|].
  unfold atof_scanf. destruct S as (c & r & Ec & Nb). rewrite Ec, len_cons in Lc. pose proof (len_nonneg r).
  rewrite dassert_true by (apply Z.ltb_lt; lia).
  rewrite T. cbn [bind]. rewrite dassert_true by (rewrite W, Ec, len_cons, Lc; apply Z.eqb_refl).
  assert (RD : rdv m v 0 = Ok c).
  { unfold rdv, rd. unfold vin in V. replace ((0 <=? 0) && (0 <? vl v)) with true by (symmetry; apply andb_true_iff; split; [reflexivity|apply Z.ltb_lt; lia]).
    replace ((0 <=? vo v + 0) && (vo v + 0 <? len m)) with true by (symmetry; apply andb_true_iff; rewrite Z.leb_le, Z.ltb_lt; lia).
    rewrite Z.add_0_r. f_equal. rewrite <- (firstn_skipn (Z.to_nat (vo v)) m). rewrite app_nth2; rewrite firstn_length; [|lia].
    replace (Z.to_nat (vo v) - Nat.min (Z.to_nat (vo v)) (length m))%nat with 0%nat by (unfold len in *; lia). rewrite Es, Ec. reflexivity. }
  rewrite RD, Ec. cbn [bind unsign]. destruct (_ || _); [rewrite csub1|rewrite csub0]; reflexivity.
Qed.
Lemma mods_in lm (b : bool) : In lm [[]; s2z "l"] -> In (lm ++ (if b then s2z "f" else s2z "a")) type_fmts.
Proof. unfold type_fmts. intros [<-|[<-|[]]]; destruct b; cbn; tauto. Qed.
Lemma atof_ok dbg lm m v : vin v m -> vl v < 2 ^ 31 -> In lm [[]; s2z "l"] -> clear_start (contents m v) ->
  exists t, item (contents m v) t /\ (subject t /\ atof_scanf dbg lm m v = Ok (Some t) \/ ~ subject t /\ atof_scanf dbg lm m v = Ok None).
Proof.
  intros V L Hl C. rewrite atof_eq; [|exact V|lia|apply clear_starts; exact C].
  destruct (scan_one_ok dbg m v _ V L (mods_in lm (negb (begins_0x (unsign (contents m v)))) Hl) C) as (t & I & [[S E]|[S E]]); exists t; (split; [exact I|]); rewrite E; cbn [bind]; [left|right; auto].
  split; [exact S|]. destruct (Z.eqb_spec (len t) npos) as [N|N]; [|reflexivity]. exfalso. destruct I as ((r & Er) & _).
  destruct (skipn_contents m v V) as (_ & _ & Lc & _). rewrite Er, len_app in Lc. pose proof (len_nonneg r). change npos with (2 ^ 64 - 1) in N. lia.
Qed.

Lemma white_not_start c : white c -> snext Start c = None.
Proof. unfold white. cbn [In]. intros Hc. decompose [or] Hc; subst; try reflexivity; contradiction. Qed.
Lemma subject_start w : subject w -> clear_start w.
Proof.
  intros S. apply start_lang in S. destruct w as [|c r]; [apply acc_nil in S; discriminate|]. exists c, r. split; [reflexivity|].
  intros W. apply acc_cons in S. destruct S as (q & E & _). rewrite white_not_start in E by exact W. discriminate.
Qed.
Lemma atof_whole dbg lm m v : vin v m -> vl v < 2 ^ 31 -> In lm [[]; s2z "l"] -> subject (contents m v) -> atof_scanf dbg lm m v = Ok (Some (contents m v)).
Proof.
  intros V L Hl S. destruct (atof_ok dbg lm m v V L Hl (subject_start _ S)) as (t & I & K).
  assert (t = contents m v) as -> by (apply (item_unique (contents m v)); [exact I|apply subject_item; exact S]).
  destruct K as [[_ E]|[N _]]; [exact E|contradiction].
Qed.
Lemma atof_int dbg lm m v : vin v m -> 2 ^ 31 <= vl v < 10 ^ 10 -> In lm [[]; s2z "l"] -> subject (contents m v) -> atof_scanf dbg lm m v = Ub.
Proof.
  intros V L Hl S. pose proof (subject_start _ S) as C. change (10 ^ 10) with 10000000000 in L. rewrite atof_eq; [|exact V|lia|apply clear_starts; exact C].
  destruct (scan_one_gen dbg m v _ V ltac:(change (10 ^ 10) with 10000000000; lia) (mods_in lm (negb (begins_0x (unsign (contents m v)))) Hl) C) as (t & I & K).
  assert (t = contents m v) as -> by (apply (item_unique (contents m v)); [exact I|apply subject_item; exact S]).
  destruct K as [[_ E]|[N _]]; [|contradiction]. rewrite E. destruct (skipn_contents m v V) as (_ & _ & Lc & _). destruct (Z.leb_spec (2 ^ 31) (len (contents m v))); [reflexivity|lia].
Qed.
(** ** texts that are too long for the format *)
Lemma width_rest s : forall w, exists d, s = d ++ snd (fmt_width s w).
Proof.
  induction s as [|c s IH]; intros w; cbn; [exists []; reflexivity|]. destruct (is_dig c); [|exists []; reflexivity].
  destruct (IH (w * 10 + (c - 48))) as (d & E). exists (c :: d). cbn. rewrite <- E. reflexivity.
Qed.
Lemma parse_n s w : parse_fmt s = Some (w, true) -> In (ch "n") s.
Proof.
  unfold parse_fmt. destruct s as [|p s]; [discriminate|]. destruct (p =? ch "%"); [|discriminate]. cbn [negb].
  destruct (width_rest s 0) as (d & E). destruct (fmt_width s 0) as [w' u]. cbn [snd] in E. destruct (w' =? 0); [discriminate|].
  set (u' := match u with c :: r => if c =? ch "l" then r else u | [] => u end).
  assert (U : incl u' u) by (unfold u'; destruct u as [|c r]; [apply incl_refl|destruct (c =? ch "l"); [apply incl_tl, incl_refl|apply incl_refl]]).
  destruct u' as [|t s']; [discriminate|]. destruct ((t =? ch "f") || (t =? ch "a")); [|discriminate]. cbn [negb].
  destruct s' as [|a [|b [|? ?]]]; try discriminate. destruct ((a =? ch "%") && (b =? ch "n")) eqn:B; [|discriminate]. intros _.
  apply andb_prop in B. destruct B as [_ B]. apply Z.eqb_eq in B. subst b. right. rewrite E. apply in_or_app. right. apply U. cbn. auto.
Qed.
Lemma numeral_no_n n : 0 <= n -> ~ In (ch "n") (numeral 10 n).
Proof.
  intros Hn I. destruct (numeral_is 10 n) as (ds & [_ F _ _] & E); [lia|lia|]. rewrite E in I. apply in_map_iff in I. destruct I as (d & E1 & I).
  rewrite Forall_forall in F. specialize (F d I). unfold digit_char in E1. change (ch "n") with 110 in E1. destruct (Z.ltb_spec d 10); lia.
Qed.
Lemma scan_one_long dbg m v tf : vl v < 2 ^ 64 -> In tf type_fmts -> 10 ^ (12 - len tf) <= vl v ->
  scan_one true m v tf = Err /\ forall k t, scan_one dbg m v tf <> Ok (Some (k, t)).
Proof.
  intros L Ht Hv. pose proof (type_len tf Ht) as TL. assert (0 < 10 ^ (12 - len tf)) by (apply Z.pow_pos_nonneg; lia).
  assert (FL : 16 <= len (scan_fmt (vl v) tf)). { rewrite fmt_len by lia. pose proof (numeral_len_ge (vl v) (12 - len tf) Hv ltac:(lia)). lia. }
  assert (E1 : scan_one true m v tf = Err).
  { unfold scan_one, dassert at 1. cbn [negb orb]. destruct (Z.ltb_spec (len (scan_fmt (vl v) tf)) 16); [lia|reflexivity]. }
  split; [exact E1|]. intros k t. destruct dbg; [rewrite E1; discriminate|].
  unfold scan_one. unfold dassert at 1. cbn [negb orb]. unfold sscanf.
  destruct (parse_fmt (firstn 15 (scan_fmt (vl v) tf))) as [[w n]|] eqn:P; [|discriminate].
  destruct n.
  - exfalso. apply parse_n in P. unfold scan_fmt in P, FL. rewrite zu_numeral in P, FL by lia.
    set (X := s2z "%" ++ numeral 10 (vl v) ++ tf ++ [ch "%"]).
    assert (EX : s2z "%" ++ numeral 10 (vl v) ++ tf ++ s2z "%n" = X ++ [ch "n"]) by (unfold X; rewrite <- !app_assoc; reflexivity).
    rewrite EX in P, FL. rewrite len_app in FL. change (len [ch "n"]) with 1 in FL. rewrite firstn_app in P. replace (15 - length X)%nat with 0%nat in P by (unfold len in FL; lia).
    cbn [firstn] in P. rewrite app_nil_r in P. assert (In (ch "n") X) as I by (rewrite <- (firstn_skipn 15 X); apply in_or_app; left; exact P). unfold X in I.
    rewrite !in_app_iff in I. destruct I as [I|[I|[I|I]]].
    + cbn in I. destruct I as [I|[]]; discriminate.
    + revert I. apply numeral_no_n. lia.
    + unfold type_fmts in Ht. cbn [In] in Ht. decompose [or] Ht; subst; cbn in I; decompose [or] I; try discriminate; contradiction.
    + cbn in I. destruct I as [I|[]]; discriminate.
  - destruct (skip_white _) as [u| |]; cbn [bind]; try discriminate. destruct (scan_item Start w u) as [[t' ok]| |]; cbn [bind]; try discriminate.
    destruct ok; cbn [negb]; cbn [bind]; discriminate.
Qed.
Lemma atof_long dbg lm m v : vin v m -> vl v < 2 ^ 64 -> In lm [[]; s2z "l"] -> 10 ^ (11 - len lm) <= vl v -> starts (contents m v) ->
  atof_scanf true lm m v = Err /\ forall t, atof_scanf dbg lm m v <> Ok (Some t).
Proof.
  intros V L Hl Hv S. rewrite !atof_eq by auto.
  destruct (scan_one_long dbg m v (lm ++ (if negb (begins_0x (unsign (contents m v))) then s2z "f" else s2z "a")) L (mods_in lm _ Hl)) as [E1 E2].
  { rewrite len_app. replace (len (if negb (begins_0x (unsign (contents m v))) then s2z "f" else s2z "a")) with 1 by (destruct (negb _); reflexivity). replace (12 - (len lm + 1)) with (11 - len lm) by lia. exact Hv. }
  rewrite E1. split; [reflexivity|]. intros t. destruct (scan_one dbg m v _) as [[[k u]|]| |] eqn:E; cbn [bind]; try discriminate. elim (E2 k u). reflexivity.
Qed.
