(** Proofs about null views, part 2: writing (NullModel.v). *)
From Verif Require Import Base BaseLemmas SubstrModel SubstrProofs SubstrProofs6 MemUtilModel FormatModel TightProofs2 NullModel NullSpec NullProofs.

Lemma overlaps_apart m v w : valid m v -> valid m w -> apart v w -> noverlaps v w = Ok false.
Proof.
  intros V W A. unfold noverlaps. destruct v as [[a|] n], w as [[b|] k]; unfold valid, apart in *; cbn [pp pn] in *; subst; cbn [padd bind]; try reflexivity.
  - cbn [plt]. f_equal. lia.
Qed.
Lemma apart_sym v w : apart v w -> apart w v.
Proof. unfold apart. destruct (pp v), (pp w); tauto. Qed.
Lemma slice_first (m : list Z) o n k : 0 <= n <= k -> slice m o n = firstn (Z.to_nat n) (slice m o k).
Proof. intros H. unfold slice. rewrite firstn_firstn. f_equal. lia. Qed.
Lemma memcpy_ok (m : list Z) d s n : 0 <= d -> 0 <= s -> 0 <= n -> d + n <= len m -> s + n <= len m -> d + n <= s \/ s + n <= d ->
  memcpy m d s n = Ok (blit m d (slice m s n)).
Proof.
  intros. unfold memcpy, mem_overlaps. replace ((d <? s + n) && (s <? d + n)) with false by lia.
  rewrite rds_region by lia. cbn [bind]. apply wrs_ok; rewrite ?len_slice; lia.
Qed.
Lemma put_nil m v : valid m v -> put m v 0 [] = m.
Proof. unfold valid, put. destruct (pp v); [intros H; apply blit_nil; lia|reflexivity]. Qed.

Lemma nto_chars_ok dbg m buf v : valid m buf -> valid m v -> apart buf v ->
  nto_chars dbg m buf v = Ok (put m buf 0 (firstn (Z.to_nat (pn buf)) (text m v)), pn v).
Proof.
  intros V W A. unfold nto_chars.
  assert (S : (if dbg then noverlaps buf v else Ok false) = Ok false) by (destruct dbg; [eapply overlaps_apart; eassumption|reflexivity]).
  rewrite S. cbn [bind]. rewrite chk_true by reflexivity. cbn zeta.
  pose proof (valid_nonneg m buf V) as N1. pose proof (valid_nonneg m v W) as N2. pose proof (text_len m v W) as L.
  set (n := if pn buf <? pn v then pn buf else pn v). assert (Hn : n = Z.min (pn buf) (pn v)) by (unfold n; destruct (pn buf <? pn v) eqn:E; lia).
  assert (F : firstn (Z.to_nat (pn buf)) (text m v) = firstn (Z.to_nat n) (text m v)).
  { destruct (Z_le_gt_dec (pn buf) (pn v)); [rewrite Hn, Z.min_l by lia; reflexivity|].
    rewrite !firstn_all2; [reflexivity| |]; unfold len in L; lia. }
  rewrite F. destruct (n =? 0) eqn:E.
  - cbn [negb]. apply Z.eqb_eq in E. rewrite E. cbn [Z.to_nat firstn]. rewrite put_nil by assumption. reflexivity.
  - cbn [negb]. destruct buf as [[a|] x], v as [[b|] y]; unfold valid, apart in *; cbn [pp pn nullp negb] in *; try lia.
    rewrite !chk_true by reflexivity. cbn [mcpy]. rewrite memcpy_ok by lia. cbn [bind]. unfold put, text. cbn [pp pn].
    rewrite Z.add_0_r. rewrite <- slice_first by lia. reflexivity.
Qed.
Lemma nfrom_chars_ok dbg m buf v : valid m buf -> valid m v -> apart buf v ->
  nfrom_chars dbg m buf v =
    Ok (if pn buf <=? pn v then (true, put m v 0 (text m buf), PV (pp v) (pn buf)) else (false, m, v)).
Proof.
  intros V W A. unfold nfrom_chars.
  assert (S : (if dbg then noverlaps buf v else Ok false) = Ok false) by (destruct dbg; [eapply overlaps_apart; eassumption|reflexivity]).
  rewrite S. cbn [bind]. rewrite chk_true by reflexivity.
  pose proof (valid_nonneg m buf V) as N1. pose proof (text_len m buf V) as L.
  destruct (pn buf <=? pn v) eqn:E; [|reflexivity]. destruct (pn buf =? 0) eqn:E0.
  - cbn [negb bind]. apply Z.eqb_eq in E0. destruct (text m buf) eqn:T; [|unfold len in L; cbn in L; lia]. rewrite put_nil by assumption. reflexivity.
  - cbn [negb]. destruct buf as [[a|] x], v as [[b|] y]; unfold valid, apart in *; cbn [pp pn nullp negb] in *; try lia.
    rewrite !chk_true by reflexivity. cbn [mcpy]. rewrite memcpy_ok by lia. cbn [bind]. unfold put, text. cbn [pp pn].
    rewrite Z.add_0_r. reflexivity.
Qed.
Lemma ncopy_from_ok dbg m v that ifirst num k : len m < 2 ^ 63 -> valid m v -> valid m that -> apart v that ->
  0 <= ifirst <= pn v -> 0 <= num -> k = Z.min (if num =? npos then pn v - ifirst else num) (pn that) -> ifirst + k <= pn v ->
  ncopy_from dbg m v that ifirst num = Ok (put m v ifirst (firstn (Z.to_nat k) (text m that))).
Proof.
  intros HM V W A Hi Hnum Hk Hf. pose proof (valid_nonneg m v V) as N1. pose proof (valid_nonneg m that W) as N2.
  unfold ncopy_from. rewrite chk_true by lia. cbn zeta.
  set (n1 := if negb (num =? npos) then num else u64 (pn v - ifirst)).
  assert (H1 : n1 = if num =? npos then pn v - ifirst else num) by (unfold n1; destruct (num =? npos); cbn [negb]; [rewrite u64_id by lia|]; reflexivity).
  set (n2 := if n1 <? pn that then n1 else pn that).
  assert (H2 : n2 = k) by (unfold n2; rewrite Hk, <- H1; destruct (n1 <? pn that) eqn:E; lia).
  assert (K0 : 0 <= k). { rewrite Hk, <- H1. rewrite H1. destruct (num =? npos); lia. }
  clearbody n2. subst n2. rewrite chk_true by (rewrite u64_id by lia; lia).
  destruct (k =? 0) eqn:E.
  - cbn [negb]. apply Z.eqb_eq in E. rewrite E. cbn [Z.to_nat firstn]. unfold put. destruct v as [[a|] x]; unfold valid in V; cbn [pp] in *; [rewrite blit_nil by lia|]; reflexivity.
  - cbn [negb]. destruct v as [[a|] x], that as [[b|] y]; unfold valid, apart in *; cbn [pp pn] in *; try lia.
    cbn [padd bind mcpy]. rewrite memcpy_ok by lia. unfold put, text. cbn [pp pn].
    rewrite <- slice_first by lia. reflexivity.
Qed.
Lemma blit_parts (m a x b y : list Z) : m = a ++ x ++ b -> len y = len x -> blit m (len a) y = a ++ y ++ b.
Proof. intros -> H. apply blit_mid. lia. Qed.
Lemma nfill_ok m v c : valid m v -> nfill m v c = Ok (put m v 0 (repeat c (Z.to_nat (pn v)))).
Proof.
  intros V. unfold nfill, put. destruct v as [[o|] n]; unfold valid in V; cbn [pp pn] in *; [|subst; reflexivity].
  destruct (slice_parts m o n ltac:(lia) ltac:(lia) ltac:(lia)) as (a & b & E & La & Ls).
  pose proof (fill_ok a (slice m o n) b c) as R. rewrite <- E, La, Ls in R. rewrite R. f_equal.
  rewrite Z.add_0_r. replace (length (slice m o n)) with (Z.to_nat n) by (unfold len in Ls; lia).
  rewrite <- (blit_parts m a _ b (repeat c (Z.to_nat n)) E) by (rewrite len_repeat; lia). rewrite La. reflexivity.
Qed.
Lemma nreverse_ok m v : valid m v -> nreverse m v = Ok (put m v 0 (rev (text m v))).
Proof.
  intros V. unfold nreverse, put, text. destruct v as [[o|] n]; unfold valid in V; cbn [pp pn] in *; [|subst; reflexivity].
  destruct (slice_parts m o n ltac:(lia) ltac:(lia) ltac:(lia)) as (a & b & E & La & Ls).
  pose proof (reverse_ok a (slice m o n) b) as R. unfold reverse in R. cbn [vo vl] in R. rewrite <- E, La, Ls in R. rewrite R. f_equal.
  rewrite Z.add_0_r. rewrite <- (blit_parts m a _ b (rev (slice m o n)) E) by (unfold len; rewrite rev_length; reflexivity). rewrite La. reflexivity.
Qed.
Lemma nerase_ok dbg m o n pos num : len m < 2 ^ 63 -> valid m (PV (Some o) n) -> 0 <= pos -> 0 <= num -> pos + num <= n ->
  nerase dbg m (PV (Some o) n) pos num =
    Ok (blit m (o + pos) (slice m (o + pos + num) (n - pos - num)), PV (Some o) (n - num)).
Proof.
  intros HM V Hp Hq H. unfold valid in V. cbn [pp pn] in V. unfold nerase. cbn [pp pn]. rewrite chk_true by (rewrite u64_id by lia; lia).
  cbn [padd bind mmove]. rewrite !u64_id by lia. rewrite rds_region by lia. cbn [bind]. rewrite wrs_ok by (rewrite ?len_slice; lia). reflexivity.
Qed.

(** ** cat *)
Lemma valid_len m m' v : len m' = len m -> valid m v -> valid m' v.
Proof. intros H. unfold valid. rewrite H. auto. Qed.
Lemma len_put m v l : valid m v -> len l <= pn v -> len (put m v 0 l) = len m.
Proof. unfold valid, put. destruct (pp v); [intros H L; apply len_blit; lia|reflexivity]. Qed.
Lemma text_put m v l w : valid m v -> valid m w -> apart v w -> len l <= pn v -> text (put m v 0 l) w = text m w.
Proof.
  intros V W A L. unfold text, put. destruct v as [[a|] n], w as [[b|] k]; unfold valid, apart in *; cbn [pp pn] in *; try reflexivity.
  apply slice_blit_apart; lia.
Qed.
Lemma len_concat_cons (x : list Z) xs : len (concat (x :: xs)) = len x + len (concat xs).
Proof. cbn. apply len_app. Qed.
Lemma ncat_ok dbg : forall args m buf, len m < 2 ^ 63 -> valid m buf -> Forall (fun a => valid m a /\ apart buf a) args ->
  len (concat (map (text m) args)) < 2 ^ 64 ->
  ncat dbg m buf args =
    Ok (put m buf 0 (firstn (Z.to_nat (pn buf)) (concat (map (text m) args))), len (concat (map (text m) args))).
Proof.
  induction args as [|a args IH]; intros m buf HM V F HL.
  - cbn. rewrite firstn_nil. rewrite put_nil by assumption. reflexivity.
  - inversion F as [|? ? [Va Aa] F']; subst. cbn [ncat map]. rewrite nto_chars_ok by assumption. cbn [bind].
    cbn [map] in HL. rewrite len_concat_cons in HL. pose proof (text_len m a Va) as La.
    pose proof (valid_nonneg m buf V) as N1. pose proof (valid_nonneg m a Va) as N2.
    set (l := firstn (Z.to_nat (pn buf)) (text m a)). assert (Ll : len l = Z.min (pn buf) (pn a)) by (unfold l, len in *; rewrite firstn_length; lia).
    set (m1 := put m buf 0 l). assert (L1 : len m1 = len m) by (apply len_put; [assumption|lia]).
    assert (T : map (text m1) args = map (text m) args).
    { apply map_ext_in. intros w Hw. rewrite Forall_forall in F'. destruct (F' w Hw). apply text_put; try assumption. lia. }
    destruct (pn a <=? pn buf) eqn:E.
    + unfold nsub. rewrite chk_true by lia. rewrite u64_id by lia.
      destruct buf as [[o|] n]; cbn [pp pn] in *.
      * cbn [padd bind]. unfold valid in V; cbn [pp pn] in V.
        rewrite IH.
        -- cbn [bind]. rewrite T. pose proof (len_nonneg (concat (map (text m) args))). rewrite u64_id by lia. cbn [concat]. rewrite len_app, La. do 2 f_equal.
           unfold m1, put. cbn [pp pn]. rewrite !Z.add_0_r.
           assert (El : l = text m a). { unfold l. apply firstn_all2. unfold len in La. lia. }
           rewrite El. rewrite firstn_app. rewrite (firstn_all2 (text m a)) by (unfold len in La; lia).
           replace (Z.to_nat n - length (text m a))%nat with (Z.to_nat (n - pn a)) by (unfold len in La; lia).
           rewrite <- La at 1. rewrite blit_app; [reflexivity|lia|]. rewrite La. assert (len (firstn (Z.to_nat (n - pn a)) (concat (map (text m) args))) <= n - pn a) by (unfold len; rewrite firstn_length; lia). lia.
        -- lia.
        -- unfold valid; cbn [pp pn]. lia.
        -- rewrite Forall_forall in *. intros w Hw. destruct (F' w Hw) as [Vw Aw]. split; [eapply valid_len; eassumption|].
           unfold apart in *; cbn [pp pn] in *. destruct (pp w); [|exact I]. lia.
        -- rewrite T. lia.
      * unfold valid in V; cbn [pp pn] in V. subst n. assert (pn a = 0) by lia.
        cbn [padd]. rewrite H, Z.eqb_refl. cbn [bind]. rewrite IH.
        -- cbn [bind]. rewrite T. pose proof (len_nonneg (concat (map (text m) args))). rewrite u64_id by lia. cbn [concat]. rewrite len_app, La, H. f_equal.
        -- lia.
        -- reflexivity.
        -- rewrite Forall_forall in *. intros w Hw. destruct (F' w Hw) as [Vw Aw]. split; [eapply valid_len; eassumption|exact I].
        -- rewrite T. lia.
    + cbn [bind]. rewrite IH.
      * cbn [bind]. rewrite T. pose proof (len_nonneg (concat (map (text m) args))). rewrite u64_id by lia. cbn [concat]. rewrite len_app, La. do 2 f_equal.
        unfold put at 1. cbn [pnull pp]. unfold m1. f_equal. unfold l. rewrite firstn_app.
        replace (Z.to_nat (pn buf) - length (text m a))%nat with 0%nat by (unfold len in La; lia). rewrite app_nil_r. reflexivity.
      * lia.
      * reflexivity.
      * rewrite Forall_forall in *. intros w Hw. destruct (F' w Hw) as [Vw Aw]. split; [eapply valid_len; eassumption|exact I].
      * rewrite T. lia.
Qed.

(** ** digits, raw data *)
Lemma nwrite_num_digits_null dbg m ret num : 0 <= ret -> nwrite_num_digits dbg m pnull ret num = Ok (m, Z.max ret num).
Proof.
  intros H. unfold nwrite_num_digits. cbn [pnull pn]. destruct (num <=? ret) eqn:E; [rewrite Z.max_l by lia; reflexivity|].
  replace (0 <=? ret) with true by lia. cbn [orb]. rewrite Z.max_r by lia. reflexivity.
Qed.
Lemma align_null al : 0 < al < 2 ^ 64 -> align_up 0 al = 0.
Proof. intros H. unfold align_up. rewrite u64_id by lia. rewrite Z.div_small by lia. reflexivity. Qed.
Lemma palign_null addr al n : 0 < al < 2 ^ 64 -> palign addr al n pnull = None.
Proof.
  intros H. unfold palign, std_align. cbn [pnull pp pn paddr]. rewrite align_null by exact H.
  destruct ((0 <? u64 (0 - 0)) || (0 - u64 (0 - 0) <? n)); reflexivity.
Qed.
Lemma nto_chars_raw_null addr m r al : 0 < al < 2 ^ 64 -> nto_chars_raw addr m pnull r al = Ok (m, u64 (al + pn r)).
Proof. intros H. unfold nto_chars_raw. rewrite palign_null by exact H. reflexivity. Qed.
Lemma nfrom_chars_raw_null addr m r al : 0 < al < 2 ^ 64 -> nfrom_chars_raw addr m pnull r al = Err.
Proof. intros H. unfold nfrom_chars_raw. rewrite palign_null by exact H. reflexivity. Qed.
(** an object of no bytes and no address: the buffer is not null *)
Lemma nraw_ub addr m o n al : 0 < addr -> addr + o + n < 2 ^ 63 -> 0 <= o -> 0 <= n -> 0 < al < 2 ^ 62 -> (addr + o) mod al = 0 ->
  nto_chars_raw addr m (PV (Some o) n) pnull al = Ub /\ nfrom_chars_raw addr m (PV (Some o) n) pnull al = Ub.
Proof.
  intros H1 H2 H3 H4 H5 H6.
  assert (E : align_up (addr + o) al = addr + o).
  { unfold align_up. rewrite u64_id by lia. pose proof (Z.div_mod (addr + o) al ltac:(lia)) as D. rewrite H6 in D.
    replace (addr + o - 1 + al) with ((al - 1) + ((addr + o) / al) * al + 0 * al) by lia.
    rewrite Z.mul_0_l, Z.add_0_r, Z.div_add by lia. rewrite (Z.div_small (al - 1)) by lia. lia. }
  assert (P : palign addr al 0 (PV (Some o) n) = Some o).
  { unfold palign, std_align. cbn [pp pn paddr]. rewrite E. replace (addr + o - (addr + o)) with 0 by lia.
    change (u64 0) with 0. replace ((n <? 0) || (n - 0 <? 0)) with false by lia. replace (addr + o =? 0) with false by lia. f_equal. lia. }
  unfold nto_chars_raw, nfrom_chars_raw. cbn [pnull pn pp]. rewrite P. cbn [nullp padd bind negb SubstrModel.assert].
  replace (ple (Some o) (Some o) && ple (Some o) (Some (o + n))) with true by (unfold ple, plt; lia). cbn [SubstrModel.assert pdiff bind].
  replace (o - o) with 0 by lia. change (u64 0) with 0. change (u64 (0 + 0)) with 0. replace (0 <=? n) with true by lia.
  split; reflexivity.
Qed.
