(** Proofs about null views, part 1: reading and comparing (NullModel.v). *)
From Verif Require Import Base BaseLemmas SubstrModel SubstrSpec SubstrProofs SubstrProofs2 SubstrProofs3 MemUtilModel FormatModel NullModel NullSpec.

Lemma chk_true {A} dbg b (k : res A) : b = true -> chk dbg b k = k.
Proof. intros ->. unfold chk. rewrite andb_false_r. reflexivity. Qed.
Lemma chk_false {A} dbg b (k : res A) : b = false -> chk dbg b k = if dbg then Err else k.
Proof. intros ->. unfold chk. rewrite andb_true_r. reflexivity. Qed.
Lemma text_len m v : valid m v -> len (text m v) = pn v.
Proof.
  destruct v as [[o|] n]; unfold valid, text; cbn [pp pn].
  - intros (H1 & H2 & H3). apply len_slice; lia.
  - intros ->. reflexivity.
Qed.
Lemma valid_nonneg m v : valid m v -> 0 <= pn v <= len m.
Proof.
  destruct v as [[o|] n]; unfold valid; cbn [pp pn]; [lia|]. intros ->. pose proof (len_nonneg m). lia.
Qed.
Lemma valid_flag m v : valid m v -> negb (nullp (pp v)) || (pn v =? 0) = true.
Proof. destruct v as [[o|] n]; unfold valid; cbn; [reflexivity|]. intros ->. reflexivity. Qed.
Lemma slice_bytes m i n : bytes m -> bytes (slice m i n).
Proof. intros H. unfold slice, bytes in *. apply Forall_forall. intros x Hx. rewrite Forall_forall in H. apply H.
  rewrite <- (firstn_skipn (Z.to_nat i) m). apply in_or_app. right.
  rewrite <- (firstn_skipn (Z.to_nat n) (skipn (Z.to_nat i) m)). apply in_or_app. left. exact Hx. Qed.
Lemma text_bytes m v : bytes m -> bytes (text m v).
Proof. intros H. unfold text. destruct (pp v); [apply slice_bytes; auto|apply Forall_nil]. Qed.

Lemma nempty_text m v : valid m v -> (nempty v = true <-> text m v = []).
Proof.
  intros V. pose proof (text_len m v V) as L. unfold nempty. destruct v as [[o|] n]; cbn [pp pn nullp] in *.
  - rewrite orb_false_r. split; intros E.
    + apply Z.eqb_eq in E. subst n. destruct (text m _); [reflexivity|]. unfold len in L; cbn in L; lia.
    + rewrite E in L. cbn in L. apply Z.eqb_eq. lia.
  - rewrite orb_true_r. split; reflexivity.
Qed.
Lemma nth_slice0 (m : list Z) o n : 0 <= o -> 0 < n -> o + n <= len m -> byte_at m o = nth 0 (slice m o n) 0.
Proof.
  intros H1 H2 H3. pose proof (byte_at_slice m o n 0 ltac:(lia) ltac:(lia)) as E. unfold byte_at in *.
  replace (o + 0) with o in E by lia. symmetry. exact E.
Qed.
Lemma nhas_str_ok m v : valid m v ->
  exists b, nhas_str m v = Ok b /\ (b = true <-> exists c r, text m v = c :: r /\ c <> 0).
Proof.
  intros V. unfold nhas_str. destruct (nempty v) eqn:E.
  - exists false. split; [reflexivity|]. apply (nempty_text m v V) in E. rewrite E. split; [discriminate|]. intros (c & r & H & _). discriminate.
  - pose proof (text_len m v V) as L. destruct v as [[o|] n]; unfold valid, nempty in *; cbn [pp pn nullp] in *; [|rewrite orb_true_r in E; discriminate].
    rewrite orb_false_r in E. apply Z.eqb_neq in E.
    cbn [deref]. rewrite rd_ok by lia. cbn [bind]. exists (negb (byte_at m o =? 0)). split; [reflexivity|].
    rewrite (nth_slice0 m o n) by lia. unfold text in *; cbn [pp pn] in *. destruct (slice m o n) as [|c r]; [unfold len in L; cbn in L; lia|].
    cbn [nth]. split.
    + intros H. exists c, r. split; [reflexivity|]. lia.
    + intros (c' & r' & H & Hc). injection H as -> ->. lia.
Qed.

Lemma nat_ok dbg m v i : valid m v -> 0 <= i < pn v -> nat_ dbg m v i = Ok (nth (Z.to_nat i) (text m v) 0).
Proof.
  intros V Hi. unfold nat_. rewrite chk_true by lia. destruct v as [[o|] n]; unfold valid in V; cbn [pp pn] in *; [|lia].
  cbn [padd bind deref]. rewrite rd_ok by lia. unfold text; cbn [pp pn]. f_equal. symmetry. apply byte_at_slice; lia.
Qed.
Lemma nat_out m v i : pn v <= i -> nat_ true m v i = Err.
Proof. intros H. unfold nat_. rewrite chk_false by lia. reflexivity. Qed.
Lemma nfront_ok dbg m v : valid m v -> 0 < pn v -> nfront dbg m v = Ok (nth 0 (text m v) 0).
Proof.
  intros V H. unfold nfront. destruct v as [[o|] n]; unfold valid in V; cbn [pp pn nullp] in *; [|lia].
  rewrite chk_true by lia. cbn [deref]. rewrite rd_ok by lia. rewrite (nth_slice0 m o n) by lia. reflexivity.
Qed.
Lemma nback_ok dbg m v : valid m v -> 0 < pn v -> nback dbg m v = Ok (last (text m v) 0).
Proof.
  intros V H. pose proof (text_len m v V) as L. unfold nback. destruct v as [[o|] n]; unfold valid in V; cbn [pp pn nullp] in *; [|lia].
  rewrite chk_true by lia. cbn [padd bind deref]. rewrite rd_ok by lia. f_equal.
  unfold text in *; cbn [pp pn] in *.
  assert (E : byte_at (slice m o n) (n - 1) = byte_at m (o + (n - 1))) by (apply byte_at_slice; lia).
  replace (o + n + -1) with (o + (n - 1)) by lia. rewrite <- E. unfold byte_at.
  destruct (@exists_last Z (slice m o n)) as (r & x & Hr). { intros K. rewrite K in L. cbn in L. lia. }
  rewrite Hr, last_last. rewrite Hr in L. rewrite len_app in L. change (len [x]) with 1 in L.
  replace (Z.to_nat (n - 1)) with (length r) by (unfold len in L; lia). rewrite app_nth2 by lia. rewrite Nat.sub_diag. reflexivity.
Qed.
Lemma nend_empty m v : pn v = 0 -> nfront true m v = Err /\ nback true m v = Err.
Proof. intros H. unfold nfront, nback. rewrite H. split; reflexivity. Qed.

(** ** comparing *)
Lemma for_up_ext {A} (f g : Z -> res (option A)) n i :
  (forall k, i <= k < i + Z.of_nat n -> f k = g k) -> for_up n i f = for_up n i g.
Proof.
  revert i; induction n as [|n IH]; intros i H; cbn [for_up]; [reflexivity|].
  rewrite (H i) by lia. destruct (g i) as [[a|]| |]; cbn [bind]; try reflexivity. apply IH. intros k Hk. apply H. lia.
Qed.
Lemma ncompare_text dbg m v w : valid m v -> valid m w -> ncompare dbg m v w = compare (text m v) (text m w).
Proof.
  intros V W. unfold ncompare. rewrite (chk_true dbg _ _ (valid_flag m w W)), (chk_true dbg _ _ (valid_flag m v V)).
  unfold compare. rewrite (text_len m v V), (text_len m w W).
  destruct v as [[a|] n], w as [[b|] k]; unfold valid, text in *; cbn [pp pn] in *.
  - erewrite for_up_ext; [reflexivity|]. intros i Hi. cbn beta.
    assert (i < n /\ i < k) by (destruct (n <? k) eqn:E; lia).
    rewrite !rd_ok by (rewrite ?len_slice; lia). cbn [bind].
    rewrite !byte_at_slice by lia. reflexivity.
  - subst k. replace (Z.to_nat (if n <? 0 then n else 0)) with 0%nat by (destruct (n <? 0) eqn:E; lia).
    cbn [for_up bind]. destruct (n =? 0) eqn:E.
    + rewrite chk_true by reflexivity. replace (n <? 0) with false by lia. reflexivity.
    + replace (n <? 0) with false by lia. reflexivity.
  - subst n. replace (Z.to_nat (if 0 <? k then 0 else k)) with 0%nat by (destruct (0 <? k) eqn:E; lia).
    cbn [for_up bind]. destruct (0 =? k) eqn:E.
    + rewrite chk_true by lia. replace (0 <? k) with false by lia. reflexivity.
    + replace (0 <? k) with true by lia. reflexivity.
  - subst n k. cbn. unfold chk. rewrite andb_false_r. reflexivity.
Qed.
Lemma ncompare_ok dbg m v w : bytes m -> valid m v -> valid m w ->
  exists c, ncompare dbg m v w = Ok c /\ (c < 0 <-> lex schar_lt (text m v) (text m w)) /\
    (c = 0 <-> text m v = text m w) /\ (c > 0 <-> lex schar_lt (text m w) (text m v)).
Proof.
  intros B V W. rewrite ncompare_text by assumption. apply compare_spec; apply text_bytes; assumption.
Qed.
Lemma ncompare_c_text dbg m v c : valid m v -> ncompare_c dbg m v c = compare_char (text m v) c.
Proof.
  intros V. unfold ncompare_c. rewrite (chk_true dbg _ _ (valid_flag m v V)). unfold compare_char. rewrite (text_len m v V).
  destruct v as [[o|] n]; unfold valid, text in *; cbn [pp pn nullp negb andb] in *.
  - destruct (0 <? n) eqn:E.
    + cbn [deref]. rewrite rd_ok by lia. cbn [bind]. rewrite (nth_slice0 m o n) by lia. reflexivity.
    + unfold compare_char_n. rewrite E. reflexivity.
  - subst n. reflexivity.
Qed.
Lemma ncompare_c_ok dbg m v c : bytes m -> is_byte c -> len m < 2 ^ 31 -> valid m v ->
  exists z, ncompare_c dbg m v c = Ok z /\ (z < 0 <-> lex schar_lt (text m v) [c]) /\
    (z = 0 <-> text m v = [c]) /\ (z > 0 <-> lex schar_lt [c] (text m v)).
Proof.
  intros B C L V. rewrite ncompare_c_text by assumption.
  destruct (compare_char_sgn (text m v) c) as (z & k & E & Ez & Hk); [apply text_bytes; assumption|assumption| |].
  { rewrite (text_len m v V). pose proof (valid_nonneg m v V). lia. }
  destruct (compare_spec (text m v) [c]) as (k' & E' & H1 & H2 & H3); [apply text_bytes; assumption|constructor; [assumption|constructor]|].
  rewrite E in E'. injection E' as <-. exists z. split; [exact Ez|]. rewrite <- H1, <- H2, <- H3. lia.
Qed.

(** ** parts *)
Lemma nis_super_null m v w : valid m v -> valid m w -> pp v = None \/ pp w = None -> nis_super v w = Ok false.
Proof.
  intros V W H. unfold nis_super. destruct v as [[a|] n], w as [[b|] k]; unfold valid in *; cbn [pp pn] in *.
  - destruct H; discriminate.
  - subst k. destruct (0 <? n); cbn; reflexivity.
  - subst n. cbn. rewrite andb_false_r. reflexivity.
  - subst n k. reflexivity.
Qed.
Lemma parts_null dbg m v w : valid m v -> valid m w -> pn w = 0 -> pp v = None \/ pp w = None ->
  nleft_of dbg v w = Ok (PV (pp v) 0) /\ nright_of dbg v w = Ok (PV (pp v) 0).
Proof.
  intros V W Hw H. unfold nleft_of, nright_of.
  assert (S : exists b, (if dbg then nis_super v w else Ok true) = Ok b).
  { destruct dbg; [exists false; eapply nis_super_null; eassumption|eexists; reflexivity]. }
  destruct S as (b & ->). cbn [bind].
  assert (E : nempty w = true) by (unfold nempty; rewrite Hw; reflexivity). rewrite E, orb_true_r.
  rewrite !chk_true by reflexivity. pose proof (valid_nonneg m v V) as N.
  assert (S0 : nsub2 dbg v 0 0 = Ok (PV (pp v) 0)).
  { unfold nsub2. replace (0 =? npos) with false by reflexivity. cbn zeta. rewrite !chk_true; try lia.
    destruct (pp v); cbn; [rewrite Z.add_0_r|]; reflexivity. }
  destruct v as [[a|] n], w as [[c|] k]; unfold valid in *; cbn [pp pn] in *; subst.
  - destruct H; discriminate.
  - cbn [padd bind]. rewrite Z.eqb_refl. cbn [bind ple plt negb andb]. split; exact S0.
  - cbn [padd bind]. rewrite Z.eqb_refl. cbn [bind ple plt negb andb]. split; exact S0.
  - cbn [padd bind]. rewrite Z.eqb_refl. cbn [bind ple plt negb andb pdiff]. split; exact S0.
Qed.
