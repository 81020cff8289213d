(** Splitting, replace_all and the in-place edits. *)
From Verif Require Import Base BaseLemmas ScanModel CharconvSpec SubstrModel SubstrSpec SubstrProofs SubstrProofs2 SubstrProofs3 SubstrProofs4.

(** ** split *)
Definition sep_free (sep : Z) (l : list Z) : Prop := ~ In sep l.

Lemma join_cons sep x l : l <> [] -> join sep (x :: l) = x ++ sep ++ join sep l.
Proof. destruct l; [congruence|reflexivity]. Qed.

(** a non-empty list of separator-free pieces is determined by its join *)
Lemma head_unique sep (x y s t : list Z) : ~ In sep x -> ~ In sep y -> x ++ sep :: s = y ++ sep :: t -> x = y /\ s = t.
Proof.
  revert y. induction x as [|a x IH]; intros [|b y] Hx Hy E; cbn in E.
  - inversion E; auto.
  - inversion E; subst. destruct Hy; left; auto.
  - inversion E; subst. destruct Hx; left; auto.
  - inversion E; subst. destruct (IH y) as [-> ->]; auto; intros X; [apply Hx|apply Hy]; right; auto.
Qed.
Lemma join_inj sep l l' : l <> [] -> l' <> [] -> Forall (sep_free sep) l -> Forall (sep_free sep) l' ->
  join [sep] l = join [sep] l' -> l = l'.
Proof.
  revert l'. induction l as [|x l IH]; intros l' H1 H2 F1 F2 E; [congruence|].
  destruct l' as [|y l']; [congruence|]. inversion F1; subst. inversion F2; subst.
  destruct l as [|x2 l].
  - destruct l' as [|y2 l']. { cbn in E. congruence. }
    rewrite (join_cons [sep] y (y2 :: l')) in E by discriminate. change (join [sep] [x]) with x in E. destruct (H3 : ~ In sep x). rewrite E. apply in_or_app. right; left; auto.
  - destruct l' as [|y2 l'].
    + rewrite (join_cons [sep] x (x2 :: l)) in E by discriminate. change (join [sep] [y]) with y in E. destruct (H5 : ~ In sep y). rewrite <- E. apply in_or_app. right; left; auto.
    + rewrite !(join_cons [sep]) in E by discriminate. cbn [app] in E. apply head_unique in E; auto. destruct E as [-> E].
      f_equal. apply IH; auto; discriminate.
Qed.

(** the start positions reachable by next_split: a piece begins there *)
Definition piece_start (s : list Z) (sep start : Z) : Prop :=
  0 <= start /\ (start < len s \/ start = len s /\ 0 < len s /\ byte_at s (len s - 1) = sep).

Lemma next_split_ok s sep start : piece_start s sep start ->
  exists v start', next_split s sep start = Ok (true, start', v) /\ vin v s /\ vo v = start /\
    sep_free sep (contents s v) /\
    ((start' = len s + 1 /\ contents s v = skipn (Z.to_nat start) s) \/
     (start < start' /\ piece_start s sep start' /\
      skipn (Z.to_nat start) s = contents s v ++ sep :: skipn (Z.to_nat start') s)).
Proof.
  intros (H0 & H). unfold next_split. pose proof (nonneg_len s). destruct (Z.ltb_spec start (len s)).
  - destruct (fwd_from_ok s (fun x => x =? sep) start) as (o & E & Ho); [lia|]. cbn [fwd_from] in E. rewrite E. cbn [bind].
    destruct o as [i|]; cbn in Ho.
    + destruct Ho as (H3 & H4 & H5). eexists _, _. split; [reflexivity|]. split; [apply vin_view; lia|]. split; [reflexivity|].
      split.
      * intros Hin. apply in_byte_at in Hin. destruct Hin as (j & Hj & Ej). rewrite contents_slice in *. rewrite len_slice in Hj by lia.
        rewrite byte_at_slice in Ej by lia. apply (H5 (start + j)); [lia|]. apply Z.eqb_eq; auto.
      * right. split; [lia|]. split.
        { unfold piece_start. split; [lia|]. destruct (Z.eq_dec (i + 1) (len s)); [right|left; lia]. repeat split; try lia.
          replace (len s - 1) with i by lia. apply Z.eqb_eq; auto. }
        apply Z.eqb_eq in H4. assert (sep :: skipn (Z.to_nat (i + 1)) s = skipn (Z.to_nat i) s) as -> by (rewrite (skipn_at s i), H4 by lia; reflexivity). rewrite contents_slice.
        unfold slice. rewrite <- (firstn_skipn (Z.to_nat (i - start)) (skipn (Z.to_nat start) s)) at 1. f_equal.
        rewrite skipn_skipn. f_equal. lia.
    + eexists _, _. split; [reflexivity|]. split; [apply vin_view; lia|]. split; [reflexivity|].
      rewrite contents_slice, slice_skipn by lia. split; [|left; auto].
      intros Hin. apply in_byte_at in Hin. destruct Hin as (j & Hj & Ej). rewrite len_skipn in Hj by lia.
      rewrite byte_at_skipn in Ej by lia. apply (Ho (start + j)); [lia|]. apply Z.eqb_eq; auto.
  - destruct H as [H|(H3 & H4 & H5)]; [lia|]. subst start. replace ((0 <? len s) && (len s =? len s)) with true by lia.
    rewrite rd_ok by lia. cbn [bind]. rewrite H5, Z.eqb_refl. eexists _, _. split; [reflexivity|].
    split; [apply vin_view; lia|]. split; [reflexivity|]. rewrite contents_slice. change (slice s (len s) 0) with (@nil Z). split; [intros []|]. left. split; auto.
    rewrite skipn_len. reflexivity.
Qed.
Lemma next_split_end s sep start : len s < start -> next_split s sep start = Ok (false, len s + 1, View (len s + 1) 0).
Proof.
  intros. unfold next_split. pose proof (nonneg_len s). replace (start <? len s) with false by lia.
  replace ((0 <? len s) && (start =? len s)) with false by lia. reflexivity.
Qed.
Lemma next_split_empty sep : next_split [] sep 0 = Ok (false, 1, View 1 0).
Proof. reflexivity. Qed.

Lemma split_while_ok s sep : forall k start, (Z.to_nat (len s - start) <= k)%nat -> piece_start s sep start ->
  exists vs, (forall fuel, len s - start + 2 <= Z.of_nat fuel -> split_while fuel s sep start = Ok vs) /\
    vs <> [] /\ Forall (fun v => vin v s) vs /\ Forall (fun v => sep_free sep (contents s v)) vs /\
    join [sep] (map (contents s) vs) = skipn (Z.to_nat start) s.
Proof.
  induction k as [|k IH]; intros start Hk Hs; destruct (next_split_ok s sep start Hs) as (v & start' & E & Hv & Hvo & Hf & HD).
  - destruct HD as [(-> & Hc)|(Hlt & Hps & _)].
    2:{ exfalso. destruct Hps as (X1 & [X2|X2]); lia. }
    exists [v]. repeat split; auto; try discriminate.
    + intros fuel Hfu. destruct Hs as (X1 & X2). destruct fuel as [|[|fuel]]; try lia. cbn [split_while]. rewrite E. cbn [bind].
      rewrite next_split_end by lia. reflexivity.
  - destruct HD as [(-> & Hc)|(Hlt & Hps & Hc)].
    + exists [v]. repeat split; auto; try discriminate.
      intros fuel Hfu. destruct Hs as (X1 & X2). destruct fuel as [|[|fuel]]; try lia. cbn [split_while]. rewrite E. cbn [bind].
      rewrite next_split_end by lia. reflexivity.
    + destruct (IH start') as (vs & HE & Hne & Hin & Hfr & Hj); auto; try lia.
      exists (v :: vs). split.
      { intros fuel Hfu. destruct Hs as (X1 & X2). destruct fuel as [|fuel]; try lia. cbn [split_while]. rewrite E. cbn [bind].
        rewrite HE by lia. reflexivity. }
      repeat split; auto; try discriminate. cbn [map]. rewrite join_cons. 2:{ destruct vs; [congruence|discriminate]. }
      rewrite Hj, Hc. reflexivity.
Qed.

(** the iterator visits the same pieces *)
Lemma split_iter_while s sep : forall fuel start it, 0 <= start ->
  (start = len s -> len s = 0 \/ byte_at s (len s - 1) = sep) ->
  it_make s sep start = Ok it ->
  split_iter fuel s sep it (View (len s + 1) 0, len s + 1) = split_while fuel s sep start.
Proof.
  induction fuel as [|fuel IH]; intros start it H0 H1 E; [reflexivity|]. cbn [split_iter split_while].
  pose proof (nonneg_len s). unfold it_make in E.
  destruct (Z.ltb_spec (len s) start) as [Hgt|Hle].
  { rewrite next_split_end in * by lia. cbn [bind] in *. inversion E; subst. unfold it_eq. cbn.
    rewrite !Z.eqb_refl. reflexivity. }
  destruct (Z.eq_dec (len s) 0) as [Hz|Hz].
  { apply len_0_nil in Hz. subst s. cbn in Hle. replace start with 0 in * by lia. rewrite next_split_empty in *.
    cbn [bind] in *. inversion E; subst. reflexivity. }
  assert (Hps : piece_start s sep start).
  { split; auto. destruct (Z.eq_dec start (len s)); [right|left; lia]. destruct H1; auto; lia. }
  destruct (next_split_ok s sep start Hps) as (v & start' & E' & Hv & Hvo & Hf & HD). rewrite E' in *. cbn [bind] in *.
  inversion E; subst it. unfold it_eq. cbn [fst snd vo vl]. rewrite Hvo.
  replace ((vl v =? 0) && (start =? len s + 1) && (start' =? len s + 1)) with false by lia.
  assert (X : exists it', it_make s sep start' = Ok it' /\ 0 <= start' /\ (start' = len s -> len s = 0 \/ byte_at s (len s - 1) = sep)).
  { destruct HD as [(-> & _)|(Hlt & Hps' & _)].
    - unfold it_make. rewrite next_split_end by lia. eexists; split; [reflexivity|]. lia.
    - destruct (next_split_ok s sep start' Hps') as (v' & s'' & E'' & _). unfold it_make. rewrite E''.
      eexists; split; [reflexivity|]. destruct Hps' as (X1 & X2). split; auto. intros ->. right. destruct X2 as [X2|X2]; [lia|tauto]. }
  destruct X as (it' & Eit & Y1 & Y2). rewrite Eit. cbn [bind]. rewrite (IH start' it') by auto. reflexivity.
Qed.
Lemma split_ok s sep start : 0 <= start < len s \/ len s = 0 /\ start = 0 ->
  exists vs, split s sep start = Ok vs /\ split_while (Z.to_nat (len s) + 3) s sep start = Ok vs /\
    Forall (fun v => vin v s) vs /\ Forall (fun v => sep_free sep (contents s v)) vs /\
    join [sep] (map (contents s) vs) = skipn (Z.to_nat start) s /\ (vs = [] <-> s = []).
Proof.
  intros H. pose proof (nonneg_len s). unfold split, assert.
  replace (((0 <=? start) && (start <? len s)) || (len s =? 0)) with true by lia.
  assert (Efin : it_make s sep (len s + 1) = Ok (View (len s + 1) 0, len s + 1)).
  { unfold it_make. rewrite next_split_end by lia. reflexivity. }
  destruct H as [H|[H H']].
  - assert (Hps : piece_start s sep start) by (split; lia).
    destruct (next_split_ok s sep start Hps) as (v & s' & E & _).
    assert (Eit : it_make s sep start = Ok (v, s')) by (unfold it_make; rewrite E; reflexivity).
    rewrite Eit, Efin. cbn [bind].
    destruct (split_while_ok s sep (Z.to_nat (len s - start)) start) as (vs & HE & Hne & Hin & Hfr & Hj); auto.
    exists vs. rewrite (split_iter_while s sep _ start (v, s')) by (auto; lia). rewrite HE by lia.
    repeat split; auto; try congruence. intros ->. cbn in H. lia.
  - apply len_0_nil in H. subst. exists []. repeat split; auto.
Qed.

(** ** replace_all *)
Lemma rep_gap s pat repl pos q o : 0 <= pos <= q -> q <= len s -> (forall j, pos <= j < q -> ~ occurs s pat j) ->
  replaced pat repl (skipn (Z.to_nat q) s) o -> replaced pat repl (skipn (Z.to_nat pos) s) (slice s pos (q - pos) ++ o).
Proof.
  intros H1 H2 H3 HO. remember (Z.to_nat (q - pos)) as k. revert pos H1 H3 Heqk.
  induction k as [|k IH]; intros pos H1 H3 Hk.
  - replace pos with q by lia. rewrite Z.sub_diag. cbn. auto.
  - unfold slice. rewrite (skipn_at s pos) by lia. replace (Z.to_nat (q - pos)) with (S (Z.to_nat (q - (pos + 1)))) by lia.
    cbn [firstn app]. apply rep_miss.
    + intros x Hx. apply (H3 pos); [lia|]. apply occurs_skipn; [lia|]. exists x. rewrite skipn_at by lia. auto.
    + apply IH; try lia. intros j Hj. apply H3. lia.
Qed.
Lemma replaced_fun pat repl s n m : pat <> [] -> replaced pat repl s n -> replaced pat repl s m -> n = m.
Proof.
  intros Hp H. revert m. induction H as [|r n H IH|c r n Hm H IH]; intros m H'.
  - inversion H'; subst; auto. destruct pat; [congruence|discriminate].
  - inversion H' as [E|r' n' H'' E|c' r' n' Hm H'' E]; subst.
    + destruct pat; [congruence|discriminate].
    + apply app_inv_head in E. subst. f_equal. apply IH; auto.
    + destruct (Hm r). auto.
  - inversion H' as [E|r' n' H'' E|c' r' n' Hm' H'' E]; subst.
    + destruct (Hm r'). auto.
    + f_equal. apply IH; auto.
Qed.
Lemma same_outside_refl m b : same_outside m m b.
Proof. split; auto. Qed.
Lemma same_outside_trans m1 m2 m3 b : same_outside m1 m2 b -> same_outside m2 m3 b -> same_outside m1 m3 b.
Proof. intros (H1 & H2) (H3 & H4). split; [lia|]. intros k K1 K2. rewrite H4, H2; auto. Qed.
Lemma same_outside_vin m m' b : same_outside m m' b -> vin b m -> vin b m'.
Proof. intros (H1 & _) (H2 & H3 & H4). unfold vin. lia. Qed.

Lemma c4append_ok d dv sz piece : vin dv d -> 0 <= sz -> sz + len piece < 2 ^ 64 ->
  exists d', c4append d dv sz piece = Ok (d', sz + len piece) /\ same_outside d d' dv /\
    (sz + len piece <= vl dv ->
     contents d' (View (vo dv) (sz + len piece)) = contents d (View (vo dv) sz) ++ piece).
Proof.
  intros (V1 & V2 & V3) H1 H2. unfold c4append. pose proof (nonneg_len piece). rewrite u64_id by lia.
  destruct (Z.ltb_spec 0 (len piece)); cbn [andb].
  - destruct (Z.leb_spec (sz + len piece) (vl dv)).
    + rewrite wrs_ok by lia. cbn [bind]. eexists; split; [reflexivity|]. split.
      * split; [apply len_blit; lia|]. intros k K1 K2. rewrite nth_blit by lia.
        replace ((vo dv + sz <=? k) && (k <? vo dv + sz + len piece)) with false by lia. auto.
      * intros _. rewrite !contents_slice. apply list_eq_at.
        { rewrite len_app, !len_slice; rewrite ?len_blit; lia. }
        rewrite len_slice by (rewrite ?len_blit; lia). intros i Hi. rewrite byte_at_slice by lia.
        unfold byte_at at 1. rewrite nth_blit by lia.
        destruct (Z.ltb_spec i sz).
        -- rewrite byte_at_app1 by (rewrite len_slice; lia). rewrite byte_at_slice by lia.
           replace (vo dv + sz <=? vo dv + i) with false by lia. reflexivity.
        -- rewrite byte_at_app2 by (rewrite len_slice; lia). rewrite len_slice by lia.
           replace ((vo dv + sz <=? vo dv + i) && (vo dv + i <? vo dv + sz + len piece)) with true by lia.
           unfold byte_at. f_equal. lia.
    + eexists; split; [reflexivity|]. split; [apply same_outside_refl|]. lia.
  - eexists; split; [reflexivity|]. split; [apply same_outside_refl|]. intros _.
    rewrite (len_0_nil piece) by lia. rewrite app_nil_r, len_nil, Z.add_0_r. reflexivity.
Qed.

Lemma replace_all_loop_ok s pat repl dv : pat <> [] -> forall k b, (Z.to_nat (len s - b) <= k)%nat -> 0 <= b <= len s ->
  exists o, replaced pat repl (skipn (Z.to_nat b) s) o /\
    forall fuel d sz, len s - b < Z.of_nat fuel -> vin dv d -> 0 <= sz -> sz + len o < 2 ^ 64 ->
    exists d', replace_all_loop fuel s pat repl d dv b sz = Ok (d', sz + len o) /\ same_outside d d' dv /\
      (sz + len o <= vl dv -> contents d' (View (vo dv) (sz + len o)) = contents d (View (vo dv) sz) ++ o).
Proof.
  intros Hp. assert (Hl : 0 < len pat) by (destruct pat; [congruence|rewrite len_cons; pose proof (nonneg_len pat); lia]).
  induction k as [|k IH]; intros b Hk Hb.
  - assert (b = len s) by lia. subst b. rewrite skipn_len. exists []. split; [constructor|].
    intros fuel d sz Hf Hv Hsz Ho. destruct fuel as [|fuel]; [lia|]. cbn [replace_all_loop].
    destruct (find_ok s pat (len s)) as (e & E & He); [lia|]. rewrite E. cbn [bind].
    destruct e as [e|]. { destruct He as (He & Hoc & _). rewrite occurs_slice in Hoc. lia. }
    rewrite Z.sub_diag. change (slice s (len s) 0) with (@nil Z).
    apply c4append_ok; auto.
  - destruct (find_ok s pat b) as (e & E & He); [lia|]. destruct e as [e|].
    + destruct He as (He & Hoc & Hmin). pose proof Hoc as Hoc'. rewrite occurs_slice in Hoc'.
      destruct (IH (e + len pat)) as (o & Ho & HF); try lia.
      assert (HR : replaced pat repl (skipn (Z.to_nat b) s) (slice s b (e - b) ++ repl ++ o)).
      { apply rep_gap; auto; try lia.
        assert (skipn (Z.to_nat e) s = pat ++ skipn (Z.to_nat (e + len pat)) s) as ->.
        { destruct Hoc' as (X1 & X2 & X3). rewrite <- X3 at 1. unfold slice.
          rewrite <- (firstn_skipn (Z.to_nat (len pat)) (skipn (Z.to_nat e) s)) at 1. f_equal.
          rewrite skipn_skipn. f_equal. lia. }
        apply rep_hit; auto. }
      exists (slice s b (e - b) ++ repl ++ o). split; auto.
      intros fuel d sz Hf Hv Hsz Hlen. destruct fuel as [|fuel]; [lia|]. cbn [replace_all_loop]. rewrite E. cbn [bind].
      rewrite !len_app in *. rewrite len_slice in * by lia. pose proof (nonneg_len repl). pose proof (nonneg_len o).
      destruct (c4append_ok d dv sz (slice s b (e - b))) as (d1 & E1 & S1 & C1); auto; try (rewrite len_slice; lia).
      rewrite E1. cbn [bind]. rewrite len_slice in * by lia.
      destruct (c4append_ok d1 dv (sz + (e - b)) repl) as (d2 & E2 & S2 & C2); try lia; eauto using same_outside_vin.
      rewrite E2. cbn [bind]. destruct (Z.ltb_spec (e + len pat) (len s)).
      * destruct (HF fuel d2 (sz + (e - b) + len repl)) as (d3 & E3 & S3 & C3); try lia; eauto using same_outside_vin.
        rewrite E3. exists d3. split; [do 2 f_equal; lia|]. split; [eauto using same_outside_trans|].
        intros Hc. replace (sz + (e - b + (len repl + len o))) with (sz + (e - b) + len repl + len o) by lia.
        rewrite C3, C2, C1 by lia. rewrite <- !app_assoc. reflexivity.
      * assert (o = []).
        { apply (replaced_fun pat repl (skipn (Z.to_nat (e + len pat)) s)); auto.
          replace (e + len pat) with (len s) by lia. rewrite skipn_len. constructor. }
        subst o. rewrite len_nil, app_nil_r in *. exists d2. split; [do 2 f_equal; lia|]. split; [eauto using same_outside_trans|].
        intros Hc. replace (sz + (e - b + (len repl + 0))) with (sz + (e - b) + len repl) by lia.
        rewrite C2, C1 by lia. rewrite <- app_assoc. reflexivity.
    + exists (slice s b (len s - b)). split.
      { rewrite <- (app_nil_r (slice s b (len s - b))). apply rep_gap; try lia.
        - intros j Hj. apply He. lia.
        - rewrite skipn_len. constructor. }
      intros fuel d sz Hf Hv Hsz Ho. destruct fuel as [|fuel]; [lia|]. cbn [replace_all_loop]. rewrite E. cbn [bind].
      apply c4append_ok; auto.
Qed.
Lemma replace_all_ok s pat repl pos d dv : pat <> [] -> 0 <= pos <= len s -> vin dv d ->
  exists o, replaced pat repl (skipn (Z.to_nat pos) s) o /\
  (pos + len o < 2 ^ 64 ->
   exists d', replace_all s d dv pat repl pos = Ok (d', pos + len o) /\ same_outside d d' dv /\
     (pos + len o <= vl dv ->
      contents d' (View (vo dv) (pos + len o)) = firstn (Z.to_nat pos) s ++ o)).
Proof.
  intros Hp Hpos Hv. destruct (replace_all_loop_ok s pat repl dv Hp (Z.to_nat (len s - pos)) pos) as (o & Ho & HF); auto.
  exists o. split; auto. intros Hlen. unfold replace_all, assert.
  assert (Hl : 0 < len pat) by (destruct pat; [congruence|rewrite len_cons; pose proof (nonneg_len pat); lia]).
  replace (len pat =? 0) with false by lia. cbn [negb]. replace ((0 <=? pos) && (pos <=? len s)) with true by lia.
  pose proof (nonneg_len o).
  assert (Lp : len (slice s 0 pos) = pos) by (apply len_slice; lia).
  destruct (c4append_ok d dv 0 (slice s 0 pos)) as (d1 & E1 & S1 & C1); auto; try lia.
  rewrite E1. cbn [bind]. rewrite Lp, Z.add_0_l in *.
  destruct (HF (S (Z.to_nat (len s))) d1 pos) as (d2 & E2 & S2 & C2); try lia; eauto using same_outside_vin.
  rewrite E2. exists d2. split; auto. split; [eauto using same_outside_trans|]. intros Hc.
  rewrite C2, C1 by lia. rewrite contents_slice, slice_0. reflexivity.
Qed.
