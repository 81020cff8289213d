(** Proofs about the counters and about the malloc-based resource. *)
From Verif Require Import Base BaseLemmas SubstrModel MemUtilModel MemUtilProofs2 SpanProofs MemResModel MemResSpec MemResProofs.

(** ** Counters *)
Definition wn (b : Z * Z) : Z := if fst b =? 0 then 0 else 1.
Definition wb (b : Z * Z) : Z := if fst b =? 0 then 0 else snd b.
Lemma number_cons b l : number (b :: l) = wn b + number l.
Proof. unfold number, wn. cbn [filter]. destruct (fst b =? 0); cbn [negb]; rewrite ?len_cons; lia. Qed.
Lemma bytes_cons b l : bytes (b :: l) = wb b + bytes l.
Proof. unfold bytes, wb. simpl. destruct (fst b =? 0); reflexivity. Qed.
Lemma number_app l l' : number (l ++ l') = number l + number l'.
Proof. unfold number. rewrite filter_app, len_app. reflexivity. Qed.
Lemma bytes_app l l' : bytes (l ++ l') = bytes l + bytes l'.
Proof.
  induction l as [|b l IH]; simpl app.
  - unfold bytes at 2. simpl. lia.
  - rewrite !bytes_cons. lia.
Qed.
Lemma number_nil : number [] = 0. Proof. reflexivity. Qed.
Lemma bytes_nil : bytes [] = 0. Proof. reflexivity. Qed.
Lemma number_pos l : 0 <= number l.
Proof. unfold number, len. lia. Qed.
Lemma bytes_pos l : Forall (fun b => 0 <= snd b) l -> 0 <= bytes l.
Proof.
  induction 1 as [|b l H _ IH]; [rewrite bytes_nil; lia|].
  rewrite bytes_cons. unfold wb. destruct (fst b =? 0); lia.
Qed.
Lemma measure_drop l i b : nth_error l i = Some b ->
  number (drop_nth l i) = number l - wn b /\ bytes (drop_nth l i) = bytes l - wb b.
Proof.
  revert i. induction l as [|h t IH]; intros [|i] E; try discriminate; simpl in *.
  - injection E as ->. rewrite number_cons, bytes_cons. lia.
  - rewrite !number_cons, !bytes_cons. destruct (IH i E). lia.
Qed.
Lemma measure_upd l i b x : nth_error l i = Some b ->
  number (upd l i x) = number l - wn b + wn x /\ bytes (upd l i x) = bytes l - wb b + wb x.
Proof.
  revert i. induction l as [|h t IH]; intros [|i] E; try discriminate; simpl in *.
  - injection E as ->. rewrite !number_cons, !bytes_cons. lia.
  - rewrite !number_cons, !bytes_cons. destruct (IH i E). lia.
Qed.
Lemma drop_none {A} (l : list A) i : nth_error l i = None -> drop_nth l i = l.
Proof.
  revert i. induction l as [|h t IH]; intros [|i] E; try discriminate; auto. simpl. rewrite IH; auto.
Qed.
Lemma upd_none {A} (l : list A) i x : nth_error l i = None -> upd l i x = l.
Proof.
  revert i. induction l as [|h t IH]; intros [|i] E; try discriminate; auto. simpl. rewrite IH; auto.
Qed.
Lemma Forall_drop {A} (P : A -> Prop) l i : Forall P l -> Forall P (drop_nth l i).
Proof. rewrite !Forall_forall. intros H x X. apply in_drop in X. auto. Qed.
Lemma Forall_upd {A} (P : A -> Prop) l i x : Forall P l -> P x -> Forall P (upd l i x).
Proof. rewrite !Forall_forall. intros H X y Y. apply in_upd in Y. destruct Y as [Y| ->]; auto. Qed.
Lemma measure_in l i b : Forall (fun b => 0 <= snd b) l -> nth_error l i = Some b ->
  wn b <= number l /\ wb b <= bytes l.
Proof.
  intros F E. destruct (measure_drop l i b E) as [H1 H2].
  pose proof (number_pos (drop_nth l i)). pose proof (bytes_pos _ (Forall_drop _ l i F)). lia.
Qed.

Lemma i64_range z : in_range i64 z <-> - 2 ^ 63 <= z < 2 ^ 63.
Proof. unfold in_range. change (imin i64) with (- 2 ^ 63). change (imax i64) with (2 ^ 63 - 1). lia. Qed.
Lemma add_counts_ok c p sz :
  0 <= ia (ccurr c) -> 0 <= isz (ccurr c) -> ia (ccurr c) <= ia (ctotal c) -> isz (ccurr c) <= isz (ctotal c) ->
  0 <= sz -> ia (ctotal c) + wn (p, sz) < 2 ^ 63 -> isz (ctotal c) + wb (p, sz) < 2 ^ 63 ->
  exists c', add_counts c p sz = Ok c' /\
    ia (ccurr c') = ia (ccurr c) + wn (p, sz) /\ isz (ccurr c') = isz (ccurr c) + wb (p, sz) /\
    ia (ctotal c') = ia (ctotal c) + wn (p, sz) /\ isz (ctotal c') = isz (ctotal c) + wb (p, sz) /\
    (p = 0 /\ cmax c' = cmax c \/
     ia (cmax c') = Z.max (ia (cmax c)) (ia (ccurr c')) /\ isz (cmax c') = Z.max (isz (cmax c)) (isz (ccurr c'))).
Proof.
  intros A1 A2 A3 A4 Z0 B1 B2. unfold wn, wb in *. cbn [fst snd] in *. unfold add_counts.
  destruct (p =? 0) eqn:E.
  - exists c. apply Z.eqb_eq in E. split; [reflexivity|]. repeat (split; [lia|]). left. split; [exact E|reflexivity].
  - unfold item_add, sadd. rewrite (wrap_id i64 sz) by (apply i64_range; lia).
    repeat (rewrite arith_id by (apply i64_range; lia); cbn [bind]).
    eexists. split; [reflexivity|]. cbn. repeat (split; [lia|]).
    right. destruct (_ <? _) eqn:X, (isz (ccurr c) + sz <? isz (cmax c)) eqn:Y; lia.
Qed.
Lemma rem_counts_ok c p sz :
  0 <= ia (ccurr c) < 2 ^ 63 -> 0 <= isz (ccurr c) < 2 ^ 63 -> 0 <= sz ->
  wn (p, sz) <= ia (ccurr c) -> wb (p, sz) <= isz (ccurr c) ->
  rem_counts c p sz = Ok (Counts (Item (ia (ccurr c) - wn (p, sz)) (isz (ccurr c) - wb (p, sz))) (ctotal c) (cmax c)).
Proof.
  intros A1 A2 Z0 B1 B2. unfold wn, wb in *. cbn [fst snd] in *. unfold rem_counts.
  destruct (p =? 0) eqn:E.
  - rewrite !Z.sub_0_r. destruct c as [[] ? ?]. reflexivity.
  - unfold item_rem, ssub. rewrite (wrap_id i64 sz) by (apply i64_range; lia).
    repeat (rewrite arith_id by (apply i64_range; lia); cbn [bind]). reflexivity.
Qed.

Definition cinv (c : counts) (live : list (Z * Z)) : Prop :=
  Forall (fun b => 0 <= snd b) live /\
  ia (ccurr c) = number live /\ isz (ccurr c) = bytes live /\
  number live <= ia (ctotal c) /\ bytes live <= isz (ctotal c) /\
  number live <= ia (cmax c) /\ bytes live <= isz (cmax c).

Lemma mstep_ok c live o : cinv c live -> count_op o ->
  ia (ctotal c) + number (obtained live o) < 2 ^ 63 -> isz (ctotal c) + bytes (obtained live o) < 2 ^ 63 ->
  exists c', mstep (c, live) o = Ok (c', client live o) /\ cinv c' (client live o) /\
    ia (ctotal c') = ia (ctotal c) + number (obtained live o) /\
    isz (ctotal c') = isz (ctotal c) + bytes (obtained live o) /\
    ia (cmax c') = Z.max (ia (cmax c)) (number (client live o)) /\
    isz (cmax c') = Z.max (isz (cmax c)) (bytes (client live o)).
Proof.
  intros [F [C1 [C2 [C3 [C4 [C5 C6]]]]]] O B1 B2.
  pose proof (number_pos live) as NP. pose proof (bytes_pos live F) as BP.
  assert (exists c', Ok (c, live) = Ok (c', live) /\ cinv c' live /\
    ia (ctotal c') = ia (ctotal c) + number [] /\
    isz (ctotal c') = isz (ctotal c) + bytes [] /\
    ia (cmax c') = Z.max (ia (cmax c)) (number live) /\
    isz (cmax c') = Z.max (isz (cmax c)) (bytes live)) as SAME.
  { exists c. rewrite number_nil, bytes_nil. split; [reflexivity|]. split; [repeat split; auto; lia|]. lia. }
  destruct o as [sz [p|]|i|i n [q|]]; cbn [mstep client obtained] in *.
  - rewrite number_cons, number_nil in *. rewrite bytes_cons, bytes_nil in *. rewrite !Z.add_0_r in *.
    destruct (add_counts_ok c p sz) as [c' [E [R1 [R2 [R3 [R4 R5]]]]]]; try lia; [exact O|].
    rewrite E. cbn [bind]. exists c'. split; [reflexivity|].
    assert (number (live ++ [(p, sz)]) = number live + wn (p, sz)) as N1 by (rewrite number_app, number_cons, number_nil; lia).
    assert (bytes (live ++ [(p, sz)]) = bytes live + wb (p, sz)) as N2 by (rewrite bytes_app, bytes_cons, bytes_nil; lia).
    rewrite N1, N2.
    assert (ia (cmax c') = Z.max (ia (cmax c)) (number live + wn (p, sz)) /\ isz (cmax c') = Z.max (isz (cmax c)) (bytes live + wb (p, sz))) as [M1 M2].
    { destruct R5 as [[-> ->]|R5]; [unfold wn, wb; cbn; lia|]. destruct R5. lia. }
    split; [|lia]. unfold cinv. rewrite N1, N2. split; [apply Forall_app; split; auto|]. lia.
  - exact SAME.
  - destruct (nth_error live i) as [[p n]|] eqn:E.
    2: { rewrite drop_none by auto. exact SAME. }
    destruct (measure_in live i (p, n) F E) as [I1 I2]. destruct (measure_drop live i (p, n) E) as [D1 D2].
    assert (0 <= n) by (rewrite Forall_forall in F; apply (F (p, n)); eapply nth_error_In; eauto).
    rewrite number_nil, bytes_nil in *.
    rewrite rem_counts_ok by lia. cbn [bind]. eexists. split; [reflexivity|]. unfold cinv. cbn.
    assert (0 <= wn (p, n) /\ 0 <= wb (p, n)) by (unfold wn, wb; cbn; destruct (p =? 0); lia).
    rewrite D1, D2. split; [|lia]. split; [apply Forall_drop; auto|]. lia.
  - destruct O as [O _]. destruct (nth_error live i) as [[p m]|] eqn:E.
    2: { rewrite upd_none by auto. replace (i <? length live)%nat with false; [exact SAME|].
         apply nth_error_None in E. lia. }
    assert ((i < length live)%nat) as IL by (apply nth_error_Some; congruence).
    replace (i <? length live)%nat with true in * by lia.
    rewrite number_cons, number_nil in *. rewrite bytes_cons, bytes_nil in *. rewrite !Z.add_0_r in *.
    destruct (measure_in live i (p, m) F E) as [I1 I2]. destruct (measure_upd live i (p, m) (q, n) E) as [D1 D2].
    assert (0 <= m) by (rewrite Forall_forall in F; apply (F (p, m)); eapply nth_error_In; eauto).
    assert (0 <= wn (p, m) /\ 0 <= wb (p, m)) as [W1 W2] by (unfold wn, wb; cbn; destruct (p =? 0); lia).
    assert (0 <= wn (q, n) /\ 0 <= wb (q, n)) as [W3 W4] by (unfold wn, wb; cbn; destruct (q =? 0); lia).
    rewrite rem_counts_ok by lia. cbn [bind].
    match goal with |- context [add_counts ?c0 q n] => destruct (add_counts_ok c0 q n) as [c' [E' [R1 [R2 [R3 [R4 R5]]]]]]; cbn in *; try lia end.
    rewrite E'. cbn [bind]. exists c'. split; [reflexivity|]. rewrite D1, D2.
    assert (ia (cmax c') = Z.max (ia (cmax c)) (number live - wn (p, m) + wn (q, n)) /\ isz (cmax c') = Z.max (isz (cmax c)) (bytes live - wb (p, m) + wb (q, n))) as [M1 M2].
    { destruct R5 as [[-> ->]|R5]; [|destruct R5; lia]. unfold wn, wb in *; cbn in *. destruct (p =? 0); lia. }
    split; [|lia]. unfold cinv. rewrite D1, D2. split; [apply Forall_upd; auto|]. lia.
  - destruct O as [_ O]. contradiction.
Qed.

Lemma ever_pos os : forall live, Forall count_op os -> 0 <= number (ever live os) /\ 0 <= bytes (ever live os).
Proof.
  induction os as [|o os IH]; intros live F; cbn [ever].
  - rewrite number_nil, bytes_nil. lia.
  - inversion F as [|? ? F1 F2]; subst. rewrite number_app, bytes_app.
    destruct (IH (client live o) F2). split; [pose proof (number_pos (obtained live o)); lia|].
    assert (0 <= bytes (obtained live o)); [|lia]. apply bytes_pos.
    destruct o as [sz [p|]|i|i n [q|]]; cbn [obtained count_op] in *; try (destruct (_ <? _)%nat); try (apply Forall_cons; [cbn; tauto|]); apply Forall_nil.
Qed.
Lemma mrun_ok os : forall c live, cinv c live -> Forall count_op os ->
  ia (ctotal c) + number (ever live os) < 2 ^ 63 -> isz (ctotal c) + bytes (ever live os) < 2 ^ 63 ->
  exists c', mrun (c, live) os = Ok (c', final live os) /\
    ia (ccurr c') = number (final live os) /\ isz (ccurr c') = bytes (final live os) /\
    ia (ctotal c') = ia (ctotal c) + number (ever live os) /\
    isz (ctotal c') = isz (ctotal c) + bytes (ever live os) /\
    maximum (ia (cmax c) :: map number (states live os)) (ia (cmax c')) /\
    maximum (isz (cmax c) :: map bytes (states live os)) (isz (cmax c')).
Proof.
  induction os as [|o os IH]; intros c live I F B1 B2; cbn [mrun final ever states] in *.
  - destruct I as [_ [C1 [C2 [C3 [C4 [C5 C6]]]]]]. exists c. rewrite number_nil, bytes_nil.
    repeat split; try lia; try (left; reflexivity); cbn; intros x [<-|[<-|[]]]; lia.
  - inversion F as [|? ? F1 F2]; subst. rewrite number_app, bytes_app in *.
    destruct (ever_pos os (client live o) F2).
    destruct (mstep_ok c live o I F1) as [c1 [E [I1 [T1 [T2 [M1 M2]]]]]]; [lia..|].
    rewrite E. cbn [bind].
    destruct (IH c1 (client live o) I1 F2) as [c2 [E2 [R1 [R2 [R3 [R4 [[R5 R6] [R7 R8]]]]]]]]; [lia..|].
    exists c2. split; [exact E2|]. split; [exact R1|]. split; [exact R2|]. split; [lia|]. split; [lia|].
    destruct I as [_ [_ [_ [_ [_ [X1 X2]]]]]].
    assert (In (client live o) (states (client live o) os)) as ST by (destruct os; left; reflexivity).
    split; split.
    + destruct R5 as [R5|R5]; [|right; right; exact R5]. rewrite <- R5, M1.
      destruct (Z.max_spec (ia (cmax c)) (number (client live o))) as [[_ ->]|[_ ->]]; [|left; reflexivity].
      right. right. apply in_map. exact ST.
    + assert (ia (cmax c1) <= ia (cmax c2)) by (apply R6; left; reflexivity).
      intros x [<-|[<-|X]]; [lia|lia|]. apply R6. right. exact X.
    + destruct R7 as [R7|R7]; [|right; right; exact R7]. rewrite <- R7, M2.
      destruct (Z.max_spec (isz (cmax c)) (bytes (client live o))) as [[_ ->]|[_ ->]]; [|left; reflexivity].
      right. right. apply in_map. exact ST.
    + assert (isz (cmax c1) <= isz (cmax c2)) by (apply R8; left; reflexivity).
      intros x [<-|[<-|X]]; [lia|lia|]. apply R8. right. exact X.
Qed.
Lemma maximum_dup l v : maximum (0 :: 0 :: l) v -> maximum (0 :: l) v.
Proof. intros [[H|H] M]; (split; [cbn in *; tauto|]); intros x X; apply M; right; exact X. Qed.
Lemma counts_exact os : Forall count_op os ->
  number (ever [] os) < 2 ^ 63 -> bytes (ever [] os) < 2 ^ 63 ->
  exists c, mrun (zero_counts, []) os = Ok (c, final [] os) /\
    ia (ccurr c) = number (final [] os) /\ isz (ccurr c) = bytes (final [] os) /\
    ia (ctotal c) = number (ever [] os) /\ isz (ctotal c) = bytes (ever [] os) /\
    maximum (map number (states [] os)) (ia (cmax c)) /\ maximum (map bytes (states [] os)) (isz (cmax c)).
Proof.
  intros F B1 B2. destruct (mrun_ok os zero_counts []) as [c [E [R1 [R2 [R3 [R4 [R5 R6]]]]]]]; auto.
  - repeat split; auto; cbn; lia.
  - exists c. split; [exact E|]. split; [exact R1|]. split; [exact R2|]. split; [exact R3|]. split; [exact R4|].
    cbn [zero_counts cmax ia isz] in *.
    assert (exists t, states [] os = [] :: t) as [t T] by (destruct os; eexists; reflexivity).
    rewrite T in *. cbn [map] in *. rewrite number_nil in *. rewrite bytes_nil in *.
    split; apply maximum_dup; assumption.
Qed.

(** ** aalloc and arealloc *)
Lemma pow2_land k : 0 <= k -> Z.land (2 ^ k) (2 ^ k - 1) = 0.
Proof.
  intros K. replace (2 ^ k - 1) with (Z.ones k) by (rewrite Z.ones_equiv; lia).
  rewrite Z.land_ones by lia. apply Z.mod_same. lia.
Qed.
Lemma land_pow2 a k m : a = 2 ^ k -> 0 <= k -> Z.land m (a - 1) = m mod a.
Proof.
  intros -> K. replace (2 ^ k - 1) with (Z.ones k) by (rewrite Z.ones_equiv; lia).
  apply Z.land_ones. lia.
Qed.
Lemma pow2_only a : 0 < a -> Z.land a (a - 1) = 0 -> exists k, 0 <= k /\ a = 2 ^ k.
Proof.
  intros A E. exists (Z.log2 a). split; [apply Z.log2_nonneg|].
  destruct (Z.log2_spec a A) as [L U].
  destruct (Z.eq_dec a (2 ^ Z.log2 a)) as [X|X]; [exact X|]. exfalso.
  assert (Z.log2 (a - 1) = Z.log2 a) as L2.
  { apply Z.log2_unique; [apply Z.log2_nonneg|]. lia. }
  assert (Z.testbit (Z.land a (a - 1)) (Z.log2 a) = true) as T.
  { rewrite Z.land_spec, Z.bit_log2 by lia. rewrite <- L2 at 1. rewrite Z.bit_log2; [reflexivity|].
    assert (0 <= Z.log2 a) by apply Z.log2_nonneg. assert (0 < 2 ^ Z.log2 a) by lia. lia. }
  rewrite E, Z.bits_0 in T. discriminate.
Qed.
Lemma aalloc_alignment_ok k : 0 <= k < 64 ->
  exists j, k <= j /\ 3 <= j < 64 /\ aalloc_alignment (2 ^ k) = 2 ^ j.
Proof.
  intros K. unfold aalloc_alignment, ptr_size. destruct (2 ^ k <? 8) eqn:E.
  - exists 3. apply Z.ltb_lt in E. change 8 with (2 ^ 3) in E. apply Z.pow_lt_mono_r_iff in E; [|lia..]. 
    split; [lia|]. split; [lia|reflexivity].
  - exists k. apply Z.ltb_ge in E. change 8 with (2 ^ 3) in E. apply Z.pow_le_mono_r_iff in E; [|lia..].
    split; [lia|]. split; [lia|reflexivity].
Qed.
Lemma aalloc_ok stop got sz k : 0 <= k < 64 ->
  aalloc stop got sz (2 ^ k) =
  match got with
  | Some p => if p mod aalloc_alignment (2 ^ k) =? 0 then Ok p else Err
  | None => if stop then Err else Ok 0
  end.
Proof.
  intros K. destruct (aalloc_alignment_ok k K) as [j [J1 [J2 E]]].
  assert (0 < 2 ^ k) by (apply Z.pow_pos_nonneg; lia).
  assert (2 ^ k < 2 ^ 64) by (apply Z.pow_lt_mono_r; lia).
  assert (2 ^ j < 2 ^ 64) by (apply Z.pow_lt_mono_r; lia).
  assert (0 < 2 ^ j) by (apply Z.pow_pos_nonneg; lia).
  unfold aalloc. rewrite (u64_id (2 ^ k - 1)) by lia. rewrite pow2_land by lia.
  rewrite (proj2 (Z.ltb_lt _ _)) by lia. cbn [andb Z.eqb]. rewrite E.
  assert (Z.land (2 ^ j) (ptr_size - 1) = 0) as ->.
  { change (ptr_size - 1) with (Z.ones 3). rewrite Z.land_ones by lia.
    replace j with (j - 3 + 3) by lia. rewrite Z.pow_add_r by lia. apply Z.mod_mul. lia. }
  cbn [Z.eqb]. rewrite (u64_id (2 ^ j - 1)) by lia.
  destruct got as [p|]; [|reflexivity]. rewrite (land_pow2 (2 ^ j) j) by lia. reflexivity.
Qed.
Lemma aalloc_bad got sz a : 0 <= a < 2 ^ 64 -> ~ (exists k, 0 <= k /\ a = 2 ^ k) -> aalloc true got sz a = Err.
Proof.
  intros A N. unfold aalloc. destruct (0 <? a) eqn:P; [|reflexivity]. cbn [andb].
  rewrite (u64_id (a - 1)) by lia. destruct (_ =? 0) eqn:E; [|reflexivity].
  exfalso. apply N. apply pow2_only; lia.
Qed.
Lemma arealloc_ok stop tmp m ptr oldsz newsz k :
  0 <= k < 64 -> 0 < tmp -> tmp mod aalloc_alignment (2 ^ k) = 0 ->
  0 <= oldsz -> 0 <= newsz -> 0 < ptr -> ptr + oldsz <= len m -> tmp + newsz <= len m ->
  exists m', arealloc stop (Some tmp) m ptr oldsz newsz (2 ^ k) = Ok (m', tmp) /\ len m' = len m /\
    slice m' tmp (Z.min oldsz newsz) = slice m ptr (Z.min oldsz newsz) /\
    forall a, 0 <= a < len m -> ~ tmp <= a < tmp + Z.min oldsz newsz -> nth (Z.to_nat a) m' 0 = nth (Z.to_nat a) m 0.
Proof.
  intros K T AL O N P B1 B2. unfold arealloc. rewrite aalloc_ok by auto. rewrite AL. cbn [Z.eqb bind].
  rewrite (proj2 (Z.eqb_neq tmp 0)) by lia. cbn [andb].
  replace (if newsz <? oldsz then newsz else oldsz) with (Z.min oldsz newsz) by (destruct (newsz <? oldsz) eqn:?; lia).
  set (n := Z.min oldsz newsz). assert (0 <= n /\ n <= oldsz /\ n <= newsz) as [N0 [N1 N2]] by (unfold n; lia).
  assert ((if mem_overlaps ptr tmp oldsz newsz then memmove m tmp ptr n else memcpy m tmp ptr n) = Ok (blit m tmp (slice m ptr n))) as ->.
  { destruct (mem_overlaps ptr tmp oldsz newsz) eqn:OV.
    - unfold memmove, rds. destruct (Z.leb_spec n 0) as [Z0|Z0].
      + cbn [bind wrs]. replace n with 0 by lia. unfold slice. simpl firstn. rewrite blit_nil by lia. reflexivity.
      + replace ((0 <=? ptr) && (ptr + n <=? len m)) with true by lia. cbn [bind]. apply wrs_ok; [lia|]. rewrite len_slice; lia.
    - apply memcpy_ok; try lia. unfold mem_overlaps in *. lia. }
  cbn [bind]. assert (len (slice m ptr n) = n) as LS by (rewrite len_slice; lia).
  eexists. split; [reflexivity|]. split; [apply len_blit; lia|]. split.
  - rewrite <- LS at 2. apply slice_blit_same; lia.
  - intros a A NI. rewrite nth_blit by lia. rewrite LS. replace ((tmp <=? a) && (a <? tmp + n)) with false by lia. reflexivity.
Qed.
