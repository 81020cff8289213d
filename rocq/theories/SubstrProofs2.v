(** Comparison, sub-selection, trimming, find, count. *)
From Verif Require Import Base BaseLemmas ScanModel SubstrModel SubstrSpec SubstrProofs.

(** ** compare *)
Fixpoint first_diff (s t : list Z) : option Z :=
  match s, t with
  | a :: s, b :: t => if negb (schar a =? schar b) then Some (if schar a <? schar b then -1 else 1) else first_diff s t
  | _, _ => None
  end.
Definition cmp (s t : list Z) : Z :=
  match first_diff s t with
  | Some x => x
  | None => if len s <? len t then -1 else if len s =? len t then 0 else 1
  end.
Lemma for_up_diff s t ps pt : len ps = len pt ->
  for_up (min (length s) (length t)) (len ps) (fun i =>
     do a <- rd (ps ++ s) i ;; do b <- rd (pt ++ t) i ;;
     Ok (if negb (schar a =? schar b) then Some (if schar a <? schar b then -1 else 1) else None))
  = Ok (first_diff s t).
Proof.
  revert t ps pt; induction s as [|a s IH]; intros t ps pt HL; [reflexivity|].
  destruct t as [|b t]; [reflexivity|]. cbn [length min for_up].
  pose proof (nonneg_len s). pose proof (nonneg_len t). pose proof (nonneg_len ps).
  rewrite !rd_ok by (rewrite len_app, len_cons; lia). cbn [bind].
  rewrite !byte_at_app2 by lia. rewrite HL, Z.sub_diag. rewrite !byte_at_cons0. cbn [first_diff].
  destruct (negb (schar a =? schar b)); [reflexivity|].
  specialize (IH t (ps ++ [a]) (pt ++ [b])). rewrite !len_app in IH. rewrite <- !app_assoc in IH. cbn [app] in IH.
  change (len [a]) with 1 in IH. rewrite HL in IH. apply IH. reflexivity.
Qed.
Lemma compare_ok s t : compare s t = Ok (cmp s t).
Proof.
  unfold compare, cmp. set (mn := if len s <? len t then len s else len t).
  replace (Z.to_nat mn) with (min (length s) (length t)).
  2:{ unfold mn, len. destruct (Z.ltb_spec (Z.of_nat (length s)) (Z.of_nat (length t))); lia. }
  pose proof (for_up_diff s t [] [] eq_refl) as E. cbn [app] in E. change (len (@nil Z)) with 0 in E.
  rewrite E. cbn [bind]. destruct (first_diff s t); reflexivity.
Qed.

Lemma schar_inj a b : is_byte a -> is_byte b -> schar a = schar b -> a = b.
Proof. unfold is_byte, schar. intros. destruct (Z.ltb_spec a 128), (Z.ltb_spec b 128); lia. Qed.

Lemma cmp_cons a b s t :
  cmp (a :: s) (b :: t) = if schar a <? schar b then -1 else if schar b <? schar a then 1 else cmp s t.
Proof.
  unfold cmp. cbn [first_diff]. rewrite !len_cons.
  destruct (Z.eqb_spec (schar a) (schar b)) as [E|E]; cbn [negb].
  - rewrite E, Z.ltb_irrefl. destruct (first_diff s t); auto.
    destruct (Z.ltb_spec (1 + len s) (1 + len t)), (Z.ltb_spec (len s) (len t)); try lia; auto.
    destruct (Z.eqb_spec (1 + len s) (1 + len t)), (Z.eqb_spec (len s) (len t)); try lia; auto.
  - destruct (Z.ltb_spec (schar a) (schar b)); auto. destruct (Z.ltb_spec (schar b) (schar a)); auto; lia.
Qed.
Lemma cmp_nil_l t : cmp [] t = match t with [] => 0 | _ => -1 end.
Proof. destruct t as [|b t]; [reflexivity|]. unfold cmp. cbn [first_diff]. rewrite len_cons. pose proof (nonneg_len t).
  change (len (@nil Z)) with 0. replace (0 <? 1 + len t) with true by lia. reflexivity. Qed.
Lemma cmp_nil_r s : cmp s [] = match s with [] => 0 | _ => 1 end.
Proof. destruct s as [|b t]; [reflexivity|]. unfold cmp. cbn [first_diff]. rewrite len_cons. pose proof (nonneg_len t).
  change (len (@nil Z)) with 0. replace (1 + len t <? 0) with false by lia. replace (1 + len t =? 0) with false by lia. reflexivity. Qed.

Lemma cmp_spec s t : bytes s -> bytes t ->
  (cmp s t = -1 /\ lex schar_lt s t) \/ (cmp s t = 0 /\ s = t) \/ (cmp s t = 1 /\ lex schar_lt t s).
Proof.
  revert t; induction s as [|a s IH]; intros t Hs Ht.
  - rewrite cmp_nil_l. destruct t; [auto|]. left; split; auto. constructor.
  - destruct t as [|b t].
    { rewrite cmp_nil_r. right; right; split; auto. constructor. }
    inversion Hs; inversion Ht; subst. rewrite cmp_cons.
    destruct (Z.ltb_spec (schar a) (schar b)). { left; split; auto. constructor; auto. }
    destruct (Z.ltb_spec (schar b) (schar a)). { right; right; split; auto. constructor; auto. }
    assert (a = b) by (apply schar_inj; auto; lia). subst.
    destruct (IH t H2 H6) as [[-> ?]|[[-> ->]|[-> ?]]]; auto.
    + left; split; auto. apply lex_tl; auto.
    + right; right; split; auto. apply lex_tl; auto.
Qed.
Lemma lex_irrefl (lt : Z -> Z -> Prop) s : (forall a, ~ lt a a) -> ~ lex lt s s.
Proof. intros Hi. induction s as [|a s IH]; intros H; inversion H; subst; eauto. eapply Hi; eauto. Qed.
Lemma lex_trans (lt : Z -> Z -> Prop) a b c : (forall x y z, lt x y -> lt y z -> lt x z) -> lex lt a b -> lex lt b c -> lex lt a c.
Proof.
  intros Ht H. revert c. induction H; intros z Hz; inversion Hz; subst; solve [eapply lex_tl; eauto | eapply lex_hd; eauto | constructor].
Qed.
Lemma schar_lt_irrefl a : ~ schar_lt a a. Proof. unfold schar_lt; lia. Qed.
Lemma schar_lt_trans a b c : schar_lt a b -> schar_lt b c -> schar_lt a c. Proof. unfold schar_lt; lia. Qed.
Lemma lex_asym s t : lex schar_lt s t -> ~ lex schar_lt t s.
Proof.
  intros H1 H2. eapply lex_irrefl; [apply schar_lt_irrefl|]. eapply lex_trans; eauto. apply schar_lt_trans.
Qed.
Lemma compare_spec s t : bytes s -> bytes t ->
  exists c, compare s t = Ok c /\ (c < 0 <-> lex schar_lt s t) /\ (c = 0 <-> s = t) /\ (c > 0 <-> lex schar_lt t s).
Proof.
  intros Hs Ht. exists (cmp s t). split; [apply compare_ok|].
  destruct (cmp_spec s t Hs Ht) as [[-> H]|[[-> ->]|[-> H]]].
  - repeat split; auto; try lia; intros; subst.
    + destruct (lex_irrefl schar_lt t schar_lt_irrefl H).
    + destruct (lex_asym _ _ H); auto.
  - assert (~ lex schar_lt t t) by apply lex_irrefl, schar_lt_irrefl. repeat split; auto; try lia; tauto.
  - repeat split; auto; try lia; intros; subst.
    + destruct (lex_asym _ _ H); auto.
    + destruct (lex_irrefl schar_lt t schar_lt_irrefl H).
Qed.
Lemma ops_spec s t : bytes s -> bytes t ->
  (exists b, op_eq s t = Ok b /\ (b = true <-> s = t)) /\
  (exists b, op_ne s t = Ok b /\ (b = true <-> s <> t)) /\
  (exists b, op_lt s t = Ok b /\ (b = true <-> lex schar_lt s t)) /\
  (exists b, op_gt s t = Ok b /\ (b = true <-> lex schar_lt t s)) /\
  (exists b, op_le s t = Ok b /\ (b = true <-> lex schar_lt s t \/ s = t)) /\
  (exists b, op_ge s t = Ok b /\ (b = true <-> lex schar_lt t s \/ s = t)).
Proof.
  intros Hs Ht. destruct (compare_spec s t Hs Ht) as (c & E & H1 & H2 & H3).
  unfold op_eq, op_ne, op_lt, op_gt, op_le, op_ge. rewrite E. cbn [bind].
  repeat split; (eexists; split; [reflexivity|]); rewrite <- ?H1, <- ?H2, <- ?H3; lia.
Qed.
Lemma lex_total s t : bytes s -> bytes t -> lex schar_lt s t \/ s = t \/ lex schar_lt t s.
Proof. intros Hs Ht. destruct (cmp_spec s t Hs Ht) as [[_ ?]|[[_ ?]|[_ ?]]]; auto. Qed.
Lemma lex_ascii s t : Forall (fun c => 0 <= c < 128) s -> Forall (fun c => 0 <= c < 128) t ->
  (lex schar_lt s t <-> lex byte_lt s t).
Proof.
  intros Hs Ht. split; intros H.
  - induction H; inversion Hs; inversion Ht; subst; [constructor|apply lex_hd|apply lex_tl; auto].
    unfold schar_lt, schar, byte_lt in *. destruct (Z.ltb_spec a 128), (Z.ltb_spec b 128); lia.
  - induction H; inversion Hs; inversion Ht; subst; [constructor|apply lex_hd|apply lex_tl; auto].
    unfold schar_lt, schar, byte_lt in *. destruct (Z.ltb_spec a 128), (Z.ltb_spec b 128); lia.
Qed.

Lemma compare_char_sgn s c : bytes s -> is_byte c -> len s < 2 ^ 31 ->
  exists z k, compare s [c] = Ok k /\ compare_char s c = Ok z /\ Z.sgn z = k.
Proof.
  intros Hs Hc Hl. enough (exists z, compare_char s c = Ok z /\ Z.sgn z = cmp s [c]) as (z & E1 & E2).
  { exists z, (cmp s [c]). auto using compare_ok. }
  unfold compare_char, compare_char_n. destruct s as [|a s]; [eexists; split; reflexivity|].
  rewrite cmp_cons, cmp_nil_r. pose proof (nonneg_len s). rewrite len_cons in *. cbn [nth].
  replace (0 <? 1 + len s) with true by lia.
  destruct (Z.eqb_spec (schar a) (schar c)) as [E|E]; cbn [negb].
  - rewrite E, Z.ltb_irrefl. rewrite wrap_id by (unfold in_range, imin, imax; cbn [isgn iw i32 bits]; lia).
    cbv zeta. replace (imin i32 <=? 1 + len s - 1) with true by (change (imin i32) with (-2147483648); lia).
    eexists; split; [reflexivity|].
    destruct s as [|b s]; [reflexivity|]. pose proof (nonneg_len s). rewrite len_cons. apply Z.sgn_pos. lia.
  - eexists; split; [reflexivity|]. destruct (Z.ltb_spec (schar a) (schar c)); [apply Z.sgn_neg; lia|].
    destruct (Z.ltb_spec (schar c) (schar a)); [apply Z.sgn_pos; lia|lia].
Qed.
Lemma compare_char_trunc c :
  compare_char (repeat c (Z.to_nat (2 ^ 32 + 1))) c = Ok 0.
Proof.
  unfold compare_char. rewrite len_repeat. rewrite Z2Nat.id by lia.
  replace (Z.to_nat (2 ^ 32 + 1)) with (S (Z.to_nat (2 ^ 32))) by lia. cbn [repeat nth].
  unfold compare_char_n. rewrite Z.eqb_refl. reflexivity.
Qed.
Lemma compare_char_intmin c :
  compare_char (repeat c (Z.to_nat (2 ^ 31))) c = Ub.
Proof.
  unfold compare_char. rewrite len_repeat. rewrite Z2Nat.id by lia.
  replace (Z.to_nat (2 ^ 31)) with (S (Z.to_nat (2 ^ 31 - 1))) by lia. cbn [repeat nth].
  unfold compare_char_n. rewrite Z.eqb_refl. reflexivity.
Qed.

(** ** operators with a char, and with the other side first *)
Lemma char_ops s c : bytes s -> is_byte c -> len s < 2 ^ 31 ->
  op_eq_c s c = op_eq s [c] /\ op_ne_c s c = op_ne s [c] /\ op_lt_c s c = op_lt s [c] /\
  op_gt_c s c = op_gt s [c] /\ op_le_c s c = op_le s [c] /\ op_ge_c s c = op_ge s [c].
Proof.
  intros Hs Hc Hl. destruct (compare_char_sgn s c Hs Hc Hl) as (z & k & E & Ez & Hk).
  unfold op_eq_c, op_ne_c, op_lt_c, op_gt_c, op_le_c, op_ge_c, op_eq, op_ne, op_lt, op_gt, op_le, op_ge. rewrite E, Ez. cbn [bind].
  destruct z; cbn in Hk; subst k; repeat split; reflexivity.
Qed.
Lemma compare_swap s t : bytes s -> bytes t -> exists k l, compare s t = Ok k /\ compare t s = Ok l /\ Z.sgn k = - Z.sgn l.
Proof.
  intros Hs Ht. destruct (compare_spec s t Hs Ht) as (k & E & A1 & A2 & A3). destruct (compare_spec t s Ht Hs) as (l & F & B1 & B2 & B3).
  exists k, l. repeat split; auto. destruct (Z.lt_trichotomy k 0) as [H|[H|H]].
  - assert (l > 0) by tauto. rewrite (Z.sgn_neg k), (Z.sgn_pos l) by lia. reflexivity.
  - assert (l = 0) by (apply B2; symmetry; tauto). subst. reflexivity.
  - assert (l < 0) by (apply B1, A3; lia). rewrite (Z.sgn_pos k), (Z.sgn_neg l) by lia. reflexivity.
Qed.
Lemma arr_ops t s : bytes s -> bytes t ->
  arr_eq t s = op_eq t s /\ arr_ne t s = op_ne t s /\ arr_lt t s = op_lt t s /\
  arr_gt t s = op_gt t s /\ arr_le t s = op_le t s /\ arr_ge t s = op_ge t s.
Proof.
  intros Hs Ht. destruct (compare_swap s t Hs Ht) as (k & l & E & F & H).
  unfold arr_eq, arr_ne, arr_lt, arr_gt, arr_le, arr_ge, op_eq, op_ne, op_lt, op_gt, op_le, op_ge. rewrite E, F. cbn [bind].
  destruct k, l; cbn in H; try lia; repeat split; reflexivity.
Qed.
Lemma left_char_ops c s : bytes s -> is_byte c -> len s < 2 ^ 31 ->
  c_eq c s = op_eq [c] s /\ c_ne c s = op_ne [c] s /\ c_lt c s = op_lt [c] s /\
  c_gt c s = op_gt [c] s /\ c_le c s = op_le [c] s /\ c_ge c s = op_ge [c] s.
Proof.
  intros Hs Hc Hl. destruct (char_ops s c Hs Hc Hl) as (A1 & A2 & A3 & A4 & A5 & A6).
  destruct (arr_ops [c] s Hs) as (B1 & B2 & B3 & B4 & B5 & B6); [repeat constructor; apply Hc|].
  repeat split; [rewrite <- B1|rewrite <- B2|rewrite <- B3|rewrite <- B4|rewrite <- B5|rewrite <- B6];
    [exact A1|exact A2|exact A4|exact A3|exact A6|exact A5].
Qed.

(** ** sub-selection *)
Lemma npos_big : npos = 2 ^ 64 - 1. Proof. reflexivity. Qed.
Lemma contents_slice (s : list Z) i n : contents s (View i n) = slice s i n. Proof. reflexivity. Qed.
Lemma slice_skipn (s : list Z) i : 0 <= i <= len s -> slice s i (len s - i) = skipn (Z.to_nat i) s.
Proof.
  intros. unfold slice. apply firstn_all2. rewrite skipn_length. unfold len in *. lia.
Qed.
Lemma slice_0 (s : list Z) n : slice s 0 n = firstn (Z.to_nat n) s.
Proof. reflexivity. Qed.
Lemma sub1_ok (s : list Z) first : 0 <= first <= len s -> len s < 2 ^ 64 ->
  sub1 (len s) first = Ok (View first (len s - first)).
Proof.
  intros. unfold sub1, assert. replace (first <=? len s) with true by lia. rewrite u64_id by lia. reflexivity.
Qed.
Lemma sub2_ok (s : list Z) first num : 0 <= first -> 0 <= num -> first + num <= len s -> len s < 2 ^ 64 - 1 ->
  sub2 (len s) first num = Ok (View first num).
Proof.
  intros. unfold sub2, assert. rewrite npos_big. replace (first <=? len s) with true by lia.
  replace (num <=? len s) with true by lia. cbn [orb]. replace (num =? 2 ^ 64 - 1) with false by lia.
  rewrite u64_id by lia. replace (first + num <=? len s) with true by lia. reflexivity.
Qed.
Lemma range_ok (s : list Z) first last : 0 <= first <= last -> last <= len s -> len s < 2 ^ 64 - 1 ->
  range (len s) first last = Ok (View first (last - first)).
Proof.
  intros. unfold range, assert. rewrite npos_big. replace (first <=? len s) with true by lia.
  replace (last =? 2 ^ 64 - 1) with false by lia. replace (first <=? last) with true by lia.
  replace (last <=? len s) with true by lia. rewrite u64_id by lia. reflexivity.
Qed.
Ltac nas := unfold small in *; rewrite ?npos_big in *.
Lemma vin_view (s : list Z) i n : 0 <= i -> 0 <= n -> i + n <= len s -> vin (View i n) s.
Proof. unfold vin; cbn; auto. Qed.

Lemma sub1_in s first v : small s -> 0 <= first < 2 ^ 64 -> sub1 (len s) first = Ok v ->
  vin v s /\ contents s v = skipn (Z.to_nat first) s.
Proof.
  nas. intros Hs Hf. unfold sub1, assert. destruct (Z.leb_spec first (len s)); [|discriminate].
  rewrite u64_id by lia. intros E; inversion E. split; [apply vin_view; lia|]. apply slice_skipn; lia.
Qed.
Lemma sub2_in s first num v : small s -> 0 <= first < 2 ^ 64 -> 0 <= num < 2 ^ 64 -> sub2 (len s) first num = Ok v ->
  vin v s /\ contents s v = firstn (Z.to_nat (if num =? npos then len s - first else num)) (skipn (Z.to_nat first) s).
Proof.
  nas. intros Hs Hf Hn. unfold sub2, assert. rewrite npos_big. destruct (Z.leb_spec first (len s)); [|discriminate].
  destruct ((num <=? len s) || (num =? 2 ^ 64 - 1)) eqn:E1; [|discriminate].
  destruct (Z.eqb_spec num (2 ^ 64 - 1)).
  - rewrite !u64_id by (rewrite ?u64_id; lia). destruct ((first + (len s - first) <=? len s) || (num =? 0)); [|discriminate].
    intros E; inversion E. split; [apply vin_view; lia|reflexivity].
  - rewrite !u64_id by lia. destruct (Z.leb_spec (first + num) (len s)); cbn [orb].
    + intros E; inversion E. split; [apply vin_view; lia|reflexivity].
    + destruct (Z.eqb_spec num 0); [lia|discriminate].
Qed.
Lemma range_in s first last v : small s -> 0 <= first < 2 ^ 64 -> 0 <= last < 2 ^ 64 -> range (len s) first last = Ok v ->
  let l := if last =? npos then len s else last in
  vin v s /\ contents s v = firstn (Z.to_nat (l - first)) (skipn (Z.to_nat first) s).
Proof.
  nas. intros Hs Hf Hn. unfold range, assert. rewrite npos_big. destruct (Z.leb_spec first (len s)); [|discriminate].
  set (l := if last =? 2 ^ 64 - 1 then len s else last).
  destruct (Z.leb_spec first l); [|discriminate]. destruct (Z.leb_spec l (len s)); [|discriminate].
  rewrite u64_id by lia. intros E; inversion E. split; [apply vin_view; lia|reflexivity].
Qed.
Lemma first_in s num v : small s -> 0 <= num < 2 ^ 64 -> vfirst (len s) num = Ok v ->
  vin v s /\ contents s v = firstn (Z.to_nat num) s.
Proof.
  nas. intros Hs Hn. unfold vfirst, assert. rewrite npos_big.
  destruct (Z.leb_spec num (len s)), (Z.eqb_spec num (2 ^ 64 - 1)); cbn [orb]; try discriminate; try lia;
    intros E; inversion E; pose proof (nonneg_len s); (split; [apply vin_view; lia|]);
    unfold contents; cbn [vo vl]; rewrite slice_0; auto.
  rewrite !firstn_all2; auto; unfold len in *; lia.
Qed.
Lemma last_in s num v : small s -> 0 <= num < 2 ^ 64 -> vlast (len s) num = Ok v ->
  vin v s /\ contents s v = skipn (Z.to_nat (len s - num)) s.
Proof.
  nas. intros Hs Hn. pose proof (nonneg_len s). unfold vlast, assert. rewrite npos_big.
  destruct (Z.leb_spec num (len s)), (Z.eqb_spec num (2 ^ 64 - 1)); cbn [orb]; try discriminate; try lia;
    intros E; inversion E.
  - split; [apply vin_view; lia|]. unfold contents; cbn [vo vl].
    rewrite <- slice_skipn by lia. f_equal; lia.
  - split; [apply vin_view; lia|]. unfold contents; cbn [vo vl].
    replace (Z.to_nat (len s - num)) with O by lia. cbn [skipn]. unfold slice. cbn [skipn Z.to_nat].
    apply firstn_all2. unfold len; lia.
Qed.
Lemma left_of_in s pos v : small s -> 0 <= pos < 2 ^ 64 -> left_of (len s) pos = Ok v ->
  vin v s /\ contents s v = firstn (Z.to_nat pos) s.
Proof.
  nas. intros Hs Hn. unfold left_of, assert. rewrite npos_big.
  destruct (Z.leb_spec pos (len s)), (Z.eqb_spec pos (2 ^ 64 - 1)); cbn [orb]; try discriminate; try lia;
    intros E; inversion E; pose proof (nonneg_len s); (split; [apply vin_view; lia|]);
    unfold contents; cbn [vo vl]; rewrite slice_0; auto.
  rewrite !firstn_all2; auto; unfold len in *; lia.
Qed.
Lemma left_of_inc_in s pos inc v : small s -> 0 <= pos < len s -> left_of_inc (len s) pos inc = Ok v ->
  vin v s /\ contents s v = firstn (Z.to_nat (if inc then pos + 1 else pos)) s.
Proof.
  nas. intros Hs Hn. unfold left_of_inc, assert. rewrite npos_big.
  replace (pos <=? len s) with true by lia. cbn [orb]. replace (pos =? 2 ^ 64 - 1) with false by lia.
  intros E; inversion E. destruct inc; rewrite u64_id by lia; (split; [apply vin_view; lia|]); auto.
  rewrite Z.add_0_r. reflexivity.
Qed.
Lemma right_of_in s pos v : small s -> 0 <= pos < len s -> right_of (len s) pos = Ok v ->
  vin v s /\ contents s v = skipn (Z.to_nat (pos + 1)) s.
Proof.
  nas. intros Hs Hn. unfold right_of, assert. rewrite npos_big.
  replace (pos <=? len s) with true by lia. cbn [orb]. replace (pos =? 2 ^ 64 - 1) with false by lia.
  intros E; inversion E. rewrite u64_id by lia. split; [apply vin_view; lia|]. apply slice_skipn; lia.
Qed.
Lemma right_of_inc_in s pos inc v : small s -> 0 <= pos < len s -> right_of_inc (len s) pos inc = Ok v ->
  vin v s /\ contents s v = skipn (Z.to_nat (if inc then pos else pos + 1)) s.
Proof.
  nas. intros Hs Hn. unfold right_of_inc, assert. rewrite npos_big.
  replace (pos <=? len s) with true by lia. cbn [orb]. replace (pos =? 2 ^ 64 - 1) with false by lia.
  intros E; inversion E. destruct inc; rewrite u64_id by lia; (split; [apply vin_view; lia|]).
  - rewrite Z.add_0_r. apply slice_skipn; lia.
  - apply slice_skipn; lia.
Qed.
Lemma offs_in s l r v : small s -> 0 <= l -> 0 <= r -> l + r <= len s -> offs (len s) l r = Ok v ->
  vin v s /\ contents s v = firstn (Z.to_nat (len s - r - l)) (skipn (Z.to_nat l) s).
Proof.
  nas. intros Hs Hl Hr H. unfold offs, assert. replace (l <=? len s) with true by lia.
  replace (r <=? len s) with true by lia. rewrite !u64_id by lia.
  replace (l <=? len s - r + 1) with true by lia.
  intros E; inversion E. split; [apply vin_view; lia|reflexivity].
Qed.

(** partition *)
Lemma left_right_pos s pos a b : small s -> 0 <= pos < len s ->
  left_of (len s) pos = Ok a -> right_of (len s) pos = Ok b ->
  contents s a ++ [byte_at s pos] ++ contents s b = s.
Proof.
  intros Hs Hp Ha Hb. apply left_of_in in Ha as (_ & ->); auto; [|nas; lia]. apply right_of_in in Hb as (_ & ->); auto.
  destruct (split_elem s pos Hp) as (x & y & E & Lx). rewrite E at 1 3. 
  rewrite firstn_app, skipn_app. unfold len in *.
  rewrite firstn_all2 by lia. replace (Z.to_nat pos - length x)%nat with O by lia.
  rewrite skipn_all2 by lia. replace (Z.to_nat (pos + 1) - length x)%nat with 1%nat by lia.
  cbn. rewrite app_nil_r. auto.
Qed.
Lemma left_right_inc s pos (inc : bool) a b : small s -> 0 <= pos < len s ->
  left_of_inc (len s) pos inc = Ok a -> right_of_inc (len s) pos (negb inc) = Ok b ->
  contents s a ++ contents s b = s.
Proof.
  intros Hs Hp Ha Hb. apply left_of_inc_in in Ha as (_ & ->); auto. apply right_of_inc_in in Hb as (_ & ->); auto.
  destruct inc; cbn [negb]; apply firstn_skipn.
Qed.
Lemma left_of_v_ok s v : small s -> vin v s -> left_of_v (len s) (Some v) = Ok (View 0 (vo v)).
Proof.
  nas. intros Hs (H1 & H2 & H3). unfold left_of_v, assert.
  assert (E : is_super_v (len s) v || (vl v =? 0) = true) by (unfold is_super_v; destruct (Z.ltb_spec 0 (len s)); lia).
  rewrite E. replace ((0 <=? vo v) && (vo v <=? len s)) with true by lia. apply sub2_ok; lia.
Qed.
Lemma right_of_v_ok s v : small s -> vin v s ->
  right_of_v (len s) (Some v) = Ok (View (vo v + vl v) (len s - (vo v + vl v))).
Proof.
  nas. intros Hs (H1 & H2 & H3). unfold right_of_v, assert.
  assert (E : is_super_v (len s) v || (vl v =? 0) = true) by (unfold is_super_v; destruct (Z.ltb_spec 0 (len s)); lia).
  rewrite E. replace ((0 <=? vo v + vl v) && (vo v + vl v <=? len s)) with true by lia. apply sub2_ok; lia.
Qed.
Lemma left_right_v s v : small s -> vin v s -> exists a b,
  left_of_v (len s) (Some v) = Ok a /\ right_of_v (len s) (Some v) = Ok b /\
  vin a s /\ vin b s /\ contents s a ++ contents s v ++ contents s b = s.
Proof.
  intros Hs Hv. rewrite left_of_v_ok, right_of_v_ok by auto. destruct Hv as (H1 & H2 & H3).
  do 2 eexists. split; [reflexivity|]. split; [reflexivity|]. split; [apply vin_view; lia|].
  split; [apply vin_view; lia|]. unfold contents. cbn [vo vl].
  destruct (slice_parts s (vo v) (vl v) H1 H2 H3) as (a & c & E & La & Lb).
  rewrite slice_skipn by lia. rewrite slice_0.
  assert (E1 : firstn (Z.to_nat (vo v)) s = a).
  { rewrite E, <- La. unfold len. rewrite Nat2Z.id, firstn_app, firstn_all, Nat.sub_diag. cbn. apply app_nil_r. }
  assert (E2 : skipn (Z.to_nat (vo v + vl v)) s = c).
  { rewrite E, app_assoc. replace (Z.to_nat (vo v + vl v)) with (length (a ++ slice s (vo v) (vl v))).
    2:{ rewrite app_length. unfold len in *. lia. }
    rewrite skipn_app, skipn_all, Nat.sub_diag. reflexivity. }
  rewrite E1, E2. auto.
Qed.
