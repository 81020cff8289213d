(** begins_with_any, ends_with(c, num), ends_with_any, select(c), unquoted, file
    name extensions, erase_range. *)
From Verif Require Import Base BaseLemmas ScanModel SubstrModel SubstrSpec SubstrModel2 SubstrProofs SubstrProofs2 SubstrProofs3 SubstrProofs4 SubstrProofs6 SubstrProofs7.

Lemma begins_with_any_ok s cs : exists b, begins_with_any s cs = Ok b /\ (b = true <-> exists c r, s = c :: r /\ In c cs).
Proof.
  unfold begins_with_any. destruct s as [|x s].
  - eexists; split; [reflexivity|]. split; [discriminate|]. intros (c & r & E & _); discriminate.
  - pose proof (nonneg_len s). rewrite len_cons. replace (1 + len s =? 0) with false by lia.
    rewrite rd_ok by (rewrite len_cons; lia). cbn [bind]. eexists; split; [reflexivity|].
    rewrite byte_at_cons0, mem_in. split; [eauto|]. intros (c & r & E & HI). congruence.
Qed.
Lemma last_elem (s : list Z) : 0 < len s -> exists a, s = a ++ [byte_at s (len s - 1)].
Proof.
  intros H. destruct (split_elem s (len s - 1) ltac:(lia)) as (a & b & E & La).
  assert (b = []). { apply len_0_nil. apply (f_equal len) in E. rewrite len_app, len_cons in E. pose proof (nonneg_len b). lia. }
  subst b. eauto.
Qed.
Lemma ends_with_any_ok s cs : exists b, ends_with_any s cs = Ok b /\ (b = true <-> exists c r, s = r ++ [c] /\ In c cs).
Proof.
  unfold ends_with_any. pose proof (nonneg_len s). destruct (Z.eqb_spec (len s) 0).
  - eexists; split; [reflexivity|]. split; [discriminate|]. intros (c & r & -> & _).
    rewrite len_app in *. change (len [c]) with 1 in *. pose proof (nonneg_len r). lia.
  - rewrite rd_ok by lia. cbn [bind]. eexists; split; [reflexivity|]. rewrite mem_in.
    destruct (last_elem s ltac:(lia)) as (a & E). split.
    + intros HI. eauto.
    + intros (c & r & E2 & HI). rewrite E in E2. apply app_inj_tail in E2. destruct E2 as (_ & <-). auto.
Qed.
Lemma ends_with_n_ok s c num : 0 <= num ->
  exists b, ends_with_n s c num = Ok b /\ (b = true <-> exists r, s = r ++ repeat c (Z.to_nat num)).
Proof.
  intros Hn. unfold ends_with_n. destruct (Z.ltb_spec (len s) num).
  - eexists; split; [reflexivity|]. split; [discriminate|]. intros (r & ->). rewrite len_app, len_repeat in *. pose proof (nonneg_len r). lia.
  - destruct (for_up_first (at_ s (fun x => negb (x =? c))) (Z.to_nat num) (len s - num) (fun j => negb (byte_at s j =? c) = true) (fun x => x)) as (o & E & Ho).
    { intros j Hj. apply (at_ok s (fun x => negb (x =? c))). lia. }
    rewrite E. cbn [bind]. eexists; split; [reflexivity|]. rewrite option_map_id.
    replace (len s - num + Z.of_nat (Z.to_nat num)) with (len s) in Ho by lia. destruct o as [k|]; cbn in Ho.
    + split; [discriminate|]. intros (r & ->). destruct Ho as (Hk & Hne & _). rewrite len_app, len_repeat in Hk.
      rewrite byte_at_app2 in Hne by lia. rewrite byte_at_repeat in Hne by lia. lia.
    + split; auto. intros _. exists (firstn (Z.to_nat (len s - num)) s).
      rewrite <- (firstn_skipn (Z.to_nat (len s - num)) s) at 1. f_equal.
      assert (LS : len (skipn (Z.to_nat (len s - num)) s) = num) by (unfold len in *; rewrite skipn_length; lia).
      apply list_eq_at; [rewrite LS, len_repeat; lia|]. rewrite LS. intros i Hi.
      rewrite byte_at_skipn by lia. specialize (Ho (len s - num + i) ltac:(lia)). rewrite byte_at_repeat; lia.
Qed.
Lemma select_c_ok s c st : small s -> 0 <= st <= len s ->
  exists o, select_c s c (Some st) = Ok o /\
  match o with
  | Some v => vl v = 1 /\ contents s v = [c] /\ is_first (fun i => byte_at s i = c) st (len s) (Some (vo v))
  | None => forall j, st <= j < len s -> byte_at s j <> c
  end.
Proof.
  unfold small. intros Hs Hst. unfold select_c, find_c. destruct (first_of_c_ok s c st Hst) as (o & E & Ho). rewrite E. cbn [bind].
  destruct o as [p|]; cbn in Ho.
  - destruct Ho as (H1 & H2 & H3). rewrite sub2_ok by lia. cbn [bind]. eexists; split; [reflexivity|]. cbn [vl vo].
    split; auto. split; [|cbn; auto].
    assert (Q : occurs s [c] p) by (apply occurs_char; split; auto; lia). apply occurs_slice in Q. apply Q.
  - eexists; split; [reflexivity|]. auto.
Qed.

(** ** unquoted *)
Lemma unquoted_cases s : small s -> exists v, unquoted s = Ok v /\ vin v s /\
  (forall q m, (q = ch "'" \/ q = 34) -> s = q :: m ++ [q] -> ~ ends_in (ch "\") m -> contents s v = m) /\
  ((forall q m, (q = ch "'" \/ q = 34) -> s = q :: m ++ [q] -> ends_in (ch "\") m) -> contents s v = s).
Proof.
  intros Hs. pose proof (nonneg_len s) as Hp. unfold unquoted. unfold small in Hs.
  assert (VF : vin (full s) s) by (unfold vin, full; cbn [vo vl]; lia).
  destruct (Z.ltb_spec (len s) 2).
  { exists (full s). split; [reflexivity|]. split; auto. split.
    - intros q m _ E _. exfalso. rewrite E, len_cons, len_app in H. change (len [q]) with 1 in H. pose proof (nonneg_len m). lia.
    - intros _. apply contents_full. }
  rewrite rd_ok by lia. cbn [bind].
  assert (PRE : forall q m, s = q :: m ++ [q] -> m <> [] -> exists m', m = m' ++ [byte_at s (len s - 2)]).
  { intros q m E Hm. assert (Lm : 0 < len m) by (destruct m; [congruence|rewrite len_cons; pose proof (nonneg_len m); lia]).
    destruct (last_elem m Lm) as (a & Ea). exists a. rewrite Ea at 1. do 2 f_equal.
    rewrite E. rewrite len_cons, len_app. change (len [q]) with 1.
    rewrite byte_at_consS by lia. rewrite byte_at_app1 by lia. f_equal. lia. }
  destruct (Z.eqb_spec (byte_at s (len s - 2)) (ch "\")) as [EB|EB].
  { exists (full s). split; [reflexivity|]. split; auto. split.
    - intros q m Hq E Hm. exfalso. destruct m as [|x m].
      + rewrite E in EB. cbn in EB. destruct Hq; subst q; discriminate.
      + destruct (PRE q _ E ltac:(discriminate)) as (m' & E'). apply Hm. exists m'. rewrite E', EB. reflexivity.
    - intros _. apply contents_full. }
  destruct (begins_with_c_ok s (ch "'")) as (b1 & E1 & B1). destruct (ends_with_c_ok s (ch "'")) as (e1 & E2 & B2).
  destruct (begins_with_c_ok s 34) as (b2 & E3 & B3). destruct (ends_with_c_ok s 34) as (e2 & E4 & B4).
  rewrite E1; cbn [bind]. rewrite E2; cbn [bind]. rewrite E3; cbn [bind]. rewrite E4; cbn [bind].
  assert (DEC : forall q, (exists r, s = q :: r) -> (exists r, s = r ++ [q]) -> exists m, s = q :: m ++ [q]).
  { intros q (r & Er) (r' & Er'). rewrite Er in *. destruct r' as [|y r'].
    - exfalso. cbn in Er'. apply (f_equal len) in Er'. rewrite !len_cons in Er'. change (len (@nil Z)) with 0 in Er'. rewrite len_cons in H. lia.
    - cbn in Er'. inversion Er'; subst. eauto. }
  destruct ((b1 && e1) || (b2 && e2)) eqn:EQ.
  - assert (exists q m, (q = ch "'" \/ q = 34) /\ s = q :: m ++ [q]) as (q & m & Hq & E).
    { apply orb_true_iff in EQ. rewrite !andb_true_iff in EQ. destruct EQ as [(Q1 & Q2)|(Q1 & Q2)].
      - apply B1 in Q1. apply B2 in Q2. destruct (DEC _ Q1 Q2) as (m & E). exists (ch "'"), m. auto.
      - apply B3 in Q1. apply B4 in Q2. destruct (DEC _ Q1 Q2) as (m & E). exists 34, m. auto. }
    rewrite range_ok by lia. eexists; split; [reflexivity|]. split; [apply vin_view; lia|].
    assert (CM : contents s (View 1 (len s - 1 - 1)) = m).
    { replace 1 with (len [q]) at 1 by reflexivity. replace (len s - 1 - 1) with (len m).
      - apply contents_app with (b := [q]). rewrite E. reflexivity.
      - rewrite E, len_cons, len_app. change (len [q]) with 1. lia. }
    assert (UN : forall q' m', s = q' :: m' ++ [q'] -> m' = m).
    { intros q' m' E'. rewrite E in E'. inversion E'; subst. apply app_inj_tail in H2. destruct H2; auto. }
    split.
    + intros q' m' _ E' _. rewrite (UN _ _ E'). auto.
    + intros HC. exfalso. destruct (HC q m Hq E) as (r & Er). destruct (PRE q m E) as (m' & Em').
      { destruct m; [destruct r; discriminate|discriminate]. }
      rewrite Em' in Er. apply app_inj_tail in Er. destruct Er as (_ & Er). apply EB. auto.
  - exists (full s). split; [reflexivity|]. split; auto. split; [|intros _; apply contents_full].
    intros q m Hq E _. exfalso. apply orb_false_iff in EQ. rewrite !andb_false_iff in EQ. destruct EQ as (Q1 & Q2).
    assert (HB : exists r, s = q :: r) by eauto.
    assert (HE : exists r, s = r ++ [q]) by (exists (q :: m); rewrite E; reflexivity).
    destruct Hq; subst q.
    + destruct Q1 as [Q|Q]; [apply B1 in HB|apply B2 in HE]; congruence.
    + destruct Q2 as [Q|Q]; [apply B3 in HB|apply B4 in HE]; congruence.
Qed.

(** ** erase by range *)
Lemma erase_range_ok (a p c q b : list Z) : len (p ++ c ++ q) < 2 ^ 63 ->
  exists rest, len rest = len c /\
  erase_range (a ++ (p ++ c ++ q) ++ b) (View (len a) (len (p ++ c ++ q))) (len p) (len (p ++ c)) =
  Ok (a ++ ((p ++ q) ++ rest) ++ b, View (len a) (len (p ++ q))).
Proof.
  intros Hs. destruct (erase_ok a p c q b Hs) as (rest & L & E). exists rest. split; auto. unfold erase_range, assert.
  rewrite len_app. pose proof (nonneg_len c). replace (len p <=? len p + len c) with true by lia.
  replace (len p + len c - len p) with (len c) by lia. exact E.
Qed.
Lemma erase_range_bad m v first last : vl v < 2 ^ 63 -> 0 <= first < 2 ^ 64 -> 0 <= last < 2 ^ 64 -> last < first \/ vl v < last ->
  erase_range m v first last = Err.
Proof.
  intros Hv Hf Hl H. unfold erase_range, erase, assert. destruct (Z.leb_spec first last); auto.
  replace (first + (last - first)) with last by lia. rewrite u64_id by lia. replace (last <=? vl v) with false by lia. reflexivity.
Qed.
(** ** erase(sub), constructors *)
Lemma is_super_subview (a : list Z) v w : vin v a -> 0 <= vl w -> is_super v w = true ->
  exists p q, contents a v = p ++ contents a w ++ q /\ len p = vo w - vo v.
Proof.
  intros Hv Hw. unfold vin in Hv. unfold is_super. destruct (Z.ltb_spec 0 (vl v)); rewrite andb_true_iff.
  - rewrite !Z.leb_le. intros (H1 & H2). destruct (slice_parts (contents a v) (vo w - vo v) (vl w)) as (p & q & E & L & _); try lia.
    { unfold contents. rewrite len_slice; lia. }
    exists p, q. split; auto. rewrite E at 1. do 2 f_equal. apply list_eq_at.
    + unfold contents. rewrite !len_slice; try lia. rewrite len_slice; lia.
    + unfold contents. rewrite len_slice; try lia; [|rewrite len_slice; lia]. intros i Hi. rewrite !byte_at_slice by lia. f_equal. lia.
  - rewrite !Z.eqb_eq. intros (H1 & H2). exists [], []. cbn [app]. rewrite app_nil_r. split; [|cbn; lia].
    unfold contents. f_equal; lia.
Qed.
Lemma erase_sub_ok (a p c q b : list Z) : len (a ++ p ++ c ++ q ++ b) < 2 ^ 63 ->
  exists rest, len rest = len c /\
  erase_sub (a ++ (p ++ c ++ q) ++ b) (View (len a) (len (p ++ c ++ q))) (View (len (a ++ p)) (len c)) =
  Ok (a ++ ((p ++ q) ++ rest) ++ b, View (len a) (len (p ++ q))).
Proof.
  intros Hs. rewrite !len_app in Hs. pose proof (nonneg_len a). pose proof (nonneg_len p). pose proof (nonneg_len c).
  pose proof (nonneg_len q). pose proof (nonneg_len b). destruct (erase_ok a p c q b) as (rest & L & E). { rewrite !len_app; lia. }
  exists rest. split; auto. unfold erase_sub, assert, is_super. cbn [vo vl].
  replace (if 0 <? len (p ++ c ++ q) then (len a <=? len (a ++ p)) && (len (a ++ p) + len c <=? len a + len (p ++ c ++ q))
     else (len c =? 0) && (len (a ++ p) =? len a)) with true.
  2:{ rewrite !len_app. destruct (Z.ltb_spec 0 (len p + (len c + len q))); lia. }
  replace (len a <=? len (a ++ p)) with true by (rewrite len_app; lia).
  replace (u64 (len (a ++ p) - len a)) with (len p). exact E.
  rewrite len_app, u64_id; lia.
Qed.
Lemma from_cstr_ok (a s b : list Z) : len (a ++ s ++ 0 :: b) < 2 ^ 64 -> ~ In 0 s ->
  from_cstr (a ++ s ++ 0 :: b) (len a) = Ok (View (len a) (len s)).
Proof.
  intros HL Hs. unfold from_cstr. pose proof (first_pos_at a s b 0 Hs) as E. unfold first_of_c in E.
  rewrite !len_app, len_cons in HL. pose proof (nonneg_len a). pose proof (nonneg_len s). pose proof (nonneg_len b).
  rewrite chk_ok in E by (rewrite !len_app, len_cons; lia). unfold assert, fwd_from in E. rewrite E. cbn [bind].
  replace (len a + len s - len a) with (len s) by lia. rewrite u64_id by lia. reflexivity.
Qed.
Lemma from_array_ok (s : list Z) (z : Z) : len s < 2 ^ 63 -> contents (s ++ [z]) (from_array (s ++ [z])) = s.
Proof.
  intros H. unfold from_array. rewrite len_app. change (len [z]) with 1. pose proof (nonneg_len s). rewrite u64_id by lia.
  replace (len s + 1 - 1) with (len s) by lia. apply contents_head with (r := [z]). reflexivity.
Qed.
Lemma from_ptrs_ok (a s b : list Z) : len (a ++ s ++ b) < 2 ^ 64 ->
  exists v, from_ptrs (len a) (len (a ++ s)) = Ok v /\ contents (a ++ s ++ b) v = s.
Proof.
  intros H. rewrite !len_app in H. pose proof (nonneg_len a). pose proof (nonneg_len s). pose proof (nonneg_len b).
  unfold from_ptrs, assert. rewrite len_app. replace (len a <=? len a + len s) with true by lia. eexists; split; [reflexivity|].
  replace (len a + len s - len a) with (len s) by lia. rewrite u64_id by lia. apply contents_app with (b := b). reflexivity.
Qed.
(** splitting at the first and at the last occurrence *)
Lemma dot_splits d (s : list Z) : In d s ->
  (exists l r, s = l ++ d :: r /\ ~ In d r) /\ (exists l r, s = l ++ d :: r /\ ~ In d l).
Proof.
  assert (F : forall s : list Z, In d s -> exists l r, s = l ++ d :: r /\ ~ In d l).
  { clear s. induction s as [|x s IH]; intros H; [destruct H|]. destruct (Z.eq_dec x d) as [->|Hx].
    - exists [], s. auto.
    - destruct H as [H|H]; [congruence|]. destruct (IH H) as (l & r & -> & Hl). exists (x :: l), r. split; auto.
      intros [E|E]; auto. }
  intros H. split; [|auto]. destruct (F (rev s)) as (l & r & E & Hl). { apply in_rev. rewrite rev_involutive. auto. }
  exists (rev r), (rev l). split.
  - rewrite <- (rev_involutive s), E, rev_app_distr. cbn [rev]. rewrite <- app_assoc. reflexivity.
  - rewrite <- in_rev. auto.
Qed.
(** erase(npos, 1): the sum wraps to zero *)
Lemma erase_wrap (a c b : list Z) : 0 < len c -> len (a ++ c ++ b) < 2 ^ 63 ->
  exists pos num, len c < pos < 2 ^ 64 /\ 0 < num < 2 ^ 64 /\ erase (a ++ c ++ b) (View (len a) (len c)) pos num = Ub.
Proof.
  intros Hc HL. exists npos, 1. pose proof HL as HL'. rewrite !len_app in HL'. pose proof (nonneg_len a). pose proof (nonneg_len b).
  unfold npos. split; [lia|]. split; [lia|]. fold npos. unfold erase, assert. cbn [vl vo].
  replace (u64 (npos + 1) <=? len c) with true by (change (u64 (npos + 1)) with 0; lia).
  replace (len c - npos - 1) with (len c + (-1) * 2 ^ 64) by (unfold npos; lia). unfold u64 at 1.
  rewrite Z_mod_plus_full, Z.mod_small by lia. unfold rds. replace (len c <=? 0) with false by lia.
  replace ((0 <=? len a + npos + 1) && (len a + npos + 1 + len c <=? len (a ++ c ++ b))) with false by (unfold npos; lia). reflexivity.
Qed.
