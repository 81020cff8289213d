(** General lemmas about lists, buffers and machine integers. *)
From Verif Require Import Base.

Lemma len_nonneg {A} (l : list A) : 0 <= len l. Proof. unfold len; lia. Qed.
Lemma len_nil' {A} : len (@nil A) = 0. Proof. reflexivity. Qed.
Lemma len_nil : len (@nil Z) = 0. Proof. reflexivity. Qed.
Lemma len_cons {A} (x : A) l : len (x :: l) = 1 + len l.
Proof. unfold len; simpl length; lia. Qed.
Lemma len_app {A} (a b : list A) : len (a ++ b) = len a + len b.
Proof. unfold len; rewrite app_length; lia. Qed.
Lemma len_map {A B} (f : A -> B) l : len (map f l) = len l.
Proof. unfold len; rewrite map_length; reflexivity. Qed.
Lemma len_repeat {A} (x : A) n : len (repeat x n) = Z.of_nat n.
Proof. unfold len; rewrite repeat_length; reflexivity. Qed.
Lemma len_rev {A} (l : list A) : len (rev l) = len l.
Proof. unfold len; rewrite rev_length; reflexivity. Qed.
Lemma len_firstn {A} n (l : list A) : 0 <= n -> len (firstn (Z.to_nat n) l) = Z.min n (len l).
Proof. intros; unfold len; rewrite firstn_length; lia. Qed.
Lemma len_skipn {A} n (l : list A) : 0 <= n -> len (skipn (Z.to_nat n) l) = Z.max 0 (len l - n).
Proof. intros; unfold len; rewrite skipn_length; lia. Qed.
Lemma len_0_nil {A} (l : list A) : len l = 0 -> l = [].
Proof. destruct l; auto. rewrite len_cons. pose proof (len_nonneg l); lia. Qed.
Lemma to_nat_len {A} (l : list A) : Z.to_nat (len l) = length l.
Proof. unfold len; lia. Qed.

Lemma len_upd {A} (l : list A) i x : len (upd l i x) = len l.
Proof.
  unfold len; f_equal. revert i; induction l as [|h t IH]; intros [|i]; simpl; auto.
Qed.
Lemma length_upd {A} (l : list A) i x : length (upd l i x) = length l.
Proof. revert i; induction l as [|h t IH]; intros [|i]; simpl; auto. Qed.

Lemma upd_app_r {A} (a b : list A) i x :
  (length a <= i)%nat -> upd (a ++ b) i x = a ++ upd b (i - length a) x.
Proof.
  revert i; induction a as [|h t IH]; intros i Hi; simpl in *.
  - rewrite Nat.sub_0_r; reflexivity.
  - destruct i; [lia|]. simpl. rewrite IH by lia. reflexivity.
Qed.
Lemma upd_app_l {A} (a b : list A) i x :
  (i < length a)%nat -> upd (a ++ b) i x = upd a i x ++ b.
Proof.
  revert i; induction a as [|h t IH]; intros i Hi; simpl in *; [lia|].
  destruct i; simpl; [reflexivity|]. rewrite IH by lia. reflexivity.
Qed.
Lemma upd_firstn_skipn {A} (l : list A) i x :
  (i < length l)%nat -> upd l i x = firstn i l ++ x :: skipn (S i) l.
Proof.
  revert i; induction l as [|h t IH]; intros i Hi; simpl in *; [lia|].
  destruct i; simpl; [reflexivity|]. rewrite IH by lia. reflexivity.
Qed.
Lemma nth_upd {A} (l : list A) i j x d :
  (i < length l)%nat -> nth j (upd l i x) d = if Nat.eqb i j then x else nth j l d.
Proof.
  revert i j; induction l as [|h t IH]; intros i j Hi; simpl in *; [lia|].
  destruct i, j; simpl; auto. apply IH; lia.
Qed.

Lemma skipn_skipn {A} (x y : nat) (l : list A) : skipn x (skipn y l) = skipn (x + y) l.
Proof.
  revert l; induction y as [|y IH]; intros l.
  - rewrite Nat.add_0_r. reflexivity.
  - rewrite Nat.add_succ_r. destruct l as [|h t]; [rewrite !skipn_nil; reflexivity|].
    simpl. apply IH.
Qed.

(** ** blit *)
Lemma blit_nil {A} (m : list A) i : 0 <= i -> blit m i [] = m.
Proof.
  intros; unfold blit; simpl. rewrite Nat.add_0_r. apply firstn_skipn.
Qed.
Lemma len_blit {A} (m : list A) i l : 0 <= i -> i + len l <= len m -> len (blit m i l) = len m.
Proof.
  intros Hi Hl. unfold blit. rewrite !len_app. unfold len in *.
  rewrite firstn_length, skipn_length. lia.
Qed.
Lemma length_blit {A} (m : list A) i l : 0 <= i -> i + len l <= len m -> length (blit m i l) = length m.
Proof. intros Hi Hl. pose proof (len_blit m i l Hi Hl). unfold len in *; lia. Qed.

Lemma nth_firstn_lt {A} (l : list A) n i d : (i < n)%nat -> nth i (firstn n l) d = nth i l d.
Proof.
  revert n i; induction l as [|h t IH]; intros n i Hi.
  - rewrite firstn_nil. reflexivity.
  - destruct n; [lia|]. destruct i; simpl; auto. apply IH; lia.
Qed.
Lemma nth_skipn {A} (l : list A) n i d : nth i (skipn n l) d = nth (n + i) l d.
Proof.
  revert n; induction l as [|h t IH]; intros n.
  - rewrite skipn_nil. destruct i, n; reflexivity.
  - destruct n; simpl; auto.
Qed.

Lemma nth_blit {A} (m : list A) i l j d :
  0 <= i -> i + len l <= len m -> 0 <= j ->
  nth (Z.to_nat j) (blit m i l) d =
  if (i <=? j) && (j <? i + len l) then nth (Z.to_nat (j - i)) l d else nth (Z.to_nat j) m d.
Proof.
  intros Hi Hl Hj. unfold blit.
  assert (Hf : length (firstn (Z.to_nat i) m) = Z.to_nat i).
  { rewrite firstn_length. unfold len in *. lia. }
  destruct (Z.ltb_spec j i) as [Hji|Hji].
  - rewrite app_nth1 by (rewrite Hf; lia).
    replace ((i <=? j) && (j <? i + len l)) with false by lia.
    apply nth_firstn_lt; lia.
  - rewrite app_nth2 by (rewrite Hf; lia). rewrite Hf.
    destruct (Z.ltb_spec j (i + len l)) as [Hjl|Hjl].
    + replace ((i <=? j) && true) with true by lia.
      rewrite app_nth1 by (unfold len in *; lia). f_equal. lia.
    + replace ((i <=? j) && false) with false by lia.
      rewrite app_nth2 by (unfold len in *; lia).
      rewrite nth_skipn. f_equal. unfold len in *. lia.
Qed.

Lemma list_eq_nth {A} (a b : list A) d :
  length a = length b -> (forall i, (i < length a)%nat -> nth i a d = nth i b d) -> a = b.
Proof. intros. eapply nth_ext; eauto. Qed.

Lemma blit_app {A} (m : list A) i (a b : list A) :
  0 <= i -> i + len a + len b <= len m ->
  blit (blit m i a) (i + len a) b = blit m i (a ++ b).
Proof.
  intros Hi Hl. pose proof (len_nonneg a); pose proof (len_nonneg b).
  unfold blit.
  assert (Hf : length (firstn (Z.to_nat i) m) = Z.to_nat i).
  { rewrite firstn_length. unfold len in *. lia. }
  replace (Z.to_nat (i + len a)) with (length (firstn (Z.to_nat i) m ++ a)).
  2:{ rewrite app_length, Hf. unfold len in *; lia. }
  rewrite !app_assoc.
  rewrite <- (app_assoc (firstn (Z.to_nat i) m ++ a)).
  rewrite firstn_app, firstn_all, Nat.sub_diag. simpl firstn at 2. rewrite app_nil_r.
  rewrite <- !app_assoc. do 3 f_equal.
  rewrite skipn_app.
  replace (length (firstn (Z.to_nat i) m ++ a) + length b)%nat with (length (firstn (Z.to_nat i) m) + length (a ++ b))%nat
    by (rewrite !app_length; lia).
  rewrite skipn_all2 by (rewrite !app_length; lia).
  rewrite skipn_app, skipn_all2 by (rewrite !app_length; lia).
  simpl. rewrite skipn_skipn. f_equal.
  rewrite !app_length, Hf. lia.
Qed.

(** prepend in front of a blit: the downward writing loops *)
Lemma blit_cons_before {A} (m : list A) i (a b : list A) :
  0 <= i -> i + len a + len b <= len m ->
  blit (blit m (i + len a) b) i a = blit m i (a ++ b).
Proof.
  intros Hi Hl. pose proof (len_nonneg a); pose proof (len_nonneg b).
  destruct m as [|d0 m0].
  { unfold blit. rewrite ?firstn_nil, ?skipn_nil, ?app_nil_r. simpl.
    unfold len in Hl; simpl in Hl. destruct a; [|simpl in Hl; lia].
    destruct b; [|simpl in Hl; lia]. rewrite ?firstn_nil, ?skipn_nil. reflexivity. }
  set (m := d0 :: m0) in *.
  assert (L1 : len (blit m (i + len a) b) = len m) by (apply len_blit; lia).
  assert (L2 : len (blit (blit m (i + len a) b) i a) = len m) by (rewrite len_blit; lia).
  assert (L3 : len (blit m i (a ++ b)) = len m) by (apply len_blit; rewrite ?len_app; lia).
  apply (list_eq_nth _ _ d0); [unfold len in *; lia|].
  intros k Hk. rewrite <- (Nat2Z.id k).
  assert (Hk' : Z.of_nat k < len m) by (unfold len in *; lia). clear Hk.
  rewrite (nth_blit (blit m (i + len a) b)) by lia.
  rewrite (nth_blit m (i + len a)) by lia.
  rewrite (nth_blit m i (a ++ b)) by (rewrite ?len_app; lia).
  rewrite len_app.
    destruct ((i <=? Z.of_nat k) && (Z.of_nat k <? i + len a)) eqn:E1.
    + replace ((i <=? Z.of_nat k) && (Z.of_nat k <? i + (len a + len b))) with true by lia.
      rewrite app_nth1; [reflexivity|]. unfold len in *; lia.
    + destruct ((i + len a <=? Z.of_nat k) && (Z.of_nat k <? i + len a + len b)) eqn:E2.
      * replace ((i <=? Z.of_nat k) && (Z.of_nat k <? i + (len a + len b))) with true by lia.
        rewrite app_nth2 by (unfold len in *; lia). f_equal. unfold len in *; lia.
      * replace ((i <=? Z.of_nat k) && (Z.of_nat k <? i + (len a + len b))) with false by lia.
        reflexivity.
Qed.

Lemma wr_ok m i c : 0 <= i < len m -> wr m i c = Ok (blit m i [c]).
Proof.
  intros Hi. unfold wr. replace ((0 <=? i) && (i <? len m)) with true by lia.
  f_equal. unfold blit. rewrite upd_firstn_skipn by (unfold len in *; lia).
  simpl length. replace (Z.to_nat i + 1)%nat with (S (Z.to_nat i)) by lia. reflexivity.
Qed.

Lemma wr_ub m i c : ~ (0 <= i < len m) -> wr m i c = Ub.
Proof.
  intros Hi. unfold wr. replace ((0 <=? i) && (i <? len m)) with false by lia. reflexivity.
Qed.

Lemma wr_blit_before m i l c :
  0 < i -> i + len l <= len m -> wr (blit m i l) (i - 1) c = Ok (blit m (i - 1) (c :: l)).
Proof.
  intros Hi Hl. pose proof (len_nonneg l).
  rewrite wr_ok by (rewrite len_blit; lia).
  f_equal. replace i with ((i - 1) + len [c]) at 1 by (rewrite len_cons, len_nil; lia).
  rewrite blit_cons_before; rewrite ?len_cons, ?len_nil; try lia. reflexivity.
Qed.

Lemma wr_blit_after m i l c :
  0 <= i -> i + len l < len m -> wr (blit m i l) (i + len l) c = Ok (blit m i (l ++ [c])).
Proof.
  intros Hi Hl. pose proof (len_nonneg l).
  rewrite wr_ok by (rewrite len_blit; lia).
  f_equal. rewrite blit_app; auto. rewrite len_cons, len_nil; lia.
Qed.

Lemma wrs_ok m i l : 0 <= i -> i + len l <= len m -> wrs m i l = Ok (blit m i l).
Proof.
  intros Hi Hl. unfold wrs. destruct l as [|c l].
  - rewrite blit_nil by lia. reflexivity.
  - replace ((0 <=? i) && (i + len (c :: l) <=? len m)) with true by lia. reflexivity.
Qed.

Lemma slice_blit_same {A} (m : list A) i l :
  0 <= i -> i + len l <= len m -> slice (blit m i l) i (len l) = l.
Proof.
  intros Hi Hl. unfold slice, blit.
  assert (Hf : length (firstn (Z.to_nat i) m) = Z.to_nat i).
  { rewrite firstn_length. unfold len in *. lia. }
  rewrite skipn_app, Hf, Nat.sub_diag, skipn_all2 by lia. simpl skipn at 1. simpl app at 1.
  rewrite firstn_app, to_nat_len, Nat.sub_diag, firstn_all. simpl. apply app_nil_r.
Qed.

Lemma len_slice {A} (m : list A) i n : 0 <= i -> 0 <= n -> i + n <= len m -> len (slice m i n) = n.
Proof.
  intros. unfold slice. rewrite len_firstn by lia. rewrite len_skipn by lia. lia.
Qed.

Lemma slice_full {A} (m : list A) : slice m 0 (len m) = m.
Proof. unfold slice. simpl skipn. rewrite to_nat_len. apply firstn_all. Qed.

Lemma blit_slice {A} (m : list A) i n :
  0 <= i -> 0 <= n -> i + n <= len m -> blit m i (slice m i n) = m.
Proof.
  intros Hi Hn Hl. unfold blit, slice.
  rewrite app_assoc.
  replace (Z.to_nat i + length (firstn (Z.to_nat n) (skipn (Z.to_nat i) m)))%nat
    with (Z.to_nat n + Z.to_nat i)%nat.
  2:{ rewrite firstn_length, skipn_length. unfold len in *. lia. }
  rewrite <- skipn_skipn, <- app_assoc, firstn_skipn. apply firstn_skipn.
Qed.

(** ** machine integers *)
Lemma bits_pos w : 8 <= bits w <= 64. Proof. destruct w; simpl; lia. Qed.
Lemma pow2_bits w : 2 ^ bits w = 2 * 2 ^ (bits w - 1).
Proof. rewrite <- Z.pow_succ_r by (destruct w; simpl; lia). f_equal; lia. Qed.

Lemma wrap_id t v : in_range t v -> wrap t v = v.
Proof.
  destruct t as [w s]. unfold in_range, wrap, imin, imax; simpl.
  pose proof (pow2_bits w) as Hp.
  assert (0 < 2 ^ (bits w - 1)) by (apply Z.pow_pos_nonneg; [lia|destruct w; simpl; lia]).
  destruct s; simpl; intros Hv.
  - destruct (Z.ltb_spec v 0).
    + replace (v mod 2 ^ bits w) with (v + 2 ^ bits w).
      2:{ rewrite <- (Z.mod_small (v + 2 ^ bits w) (2 ^ bits w)) by lia.
          rewrite <- (Z.mod_add v 1) by lia. f_equal; lia. }
      replace (2 ^ (bits w - 1) <=? v + 2 ^ bits w) with true by lia. lia.
    + rewrite Z.mod_small by lia.
      replace (2 ^ (bits w - 1) <=? v) with false by lia. reflexivity.
  - apply Z.mod_small; lia.
Qed.

Lemma wrap_range t v : in_range t (wrap t v).
Proof.
  destruct t as [w s]. unfold in_range, wrap, imin, imax; simpl.
  pose proof (pow2_bits w) as Hp.
  assert (0 < 2 ^ (bits w - 1)) by (apply Z.pow_pos_nonneg; [lia|destruct w; simpl; lia]).
  pose proof (Z.mod_pos_bound v (2 ^ bits w) ltac:(lia)).
  destruct s; simpl; [|lia].
  destruct (Z.leb_spec (2 ^ (bits w - 1)) (v mod 2 ^ bits w)); lia.
Qed.

Lemma wrap_mod t v : (wrap t v) mod 2 ^ bits (iw t) = v mod 2 ^ bits (iw t).
Proof.
  unfold wrap.
  assert (0 < 2 ^ bits (iw t)) by (apply Z.pow_pos_nonneg; [lia|destruct (iw t); simpl; lia]).
  destruct (isgn t && _); rewrite ?Z.mod_mod by lia; auto.
  replace (v mod 2 ^ bits (iw t) - 2 ^ bits (iw t)) with (v mod 2 ^ bits (iw t) + (-1) * 2 ^ bits (iw t)) by lia.
  rewrite Z.mod_add by lia. apply Z.mod_mod; lia.
Qed.

Lemma wrap_eq t a b : a mod 2 ^ bits (iw t) = b mod 2 ^ bits (iw t) -> wrap t a = wrap t b.
Proof. intros H. unfold wrap. rewrite H. reflexivity. Qed.

Lemma wrap_wrap t v : wrap t (wrap t v) = wrap t v.
Proof. apply wrap_eq, wrap_mod. Qed.

Lemma wrap_add_mul t a b c : wrap t (wrap t a * b + c) = wrap t (a * b + c).
Proof.
  apply wrap_eq.
  assert (0 < 2 ^ bits (iw t)) by (apply Z.pow_pos_nonneg; [lia|destruct (iw t); simpl; lia]).
  rewrite Z.add_mod, Z.mul_mod, wrap_mod by lia.
  rewrite <- Z.mul_mod, <- Z.add_mod by lia. reflexivity.
Qed.

Lemma wrap_unsigned w v : wrap (Ity w false) v = v mod 2 ^ bits w.
Proof. reflexivity. Qed.

Lemma u64_id x : 0 <= x < 2 ^ 64 -> u64 x = x.
Proof. intros; unfold u64; apply Z.mod_small; lia. Qed.
Lemma u32_id x : 0 <= x < 2 ^ 32 -> u32 x = x.
Proof. intros; unfold u32; apply Z.mod_small; lia. Qed.

Lemma bind_ok {A B} (a : A) (f : A -> res B) : bind (Ok a) f = f a.
Proof. reflexivity. Qed.

(** solve length side conditions *)
Ltac lens :=
  repeat first [rewrite len_blit | rewrite len_app | rewrite len_cons | rewrite len_nil
               | rewrite len_repeat | rewrite len_map | rewrite len_rev];
  try lia.
