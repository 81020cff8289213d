From Verif Require Import Base BaseLemmas SubstrModel MemUtilModel MemResModel AllocModel ProviderModel ProviderSpec.

Definition at_block (r a : Z) (b : block) : bool := (r =? borigin b) && (a =? baddr b).
Definition live (r a : Z) (w : world) : Z := len (filter (at_block r a) (wblocks w)).
(** every block goes back to where it came from *)
Definition sound (w : world) : Prop := forall b, In b (wblocks w) -> resource (bprov b) (wglob w) = borigin b.

Lemma number_app f a b : number f (a ++ b) = number f a + number f b.
Proof. unfold number. rewrite filter_app. unfold len. rewrite app_length. lia. Qed.
Lemma number_nonneg f a : 0 <= number f a.
Proof. unfold number, len. lia. Qed.
Lemma drop_nth_filter {A} (f : A -> bool) l : forall i x, nth_error l i = Some x ->
  len (filter f (drop_nth l i)) = len (filter f l) - (if f x then 1 else 0).
Proof.
  induction l as [|h l IH]; intros [|i] x E; cbn in *; try discriminate.
  - injection E as ->. destruct (f x); unfold len; cbn [length]; lia.
  - specialize (IH i x E). destruct (f h); unfold len in *; cbn [length]; lia.
Qed.
Lemma drop_nth_in {A} (l : list A) : forall i x, In x (drop_nth l i) -> In x l.
Proof. induction l as [|h l IH]; intros [|i] x H; cbn in *; auto. destruct H; eauto. Qed.

Lemma astep_live dbg w o w' e r a : sound w -> astep dbg w o = Ok (w', e) ->
  live r a w' = live r a w + number (got r a) e - number (gave r a) e.
Proof.
  intros Hs E.
  assert (T : forall w'', wblocks w'' = wblocks w -> live r a w'' = live r a w + number (got r a) [] - number (gave r a) [])
    by (intros w'' H; unfold live; rewrite H; cbn; lia).
  unfold astep in E. destruct o.
  - unfold assert in E. destruct (negb dbg || negb (r0 =? 0)); [|discriminate]. injection E as <- <-. apply T; reflexivity.
  - injection E as <- <-. apply T; reflexivity.
  - destruct (provider_from dbg k (wglob w) r0); try discriminate. cbn in E. injection E as <- <-. apply T; reflexivity.
  - injection E as <- <-. apply T. destruct (nth_error (wallocs w) i); reflexivity.
  - destruct (nth_error (wallocs w) i) as [p|]; [|injection E as <- <-; apply T; reflexivity].
    destruct (rebound dbg (wglob w) p); try discriminate. cbn in E. injection E as <- <-. apply T; reflexivity.
  - destruct (nth_error (wallocs w) i) as [p|], (nth_error (wallocs w) j) as [q|];
      try (injection E as <- <-; apply T; reflexivity).
    destruct (kind_of p), (kind_of q); injection E as <- <-; apply T; reflexivity.
  - destruct (nth_error (wallocs w) i) as [p|]; [|injection E as <- <-; apply T; reflexivity].
    injection E as <- <-. unfold live, number. cbn. unfold at_block at 1. cbn.
    destruct ((r =? resource p (wglob w)) && (a =? addr)); unfold len; cbn [length]; lia.
  - destruct (nth_error (wallocs w) i) as [p|], (nth_error (wblocks w) b) as [k|] eqn:Eb;
      try (injection E as <- <-; apply T; reflexivity).
    unfold alloc_eq in E. destruct (resource p (wglob w) =? resource (bprov k) (wglob w)) eqn:Er; [|injection E as <- <-; apply T; reflexivity].
    injection E as <- <-. apply Z.eqb_eq in Er. rewrite (Hs k) in Er by (eapply nth_error_In; eauto). rewrite Er.
    unfold live. cbn [wblocks]. rewrite (drop_nth_filter _ _ _ _ Eb). unfold number. cbn. unfold at_block at 2.
    destruct ((r =? borigin k) && (a =? baddr k)); unfold len; cbn [length]; lia.
Qed.

Lemma astep_one dbg w o w' e : astep dbg w o = Ok (w', e) -> (length e <= 1)%nat.
Proof.
  intros E. unfold astep in E. destruct o.
  - unfold assert in E. destruct (negb dbg || negb (r =? 0)); [|discriminate]. injection E as <- <-. cbn. lia.
  - injection E as <- <-. cbn. lia.
  - destruct (provider_from dbg k (wglob w) r); try discriminate. cbn in E. injection E as <- <-. cbn. lia.
  - injection E as <- <-. cbn. lia.
  - destruct (nth_error (wallocs w) i) as [p|]; [|injection E as <- <-; cbn; lia].
    destruct (rebound dbg (wglob w) p); try discriminate. cbn in E. injection E as <- <-. cbn. lia.
  - destruct (nth_error (wallocs w) i) as [p|], (nth_error (wallocs w) j) as [q|]; try (injection E as <- <-; cbn; lia).
    destruct (kind_of p), (kind_of q); injection E as <- <-; cbn; lia.
  - destruct (nth_error (wallocs w) i) as [p|]; injection E as <- <-; cbn; lia.
  - destruct (nth_error (wallocs w) i) as [p|], (nth_error (wblocks w) b) as [k|]; try (injection E as <- <-; cbn; lia).
    destruct (alloc_eq (wglob w) p (bprov k)); injection E as <- <-; cbn; lia.
Qed.

Section invariant.
  Variable dbg : bool.
  Variable P : world -> Prop.
  Variable allowed : aop -> Prop.
  Hypothesis P_sound : forall w, P w -> sound w.
  Hypothesis P_step : forall w o w' e, P w -> allowed o -> astep dbg w o = Ok (w', e) -> P w'.
  Lemma arun_prefix os : Forall allowed os -> forall w w' e, P w -> arun dbg w os = Ok (w', e) ->
    forall e1 e2 r a, e = e1 ++ e2 -> number (gave r a) e1 <= live r a w + number (got r a) e1.
  Proof.
    induction os as [|o os IH]; intros Ho w w' e HP E e1 e2 r a He; cbn in E.
    - injection E as <- <-. symmetry in He. apply app_eq_nil in He as [-> _]. unfold number, live, len. cbn. lia.
    - destruct (astep dbg w o) as [[w1 f]| |] eqn:Es; try discriminate. cbn in E.
      destruct (arun dbg w1 os) as [[w2 f']| |] eqn:Er; try discriminate. cbn in E. injection E as <- <-.
      inversion Ho as [|? ? Ho1 Ho2]; subst. pose proof (P_step _ _ _ _ HP Ho1 Es) as HP1.
      pose proof (astep_live _ _ _ _ _ r a (P_sound _ HP) Es) as HL.
      destruct (Nat.le_gt_cases (length f) (length e1)) as [Hle|Hlt].
      + assert (X : exists g, e1 = f ++ g /\ f' = g ++ e2).
        { exists (skipn (length f) e1).
          assert (Hf : f = firstn (length f) e1).
          { apply (f_equal (firstn (length f))) in He. rewrite firstn_app, Nat.sub_diag, firstn_all, app_nil_r in He. cbn in He.
            rewrite firstn_app in He. replace (length f - length e1)%nat with 0%nat in He by lia. rewrite app_nil_r in He. exact He. }
          split.
          - rewrite Hf at 1. symmetry. apply firstn_skipn.
          - apply (f_equal (skipn (length f))) in He. rewrite skipn_app, Nat.sub_diag, skipn_all in He. cbn in He.
            rewrite skipn_app in He. replace (length f - length e1)%nat with 0%nat in He by lia. exact He. }
        destruct X as (g & -> & ->). rewrite !number_app. pose proof (IH Ho2 w1 w2 (g ++ e2) HP1 Er g e2 r a eq_refl). lia.
      + (* e1 is shorter than the events of one step, so it is empty *)
        assert (length f <= 1)%nat by (eapply astep_one; eauto).
        destruct e1; [|cbn in Hlt; lia]. unfold number, live, len. cbn. lia.
  Qed.
  Lemma arun_accounted os w w' e : Forall allowed os -> P w -> wblocks w = [] -> arun dbg w os = Ok (w', e) -> accounted e.
  Proof.
    intros Ho HP Hb E e1 e2 r a He. pose proof (arun_prefix os Ho w w' e HP E e1 e2 r a He) as H.
    unfold live in H. rewrite Hb in H. cbn in H. unfold len in H. cbn in H. lia.
  Qed.
End invariant.

(** per-allocator resources *)
Definition all_mem (w : world) : Prop := (forall p, In p (wallocs w) -> kind_of p = KMem) /\ forall b, In b (wblocks w) -> bprov b = PMem (borigin b).
Lemma upd_in {A} (l : list A) : forall i q p, In p (upd l i q) -> p = q \/ In p l.
Proof. induction l as [|h l IH]; intros [|i] q p H; cbn in *; auto. - destruct H; auto. - destruct H as [H|H]; auto. apply IH in H. tauto. Qed.
Lemma all_mem_step dbg w o w' e : all_mem w -> per_allocator o -> astep dbg w o = Ok (w', e) -> all_mem w'.
Proof.
  intros [HA HB] Ho E.
  assert (T : forall p, kind_of p = KMem -> all_mem (World (wglob w) (wallocs w ++ [p]) (wblocks w))).
  { intros p Hp. split; auto. intros q Hq. apply in_app_iff in Hq as [Hq|[<-|[]]]; auto. }
  unfold astep in E. destruct o.
  - unfold assert in E. destruct (negb dbg || negb (r =? 0)); [|discriminate]. injection E as <- <-. split; auto.
  - destruct k; [|destruct Ho]. injection E as <- <-. apply T. reflexivity.
  - destruct k; [|destruct Ho]. cbn in E. injection E as <- <-. apply T. reflexivity.
  - injection E as <- <-. destruct (nth_error (wallocs w) i) eqn:En; [|split; auto]. apply T. apply HA. eapply nth_error_In; eauto.
  - destruct (nth_error (wallocs w) i) as [p|] eqn:En; [|injection E as <- <-; split; auto].
    apply nth_error_In in En. apply HA in En. unfold rebound in E. rewrite En in E. cbn in E. injection E as <- <-. apply T. reflexivity.
  - destruct (nth_error (wallocs w) i) as [p|] eqn:Ei, (nth_error (wallocs w) j) as [q|] eqn:Ej; try (injection E as <- <-; split; auto).
    destruct (kind_of p), (kind_of q) eqn:Ek; injection E as <- <-; split; auto; cbn; intros x Hx; apply upd_in in Hx as [->|Hx]; auto.
    apply nth_error_In in Ej. apply HA in Ej. congruence.
  - destruct (nth_error (wallocs w) i) as [p|] eqn:En; [|injection E as <- <-; split; auto].
    apply nth_error_In in En. apply HA in En. injection E as <- <-. split; auto. cbn. intros b [<-|Hb]; auto. cbn. destruct p; [reflexivity|discriminate].
  - destruct (nth_error (wallocs w) i) as [p|], (nth_error (wblocks w) b) as [k|]; try (injection E as <- <-; split; auto).
    destruct (alloc_eq (wglob w) p (bprov k)); injection E as <- <-; split; auto. cbn. intros x Hx. apply drop_nth_in in Hx. auto.
Qed.
Lemma all_mem_sound w : all_mem w -> sound w.
Proof. intros [_ H] b Hb. rewrite (H b Hb). reflexivity. Qed.
(** the global resource is left alone *)
Lemma sound_step dbg w o w' e : sound w -> keeps_global o -> astep dbg w o = Ok (w', e) -> sound w'.
Proof.
  intros Hs Ho E. unfold astep in E. destruct o.
  - destruct Ho.
  - injection E as <- <-. exact Hs.
  - destruct (provider_from dbg k (wglob w) r); try discriminate. cbn in E. injection E as <- <-. exact Hs.
  - injection E as <- <-. destruct (nth_error (wallocs w) i); exact Hs.
  - destruct (nth_error (wallocs w) i) as [p|]; [|injection E as <- <-; exact Hs].
    destruct (rebound dbg (wglob w) p); try discriminate. cbn in E. injection E as <- <-. exact Hs.
  - destruct (nth_error (wallocs w) i) as [p|], (nth_error (wallocs w) j) as [q|]; try (injection E as <- <-; exact Hs).
    destruct (kind_of p), (kind_of q); injection E as <- <-; exact Hs.
  - destruct (nth_error (wallocs w) i) as [p|]; [|injection E as <- <-; exact Hs].
    injection E as <- <-. intros b [<-|Hb]; cbn; [reflexivity|]. apply Hs. exact Hb.
  - destruct (nth_error (wallocs w) i) as [p|], (nth_error (wblocks w) b) as [k|]; try (injection E as <- <-; exact Hs).
    destruct (alloc_eq (wglob w) p (bprov k)); injection E as <- <-; try exact Hs. intros x Hx. cbn in Hx. apply drop_nth_in in Hx. apply Hs. exact Hx.
Qed.
Lemma mem_accounted dbg g os w e : Forall per_allocator os -> arun dbg (World g [] []) os = Ok (w, e) -> accounted e.
Proof. intros Ho E. apply (arun_accounted dbg all_mem per_allocator all_mem_sound (all_mem_step dbg) os (World g [] []) w e); auto. split; intros ? []. Qed.
Lemma global_accounted dbg g os w e : Forall keeps_global os -> arun dbg (World g [] []) os = Ok (w, e) -> accounted e.
Proof. intros Ho E. apply (arun_accounted dbg sound keeps_global (fun w H => H) (sound_step dbg) os (World g [] []) w e); auto. intros ? []. Qed.

(** the operations never fail, given resources that exist and match *)
Lemma rebound_eq dbg g p : resource p g <> 0 -> exists q, rebound dbg g p = Ok q /\ alloc_eq g p q = true /\ q = p.
Proof.
  intros H. unfold rebound, provider_from. destruct p as [r|]; cbn.
  - cbn in H. destruct (r =? 0) eqn:E; [apply Z.eqb_eq in E; tauto|]. exists (PMem r). unfold alloc_eq. cbn. rewrite Z.eqb_refl. auto.
  - rewrite Z.eqb_refl, orb_true_r. exists PGlobal. unfold alloc_eq. cbn. rewrite Z.eqb_refl. auto.
Qed.

(** ** counts *)
Lemma arith_in z r : arith i64 z = Ok r -> r = z /\ in_range i64 z.
Proof. unfold arith. change (isgn i64) with true. cbn match. destruct (in_rangeb i64 z) eqn:E; intros X; [|discriminate]. injection X as <-. split; auto. unfold in_rangeb in E. unfold in_range. lia. Qed.
Lemma arith_ok z : in_range i64 z -> arith i64 z = Ok z.
Proof. intros H. unfold arith. change (isgn i64) with true. cbn match. replace (in_rangeb i64 z) with true; [reflexivity|]. unfold in_rangeb. unfold in_range in H. lia. Qed.
Definition iplus (x y : item) : item := Item (ia x + ia y) (isz x + isz y).
Definition iminus (x y : item) : item := Item (ia x - ia y) (isz x - isz y).
Lemma item_plus_in x y z : item_plus x y = Ok z -> z = iplus x y.
Proof.
  unfold item_plus, sadd. destruct (arith i64 (ia x + ia y)) eqn:E1; try discriminate. cbn [bind]. destruct (arith i64 (isz x + isz y)) eqn:E2; try discriminate.
  cbn [bind]. intros X. injection X as <-. apply arith_in in E1 as [-> _], E2 as [-> _]. reflexivity.
Qed.
Lemma item_minus_in x y z : item_minus x y = Ok z -> z = iminus x y.
Proof.
  unfold item_minus, ssub. destruct (arith i64 (ia x - ia y)) eqn:E1; try discriminate. cbn [bind]. destruct (arith i64 (isz x - isz y)) eqn:E2; try discriminate.
  cbn [bind]. intros X. injection X as <-. apply arith_in in E1 as [-> _], E2 as [-> _]. reflexivity.
Qed.
Lemma item_minus_ok x y z : in_item z -> z = iminus x y -> item_minus x y = Ok z.
Proof. intros [H1 H2] ->. cbn in H1, H2. unfold item_minus, ssub. rewrite arith_ok by auto. cbn [bind]. rewrite arith_ok by auto. reflexivity. Qed.
Lemma iminus_iplus x y : iminus (iplus x y) y = x.
Proof. destruct x, y. unfold iminus, iplus. cbn. f_equal; lia. Qed.
Lemma plus_fields a b c : counts_plus a b = Ok c -> c = Counts (iplus (ccurr a) (ccurr b)) (iplus (ctotal a) (ctotal b)) (iplus (cmax a) (cmax b)).
Proof.
  unfold counts_plus. destruct (item_plus (ccurr a) (ccurr b)) eqn:E1; try discriminate. cbn [bind]. destruct (item_plus (ctotal a) (ctotal b)) eqn:E2; try discriminate. cbn [bind].
  destruct (item_plus (cmax a) (cmax b)) eqn:E3; try discriminate. cbn [bind]. intros X. injection X as <-. apply item_plus_in in E1, E2, E3. subst. reflexivity.
Qed.
Lemma minus_fields a b c : counts_minus a b = Ok c -> c = Counts (iminus (ccurr a) (ccurr b)) (iminus (ctotal a) (ctotal b)) (iminus (cmax a) (cmax b)).
Proof.
  unfold counts_minus. destruct (item_minus (ccurr a) (ccurr b)) eqn:E1; try discriminate. cbn [bind]. destruct (item_minus (ctotal a) (ctotal b)) eqn:E2; try discriminate. cbn [bind].
  destruct (item_minus (cmax a) (cmax b)) eqn:E3; try discriminate. cbn [bind]. intros X. injection X as <-. apply item_minus_in in E1, E2, E3. subst. reflexivity.
Qed.
Lemma plus_minus a b c : in_counts a -> counts_plus a b = Ok c -> counts_minus c b = Ok a.
Proof.
  intros (H1 & H2 & H3) E. apply plus_fields in E. subst c. unfold counts_minus. cbn [ccurr ctotal cmax].
  rewrite (item_minus_ok _ _ (ccurr a)) by (auto; rewrite iminus_iplus; reflexivity). cbn [bind].
  rewrite (item_minus_ok _ _ (ctotal a)) by (auto; rewrite iminus_iplus; reflexivity). cbn [bind].
  rewrite (item_minus_ok _ _ (cmax a)) by (auto; rewrite iminus_iplus; reflexivity). destruct a; reflexivity.
Qed.
Lemma plus_comm a b : counts_plus a b = counts_plus b a.
Proof. unfold counts_plus, item_plus, sadd. rewrite (Z.add_comm (ia (ccurr a))), (Z.add_comm (isz (ccurr a))), (Z.add_comm (ia (ctotal a))), (Z.add_comm (isz (ctotal a))), (Z.add_comm (ia (cmax a))), (Z.add_comm (isz (cmax a))). reflexivity. Qed.

(** one event, without overflow *)
Definition delta (e : cev) : item := match e with CAdd sz => Item 1 (wrap i64 sz) | CRem sz => Item (-1) (- wrap i64 sz) end.
Definition tdelta (e : cev) : item := match e with CAdd sz => Item 1 (wrap i64 sz) | CRem sz => Item 0 0 end.
Definition imax2 (x y : item) : item := Item (Z.max (ia x) (ia y)) (Z.max (isz x) (isz y)).
Definition pstep (c : counts) (e : cev) : counts :=
  let u := iplus (ccurr c) (delta e) in
  Counts u (iplus (ctotal c) (tdelta e)) (match e with CAdd _ => imax2 (cmax c) u | CRem _ => cmax c end).
Lemma item_max_eq x y : item_max x y = imax2 x y.
Proof. unfold item_max, imax2. f_equal; [destruct (ia y <? ia x) eqn:E|destruct (isz y <? isz x) eqn:E]; lia. Qed.
Lemma iplus_0 x : iplus x (Item 0 0) = x.
Proof. destruct x. unfold iplus. cbn. f_equal; lia. Qed.
Lemma item_add_in x sz y : item_add x sz = Ok y -> y = iplus x (Item 1 (wrap i64 sz)).
Proof.
  unfold item_add, sadd. destruct (arith i64 (ia x + 1)) eqn:E1; try discriminate. cbn [bind]. destruct (arith i64 (isz x + wrap i64 sz)) eqn:E2; try discriminate.
  cbn [bind]. intros X. injection X as <-. apply arith_in in E1 as [-> _], E2 as [-> _]. reflexivity.
Qed.
Lemma item_rem_in x sz y : item_rem x sz = Ok y -> y = iplus x (Item (-1) (- wrap i64 sz)).
Proof.
  unfold item_rem, ssub. destruct (arith i64 (ia x - 1)) eqn:E1; try discriminate. cbn [bind]. destruct (arith i64 (isz x - wrap i64 sz)) eqn:E2; try discriminate.
  cbn [bind]. intros X. injection X as <-. apply arith_in in E1 as [-> _], E2 as [-> _]. unfold iplus. cbn [ia isz]. f_equal; lia.
Qed.
Lemma cstep1_in c e c' : cstep1 c e = Ok c' -> c' = pstep c e.
Proof.
  destruct e as [sz|sz]; unfold cstep1, add_counts, rem_counts; change (1 =? 0) with false; cbn match; cbn [bind].
  - destruct (item_add (ccurr c) sz) eqn:E1; try discriminate. cbn [bind]. destruct (item_add (ctotal c) sz) eqn:E2; try discriminate. cbn [bind].
    intros X. injection X as <-. apply item_add_in in E1, E2. subst. unfold pstep. cbn [delta tdelta]. rewrite item_max_eq. reflexivity.
  - destruct (item_rem (ccurr c) sz) eqn:E1; try discriminate. cbn [bind]. intros X. injection X as <-. apply item_rem_in in E1. subst.
    unfold pstep. cbn [delta tdelta]. rewrite iplus_0. reflexivity.
Qed.
Fixpoint prun (c : counts) (es : list cev) : counts := match es with [] => c | e :: es => prun (pstep c e) es end.
Lemma counts_run_in es : forall c c', counts_run c es = Ok c' -> c' = prun c es.
Proof.
  induction es as [|e es IH]; intros c c' E; cbn in *.
  - injection E as <-. reflexivity.
  - destruct (cstep1 c e) eqn:Es; try discriminate. cbn in E. apply cstep1_in in Es. subst. auto.
Qed.
(** a counter that began later *)
Record ahead (c d : counts) (u t : item) : Prop := Ahead {
  ah_curr : ccurr c = iplus u (ccurr d); ah_total : ctotal c = iplus t (ctotal d) }.
Lemma iplus_assoc x y z : iplus (iplus x y) z = iplus x (iplus y z).
Proof. destruct x, y, z. unfold iplus. cbn. f_equal; lia. Qed.
Lemma iplus_comm x y : iplus x y = iplus y x.
Proof. destruct x, y. unfold iplus. cbn. f_equal; lia. Qed.
Lemma ahead_step c d u t e : ahead c d u t -> ahead (pstep c e) (pstep d e) u t.
Proof. intros [H1 H2]. split; cbn [pstep ccurr ctotal]; rewrite ?H1, ?H2, iplus_assoc; reflexivity. Qed.
Lemma max_step c d m e : ahead c d (ccurr m) (ctotal m) -> item_le (ccurr m) (cmax m) -> item_le (cmax c) (iplus (cmax m) (cmax d)) ->
  item_le (cmax (pstep c e)) (iplus (cmax m) (cmax (pstep d e))).
Proof.
  intros [H1 _] [M1 M2] [L1 L2]. destruct e; cbn [pstep cmax]; [|split; assumption]. rewrite H1. unfold item_le, imax2, iplus in *. cbn [ia isz delta] in *. lia.
Qed.
Lemma ahead_run es : forall c d m, ahead c d (ccurr m) (ctotal m) -> item_le (ccurr m) (cmax m) -> item_le (cmax c) (iplus (cmax m) (cmax d)) ->
  ahead (prun c es) (prun d es) (ccurr m) (ctotal m) /\ item_le (cmax (prun c es)) (iplus (cmax m) (cmax (prun d es))).
Proof.
  induction es as [|e es IH]; intros c d m A M L; cbn [prun]; auto. apply IH; auto using ahead_step, max_step.
Qed.
Lemma max_mono es : forall c, item_le (cmax c) (cmax (prun c es)).
Proof.
  induction es as [|e es IH]; intros c; cbn [prun]; [split; lia|]. destruct (IH (pstep c e)) as [H1 H2].
  destruct e; cbn [pstep cmax] in *; unfold item_le, imax2 in *; cbn [ia isz] in *; lia.
Qed.
Lemma difference c es c' d : item_le (ccurr c) (cmax c) -> counts_run c es = Ok c' -> counts_run zero_counts es = Ok d ->
  forall r, counts_minus c' c = Ok r -> ccurr r = ccurr d /\ ctotal r = ctotal d /\ item_le (cmax r) (cmax d).
Proof.
  intros Hm E1 E2 r Er. apply counts_run_in in E1, E2. apply minus_fields in Er. subst.
  destruct (ahead_run es c zero_counts c) as [[A1 A2] [L1 L2]]; auto.
  - split; cbn; [destruct (ccurr c)|destruct (ctotal c)]; unfold iplus; cbn; f_equal; lia.
  - unfold item_le, iplus. cbn. lia.
  - cbn [ccurr ctotal cmax]. rewrite A1, A2. rewrite (iplus_comm (ccurr c)), (iplus_comm (ctotal c)), !iminus_iplus. split; auto. split; auto.
    unfold item_le, iminus, iplus in *. cbn in *. lia.
Qed.
(** when the maximum was current at the start *)
Lemma max_eq_run es : forall c d u, (ccurr c = iplus u (ccurr d)) -> cmax c = iplus u (cmax d) -> cmax (prun c es) = iplus u (cmax (prun d es)).
Proof.
  induction es as [|e es IH]; intros c d u H1 H2; cbn [prun]; auto. apply IH.
  - cbn [pstep ccurr]. rewrite H1, iplus_assoc. reflexivity.
  - destruct e; cbn [pstep cmax]; auto. rewrite H1, H2. unfold imax2, iplus. cbn. f_equal; lia.
Qed.
Lemma difference_max c es c' d : ccurr c = cmax c -> counts_run c es = Ok c' -> counts_run zero_counts es = Ok d ->
  forall r, counts_minus c' c = Ok r -> cmax r = cmax d.
Proof.
  intros Hm E1 E2 r Er. apply counts_run_in in E1, E2. apply minus_fields in Er. subst. cbn [cmax].
  rewrite (max_eq_run es c zero_counts (cmax c)).
  - rewrite iplus_comm, iminus_iplus. reflexivity.
  - rewrite Hm. cbn. rewrite iplus_0. reflexivity.
  - cbn. rewrite iplus_0. reflexivity.
Qed.
(** two counters and one that sees both histories *)
Record joint (c a b : counts) : Prop := Joint {
  j_curr : ccurr c = iplus (ccurr a) (ccurr b); j_total : ctotal c = iplus (ctotal a) (ctotal b);
  j_max : item_le (cmax c) (iplus (cmax a) (cmax b)); j_a : item_le (ccurr a) (cmax a); j_b : item_le (ccurr b) (cmax b) }.
Lemma wrap_nonneg_step c e : item_le (ccurr c) (cmax c) -> (forall sz, e = CRem sz -> 0 <= wrap i64 sz) -> item_le (ccurr (pstep c e)) (cmax (pstep c e)).
Proof.
  intros [H1 H2] Hn. destruct e; cbn [pstep ccurr cmax]; unfold item_le, imax2, iplus; cbn [ia isz delta]; [lia|]. specialize (Hn sz eq_refl). lia.
Qed.
Definition moderate (e : cev) : Prop := match e with CAdd sz | CRem sz => 0 <= sz < 2 ^ 63 end.
Lemma moderate_wrap e : moderate e -> forall sz, e = CRem sz -> 0 <= wrap i64 sz.
Proof.
  intros H sz ->. cbn in H. unfold wrap, i64. cbn [iw bits isgn andb].
  rewrite Z.mod_small by lia. destruct (2 ^ (64 - 1) <=? sz) eqn:E; [apply Z.leb_le in E; change (64 - 1) with 63 in E; lia|lia].
Qed.
Lemma joint_l c a b e : joint c a b -> moderate e -> joint (pstep c e) (pstep a e) b.
Proof.
  intros [H1 H2 H3 H4 H5] He. split; auto.
  - cbn [pstep ccurr]. rewrite H1, !iplus_assoc. f_equal. apply iplus_comm.
  - cbn [pstep ctotal]. rewrite H2, !iplus_assoc. f_equal. apply iplus_comm.
  - destruct e; cbn [pstep cmax]; auto. rewrite H1. unfold item_le, imax2, iplus in *. cbn [ia isz delta] in *. lia.
  - apply wrap_nonneg_step; auto. apply moderate_wrap; auto.
Qed.
Lemma joint_sym c a b : joint c a b -> joint c b a.
Proof. intros [H1 H2 H3 H4 H5]. split; auto; rewrite iplus_comm; auto. Qed.
Lemma joint_run es1 es2 es : merge es1 es2 es -> Forall moderate es -> forall c a b, joint c a b -> joint (prun c es) (prun a es1) (prun b es2).
Proof.
  induction 1; intros Hm c0 a0 b0 HJ; cbn [prun]; auto; inversion Hm; subst; apply IHmerge; auto.
  - apply joint_l; auto.
  - apply joint_sym, joint_l; auto. apply joint_sym; auto.
Qed.
Lemma sum_of_counters es1 es2 es a b c p : merge es1 es2 es -> Forall moderate es ->
  counts_run zero_counts es1 = Ok a -> counts_run zero_counts es2 = Ok b -> counts_run zero_counts es = Ok c -> counts_plus a b = Ok p ->
  ccurr p = ccurr c /\ ctotal p = ctotal c /\ item_le (cmax c) (cmax p).
Proof.
  intros HM Hm E1 E2 E3 E. apply counts_run_in in E1, E2, E3. apply plus_fields in E. subst.
  destruct (joint_run es1 es2 es HM Hm zero_counts zero_counts zero_counts) as [H1 H2 H3 _ _].
  - split; cbn; auto; split; cbn; lia.
  - cbn [ccurr ctotal cmax]. auto.
Qed.

Lemma small_convert_used num : num <> 0 -> small_convert true num = Err /\ exists num', small_convert false num = Ok num' /\ num' <> num.
Proof.
  intros H. unfold small_convert. destruct (Z.eqb_spec num 0); [contradiction|]. split; [reflexivity|].
  exists 0. split; [reflexivity|]. intros E. apply H. symmetry. exact E.
Qed.
