(** Proofs about bitmasks. *)
From Verif Require Import Base BaseLemmas SubstrModel MemUtilModel MemUtilProofs MemResModel CtorProofs CharconvModel SpanNumModel EnumModel EnumSpec EnumProofs.

(** *** ranges of bitwise operations *)
Lemma shiftr_small k x : 0 <= k -> -2 ^ k <= x < 2 ^ k <-> Z.shiftr x k = 0 \/ Z.shiftr x k = -1.
Proof.
  intros K. rewrite Z.shiftr_div_pow2 by lia. pose proof (Z.pow_pos_nonneg 2 k ltac:(lia) K).
  pose proof (Z.div_mod x (2 ^ k) ltac:(lia)). pose proof (Z.mod_pos_bound x (2 ^ k) ltac:(lia)). split.
  - intros X. assert (-1 <= x / 2 ^ k < 1); [|lia]. split.
    + apply Z.div_le_lower_bound; lia.
    + apply Z.div_lt_upper_bound; lia.
  - intros [E|E]; rewrite E in *; lia.
Qed.
Lemma clear_range t a b : in_range t a -> in_range t b -> in_range t (Z.land a (Z.lnot b)).
Proof.
  unfold in_range, imin, imax. destruct (isgn t).
  - set (k := bits (iw t) - 1). assert (0 <= k) as K by (unfold k; destruct (iw t); cbn; lia). intros A B.
    assert (-2 ^ k <= Z.land a (Z.lnot b) < 2 ^ k); [|lia]. apply shiftr_small; [exact K|].
    assert (Z.shiftr a k = 0 \/ Z.shiftr a k = -1) as HA by (apply shiftr_small; lia).
    assert (Z.shiftr (Z.lnot b) k = 0 \/ Z.shiftr (Z.lnot b) k = -1) as HB by (apply shiftr_small; [lia|]; unfold Z.lnot; lia).
    rewrite Z.shiftr_land. destruct HA as [-> | ->], HB as [-> | ->]; cbn; auto.
  - intros A B. assert (0 <= Z.land a (Z.lnot b)) by (apply Z.land_nonneg; left; lia).
    assert (Z.land a (Z.lnot b) <= a); [|lia].
    pose proof (Z.land_ldiff a b) as E.
    assert (Z.land a (Z.lnot b) = a - Z.land a b).
    { rewrite <- Z.ldiff_land. assert (a = Z.lor (Z.ldiff a b) (Z.land a b)) as X.
      { apply Z.bits_inj'. intros n N. rewrite Z.lor_spec, Z.ldiff_spec, Z.land_spec. destruct (Z.testbit a n), (Z.testbit b n); reflexivity. }
      assert (Z.land (Z.ldiff a b) (Z.land a b) = 0) as D.
      { apply Z.bits_inj'. intros n N. rewrite Z.land_spec, Z.ldiff_spec, Z.land_spec, Z.bits_0. destruct (Z.testbit a n), (Z.testbit b n); reflexivity. }
      pose proof (Z.add_nocarry_lxor _ _ D). pose proof (Z.lxor_lor _ _ D). lia. }
    assert (0 <= Z.land a b) by (apply Z.land_nonneg; left; lia). lia.
Qed.
Lemma split_bits a b : Z.land a b = b -> Z.lor b (Z.land a (Z.lnot b)) = a.
Proof.
  intros H. apply Z.bits_inj'. intros n N. rewrite Z.lor_spec, Z.land_spec, Z.lnot_spec by lia.
  assert (Z.testbit (Z.land a b) n = Z.testbit b n) as X by (rewrite H; reflexivity). rewrite Z.land_spec in X.
  destruct (Z.testbit a n), (Z.testbit b n); cbn in *; congruence.
Qed.

(** *** the choice of symbols *)
Fixpoint greedy (syms : list sym) (bits : Z) (chosen : list sym) : list sym * Z :=
  match syms with
  | [] => (chosen, bits)
  | p :: syms =>
      if sval p =? 0 then greedy syms bits chosen
      else if Z.land bits (sval p) =? sval p then greedy syms (Z.land bits (Z.lnot (sval p))) (p :: chosen)
      else greedy syms bits chosen
  end.
Lemma greedy_acc syms : forall bits chosen, exists sel,
  greedy syms bits chosen = (rev sel ++ chosen, snd (greedy syms bits [])) /\ fst (greedy syms bits []) = rev sel /\
  sublist sel syms /\ Forall (fun p => sval p <> 0) sel /\ Z.lor (ors sel) (snd (greedy syms bits [])) = bits.
Proof.
  induction syms as [|p syms IH]; intros bits chosen; cbn [greedy].
  - exists []. cbn. repeat split; auto. constructor.
  - destruct (sval p =? 0) eqn:Z0.
    + destruct (IH bits chosen) as [sel [A [B [C [D E]]]]]. exists sel. repeat split; auto. apply sub_skip. exact C.
    + destruct (Z.land bits (sval p) =? sval p) eqn:L.
      * destruct (IH (Z.land bits (Z.lnot (sval p))) (p :: chosen)) as [sel [A [B [C [D E]]]]].
        destruct (IH (Z.land bits (Z.lnot (sval p))) [p]) as [sel2 [A2 [B2 _]]].
        assert (sel2 = sel) as -> by (rewrite <- (rev_involutive sel2), <- (rev_involutive sel); congruence).
        exists (p :: sel). rewrite A, A2. cbn [fst snd rev]. rewrite <- !app_assoc. repeat split; auto.
        -- apply sub_take. exact C.
        -- apply Forall_cons; [lia|exact D].
        -- cbn [ors fold_right]. change (fold_right _ 0 sel) with (ors sel). rewrite <- Z.lor_assoc, E. apply split_bits. lia.
      * destruct (IH bits chosen) as [sel [A [B [C [D E]]]]]. exists sel. repeat split; auto. apply sub_skip. exact C.
Qed.
Lemma sublist_app {A} (a a' b b' : list A) : sublist a a' -> sublist b b' -> sublist (a ++ b) (a' ++ b').
Proof. intros H K. induction H; cbn; [exact K|apply sub_skip; auto|apply sub_take; auto]. Qed.
Lemma sublist_rev {A} (a a' : list A) : sublist a a' -> sublist (rev a) (rev a').
Proof.
  intros H. induction H; cbn; [constructor| |].
  - rewrite <- (app_nil_r (rev l)). apply sublist_app; auto. apply sub_skip. constructor.
  - apply sublist_app; auto. apply sub_take. constructor.
Qed.
Lemma sublist_in {A} (a b : list A) x : sublist a b -> In x a -> In x b.
Proof. intros H. induction H; cbn; intuition. Qed.
Lemma ors_app a b : ors (a ++ b) = Z.lor (ors a) (ors b).
Proof. induction a as [|x a IH]; cbn; [reflexivity|]. change (fold_right _ 0 (a ++ b)) with (ors (a ++ b)). rewrite IH. apply Z.lor_assoc. Qed.
Lemma ors_rev a : ors (rev a) = ors a.
Proof. induction a as [|x a IH]; [reflexivity|]. cbn [rev]. rewrite ors_app, IH. cbn. rewrite Z.lor_0_r, Z.lor_comm. reflexivity. Qed.

Section Loop.
Variables (t : ity) (o : offs) (w : otype).
Notation text l := (join (map (short o w) l)).
Lemma len_short tab p : offs_ok o tab -> In p tab -> 1 <= len (short o w p) <= len (sname p).
Proof. intros O I. pose proof (eoffs_range o w tab p O I). unfold short. change (hidden o w) with (eoffs o w). rewrite len_skip by lia. lia. Qed.
Lemma name_offs_ok tab p : offs_ok o tab -> In p tab -> name_offs o p w = Ok (short o w p).
Proof.
  intros O I. pose proof (eoffs_range o w tab p O I). unfold name_offs, assert.
  replace (eoffs o w <? len (sname p)) with true by lia. apply cskip_ok. lia.
Qed.
Lemma len_cons' (x : Z) l : len (x :: l) = 1 + len l.
Proof. unfold len. cbn [length]. lia. Qed.
Lemma len_app' (a b : list Z) : len (a ++ b) = len a + len b.
Proof. unfold len. rewrite app_length. lia. Qed.
Lemma text_cons p l : l <> [] -> text (p :: l) = short o w p ++ ch "|" :: text l.
Proof. intros H. destruct l; [congruence|reflexivity]. Qed.
Lemma text_bound_app a b : text_bound (a ++ b) = text_bound a + text_bound b.
Proof. induction a as [|p a IH]; cbn; [reflexivity|]. change (fold_right _ 0 (a ++ b)) with (text_bound (a ++ b)). rewrite IH. change (fold_right _ 0 a) with (text_bound a). lia. Qed.
Lemma text_bound_nonneg a : 0 <= text_bound a.
Proof. induction a as [|p a IH]; cbn; [lia|]. change (fold_right _ 0 a) with (text_bound a). unfold len. lia. Qed.
Lemma text_len tab l : offs_ok o tab -> (forall p, In p l -> In p tab) -> len (text l) <= text_bound l.
Proof.
  intros O. induction l as [|p l IH]; intros I; [cbn; lia|]. pose proof (len_short tab p O (I p (or_introl eq_refl))).
  specialize (IH (fun q Q => I q (or_intror Q))). change (text_bound (p :: l)) with (len (sname p) + 1 + text_bound l).
  destruct l as [|q l]; [cbn [map join text_bound fold_right]; lia|].
  rewrite text_cons by discriminate. rewrite len_app', len_cons'. lia.
Qed.
Lemma text_pos tab l : offs_ok o tab -> (forall p, In p l -> In p tab) -> (0 <? len (text l)) = negb (match l with [] => true | _ => false end).
Proof.
  intros O I. destruct l as [|p l]; [reflexivity|]. pose proof (len_short tab p O (I p (or_introl eq_refl))). cbn [negb].
  destruct l as [|q l]; [cbn [map join]; lia|]. rewrite text_cons by discriminate. rewrite len_app', len_cons'. pose proof (len_nonneg (text (q :: l))). lia.
Qed.

(** *** the buffer *)
Definition bst (str : option (list Z)) (acc : list Z) : bstate :=
  (len acc, match str with None => None | Some m => Some (acc ++ skipn (length acc) m) end).
Definition fit (str : option (list Z)) (n : Z) : bool := match str with None => true | Some m => n <=? len m end.
Lemma u64_small z : 0 <= z < 2 ^ 64 -> u64 z = z.
Proof. intros H. unfold u64. apply Z.mod_small. lia. Qed.
Lemma skipn_skipn' {A} (l : list A) : forall a b, skipn a (skipn b l) = skipn (b + a) l.
Proof. induction l as [|x l IH]; intros a b; [rewrite !skipn_nil; reflexivity|]. destruct b; [reflexivity|]. cbn. apply IH. Qed.
Lemma skipn_acc (acc : list Z) n m : (length acc <= n)%nat -> skipn n (acc ++ skipn (length acc) m) = skipn n m.
Proof.
  intros H. rewrite skipn_app, skipn_all2 by lia. cbn. rewrite skipn_skipn'. f_equal. lia.
Qed.
Lemma prepend_ok str acc txt : len acc + len txt < 2 ^ 64 -> fit str (len acc) = true ->
  prepend (bst str acc) txt = if fit str (len acc + len txt) then Ok (bst str (txt ++ acc)) else Err.
Proof.
  intros B F. pose proof (len_nonneg acc). pose proof (len_nonneg txt). unfold prepend, bst. rewrite u64_small by lia. rewrite len_app'.
  destruct str as [m|]; cbn [fit] in *.
  - assert (len (acc ++ skipn (length acc) m) = len m) as L.
    { rewrite len_app'. unfold len in *. rewrite skipn_length. lia. }
    rewrite L. destruct (len acc + len txt <=? len m) eqn:E; [|reflexivity].
    rewrite memmove_ok by lia. cbn [bind].
    assert (slice (acc ++ skipn (length acc) m) 0 (len acc) = acc) as S.
    { unfold slice. cbn [Z.to_nat skipn]. rewrite len_toN, firstn_app, Nat.sub_diag, firstn_all. cbn. apply app_nil_r. }
    rewrite S. assert (len (blit (acc ++ skipn (length acc) m) (len txt) acc) = len m) as L2 by (rewrite len_blit; lia).
    rewrite wrs_ok by lia. cbn [bind]. f_equal. replace (len txt + len acc) with (len acc + len txt) by lia. f_equal. f_equal.
    unfold blit. cbn [Z.to_nat firstn app]. rewrite <- app_assoc. f_equal. rewrite len_toN.
    rewrite skipn_app, firstn_length.
    assert (length (acc ++ skipn (length acc) m) = length m) as L3 by (unfold len in L; lia).
    rewrite L3. rewrite skipn_all2 by (rewrite firstn_length; unfold len in *; lia). cbn [app].
    replace (0 + length txt - Nat.min (length txt) (length m))%nat with 0%nat by (unfold len in *; lia). cbn [skipn].
    rewrite skipn_acc by lia. rewrite app_length. reflexivity.
  - replace (len txt + len acc) with (len acc + len txt) by lia. reflexivity.
Qed.
Lemma terminate_ok str acc : len acc + 1 < 2 ^ 64 -> fit str (len acc) = true ->
  terminate (bst str acc) = if fit str (len acc + 1) then Ok (bst str (acc ++ [0])) else Err.
Proof.
  intros B F. pose proof (len_nonneg acc). unfold terminate, bst. rewrite u64_small by lia. rewrite len_app'. change (len [0]) with 1.
  destruct str as [m|]; cbn [fit] in *; [|reflexivity].
  assert (len (acc ++ skipn (length acc) m) = len m) as L.
  { rewrite len_app'. unfold len in *. rewrite skipn_length. lia. }
  rewrite L. destruct (len acc + 1 <=? len m) eqn:E; [|reflexivity].
  rewrite wr_ok by lia. cbn [bind]. f_equal. f_equal. f_equal. unfold blit. rewrite len_toN.
  rewrite firstn_app, Nat.sub_diag, firstn_all. cbn [firstn]. rewrite app_nil_r, <- app_assoc. f_equal. f_equal.
  rewrite skipn_acc by (cbn [length]; lia). rewrite app_length. reflexivity.
Qed.

(** *** the loop *)
Definition zero_of (syms : list sym) (z : option sym) : option sym := fold_left (fun z p => if sval p =? 0 then Some p else z) syms z.
Lemma greedy_len tab syms : forall bits chosen, offs_ok o tab -> (forall p, In p syms -> In p tab) -> (forall p, In p chosen -> In p tab) ->
  len (text chosen) <= len (text (fst (greedy syms bits chosen))).
Proof.
  induction syms as [|p syms IH]; intros bits chosen O I C; cbn [greedy fst]; [lia|].
  assert (forall q, In q syms -> In q tab) as I' by (intros q Q; apply I; right; exact Q).
  destruct (sval p =? 0); [apply IH; auto|]. destruct (Z.land bits (sval p) =? sval p); [|apply IH; auto].
  etransitivity; [|apply IH; auto].
  - destruct chosen as [|q c]; [cbn [map join]; apply len_nonneg|]. rewrite (text_cons p (q :: c)) by discriminate. rewrite len_app', len_cons'. pose proof (len_nonneg (short o w p)). lia.
  - intros q [<-|Q]; [apply I; left; reflexivity|apply C; exact Q].
Qed.
Lemma bm_loop_ok tab str syms : forall bits zero chosen, offs_ok o tab ->
  (forall p, In p syms -> In p tab) -> (forall p, In p chosen -> In p tab) -> Forall (fun p => in_range t (sval p)) syms -> in_range t bits ->
  text_bound chosen + text_bound syms < 2 ^ 64 -> fit str (len (text chosen)) = true ->
  bm_loop t o w syms bits zero (bst str (text chosen)) =
  if fit str (len (text (fst (greedy syms bits chosen)))) then
    Ok (snd (greedy syms bits chosen), zero_of syms zero, bst str (text (fst (greedy syms bits chosen))))
  else Err.
Proof.
  induction syms as [|p syms IH]; intros bits zero chosen O I C V R B F.
  - cbn [bm_loop greedy fst snd zero_of fold_left]. rewrite F. reflexivity.
  - assert (forall q, In q syms -> In q tab) as I' by (intros q Q; apply I; right; exact Q).
    assert (In p tab) as P by (apply I; left; reflexivity).
    apply Forall_cons_iff in V. destruct V as [VP V].
    change (text_bound (p :: syms)) with (len (sname p) + 1 + text_bound syms) in B.
    pose proof (len_short tab p O P) as LS. pose proof (text_bound_nonneg syms) as BN.
    change (zero_of (p :: syms) zero) with (zero_of syms (if sval p =? 0 then Some p else zero)).
    cbn [bm_loop greedy]. unfold band. destruct (sval p =? 0) eqn:Z0; [apply IH; auto; lia|].
    destruct (Z.land bits (sval p) =? sval p) eqn:L; [|apply IH; auto; lia].
    pose proof (text_len tab chosen O C) as TL.
    assert (forall q, In q (p :: chosen) -> In q tab) as C' by (intros q [<-|Q]; auto).
    assert (bclear t bits (sval p) = Z.land bits (Z.lnot (sval p))) as BC by (apply wrap_id, clear_range; auto).
    rewrite BC. pose proof (greedy_len tab syms (Z.land bits (Z.lnot (sval p))) (p :: chosen) O I' C') as GL.
    assert (text_bound (p :: chosen) + text_bound syms < 2 ^ 64) as B'.
    { change (text_bound (p :: chosen)) with (len (sname p) + 1 + text_bound chosen). lia. }
    change (fst (bst str (text chosen))) with (len (text chosen)).
    rewrite (text_pos tab) by auto. rewrite (name_offs_ok tab) by auto.
    destruct chosen as [|q c].
    + cbn [negb bind]. change (text []) with (@nil Z) in *. rewrite prepend_ok by (cbn; auto; cbn in *; lia).
      change (len (@nil Z)) with 0. rewrite Z.add_0_l, app_nil_r. change (text [p]) with (short o w p) in *.
      destruct (fit str (len (short o w p))) eqn:FF.
      * cbn [bind]. change (short o w p) with (text [p]). apply IH; auto. apply clear_range; auto.
      * cbn [bind]. destruct (fit str (len (text _))) eqn:FG; [|reflexivity].
        exfalso. destruct str; cbn in *; [lia|discriminate].
    + cbn [negb]. rewrite text_cons in GL by discriminate. rewrite len_app', len_cons' in GL.
      rewrite prepend_ok by (cbn [length]; auto; change (len [ch "|"]) with 1; lia). change (len [ch "|"]) with 1.
      destruct (fit str (len (text (q :: c)) + 1)) eqn:F1.
      * cbn [bind]. assert (len ([ch "|"] ++ text (q :: c)) = len (text (q :: c)) + 1) as LL by (cbn [app]; rewrite len_cons'; lia).
        rewrite prepend_ok; [|rewrite LL; lia|rewrite LL; exact F1]. rewrite LL.
        destruct (fit str (len (text (q :: c)) + 1 + len (short o w p))) eqn:F2.
        -- cbn [bind]. change (short o w p ++ [ch "|"] ++ text (q :: c)) with (text (p :: q :: c)).
           apply IH; auto.
           ++ apply clear_range; auto.
           ++ rewrite text_cons by discriminate. rewrite len_app', len_cons'. replace (len (short o w p) + (1 + len (text (q :: c)))) with (len (text (q :: c)) + 1 + len (short o w p)) by lia. exact F2.
        -- cbn [bind]. destruct (fit str (len (text (fst _)))) eqn:FG; [|reflexivity].
           exfalso. destruct str; cbn [fit] in *; [lia|discriminate].
      * cbn [bind]. destruct (fit str (len (text (fst _)))) eqn:FG; [|reflexivity].
        exfalso. destruct str; cbn [fit] in *; [lia|discriminate].
Qed.
End Loop.
