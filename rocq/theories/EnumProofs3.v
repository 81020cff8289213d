(** Proofs about bitmasks: the texts and reading them. *)
From Verif Require Import Base BaseLemmas CharconvSpec SubstrModel MemUtilModel MemUtilProofs MemResModel CtorProofs CharconvModel SubstrSpec SpanNumModel SpanNumSpec SpanNumProofs5 EnumModel EnumSpec EnumProofs EnumProofs2.

Lemma zero_find tab : zero_of (rev tab) None = List.find (fun p => sval p =? 0) tab.
Proof.
  unfold zero_of. rewrite <- fold_left_rev_right, rev_involutive.
  induction tab as [|p tab IH]; [reflexivity|]. cbn [fold_right List.find]. destruct (sval p =? 0); [reflexivity|exact IH].
Qed.
Lemma greedy_zero syms : greedy syms 0 [] = ([], 0).
Proof.
  induction syms as [|p syms IH]; [reflexivity|]. cbn [greedy]. destruct (sval p =? 0) eqn:E; [exact IH|].
  rewrite Z.land_0_l. replace (0 =? sval p) with false by lia. exact IH.
Qed.
Definition the_text (o : offs) (w : otype) (tab : list sym) (bits : Z) : list Z :=
  if bits =? 0 then match List.find (fun p => sval p =? 0) tab with Some p => short o w p | None => [ch "0"] end
  else join (map (short o w) (fst (greedy (rev tab) bits []))).
Definition leftover (tab : list sym) (bits : Z) : Z := snd (greedy (rev tab) bits []).
Lemma leftover_zero tab : leftover tab 0 = 0.
Proof. unfold leftover. rewrite greedy_zero. reflexivity. Qed.
Lemma the_text_names o w tab bits : leftover tab bits = 0 -> names_bits o w tab bits (the_text o w tab bits).
Proof.
  intros L. unfold names_bits, the_text. destruct (bits =? 0) eqn:E.
  - destruct (List.find _ tab); reflexivity.
  - destruct (greedy_acc (rev tab) bits []) as [sel [A [B [C [D F]]]]]. unfold leftover in L. rewrite L, Z.lor_0_r in F.
    exists (rev sel). rewrite B. split; [rewrite <- (rev_involutive tab); apply sublist_rev; exact C|].
    split; [apply Forall_rev; exact D|]. split; [rewrite ors_rev; exact F|reflexivity].
Qed.
Lemma rev_bound tab : text_bound (rev tab) = text_bound tab.
Proof. induction tab as [|p tab IH]; [reflexivity|]. cbn [rev]. rewrite text_bound_app, IH. cbn. change (fold_right _ 0 tab) with (text_bound tab). lia. Qed.
Lemma in_bound tab p : In p tab -> len (sname p) + 1 <= text_bound tab.
Proof.
  induction tab as [|q tab IH]; intros H; [destruct H|]. change (text_bound (q :: tab)) with (len (sname q) + 1 + text_bound tab).
  pose proof (text_bound_nonneg tab). pose proof (len_nonneg (sname q)). destruct H as [->|H]; [lia|]. specialize (IH H). lia.
Qed.
Lemma greedy_sublist tab bits : sublist (fst (greedy (rev tab) bits [])) tab.
Proof.
  destruct (greedy_acc (rev tab) bits []) as [sel [A [B [C _]]]]. rewrite B.
  rewrite <- (rev_involutive tab). apply sublist_rev. exact C.
Qed.
Lemma sublist_bound a b : sublist a b -> text_bound a <= text_bound b.
Proof.
  intros H. induction H as [|x a b H IH|x a b H IH]; [lia| |].
  - change (text_bound (x :: b)) with (len (sname x) + 1 + text_bound b). pose proof (len_nonneg (sname x)). lia.
  - change (text_bound (x :: b)) with (len (sname x) + 1 + text_bound b). change (text_bound (x :: a)) with (len (sname x) + 1 + text_bound a). lia.
Qed.
Lemma bm2str_ok t o w tab bits str : offs_ok o tab -> Forall (fun p => in_range t (sval p)) tab -> in_range t bits -> text_bound tab + 1 < 2 ^ 64 ->
  bm2str t o tab bits str w =
  if negb (leftover tab bits =? 0) then Err
  else if room str (len (the_text o w tab bits) + 1) then
    Ok (len (the_text o w tab bits) + 1, written str (the_text o w tab bits ++ [0]))
  else Err.
Proof.
  intros O V R B. pose proof (len_nonneg (the_text o w tab bits)) as NN. unfold bm2str, assert.
  destruct (match str with None => true | Some m => negb (len m =? 0) end) eqn:N.
  2:{ destruct str as [m|]; [|discriminate]. destruct (negb (leftover tab bits =? 0)); [reflexivity|]. cbn [room].
      replace (len (the_text o w tab bits) + 1 <=? len m) with false by lia. reflexivity. }
  assert (fit str 0 = true) as F0 by (destruct str; cbn; [pose proof (len_nonneg l); lia|reflexivity]).
  pose proof (bm_loop_ok t o w tab str (rev tab) bits None [] O) as L.
  change (bst str (join (map (short o w) []))) with (0, match str with None => None | Some m => Some m end) in L.
  replace (match str with None => None | Some m => Some m end) with str in L by (destruct str; reflexivity).
  rewrite L; [|intros p; rewrite <- in_rev; auto|intros p []|apply Forall_rev; exact V|exact R|rewrite rev_bound; cbn; lia|exact F0]. clear L.
  fold (leftover tab bits). rewrite zero_find. set (chosen := fst (greedy (rev tab) bits [])).
  pose proof (greedy_sublist tab bits) as SL. fold chosen in SL.
  assert (forall p, In p chosen -> In p tab) as CI by (intros p; apply sublist_in; exact SL).
  pose proof (text_len o w tab chosen O CI) as TL. pose proof (sublist_bound _ _ SL) as SB.
  destruct (fit str (len (join (map (short o w) chosen)))) eqn:F1.
  - cbn [bind]. destruct (negb (leftover tab bits =? 0)) eqn:LO; [reflexivity|].
    change (fst (bst str (join (map (short o w) chosen)))) with (len (join (map (short o w) chosen))).
    pose proof (text_pos o w tab chosen O CI) as TP.
    destruct (greedy_acc (rev tab) bits []) as [sel [_ [E2 [_ [NZ E5]]]]]. fold chosen in E2. fold (leftover tab bits) in E5.
    replace (leftover tab bits) with 0 in E5 by lia. rewrite Z.lor_0_r in E5.
    destruct (bits =? 0) eqn:Z0.
    + assert (bits = 0) as ZZ by lia. assert (chosen = []) as CE by (unfold chosen; rewrite ZZ, greedy_zero; reflexivity).
      rewrite CE. cbn [map join]. change (len (@nil Z) =? 0) with true. cbn match.
      unfold the_text in *. rewrite Z0 in *.
      destruct (List.find (fun p => sval p =? 0) tab) as [p|] eqn:FZ.
      * apply find_some in FZ. destruct FZ as [PI _]. rewrite (name_offs_ok o w tab) by auto. cbn [bind].
        pose proof (len_short o w tab p O PI). pose proof (in_bound tab p PI).
        rewrite prepend_ok; [|change (len (@nil Z)) with 0; lia|exact F0]. change (len (@nil Z)) with 0. rewrite Z.add_0_l, app_nil_r.
        destruct (fit str (len (short o w p))) eqn:F2; cbn [bind].
        -- rewrite terminate_ok by (auto; lia). change (fit str) with (room str). destruct (room str (len (short o w p) + 1)); [|reflexivity].
           unfold bst. rewrite len_app'. reflexivity.
        -- destruct (room str (len (short o w p) + 1)) eqn:F3; [|reflexivity]. exfalso. destruct str; cbn in *; [lia|discriminate].
      * rewrite prepend_ok; [|cbn; lia|exact F0]. change (len (@nil Z) + len [ch "0"]) with 1. change ([ch "0"] ++ []) with [ch "0"].
        change (len [ch "0"]) with 1.
        destruct (fit str 1) eqn:F2; cbn [bind].
        -- rewrite terminate_ok by (auto; cbn; lia). change (len [ch "0"]) with 1. change (fit str) with (room str). destruct (room str (1 + 1)); [|reflexivity]. reflexivity.
        -- destruct (room str (1 + 1)) eqn:F3; [|reflexivity]. exfalso. destruct str; cbn in *; [lia|discriminate].
    + assert (chosen <> []) as CN.
      { intros CE. rewrite E2 in CE. assert (sel = []) as SE by (rewrite <- (rev_involutive sel), CE; reflexivity). rewrite SE in E5. cbn in E5. lia. }
      assert (the_text o w tab bits = join (map (short o w) chosen)) as TT by (unfold the_text; rewrite Z0; reflexivity).
      rewrite TT in *. replace (len (join (map (short o w) chosen)) =? 0) with false.
      2:{ destruct chosen; [congruence|]. cbn [negb] in TP. lia. }
      cbn [bind]. rewrite terminate_ok by (auto; lia). change (fit str) with (room str).
      destruct (room str _); [|reflexivity]. unfold bst. rewrite len_app'. reflexivity.
  - cbn [bind]. destruct (negb (leftover tab bits =? 0)) eqn:LO; [reflexivity|].
    destruct (bits =? 0) eqn:Z0.
    + exfalso. assert (bits = 0) as ZZ by lia. unfold chosen in F1. rewrite ZZ, greedy_zero in F1. cbn in F1. change (len (@nil Z)) with 0 in F1. congruence.
    + assert (the_text o w tab bits = join (map (short o w) chosen)) as TT by (unfold the_text; rewrite Z0; reflexivity).
      rewrite TT. destruct (room str _) eqn:F2; [|reflexivity]. exfalso. destruct str; cbn in *; [lia|discriminate].
Qed.
Lemma bm2str_spec t o w tab bits : offs_ok o tab -> Forall (fun p => in_range t (sval p)) tab -> in_range t bits -> text_bound tab + 1 < 2 ^ 64 ->
  (exists s, names_bits o w tab bits s /\ forall str,
     bm2str t o tab bits str w = if room str (len s + 1) then Ok (len s + 1, written str (s ++ [0])) else Err)
  \/ (bits <> 0 /\ forall str, bm2str t o tab bits str w = Err).
Proof.
  intros O V R B. destruct (leftover tab bits =? 0) eqn:L.
  - left. exists (the_text o w tab bits). split; [apply the_text_names; lia|]. intros str. rewrite bm2str_ok by auto. rewrite L. reflexivity.
  - right. split.
    + intros ->. rewrite leftover_zero in L. discriminate.
    + intros str. rewrite bm2str_ok by auto. rewrite L. reflexivity.
Qed.
(** *** completeness *)
Lemma greedy_sub syms : forall bits chosen i, 0 <= i -> Z.testbit (snd (greedy syms bits chosen)) i = true -> Z.testbit bits i = true.
Proof.
  induction syms as [|p syms IH]; intros bits chosen i I H; [exact H|]. cbn [greedy] in H.
  destruct (sval p =? 0); [apply IH in H; auto|]. destruct (Z.land bits (sval p) =? sval p); apply IH in H; auto.
  rewrite Z.land_spec in H. apply andb_prop in H. apply H.
Qed.
Lemma greedy_clears syms : forall bits chosen i, 0 <= i -> (exists p, In p syms /\ sval p = 2 ^ i) ->
  Z.testbit (snd (greedy syms bits chosen)) i = false.
Proof.
  induction syms as [|p syms IH]; intros bits chosen i I [q [Q E]]; [destruct Q|]. cbn [greedy].
  destruct Q as [->|Q].
  - pose proof (Z.pow_pos_nonneg 2 i ltac:(lia) I). rewrite E. replace (2 ^ i =? 0) with false by lia.
    destruct (Z.land bits (2 ^ i) =? 2 ^ i) eqn:L.
    + apply not_true_is_false. intros X. apply greedy_sub in X; auto. rewrite Z.land_spec, Z.lnot_spec, Z.pow2_bits_true in X by lia.
      rewrite andb_false_r in X. discriminate.
    + apply not_true_is_false. intros X. apply greedy_sub in X; auto.
      assert (Z.land bits (2 ^ i) = 2 ^ i); [|lia]. apply Z.bits_inj'. intros n N. rewrite Z.land_spec.
      destruct (Z.eq_dec i n) as [->|D]; [rewrite X; reflexivity|]. rewrite Z.pow2_bits_false by lia. apply andb_false_r.
  - destruct (sval p =? 0); [apply IH; eauto|]. destruct (Z.land bits (sval p) =? sval p); apply IH; eauto.
Qed.
Lemma leftover_none tab bits : (forall i, 0 <= i -> Z.testbit bits i = true -> exists p, In p tab /\ sval p = 2 ^ i) -> leftover tab bits = 0.
Proof.
  intros H. apply Z.bits_inj'. intros i I. rewrite Z.bits_0. destruct (Z.testbit (leftover tab bits) i) eqn:E; [|reflexivity].
  pose proof (greedy_sub _ _ _ _ I E) as X. destruct (H i I X) as [p [P V]].
  rewrite <- E. apply greedy_clears; auto. exists p. rewrite <- in_rev. auto.
Qed.
Lemma bm2str_complete t o w tab bits : offs_ok o tab -> Forall (fun p => in_range t (sval p)) tab -> in_range t bits -> text_bound tab + 1 < 2 ^ 64 ->
  (forall i, 0 <= i -> Z.testbit bits i = true -> exists p, In p tab /\ sval p = 2 ^ i) ->
  exists s, names_bits o w tab bits s /\ bm2str t o tab bits None w = Ok (len s + 1, None).
Proof.
  intros O V R B H. exists (the_text o w tab bits). apply leftover_none in H. split; [apply the_text_names; exact H|].
  rewrite bm2str_ok by auto. rewrite H. reflexivity.
Qed.
(** *** the stream *)
Fixpoint gsel (syms : list sym) (bits : Z) : list sym :=
  match syms with
  | [] => []
  | p :: syms =>
      if sval p =? 0 then gsel syms bits
      else if Z.land bits (sval p) =? sval p then p :: gsel syms (Z.land bits (Z.lnot (sval p)))
      else gsel syms bits
  end.
Lemma gsel_greedy syms : forall bits chosen, greedy syms bits chosen = (rev (gsel syms bits) ++ chosen, snd (greedy syms bits chosen)).
Proof.
  induction syms as [|p syms IH]; intros bits chosen; [reflexivity|]. cbn [greedy gsel].
  destruct (sval p =? 0); [apply IH|]. destruct (_ =? sval p); [|apply IH]. rewrite IH. cbn [fst snd rev]. rewrite <- app_assoc. reflexivity.
Qed.
Definition sep (wr : bool) (s : list Z) : list Z := match s with [] => [] | _ => if wr then ch "|" :: s else s end.
Lemma stream_loop_ok t o w tab syms : forall bits wr, offs_ok o tab -> (forall p, In p syms -> In p tab) ->
  Forall (fun p => in_range t (sval p)) syms -> in_range t bits ->
  bm_stream_loop t o w syms bits wr = Ok (sep wr (join (map (short o w) (gsel syms bits)))).
Proof.
  induction syms as [|p syms IH]; intros bits wr O I V R; [reflexivity|].
  apply Forall_cons_iff in V. destruct V as [VP V].
  assert (forall q, In q syms -> In q tab) as I' by (intros q Q; apply I; right; exact Q).
  assert (In p tab) as P by (apply I; left; reflexivity).
  cbn [bm_stream_loop gsel]. unfold band. destruct (sval p =? 0); [cbn [negb andb]; apply IH; auto|]. cbn [negb andb].
  destruct (Z.land bits (sval p) =? sval p) eqn:L; [|apply IH; auto].
  rewrite (name_offs_ok o w tab) by auto. cbn [bind].
  assert (bclear t bits (sval p) = Z.land bits (Z.lnot (sval p))) as -> by (apply wrap_id, clear_range; auto).
  rewrite IH; auto; [|apply clear_range; auto]. cbn [bind]. f_equal. cbn [map].
  set (l := gsel syms (Z.land bits (Z.lnot (sval p)))).
  pose proof (len_short o w tab p O P) as LS. destruct (short o w p) as [|c s0] eqn:SE; [cbn in LS; lia|].
  assert (forall q, In q l -> In q tab) as LI.
  { intros q Q. apply I'. unfold l in Q. destruct (greedy_acc syms (Z.land bits (Z.lnot (sval p))) []) as [sel [_ [B [C _]]]].
    rewrite gsel_greedy in B. cbn [fst] in B. rewrite app_nil_r in B.
    apply (f_equal (@rev sym)) in B. rewrite !rev_involutive in B. rewrite B in Q. apply sublist_in with sel; auto. }
  clearbody l. destruct l as [|q l].
  - cbn [map join sep]. destruct wr; rewrite ?app_nil_r; reflexivity.
  - cbn [map]. assert (0 < len (join (map (short o w) (q :: l)))) as LP.
    { pose proof (text_pos o w tab (q :: l) O LI) as TP. cbn [negb] in TP. lia. }
    cbn [map] in LP. change (join ((c :: s0) :: short o w q :: map (short o w) l)) with (((c :: s0) ++ ch "|" :: join (short o w q :: map (short o w) l))).
    destruct (join (short o w q :: map (short o w) l)) as [|d jr]; [cbn in LP; lia|]. cbn [sep]. destruct wr; reflexivity.
Qed.
Lemma find_rev_zero tab p : List.find (fun p => sval p =? 0) (rev tab) = Some p -> In p tab.
Proof. intros H. apply find_some in H. rewrite <- in_rev in H. apply H. Qed.
Lemma bm2stream_spec t o w tab bits : offs_ok o tab -> Forall (fun p => in_range t (sval p)) tab -> in_range t bits ->
  (exists n str, bm2str t o tab bits None w = Ok (n, str)) -> text_bound tab + 1 < 2 ^ 64 ->
  exists s, bm2stream t o tab bits w = Ok s /\ names_bits o w (rev tab) bits s.
Proof.
  intros O V R [n [str H]] B. rewrite bm2str_ok in H by auto. destruct (negb (leftover tab bits =? 0)) eqn:L; [discriminate|]. clear H.
  unfold bm2stream, names_bits. destruct (bits =? 0) eqn:Z0; cbn [negb].
  - destruct (List.find _ (rev tab)) as [p|] eqn:F; [|eexists; split; reflexivity].
    apply find_rev_zero in F. rewrite (name_offs_ok o w tab) by auto. eexists. split; reflexivity.
  - rewrite (stream_loop_ok t o w tab); [|exact O|intros p; rewrite <- in_rev; auto|apply Forall_rev; auto|exact R].
    eexists. split; [reflexivity|]. destruct (greedy_acc (rev tab) bits []) as [sel [_ [B2 [C [D F]]]]].
    rewrite gsel_greedy in B2. cbn [fst] in B2. rewrite app_nil_r in B2. apply (f_equal (@rev sym)) in B2. rewrite !rev_involutive in B2. rewrite B2.
    exists sel. split; [exact C|]. split; [exact D|]. fold (leftover tab bits) in F. replace (leftover tab bits) with 0 in F by lia.
    rewrite Z.lor_0_r in F. split; [exact F|]. unfold sep. destruct (join _); reflexivity.
Qed.
(** *** reading *)
Lemma letter_ok c : letter c <-> is_letter c = true.
Proof. unfold letter, is_letter. change (ch "a") with 97. change (ch "z") with 122. change (ch "A") with 65. change (ch "Z") with 90. change (ch "_") with 95. lia. Qed.
Lemma word_cstring s : word s -> cstring s.
Proof.
  intros [c [r [-> [L F]]]]. apply Forall_cons.
  - intros ->. apply letter_ok in L. discriminate.
  - eapply Forall_impl; [|exact F]. cbn. intros a [H| ->]; [intros ->; apply letter_ok in H; discriminate|discriminate].
Qed.
Lemma loop_word t o tab r : Forall (fun c => letter c \/ c = ch ":") r -> forall rest v a,
  str2bm_loop t o tab (r ++ rest) (BMS v true true false (Some a)) = str2bm_loop t o tab rest (BMS v true true false (Some (a ++ r))).
Proof.
  intros F. induction F as [|c r C F IH]; intros rest v a; [rewrite app_nil_r; reflexivity|].
  cbn [app str2bm_loop bstarted balnum bnum btext bval bput]. destruct C as [C| ->].
  - apply letter_ok in C. rewrite C. cbn [negb orb assert]. unfold assert. rewrite IH, <- app_assoc. reflexivity.
  - change (is_letter (ch ":")) with false. change (is_dig (ch ":")) with false. change (ch ":" =? ch ":") with true. cbn [orb].
    rewrite IH, <- app_assoc. reflexivity.
Qed.
Lemma loop_name t o tab s rest v x : word s ->
  str2bm_loop t o tab (s ++ rest) (BMS v false false false x) = str2bm_loop t o tab rest (BMS v true true false (Some s)).
Proof.
  intros [c [r [-> [L F]]]]. apply letter_ok in L. cbn [app str2bm_loop bstarted balnum bnum btext bval]. rewrite L. cbn [negb orb]. unfold assert. rewrite loop_word by exact F. reflexivity.
Qed.
Lemma read_name t o w tab p : offs_ok o tab -> distinct_names o w tab -> In p tab -> word (short o w p) -> read_one t o tab (short o w p) true = Ok (sval p).
Proof.
  intros O D I W. destruct (find_n_ok o tab (short o w p) O (word_cstring _ W)) as [r [E F]].
  unfold read_one. rewrite E. cbn [bind]. destruct r as [q|].
  - apply first_in in F. destruct F as [Q X]. f_equal. apply D; auto.
  - exfalso. apply (F p I). right. apply short_is_name. pose proof (eoffs_range o w tab p O I). lia.
Qed.
Lemma read_names t o w tab sel : offs_ok o tab -> distinct_names o w tab -> (forall p, In p tab -> word (short o w p)) ->
  Forall (fun p => in_range t (sval p)) tab ->
  sel <> [] -> (forall p, In p sel -> In p tab) -> forall v x, in_range t v ->
  str2bm_loop t o tab (join (map (short o w) sel)) (BMS v false false false x) = Ok (Z.lor v (ors sel)).
Proof.
  intros O D W R. rewrite Forall_forall in R. induction sel as [|p sel IH]; intros N I v x V; [congruence|].
  assert (In p tab) as P by (apply I; left; reflexivity). cbn [map ors fold_right]. change (fold_right _ 0 sel) with (ors sel).
  assert (forall s, bread t o tab (BMS v true true false (Some (short o w p))) = Ok s <-> s = Z.lor v (sval p)) as BR.
  { intros s. unfold bread, assert. cbn [bnum balnum Bool.eqb negb btext bval]. rewrite (read_name t o w) by auto. cbn [bind].
    rewrite wrap_id by (apply lor_range; auto). split; [intros H; inversion H; reflexivity|intros ->; reflexivity]. }
  destruct (bread t o tab (BMS v true true false (Some (short o w p)))) as [s| |] eqn:BE;
    [|exfalso; specialize (proj2 (BR _) eq_refl); discriminate|exfalso; specialize (proj2 (BR _) eq_refl); discriminate].
  pose proof (proj1 (BR s) eq_refl) as ->.
  destruct sel as [|q sel].
  - cbn [map join]. rewrite <- (app_nil_r (short o w p)), loop_name by auto. cbn [str2bm_loop btext]. rewrite BE.
    cbn. rewrite Z.lor_0_r. reflexivity.
  - cbn [map]. change (join (short o w p :: short o w q :: map (short o w) sel)) with (short o w p ++ ch "|" :: join (map (short o w) (q :: sel))).
    rewrite loop_name by auto. cbn [str2bm_loop]. change (is_letter (ch "|")) with false. change (is_dig (ch "|")) with false.
    change ((ch "|" =? ch ":") || (ch "|" =? ch " ")) with false. change ((ch "|" =? ch "|") || (ch "|" =? 0)) with true. cbn match.
    rewrite BE. cbn [bind]. change (ch "|" =? 0) with false. cbn match. rewrite IH.
    + rewrite Z.lor_assoc. reflexivity.
    + discriminate.
    + intros r Q. apply I. right. exact Q.
    + apply lor_range; auto.
Qed.
Lemma in_range0 t : in_range t 0.
Proof. destruct t as [[] []]; unfold in_range, imin, imax; cbn; lia. Qed.
Lemma round_trip t o w tab tab' bits s : offs_ok o tab -> distinct_names o w tab -> (forall p, In p tab -> word (short o w p)) ->
  Forall (fun p => in_range t (sval p)) tab -> (forall p, In p tab' -> In p tab) ->
  names_bits o w tab' bits s -> str2bm t o tab s = Ok bits.
Proof.
  intros O D W R I N. unfold names_bits in N. unfold str2bm. destruct (bits =? 0) eqn:Z0.
  - destruct (List.find _ tab') as [p|] eqn:F; subst s.
    + apply find_some in F. destruct F as [P V].
      change (short o w p) with (join (map (short o w) [p])). rewrite read_names; auto; [|discriminate|intros q [<-|[]]; auto|apply in_range0].
      f_equal. cbn [ors fold_right]. rewrite Z.lor_0_l, Z.lor_0_r. lia.
    + replace bits with 0 by lia. destruct t as [[] []]; vm_compute; reflexivity.
  - destruct N as [sel [SL [NZ [E ->]]]]. rewrite read_names; auto.
    + f_equal. rewrite Z.lor_0_l. exact E.
    + intros ->. cbn in E. lia.
    + intros p P. apply I. apply sublist_in with sel; auto.
    + apply in_range0.
Qed.

(** *** items *)
Lemma hidden_eoffs o w : hidden o w = eoffs o w. Proof. reflexivity. Qed.
Lemma loop_digits t o tab r : Forall (fun c => ch "0" <= c <= ch "9") r -> forall rest v a,
  str2bm_loop t o tab (r ++ rest) (BMS v true false true (Some a)) = str2bm_loop t o tab rest (BMS v true false true (Some (a ++ r))).
Proof.
  intros F. induction F as [|c r C F IH]; intros rest v a; [rewrite app_nil_r; reflexivity|].
  cbn [app str2bm_loop bstarted balnum bnum btext bval bput]. change (ch "0") with 48 in C. change (ch "9") with 57 in C.
  assert (is_letter c = false) as -> by (unfold is_letter; change (ch "a") with 97; change (ch "z") with 122; change (ch "A") with 65; change (ch "Z") with 90; change (ch "_") with 95; lia).
  assert (is_dig c = true) as -> by (unfold is_dig; change (ch "0") with 48; change (ch "9") with 57; lia).
  cbn [negb]. unfold assert. rewrite IH, <- app_assoc. reflexivity.
Qed.
Lemma digits_bytes s : Forall (fun c => ch "0" <= c <= ch "9") s -> bytes s.
Proof. apply Forall_impl. change (ch "0") with 48. change (ch "9") with 57. unfold is_byte. intros. lia. Qed.
Lemma item_state t o tab s u rest v x : offs_ok o tab -> item t o tab s u -> small s ->
  exists st, str2bm_loop t o tab (s ++ rest) (BMS v false false false x) = str2bm_loop t o tab rest st /\ btext st = Some s /\
    bread t o tab st = Ok (wrap t (Z.lor v u)).
Proof.
  intros O H Sm. destruct H as [s p W F|s u D FD R|y s u X D FD R].
  - exists (BMS v true true false (Some s)). rewrite loop_name by auto. split; [reflexivity|]. split; [reflexivity|].
    unfold bread, assert. cbn [bnum balnum Bool.eqb negb btext bval read_one].
    destruct (find_n_ok o tab s O (word_cstring _ W)) as [r [E F']]. rewrite E. cbn [bind].
    rewrite (first_unique _ _ _ _ F' F). reflexivity.
  - exists (BMS v true false true (Some s)).
    pose proof (digits_bytes s FD) as By.
    assert (ato_first t s 0 = Ok (Some (len s), u)) as A.
    { rewrite (ato_first_value t s 0 [] s [] u); auto; [cbn [len length]; rewrite wrap_id by auto; reflexivity|rewrite app_nil_r; reflexivity|left; reflexivity|].
      unfold int_text. destruct (isgn t); [apply st_pos|]; apply ut_dec; auto. }
    destruct D as [NE _]. destruct s as [|c s]; [congruence|]. split.
    + inversion FD as [|? ? C FD']; subst. cbn [app str2bm_loop bstarted balnum bnum btext bval]. change (ch "0") with 48 in C. change (ch "9") with 57 in C.
      assert (is_letter c = false) as -> by (unfold is_letter; change (ch "a") with 97; change (ch "z") with 122; change (ch "A") with 65; change (ch "Z") with 90; change (ch "_") with 95; lia).
      assert (is_dig c = true) as -> by (unfold is_dig; change (ch "0") with 48; change (ch "9") with 57; lia).
      cbn [negb]. unfold assert. rewrite loop_digits by auto. reflexivity.
    + split; [reflexivity|]. unfold bread, assert. cbn [bnum balnum Bool.eqb negb btext bval read_one]. rewrite A. reflexivity.
  - exists (BMS v true false true (Some (ch "0" :: y :: s))).
    assert (bytes (ch "0" :: y :: s)) as By.
    { apply Forall_cons; [split; vm_compute; congruence|]. apply Forall_cons; [destruct X as [-> | ->]; split; vm_compute; congruence|]. apply digits_bytes; auto. }
    assert (ato_first t (ch "0" :: y :: s) 0 = Ok (Some (len (ch "0" :: y :: s)), u)) as A.
    { rewrite (ato_first_value t (ch "0" :: y :: s) 0 [] (ch "0" :: y :: s) [] u); auto; [cbn [len length]; rewrite wrap_id by auto; reflexivity|rewrite app_nil_r; reflexivity|left; reflexivity|].
      unfold int_text. destruct (isgn t); [apply st_pos|]; apply ut_hex; auto. }
    split.
    + cbn [app str2bm_loop bstarted balnum bnum btext bval]. change (is_letter (ch "0")) with false. change (is_dig (ch "0")) with true. cbn [negb].
      unfold assert. cbn [str2bm_loop bstarted balnum bnum btext bval].
      assert (is_letter y = true) as -> by (destruct X as [-> | ->]; reflexivity).
      replace ((len [ch "0"] =? 1) && ((y =? ch "x") || (y =? ch "X"))) with true by (destruct X as [-> | ->]; reflexivity). cbn [negb orb bput app].
      rewrite loop_digits by auto. reflexivity.
    + split; [reflexivity|]. unfold bread, assert. cbn [bnum balnum Bool.eqb negb btext bval read_one]. rewrite A. reflexivity.
Qed.
Lemma loop_bar t o tab rest st : str2bm_loop t o tab (ch "|" :: rest) st =
  do v <- bread t o tab st ;; str2bm_loop t o tab rest (BMS v false false false (bput (btext st) (ch "|"))).
Proof. reflexivity. Qed.
Lemma items_ok t o tab ss vs : offs_ok o tab -> Forall2 (item t o tab) ss vs -> Forall small ss -> Forall (fun v => in_range t v) vs ->
  ss <> [] -> forall v x, in_range t v ->
  str2bm_loop t o tab (join ss) (BMS v false false false x) = Ok (fold_left Z.lor vs v).
Proof.
  intros O H. induction H as [|s u ss vs H1 H IH]; intros Sm R N v x V; [congruence|].
  inversion Sm; inversion R; subst. cbn [fold_left].
  destruct ss as [|s' ss].
  - inversion H; subst. cbn [join]. rewrite <- (app_nil_r s). destruct (item_state t o tab s u [] v x O H1) as (st & E & Bt & Br); auto.
    rewrite E. cbn [str2bm_loop]. rewrite Bt, Br. cbn [fold_left]. rewrite wrap_id by (apply lor_range; auto). reflexivity.
  - change (join (s :: s' :: ss)) with (s ++ ch "|" :: join (s' :: ss)). destruct (item_state t o tab s u (ch "|" :: join (s' :: ss)) v x O H1) as (st & E & Bt & Br); auto.
    rewrite E, loop_bar, Br. cbn [bind]. rewrite wrap_id by (apply lor_range; auto). apply IH; auto; [discriminate|]. apply lor_range; auto.
Qed.
Lemma bad_first t o tab s rest v x : offs_ok o tab -> bad_item o tab s -> (s = [] -> rest <> [] \/ exists a, x = Some a) ->
  str2bm_loop t o tab (join (s :: rest)) (BMS v false false false x) = Err.
Proof.
  intros O H HE. destruct H as [|s W F].
  - destruct rest as [|r rest].
    + destruct (HE eq_refl) as [|[a ->]]; [congruence|]. reflexivity.
    + change (join ([] :: r :: rest)) with (ch "|" :: join (r :: rest)). rewrite loop_bar. reflexivity.
  - assert (bread t o tab (BMS v true true false (Some s)) = Err) as BR.
    { unfold bread, assert. cbn [bnum balnum Bool.eqb negb btext bval read_one].
      destruct (find_n_ok o tab s O (word_cstring _ W)) as [r [E F']]. rewrite E. cbn [bind]. rewrite (first_unique _ _ _ _ F' F). reflexivity. }
    destruct rest as [|r rest].
    + cbn [join]. rewrite <- (app_nil_r s), loop_name by auto. cbn [str2bm_loop btext]. rewrite BR. reflexivity.
    + change (join (s :: r :: rest)) with (s ++ ch "|" :: join (r :: rest)). rewrite loop_name by auto. rewrite loop_bar, BR. reflexivity.
Qed.
Lemma join_cons s l : l <> [] -> join (s :: l) = s ++ ch "|" :: join l.
Proof. destruct l; [congruence|reflexivity]. Qed.
Lemma bad_later t o tab ss vs s rest : offs_ok o tab -> Forall2 (item t o tab) ss vs -> Forall small ss -> bad_item o tab s ->
  forall v x, ss ++ rest <> [] \/ s <> [] \/ x <> None -> str2bm_loop t o tab (join (ss ++ s :: rest)) (BMS v false false false x) = Err.
Proof.
  intros O H. induction H as [|s1 u ss vs H1 H IH]; intros Sm B v x NE; cbn [app] in *.
  - apply bad_first; auto. intros ->. destruct NE as [NE|[NE|NE]]; [left; exact NE|exfalso; apply NE; reflexivity|]. right. destruct x as [a|]; [eauto|exfalso; apply NE; reflexivity].
  - inversion Sm; subst. rewrite join_cons by (destruct ss; discriminate).
    destruct (item_state t o tab s1 u (ch "|" :: join (ss ++ s :: rest)) v x O H1) as (st & E & Bt & Br); auto.
    rewrite E, loop_bar, Br. cbn [bind]. apply IH; auto. right. right. rewrite Bt. discriminate.
Qed.
