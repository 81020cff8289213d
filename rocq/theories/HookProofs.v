(** Proofs for C129. *)
From Verif Require Import Base HookModel HookSpec.

Lemma fn_eqb_eq f g : fn_eqb f g = true <-> f = g.
Proof. destruct f, g; cbn; split; intro H; try discriminate; auto; [f_equal; lia|injection H; lia]. Qed.
Lemma fn_eqb_refl f : fn_eqb f f = true. Proof. apply fn_eqb_eq; reflexivity. Qed.

(** ** Lists *)
Lemma upd_len {A} (l : list A) i a : length (upd l i a) = length l.
Proof. revert i; induction l; destruct i; cbn; auto. Qed.
Lemma upd_same {A} (l : list A) i a : (i < length l)%nat -> nth_error (upd l i a) i = Some a.
Proof. revert i; induction l; intros [|i] H; cbn in *; try lia; auto. apply IHl; lia. Qed.
Lemma upd_other {A} (l : list A) i j a : i <> j -> nth_error (upd l i a) j = nth_error l j.
Proof. revert i j; induction l; intros [|i] [|j] H; cbn; auto; try lia. Qed.
Lemma upd_app {A} (l r : list A) x a : upd (l ++ x :: r) (length l) a = l ++ a :: r.
Proof. induction l; cbn; auto. rewrite IHl; auto. Qed.
Lemma drop_app {A} (l r : list A) x : drop (l ++ x :: r) (length l) = l ++ r.
Proof. induction l; cbn; auto. rewrite IHl; auto. Qed.
Lemma nth_split_ {A} (l : list A) i x : nth_error l i = Some x -> exists l1 l2, l = l1 ++ x :: l2 /\ length l1 = i.
Proof. apply nth_error_split. Qed.
Lemma upd_none {A} (l : list A) i a : (length l <= i)%nat -> upd l i a = l.
Proof. revert i; induction l; intros [|i] H; cbn in *; auto; try lia. f_equal; apply IHl; lia. Qed.

Lemma alive_app h b : alive (h ++ [Some b]) = S (alive h).
Proof. unfold alive. rewrite filter_app, app_length. cbn. lia. Qed.
Lemma alive_upd_some h i b b' : nth_error h i = Some (Some b) -> alive (upd h i (Some b')) = alive h.
Proof.
  intro H. apply nth_split_ in H. destruct H as (l1 & l2 & -> & <-). rewrite upd_app.
  unfold alive. rewrite !filter_app, !app_length. cbn. lia.
Qed.
Lemma alive_upd_none h i b : nth_error h i = Some (Some b) -> S (alive (upd h i None)) = alive h.
Proof.
  intro H. apply nth_split_ in H. destruct H as (l1 & l2 & -> & <-). rewrite upd_app.
  unfold alive. rewrite !filter_app, !app_length. cbn. lia.
Qed.

(** ** The state of a program *)
Definition holds (h : heap) (k : fn) (p : nat * Z) (l : cells) : Prop :=
  nth_error h (fst p) = Some (Some (Blk k l)) /\ snd p = len l.
Definition inv (s : state) (ls : list cells) : Prop :=
  exists k, (sp s <> [] -> team (sh s) k) /\ Forall2 (holds (wheap (sw s)) k) (sp s) ls /\
    NoDup (map fst (sp s)) /\ alive (wheap (sw s)) = length (sp s).
Lemma inv_held s ls : inv s ls -> held s ls /\ alive (wheap (sw s)) = length (sp s).
Proof.
  intros (k & T & F & N & A). split; [|exact A]. unfold held. revert F. generalize (sp s). clear.
  intros ps F. induction F as [|p l ps ls H F IH]; constructor; auto. exists k. exact H.
Qed.
Lemma holds_lt h k p l : holds h k p l -> (fst p < length h)%nat.
Proof. intros [H _]. apply nth_error_Some. rewrite H. discriminate. Qed.
Lemma holds_app h k p l x : holds h k p l -> holds (h ++ x) k p l.
Proof. intro H. pose proof (holds_lt _ _ _ _ H). destruct H as [H S]. split; auto. rewrite nth_error_app1; auto. Qed.
Lemma holds_upd h k p l i x : holds h k p l -> fst p <> i -> holds (upd h i x) k p l.
Proof. intros [H S] N. split; auto. rewrite upd_other; auto. Qed.
Lemma F2_app h k ps ls x : Forall2 (holds h k) ps ls -> Forall2 (holds (h ++ x) k) ps ls.
Proof. intro F; induction F; constructor; auto using holds_app. Qed.
Lemma F2_upd h k ps ls i x : Forall2 (holds h k) ps ls -> ~ In i (map fst ps) -> Forall2 (holds (upd h i x) k) ps ls.
Proof.
  intros F N; induction F; constructor; cbn in *.
  - apply holds_upd; auto.
  - apply IHF; auto.
Qed.
Lemma F2_in h k ps ls i : Forall2 (holds h k) ps ls -> In i (map fst ps) -> (i < length h)%nat.
Proof.
  intros F; induction F as [|p l ps ls H F IH]; cbn; [tauto|]. intros [<-|I]; auto. exact (holds_lt _ _ _ _ H).
Qed.
Lemma F2_split h k ps ls i p : Forall2 (holds h k) ps ls -> nth_error ps i = Some p ->
  exists p1 p2 l1 b l2, ps = p1 ++ p :: p2 /\ ls = l1 ++ b :: l2 /\ length p1 = i /\ length l1 = i /\
    Forall2 (holds h k) p1 l1 /\ holds h k p b /\ Forall2 (holds h k) p2 l2.
Proof.
  intros F. revert i. induction F as [|q l ps ls H F IH]; intros [|i] E; cbn in E; try discriminate.
  - injection E as <-. exists [], ps, [], l, ls. cbn. auto 10.
  - destruct (IH i E) as (p1 & p2 & l1 & b & l2 & -> & -> & A & B & F1 & Hp & F2).
    exists (q :: p1), p2, (l :: l1), b, l2. cbn. auto 10.
Qed.
Lemma F2_nodup_len (p1 p2 : list (nat * Z)) p : NoDup (map fst (p1 ++ p :: p2)) ->
  ~ In (fst p) (map fst p1) /\ ~ In (fst p) (map fst p2) /\ NoDup (map fst (p1 ++ p2)).
Proof.
  rewrite !map_app. cbn. intro N. pose proof (NoDup_remove _ _ _ N) as [N1 N2].
  rewrite in_app_iff in N2. repeat split; tauto.
Qed.

(** ** The functions *)
Lemma pow2_ok al : pow2 al -> (0 <? al) && (Z.land al (u64 (al - 1)) =? 0) = true /\
  Z.land (if al <? 8 then 8 else al) 7 =? 0 = true.
Proof.
  intros (n & Hn & ->). assert (P : 0 < 2 ^ n) by (apply Z.pow_pos_nonneg; lia).
  assert (Q : 2 ^ n < 2 ^ 64) by (apply Z.pow_lt_mono_r; lia).
  assert (L : Z.land (2 ^ n) (2 ^ n - 1) = 0).
  { replace (2 ^ n - 1) with (Z.ones n) by (rewrite Z.ones_equiv; lia).
    rewrite Z.land_ones by lia. apply Z.mod_same. lia. }
  split.
  - replace (u64 (2 ^ n - 1)) with (2 ^ n - 1) by (unfold u64; rewrite Z.mod_small; [reflexivity|lia]).
    rewrite L. cbn. lia.
  - destruct (Z.ltb_spec (2 ^ n) 8) as [H|H]; [reflexivity|].
    assert (3 <= n). { destruct (Z_lt_le_dec n 3) as [C|C]; auto. exfalso.
      assert (2 ^ n <= 2 ^ 2) by (apply Z.pow_le_mono_r; lia). lia. }
    change 7 with (Z.ones 3). rewrite Z.land_ones by lia.
    replace n with (n - 3 + 3) by lia. rewrite Z.pow_add_r by lia. rewrite Z.mod_mul by lia. reflexivity.
Qed.

(** what allocating does: nothing but a new block of the family, or null, or an error *)
Lemma aalloc_ok dbg stop h k w sz al : ha h = Some k -> pow2 al ->
  (exists a, aalloc dbg stop h w sz al = Ok (fresh k (World (wheap w) a) sz)) \/
  (exists a, aalloc dbg stop h w sz al = Ok (World (wheap w) a, None) /\ ~ Forall (eq Got) (wans w) /\
     (k = Lib -> stop = true -> sz = 0)) \/
  (aalloc dbg stop h w sz al = Err).
Proof.
  intros E P. destruct (pow2_ok al P) as [P1 P2]. unfold aalloc. rewrite E. cbn [call].
  destruct w as [hp an]. destruct k as [|k].
  - unfold aalloc_impl. rewrite P1, P2. unfold ask. cbn [wans wheap].
    destruct an as [|[] an]; cbn.
    + left. exists []. reflexivity.
    + left. exists an. reflexivity.
    + destruct (Z.eqb_spec sz 0) as [->|N].
      * right. left. exists an. repeat split; auto. intro F. inversion F; discriminate.
      * destruct stop; cbn; auto. right. left. exists an. repeat split; auto; [|intros; discriminate].
        intro F. inversion F; discriminate.
    + destruct stop; cbn; auto. right. left. exists an. repeat split; auto; [|intros; discriminate].
      intro F. inversion F; discriminate.
  - unfold aalloc_cli, ask. cbn [wans wheap]. destruct an as [|[] an]; cbn.
    + left. exists []. reflexivity.
    + left. exists an. reflexivity.
    + right. left. exists an. repeat split; auto; [|discriminate]. intro F. inversion F; discriminate.
    + right. left. exists an. repeat split; auto; [|discriminate]. intro F. inversion F; discriminate.
Qed.
Lemma free_ok k w i l : nth_error (wheap w) i = Some (Some (Blk k l)) ->
  afree_fam k w (Some i) = Ok (World (upd (wheap w) i None) (wans w)).
Proof. intro H. cbn. rewrite H. cbn. rewrite fn_eqb_refl. reflexivity. Qed.

(** the copy to a new block: the contents in the new size *)
Lemma resized_copy (l : cells) n : 0 <= n ->
  let m := if n <? len l then n else len l in
  firstn (Z.to_nat m) l ++ skipn (Z.to_nat m) (repeat None (Z.to_nat n)) = resized l n.
Proof.
  intros H m. unfold m, resized, len. clear m. destruct (Z.ltb_spec n (Z.of_nat (length l))) as [C|C].
  - f_equal. rewrite skipn_all2 by (rewrite repeat_length; lia).
    replace (Z.to_nat n - length l)%nat with 0%nat by lia. reflexivity.
  - rewrite Nat2Z.id. rewrite firstn_all. rewrite (firstn_all2 l) by lia. f_equal.
    replace (Z.to_nat n) with (length l + (Z.to_nat n - length l))%nat at 1 by lia.
    rewrite repeat_app, skipn_app, repeat_length, Nat.sub_diag.
    rewrite skipn_all2 by (rewrite repeat_length; lia). reflexivity.
Qed.
Lemma resized_len (l : cells) n : 0 <= n -> len (resized l n) = n.
Proof. intro H. unfold len, resized. rewrite app_length, firstn_length, repeat_length. lia. Qed.
Lemma copy_fresh k hp a i l n : nth_error hp i = Some (Some (Blk k l)) -> 0 <= n ->
  copy (fst (fresh k (World hp a) n)) (Some (length hp)) (Some i) (if n <? len l then n else len l) =
  Ok (World (hp ++ [Some (Blk k (resized l n))]) a).
Proof.
  intros H N. assert (I : (i < length hp)%nat) by (apply nth_error_Some; rewrite H; discriminate).
  cbn [copy fst fresh wheap wans].
  rewrite nth_error_app2 by lia. rewrite Nat.sub_diag. cbn [nth_error].
  rewrite nth_error_app1 by lia. rewrite H. cbn [bdat bfam].
  replace (_ && _) with true.
  2:{ symmetry. unfold len. rewrite repeat_length. apply andb_true_intro. split; destruct (_ <? _) eqn:E; lia. }
  rewrite (resized_copy l n N). rewrite (upd_app hp []). reflexivity.
Qed.
Lemma upd_app1 {A} (l r : list A) i a : (i < length l)%nat -> upd (l ++ r) i a = upd l i a ++ r.
Proof. revert i; induction l; intros [|i] H; cbn in *; try lia; auto. f_equal. apply IHl. lia. Qed.

(** what reallocating does *)
Lemma arealloc_ok dbg stop h k w i l n al : team h k -> bears stop h k (wans w) -> pow2 al -> 0 < n ->
  nth_error (wheap w) i = Some (Some (Blk k l)) ->
  (exists a, arealloc dbg stop h w (Some i) (len l) n al =
     Ok (World (upd (wheap w) i None ++ [Some (Blk k (resized l n))]) a, Some (length (wheap w)))) \/
  (exists a, arealloc dbg stop h w (Some i) (len l) n al = Ok (World (wheap w) a, None)) \/
  arealloc dbg stop h w (Some i) (len l) n al = Err.
Proof.
  intros (TA & TF & TR) B P N H.
  assert (I : (i < length (wheap w))%nat) by (apply nth_error_Some; rewrite H; discriminate).
  assert (LibCase : hr h = Some Lib -> (k = Lib /\ stop = true \/ Forall (eq Got) (wans w)) ->
    (exists a, arealloc dbg stop h w (Some i) (len l) n al =
     Ok (World (upd (wheap w) i None ++ [Some (Blk k (resized l n))]) a, Some (length (wheap w)))) \/
    arealloc dbg stop h w (Some i) (len l) n al = Err).
  { intros R C. unfold arealloc. rewrite R. cbn [call]. unfold arealloc_impl.
    destruct (aalloc_ok dbg stop h k w n al TA P) as [(a & E)|[(a & E & F & Z0)|E]].
    - left. exists a. rewrite E. cbn [bind]. pose proof (copy_fresh k (wheap w) a i l n H ltac:(lia)) as CF.
      unfold fresh in *. cbn [fst wheap] in *. rewrite CF. cbn [bind]. unfold afree. rewrite TF. cbn [call].
      rewrite (free_ok k _ i l); [|cbn; rewrite nth_error_app1; auto]. cbn.
      rewrite upd_app1 by auto. reflexivity.
    - exfalso. destruct C as [[-> ->]|C]; [|contradiction]. specialize (Z0 eq_refl eq_refl). lia.
    - right. rewrite E. reflexivity. }
  destruct B as [[R NL]|B].
  - unfold arealloc. rewrite R. cbn [call]. destruct k as [|k]; [contradiction|].
    unfold arealloc_cli. rewrite H. cbn [bfam]. rewrite fn_eqb_refl.
    assert (G : forall a, (let '(w, q) := fresh (Cli k) (World (wheap w) a) n in
                do w <- copy w q (Some i) (if n <? len l then n else len l) ;;
                do w <- afree_fam (Cli k) w (Some i) ;; Ok (w, q)) =
              Ok (World (upd (wheap w) i None ++ [Some (Blk (Cli k) (resized l n))]) a, Some (length (wheap w)))).
    { intro a. pose proof (copy_fresh (Cli k) (wheap w) a i l n H ltac:(lia)) as CF.
      unfold fresh in *. cbn [fst wheap] in *. rewrite CF. cbn [bind].
      rewrite (free_ok (Cli k) _ i l); [|cbn; rewrite nth_error_app1; auto]. cbn [bind wheap wans].
      rewrite upd_app1 by auto. reflexivity. }
    unfold ask. destruct w as [hp [|[] an]]; cbn [wans wheap] in *.
    + left. exists []. exact (G []).
    + left. exists an. exact (G an).
    + right. left. exists an. reflexivity.
    + right. left. exists an. reflexivity.
  - destruct TR as [R|R].
    + destruct (LibCase R B) as [E|E]; auto.
    + destruct k as [|k]; [destruct (LibCase R B) as [E|E]; auto|].
      (* theirs, and nothing fails *)
      destruct B as [[C _]|B]; [discriminate|].
      unfold arealloc. rewrite R. cbn [call].
      unfold arealloc_cli. rewrite H. cbn [bfam]. rewrite fn_eqb_refl.
      assert (G : forall a, (let '(w, q) := fresh (Cli k) (World (wheap w) a) n in
                do w <- copy w q (Some i) (if n <? len l then n else len l) ;;
                do w <- afree_fam (Cli k) w (Some i) ;; Ok (w, q)) =
              Ok (World (upd (wheap w) i None ++ [Some (Blk (Cli k) (resized l n))]) a, Some (length (wheap w)))).
      { intro a. pose proof (copy_fresh (Cli k) (wheap w) a i l n H ltac:(lia)) as CF.
        unfold fresh in *. cbn [fst wheap] in *. rewrite CF. cbn [bind].
        rewrite (free_ok (Cli k) _ i l); [|cbn; rewrite nth_error_app1; auto]. cbn [bind wheap wans].
        rewrite upd_app1 by auto. reflexivity. }
      unfold ask. destruct w as [hp [|[] an]]; cbn [wans wheap] in *.
      * left. exists []. exact (G []).
      * left. exists an. exact (G an).
      * inversion B; discriminate.
      * inversion B; discriminate.
Qed.

(** ** One step *)
Lemma nodup_snoc (l : list nat) x : NoDup l -> ~ In x l -> NoDup (l ++ [x]).
Proof.
  intros N I. induction l as [|y l IH]; cbn; [constructor; auto; constructor|].
  inversion N; subst. constructor.
  - rewrite in_app_iff. cbn. intros [C|[C|[]]]; auto. apply I. left. auto.
  - apply IH; auto. intro C. apply I. right. auto.
Qed.
Lemma step_alloc dbg stop h w ps ls mr sz al k :
  inv (State h w ps) ls -> team h k -> 0 <= sz -> pow2 al ->
  step dbg stop (State h w ps) (OAlloc mr sz al) = Err \/
  exists s' ls', step dbg stop (State h w ps) (OAlloc mr sz al) = Ok s' /\ spec ls (OAlloc mr sz al) ls' /\ inv s' ls'.
Proof.
  intros (k0 & T & F & N & A) TK S P. cbn [sh sw sp] in *.
  assert (G : forall a, inv (State h (fst (fresh k (World (wheap w) a) sz)) (ps ++ [(length (wheap w), sz)])) (ls ++ [repeat None (Z.to_nat sz)])).
  { intro a. exists k. cbn [sh sw sp fst fresh wheap]. repeat split.
    - apply TK. - apply TK. - apply TK.
    - apply Forall2_app.
      + apply F2_app. destruct ps as [|p ps]; [inversion F; constructor|].
        specialize (T ltac:(discriminate)). destruct T as (TA & _). destruct TK as (TB & _).
        replace k with k0 by congruence. exact F.
      + constructor; [|constructor]. split; cbn [fst snd].
        * rewrite nth_error_app2 by lia. rewrite Nat.sub_diag. reflexivity.
        * unfold len. rewrite repeat_length. lia.
    - rewrite map_app. cbn. apply nodup_snoc; auto. intro C. apply (F2_in _ _ _ _ _ F) in C. lia.
    - rewrite alive_app, app_length. cbn. lia. }
  assert (G0 : forall a, inv (State h (World (wheap w) a) ps) ls).
  { intro a. exists k0. cbn [sh sw sp wheap]. auto. }
  destruct (aalloc_ok dbg stop h k w sz al (proj1 TK) P) as [(a & E)|[(a & E & _)|E]];
    cbn [step]; unfold mr_allocate, nonnull.
  - right. exists (State h (fst (fresh k (World (wheap w) a) sz)) (ps ++ [(length (wheap w), sz)])), (ls ++ [repeat None (Z.to_nat sz)]).
    rewrite E. split; [destruct mr; reflexivity|]. split; [constructor|apply G].
  - rewrite E. destruct mr; [destruct stop; [left; reflexivity|]|]; right;
      exists (State h (World (wheap w) a) ps), ls; (split; [reflexivity|split; [constructor|apply G0]]).
  - left. rewrite E. destruct mr; reflexivity.
Qed.
Lemma step_free dbg stop h w ps ls i :
  inv (State h w ps) ls -> (i < length ps)%nat ->
  exists s' ls', step dbg stop (State h w ps) (OFree i) = Ok s' /\ spec ls (OFree i) ls' /\ inv s' ls'.
Proof.
  intros (k & T & F & N & A) I. cbn [sh sw sp] in *.
  destruct (nth_error ps i) as [[b n]|] eqn:E; [|apply nth_error_None in E; lia].
  destruct (F2_split _ _ _ _ _ _ F E) as (p1 & p2 & l1 & c & l2 & -> & -> & L1 & L2 & F1 & H & F2).
  destruct (F2_nodup_len _ _ _ N) as (N1 & N2 & N3).
  assert (TK : team h k) by (apply T; destruct p1; discriminate).
  cbn [step]. rewrite E. unfold afree. rewrite (proj1 (proj2 TK)). cbn [call]. destruct H as [H S]. cbn [fst snd] in *.
  rewrite (free_ok k w b c H). cbn [bind]. do 2 eexists. split; [reflexivity|]. rewrite <- L1, drop_app.
  split; [rewrite L1, <- L2; constructor|].
  exists k. cbn [sh sw sp wheap]. repeat split; try apply TK.
  - apply Forall2_app; apply F2_upd; auto.
  - exact N3.
  - pose proof (alive_upd_none _ _ _ H). rewrite !app_length in *. cbn in A. lia.
Qed.
Lemma step_realloc dbg stop h w ps ls mr i n al k :
  inv (State h w ps) ls -> (i < length ps)%nat -> 0 < n -> pow2 al -> team h k -> bears stop h k (wans w) ->
  step dbg stop (State h w ps) (ORealloc mr i n al) = Err \/
  exists s' ls', step dbg stop (State h w ps) (ORealloc mr i n al) = Ok s' /\ spec ls (ORealloc mr i n al) ls' /\ inv s' ls'.
Proof.
  intros (k0 & T & F & N & A) I P0 P TK B. cbn [sh sw sp] in *.
  destruct (nth_error ps i) as [[b m]|] eqn:E; [|apply nth_error_None in E; lia].
  destruct (F2_split _ _ _ _ _ _ F E) as (p1 & p2 & l1 & c & l2 & -> & -> & L1 & L2 & F1 & H & F2).
  destruct (F2_nodup_len _ _ _ N) as (N1 & N2 & N3).
  assert (k0 = k). { assert (TT : team h k0) by (apply T; destruct p1; discriminate).
    destruct TT as (T1 & _). destruct TK as (T2 & _). congruence. } subst k0.
  pose proof (F2_in _ _ _ _ (length (wheap w)) F) as NI.
  destruct H as [H S]. cbn [fst snd] in *. subst m.
  assert (LT : (b < length (wheap w))%nat) by (apply nth_error_Some; rewrite H; discriminate).
  set (hp := upd (wheap w) b None ++ [Some (Blk k (resized c n))]).
  assert (G : forall a, inv (State h (World hp a) (p1 ++ (length (wheap w), n) :: p2)) (l1 ++ resized c n :: l2)).
  { intro a. exists k. cbn [sh sw sp wheap]. repeat split; try apply TK.
    - unfold hp. apply Forall2_app; [apply F2_app, F2_upd; auto|]. constructor.
      + split; cbn [fst snd]; [|symmetry; apply resized_len; lia].
        rewrite nth_error_app2 by (rewrite upd_len; lia). rewrite upd_len, Nat.sub_diag. reflexivity.
      + apply F2_app, F2_upd; auto.
    - rewrite map_app in *. cbn [map fst] in *. apply NoDup_Add with (a := length (wheap w)) (l := map fst p1 ++ map fst p2).
      + apply Add_app.
      + split; [exact N3|]. intro C.
        assert (In (length (wheap w)) (map fst p1 ++ b :: map fst p2)).
        { rewrite in_app_iff in *. cbn. tauto. }
        specialize (NI H0). lia.
    - unfold hp. rewrite alive_app. pose proof (alive_upd_none _ _ _ H). rewrite app_length in *. cbn in *. lia. }
  assert (G0 : forall a, inv (State h (World (wheap w) a) (p1 ++ (b, len c) :: p2)) (l1 ++ c :: l2)).
  { intro a. exists k. cbn [sh sw sp wheap]. repeat split; auto; try apply TK. }
  destruct (arealloc_ok dbg stop h k w b c n al TK B P P0 H) as [(a & Q)|[(a & Q)|Q]];
    cbn [step]; rewrite E; unfold mr_reallocate, nonnull; rewrite Q.
  - right. exists (State h (World hp a) (p1 ++ (length (wheap w), n) :: p2)), (l1 ++ resized c n :: l2).
    split; [|split; [rewrite <- L2; constructor|apply G]]. destruct mr; cbn [bind]; rewrite <- L1, upd_app; reflexivity.
  - destruct mr; [destruct stop; [left; reflexivity|]|]; right;
      exists (State h (World (wheap w) a) (p1 ++ (b, len c) :: p2)), (l1 ++ c :: l2);
      (split; [reflexivity|split; [rewrite <- L2; constructor|apply G0]]).
  - left. destruct mr; reflexivity.
Qed.
Lemma step_write dbg stop h w ps ls i off c n :
  inv (State h w ps) ls -> nth_error (map snd ps) i = Some n -> 0 <= off < n ->
  exists s' ls', step dbg stop (State h w ps) (OWrite i off c) = Ok s' /\ spec ls (OWrite i off c) ls' /\ inv s' ls'.
Proof.
  intros (k & T & F & N & A) E O. cbn [sh sw sp] in *.
  rewrite nth_error_map in E. destruct (nth_error ps i) as [[b m]|] eqn:E'; [|discriminate]. cbn in E. injection E as ->.
  destruct (F2_split _ _ _ _ _ _ F E') as (p1 & p2 & l1 & l & l2 & -> & -> & L1 & L2 & F1 & H & F2).
  destruct (F2_nodup_len _ _ _ N) as (N1 & N2 & N3). destruct H as [H S]. cbn [fst snd] in *. subst n.
  assert (LT : (b < length (wheap w))%nat) by (apply nth_error_Some; rewrite H; discriminate).
  destruct (nth_error l (Z.to_nat off)) as [x|] eqn:X; [|apply nth_error_None in X; unfold len in O; lia].
  apply nth_split_ in X. destruct X as (y & z & -> & Y).
  cbn [step]. rewrite E'. unfold store. rewrite H. cbn [bdat bfam].
  replace (_ && _) with true by (symmetry; lia). cbn [bind]. do 2 eexists. split; [reflexivity|].
  rewrite <- Y, upd_app. split.
  - rewrite <- L2. replace off with (len y) by (unfold len; lia). constructor.
  - exists k. cbn [sh sw sp wheap]. repeat split; auto; try (apply T; destruct p1; discriminate).
    + apply Forall2_app; [apply F2_upd; auto|]. constructor; [|apply F2_upd; auto].
      split; cbn [fst snd]; [rewrite upd_same by auto; reflexivity|]. unfold len. rewrite !app_length. reflexivity.
    + rewrite <- A. apply (alive_upd_some _ _ _ _ H).
Qed.
Lemma step_ok dbg stop s ls o : inv s ls -> proper stop (sh s) (map snd (sp s)) (wans (sw s)) o ->
  step dbg stop s o = Err \/ exists s' ls', step dbg stop s o = Ok s' /\ spec ls o ls' /\ inv s' ls'.
Proof.
  destruct s as [h w ps]. intros V P. destruct o as [f|f|f|mr sz al|i|mr i n al|i off c]; cbn [proper sh sw sp] in P.
  1-3: right; (destruct ps; [|discriminate]); cbn [step]; do 2 eexists;
    (split; [reflexivity|split; [constructor|]]); destruct V as (k & T & F & N & A); exists k; cbn [sh sw sp] in *;
    repeat split; auto; contradiction.
  - destruct P as ((k & T) & S & P). eapply step_alloc; eauto.
  - right. rewrite map_length in P. apply step_free; auto.
  - rewrite map_length in P. destruct P as (I & S & P & k & T & B). eapply step_realloc; eauto.
  - right. destruct P as (n & E & O). eapply step_write; eauto.
Qed.
Lemma run_ok dbg stop os : forall s ls, inv s ls -> proper_run dbg stop s os ->
  run dbg stop s os = Err \/ exists s' ls', run dbg stop s os = Ok s' /\ specs ls os ls' /\ inv s' ls'.
Proof.
  induction os as [|o os IH]; intros s ls V P.
  - right. exists s, ls. repeat split; auto. constructor.
  - destruct P as [P Q]. destruct (step_ok dbg stop s ls o V P) as [E|(s1 & ls1 & E & S & V1)]; cbn [run]; rewrite E in *.
    + left; reflexivity.
    + cbn [bind]. destruct (IH s1 ls1 V1 Q) as [R|(s2 & ls2 & R & S2 & V2)]; auto.
      right. exists s2, ls2. repeat split; auto. econstructor; eauto.
Qed.
Lemma start_inv h a : inv (State h (World [] a) []) [].
Proof. exists Lib. cbn. repeat split; try constructor; intros; contradiction. Qed.

(** ** Exactly when the functions are defined *)
Lemma afree_iff dbg h w i b : nth_error (wheap w) i = Some (Some b) ->
  (afree dbg h w (Some i) = Ub <-> (exists f, hf h = Some f /\ f <> bfam b) \/ hf h = None /\ dbg = false) /\
  (forall w', afree dbg h w (Some i) = Ok w' <-> hf h = Some (bfam b) /\ w' = World (upd (wheap w) i None) (wans w)).
Proof.
  intro H. unfold afree. destruct (hf h) as [f|]; cbn [call].
  - cbn [afree_fam]. rewrite H. destruct (fn_eqb (bfam b) f) eqn:E.
    + apply fn_eqb_eq in E. split.
      * split; [discriminate|]. intros [(g & G & NE)|[C _]]; [injection G as <-; congruence|discriminate].
      * intro w'. split; [intro Q; injection Q as <-; subst; auto|]. intros [_ ->]; auto.
    + assert (NE : f <> bfam b) by (intros ->; rewrite fn_eqb_refl in E; discriminate). split.
      * split; auto. intros _. left. exists f. auto.
      * intro w'. split; [discriminate|]. intros [Q _]. injection Q as ->. contradiction.
  - split.
    + destruct dbg; (split; [try discriminate; auto|]); intros [(f & C & _)|[_ C]]; try discriminate; auto.
    + intro w'. destruct dbg; (split; [discriminate|]); intros [C _]; discriminate.
Qed.
(** the library's arealloc: the new block is of the family that allocates, whatever the old one is *)
Lemma arealloc_mixed dbg stop h w i l f n al : hr h = Some Lib -> ha h = Some f -> pow2 al -> 0 <= n ->
  nth_error (wheap w) i = Some (Some (Blk (match hf h with Some g => g | None => Lib end) l)) -> hf h <> None ->
  Forall (eq Got) (wans w) ->
  exists a, arealloc dbg stop h w (Some i) (len l) n al =
    Ok (World (upd (wheap w) i None ++ [Some (Blk f (resized l n))]) a, Some (length (wheap w))).
Proof.
  intros R HA P N H NF G. destruct (hf h) as [g|] eqn:HF; [|contradiction].
  assert (I : (i < length (wheap w))%nat) by (apply nth_error_Some; rewrite H; discriminate).
  unfold arealloc. rewrite R. cbn [call]. unfold arealloc_impl.
  destruct (aalloc_ok dbg stop h f w n al HA P) as [(a & E)|[(a & E & F & Z0)|E]].
  - exists a. rewrite E. cbn [bind fresh]. cbn [copy wheap wans].
    rewrite nth_error_app2 by lia. rewrite Nat.sub_diag. cbn [nth_error].
    rewrite nth_error_app1 by lia. rewrite H. cbn [bdat bfam].
    replace (_ && _) with true.
    2:{ symmetry. unfold len. rewrite repeat_length. apply andb_true_intro. split; destruct (_ <? _) eqn:E'; lia. }
    rewrite (resized_copy l n N). rewrite (upd_app (wheap w) []). cbn [bind].
    unfold afree. rewrite HF. cbn [call]. rewrite (free_ok g _ i l); [|cbn; rewrite nth_error_app1; auto].
    cbn. rewrite upd_app1 by auto. reflexivity.
  - contradiction.
  - exfalso. destruct (pow2_ok al P) as [P1 P2]. unfold aalloc in E. rewrite HA in E. cbn [call] in E.
    destruct f; [unfold aalloc_impl in E; rewrite P1, P2 in E|unfold aalloc_cli in E]; unfold ask in E;
      destruct w as [hp [|[] an]]; cbn in *; try discriminate; inversion G; discriminate.
Qed.
(** the library's arealloc over functions that return null is undefined *)
Lemma arealloc_null dbg stop h w p old n al k r : hr h = Some Lib -> ha h = Some (Cli k) ->
  wans w = NoMem :: r -> arealloc dbg stop h w p old n al = Ub.
Proof.
  intros R HA E. unfold arealloc. rewrite R. cbn [call]. unfold arealloc_impl, aalloc. rewrite HA. cbn [call].
  unfold aalloc_cli, ask. rewrite E. cbn. reflexivity.
Qed.

(** ** When nothing fails *)
Lemma tl_got (l : list answer) : Forall (eq Got) l -> Forall (eq Got) (tl l).
Proof. intro F. destruct F; cbn; auto. Qed.
Lemma aalloc_got dbg stop h k w sz al : ha h = Some k -> pow2 al -> Forall (eq Got) (wans w) ->
  aalloc dbg stop h w sz al = Ok (fresh k (World (wheap w) (tl (wans w))) sz).
Proof.
  intros E P F. destruct (pow2_ok al P) as [P1 P2]. unfold aalloc. rewrite E. cbn [call].
  destruct w as [hp an]. cbn [wans wheap] in *. destruct k as [|k].
  - unfold aalloc_impl. rewrite P1, P2. unfold ask. cbn [wans wheap]. destruct F as [|x r <- F]; reflexivity.
  - unfold aalloc_cli, ask. cbn [wans wheap]. destruct F as [|x r <- F]; reflexivity.
Qed.
Lemma arealloc_got dbg stop h k w i l n al : team h k -> Forall (eq Got) (wans w) -> pow2 al -> 0 < n ->
  nth_error (wheap w) i = Some (Some (Blk k l)) ->
  exists w', arealloc dbg stop h w (Some i) (len l) n al = Ok (w', Some (length (wheap w))) /\ wans w' = tl (wans w).
Proof.
  intros (TA & TF & TR) F P N H.
  assert (I : (i < length (wheap w))%nat) by (apply nth_error_Some; rewrite H; discriminate).
  assert (LibCase : hr h = Some Lib ->
    exists w', arealloc dbg stop h w (Some i) (len l) n al = Ok (w', Some (length (wheap w))) /\ wans w' = tl (wans w)).
  { intro R. unfold arealloc. rewrite R. cbn [call]. unfold arealloc_impl.
    rewrite (aalloc_got dbg stop h k w n al TA P F). cbn [bind].
    pose proof (copy_fresh k (wheap w) (tl (wans w)) i l n H ltac:(lia)) as CF.
    unfold fresh in *. cbn [fst wheap wans] in *. rewrite CF. cbn [bind]. unfold afree. rewrite TF. cbn [call].
    rewrite (free_ok k _ i l); [|cbn; rewrite nth_error_app1; auto]. cbn [bind]. eexists. split; reflexivity. }
  destruct k as [|k]; [destruct TR as [R|R]; exact (LibCase R)|].
  destruct TR as [R|R]; [exact (LibCase R)|].
  unfold arealloc. rewrite R. cbn [call]. unfold arealloc_cli. rewrite H. cbn [bfam]. rewrite fn_eqb_refl.
  pose proof (copy_fresh (Cli k) (wheap w) (tl (wans w)) i l n H ltac:(lia)) as CF.
  unfold ask. destruct w as [hp an]. cbn [wans wheap] in *.
  destruct F as [|x r <- F]; unfold fresh in *; cbn [fst tl wheap wans] in *; rewrite CF; cbn [bind];
    (rewrite (free_ok (Cli k) _ i l); [|cbn; rewrite nth_error_app1; auto]); cbn [bind]; eexists; split; reflexivity.
Qed.
Lemma step_got dbg stop s ls o : inv s ls -> proper stop (sh s) (map snd (sp s)) (wans (sw s)) o -> Forall (eq Got) (wans (sw s)) ->
  exists s', step dbg stop s o = Ok s' /\ Forall (eq Got) (wans (sw s')) /\
    match o with OAlloc _ sz _ => map snd (sp s') = map snd (sp s) ++ [sz]
               | ORealloc _ i n _ => map snd (sp s') = upd (map snd (sp s)) i n | _ => True end.
Proof.
  destruct s as [h w ps]. intros V P G. destruct o as [f|f|f|mr sz al|i|mr i n al|i off c]; cbn [proper sh sw sp] in *.
  1-3: cbn [step]; eexists; split; [reflexivity|split; auto].
  - destruct P as ((k & T) & S & P). cbn [step]. unfold mr_allocate, nonnull.
    rewrite (aalloc_got dbg stop h k w sz al (proj1 T) P G). cbn [bind fresh].
    destruct mr; eexists; (split; [reflexivity|]); cbn [sw sp wans]; rewrite map_app; auto using tl_got.
  - rewrite map_length in P. destruct (step_free dbg stop h w ps ls i V P) as (s' & ls' & E & _).
    exists s'. rewrite E. split; auto. split; auto. revert E. cbn [step]. destruct (nth_error ps i) as [[b n]|]; [|discriminate].
    unfold afree. destruct (hf h) as [f|]; cbn [call]; [|destruct dbg; discriminate]. cbn [afree_fam].
    destruct (nth_error (wheap w) b) as [[x|]|]; try discriminate. destruct (fn_eqb _ _); [|discriminate].
    cbn. intro E. injection E as <-. exact G.
  - rewrite map_length in P. destruct P as (I & S & P & k & T & _). destruct V as (k0 & T0 & F & N & A). cbn [sh sw sp] in *.
    destruct (nth_error ps i) as [[b m]|] eqn:E; [|apply nth_error_None in E; lia].
    destruct (F2_split _ _ _ _ _ _ F E) as (p1 & p2 & l1 & c & l2 & -> & -> & L1 & L2 & F1 & H & F2).
    assert (k0 = k). { assert (TT : team h k0) by (apply T0; destruct p1; discriminate).
      destruct TT as (T1 & _). destruct T as (T2 & _). congruence. } subst k0.
    destruct H as [H M]. cbn [fst snd] in *. subst m.
    destruct (arealloc_got dbg stop h k w b c n al T G P S H) as (w' & Q & W).
    cbn [step]. rewrite E. unfold mr_reallocate, nonnull. rewrite Q. cbn [bind]. rewrite <- L1.
    destruct mr; cbn [bind]; eexists; (split; [reflexivity|]); cbn [sw sp];
      (split; [rewrite W; auto using tl_got|]); rewrite upd_app, !map_app; cbn [map snd];
      rewrite <- (map_length snd p1), upd_app; reflexivity.
  - destruct P as (n & E & O). destruct (step_write dbg stop h w ps ls i off c n V E O) as (s' & ls' & Q & _).
    exists s'. rewrite Q. split; auto. split; auto. revert Q. cbn [step]. destruct (nth_error ps i) as [[b m]|]; [|discriminate].
    unfold store. destruct (nth_error (wheap w) b) as [[x|]|]; try discriminate. destruct (_ && _); [|discriminate].
    cbn. intro Q. injection Q as <-. exact G.
Qed.
Lemma run_got dbg stop os : forall s ls, inv s ls -> proper_run dbg stop s os -> Forall (eq Got) (wans (sw s)) ->
  exists s', run dbg stop s os = Ok s' /\ Forall (eq Got) (wans (sw s')).
Proof.
  induction os as [|o os IH]; intros s ls V P G.
  - exists s. auto.
  - destruct P as [P Q]. destruct (step_got dbg stop s ls o V P G) as (s1 & E & G1 & _).
    destruct (step_ok dbg stop s ls o V P) as [C|(s2 & ls2 & E2 & S & V2)]; [congruence|].
    rewrite E in E2. injection E2 as <-. cbn [run]. rewrite E in *. cbn [bind]. exact (IH s1 ls2 V2 Q G1).
Qed.
