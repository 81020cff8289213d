(** Proofs about enum symbols. *)
From Verif Require Import Base BaseLemmas SubstrModel MemUtilModel MemUtilProofs MemResModel CharconvModel SpanNumModel EnumModel EnumSpec.

Lemma strcmp_eq_ok a : forall b, strcmp_eq a b = true <-> a = b.
Proof.
  induction a as [|x a IH]; intros [|y b]; cbn; split; intros H; try discriminate; auto.
  - apply andb_prop in H. destruct H as [H1 H2]. f_equal; [lia|]. apply IH. exact H2.
  - inversion H; subst. rewrite Z.eqb_refl. cbn. apply IH. reflexivity.
Qed.
Lemma strcmp_eq_refl a : strcmp_eq a a = true.
Proof. apply strcmp_eq_ok. reflexivity. Qed.
Fixpoint prefixb (s a : list Z) : bool :=
  match s, a with [], _ => true | c :: s, x :: a => (x =? c) && prefixb s a | _, _ => false end.
Lemma prefixb_ok s : forall a, prefixb s a = true <-> is_prefix s a.
Proof.
  induction s as [|c s IH]; intros a; cbn.
  - split; [exists a; reflexivity|reflexivity].
  - destruct a as [|x a]; split; intros H; try discriminate.
    + destruct H as [r H]. discriminate.
    + apply andb_prop in H. destruct H as [H1 H2]. apply IH in H2. destruct H2 as [r ->]. exists r. cbn. f_equal. lia.
    + destruct H as [r H]. cbn in H. inversion H; subst. rewrite Z.eqb_refl. cbn. apply IH. exists r. reflexivity.
Qed.
Lemma strncmp_ok s : cstring s -> forall a, strncmp_eq a s (length s) = Ok (prefixb s a).
Proof.
  intros N. induction N as [|c s C N IH]; intros a; [destruct a; reflexivity|]. cbn [length strncmp_eq prefixb].
  destruct a as [|x a]; cbn [strncmp_eq]; [f_equal; lia|]. destruct (x =? c); [|reflexivity]. cbn [andb]. apply IH.
Qed.
Lemma len_toN (s : list Z) : Z.to_nat (len s) = length s.
Proof. unfold len. lia. Qed.
Lemma prefix_len s a : is_prefix s a -> len s <= len a.
Proof. intros [r ->]. unfold len. rewrite app_length. lia. Qed.
Lemma prefix_full s a : is_prefix s a -> len a <= len s -> s = a.
Proof.
  intros [r ->] L. destruct r; [rewrite app_nil_r; reflexivity|]. exfalso. revert L. unfold len. rewrite app_length. cbn [length]. lia.
Qed.
Lemma cskip_ok s o : 0 <= o <= len s -> cskip s o = Ok (skipn (Z.to_nat o) s).
Proof. intros H. unfold cskip. replace ((0 <=? o) && (o <=? len s)) with true by lia. reflexivity. Qed.
Lemma len_skip (s : list Z) o : 0 <= o <= len s -> len (skipn (Z.to_nat o) s) = len s - o.
Proof. intros H. unfold len in *. rewrite skipn_length. lia. Qed.

(** *** comparison with a C string *)
Definition nameb (o : offs) (name s : list Z) : bool :=
  strcmp_eq name s || ((0 <? o_cls o) && strcmp_eq (skipn (Z.to_nat (o_cls o)) name) s)
  || ((0 <? o_pfx o) && strcmp_eq (skipn (Z.to_nat (o_pfx o)) name) s).
Lemma nameb_ok o name s : nameb o name s = true <-> is_name o name s.
Proof.
  unfold nameb, is_name. rewrite !orb_true_iff, !andb_true_iff, !strcmp_eq_ok. split.
  - intros [[H|[K H]]|[K H]]; [left; auto|right; exists (o_cls o)|right; exists (o_pfx o)]; (split; [auto|split; [lia|auto]]).
  - intros [->|[k [[->| ->] [K ->]]]]; [left; left; reflexivity|left; right; split; [lia|reflexivity]|right; split; [lia|reflexivity]].
Qed.
Lemma cmp_offs_ok o name s : 0 <= o_cls o <= len name -> 0 <= o_pfx o <= len name ->
  cmp_offs o name s [OCls; OPfx] = Ok (((0 <? o_cls o) && strcmp_eq (skipn (Z.to_nat (o_cls o)) name) s)
    || ((0 <? o_pfx o) && strcmp_eq (skipn (Z.to_nat (o_pfx o)) name) s)).
Proof.
  intros C P. cbn [cmp_offs eoffs]. destruct (0 <? o_cls o) eqn:E1.
  - rewrite cskip_ok by lia. cbn [bind andb]. destruct (strcmp_eq (skipn (Z.to_nat (o_cls o)) name) s) eqn:E2; [reflexivity|].
    cbn [orb]. destruct (0 <? o_pfx o) eqn:E3.
    + rewrite E3, cskip_ok by lia. cbn [bind andb]. destruct (strcmp_eq (skipn (Z.to_nat (o_pfx o)) name) s); reflexivity.
    + rewrite E1, cskip_ok by lia. cbn [bind andb]. rewrite E2. reflexivity.
  - cbn [andb orb]. destruct (0 <? o_pfx o) eqn:E3.
    + rewrite E3, cskip_ok by lia. cbn [bind andb]. destruct (strcmp_eq (skipn (Z.to_nat (o_pfx o)) name) s); reflexivity.
    + rewrite E1. reflexivity.
Qed.
Lemma cmp_z_ok o name s : 0 <= o_cls o <= len name -> 0 <= o_pfx o <= len name -> cmp_z o name s = Ok (nameb o name s).
Proof.
  intros C P. unfold cmp_z, nameb. destruct (strcmp_eq name s) eqn:E; [reflexivity|]. cbn [orb]. apply cmp_offs_ok; auto.
Qed.
(** *** comparison with a number of characters *)
Lemma cmpn_one name s k : cstring s -> 0 < k < len name ->
  (let rem := len name - k in
   let m := if rem <? len s then len s else rem in
   if m <=? len s then
     do tail <- cskip name k ;; do e <- strncmp_eq tail s (Z.to_nat m) ;; Ok e
   else Ok false) = Ok (strcmp_eq (skipn (Z.to_nat k) name) s).
Proof.
  intros N K. cbn zeta. pose proof (len_skip name k ltac:(lia)) as L.
  destruct (len name - k <? len s) eqn:E.
  - replace (len s <=? len s) with true by lia. rewrite cskip_ok by lia. cbn [bind]. rewrite len_toN, strncmp_ok by auto. cbn [bind].
    f_equal. destruct (prefixb s _) eqn:P.
    + apply prefixb_ok in P. apply prefix_len in P. lia.
    + symmetry. apply not_true_is_false. intros X. apply strcmp_eq_ok in X. rewrite <- X in E. lia.
  - destruct (len name - k <=? len s) eqn:E2.
    + replace (len name - k) with (len s) by lia. rewrite cskip_ok by lia. cbn [bind]. rewrite len_toN, strncmp_ok by auto. cbn [bind].
      f_equal. destruct (strcmp_eq _ s) eqn:S.
      * apply strcmp_eq_ok in S. rewrite S. apply prefixb_ok. exists []. rewrite app_nil_r. reflexivity.
      * apply not_true_is_false. intros X. apply prefixb_ok in X. apply prefix_full in X; [|lia].
        rewrite <- X, strcmp_eq_refl in S. discriminate.
    + f_equal. symmetry. apply not_true_is_false. intros X. apply strcmp_eq_ok in X. rewrite <- X in E2. lia.
Qed.
Lemma cmpn_step o name s w ws : cstring s -> 0 <= eoffs o w < len name ->
  cmpn_offs o name s (w :: ws) =
  if (0 <? eoffs o w) && strcmp_eq (skipn (Z.to_nat (eoffs o w)) name) s then Ok true else cmpn_offs o name s ws.
Proof.
  intros N K. cbn [cmpn_offs]. destruct (0 <? eoffs o w) eqn:E; [|reflexivity]. cbn [andb]. unfold assert.
  replace (eoffs o w <? len name) with true by lia.
  pose proof (cmpn_one name s (eoffs o w) N ltac:(lia)) as X. cbn zeta in *.
  destruct (_ <=? len s).
  - destruct (cskip name (eoffs o w)); cbn [bind] in *; try discriminate.
    destruct (strncmp_eq _ _ _); cbn [bind] in *; try discriminate. inversion X as [X']. reflexivity.
  - inversion X as [X']. reflexivity.
Qed.
Definition nameb_n (o : offs) (name s : list Z) : bool := prefixb s name || nameb o name s.
Lemma cmp_n_ok o name s : cstring s -> 0 <= o_cls o < len name -> 0 <= o_pfx o < len name ->
  cmp_n o name s = Ok (nameb_n o name s).
Proof.
  intros N C P. unfold cmp_n. rewrite len_toN, strncmp_ok by auto. cbn [bind]. unfold nameb_n.
  destruct (prefixb s name) eqn:E; [reflexivity|]. cbn [orb].
  assert (strcmp_eq name s = false) as S.
  { apply not_true_is_false. intros X. apply strcmp_eq_ok in X. subst s.
    assert (prefixb name name = true) by (apply prefixb_ok; exists []; rewrite app_nil_r; reflexivity). congruence. }
  unfold nameb. rewrite S. cbn [orb].
  rewrite cmpn_step; [|auto|cbn [eoffs]; lia]. cbn [eoffs].
  destruct ((0 <? o_cls o) && strcmp_eq (skipn (Z.to_nat (o_cls o)) name) s) eqn:E1; [reflexivity|].
  rewrite cmpn_step; [|auto|cbn [eoffs]; destruct (0 <? o_pfx o); lia]. cbn [eoffs cmpn_offs orb].
  destruct (0 <? o_pfx o) eqn:E2.
  - rewrite E2. cbn [andb]. destruct (strcmp_eq (skipn (Z.to_nat (o_pfx o)) name) s); reflexivity.
  - rewrite E1. reflexivity.
Qed.
(** *** lookup *)
Lemma find_by_ok f g tab : (forall p, In p tab -> f (sname p) = Ok (g p)) -> find_by f tab = Ok (List.find g tab).
Proof.
  induction tab as [|p tab IH]; intros H; [reflexivity|]. cbn [find_by List.find]. rewrite H by (left; reflexivity). cbn [bind].
  destruct (g p); [reflexivity|]. apply IH. intros q Q. apply H. right. exact Q.
Qed.
Lemma find_first g (P : sym -> Prop) tab : (forall p, g p = true <-> P p) -> first_such P tab (List.find g tab).
Proof.
  intros G. induction tab as [|p tab IH]; [intros q []|]. cbn [List.find]. destruct (g p) eqn:E.
  - exists [], tab. split; [reflexivity|]. split; [apply G; exact E|intros q []].
  - destruct (List.find g tab) as [q|].
    + destruct IH as [l1 [l2 [E1 [E2 E3]]]]. exists (p :: l1), l2. split; [rewrite E1; reflexivity|]. split; [exact E2|].
      intros r [<-|R]; [rewrite <- G; congruence|apply E3; exact R].
    + intros q [<-|Q]; [rewrite <- G; congruence|apply IH; exact Q].
Qed.
Lemma first_unique P tab r r' : first_such P tab r -> first_such P tab r' -> r = r'.
Proof.
  destruct r as [p|], r' as [q|]; cbn; auto.
  - intros [l1 [l2 [E [H1 H2]]]] [k1 [k2 [E' [H1' H2']]]]. subst tab. f_equal.
    revert k1 E' H2'. induction l1 as [|x l1 IH]; intros [|y k1] E' H2'; cbn in E'; inversion E'; subst; auto.
    + exfalso. apply (H2' y); [left; reflexivity|exact H1].
    + exfalso. apply (H2 q); [left; reflexivity|exact H1'].
    + apply IH with k1; auto. * intros r R. apply H2. right. exact R. * intros r R. apply H2'. right. exact R.
  - intros [l1 [l2 [E [H1 H2]]]] N. exfalso. apply (N p); [|exact H1]. subst. apply in_elt.
  - intros N [l1 [l2 [E [H1 H2]]]]. exfalso. apply (N q); [|exact H1]. subst. apply in_elt.
Qed.
Lemma find_z_ok o tab s : offs_ok o tab -> exists r, find_z o tab s = Ok r /\ first_such (fun p => is_name o (sname p) s) tab r.
Proof.
  intros [C [P L]]. exists (List.find (fun p => nameb o (sname p) s) tab). split.
  - apply find_by_ok. intros p I. destruct (L p I). apply cmp_z_ok; lia.
  - apply find_first. intros p. apply nameb_ok.
Qed.
Lemma find_n_ok o tab s : offs_ok o tab -> cstring s ->
  exists r, find_n o tab s = Ok r /\ first_such (fun p => is_prefix s (sname p) \/ is_name o (sname p) s) tab r.
Proof.
  intros [C [P L]] N. exists (List.find (fun p => nameb_n o (sname p) s) tab). split.
  - apply find_by_ok. intros p I. destruct (L p I). apply cmp_n_ok; auto; lia.
  - apply find_first. intros p. unfold nameb_n. rewrite orb_true_iff, prefixb_ok, nameb_ok. tauto.
Qed.
Lemma first_in P tab p : first_such P tab (Some p) -> In p tab /\ P p.
Proof. intros [l1 [l2 [-> [H _]]]]. split; [apply in_elt|exact H]. Qed.
Lemma first_ext (P Q : sym -> Prop) tab r : (forall p, In p tab -> P p <-> Q p) -> first_such P tab r -> first_such Q tab r.
Proof.
  intros E. destruct r as [p|]; cbn.
  - intros [l1 [l2 [-> [H N]]]]. exists l1, l2. split; [reflexivity|]. split; [apply E; [apply in_elt|exact H]|].
    intros q I X. apply (N q I). apply E; [apply in_or_app; left; exact I|exact X].
  - intros N q I X. apply (N q I). apply E; auto.
Qed.
Lemma find_n_exact o tab s : offs_ok o tab -> cstring s ->
  (forall p, In p tab -> is_prefix s (sname p) -> s = sname p) ->
  exists r, find_n o tab s = Ok r /\ first_such (fun p => is_name o (sname p) s) tab r.
Proof.
  intros O N H. destruct (find_n_ok o tab s O N) as [r [E F]]. exists r. split; [exact E|].
  eapply first_ext; [|exact F]. intros p I. cbn. split; [|tauto]. intros [X|X]; [|exact X]. left. apply H; auto.
Qed.
Lemma str2e_ok o tab p s : offs_ok o tab -> unambiguous o tab -> In p tab -> is_name o (sname p) s -> str2e o tab s = Ok (sval p).
Proof.
  intros O U I N. destruct (find_z_ok o tab s O) as [r [E F]]. unfold str2e. rewrite E. cbn [bind].
  destruct r as [q|].
  - apply first_in in F. destruct F as [Q X]. f_equal. apply U with s; auto.
  - exfalso. apply (F p I N).
Qed.
Lemma find_v_some tab v p : find_v tab v = Some p -> In p tab /\ sval p = v.
Proof. intros H. apply find_some in H. destruct H. split; [auto|lia]. Qed.
Lemma eoffs_cases o w : eoffs o w = 0 \/ eoffs o w = o_cls o \/ eoffs o w = o_pfx o.
Proof. destruct w; cbn; auto. destruct (0 <? o_pfx o); auto. Qed.
Lemma short_is_name o w p : 0 <= eoffs o w -> is_name o (sname p) (short o w p).
Proof.
  intros H. destruct (Z.eq_dec (eoffs o w) 0) as [E|E].
  - left. unfold short. change (hidden o w) with (eoffs o w). rewrite E. reflexivity.
  - right. exists (eoffs o w). split; [|split; [lia|reflexivity]]. destruct (eoffs_cases o w) as [|]; [lia|auto].
Qed.
Lemma eoffs_range o w tab p : offs_ok o tab -> In p tab -> 0 <= eoffs o w < len (sname p).
Proof.
  intros [C [P L]] I. destruct (L p I). destruct w; cbn; [|lia|destruct (0 <? o_pfx o); lia].
  lia.
Qed.
Lemma e2str_str2e o tab v : offs_ok o tab -> unambiguous o tab -> (exists p, In p tab /\ sval p = v) ->
  exists s, e2str tab v = Ok s /\ str2e o tab s = Ok v.
Proof.
  intros O U [p [I V]]. unfold e2str. destruct (find_v tab v) as [q|] eqn:E.
  - apply find_v_some in E. destruct E as [Q <-]. eexists. split; [reflexivity|]. apply str2e_ok; auto. left. reflexivity.
  - exfalso. unfold find_v in E. apply find_none with (x := p) in E; auto. lia.
Qed.
Lemma e2stroffs_str2e o tab v w : offs_ok o tab -> unambiguous o tab -> (exists p, In p tab /\ sval p = v) ->
  exists s, e2stroffs o tab v w = Ok s /\ str2e o tab s = Ok v.
Proof.
  intros O U [p [I V]]. unfold e2stroffs, e2str. destruct (find_v tab v) as [q|] eqn:E.
  - apply find_v_some in E. destruct E as [Q <-]. cbn [bind]. pose proof (eoffs_range o w tab q O Q).
    rewrite cskip_ok by lia. eexists. split; [reflexivity|]. apply str2e_ok; auto. apply (short_is_name o w q). lia.
  - exfalso. unfold find_v in E. apply find_none with (x := p) in E; auto. lia.
Qed.
Lemma unique_unambiguous tab : NoDup (map sname tab) -> unambiguous (Offs 0 0) tab.
Proof.
  intros D p q s P Q [->|[k [[->| ->] [K _]]]]; try (cbn in K; lia). intros [E|[k [[->| ->] [K _]]]]; try (cbn in K; lia).
  assert (p = q) as ->; [|reflexivity].
  clear -D P Q E. induction tab as [|x tab IH]; [destruct P|]. cbn in D. inversion D as [|? ? N D']; subst.
  destruct P as [->|P], Q as [->|Q]; auto.
  - exfalso. apply N. rewrite E. apply in_map. exact Q.
  - exfalso. apply N. rewrite <- E. apply in_map. exact P.
Qed.
