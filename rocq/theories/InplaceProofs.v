(** Proofs for inplace_function. *)
From Verif Require Import Base InplaceModel InplaceSpec.

Lemma hset_vset E h a i o x : models E h a -> means E o x -> models E (hset h i o) (vset a i x).
Proof. intros M H j. unfold hset, vset. destruct (Nat.eqb j i); auto. Qed.
Lemma hset_self E h a i o : models E h a -> means E o (a i) -> models E (hset h i o) a.
Proof. intros M H j. unfold hset. destruct (Nat.eqb_spec j i); subst; auto. Qed.
Lemma means_some E o cap c : means E o (Some (cap, c)) ->
  o = Some (Obj cap (option_map fst c) c) /\ match c with Some (t, _) => csize (E t) <= cap | None => True end.
Proof. destruct o as [[oc ov os]|]; cbn; [|tauto]. intros (-> & -> & -> & H). auto. Qed.
Lemma means_obj E cap (c : store) : match c with Some (t, _) => csize (E t) <= cap | None => True end ->
  means E (Some (Obj cap (option_map fst c) c)) (Some (cap, c)).
Proof. cbn. auto. Qed.
Lemma means_none E o : means E o None -> o = None.
Proof. destruct o; cbn; tauto. Qed.
Lemma live_ok t v : live t (Some (t, v)) = Ok v.
Proof. unfold live. rewrite Nat.eqb_refl. reflexivity. Qed.
Lemma copy_ok E c : nothrow E -> vt_copy E (option_map fst c) None c = Ok (false, c).
Proof.
  intros N. destruct c as [[t v]|]; [|reflexivity]. cbn [option_map fst vt_copy]. rewrite live_ok. cbn [bind].
  destruct (N t v) as [-> _]. reflexivity.
Qed.
Lemma move_ok E c : nothrow E -> vt_move E (option_map fst c) None c = Ok (false, (c, gone E c)).
Proof.
  intros N. destruct c as [[t v]|]; [|reflexivity]. cbn [option_map fst vt_move]. rewrite live_ok. cbn [bind].
  destruct (N t v) as [_ ->]. reflexivity.
Qed.
Lemma dtor_ok (c d : store) : option_map fst c = option_map fst d -> vt_dtor (option_map fst c) d = Ok None.
Proof.
  destruct c as [[t v]|], d as [[t' v']|]; cbn; intros E; try discriminate; auto. inversion E; subst. rewrite Nat.eqb_refl. reflexivity.
Qed.
Lemma gone_type E (c : store) : option_map fst c = option_map fst (gone E c).
Proof. destruct c as [[t v]|]; reflexivity. Qed.
Lemma gone_fits E (c : store) cap : match c with Some (t, _) => csize (E t) <= cap | None => True end ->
  match gone E c with Some (t, _) => csize (E t) <= cap | None => True end.
Proof. destruct c as [[t v]|]; auto. Qed.
Lemma obj_eq E cap (c : store) vt : option_map fst c = vt -> match c with Some (t, _) => csize (E t) <= cap | None => True end ->
  means E (Some (Obj cap vt c)) (Some (cap, c)).
Proof. intros <-. apply means_obj. Qed.
Lemma fits_more E (c : store) a b : a <= b -> match c with Some (t, _) => csize (E t) <= a | None => True end ->
  match c with Some (t, _) => csize (E t) <= b | None => True end.
Proof. destruct c as [[t v]|]; auto. lia. Qed.

Ltac use M H i := let Q := fresh "Q" in pose proof (M i) as Q; rewrite H in Q;
  first [apply means_none in Q | apply means_some in Q; destruct Q as [Q ?F]].

Lemma step_ok E h a op th x a' : nothrow E -> models E h a -> step E a op th x a' ->
  exists h', fstep E h op = Ok (th, x, h') /\ models E h' a'.
Proof.
  intros N M H. destruct H as [i cap H|i cap t v H Hc|i cap j cap' c H Hj Hc|i cap j cap' c H Hj Hc|i cap c H|i j cap c d H Hj|i j cap c d Hij H Hj|i cap c H|i j cap c d H Hj|i y cap t v r v' H Hr|i y cap H|i cap c H|i cap c H|i cap t v H Hc];
    cbn [fstep].
  - unfold f_null, vacant. use M H i. rewrite Q. eexists. split; [reflexivity|]. apply hset_vset; cbn; auto.
  - unfold f_closure, vacant. use M H i. rewrite Q. cbn [bind]. replace (cap <? csize (E t)) with false by lia.
    destruct (N t v) as [-> _]. eexists. split; [reflexivity|]. apply hset_vset; cbn; auto.
  - unfold f_copy, vacant, hget. use M H i. use M Hj j. rewrite Q, Q0. cbn [bind ocap ovt ost]. replace (cap <? cap') with false by lia.
    rewrite copy_ok by auto. eexists. split; [reflexivity|]. apply hset_vset; auto. apply means_obj. eapply fits_more; eauto.
  - unfold f_move, vacant, hget. use M H i. use M Hj j. rewrite Q, Q0. cbn [bind ocap ovt ost]. replace (cap <? cap') with false by lia.
    rewrite move_ok by auto. eexists. split; [reflexivity|]. apply hset_vset; [apply hset_vset; auto|].
    + apply obj_eq; [symmetry; apply gone_type|apply gone_fits; auto].
    + apply means_obj. eapply fits_more; eauto.
  - unfold f_reset, hget. use M H i. rewrite Q. cbn [bind ocap ovt ost]. rewrite dtor_ok by auto. eexists. split; [reflexivity|]. apply hset_vset; cbn; auto.
  - unfold f_assign, hget. use M H i. use M Hj j. rewrite Q, Q0. cbn [bind ocap ovt ost]. rewrite Z.eqb_refl. cbn [negb].
    destruct (Nat.eqb_spec i j) as [<-|Hij].
    + eexists. split; [reflexivity|]. intros k. unfold vset. destruct (Nat.eqb_spec k i) as [->|]; auto.
      rewrite <- Hj. auto.
    + rewrite dtor_ok by auto. cbn [bind]. rewrite copy_ok by auto. eexists. split; [reflexivity|]. apply hset_vset; auto. apply means_obj. auto.
  - unfold f_assign_move, hget. use M H i. use M Hj j. rewrite Q, Q0. cbn [bind ocap ovt ost]. rewrite Z.eqb_refl. cbn [negb].
    destruct (Nat.eqb_spec i j) as [|_]; [contradiction|].
    rewrite dtor_ok by auto. cbn [bind]. rewrite move_ok by auto. eexists. split; [reflexivity|]. apply hset_vset; [apply hset_vset; auto|].
    + apply obj_eq; [symmetry; apply gone_type|apply gone_fits; auto].
    + apply means_obj. auto.
  - unfold f_assign_move, hget. use M H i. rewrite Q. cbn [bind ocap ovt ost]. rewrite Z.eqb_refl, Nat.eqb_refl. eexists. split; [reflexivity|]. auto.
  - unfold f_swap, hget. use M H i. use M Hj j. rewrite Q, Q0. cbn [bind ocap ovt ost]. rewrite Z.eqb_refl. cbn [negb].
    destruct (Nat.eqb_spec i j) as [<-|Hij].
    + eexists. split; [reflexivity|]. intros k. unfold vset. destruct (Nat.eqb_spec k i) as [->|]; auto.
      rewrite <- H. auto.
    + rewrite move_ok by auto. cbn [bind]. rewrite dtor_ok by apply gone_type. cbn [bind]. rewrite move_ok by auto. cbn [bind].
      rewrite dtor_ok by apply gone_type. cbn [bind]. rewrite move_ok by auto. cbn [bind]. rewrite dtor_ok by apply gone_type. cbn [bind].
      eexists. split; [reflexivity|]. apply hset_vset; [apply hset_vset; auto|]; apply means_obj; auto.
  - unfold f_call, hget. use M H i. rewrite Q. cbn [bind ocap ovt ost option_map fst]. rewrite live_ok. cbn [bind]. rewrite Hr. cbn [fst snd].
    eexists. split; [reflexivity|]. apply hset_vset; auto. apply obj_eq; auto.
  - unfold f_call, hget. use M H i. rewrite Q. cbn. eexists. split; [reflexivity|]. auto.
  - unfold f_test, hget. use M H i. rewrite Q. cbn [bind ovt]. eexists. split; [|eauto]. destruct c as [[t v]|]; reflexivity.
  - unfold f_destroy, hget. use M H i. rewrite Q. cbn [bind ocap ovt ost]. rewrite dtor_ok by auto. cbn [bind]. eexists. split; [reflexivity|]. apply hset_vset; cbn; auto.
  - unfold f_closure_move, vacant. use M H i. rewrite Q. cbn [bind]. replace (cap <? csize (E t)) with false by lia.
    destruct (N t v) as [_ ->]. eexists. split; [reflexivity|]. apply hset_vset; cbn; auto.
Qed.
Lemma run_ok E ops : nothrow E -> forall h a xs a', models E h a -> steps E a ops xs a' ->
  exists h', frun E h ops = Ok (xs, h') /\ models E h' a'.
Proof.
  intros N. induction ops as [|op ops IH]; intros h a xs a' M H; inversion H as [|? th x a1 ? xs' ? H1 H2]; subst.
  - exists h. auto.
  - destruct (step_ok _ _ _ _ _ _ _ N M H1) as (h1 & E1 & M1). destruct (IH _ _ _ _ M1 H2) as (h2 & E2 & M2).
    exists h2. split; auto. cbn [frun]. rewrite E1. cbn [bind]. rewrite E2. reflexivity.
Qed.
(** constructors that throw *)
Lemma ctor_throws E h a i cap t v : models E h a -> a i = None -> csize (E t) <= cap -> ccopy_throws (E t) v = true ->
  f_closure E h i cap t v = Ok (true, [], h).
Proof. intros M H Hc Ht. unfold f_closure, vacant. use M H i. rewrite Q. cbn [bind]. replace (cap <? csize (E t)) with false by lia. rewrite Ht. reflexivity. Qed.
Lemma copy_throws E h a i cap j cap' t v : models E h a -> a i = None -> a j = Some (cap', Some (t, v)) -> cap' <= cap ->
  ccopy_throws (E t) v = true -> f_copy E h i cap j = Ok (true, [], h).
Proof.
  intros M H Hj Hc Ht. unfold f_copy, vacant, hget. use M H i. use M Hj j. rewrite Q, Q0. cbn [bind ocap ovt ost].
  replace (cap <? cap') with false by lia. cbn [option_map fst vt_copy]. rewrite live_ok. cbn [bind]. rewrite Ht. reflexivity.
Qed.
Lemma ctor_move_throws E h a i cap t v : models E h a -> a i = None -> csize (E t) <= cap -> cmove_throws (E t) v = true ->
  f_closure_move E h i cap t v = Ok (true, [], h).
Proof. intros M H Hc Ht. unfold f_closure_move, vacant. use M H i. rewrite Q. cbn [bind]. replace (cap <? csize (E t)) with false by lia. rewrite Ht. reflexivity. Qed.
(** an assignment that throws *)
Lemma assign_throws E h a i j cap c t v : models E h a -> i <> j -> a i = Some (cap, c) -> a j = Some (cap, Some (t, v)) ->
  ccopy_throws (E t) v = true ->
  exists h', f_assign E h i j = Ok (true, [], h') /\ f_destroy h' i = Ub /\ (forall x, f_call E h' i x = Ub) /\ f_reset h' i = Ub.
Proof.
  intros M Hij H Hj Ht. unfold f_assign, hget. use M H i. use M Hj j. rewrite Q, Q0. cbn [bind ocap ovt ost]. rewrite Z.eqb_refl. cbn [negb].
  destruct (Nat.eqb_spec i j) as [|_]; [contradiction|]. rewrite dtor_ok by auto. cbn [bind option_map fst vt_copy]. rewrite live_ok. cbn [bind]. rewrite Ht.
  eexists. split; [reflexivity|]. unfold f_destroy, f_call, f_reset, hget, hset. rewrite Nat.eqb_refl. repeat split; reflexivity.
Qed.
Lemma swap_throws E h a i j cap t v t' v' : models E h a -> i <> j -> a i = Some (cap, Some (t, v)) -> a j = Some (cap, Some (t', v')) ->
  cmove_throws (E t) v = false -> cmove_throws (E t') v' = true ->
  exists h', f_swap E h i j = Ok (true, [], h') /\ f_destroy h' i = Ub.
Proof.
  intros M Hij H Hj Ht Ht'. unfold f_swap, hget. use M H i. use M Hj j. rewrite Q, Q0. cbn [bind ocap ovt ost]. rewrite Z.eqb_refl. cbn [negb].
  destruct (Nat.eqb_spec i j) as [|_]; [contradiction|]. cbn [option_map fst vt_move]. rewrite !live_ok. cbn [bind]. rewrite Ht. cbn [place bind vt_dtor].
  rewrite live_ok. cbn [bind]. rewrite Ht'. eexists. split; [reflexivity|]. unfold f_destroy, hget, hset. destruct (Nat.eqb_spec i j); [contradiction|].
  rewrite Nat.eqb_refl. reflexivity.
Qed.
Lemma move_throws E h a i cap j cap' t v : models E h a -> a i = None -> a j = Some (cap', Some (t, v)) -> cap' <= cap ->
  cmove_throws (E t) v = true -> f_move E h i cap j = Ok (true, [], h).
Proof.
  intros M H Hj Hc Ht. unfold f_move, vacant, hget. use M H i. use M Hj j. rewrite Q, Q0. cbn [bind ocap ovt ost].
  replace (cap <? cap') with false by lia. cbn [option_map fst vt_move]. rewrite live_ok. cbn [bind]. rewrite Ht. reflexivity.
Qed.

(** ** Operations without a meaning *)
Lemma absent E h a i : models E h a -> a i = None -> hget h i = Ub /\ vacant h i = Ok tt.
Proof. intros M H. use M H i. unfold hget, vacant. rewrite Q. auto. Qed.
Lemma present E h a i cap c : models E h a -> a i = Some (cap, c) ->
  hget h i = Ok (Obj cap (option_map fst c) c) /\ vacant h i = Ub.
Proof. intros M H. use M H i. unfold hget, vacant. rewrite Q. auto. Qed.
Ltac look M := repeat match type of M with models _ ?h ?a => match goal with
  | |- context [hget h ?i] => let e := fresh "e" in let A := fresh "A" in let B := fresh "B" in
      destruct (a i) as [[? ?]|] eqn:e;
      [destruct (present _ _ _ _ _ _ M e) as [A B]|destruct (absent _ _ _ _ M e) as [A B]]; rewrite ?A, ?B; cbn [bind]; clear A B
  | |- context [vacant h ?i] => let e := fresh "e" in let A := fresh "A" in let B := fresh "B" in
      destruct (a i) as [[? ?]|] eqn:e;
      [destruct (present _ _ _ _ _ _ M e) as [A B]|destruct (absent _ _ _ _ M e) as [A B]]; rewrite ?A, ?B; cbn [bind]; clear A B
  end end.
Lemma misuse_ub E h a op : models E h a -> misuse a op -> fstep E h op = Ub.
Proof.
  intros M U. destruct op; cbn [fstep misuse] in *;
    unfold f_null, f_closure, f_closure_move, f_copy, f_move, f_reset, f_assign, f_assign_move, f_swap, f_call, f_test, f_destroy.
  all: look M.
  all: try reflexivity.
  all: try (exfalso; destruct U as [U|U]; congruence).
  all: try (exfalso; congruence).
Qed.
Lemma mistyped_err E h a op : models E h a -> ~ misuse a op -> mistyped E a op -> fstep E h op = Err.
Proof.
  intros M U T. destruct op; cbn [fstep misuse mistyped] in *; try contradiction;
    unfold f_null, f_closure, f_closure_move, f_copy, f_move, f_assign, f_assign_move, f_swap, capacity in *.
  all: look M.
  all: try (exfalso; apply U; (left + right + idtac); congruence).
  all: cbn [ocap] in *; match goal with |- context [if ?b then _ else _] => replace b with true by lia end; reflexivity.
Qed.
Lemma has_meaning E a op : ~ misuse a op -> ~ mistyped E a op -> exists th x a', step E a op th x a'.
Proof.
  assert (V : forall i, a i <> None -> exists cap c, a i = Some (cap, c)).
  { intros i H. destruct (a i) as [[cap c]|]; [eauto|contradiction]. }
  assert (O : forall i, ~ a i <> None -> a i = None).
  { intros i H. destruct (a i); auto. exfalso. apply H. discriminate. }
  intros U T. destruct op as [i cap|i cap t v|i cap j|i cap j|i cap t v|i|i j|i j|i j|i x|i|i]; cbn [misuse mistyped] in *; unfold capacity in T.
  - do 3 eexists. apply s_null. auto.
  - do 3 eexists. apply s_closure; auto; lia.
  - destruct (V j) as (c' & c & E'); [tauto|]. rewrite E' in T. do 3 eexists. eapply s_copy; eauto; lia.
  - destruct (V j) as (c' & c & E'); [tauto|]. rewrite E' in T. do 3 eexists. eapply s_move; eauto; lia.
  - do 3 eexists. apply s_closure_move; auto; lia.
  - destruct (V i U) as (cap & c & E'). do 3 eexists. eapply s_reset; eauto.
  - destruct (V i) as (cap & c & E'); [tauto|]. destruct (V j) as (cap' & c' & E''); [tauto|]. rewrite E', E'' in T.
    replace cap' with cap in E'' by lia. do 3 eexists. eapply s_assign; eauto.
  - destruct (V i) as (cap & c & E'); [tauto|]. destruct (V j) as (cap' & c' & E''); [tauto|]. rewrite E', E'' in T.
    replace cap' with cap in E'' by lia. destruct (Nat.eq_dec i j) as [<-|N].
    + do 3 eexists. eapply s_assign_self; eauto.
    + do 3 eexists. eapply s_assign_move; eauto.
  - destruct (V i) as (cap & c & E'); [tauto|]. destruct (V j) as (cap' & c' & E''); [tauto|]. rewrite E', E'' in T.
    replace cap' with cap in E'' by lia. do 3 eexists. eapply s_swap; eauto.
  - destruct (V i U) as (cap & [[t v]|] & E').
    + do 3 eexists. eapply s_call; eauto. apply surjective_pairing.
    + do 3 eexists. eapply s_call_empty; eauto.
  - destruct (V i U) as (cap & c & E'). do 3 eexists. eapply s_test; eauto.
  - destruct (V i U) as (cap & c & E'). do 3 eexists. eapply s_destroy; eauto.
Qed.
(** constructing in a storage that has a closure *)
Lemma no_overwrite E t v s : s <> None ->
  (ccopy_throws (E t) v = false -> vt_copy E (Some t) s (Some (t, v)) = Ub) /\
  (cmove_throws (E t) v = false -> vt_move E (Some t) s (Some (t, v)) = Ub).
Proof.
  intro N. destruct s as [[t' v']|]; [|contradiction]. cbn [vt_copy vt_move]. rewrite live_ok. cbn [bind].
  split; intros ->; reflexivity.
Qed.
