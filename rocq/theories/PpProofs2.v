(** From conditions to propositions. *)
From Verif Require Import Base PpModel PpSpec PpProofs.
From Coq Require Import String.
Open Scope string_scope.
Open Scope Z_scope.

Lemma resolve_mono n d e : forall e', resolve n d e = Some e' -> resolve (S n) d e = Some e'.
Proof.
  revert e. induction n as [|n IH]; intros e e' H; [discriminate|].
  destruct e as [z|x|x|f a|e|o a b]; cbn [resolve] in H |- *; try exact H.
  - destruct (lookup d x) as [[m|]|]; try exact H. destruct (mfn m); [exact H|]. destruct (cond (mbody m)) as [c|]; [|discriminate].
    apply IH in H. exact H.
  - destruct (resolve n d e) as [c|] eqn:R; [|discriminate]. apply IH in R. cbn [resolve] in R. rewrite R. exact H.
  - destruct (resolve n d a) as [c|] eqn:R; [|discriminate]. destruct (resolve n d b) as [c'|] eqn:R'; [|discriminate].
    apply IH in R. apply IH in R'. cbn [resolve] in R, R'. rewrite R, R'. exact H.
Qed.
(** with any number of steps *)
Definition value_n (n : nat) (w : world) (d : defs) (e : expr) : option Z :=
  match resolve n d e with Some e => eval w e | None => None end.
Lemma value_is w d e : value w d e = value_n depth w d e.
Proof. unfold value, value_n. reflexivity. Qed.
Lemma value_up n w d e z : value_n n w d e = Some z -> value_n (S n) w d e = Some z.
Proof. unfold value_n. destruct (resolve n d e) as [c|] eqn:R; [|discriminate]. rewrite (resolve_mono _ _ _ _ R). auto. Qed.
Definition truth (n : nat) (w : world) (d : defs) (e : expr) (b : bool) : Prop := exists z, value_n n w d e = Some z /\ negb (z =? 0) = b.
Fixpoint says (n : nat) (w : world) (d : defs) (e : expr) (b : bool) : Prop :=
  match e with
  | EDefined x => if b then on w d x else ~ on w d x
  | ENot e => says (pred n) w d e (negb b)
  | EBin BOr x y => if b then says (pred n) w d x true \/ says (pred n) w d y true else says (pred n) w d x false /\ says (pred n) w d y false
  | EBin BAnd x y => if b then says (pred n) w d x true /\ says (pred n) w d y true else says (pred n) w d x false \/ says (pred n) w d y false
  | _ => truth n w d e b
  end.
Lemma defined_value n w d x : value_n (S n) w d (EDefined x) = Some (b2z (is_defined w d x)).
Proof.
  unfold value_n, is_defined. cbn [resolve]. destruct (lookup d x) as [[m|]|]; try reflexivity.
Qed.
Lemma truth_says n w d e : forall b, truth n w d e b -> says n w d e b.
Proof.
  revert n. induction e as [z|x|x|f a|e IH|o x IHx y IHy]; intros n b H; try exact H.
  - destruct H as (z & E & B). destruct n as [|n]; [discriminate|]. rewrite defined_value in E. injection E as <-.
    cbn [says]. unfold on. destruct (is_defined w d x); subst b; cbn; congruence.
  - cbn [says]. destruct H as (z & E & B). unfold value_n in E. destruct n as [|n]; [discriminate|]. cbn [resolve pred] in *.
    apply IH. destruct (resolve n d e) as [c|] eqn:R; [|discriminate]. cbn [eval] in E. destruct (eval w c) as [v|] eqn:V; [|discriminate].
    exists v. unfold value_n. rewrite R. split; [exact V|]. injection E as <-. destruct (v =? 0); cbn in B; subst b; reflexivity.
  - destruct n as [|n]; [destruct H as (z & E & B); discriminate|].
    assert (Q : exists u v, value_n n w d x = Some u /\ value_n n w d y = Some v /\ exists z, z = binval o u v /\ negb (z =? 0) = b).
    { destruct H as (z & E & B). unfold value_n in *. cbn [resolve] in E. destruct (resolve n d x) as [c|]; [|discriminate]. destruct (resolve n d y) as [c'|]; [|discriminate].
      cbn [eval] in E. destruct (eval w c) as [u|]; [|discriminate]. destruct (eval w c') as [v|]; [|discriminate]. injection E as E. exists u, v. repeat split. exists z. split; [congruence|exact B]. }
    destruct Q as (u & v & Eu & Ev & z & -> & B).
    assert (Tu : truth n w d x (negb (u =? 0))) by (exists u; auto). assert (Tv : truth n w d y (negb (v =? 0))) by (exists v; auto).
    destruct o; try exact H; cbn [says pred binval] in *;
      destruct (u =? 0), (v =? 0); cbn in B; subst b; cbn [negb] in *; auto.
Qed.
Lemma true_says w d e : true_in w d e -> says depth w d e true.
Proof.
  intros (z & E & N). rewrite value_is in E. revert E. generalize depth as n. intros n E. apply truth_says. exists z. split; [exact E|]. apply negb_true_iff, Z.eqb_neq, N.
Qed.
(** x == z *)
Lemma truth_eq_n k n w d x z : (n <= k)%nat -> truth n w d (EBin BEq (EId x) (ENum z)) true -> value_n k w d (EId x) = Some z.
Proof.
  intros L (v & E & B). destruct n as [|n]; [discriminate|]. destruct n as [|n]; [discriminate|]. unfold value_n in E. remember (S n) as m. cbn [resolve] in E.
  destruct (resolve m d (EId x)) as [c|] eqn:R; [|discriminate]. rewrite Heqm in E. cbn [resolve] in E. cbn [eval] in E.
  destruct (eval w c) as [u|] eqn:V; [|discriminate]. injection E as <-. cbn [binval] in B. destruct (u =? z) eqn:Q; [|discriminate B].
  apply Z.eqb_eq in Q. subst u.
  assert (G : forall j, value_n (j + m) w d (EId x) = Some z).
  { induction j as [|j IHj]; [unfold value_n; cbn [Nat.add]; rewrite R; exact V|]. apply value_up in IHj. exact IHj. }
  replace k with ((k - m) + m)%nat by lia. apply G.
Qed.
Lemma truth_eq n w d x z : (n <= depth)%nat -> truth n w d (EBin BEq (EId x) (ENum z)) true -> is w d x z.
Proof. intros L H. unfold is. rewrite value_is. exact (truth_eq_n _ _ _ _ _ _ L H). Qed.

(** ** Goals *)
Definition imp (a b : expr) : expr := EBin BOr (ENot a) b.
Fixpoint or_all (l : list expr) : expr := match l with [] => ENum 0 | [e] => e | e :: l => EBin BOr e (or_all l) end.
Fixpoint and_all (l : list expr) : expr := match l with [] => ENum 1 | [e] => e | e :: l => EBin BAnd e (and_all l) end.
(** at most one of the names is defined *)
Fixpoint amo (l : list string) : list expr :=
  match l with [] => [] | x :: l => map (fun y => EBin BOr (ENot (EDefined x)) (ENot (EDefined y))) l ++ amo l end%list.
Definition one_goals (l : list string) : list expr := or_all (map EDefined l) :: amo l.
Lemma says_or_all n w d l : says n w d (or_all l) true -> exists m e, In e l /\ (m <= n)%nat /\ says m w d e true.
Proof.
  revert n. induction l as [|e l IH]; intros n H.
  - destruct H as (z & E & B). destruct n; [discriminate|]. unfold value_n in E. cbn in E. injection E as <-. discriminate B.
  - destruct l as [|e' l].
    + exists n, e. split; [left; reflexivity|]. split; [lia|exact H].
    + change (or_all (e :: e' :: l)) with (EBin BOr e (or_all (e' :: l))) in H. cbn [says] in H. destruct H as [H|H].
      * exists (pred n), e. split; [left; reflexivity|]. split; [lia|exact H].
      * apply IH in H as (m & f & I & L & S). exists m, f. split; [right; exact I|]. split; [lia|exact S].
Qed.
Lemma amo_ok w d l : (forall g, In g (amo l) -> true_in w d g) -> NoDup l -> forall x y, In x l -> In y l -> on w d x -> on w d y -> x = y.
Proof.
  induction l as [|a l IH]; intros H N x y Ix Iy Ox Oy; [destruct Ix|]. inversion N; subst.
  assert (P : forall z, In z l -> ~ (on w d a /\ on w d z)).
  { intros z I [A B]. assert (T : true_in w d (EBin BOr (ENot (EDefined a)) (ENot (EDefined z)))).
    { apply H. cbn [amo]. apply in_or_app. left. apply in_map_iff. exists z. auto. }
    apply true_says in T. cbn [says negb] in T. tauto. }
  destruct Ix as [->|Ix], Iy as [->|Iy]; auto.
  - exfalso. apply (P y Iy). auto.
  - exfalso. apply (P x Ix). auto.
  - apply IH; auto. intros g G. apply H. cbn [amo]. apply in_or_app. right. exact G.
Qed.
Lemma one_ok w d l : (forall g, In g (one_goals l) -> true_in w d g) -> NoDup l -> exactly_one w d l.
Proof.
  intros H N. assert (T := H _ (or_introl eq_refl)). apply true_says, says_or_all in T as (m & e & I & L & S).
  apply in_map_iff in I as (p & <- & I). exists p. split; [exact I|]. split; [exact S|].
  intros q J Q. eapply amo_ok; eauto. intros g G. apply H. right. exact G.
Qed.
(** the conditions the world is assumed to meet *)
Lemma given_eval w x : eval w (EDefined x) = Some (b2z (match base w x with Some _ => true | None => false end)).
Proof. reflexivity. Qed.
Lemma number_eval w x : base w x <> Some PEmpty -> eval w (EId x) = Some (number_of w x).
Proof. unfold number_of. cbn [eval]. destruct (base w x) as [[|z]|]; congruence. Qed.
(** macros that a text does not define keep their meaning *)
Lemma exec_frame w i x : ~ In x (defined_names i) -> forall d out d' out', exec w i d out = Done d' out' -> lookup d' x = lookup d x.
Proof.
  induction i as [|l r IH|c a IHa b IHb r IHr]; intros N d out d' out' E.
  - injection E as <- <-. reflexivity.
  - destruct l; cbn [exec defined_names] in *; try discriminate E; try (eapply IH; eassumption).
    + destruct (may_define _ _ _ _); [|discriminate]. apply IH in E; [|intros J; apply N; right; exact J]. rewrite E. cbn [lookup].
      destruct (String.eqb x x0) eqn:Q; [|reflexivity]. apply String.eqb_eq in Q. exfalso. apply N. left. congruence.
    + apply IH in E; [|intros J; apply N; right; exact J]. rewrite E. cbn [lookup].
      destruct (String.eqb x x0) eqn:Q; [|reflexivity]. apply String.eqb_eq in Q. exfalso. apply N. left. congruence.
  - cbn [exec defined_names] in *. destruct c as [c|]; [|discriminate]. destruct (value w d c) as [z|]; [|discriminate].
    destruct (exec w (if z =? 0 then b else a) d out) as [d1 o1|s| |y] eqn:X; try discriminate.
    apply IHr in E; [|intros J; apply N; apply in_or_app; right; apply in_or_app; auto]. rewrite E.
    destruct (z =? 0).
    + eapply IHb; [|exact X]. intros J. apply N. apply in_or_app. right. apply in_or_app. auto.
    + eapply IHa; [|exact X]. intros J. apply N. apply in_or_app. auto.
Qed.
Lemma frame w i x d out : ~ In x (defined_names i) -> run w i = Done d out -> is_defined w d x = match base w x with Some _ => true | None => false end.
Proof. intros N E. unfold is_defined. rewrite (exec_frame _ _ _ N _ _ _ _ E). reflexivity. Qed.
