(** Symbolic execution of the model of the preprocessor: the paths through a text, with the
    conditions under which each is taken, and a tableau that decides what such conditions entail. *)
From Verif Require Import Base PpModel PpSpec.
From Coq Require Import String Ascii.
Open Scope string_scope.
Open Scope Z_scope.

(** ** Conditions with their truth values *)
Definition lit := (expr * bool)%type.
Definition holds (w : world) (l : lit) : Prop := exists z, eval w (fst l) = Some z /\ negb (z =? 0) = snd l.
Definition holds_all (w : world) (ls : list lit) : Prop := Forall (holds w) ls.

Fixpoint expr_eqb (a b : expr) : bool :=
  match a, b with
  | ENum x, ENum y => x =? y
  | EId x, EId y | EDefined x, EDefined y => String.eqb x y
  | EHas f a, EHas g b => String.eqb f g && toks_eqb a b
  | ENot a, ENot b => expr_eqb a b
  | EBin o a b, EBin p c d =>
      match o, p with BOr, BOr | BAnd, BAnd | BEq, BEq | BNe, BNe | BLt, BLt | BLe, BLe | BGt, BGt | BGe, BGe => true | _, _ => false end
      && expr_eqb a c && expr_eqb b d
  | _, _ => false
  end.
Lemma tok_eqb_eq a b : tok_eqb a b = true -> a = b.
Proof. destruct a, b; cbn; intros H; try discriminate; apply String.eqb_eq in H; congruence. Qed.
Lemma toks_eqb_eq a : forall b, toks_eqb a b = true -> a = b.
Proof.
  induction a as [|x a IH]; intros [|y b]; cbn; intros H; try discriminate; [reflexivity|].
  apply andb_true_iff in H as [H1 H2]. apply tok_eqb_eq in H1. apply IH in H2. congruence.
Qed.
Lemma expr_eqb_eq a : forall b, expr_eqb a b = true -> a = b.
Proof.
  induction a as [x|x|x|f x|a IH|o a IHa b IHb]; intros [y|y|y|g y|c|p c d]; cbn [expr_eqb]; intros H; try discriminate.
  - apply Z.eqb_eq in H. congruence.
  - apply String.eqb_eq in H. congruence.
  - apply String.eqb_eq in H. congruence.
  - apply andb_true_iff in H as [H1 H2]. apply String.eqb_eq in H1. apply toks_eqb_eq in H2. congruence.
  - f_equal. auto.
  - apply andb_true_iff in H as [H1 H3]. apply andb_true_iff in H1 as [H1 H2].
    apply IHa in H2. apply IHb in H3. subst. destruct o, p; congruence.
Qed.

(** the numbers a name can stand for under a condition *)
Definition range (l : lit) : option (string * (option Z * option Z)) :=
  match l with
  | (EDefined x, false) | (EId x, false) => Some (x, (Some 0, Some 0))
  | (EBin BEq (EId x) (ENum n), true) | (EBin BEq (ENum n) (EId x), true) | (EBin BNe (EId x) (ENum n), false) => Some (x, (Some n, Some n))
  | (EBin BLt (EId x) (ENum n), true) | (EBin BGe (EId x) (ENum n), false) => Some (x, (None, Some (n - 1)))
  | (EBin BLe (EId x) (ENum n), true) | (EBin BGt (EId x) (ENum n), false) => Some (x, (None, Some n))
  | (EBin BGt (EId x) (ENum n), true) | (EBin BLe (EId x) (ENum n), false) => Some (x, (Some (n + 1), None))
  | (EBin BGe (EId x) (ENum n), true) | (EBin BLt (EId x) (ENum n), false) => Some (x, (Some n, None))
  | _ => None
  end.
Definition in_rng (r : option Z * option Z) (z : Z) : Prop :=
  match fst r with Some a => a <= z | None => True end /\ match snd r with Some b => z <= b | None => True end.
Lemma range_ok w l x r : holds w l -> range l = Some (x, r) -> exists z, eval w (EId x) = Some z /\ in_rng r z.
Proof.
  intros (z & E & B) R. destruct l as [e b]. cbn [fst snd] in *. unfold in_rng.
  destruct e as [n|y|y|f a|e|o e1 e2]; cbn [range] in R; try discriminate.
  - destruct b; [discriminate|]. injection R as <- <-. exists z. split; [exact E|]. apply negb_false_iff, Z.eqb_eq in B. cbn; lia.
  - destruct b; [discriminate|]. injection R as <- <-. cbn [eval] in *. destruct (base w y) as [p|].
    + injection E as <-. discriminate B.
    + exists 0. split; [reflexivity|]. cbn; lia.
  - destruct o; try discriminate R; destruct e1 as [n1|y1|y1|f1 a1|e1|o1 e11 e12]; try discriminate R;
      destruct e2 as [n2|y2|y2|f2 a2|e2|o2 e21 e22]; try discriminate R; destruct b; try discriminate R;
      injection R as <- <-; cbn [eval] in E |- *;
      match type of E with context [base w ?v] => destruct (base w v) as [[|u]|] end; try discriminate E;
      injection E as <-; cbn [fst snd]; cbn [binval] in B;
      match goal with
      | H : context [b2z ?c] |- _ => destruct c eqn:Q; cbn [b2z negb Z.eqb] in H; try discriminate H
      end; eexists; (split; [reflexivity|]);
      repeat match goal with
      | H : negb _ = true |- _ => apply negb_true_iff in H
      | H : negb _ = false |- _ => apply negb_false_iff in H
      end; try lia; destruct n2; try discriminate; lia.
Qed.
Definition disjoint (a b : option Z * option Z) : bool :=
  match snd a, fst b with Some x, Some y => x <? y | _, _ => false end
  || match snd b, fst a with Some x, Some y => x <? y | _, _ => false end.
Lemma disjoint_ok a b z : in_rng a z -> in_rng b z -> disjoint a b = false.
Proof.
  unfold in_rng, disjoint. intros [A1 A2] [B1 B2]. apply orb_false_iff.
  destruct (fst a), (snd a), (fst b), (snd b); split; auto; lia.
Qed.
(** the value of a condition as far as names are pinned to one value *)
Fixpoint pin (ls : list lit) (x : string) : option Z :=
  match ls with
  | [] => None
  | l :: ls =>
      match range l with
      | Some (y, (Some a, Some b)) => if String.eqb x y && (a =? b) then Some a else pin ls x
      | _ => pin ls x
      end
  end.
Lemma pin_ok w ls x v : holds_all w ls -> pin ls x = Some v -> eval w (EId x) = Some v.
Proof.
  induction ls as [|l ls IH]; intros H; [discriminate|]. inversion H as [|? ? Hl Hls]; subst. cbn [pin].
  destruct (range l) as [[y [[a|] [b|]]]|] eqn:R; auto.
  destruct (String.eqb x y && (a =? b)) eqn:Q; auto. intros E. injection E as <-.
  apply andb_true_iff in Q as [Q1 Q2]. apply String.eqb_eq in Q1. subst y.
  destruct (range_ok w l x _ Hl R) as (z & E & [A B]). cbn in A, B. rewrite E. f_equal. lia.
Qed.
Fixpoint peval (ls : list lit) (e : expr) : option Z :=
  match e with
  | ENum z => Some z
  | EId x => pin ls x
  | EDefined _ | EHas _ _ => None
  | ENot e => match peval ls e with Some z => Some (b2z (z =? 0)) | None => None end
  | EBin o a b => match peval ls a, peval ls b with Some a, Some b => Some (binval o a b) | _, _ => None end
  end.
Lemma peval_ok w ls e : forall v, holds_all w ls -> peval ls e = Some v -> eval w e = Some v.
Proof.
  induction e as [z|x|x|f a|e IH|o a IHa b IHb]; intros v H E; cbn [peval] in E; try discriminate.
  - exact E.
  - eapply pin_ok; eauto.
  - cbn [eval]. destruct (peval ls e); [|discriminate]. rewrite (IH _ H eq_refl). exact E.
  - cbn [eval]. destruct (peval ls a); [|discriminate]. destruct (peval ls b); [|discriminate].
    rewrite (IHa _ H eq_refl), (IHb _ H eq_refl). exact E.
Qed.
Definition clash (l m : lit) : bool :=
  (expr_eqb (fst l) (fst m) && negb (Bool.eqb (snd l) (snd m)))
  || match range l, range m with Some (x, a), Some (y, b) => String.eqb x y && disjoint a b | _, _ => false end.
Lemma clash_ok w l m : holds w l -> holds w m -> clash l m = false.
Proof.
  intros H1 H2. apply orb_false_iff. split.
  - destruct (expr_eqb _ _) eqn:E; [|reflexivity]. apply expr_eqb_eq in E. destruct H1 as (z & E1 & B1), H2 as (y & E2 & B2).
    rewrite E in E1. rewrite E1 in E2. injection E2 as <-. rewrite <- B1, <- B2. rewrite Bool.eqb_reflx. reflexivity.
  - destruct (range l) as [[x a]|] eqn:R1; [|reflexivity]. destruct (range m) as [[y b]|] eqn:R2; [|reflexivity].
    destruct (String.eqb x y) eqn:Q; [|reflexivity]. apply String.eqb_eq in Q. subst y. cbn [andb].
    destruct (range_ok _ _ _ _ H1 R1) as (z & E1 & I1). destruct (range_ok _ _ _ _ H2 R2) as (z' & E2 & I2).
    rewrite E1 in E2. injection E2 as <-. eapply disjoint_ok; eauto.
Qed.
(** a condition that contradicts itself *)
Definition absurd (ls : list lit) (l : lit) : bool :=
  match fst l with EBin BEq a b => expr_eqb a b && negb (snd l) | EBin BNe a b => expr_eqb a b && snd l | _ => false end
  || match peval ls (fst l) with Some z => negb (Bool.eqb (negb (z =? 0)) (snd l)) | None => false end.
Lemma absurd_ok w ls l : holds_all w ls -> holds w l -> absurd ls l = false.
Proof.
  intros H (z & E & B). apply orb_false_iff. split.
  - destruct (fst l) as [n|y|y|f a|e|o e1 e2] eqn:F; try reflexivity.
    destruct o; try reflexivity; destruct (expr_eqb e1 e2) eqn:Q; try reflexivity; apply expr_eqb_eq in Q; subst e2;
      cbn [eval] in E; destruct (eval w e1) as [v|]; try discriminate E; injection E as <-; rewrite <- B;
      cbn [binval]; rewrite Z.eqb_refl; reflexivity.
  - destruct (peval ls (fst l)) as [v|] eqn:P; [|reflexivity]. apply (peval_ok w) in P; [|exact H]. rewrite E in P. injection P as <-.
    rewrite B, Bool.eqb_reflx. reflexivity.
Qed.
(** true: one of the conditions is contradicted by the others *)
Definition dead (ls : list lit) : bool := existsb (absurd ls) ls.
Lemma dead_ok w ls : holds_all w ls -> dead ls = false.
Proof.
  intros H. unfold dead. destruct (existsb (absurd ls) ls) eqn:E; [|reflexivity]. apply existsb_exists in E as (m & I & C).
  rewrite (absurd_ok w) in C; [discriminate|exact H|]. eapply Forall_forall; [|exact I]. exact H.
Qed.
Definition lit_eqb (a b : lit) : bool := Bool.eqb (snd a) (snd b) && expr_eqb (fst a) (fst b).
(** conditions that do not branch first, the others ([br]) when no such is left *)
Fixpoint tab (fuel : nat) (todo br ls : list lit) : bool :=
  match fuel with
  | O => false
  | S fuel =>
      let split x y v br :=
        if existsb (lit_eqb (x, v)) ls || existsb (lit_eqb (y, v)) ls then tab fuel [] br ls
        else if dead ls then true
        else tab fuel [(x, v)] br ls && tab fuel [(y, v)] br ls in
      match todo with
      | [] =>
          match br with
          | [] => dead ls
          | (EBin BOr x y, true) :: br => split x y true br
          | (EBin BAnd x y, false) :: br => split x y false br
          | _ => false
          end
      | (e, b) :: t =>
          match e, b with
          | ENot a, _ => tab fuel ((a, negb b) :: t) br ls
          | EBin BOr x y, false => tab fuel ((x, false) :: (y, false) :: t) br ls
          | EBin BAnd x y, true => tab fuel ((x, true) :: (y, true) :: t) br ls
          | EBin BOr _ _, true | EBin BAnd _ _, false => tab fuel t (br ++ [(e, b)])%list ls
          | _, _ => if absurd [] (e, b) || existsb (clash (e, b)) ls then true else tab fuel t br ((e, b) :: ls)
          end
      end
  end.
Lemma holds_not w a b : holds w (ENot a, b) -> holds w (a, negb b).
Proof.
  intros (z & E & B). cbn [fst snd eval] in *. destruct (eval w a) as [v|] eqn:Q; [|discriminate]. exists v. split; [exact Q|].
  injection E as <-. cbn [snd]. destruct (v =? 0); cbn in B; subst b; reflexivity.
Qed.
Lemma holds_or_t w a b : holds w (EBin BOr a b, true) -> holds w (a, true) \/ holds w (b, true).
Proof.
  intros (z & E & B). cbn [fst snd eval] in *. destruct (eval w a) as [v|] eqn:Q; [|discriminate]. destruct (eval w b) as [u|] eqn:R; [|discriminate].
  injection E as <-. cbn [binval] in B. destruct (v =? 0) eqn:V; [right|left]; [exists u|exists v]; cbn [fst snd]; (split; [assumption|]);
    [destruct (u =? 0); [discriminate B|reflexivity]|rewrite V; reflexivity].
Qed.
Lemma holds_or_f w a b : holds w (EBin BOr a b, false) -> holds w (a, false) /\ holds w (b, false).
Proof.
  intros (z & E & B). cbn [fst snd eval] in *. destruct (eval w a) as [v|] eqn:Q; [|discriminate]. destruct (eval w b) as [u|] eqn:R; [|discriminate].
  injection E as <-. cbn [binval] in B. split; [exists v|exists u]; cbn [fst snd]; (split; [assumption|]);
    destruct (v =? 0), (u =? 0); try discriminate B; reflexivity.
Qed.
Lemma holds_and_f w a b : holds w (EBin BAnd a b, false) -> holds w (a, false) \/ holds w (b, false).
Proof.
  intros (z & E & B). cbn [fst snd eval] in *. destruct (eval w a) as [v|] eqn:Q; [|discriminate]. destruct (eval w b) as [u|] eqn:R; [|discriminate].
  injection E as <-. cbn [binval] in B. destruct (v =? 0) eqn:V; [left|right]; [exists v|exists u]; cbn [fst snd]; (split; [assumption|]);
    [rewrite V; reflexivity|destruct (u =? 0); [reflexivity|discriminate B]].
Qed.
Lemma holds_and_t w a b : holds w (EBin BAnd a b, true) -> holds w (a, true) /\ holds w (b, true).
Proof.
  intros (z & E & B). cbn [fst snd eval] in *. destruct (eval w a) as [v|] eqn:Q; [|discriminate]. destruct (eval w b) as [u|] eqn:R; [|discriminate].
  injection E as <-. cbn [binval] in B. split; [exists v|exists u]; cbn [fst snd]; (split; [assumption|]);
    destruct (v =? 0), (u =? 0); try discriminate B; reflexivity.
Qed.
Lemma tab_ok w fuel : forall todo br ls, holds_all w todo -> holds_all w br -> holds_all w ls -> tab fuel todo br ls = false.
Proof.
  induction fuel as [|fuel IH]; intros todo br ls Ht Hb Hl; [reflexivity|]. cbn [tab].
  assert (SP : forall x y v br, holds_all w br -> holds w (x, v) \/ holds w (y, v) ->
    (if existsb (lit_eqb (x, v)) ls || existsb (lit_eqb (y, v)) ls then tab fuel [] br ls
     else if dead ls then true else tab fuel [(x, v)] br ls && tab fuel [(y, v)] br ls) = false).
  { intros x y v br' Hb' D. destruct (_ || _); [apply IH; [constructor|exact Hb'|exact Hl]|]. rewrite (dead_ok w) by exact Hl.
    apply andb_false_iff. destruct D as [D|D]; [left|right]; (apply IH; [|exact Hb'|exact Hl]; constructor; [exact D|constructor]). }
  destruct todo as [|[e b] t].
  - destruct br as [|[e b] br]; [apply (dead_ok w); exact Hl|]. inversion Hb as [|? ? H1 H2]; subst.
    destruct e as [n|y|y|f a|e|o x y]; try reflexivity. destruct o; try reflexivity; destruct b; try reflexivity; apply SP; try exact H2.
    + apply holds_or_t; exact H1.
    + apply holds_and_f; exact H1.
  - inversion Ht as [|? ? H1 H2]; subst.
    assert (G : (if absurd [] (e, b) || existsb (clash (e, b)) ls then true else tab fuel t br ((e, b) :: ls)) = false).
    { rewrite (absurd_ok w [] (e, b)) by (exact H1 || constructor). cbn [orb].
      destruct (existsb (clash (e, b)) ls) eqn:E.
      - apply existsb_exists in E as (m & I & C). rewrite (clash_ok w) in C; [discriminate|exact H1|]. eapply Forall_forall; [|exact I]. exact Hl.
      - apply IH; [exact H2|exact Hb|]. constructor; assumption. }
    destruct e as [n|y|y|f a|e|o x y]; try exact G.
    + apply IH; [|exact Hb|exact Hl]. constructor; [apply holds_not; exact H1|exact H2].
    + destruct o; try exact G; destruct b.
      * apply IH; [exact H2| |exact Hl]. apply Forall_app. split; [assumption|constructor; [assumption|constructor]].
      * apply holds_or_f in H1 as [A B]. apply IH; [|exact Hb|exact Hl]. repeat (constructor; try assumption).
      * apply holds_and_t in H1 as [A B]. apply IH; [|exact Hb|exact Hl]. repeat (constructor; try assumption).
      * apply IH; [exact H2| |exact Hl]. apply Forall_app. split; [assumption|constructor; [assumption|constructor]].
Qed.

(** ** Names that the world does not define *)
Definition memb (x : string) (l : list string) : bool := existsb (String.eqb x) l.
Fixpoint norm (fr : list string) (e : expr) : expr :=
  match e with
  | EId x | EDefined x => if memb x fr then ENum 0 else e
  | ENum _ | EHas _ _ => e
  | ENot e => ENot (norm fr e)
  | EBin o a b => EBin o (norm fr a) (norm fr b)
  end.
Lemma memb_in x l : memb x l = true -> In x l.
Proof. intros H. apply existsb_exists in H as (y & I & E). apply String.eqb_eq in E. congruence. Qed.
Lemma norm_ok w fr e : fresh w fr -> eval w (norm fr e) = eval w e.
Proof.
  intros F. induction e as [z|x|x|f a|e IH|o a IHa b IHb]; cbn [norm]; try reflexivity.
  - destruct (memb x fr) eqn:M; [|reflexivity]. apply memb_in in M. cbn. rewrite (F _ M). reflexivity.
  - destruct (memb x fr) eqn:M; [|reflexivity]. apply memb_in in M. cbn. rewrite (F _ M). reflexivity.
  - cbn [eval]. rewrite IH. reflexivity.
  - cbn [eval]. rewrite IHa, IHb. reflexivity.
Qed.

(** names whose value has to be an integer for the goal to have one *)
Fixpoint idents (e : expr) : list string :=
  match e with EId x => [x] | ENum _ | EDefined _ | EHas _ _ => [] | ENot e => idents e | EBin _ a b => (idents a ++ idents b)%list end.
Lemma eval_some w e : (forall x, In x (idents e) -> base w x <> Some PEmpty) -> exists z, eval w e = Some z.
Proof.
  induction e as [z|x|x|f a|e IH|o a IHa b IHb]; intros H; cbn [eval idents] in *; try (eexists; reflexivity).
  - specialize (H x (or_introl eq_refl)). destruct (base w x) as [[|z]|]; try congruence; eexists; reflexivity.
  - destruct (IH H) as (z & ->). eexists; reflexivity.
  - destruct IHa as (z & ->); [intros; apply H; apply in_or_app; auto|]. destruct IHb as (y & ->); [intros; apply H; apply in_or_app; auto|].
    eexists; reflexivity.
Qed.

(** ** Symbolic execution *)
Local Strategy opaque [depth tab resolve].
Definition leaf := (list lit * outcome)%type.
Definition tabf : nat := 2000.
Local Strategy opaque [tabf].
Fixpoint bind_leaves (l : list leaf) (k : list lit -> defs -> list string -> option (list leaf)) : option (list leaf) :=
  match l with
  | [] => Some []
  | (c, o) :: l =>
      match bind_leaves l k with
      | None => None
      | Some ls => match o with Done d out => match k c d out with Some m => Some (m ++ ls)%list | None => None end | _ => Some ((c, o) :: ls) end
      end
  end.
Definition may_sym (fr : list string) (d : defs) (x : string) (m : mac) (cs : list lit) : option bool :=
  match lookup d x with
  | Some (Some n) => Some (Bool.eqb (mfn m) (mfn n) && toks_eqb (mbody m) (mbody n))
  | Some None => Some true
  | None => if memb x fr then Some true else if tab tabf ((EDefined x, true) :: cs) [] [] then Some true else None
  end.
Fixpoint sym (fr ints : list string) (i : items) (d : defs) (out : list string) (cs : list lit) : option (list leaf) :=
  match i with
  | Nil => Some [(cs, Done d out)]
  | Line l r =>
      match l with
      | LText_ s => sym fr ints r d (s :: out) cs
      | LDefine x fn body =>
          match may_sym fr d x (Mac fn body) cs with
          | Some true => sym fr ints r ((x, Some (Mac fn body)) :: d) out cs
          | Some false => Some [(cs, Redefined x)]
          | None => None
          end
      | LUndef x => sym fr ints r ((x, None) :: d) out cs
      | LInclude f => sym fr ints r d (("#include " ++ toks_text f)%string :: out) cs
      | LError s => Some [(cs, Error s)]
      | LNone => sym fr ints r d out cs
      | _ => Some [(cs, Bad)]
      end
  | If c a b r =>
      match c with
      | None => Some [(cs, Bad)]
      | Some c =>
          match resolve depth d c with
          | None => Some [(cs, Bad)]
          | Some e =>
              let e := norm fr e in
              if negb (forallb (fun x => memb x ints) (idents e)) then None else
              let t := if tab tabf ((e, true) :: cs) [] [] then Some [] else sym fr ints a d out ((e, true) :: cs) in
              let f := if tab tabf ((e, false) :: cs) [] [] then Some [] else sym fr ints b d out ((e, false) :: cs) in
              match t, f with
              | Some t, Some f => bind_leaves (t ++ f)%list (fun cs d out => sym fr ints r d out cs)
              | _, _ => None
              end
          end
      end
  end.
Lemma bind_leaves_in l k ls : bind_leaves l k = Some ls -> forall c o, In (c, o) l ->
  match o with Done d out => exists m, k c d out = Some m /\ incl m ls | _ => In (c, o) ls end.
Proof.
  revert ls. induction l as [|[c' o'] l IH]; intros ls H c o I; [destruct I|]. cbn [bind_leaves] in H.
  destruct (bind_leaves l k) as [ls'|]; [|discriminate]. specialize (IH _ eq_refl).
  destruct I as [I|I].
  - injection I as <- <-. destruct o' as [d out|s| |x]; try (injection H as <-; left; reflexivity).
    destruct (k c' d out) as [m|]; [|discriminate]. injection H as <-. exists m. split; [reflexivity|]. apply incl_appl, incl_refl.
  - specialize (IH _ _ I). destruct o as [d out|s| |x].
    + destruct IH as (m & E & J). exists m. split; [exact E|]. intros y Y. apply J in Y.
      destruct o' as [d' out'|s'| |x']; try (injection H as <-; right; exact Y).
      destruct (k c' d' out') as [m'|]; [|discriminate]. injection H as <-. apply in_or_app. right. exact Y.
    + destruct o' as [d' out'|s'| |x']; try (injection H as <-; right; exact IH).
      destruct (k c' d' out') as [m'|]; [|discriminate]. injection H as <-. apply in_or_app. right. exact IH.
    + destruct o' as [d' out'|s'| |x']; try (injection H as <-; right; exact IH).
      destruct (k c' d' out') as [m'|]; [|discriminate]. injection H as <-. apply in_or_app. right. exact IH.
    + destruct o' as [d' out'|s'| |x']; try (injection H as <-; right; exact IH).
      destruct (k c' d' out') as [m'|]; [|discriminate]. injection H as <-. apply in_or_app. right. exact IH.
Qed.
Lemma may_sym_ok w fr d x m cs b : fresh w fr -> holds_all w cs -> may_sym fr d x m cs = Some b -> may_define w d x m = b.
Proof.
  intros F H. unfold may_sym, may_define. destruct (lookup d x) as [[n|]|]; try congruence.
  destruct (memb x fr) eqn:M.
  - apply memb_in in M. rewrite (F _ M). congruence.
  - destruct (tab _ _ _) eqn:T; [|discriminate]. intros E. injection E as <-.
    destruct (base w x) as [p|] eqn:B; [|reflexivity]. exfalso.
    rewrite (tab_ok w) in T; [discriminate| |constructor|constructor]. constructor; [|exact H].
    exists 1. cbn. rewrite B. split; reflexivity.
Qed.
Theorem sym_ok w fr ints i : forall d out cs ls,
  fresh w fr -> integers w ints -> holds_all w cs -> sym fr ints i d out cs = Some ls ->
  exists c, In (c, exec w i d out) ls /\ holds_all w c.
Proof.
  induction i as [|l r IH|c a IHa b IHb r IHr]; intros d out cs ls F T H S.
  - cbn in *. injection S as <-. exists cs. split; auto. left. reflexivity.
  - destruct l; cbn [sym exec] in *; try (eapply IH; eassumption);
      try (injection S as <-; exists cs; split; [left; reflexivity|exact H]).
    destruct (may_sym fr d x (Mac fn body) cs) as [[]|] eqn:M; [| |discriminate]; rewrite (may_sym_ok _ _ _ _ _ _ _ F H M).
    + eapply IH; eassumption.
    + injection S as <-. exists cs. split; [left; reflexivity|exact H].
  - cbn [sym exec] in *. destruct c as [c|]; [|injection S as <-; exists cs; split; [left; reflexivity|exact H]]. unfold value.
    destruct (resolve depth d c) as [e|]; [|injection S as <-; exists cs; split; [left; reflexivity|exact H]].
    cbn zeta in S. destruct (forallb (fun x => memb x ints) (idents (norm fr e))) eqn:Ty; cbn [negb] in S; [|discriminate].
    destruct (eval_some w (norm fr e)) as (z & E0).
    { intros x I. rewrite forallb_forall in Ty. apply T, memb_in, Ty, I. }
    assert (E : eval w e = Some z) by (rewrite norm_ok in E0 by exact F; exact E0). rewrite E.
    assert (Hz : holds w (norm fr e, negb (z =? 0))) by (exists z; auto).
    set (t := if tab tabf ((norm fr e, true) :: cs) [] [] then _ else _) in S.
    set (f := if tab tabf ((norm fr e, false) :: cs) [] [] then _ else _) in S.
    destruct t as [t'|] eqn:Et; [|discriminate]. destruct f as [f'|] eqn:Ef; [|discriminate]. subst t f.
    assert (J : exists c, In (c, exec w (if z =? 0 then b else a) d out) (t' ++ f')%list /\ holds_all w c).
    { destruct (z =? 0) eqn:Z0; cbn [negb] in Hz.
      - assert (Hc : holds_all w ((norm fr e, false) :: cs)) by (constructor; assumption).
        rewrite (tab_ok w) in Ef by (exact Hc || constructor).
        destruct (IHb _ _ _ _ F T Hc Ef) as (c' & I & Q). exists c'. split; [apply in_or_app; right; exact I|exact Q].
      - assert (Hc : holds_all w ((norm fr e, true) :: cs)) by (constructor; assumption).
        rewrite (tab_ok w) in Et by (exact Hc || constructor).
        destruct (IHa _ _ _ _ F T Hc Et) as (c' & I & Q). exists c'. split; [apply in_or_app; left; exact I|exact Q]. }
    destruct J as (c' & I & Hc). pose proof (bind_leaves_in _ _ _ S _ _ I) as K.
    destruct (exec w (if z =? 0 then b else a) d out) as [d' out'|s| |x].
    + destruct K as (m & E1 & J). cbn beta in E1. destruct (IHr _ _ _ _ F T Hc E1) as (c'' & I' & Q).
      exists c''. split; [apply J; exact I'|exact Q].
    + exists c'. auto.
    + exists c'. auto.
    + exists c'. auto.
Qed.

(** ** What holds on every path *)
(** the goal is not false behind a path *)
Definition entails (fr : list string) (cs : list lit) (d : defs) (goal : expr) : bool :=
  match resolve depth d goal with Some g => tab tabf ((norm fr g, false) :: cs) [] [] | None => false end.
Lemma entails_ok w fr cs d goal : fresh w fr -> holds_all w cs -> entails fr cs d goal = true -> value w d goal <> Some 0.
Proof.
  unfold entails, value. intros F H E V. destruct (resolve depth d goal) as [g|]; [|discriminate].
  rewrite (tab_ok w) in E; [discriminate| |constructor|constructor]. constructor; [|exact H].
  exists 0. cbn [fst snd]. rewrite norm_ok by exact F. split; [exact V|reflexivity].
Qed.
Definition proves (fr ints : list string) (cs : list lit) (d : defs) (goal : expr) : bool :=
  match resolve depth d goal with
  | Some g => forallb (fun x => memb x ints) (idents (norm fr g)) && tab tabf ((norm fr g, false) :: cs) [] []
  | None => false
  end.
Lemma proves_inv fr ints cs d goal : proves fr ints cs d goal = true ->
  exists g, resolve depth d goal = Some g /\ forallb (fun x => memb x ints) (idents (norm fr g)) = true /\ tab tabf ((norm fr g, false) :: cs) [] [] = true.
Proof.
  unfold proves. generalize tabf as n. generalize (resolve depth d goal) as r. intros [g|] n H; [|discriminate].
  apply andb_true_iff in H. exists g. tauto.
Qed.
Lemma proves_ok w fr ints cs d goal : fresh w fr -> integers w ints -> holds_all w cs -> proves fr ints cs d goal = true -> true_in w d goal.
Proof.
  intros F T H P. apply proves_inv in P as (g & R & P1 & P2).
  destruct (eval_some w (norm fr g)) as (z & V).
  { intros x I. rewrite forallb_forall in P1. apply T, memb_in, P1, I. }
  exists z. unfold value. rewrite R. split; [rewrite norm_ok in V by exact F; exact V|].
  intros ->. rewrite (tab_ok w) in P2; [discriminate| |constructor|constructor]. constructor; [|exact H].
  exists 0. split; [exact V|reflexivity].
Qed.
(** the ends of all paths *)
Definition ends (fr ints : list string) (i : items) (init : list lit) (p : list lit -> outcome -> bool) : bool :=
  match sym fr ints i [] [] init with Some ls => forallb (fun l => p (fst l) (snd l)) ls | None => false end.
Theorem ends_ok fr ints i init p : ends fr ints i init p = true ->
  forall w, fresh w fr -> integers w ints -> holds_all w init -> exists c, holds_all w c /\ p c (run w i) = true.
Proof.
  unfold ends, run. intros A w F T H. destruct (sym fr ints i [] [] init) as [ls|] eqn:S; [|discriminate].
  destruct (sym_ok w fr ints i [] [] init ls F T H S) as (c & I & Hc).
  exists c. split; [exact Hc|]. rewrite forallb_forall in A. exact (A _ I).
Qed.
(** paths that end well satisfy [goals]; the others satisfy [wrong], a condition on the world *)
Definition check (fr ints : list string) (i : items) (init : list lit) (goals : list expr) (wrong : expr) : bool :=
  ends fr ints i init (fun c o =>
    match o with
    | Done d _ => forallb (proves fr ints c d) goals && proves fr ints c [] (ENot wrong)
    | Error _ => proves fr ints c [] wrong
    | _ => false
    end).
Theorem check_ok fr ints i init goals wrong : check fr ints i init goals wrong = true ->
  forall w, fresh w fr -> integers w ints -> holds_all w init ->
    (exists d out, run w i = Done d out /\ (forall g, In g goals -> true_in w d g) /\ true_in w [] (ENot wrong))
    \/ (exists s, run w i = Error s /\ true_in w [] wrong).
Proof.
  intros A w F T H. destruct (ends_ok _ _ _ _ _ A w F T H) as (c & Hc & P). destruct (run w i) as [d out|s| |x]; try discriminate.
  - left. exists d, out. split; [reflexivity|]. apply andb_true_iff in P as [P1 P2]. split; [|eapply proves_ok; eauto].
    intros g G. rewrite forallb_forall in P1. eapply proves_ok; eauto.
  - right. exists s. split; [reflexivity|]. eapply proves_ok; eauto.
Qed.
