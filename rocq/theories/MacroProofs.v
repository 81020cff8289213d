(** The replacement of macros does not depend on the fuel; rules to derive replacements. *)
From Verif Require Import Base PpModel PpSpec MacroModel MacroSpec.
From Coq Require Import String Ascii.
Open Scope string_scope.
Open Scope list_scope.
Open Scope Z_scope.

(** ** More fuel *)
Definition less {A} (a b : xr A) : Prop := a = Out \/ a = b.
Lemma less_refl {A} (a : xr A) : less a a. Proof. right; reflexivity. Qed.
Lemma less_bind {A B} (a b : xr A) (f g : A -> xr B) : less a b -> (forall x, less (f x) (g x)) -> less (xbind a f) (xbind b g).
Proof. intros [->| ->] H; [left; reflexivity|]. destruct b; cbn; [apply H|right; reflexivity|left; reflexivity]. Qed.
Definition env_less (e f : env) : Prop := Forall2 (fun p q => fst p = fst q /\ fst (snd p) = fst (snd q) /\ less (snd (snd p)) (snd (snd q))) e f.
Lemma arg_less e f t : env_less e f ->
  match arg_of e t, arg_of f t with
  | Some p, Some q => fst p = fst q /\ less (snd p) (snd q)
  | None, None => True
  | _, _ => False
  end.
Proof.
  intros H. destruct t as [x|x|x|x]; cbn [arg_of]; auto. induction H as [|p q e f (E1 & E2 & E3) H IH]; cbn [find]; [exact I|].
  rewrite <- E1. destruct (String.eqb (fst p) x); [auto|exact IH].
Qed.
Lemma operand_less e f t : env_less e f -> operand e t = operand f t.
Proof.
  intros H. assert (A := arg_less e f t H). unfold operand. destruct (arg_of e t), (arg_of f t); try contradiction; [destruct A; auto|reflexivity].
Qed.
Lemma replaced_less e f t : env_less e f -> less (replaced e t) (replaced f t).
Proof.
  intros H. assert (A := arg_less e f t H). unfold replaced. destruct (arg_of e t), (arg_of f t); try contradiction; [destruct A; auto|apply less_refl].
Qed.
Lemma subst_less fn e f : env_less e f -> forall k b cat, (List.length b <= k)%nat -> less (subst fn e cat b) (subst fn f cat b).
Proof.
  intros H. induction k as [|k IH]; intros b cat L; [destruct b; [apply less_refl|cbn in L; lia]|].
  destruct b as [|t r]; [apply less_refl|]. cbn [List.length] in L. destruct r as [|u r2].
  - cbn [subst]. destruct cat; [rewrite (operand_less e f) by exact H; apply less_refl|]. apply less_bind; [apply replaced_less, H|intros; apply less_refl].
  - change (subst fn e cat (t :: u :: r2)) with
      (if is_op "##" u then
         match r2 with
         | v :: r3 =>
             if is_op "," t && (match v with TId x => String.eqb x va_name | _ => false end) && (match arg_of e v with Some _ => true | None => false end) then
               let a := operand e v in
               xbind (subst fn e false r3) (fun l => Val (match a with [] => [] | _ => (t, []) :: a end :: l))
             else
               xbind (subst fn e true r2) (fun l =>
                 match l with x :: l => xbind (glue (operand e t) x) (fun y => Val (y :: l)) | [] => Ill end)
         | [] => Ill
         end
       else if fn && is_op "#" t then
         match arg_of e u with
         | Some p => xbind (subst fn e false r2) (fun l => Val ([(stringized (fst p), [])] :: l))
         | None => Ill
         end
       else
         xbind (if cat then Val (operand e t) else replaced e t) (fun x => xbind (subst fn e false (u :: r2)) (fun l => Val (x :: l)))).
    change (subst fn f cat (t :: u :: r2)) with
      (if is_op "##" u then
         match r2 with
         | v :: r3 =>
             if is_op "," t && (match v with TId x => String.eqb x va_name | _ => false end) && (match arg_of f v with Some _ => true | None => false end) then
               let a := operand f v in
               xbind (subst fn f false r3) (fun l => Val (match a with [] => [] | _ => (t, []) :: a end :: l))
             else
               xbind (subst fn f true r2) (fun l =>
                 match l with x :: l => xbind (glue (operand f t) x) (fun y => Val (y :: l)) | [] => Ill end)
         | [] => Ill
         end
       else if fn && is_op "#" t then
         match arg_of f u with
         | Some p => xbind (subst fn f false r2) (fun l => Val ([(stringized (fst p), [])] :: l))
         | None => Ill
         end
       else
         xbind (if cat then Val (operand f t) else replaced f t) (fun x => xbind (subst fn f false (u :: r2)) (fun l => Val (x :: l)))).
    cbn [List.length] in L. destruct (is_op "##" u).
    + destruct r2 as [|v r3]; [apply less_refl|]. rewrite (operand_less e f v H), (operand_less e f t H).
      assert (A := arg_less e f v H).
      replace (match arg_of e v with Some _ => true | None => false end) with (match arg_of f v with Some _ => true | None => false end)
        by (destruct (arg_of e v), (arg_of f v); try contradiction; reflexivity).
      match goal with |- context [if ?c then _ else _] => destruct c end;
        (apply less_bind; [apply IH; cbn [List.length] in *; lia|intros; apply less_refl]).
    + destruct (fn && is_op "#" t).
      * assert (A := arg_less e f u H). destruct (arg_of e u), (arg_of f u); try contradiction; [|apply less_refl].
        destruct A as [-> _]. apply less_bind; [apply IH; lia|intros; apply less_refl].
      * apply less_bind; [destruct cat; [rewrite (operand_less e f t H); apply less_refl|apply replaced_less, H]|].
        intros x. apply less_bind; [apply IH; cbn [List.length]; lia|intros; apply less_refl].
Qed.
Definition arg_env (n : nat) (T : table) (ba : list (string * list htok)) : env := map (fun q => (fst q, (snd q, expand n T (snd q)))) ba.
(** one step, with the recursive calls as a parameter *)
Definition step (E : list htok -> xr (list htok)) (T : table) (l : list htok) : xr (list htok) :=
  match l with
  | [] => Val []
  | (t, h) :: r =>
      let keep := xbind (E r) (fun l => Val ((t, h) :: l)) in
      match t with
      | TId x =>
          if mem_s x h then keep
          else match T x with
               | None => keep
               | Some (Macro None b) => xbind (subst false [] false b) (fun l => E (hide (x :: h) (List.concat l) ++ r)%list)
               | Some (Macro (Some (ps, va)) b) =>
                   match r with
                   | (p, _) :: r1 =>
                       if is_op "(" p then
                         match collect 0 r1 with
                         | Some (args, hp, r2) =>
                             match bind ps va args with
                             | Some ba =>
                                 xbind (subst true (map (fun q => (fst q, (snd q, E (snd q)))) ba) false b)
                                       (fun l => E (hide (x :: inter h hp) (List.concat l) ++ r2)%list)
                             | None => Ill
                             end
                         | None => Ill
                         end
                       else keep
                   | [] => keep
                   end
               end
      | _ => keep
      end
  end.
Lemma expand_S n T l : expand (S n) T l = step (expand n T) T l.
Proof. reflexivity. Qed.
Lemma step_less (E F : list htok -> xr (list htok)) T l : (forall l, less (E l) (F l)) -> less (step E T l) (step F T l).
Proof.
  intros H. destruct l as [|[t h] r]; [apply less_refl|]. unfold step.
  assert (K : less (xbind (E r) (fun l => Val ((t, h) :: l))) (xbind (F r) (fun l => Val ((t, h) :: l)))) by (apply less_bind; [apply H|intros; apply less_refl]).
  destruct t as [x|x|x|x]; auto. destruct (mem_s x h); auto. destruct (T x) as [[[[ps va]|] b]|]; auto.
  - destruct r as [|[p hp] r1]; auto. destruct (is_op "(" p); auto. destruct (collect 0 r1) as [[[args hp'] r2]|]; [|apply less_refl].
    destruct (bind ps va args) as [ba|]; [|apply less_refl]. apply less_bind; [|intros; apply H].
    eapply subst_less; [|apply le_n]. clear -H. induction ba as [|q ba IH]; constructor; auto. cbn. auto.
  - apply less_bind; [apply less_refl|intros; apply H].
Qed.
Lemma expand_less n T l : less (expand n T l) (expand (S n) T l).
Proof.
  revert l. induction n as [|n IH]; intros l; [left; reflexivity|]. rewrite (expand_S n), (expand_S (S n)). apply step_less, IH.
Qed.
Lemma expand_more n m T l : (n <= m)%nat -> less (expand n T l) (expand m T l).
Proof.
  intros L. induction L as [|m L IH]; [apply less_refl|]. destruct IH as [->|E]; [left; reflexivity|]. rewrite E. apply expand_less.
Qed.

(** ** Rules *)
Definition gives (T : table) (l : list htok) (v : xr (list htok)) : Prop := v <> Out /\ exists n, expand n T l = v.
Lemma gives_more T l v : gives T l v -> exists n, forall m, (n <= m)%nat -> expand m T l = v.
Proof.
  intros [N (n & E)]. exists n. intros m L. destruct (expand_more n m T l L) as [O|O]; congruence.
Qed.
Lemma gives_one T l v v' : gives T l v -> gives T l v' -> v = v'.
Proof.
  intros A B. destruct (gives_more _ _ _ A) as (n & E), (gives_more _ _ _ B) as (m & E'). rewrite <- (E (n + m)%nat), <- (E' (n + m)%nat) by lia. reflexivity.
Qed.
Lemma gives_nil T : gives T [] (Val []).
Proof. split; [discriminate|]. exists 1%nat. reflexivity. Qed.
Lemma gives_step T l v : v <> Out -> (exists n, forall m, (n <= m)%nat -> step (expand m T) T l = v) -> gives T l v.
Proof. intros N (n & E). split; [exact N|]. exists (S n). rewrite expand_S. apply E, le_n. Qed.
(** a token that stays: not a macro, hidden, or not called *)
Definition called (r : list htok) : bool := match r with (p, _) :: _ => is_op "(" p | [] => false end.
Definition stays (T : table) (t : htok) (r : list htok) : Prop :=
  match fst t with
  | TId x => mem_s x (snd t) = true \/ match T x with None => True | Some (Macro (Some _) _) => called r = false | _ => False end
  | _ => True
  end.
Lemma gives_keep T t r v : stays T t r -> gives T r v -> gives T (t :: r) (xbind v (fun l => Val (t :: l))).
Proof.
  intros S G. assert (N := proj1 G). apply gives_more in G as (n & E). apply gives_step.
  { destruct v; cbn; congruence. }
  exists n. intros m L. specialize (E m L). destruct t as [t h]. unfold step. rewrite E. unfold stays in S. cbn [fst snd] in S.
  destruct t as [x|x|x|x]; auto. destruct (mem_s x h); [reflexivity|]. destruct S as [S|S]; [discriminate|].
  destruct (T x) as [[[[ps va]|] b]|]; [|contradiction|reflexivity]. destruct r as [|[p hp] r1]; [reflexivity|]. cbn [called] in S. rewrite S. reflexivity.
Qed.
Definition inert (T : table) (l : list htok) : Prop := forall x h, In (TId x, h) l -> T x = None.
Lemma inert_stays T t l r : inert T (t :: l) -> stays T t r.
Proof. intros I. destruct t as [[x|x|x|x] h]; unfold stays; cbn; auto. rewrite (I x h) by (left; reflexivity). auto. Qed.
Lemma inert_tl T t l : inert T (t :: l) -> inert T l.
Proof. intros I x h J. apply (I x h). right. exact J. Qed.
Lemma gives_inert T a r v : inert T a -> gives T r v -> gives T (a ++ r) (xbind v (fun l => Val (a ++ l)%list)).
Proof.
  intros I G. induction a as [|t a IH]; [destruct v; cbn; auto|].
  cbn [app]. assert (Q := gives_keep T t (a ++ r) _ (inert_stays _ _ _ _ I) (IH (inert_tl _ _ _ I))). destruct v; exact Q.
Qed.
Lemma gives_self T a : inert T a -> gives T a (Val a).
Proof. intros I. assert (Q := gives_inert T a [] _ I (gives_nil T)). cbn [xbind] in Q. rewrite app_nil_r in Q. exact Q. Qed.
Lemma gives_obj T x h b l r v : mem_s x h = false -> T x = Some (Macro None b) -> subst false [] false b = Val l ->
  gives T (hide (x :: h) (List.concat l) ++ r) v -> gives T ((TId x, h) :: r) v.
Proof.
  intros M E S G. pose proof (gives_more _ _ _ G) as (n & F). apply gives_step; [apply G|]. exists n. intros m L.
  unfold step. rewrite M, E, S. cbn [xbind]. apply F, L.
Qed.
Fixpoint zip_env (ba : list (string * list htok)) (es : list (list htok)) : env :=
  match ba, es with q :: ba, e :: es => (fst q, (snd q, Val e)) :: zip_env ba es | _, _ => [] end.
Lemma gives_args T ba es : Forall2 (fun q e => gives T (snd q) (Val e)) ba es ->
  exists n, forall m, (n <= m)%nat -> arg_env m T ba = zip_env ba es.
Proof.
  intros H. induction H as [|q e ba es G H (n & IH)]; [exists O; reflexivity|]. apply gives_more in G as (k & G).
  exists (n + k)%nat. intros m L. cbn. unfold arg_env in IH. rewrite G, IH by lia. reflexivity.
Qed.
Lemma gives_call T x h h' ps va b r1 args hp r2 ba es l v : mem_s x h = false -> T x = Some (Macro (Some (ps, va)) b) ->
  collect 0 r1 = Some (args, hp, r2) -> bind ps va args = Some ba -> Forall2 (fun q e => gives T (snd q) (Val e)) ba es ->
  subst true (zip_env ba es) false b = Val l -> gives T (hide (x :: inter h hp) (List.concat l) ++ r2) v ->
  gives T ((TId x, h) :: (TOp "(", h') :: r1) v.
Proof.
  intros M E C B A S G. pose proof (gives_more _ _ _ G) as (n & F). destruct (gives_args T ba es A) as (k & A').
  apply gives_step; [apply G|]. exists (n + k)%nat. intros m L. unfold step. rewrite M, E. cbn [is_op String.eqb Ascii.eqb Bool.eqb].
  rewrite C, B. specialize (A' m ltac:(lia)). unfold arg_env in A'. rewrite A', S. cbn [xbind]. apply F. lia.
Qed.
(** too few or too many arguments *)
Lemma gives_wrong T x h h' ps va b r1 args hp r2 : mem_s x h = false -> T x = Some (Macro (Some (ps, va)) b) ->
  collect 0 r1 = Some (args, hp, r2) -> bind ps va args = None -> gives T ((TId x, h) :: (TOp "(", h') :: r1) Ill.
Proof.
  intros M E C B. apply gives_step; [discriminate|]. exists O. intros m L. unfold step. rewrite M, E. cbn [is_op String.eqb Ascii.eqb Bool.eqb].
  rewrite C, B. reflexivity.
Qed.

(** ** Arguments *)
Inductive listed : list (list htok) -> list htok -> Prop :=
| l_one a : listed [a] a
| l_more a h args l : listed args l -> listed (a :: args) (a ++ (TOp ",", h) :: l).
Definition toks (l : list htok) : list tok := map fst l.
Definition arg_ok (a : list htok) : Prop := one_arg (toks a).
Lemma nested_step n t l : nested n (t :: l) =
  if is_op "(" t then nested (S n) l else if is_op ")" t then match n with O => false | S d => nested d l end
  else if is_op "," t then negb (Nat.eqb n 0) && nested n l else nested n l.
Proof.
  destruct t as [x|x|x|x]; try reflexivity. cbn [nested is_op].
  destruct (String.eqb_spec x "(") as [->|N1]; [reflexivity|]. destruct (String.eqb_spec x ")") as [->|N2]; [reflexivity|].
  destruct (String.eqb_spec x ",") as [->|N3]; [reflexivity|].
  destruct x as [|c [|d x]]; try reflexivity;
  destruct c as [[] [] [] [] [] [] [] []]; try reflexivity; try congruence.
Qed.
(** what is collected behind a piece of balanced text *)
Lemma collect_piece a : forall n r args hp r2, nested n (toks a) = true -> collect 0 r = Some (args, hp, r2) ->
  collect n (a ++ r) = Some (match args with x :: rest => (a ++ x) :: rest | [] => match a with [] => [] | _ => [a] end end, hp, r2).
Proof.
  induction a as [|[t h] a IH]; intros n r args hp r2 N C.
  - cbn in N. apply Nat.eqb_eq in N. subst n. cbn [app]. rewrite C. destruct args; reflexivity.
  - unfold toks in N. cbn [map fst] in N. rewrite nested_step in N. change (map fst a) with (toks a) in N. cbn [app collect fst snd].
    assert (P : forall d, nested d (toks a) = true ->
      match collect d (a ++ r) with Some (a0, h0, r') => Some (onto (t, h) a0, h0, r') | None => None end =
      Some (match args with x :: rest => ((t, h) :: a ++ x) :: rest | [] => [(t, h) :: a] end, hp, r2)).
    { intros d Nd. rewrite (IH d r args hp r2 Nd C). destruct args as [|x rest]; [destruct a; reflexivity|reflexivity]. }
    destruct (is_op "(" t); [exact (P _ N)|]. destruct (is_op ")" t); [destruct n; [discriminate|exact (P _ N)]|].
    destruct (is_op "," t); [|exact (P _ N)]. apply andb_true_iff in N as [N1 N2]. destruct (Nat.eqb n 0); [discriminate|]. exact (P _ N2).
Qed.
Lemma collect_listed args l hp r : listed args l -> Forall arg_ok args -> collect 0 (l ++ (TOp ")", hp) :: r) = Some (args, hp, r).
Proof.
  intros L. induction L as [a|a h args l L IH]; intros F; inversion F as [|? ? Fa Fr]; subst.
  - rewrite (collect_piece a 0 _ [[]] hp r Fa); [|reflexivity]. rewrite app_nil_r. reflexivity.
  - rewrite <- app_assoc. cbn [app]. rewrite (collect_piece a 0 _ ([] :: args) hp r Fa); [rewrite app_nil_r; reflexivity|].
    cbn [collect is_op fst snd String.eqb Ascii.eqb Bool.eqb andb Nat.eqb]. rewrite (IH Fr). reflexivity.
Qed.
Lemma listed_joined args : args <> [] -> listed args (joined args).
Proof.
  induction args as [|a [|b args] IH]; intros N; [congruence|apply l_one|]. change (joined (a :: b :: args)) with (a ++ comma :: joined (b :: args))%list.
  apply l_more, IH. discriminate.
Qed.
Lemma listed_hide h args l : listed args l -> listed (map (hide h) args) (hide h l).
Proof.
  intros L. induction L as [a|a h' args l L IH]; [apply l_one|]. unfold hide at 2. rewrite map_app. cbn [map]. apply l_more. exact IH.
Qed.
Lemma toks_app a b : toks (a ++ b) = toks a ++ toks b.
Proof. apply map_app. Qed.
Lemma toks_hide h l : toks (hide h l) = toks l.
Proof. unfold toks, hide. rewrite map_map. reflexivity. Qed.
Lemma arg_hide h a : arg_ok a -> arg_ok (hide h a).
Proof. unfold arg_ok. rewrite toks_hide. auto. Qed.
Lemma inert_hide T h l : inert T l -> inert T (hide h l).
Proof. intros I x k J. apply in_map_iff in J as ([t k'] & E & J). cbn in E. injection E as -> _. exact (I _ _ J). Qed.
Lemma inert_app T a b : inert T a -> inert T b -> inert T (a ++ b).
Proof. intros A B x h J. destruct (in_app_or _ _ _ J) as [K|K]; [exact (A _ _ K)|exact (B _ _ K)]. Qed.
Lemma inert_cons T t h l : match t with TId x => T x = None | _ => True end -> inert T l -> inert T ((t, h) :: l).
Proof. intros A B x k [E|J]; [injection E as -> ->; exact A|exact (B _ _ J)]. Qed.
Lemma inert_nil T : inert T []. Proof. intros x h []. Qed.
Lemma inert_listed T args l : listed args l -> Forall (inert T) args -> inert T l.
Proof.
  intros L. induction L as [a|a h args l L IH]; intros F; inversion F; subst; [assumption|]. apply inert_app; [assumption|]. apply inert_cons; [exact I|auto].
Qed.
Lemma hide_app h a b : hide h (a ++ b) = (hide h a ++ hide h b)%list.
Proof. apply map_app. Qed.
Lemma mem_inter x h k : mem_s x h = false -> mem_s x (inter h k) = false.
Proof.
  intros H. destruct (mem_s x (inter h k)) eqn:E; [|reflexivity]. unfold mem_s in *. apply existsb_exists in E as (y & I & Q).
  apply filter_In in I as [I _]. rewrite <- H. symmetry. apply existsb_exists. exists y. auto.
Qed.
