(** The macros of preprocessor.hpp: concatenation, quotes, and C4_FOR_EACH. *)
From Verif Require Import Base PpModel PpSpec PpText PpProofs PpProofs2 PpProofs3 PpProofs4 PpProofs5 MacroModel MacroSpec MacroProofs.
From Coq Require Import String Ascii.
Open Scope string_scope.
Open Scope list_scope.
Open Scope Z_scope.

(** ** The macros that preprocessor.hpp leaves *)
Definition mac_eqb (a b : option mac) : bool :=
  match a, b with Some a, Some b => Bool.eqb (mfn a) (mfn b) && toks_eqb (mbody a) (mbody b) | None, None => true | _, _ => false end.
Fixpoint defs_eqb (a b : defs) : bool :=
  match a, b with
  | [], [] => true
  | (x, m) :: a, (y, n) :: b => String.eqb x y && mac_eqb m n && defs_eqb a b
  | _, _ => false
  end.
Lemma mac_eqb_eq a b : mac_eqb a b = true -> a = b.
Proof.
  destruct a as [[f a]|], b as [[g b]|]; cbn; intros H; try discriminate; [|reflexivity].
  apply andb_true_iff in H as [H1 H2]. apply Bool.eqb_prop in H1. apply toks_eqb_eq in H2. congruence.
Qed.
Lemma defs_eqb_eq a : forall b, defs_eqb a b = true -> a = b.
Proof.
  induction a as [|[x m] a IH]; intros [|[y n] b]; cbn; intros H; try discriminate; [reflexivity|].
  apply andb_true_iff in H as [H H3]. apply andb_true_iff in H as [H1 H2]. apply String.eqb_eq in H1. apply mac_eqb_eq in H2. apply IH in H3. congruence.
Qed.
Definition empty_world : world := World (fun _ => None) (fun _ _ => 0).
Definition D0 : defs := match run empty_world (file preprocessor_hpp) with Done d _ => d | _ => [] end.
Definition p_end (c : list lit) (o : outcome) : bool := match o with Done d _ => defs_eqb d D0 | _ => false end.
Lemma pre_check : ends (names preprocessor_hpp) [] (file preprocessor_hpp) [] p_end = true.
Proof. vm_compute. reflexivity. Qed.
Lemma pre_leaves w d : new w preprocessor_hpp [] -> leaves w preprocessor_hpp d -> d = D0.
Proof.
  intros F (out & R). destruct (ends_ok _ _ _ _ _ pre_check w (new_fresh0 _ _ F) ltac:(intros x []) ltac:(constructor)) as (c & _ & P).
  rewrite R in P. cbn [p_end] in P. apply defs_eqb_eq, P.
Qed.

(** ** Its macros in a table that may have others *)
Lemma lookup_app d e x m : lookup d x = Some m -> lookup (d ++ e) x = Some m.
Proof. induction d as [|[y n] d IH]; cbn; [discriminate|]. destruct (x =? y)%string; auto. Qed.
Lemma lookup_app2 d e x : lookup d x = None -> lookup (d ++ e) x = lookup e x.
Proof. induction d as [|[y n] d IH]; cbn; [reflexivity|]. destruct (x =? y)%string; [discriminate|auto]. Qed.
Lemma macros_app d e x m : macros d x = Some m -> macros (d ++ e) x = Some m.
Proof.
  unfold macros. destruct (lookup d x) as [o|] eqn:L; [|discriminate]. rewrite (lookup_app _ _ _ _ L). auto.
Qed.
Lemma own_inert d l h : own d l -> inert (macros d) (map (fun t => (t, h)) l).
Proof. intros O x k I. apply in_map_iff in I as (t & E & I). injection E as -> _. unfold macros. rewrite (O x I). reflexivity. Qed.

Definition digit (n : nat) : ascii := ascii_of_nat (48 + n).
Definition two_digits (k : nat) : string := String (digit (k / 10)) (String (digit (k mod 10)) "").
Definition label (k : nat) : string := ("_C4_FOR_EACH_" ++ two_digits k)%string.
Definition body1 : list tok := [TId "what"; TOp "("; TId "x"; TOp ")"; TId "sep"].
Definition body2 (k : nat) : list tok := (body1 ++ [TId (label k); TOp "("; TId "what"; TOp ","; TId "sep"; TOp ","; TId va_name; TOp ")"]).
Definition macro_eqb (a : option macro) (ps : list string) (va : bool) (b : list tok) : bool :=
  match a with
  | Some (Macro (Some (qs, vb)) c) => toks_eqb (map TId ps) (map TId qs) && Bool.eqb va vb && toks_eqb b c
  | _ => false
  end.
Lemma macro_eqb_eq a ps va b : macro_eqb a ps va b = true -> a = Some (Macro (Some (ps, va)) b).
Proof.
  destruct a as [[[[qs vb]|] c]|]; cbn; try discriminate. intros H. apply andb_true_iff in H as [H H3]. apply andb_true_iff in H as [H1 H2].
  apply toks_eqb_eq in H1, H3. apply Bool.eqb_prop in H2. subst. f_equal. f_equal. f_equal. f_equal.
  clear -H1. revert qs H1. induction ps as [|p ps IH]; intros [|q qs]; cbn; intros H; try discriminate; [reflexivity|]. injection H as -> H. f_equal. auto.
Qed.
Lemma macro_in T0 e x ps va b : macro_eqb (macros T0 x) ps va b = true -> macros (T0 ++ e) x = Some (Macro (Some (ps, va)) b).
Proof. intros H. apply macros_app, macro_eqb_eq, H. Qed.

Section With.
Variable e : defs.
Let T := macros (D0 ++ e).
Lemma T_first : T (label 1) = Some (Macro (Some (["what"; "sep"; "x"], false)) body1).
Proof. apply macro_in. vm_compute. reflexivity. Qed.
Lemma next_check : forallb (fun k => macro_eqb (macros D0 (label (S k))) ["what"; "sep"; "x"] true (body2 k)) (seq 1 31) = true.
Proof. vm_compute. reflexivity. Qed.
Lemma T_next k : (1 <= k <= 31)%nat -> T (label (S k)) = Some (Macro (Some (["what"; "sep"; "x"], true)) (body2 k)).
Proof.
  intros K. apply macro_in. assert (N := next_check). rewrite forallb_forall in N. apply N, in_seq. lia.
Qed.
Lemma labels_check : forallb (fun k => forallb (fun j => Nat.eqb k j || negb (String.eqb (label k) (label j))) (seq 0 34)) (seq 0 34) = true.
Proof. vm_compute. reflexivity. Qed.
Lemma labels_differ k j : (k < 34)%nat -> (j < 34)%nat -> k <> j -> String.eqb (label k) (label j) = false.
Proof.
  intros K J N. assert (C := labels_check). rewrite forallb_forall in C. specialize (C k ltac:(apply in_seq; lia)).
  rewrite forallb_forall in C. specialize (C j ltac:(apply in_seq; lia)). apply orb_true_iff in C as [C|C]; [apply Nat.eqb_eq in C; lia|].
  apply negb_true_iff, C.
Qed.
Definition eachh (what sep x : list tok) : list tok := each what sep x.
Lemma gives_self_all ba : Forall (inert T) (map snd ba) -> Forall2 (fun (q : string * list htok) e => gives T (snd q) (Val e)) ba (map snd ba).
Proof. induction ba as [|q ba IH]; intros F; [constructor|]. inversion F; subst. constructor; [apply gives_self; assumption|auto]. Qed.
Lemma subst_first what sep x : subst true (zip_env [("what", what); ("sep", sep); ("x", x)] [what; sep; x]) false body1
  = Val [what; [(TOp "(", [])]; x; [(TOp ")", [])]; sep].
Proof. reflexivity. Qed.
Lemma subst_next k what sep x xs : subst true (zip_env [("what", what); ("sep", sep); ("x", x); (va_name, xs)] [what; sep; x; xs]) false (body2 k)
  = Val [what; [(TOp "(", [])]; x; [(TOp ")", [])]; sep; [(TId (label k), [])]; [(TOp "(", [])]; what; [(TOp ",", [])]; sep; [(TOp ",", [])]; xs; [(TOp ")", [])]].
Proof. reflexivity. Qed.
Lemma chain k : forall xs what sep h h' hp l, List.length xs = k -> (1 <= k <= 32)%nat -> listed (what :: sep :: xs) l ->
  Forall arg_ok (what :: sep :: xs) -> Forall (inert T) (what :: sep :: xs) -> (forall j, (1 <= j <= k)%nat -> mem_s (label j) h = false) ->
  exists out, toks out = List.concat (map (fun x => each (toks what) (toks sep) (toks x)) xs)
    /\ forall r v, gives T r v -> gives T ((TId (label k), h) :: (TOp "(", h') :: l ++ (TOp ")", hp) :: r) (xbind v (fun q => Val (out ++ q))).
Proof.
  induction k as [|k IH]; intros xs what sep h h' hp l Lx K Li Fa Fi Hh; [lia|].
  assert (C : forall r, collect 0 (l ++ (TOp ")", hp) :: r) = Some (what :: sep :: xs, hp, r)) by (intros r; apply collect_listed; assumption).
  destruct xs as [|x xs]; [cbn in Lx; lia|]. cbn [List.length] in Lx.
  assert (Fi' := Fi). inversion Fi' as [|? ? Iw Fi2]; subst. inversion Fi2 as [|? ? Is Fi3]; subst. inversion Fi3 as [|? ? Ix Fi4]; subst. clear Fi' Fi2 Fi3.
  assert (Fa' := Fa). inversion Fa' as [|? ? Aw Fa2]; subst. inversion Fa2 as [|? ? As Fa3]; subst. inversion Fa3 as [|? ? Ax Fa4]; subst. clear Fa' Fa2 Fa3.
  set (H := label (S k) :: inter h hp).
  set (pre := hide H what ++ (TOp "(", H ++ []) :: hide H x ++ (TOp ")", H ++ []) :: hide H sep).
  assert (Ip : inert T pre).
  { unfold pre. apply inert_app; [apply inert_hide, Iw|]. apply inert_cons; [exact I|]. apply inert_app; [apply inert_hide, Ix|]. apply inert_cons; [exact I|]. apply inert_hide, Is. }
  assert (Tp : toks pre = each (toks what) (toks sep) (toks x)).
  { unfold pre, each, toks. rewrite map_app. cbn [map fst]. rewrite map_app. cbn [map fst]. fold (toks (hide H what)) (toks (hide H x)) (toks (hide H sep)). rewrite !toks_hide. reflexivity. }
  destruct (Nat.eq_dec k 0) as [->|Nk].
  - destruct xs; [|cbn in Lx; lia]. exists pre. split; [cbn [map List.concat]; rewrite app_nil_r; exact Tp|]. intros r v G.
    eapply gives_call; [apply Hh; lia|apply T_first|apply C|reflexivity|apply gives_self_all; cbn; auto|apply subst_first|].
    cbn [List.concat]. rewrite !app_nil_r. fold H. match goal with |- gives T ?a _ => replace a with (pre ++ r) end.
    + apply gives_inert; assumption.
    + f_equal. unfold pre. rewrite !hide_app. reflexivity.
  - assert (Nx : xs <> []) by (intros ->; cbn in Lx; lia).
    assert (Ij : inert T (joined xs)) by (eapply inert_listed; [apply listed_joined, Nx|assumption]).
    destruct (IH (map (hide H) xs) (hide H what) (hide H sep) (H ++ []) (H ++ []) (H ++ []) (hide H what ++ (TOp ",", H ++ []) :: hide H sep ++ (TOp ",", H ++ []) :: hide H (joined xs)))
      as (out & To & Go).
    + rewrite map_length. lia.
    + lia.
    + apply l_more, l_more, listed_hide, listed_joined, Nx.
    + constructor; [apply arg_hide, Aw|]. constructor; [apply arg_hide, As|]. clear -Fa4. induction Fa4; constructor; [apply arg_hide|]; assumption.
    + constructor; [apply inert_hide, Iw|]. constructor; [apply inert_hide, Is|]. clear -Fi4. induction Fi4; constructor; [apply inert_hide|]; assumption.
    + intros j J. rewrite app_nil_r. unfold H. unfold mem_s. cbn [existsb]. rewrite labels_differ by lia. apply mem_inter, Hh. lia.
    + exists (pre ++ out). split.
      * rewrite toks_app, Tp, To. cbn [map List.concat]. f_equal. rewrite map_map.
        f_equal. apply map_ext. intros a. rewrite !toks_hide. reflexivity.
      * intros r v G.
        eapply gives_call; [apply Hh; lia|apply T_next; lia|apply C| |apply (gives_self_all [("what", what); ("sep", sep); ("x", x); (va_name, joined xs)]); cbn; auto|apply subst_next|].
        { destruct xs; [congruence|reflexivity]. }
        specialize (Go r v G). apply (gives_inert T pre) in Go; [|exact Ip]. fold H.
        match goal with |- gives T ?a ?b => match type of Go with gives T ?c ?d => replace a with c; [replace b with d; [exact Go|]|] end end.
        -- destruct v; cbn [xbind]; [rewrite app_assoc|..]; reflexivity.
        -- cbn [List.concat]. unfold pre. rewrite !hide_app. cbn [hide map fst snd app]. repeat (progress (rewrite <- ?app_assoc; cbn [app])). reflexivity.
Qed.
End With.

(** ** The number of arguments *)
Lemma mem_cons x y l : String.eqb x y = false -> mem_s x l = false -> mem_s x (y :: l) = false.
Proof. unfold mem_s. cbn [existsb]. intros -> ->. reflexivity. Qed.
Lemma mem_app x a b : mem_s x a = false -> mem_s x b = false -> mem_s x (a ++ b) = false.
Proof. unfold mem_s. rewrite existsb_app. intros -> ->. reflexivity. Qed.
Lemma nested_piece a : forall n d r, nested n a = true -> nested (d + n) (a ++ r) = nested d r.
Proof.
  induction a as [|t a IH]; intros n d r N.
  - cbn in N. apply Nat.eqb_eq in N. subst n. rewrite Nat.add_0_r. reflexivity.
  - cbn [app]. rewrite nested_step in *. destruct (is_op "(" t); [rewrite plus_n_Sm; apply IH, N|].
    destruct (is_op ")" t); [destruct n; [discriminate|]; rewrite <- plus_n_Sm; apply IH, N|].
    destruct (is_op "," t); [|apply IH, N]. apply andb_true_iff in N as [N1 N2]. rewrite (IH n d r N2).
    destruct n; [discriminate|]. rewrite <- plus_n_Sm. reflexivity.
Qed.
Lemma nested_listed args l : listed args l -> Forall arg_ok args -> forall d r, nested (S d) (toks l ++ r) = nested (S d) r.
Proof.
  intros L. induction L as [a|a h args l L IH]; intros F d r; inversion F as [|? ? Fa Fr]; subst.
  - replace (S d) with (S d + 0)%nat at 1 by lia. apply nested_piece, Fa.
  - rewrite toks_app. rewrite <- app_assoc. replace (S d) with (S d + 0)%nat at 1 by lia. rewrite nested_piece by exact Fa.
    cbn [toks map fst app]. rewrite nested_step. cbn [is_op String.eqb Ascii.eqb Bool.eqb Nat.eqb negb andb]. apply IH, Fr.
Qed.
Lemma call_arg x h h1 h2 args l : listed args l -> Forall arg_ok args -> arg_ok ((TId x, h) :: (TOp "(", h1) :: l ++ [(TOp ")", h2)]).
Proof.
  intros L F. unfold arg_ok, one_arg. cbn [toks map fst]. rewrite nested_step. cbn [is_op]. rewrite nested_step. cbn [is_op String.eqb Ascii.eqb Bool.eqb].
  fold (toks (l ++ [(TOp ")", h2)])). rewrite toks_app, (nested_listed _ _ L F). reflexivity.
Qed.
Lemma listed_app a l b m h : listed a l -> listed b m -> listed (a ++ b) (l ++ (TOp ",", h) :: m).
Proof.
  intros L M. induction L as [a|a h' args l L IH]; cbn [app]; [apply l_more, M|]. rewrite <- app_assoc. cbn [app]. apply l_more, IH.
Qed.
Definition with_h (h : list string) (l : list tok) : list htok := map (fun t => (t, h)) l.
Lemma listed_plain h args : args <> [] -> listed (map (with_h h) args) (with_h h (with_commas args)).
Proof.
  induction args as [|a [|b args] IH]; intros N; [congruence|apply l_one|].
  change (with_commas (a :: b :: args)) with (a ++ TOp "," :: with_commas (b :: args)). unfold with_h at 2. rewrite map_app. cbn [map]. apply l_more, IH. discriminate.
Qed.
Lemma toks_with h l : toks (with_h h l) = l.
Proof. unfold toks, with_h. rewrite map_map. apply map_id. Qed.
Lemma hide_with h k l : hide h (with_h k l) = with_h (h ++ k) l.
Proof. unfold hide, with_h. rewrite map_map. reflexivity. Qed.

Definition rseq : list string := map two_digits (rev (seq 1 32)).
Definition rseq_body : list tok := with_commas (map (fun s => [TNum s]) rseq).
Definition arg_names : list string := map (fun k => String "_" (two_digits k)) (seq 1 32) ++ ["N"].
Section With.
Variable e : defs.
Let T := macros (D0 ++ e).
Lemma T_narg : T "_C4_FOR_EACH_NARG" = Some (Macro (Some ([], true)) [TId "_C4_FOR_EACH_NARG_"; TOp "("; TId va_name; TOp ","; TId "_C4_FOR_EACH_RSEQ_N"; TOp "("; TOp ")"; TOp ")"]).
Proof. apply macro_in. vm_compute. reflexivity. Qed.
Lemma T_narg_ : T "_C4_FOR_EACH_NARG_" = Some (Macro (Some ([], true)) [TId "_C4_FOR_EACH_ARG_N"; TOp "("; TId va_name; TOp ")"]).
Proof. apply macro_in. vm_compute. reflexivity. Qed.
Lemma T_arg_n : T "_C4_FOR_EACH_ARG_N" = Some (Macro (Some (arg_names, true)) [TId "N"]).
Proof. apply macro_in. vm_compute. reflexivity. Qed.
Lemma T_rseq : T "_C4_FOR_EACH_RSEQ_N" = Some (Macro (Some ([], false)) rseq_body).
Proof. apply macro_in. vm_compute. reflexivity. Qed.
Lemma T_each : T "_C4_FOR_EACH_" = Some (Macro (Some (["N"; "what"; "sep"], true))
  [TId "C4_XCAT"; TOp "("; TId "_C4_FOR_EACH_"; TOp ","; TId "N"; TOp ")"; TOp "("; TId "what"; TOp ","; TId "sep"; TOp ","; TId va_name; TOp ")"]).
Proof. apply macro_in. vm_compute. reflexivity. Qed.
Lemma T_xcat : T "C4_XCAT" = Some (Macro (Some (["arg1"; "arg2"], false)) [TId "_C4_XCAT"; TOp "("; TId "arg1"; TOp ","; TId "arg2"; TOp ")"]).
Proof. apply macro_in. vm_compute. reflexivity. Qed.
Lemma T_xcat_ : T "_C4_XCAT" = Some (Macro (Some (["arg1"; "arg2"], false)) [TId "C4_CAT"; TOp "("; TId "arg1"; TOp ","; TId "arg2"; TOp ")"]).
Proof. apply macro_in. vm_compute. reflexivity. Qed.
Lemma T_cat : T "C4_CAT" = Some (Macro (Some (["arg1"; "arg2"], false)) [TId "arg1"; TOp "##"; TId "arg2"]).
Proof. apply macro_in. vm_compute. reflexivity. Qed.
Lemma T_sep : T "C4_FOR_EACH_SEP" = Some (Macro (Some (["what"; "sep"], true))
  [TId "_C4_FOR_EACH_"; TOp "("; TId "_C4_FOR_EACH_NARG"; TOp "("; TId va_name; TOp ")"; TOp ","; TId "what"; TOp ","; TId "sep"; TOp ","; TId va_name; TOp ")"]).
Proof. apply macro_in. vm_compute. reflexivity. Qed.
Lemma T_for : T "C4_FOR_EACH" = Some (Macro (Some (["what"], true)) [TId "C4_FOR_EACH_SEP"; TOp "("; TId "what"; TOp ","; TOp ";"; TOp ","; TId va_name; TOp ")"]).
Proof. apply macro_in. vm_compute. reflexivity. Qed.

Lemma subst_n args : (33 <= List.length args)%nat ->
  subst true (zip_env (combine arg_names args ++ [(va_name, joined (skipn 33 args))]) (map snd (combine arg_names args ++ [(va_name, joined (skipn 33 args))]))) false [TId "N"]
  = Val [nth 32 args []].
Proof. intros L. do 33 (destruct args as [|? args]; [cbn in L; lia|]). reflexivity. Qed.
Lemma inert_nums h l : inert T (with_h h (with_commas (map (fun s => [TNum s]) l))).
Proof.
  destruct l as [|s l]; [apply inert_nil|]. eapply inert_listed; [apply listed_plain; discriminate|]. rewrite Forall_forall. intros a I.
  apply in_map_iff in I as (b & <- & I). apply in_map_iff in I as (s' & <- & I). intros x k [E|[]]. discriminate.
Qed.
Lemma gives_rseq h h1 h2 r v : mem_s "_C4_FOR_EACH_RSEQ_N" h = false ->
  exists k, forall (R : gives T r v), gives T ((TId "_C4_FOR_EACH_RSEQ_N", h) :: (TOp "(", h1) :: (TOp ")", h2) :: r) (xbind v (fun q => Val (with_h k rseq_body ++ q))).
Proof.
  intros M. exists (("_C4_FOR_EACH_RSEQ_N" :: inter h h2) ++ []). intros R.
  eapply (gives_call T _ h h1 [] false rseq_body _ [[]] h2 r [] [] (map (fun t => [(t, [])]) rseq_body)); [exact M|exact T_rseq|reflexivity|reflexivity|constructor|reflexivity|].
  change (List.concat (map (fun t => [(t, [])]) rseq_body)) with (with_h [] rseq_body). rewrite hide_with. apply gives_inert; [apply inert_nums|exact R].
Qed.
Lemma nth_num k n : (1 <= n <= 32)%nat -> forall xs : list (list htok), List.length xs = n ->
  nth 32 (xs ++ map (with_h k) (map (fun s => [TNum s]) rseq)) [] = [(TNum (two_digits n), k)].
Proof.
  intros N xs L. rewrite app_nth2 by lia. rewrite L. clear L xs.
  do 33 (destruct n as [|n]; [try lia; reflexivity|]). lia.
Qed.
Lemma nums_ok k : Forall arg_ok (map (with_h k) (map (fun s => [TNum s]) rseq)) /\ Forall (inert T) (map (with_h k) (map (fun s => [TNum s]) rseq)).
Proof.
  split; rewrite Forall_forall; intros a I; apply in_map_iff in I as (b & <- & I); apply in_map_iff in I as (s' & <- & I); [reflexivity|].
  intros x k' [E|[]]; discriminate.
Qed.
Lemma joined_app a b : a <> [] -> b <> [] -> joined (a ++ b) = joined a ++ comma :: joined b.
Proof.
  intros A B. induction a as [|x [|y a] IH]; [congruence| |].
  - cbn [app]. destruct b; [congruence|reflexivity].
  - change (joined ((x :: y :: a) ++ b)) with (x ++ comma :: joined ((y :: a) ++ b)). rewrite IH by discriminate. change (joined (x :: y :: a)) with (x ++ comma :: joined (y :: a)).
    rewrite <- app_assoc. reflexivity.
Qed.
Lemma hide_joined h xs : xs <> [] -> listed (map (hide h) xs) (hide h (joined xs)).
Proof. intros N. apply listed_hide, listed_joined, N. Qed.
Lemma map_hide_ok h xs : Forall arg_ok xs -> Forall arg_ok (map (hide h) xs).
Proof. intros F. induction F; constructor; [apply arg_hide|]; assumption. Qed.
Lemma map_hide_inert h xs : Forall (inert T) xs -> Forall (inert T) (map (hide h) xs).
Proof. intros F. induction F; constructor; [apply inert_hide|]; assumption. Qed.

Ltac free := repeat first [reflexivity | assumption | apply mem_inter | apply mem_cons; [reflexivity|] | apply mem_app].
Lemma narg n xs l h h1 h2 : (1 <= n <= 32)%nat -> List.length xs = n -> listed xs l -> Forall arg_ok xs -> Forall (inert T) xs ->
  mem_s "_C4_FOR_EACH_NARG" h = false -> mem_s "_C4_FOR_EACH_NARG_" h = false -> mem_s "_C4_FOR_EACH_ARG_N" h = false -> mem_s "_C4_FOR_EACH_RSEQ_N" h = false ->
  exists k, gives T ((TId "_C4_FOR_EACH_NARG", h) :: (TOp "(", h1) :: l ++ [(TOp ")", h2)]) (Val [(TNum (two_digits n), k)]).
Proof.
  intros N Lx Li Fa Fi M1 M2 M3 M4. assert (Nx : xs <> []) by (intros ->; cbn in Lx; lia).
  assert (Ij : inert T (joined xs)) by (eapply inert_listed; [apply listed_joined, Nx|assumption]).
  set (H := "_C4_FOR_EACH_NARG" :: inter h h2).
  set (call := [(TId "_C4_FOR_EACH_RSEQ_N", H ++ []); (TOp "(", H ++ []); (TOp ")", H ++ [])]).
  set (xs1 := map (hide H) xs). assert (Nx1 : xs1 <> []) by (unfold xs1; destruct xs; [congruence|discriminate]).
  assert (Fa1 : Forall arg_ok xs1) by (apply map_hide_ok, Fa). assert (Fi1 : Forall (inert T) xs1) by (apply map_hide_inert, Fi).
  assert (Ij1 : inert T (joined xs1)) by (eapply inert_listed; [apply listed_joined, Nx1|assumption]).
  destruct (gives_rseq (H ++ []) (H ++ []) (H ++ []) [] (Val []) ltac:(unfold H; free)) as (k1 & G1). specialize (G1 (gives_nil T)). cbn [xbind] in G1. rewrite (app_nil_r (with_h k1 rseq_body)) in G1.
  set (H2 := "_C4_FOR_EACH_NARG_" :: inter (H ++ []) (H ++ [])).
  set (nums := map (with_h (H2 ++ k1)) (map (fun s => [TNum s]) rseq)).
  set (args3 := map (hide H2) xs1 ++ nums). destruct (nums_ok (H2 ++ k1)) as [Fan Fin].
  assert (L3 : (33 <= List.length args3)%nat) by (unfold args3, nums, xs1; rewrite app_length, !map_length, Lx; cbn; lia).
  set (H3 := "_C4_FOR_EACH_ARG_N" :: inter (H2 ++ []) (H2 ++ [])).
  exists (H3 ++ (H2 ++ k1)).
  eapply (gives_call T _ h h1 [] true _ _ xs h2 [] [(va_name, joined xs)] [joined xs]); [exact M1|exact T_narg|apply collect_listed; assumption|reflexivity|constructor; [apply gives_self, Ij|constructor]|reflexivity|].
  fold H. cbn [List.concat app]. rewrite hide_app, app_nil_r || rewrite app_nil_r.
  match goal with |- gives T ?a _ => replace a with ((TId "_C4_FOR_EACH_NARG_", H ++ []) :: (TOp "(", H ++ []) :: (hide H (joined xs) ++ (TOp ",", H ++ []) :: call) ++ [(TOp ")", H ++ [])]) end;
    [|unfold call; cbn [hide map fst snd app]; rewrite ?hide_app, ?map_app; repeat (progress (rewrite <- ?app_assoc; cbn [app])); reflexivity].
  assert (Ac : arg_ok call) by reflexivity.
  eapply (gives_call T _ _ _ [] true _ _ (xs1 ++ [call]) _ [] [(va_name, joined (xs1 ++ [call]))] [joined xs1 ++ comma :: with_h k1 rseq_body]);
    [unfold H; free|exact T_narg_|apply collect_listed; [apply listed_app; [apply hide_joined, Nx|apply l_one]|apply Forall_app; split; [exact Fa1|constructor; [exact Ac|constructor]]]
    |reflexivity| |reflexivity|].
  { constructor; [|constructor]. cbn [snd]. rewrite joined_app by (exact Nx1 || discriminate). apply (gives_inert T _ _ (Val (comma :: with_h k1 rseq_body))); [exact Ij1|].
    apply (gives_keep T comma _ (Val (with_h k1 rseq_body))); [exact I|exact G1]. }
  fold H2. cbn [List.concat app]. rewrite app_nil_r.
  match goal with |- gives T ?a _ => replace a with ((TId "_C4_FOR_EACH_ARG_N", H2 ++ []) :: (TOp "(", H2 ++ []) :: (hide H2 (joined xs1) ++ (TOp ",", H2 ++ []) :: with_h (H2 ++ k1) rseq_body) ++ [(TOp ")", H2 ++ [])]) end;
    [|rewrite <- hide_with; cbn [hide map fst snd app]; rewrite ?hide_app, ?map_app; cbn [hide map fst snd app comma]; repeat (progress (rewrite <- ?app_assoc; cbn [app])); reflexivity].
  eapply (gives_call T _ _ _ arg_names true _ _ args3 _ []); [unfold H2, H; free|exact T_arg_n|apply collect_listed; [apply listed_app; [apply hide_joined, Nx1|apply listed_plain; discriminate]|]
    | |apply gives_self_all| |].
  - apply Forall_app. split; [apply map_hide_ok, Fa1|exact Fan].
  - unfold bind. replace (List.length arg_names) with 33%nat by reflexivity. replace (Nat.leb 33 (List.length args3)) with true by (symmetry; apply Nat.leb_le, L3). reflexivity.
  - rewrite map_app. cbn [map snd]. apply Forall_app. split.
    + rewrite Forall_forall. intros a I. apply in_map_iff in I as ((p & b) & <- & I). apply in_combine_r in I. cbn [snd].
      assert (F3 : Forall (inert T) args3) by (apply Forall_app; split; [apply map_hide_inert, Fi1|exact Fin]). rewrite Forall_forall in F3. exact (F3 _ I).
    + constructor; [|constructor]. destruct (skipn 33 args3) as [|a rest] eqn:S; [apply inert_nil|].
      assert (F3 : Forall (inert T) args3) by (apply Forall_app; split; [apply map_hide_inert, Fi1|exact Fin]).
      eapply inert_listed; [apply listed_joined; discriminate|]. rewrite <- S. rewrite Forall_forall in *. intros b I. apply F3. rewrite <- (firstn_skipn 33 args3). apply in_or_app. right. exact I.
  - apply subst_n, L3.
  - unfold args3, nums. rewrite (nth_num (H2 ++ k1) n N) by (unfold xs1; rewrite !map_length; exact Lx). fold H3. cbn [List.concat app hide map fst snd].
    apply gives_self. intros x k [E|[]]. discriminate.
Qed.
End With.
