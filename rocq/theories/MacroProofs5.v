(** The headers leave the macros of error.hpp: for every world. *)
From Verif Require Import Base PpModel PpSpec PpText PpProofs PpProofs2 PpProofs3 PpProofs4 PpProofs5 MacroText MacroModel MacroSpec MacroProofs MacroProofs2 MacroProofs4.
From Coq Require Import String Ascii.
Open Scope string_scope.
Open Scope list_scope.
Open Scope Z_scope.
Local Strategy opaque [depth tab resolve tabf sym check ends exec run file names read D0].

Definition is_macro (d : defs) (x : string) (m : macro) : bool :=
  match m with
  | Macro (Some (ps, va)) b => macro_eqb (macros d x) ps va b
  | Macro None b => match macros d x with Some (Macro None c) => toks_eqb b c | _ => false end
  end.
Lemma is_macro_ok d x m : is_macro d x m = true -> macros d x = Some m.
Proof.
  destruct m as [[[ps va]|] b]; cbn [is_macro]; [apply macro_eqb_eq|]. destruct (macros d x) as [[[?|] c]|]; try discriminate.
  intros H. apply toks_eqb_eq in H. subst. reflexivity.
Qed.
Definition within (l : list string) (d : defs) : bool := forallb (fun p => mem_s (fst p) l) d.
Lemma within_none l d x : within l d = true -> mem_s x l = false -> lookup d x = None.
Proof.
  induction d as [|[y m] d IH]; [reflexivity|]. cbn [within forallb fst]. intros H N. apply andb_true_iff in H as [H1 H2]. cbn [lookup].
  destruct (String.eqb_spec x y) as [->|]; [congruence|]. apply IH; assumption.
Qed.

(** ** language.hpp *)
Definition l_names : list string := Eval vm_compute in names language_tools.
Definition unreachables : list (list tok) := [lex "_c4_msvc_unreachable()"; lex "__builtin_unreachable()"].
Definition static_bodies : list (list tok) := [lex "static_assert(cond)"; lex "static_assert((cond), #cond)"].
Definition l_end (c : list lit) (o : outcome) : bool :=
  match o with
  | Done d _ =>
      within l_names d && existsb (fun g => is_macro d "C4_UNLIKELY" (Macro (Some (["x"], false)) (unlikely_body g))) [false; true]
      && existsb (fun p => is_macro d "C4_PRETTY_FUNC" (Macro None [TId p])) pretties
      && existsb (fun b => is_macro d "C4_UNREACHABLE" (Macro (Some ([], false)) b)) unreachables
      && existsb (fun b => is_macro d "C4_STATIC_ASSERT" (Macro (Some (["cond"], false)) b)) static_bodies
  | _ => false
  end.
Definition l_fr := without (names language_tools) ["C4_ASSUME_ALLOW_EVAL"].
Lemma l_check : ends l_fr tools_ints (file language_tools) [] l_end = true.
Proof. vm_compute. reflexivity. Qed.
(** ** the checks *)
Definition D3 : defs := match run empty_world (file error_checks) with Done d _ => d | _ => [] end.
Definition c_end (c : list lit) (o : outcome) : bool := match o with Done d _ => defs_eqb d D3 | _ => false end.
Lemma chk_check : ends (names error_checks) [] (file error_checks) [] c_end = true.
Proof. vm_compute. reflexivity. Qed.
Lemma chk_leaves w d : new w error_checks [] -> leaves w error_checks d -> d = D3.
Proof.
  intros F (out & R). destruct (ends_ok _ _ _ _ _ chk_check w (new_fresh0 _ _ F) ltac:(intros x []) ltac:(constructor)) as (c & _ & P).
  rewrite R in P. cbn [c_end] in P. apply defs_eqb_eq, P.
Qed.
(** ** error.hpp *)
Definition e_names : list string := Eval vm_compute in names error_hpp.
Definition switched (p : expr -> bool) (d : defs) (q : string * macro * macro * string) : bool :=
  let '(x, m1, m2, cnd) := q in (is_macro d x m1 && p (read cnd)) || (is_macro d x m2 && p (ENot (read cnd))).
Definition fn_macro (ps : list string) (va : bool) (t : string) : macro := Macro (Some (ps, va)) (lex t).
Definition switches : list (string * macro * macro * string) := [
  ("C4_ASSERT", fn_macro ["cond"] false "C4_CHECK(cond)", fn_macro ["cond"] false "", "C4_USE_ASSERT");
  ("C4_ASSERT_MSG", fn_macro ["cond"] true "C4_CHECK_MSG(cond, ## __VA_ARGS__)", fn_macro ["cond"] true "", "C4_USE_ASSERT");
  ("C4_ASSERT_IF", fn_macro ["predicate"; "cond"] false "if(predicate) { C4_ASSERT(cond); }", fn_macro ["predicate"; "cond"] false "", "C4_USE_ASSERT");
  ("C4_XASSERT", fn_macro ["cond"] false "C4_CHECK(cond)", fn_macro ["cond"] false "", "C4_USE_XASSERT");
  ("C4_XASSERT_MSG", fn_macro ["cond"] true "C4_CHECK_MSG(cond, ## __VA_ARGS__)", fn_macro ["cond"] true "", "C4_USE_XASSERT");
  ("C4_XASSERT_IF", fn_macro ["predicate"; "cond"] false "if(predicate) { C4_XASSERT(cond); }", fn_macro ["predicate"; "cond"] false "", "C4_USE_XASSERT")].
Definition place_conds : list (string * list tok) := map (fun q => (fst q, skipn 2 (lex (snd q)))) error_places.
Definition f_end (c : list lit) (o : outcome) : bool :=
  match o with
  | Done d _ =>
      within e_names d && is_macro d "C4_ERROR" (Macro (Some (["msg"], true)) error_body)
      && existsb (fun b => is_macro d "C4_DEBUG_BREAK" (Macro (Some ([], false)) b)) breaks
      && existsb (fun q => is_macro d "C4_SRCLOC" (Macro (Some ([], false)) (snd q)) && e_proves c d (read (fst q))) place_conds
      && forallb (switched (e_proves c d) d) switches
      && is_macro d "C4_ASSERT_SAME_TYPE" (fn_macro ["ty1"; "ty2"] false "C4_STATIC_ASSERT(std::is_same<ty1 C4_COMMA_X ty2>::value)")
      && is_macro d "C4_ASSERT_DIFF_TYPE" (fn_macro ["ty1"; "ty2"] false "C4_STATIC_ASSERT( ! std::is_same<ty1 C4_COMMA_X ty2>::value)")
  | Error _ => true
  | _ => false
  end.
Lemma f_check : ends e_fr error_ints (file error_hpp) e_init f_end = true.
Proof. vm_compute. reflexivity. Qed.

(** ** All of them together *)
Definition switched_in (w : world) (d : defs) (T : table) (q : string * macro * macro * string) : Prop :=
  let '(x, m1, m2, cnd) := q in (T x = Some m1 /\ taken w d cnd) \/ (T x = Some m2 /\ skipped w d cnd).
Record has_all (w : world) (s : setting) (brk place0 : list tok) (pretty : string) (gcc : bool) : Prop := HasAll {
  a_has : has (macros (all_defs s)) brk place0 pretty gcc;
  a_place : exists c, In (c, place0) place_conds /\ taken w (s_err s) c;
  a_switch : forall q, In q switches -> switched_in w (s_err s) (macros (all_defs s)) q;
  a_unreachable : exists b, In b unreachables /\ macros (all_defs s) "C4_UNREACHABLE" = Some (Macro (Some ([], false)) b);
  a_static : exists b, In b static_bodies /\ macros (all_defs s) "C4_STATIC_ASSERT" = Some (Macro (Some (["cond"], false)) b);
  a_same : macros (all_defs s) "C4_ASSERT_SAME_TYPE" = Some (fn_macro ["ty1"; "ty2"] false "C4_STATIC_ASSERT(std::is_same<ty1 C4_COMMA_X ty2>::value)");
  a_diff : macros (all_defs s) "C4_ASSERT_DIFF_TYPE" = Some (fn_macro ["ty1"; "ty2"] false "C4_STATIC_ASSERT( ! std::is_same<ty1 C4_COMMA_X ty2>::value)");
  a_comma : macros (all_defs s) "C4_COMMA" = Some (Macro None [TOp ","]);
  a_pre : s_pre s = D0;
  a_chk : s_chk s = D3;
  a_chks : forall x m, macros D3 x = Some m -> lookup D0 x = None -> mem_s x l_names = false -> mem_s x e_names = false -> macros (all_defs s) x = Some m }.
Lemma macros_app2 d e x : lookup d x = None -> macros (d ++ e) x = macros e x.
Proof. intros N. unfold macros. rewrite (lookup_app2 _ _ _ N). reflexivity. Qed.
Definition nowhere (x : string) : bool := match lookup D0 x with None => true | _ => false end && negb (mem_s x l_names) && negb (mem_s x e_names).
Lemma nowhere_safe : forallb (fun x => nowhere x && match lookup D3 x with None => true | _ => false end) safe = true.
Proof. vm_compute. reflexivity. Qed.
Lemma setting_has w s : set_in w s -> exists brk place0 pretty gcc, has_all w s brk place0 pretty gcc.
Proof.
  intros (N1 & N2 & I2 & N3 & I3 & X & N4 & L1 & L2 & L3 & L4). destruct s as [p l f c]; cbn [s_pre s_lang s_err s_chk] in *.
  assert (p = D0) by (eapply pre_leaves; eassumption). assert (c = D3) by (eapply chk_leaves; eassumption). subst p c.
  destruct L2 as (o2 & R2). destruct L3 as (o3 & R3).
  assert (F2 : fresh w l_fr) by (apply new_fresh, N2).
  destruct (ends_ok _ _ _ _ _ l_check w F2 I2 ltac:(constructor)) as (c2 & _ & P2). rewrite R2 in P2. cbn [l_end] in P2.
  assert (F3 : fresh w e_fr) by (apply new_fresh, N3).
  assert (H3 : holds_all w e_init) by (apply Forall_cons; [exists 0; cbn [fst D eval]; rewrite X; auto|apply Forall_nil]).
  destruct (ends_ok _ _ _ _ _ f_check w F3 I3 H3) as (c3 & Hc & P3). rewrite R3 in P3. cbn [f_end] in P3.
  assert (Pk : forall e, e_proves c3 f e = true -> true_in w f e) by (intros e Q; exact (proves_ok w _ _ c3 f e F3 I3 Hc Q)).
  apply andb_true_iff in P2 as [P2 P2e]. apply andb_true_iff in P2 as [P2 P2d]. apply andb_true_iff in P2 as [P2 P2c]. apply andb_true_iff in P2 as [P2a P2b].
  apply andb_true_iff in P3 as [P3 P3g]. apply andb_true_iff in P3 as [P3 P3f]. apply andb_true_iff in P3 as [P3 P3e]. apply andb_true_iff in P3 as [P3 P3d].
  apply andb_true_iff in P3 as [P3 P3c]. apply andb_true_iff in P3 as [P3a P3b].
  apply existsb_exists in P2b as (gcc & _ & Hu). apply existsb_exists in P2c as (pretty & Ip & Hp). apply existsb_exists in P2d as (ur & Iu & Hur). apply existsb_exists in P2e as (sb & Is & Hs).
  apply existsb_exists in P3c as (brk & Ib & Hb). apply existsb_exists in P3d as ([pc place0] & Iq & Hq). cbn [fst snd] in Hq. apply andb_true_iff in Hq as [Hq1 Hq2].
  set (s := Setting D0 l f D3). assert (E : all_defs s = D0 ++ l ++ f ++ D3) by reflexivity.
  assert (Al : forall x m, is_macro l x m = true -> lookup D0 x = None -> macros (all_defs s) x = Some m).
  { intros x m M L. rewrite E, macros_app2 by exact L. apply macros_app, is_macro_ok, M. }
  assert (Af : forall x m, is_macro f x m = true -> lookup D0 x = None -> mem_s x l_names = false -> macros (all_defs s) x = Some m).
  { intros x m M L N. rewrite E, macros_app2 by exact L. rewrite macros_app2 by (eapply within_none; eassumption). apply macros_app, is_macro_ok, M. }
  assert (Ac : forall x m, macros D3 x = Some m -> lookup D0 x = None -> mem_s x l_names = false -> mem_s x e_names = false -> macros (all_defs s) x = Some m).
  { intros x m M L N N'. rewrite E, macros_app2 by exact L. rewrite macros_app2 by (eapply within_none; eassumption). rewrite macros_app2 by (eapply within_none; eassumption). exact M. }
  exists brk, place0, pretty, gcc. constructor; [constructor|..].
  - intros x J. assert (Q := nowhere_safe). rewrite forallb_forall in Q. specialize (Q _ J). apply andb_true_iff in Q as [Q Q4]. unfold nowhere in Q.
    apply andb_true_iff in Q as [Q Q3]. apply andb_true_iff in Q as [Q1 Q2]. apply negb_true_iff in Q2, Q3.
    destruct (lookup D0 x) eqn:E0; [discriminate|]. destruct (lookup D3 x) eqn:E3; [discriminate|].
    rewrite E, macros_app2 by exact E0. rewrite macros_app2 by (eapply within_none; eassumption). rewrite macros_app2 by (eapply within_none; eassumption). unfold macros. rewrite E3. reflexivity.
  - apply Af; [exact P3b|vm_compute; reflexivity..].
  - apply Af; [exact Hb|vm_compute; reflexivity..].
  - exact Ib.
  - apply Af; [exact Hq1|vm_compute; reflexivity..].
  - clear -Iq. cbn [place_conds map error_places fst snd] in Iq. destruct Iq as [Q|[Q|[Q|[]]]]; injection Q as _ <-; vm_compute; tauto.
  - apply Al; [exact Hp|vm_compute; reflexivity].
  - exact Ip.
  - apply Al; [exact Hu|vm_compute; reflexivity].
  - apply Ac; vm_compute; reflexivity.
  - apply Ac; vm_compute; reflexivity.
  - exists pc. split; [exact Iq|]. apply Pk, Hq2.
  - intros [[[x m1] m2] cnd] J. rewrite forallb_forall in P3e. specialize (P3e _ J). cbn [switched] in P3e.
    assert (Q : lookup D0 x = None /\ mem_s x l_names = false).
    { clear -J. cbn [switches In] in J. decompose [or] J; try match goal with H : _ = _ |- _ => injection H as <- _ _ _; split; vm_compute; reflexivity end. contradiction. }
    destruct Q as [Q1 Q2]. cbn [switched_in]. apply orb_true_iff in P3e as [P|P]; apply andb_true_iff in P as [P1 P2]; [left|right].
    + split; [apply Af; assumption|apply Pk, P2].
    + split; [apply Af; assumption|apply true_not, Pk, P2].
  - exists ur. split; [exact Iu|]. apply Al; [exact Hur|vm_compute; reflexivity].
  - exists sb. split; [exact Is|]. apply Al; [exact Hs|vm_compute; reflexivity].
  - apply Af; [exact P3f|vm_compute; reflexivity..].
  - apply Af; [exact P3g|vm_compute; reflexivity..].
  - rewrite E. apply macros_app. vm_compute. reflexivity.
  - reflexivity.
  - reflexivity.
  - exact Ac.
Qed.
