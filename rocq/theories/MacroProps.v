(** C132: the macros for repetition, checks, assertions and errors.
    Each theorem is stated with MacroSpec.v and MacroSpec2.v. *)
From Verif Require Import Base PpModel PpSpec PpText MacroText MacroModel MacroSpec MacroSpec2 MacroProofs MacroProofs2 MacroProofs3 MacroProofs4 MacroProofs5 MacroProofs6 MacroProofs7 MacroProofs8.
From Coq Require Import String Ascii.
Open Scope string_scope.
Open Scope list_scope.
Open Scope Z_scope.
Local Strategy opaque [D0 D3].

Lemma quoted_says c : Forall no_backslash c -> exists q, says q c /\ fmt_args "check failed: %s" c = failed q /\ forall fmt args, msg_args c fmt args = failed_msg q fmt args.
Proof. intros B. exists (text_of c). split; [apply text_unescaped, B|]. unfold fmt_args, msg_args. rewrite quoted_is. split; reflexivity. Qed.

(** ** C132: macros that are replaced in text *)
(** C4_FOR_EACH and C4_FOR_EACH_SEP, up to 32 arguments: what is done, in order, the separator behind each *)
Theorem C132_for_each : forall w dp e what xs, new w preprocessor_hpp [] -> leaves w preprocessor_hpp dp -> (1 <= List.length xs <= 32)%nat ->
  Forall one_arg (what :: xs) -> Forall (own (dp ++ e)) (what :: xs) ->
  becomes (dp ++ e) (call "C4_FOR_EACH" (what :: xs)) (List.concat (map (each what [TOp ";"]) xs)).
Proof. exact for_each_ok. Qed.
Print Assumptions C132_for_each.
Theorem C132_for_each_sep : forall w dp e what sep xs, new w preprocessor_hpp [] -> leaves w preprocessor_hpp dp -> (1 <= List.length xs <= 32)%nat ->
  Forall one_arg (what :: sep :: xs) -> Forall (own (dp ++ e)) (what :: sep :: xs) ->
  becomes (dp ++ e) (call "C4_FOR_EACH_SEP" (what :: sep :: xs)) (List.concat (map (each what sep) xs)).
Proof. exact for_each_sep_ok. Qed.
Print Assumptions C132_for_each_sep.
(** "a custom separator between statements": it is behind the last one, too *)
Theorem C132_between_refuted : forall w dp e what sep xs, new w preprocessor_hpp [] -> leaves w preprocessor_hpp dp -> (1 <= List.length xs <= 32)%nat -> sep <> [] ->
  Forall one_arg (what :: sep :: xs) -> Forall (own (dp ++ e)) (what :: sep :: xs) ->
  exists r, becomes (dp ++ e) (call "C4_FOR_EACH_SEP" (what :: sep :: xs)) r /\ r <> between what sep xs.
Proof.
  intros w dp e what sep xs N L Ln Ns O W. exists (List.concat (map (each what sep) xs)). split; [eapply for_each_sep_ok; eassumption|].
  apply more_than_between; [intros ->; cbn in Ln; lia|exact Ns].
Qed.
Print Assumptions C132_between_refuted.
(** "[C4_COMMA is] useful to force commas inside arguments to macros": not here *)
Theorem C132_comma_refuted : forall w dp e what xs, new w preprocessor_hpp [] -> leaves w preprocessor_hpp dp -> (1 <= List.length xs <= 32)%nat ->
  Forall one_arg (what :: xs) -> Forall (own (dp ++ e)) (what :: xs) -> ill_formed (dp ++ e) (call "C4_FOR_EACH_SEP" (what :: [TId "C4_COMMA"] :: xs)).
Proof. exact for_each_comma. Qed.
Print Assumptions C132_comma_refuted.
(** C4_ERROR is one statement that handles an error with its arguments *)
Theorem C132_error : forall w s, set_in w s -> forall msg args, Forall (argument (all_defs s)) (msg :: args) -> nonempty args ->
  raising w s (call "C4_ERROR" (msg :: args)) (with_commas (msg :: args)).
Proof. intros w s S msg args. destruct (setting_has w s S) as (b & p & y & g & A). exact (error_top w s b p y g A msg args). Qed.
Print Assumptions C132_error.
(** C4_CHECK is one statement: the condition is evaluated once, an error shows it *)
Theorem C132_check : forall w s, set_in w s -> forall cond, argument (all_defs s) cond -> Forall no_backslash cond ->
  exists q, says q cond /\ checking w s (call "C4_CHECK" [cond]) cond (failed q).
Proof.
  intros w s S c G B. destruct (setting_has w s S) as (b & p & y & g & A). destruct (quoted_says c B) as (q & U & E & _). exists q. split; [exact U|]. rewrite <- E. exact (check_top w s b p y g A c G).
Qed.
Print Assumptions C132_check.
Theorem C132_check_msg : forall w s, set_in w s -> forall cond fmt args, Forall (argument (all_defs s)) (cond :: fmt :: args) -> nonempty args -> Forall no_backslash cond ->
  exists q, says q cond /\ checking w s (call "C4_CHECK_MSG" (cond :: fmt :: args)) cond (failed_msg q fmt args).
Proof.
  intros w s S c fmt args G N B. destruct (setting_has w s S) as (b & p & y & g & A). destruct (quoted_says c B) as (q & U & _ & E). exists q. split; [exact U|]. rewrite <- E. exact (check_msg_top w s b p y g A c fmt args G N).
Qed.
Print Assumptions C132_check_msg.
(** the condition becomes part of the format: each per cent sign in it is one more in the format *)
Theorem C132_format_refuted : forall w s, set_in w s -> forall cond fmt args, Forall (argument (all_defs s)) (cond :: [TStr fmt] :: args) -> nonempty args -> Forall no_backslash cond ->
  exists q lit rest, says q cond /\ checking w s (call "C4_CHECK_MSG" (cond :: [TStr fmt] :: args)) cond (failed_msg q [TStr fmt] args)
    /\ literal (failed_msg q [TStr fmt] args) = (lit, rest) /\ percents lit = (percents (spelling cond) + percents fmt)%nat.
Proof.
  intros w s S c fmt args G N B. destruct (setting_has w s S) as (b & p & y & g & A). destruct (quoted_says c B) as (q & U & _ & E).
  destruct (format_percents c fmt args) as (lit & rest & L & P); [destruct args as [|[|]]; try exact Logic.I; inversion N; congruence|].
  exists q, lit, rest. split; [exact U|]. rewrite <- E. split; [|split; [exact L|exact P]]. exact (check_msg_top w s b p y g A c [TStr fmt] args G N).
Qed.
Print Assumptions C132_format_refuted.
(** an assertion is the check if it is wanted, and nothing if it is not *)
Theorem C132_assert : forall w s, set_in w s -> forall x wanted cond, In (x, wanted) asserts -> argument (all_defs s) cond -> Forall no_backslash cond ->
  (taken w (s_err s) wanted /\ exists q, says q cond /\ checking w s (call x [cond]) cond (failed q))
  \/ (skipped w (s_err s) wanted /\ becomes (all_defs s) (call x [cond]) []).
Proof.
  intros w s S x cnd c I G B. destruct (setting_has w s S) as (b & p & y & g & A). destruct (quoted_says c B) as (q & U & E & _).
  destruct (assert_top w s b p y g A x c cnd I G) as [[Tk C]|C]; [left|right; exact C]. split; [exact Tk|]. exists q. split; [exact U|]. rewrite <- E. exact C.
Qed.
Print Assumptions C132_assert.
Theorem C132_assert_msg : forall w s, set_in w s -> forall x wanted cond fmt args, In (x, wanted) asserts -> Forall (argument (all_defs s)) (cond :: fmt :: args) -> nonempty (fmt :: args) -> Forall no_backslash cond ->
  (taken w (s_err s) wanted /\ exists q, says q cond /\ checking w s (call (x ++ "_MSG") (cond :: fmt :: args)) cond (failed_msg q fmt args))
  \/ (skipped w (s_err s) wanted /\ becomes (all_defs s) (call (x ++ "_MSG") (cond :: fmt :: args)) []).
Proof.
  intros w s S x cnd c fmt args I G N B. destruct (setting_has w s S) as (b & p & y & g & A). destruct (quoted_says c B) as (q & U & _ & E).
  destruct (assert_msg_top w s b p y g A x c fmt args cnd I G N) as [[Tk C]|C]; [left|right; exact C]. split; [exact Tk|]. exists q. split; [exact U|]. rewrite <- E. exact C.
Qed.
Print Assumptions C132_assert_msg.
(** what is accepted depends on whether assertions are wanted: without a message; with a comma *)
Theorem C132_assert_no_msg_refuted : forall w s, set_in w s -> forall x wanted cond, In (x, wanted) asserts -> argument (all_defs s) cond ->
  (taken w (s_err s) wanted /\ ill_formed (all_defs s) (call (x ++ "_MSG") [cond])) \/ (skipped w (s_err s) wanted /\ becomes (all_defs s) (call (x ++ "_MSG") [cond]) []).
Proof. intros w s S x cnd c. destruct (setting_has w s S) as (b & p & y & g & A). exact (assert_no_msg w s b p y g A x c cnd). Qed.
Print Assumptions C132_assert_no_msg_refuted.
Theorem C132_assert_comma_refuted : forall w s, set_in w s -> forall x wanted a b, In (x, wanted) asserts -> own (all_defs s) a -> own (all_defs s) b -> one_arg a -> one_arg b ->
  (taken w (s_err s) wanted /\ ill_formed (all_defs s) (call x [a ++ TId "C4_COMMA" :: b])) \/ (skipped w (s_err s) wanted /\ becomes (all_defs s) (call x [a ++ TId "C4_COMMA" :: b]) []).
Proof. intros w s S x cnd a c. destruct (setting_has w s S) as (b & p & y & g & A). exact (assert_comma w s b p y g A x a c cnd). Qed.
Print Assumptions C132_assert_comma_refuted.
Theorem C132_check_comma_refuted : forall w s, set_in w s -> forall a b, one_arg a -> one_arg b -> ill_formed (all_defs s) (call "C4_CHECK" [a; b]).
Proof. intros w s S a c. destruct (setting_has w s S) as (b & p & y & g & A). exact (check_comma w s b p y g A a c). Qed.
Print Assumptions C132_check_comma_refuted.
(** C4_ASSERT_IF and C4_XASSERT_IF, where assertions are wanted: with its semicolon it is no statement, but two *)
Theorem C132_assert_if_refuted : forall w s, set_in w s -> forall x wanted p cond, In (x, wanted) asserts -> argument (all_defs s) p -> argument (all_defs s) cond ->
  (taken w (s_err s) wanted /\ exists r, becomes (all_defs s) (call (x ++ "_IF") [p; cond]) r /\ ~ exists st, single r st)
  \/ (skipped w (s_err s) wanted /\ becomes (all_defs s) (call (x ++ "_IF") [p; cond]) []).
Proof.
  intros w s S x cnd p c I P C. destruct (setting_has w s S) as (b & p0 & y & g & A).
  destruct (assert_if_top w s b p0 y g A x p c cnd I P C) as [[Tk (st & pl & _ & _ & r & R & Q)]|D]; [left|right; exact D].
  split; [exact Tk|]. exists r. split; [exact R|]. exact (if_not_single r p (SBlock [st]) (TOp ";") Q eq_refl).
Qed.
Print Assumptions C132_assert_if_refuted.
Theorem C132_not_implemented : forall w s, set_in w s -> raising w s (call "C4_NOT_IMPLEMENTED" []) [TStr "NOT IMPLEMENTED"].
Proof. intros w s S. destruct (setting_has w s S) as (b & p & y & g & A). exact (not_implemented_top w s b p y g A). Qed.
Print Assumptions C132_not_implemented.
Theorem C132_not_implemented_if : forall w s, set_in w s -> forall cond, argument (all_defs s) cond -> guarding w s (call "C4_NOT_IMPLEMENTED_IF" [cond]) cond [TStr "NOT IMPLEMENTED"].
Proof. intros w s S. destruct (setting_has w s S) as (b & p & y & g & A). exact (not_implemented_if_top w s b p y g A). Qed.
Print Assumptions C132_not_implemented_if.
Theorem C132_never_reach : forall w s, set_in w s -> raising w s (call "C4_NEVER_REACH" []) [TStr "never reach this point"].
Proof. intros w s S. destruct (setting_has w s S) as (b & p & y & g & A). exact (never_reach_top w s b p y g A). Qed.
Print Assumptions C132_never_reach.
Theorem C132_same_type : forall w s, set_in w s -> forall a b, own (all_defs s) a -> own (all_defs s) b -> one_arg a -> one_arg b ->
  exists r, becomes (all_defs s) (call "C4_ASSERT_SAME_TYPE" [a; b]) r /\
    let c := lex "std::is_same<" ++ a ++ TOp "," :: b ++ lex ">::value" in
    r = lex "static_assert(" ++ c ++ lex ")" \/ exists q, r = lex "static_assert((" ++ c ++ lex ")," ++ [TStr q] ++ lex ")".
Proof. intros w s S. destruct (setting_has w s S) as (b & p & y & g & A). exact (same_type_top w s b p y g A). Qed.
Print Assumptions C132_same_type.

(** *** Examples *)
Definition ran (w : world) (t : string) : defs := match run w (file t) with Done d _ => d | _ => [] end.
Definition setting_of (w : world) : setting := Setting (ran w preprocessor_hpp) (ran w language_tools) (ran w error_hpp) (ran w error_checks).
Definition release : world := world_of [("NDEBUG", PEmpty)].
Definition text_in (d : defs) (t : string) : xr (list tok) := expand_text 400 (macros d) (lex t).
(** the example of the documentation, with the macros that it defines *)
Definition documented : string := "#define PRN_STRUCT_OFFSETS(field) PRN_STRUCT_OFFSETS_(Example, field)
#define PRN_STRUCT_OFFSETS_(structure, field) printf(C4_XQUOTE(structure) "":"" C4_XQUOTE(field)"" - offset=%zu\n"", offsetof(structure, field));".
Example C132_ex1 : text_in (ran empty_world preprocessor_hpp ++ ran empty_world documented) "C4_FOR_EACH(PRN_STRUCT_OFFSETS, a, b);" =
  Val (lex "printf(""Example"" "":"" ""a"" "" - offset=%zu\n"", offsetof(Example, a));; printf(""Example"" "":"" ""b"" "" - offset=%zu\n"", offsetof(Example, b));;;").
Proof. vm_compute. reflexivity. Qed.
Example C132_ex2 : text_in (ran empty_world preprocessor_hpp) "C4_FOR_EACH_SEP(f, +, a, b, (c, d))" = Val (lex "f(a) + f(b) + f((c, d)) +").
Proof. vm_compute. reflexivity. Qed.
(** names and literals; 33 arguments are one too many: what is left calls a macro that does not exist *)
Example C132_ex3 : text_in (ran empty_world preprocessor_hpp) "C4_CAT(foo, bar) C4_QUOTE(foo bar) C4_XQUOTE(C4_CAT(a,b)) C4_QUOTE(C4_CAT(a,b))" = Val (lex "foobar ""foobar"" ""ab"" ""C4_CAT(a,b)""")
  /\ text_in (ran empty_world preprocessor_hpp) "C4_FOR_EACH(f, x0, x1, x2, x3, x4, x5, x6, x7, x8, x9, x10, x11, x12, x13, x14, x15, x16, x17, x18, x19, x20, x21, x22, x23, x24, x25, x26, x27, x28, x29, x30, x31, x32)" = Val (lex "_C4_FOR_EACH_x32(f, ;, x0, x1, x2, x3, x4, x5, x6, x7, x8, x9, x10, x11, x12, x13, x14, x15, x16, x17, x18, x19, x20, x21, x22, x23, x24, x25, x26, x27, x28, x29, x30, x31, x32)").
Proof. vm_compute. split; reflexivity. Qed.
(** the premises are met, with assertions and without *)
Definition new_b (w : world) (t : string) (client : list string) : bool := forallb (fun x => existsb (String.eqb x) client || match base w x with None => true | _ => false end) (defined_names (file t)).
Definition ints_b (w : world) (l : list string) : bool := forallb (fun x => match base w x with Some PEmpty => false | _ => true end) l.
Definition done_b (w : world) (t : string) : bool := match run w (file t) with Done _ _ => true | _ => false end.
Lemma new_b_ok w t c : new_b w t c = true -> new w t c.
Proof.
  unfold new_b. rewrite forallb_forall. intros H x I N. specialize (H x I). destruct (base w x); [|reflexivity]. rewrite orb_false_r in H. apply existsb_exists in H as (y & J & E).
  apply String.eqb_eq in E. subst. contradiction.
Qed.
Lemma ints_b_ok w l : ints_b w l = true -> integers w l.
Proof. unfold ints_b. rewrite forallb_forall. intros H x I E. specialize (H x I). rewrite E in H. discriminate. Qed.
Lemma done_b_ok w t : done_b w t = true -> leaves w t (ran w t).
Proof. unfold done_b, leaves, ran. destruct (run w (file t)); try discriminate. intros _. eexists. reflexivity. Qed.
Lemma set_b_ok w : new_b w preprocessor_hpp [] = true -> new_b w language_tools ["C4_ASSUME_ALLOW_EVAL"] = true -> ints_b w tools_ints = true ->
  new_b w error_hpp error_client = true -> ints_b w error_ints = true -> base w "_DOXYGEN_" = None -> new_b w error_checks [] = true ->
  done_b w preprocessor_hpp = true -> done_b w language_tools = true -> done_b w error_hpp = true -> done_b w error_checks = true -> set_in w (setting_of w).
Proof.
  intros A B C D E X F G1 G2 G3 G4.
  exact (conj (new_b_ok _ _ _ A) (conj (new_b_ok _ _ _ B) (conj (ints_b_ok _ _ C) (conj (new_b_ok _ _ _ D) (conj (ints_b_ok _ _ E) (conj X (conj (new_b_ok _ _ _ F)
    (conj (done_b_ok _ _ G1) (conj (done_b_ok _ _ G2) (conj (done_b_ok _ _ G3) (done_b_ok _ _ G4))))))))))).
Qed.
Example C132_ex4 : set_in empty_world (setting_of empty_world) /\ set_in release (setting_of release)
  /\ taken empty_world (s_err (setting_of empty_world)) "C4_USE_ASSERT" /\ skipped release (s_err (setting_of release)) "C4_USE_ASSERT".
Proof. split; [apply set_b_ok; vm_compute; reflexivity|]. split; [apply set_b_ok; vm_compute; reflexivity|]. split; [exists 1; split; [vm_compute; reflexivity|discriminate]|vm_compute; reflexivity]. Qed.
Example C132_ex5 : text_in (all_defs (setting_of release)) "C4_ASSERT(a % b == 0)" = Val [] /\ text_in (all_defs (setting_of empty_world)) "C4_CHECK_MSG(a % b == 0, ""at %d"", i)" =
  Val (lex "do { if(__builtin_expect(!(a % b == 0), 0)) { do { if(c4::get_error_flags() & c4::ON_ERROR_DEBUGBREAK) { if(c4::is_debugger_attached()) { ::debug_break(); } } c4::handle_error(c4::srcloc(), ""check failed: "" ""a%b==0"" ""\n"" ""at %d"", i); } while(0); } } while(0)").
Proof. vm_compute. split; reflexivity. Qed.
(** a check between if and else; an assertion with a premise there is no statement *)
Example C132_ex6 : (exists st, statement 60 (lex "if(x) f(); else do { if(__builtin_expect(!(a), 0)) { g(); } } while(0); h();") = Some (st, lex "h();"))
  /\ statement 60 (lex "if(x) if(p) { g(); }; else h();") = Some (SIf (lex "x") (SIf (lex "p") (SBlock [SExpr (lex "g()")]) None) None, lex "; else h();").
Proof. vm_compute. split; [eexists|]; reflexivity. Qed.
