(** The macros of error.hpp, in a table that has them. *)
From Verif Require Import Base PpModel PpSpec PpText MacroText MacroModel MacroSpec MacroProofs MacroProofs2.
From Coq Require Import String Ascii.
Open Scope string_scope.
Open Scope list_scope.
Open Scope Z_scope.

(** ** Texts that become tokens whatever follows *)
Definition yields (T : table) (l : list htok) (ts : list tok) : Prop :=
  exists out, toks out = ts /\ forall r v, gives T r v -> gives T (l ++ r) (xbind v (fun q => Val (out ++ q))).
Lemma yields_app T a b ta tb : yields T a ta -> yields T b tb -> yields T (a ++ b) (ta ++ tb).
Proof.
  intros (oa & <- & Ga) (ob & <- & Gb). exists (oa ++ ob). split; [apply toks_app|]. intros r v G. rewrite <- app_assoc.
  assert (Q := Ga _ _ (Gb _ _ G)). destruct v; cbn [xbind] in *; rewrite <- ?app_assoc; exact Q.
Qed.
Lemma yields_inert T a : inert T a -> yields T a (toks a).
Proof. intros I. exists a. split; [reflexivity|]. intros r v G. apply gives_inert; assumption. Qed.
Lemma yields_call T x h h1 h2 ps va b args l ba es cells ts : mem_s x h = false -> T x = Some (Macro (Some (ps, va)) b) -> listed args l -> Forall arg_ok args ->
  bind ps va args = Some ba -> Forall2 (fun q e => gives T (snd q) (Val e)) ba es -> subst true (zip_env ba es) false b = Val cells ->
  yields T (hide (x :: inter h h2) (List.concat cells)) ts -> yields T ((TId x, h) :: (TOp "(", h1) :: l ++ [(TOp ")", h2)]) ts.
Proof.
  intros M E L F B A S (out & To & G). exists out. split; [exact To|]. intros r v R. cbn [app]. rewrite <- app_assoc. cbn [app].
  eapply gives_call; [exact M|exact E|apply collect_listed; eassumption|exact B|exact A|exact S|apply G, R].
Qed.
Lemma yields_obj T x h b cells ts : mem_s x h = false -> T x = Some (Macro None b) -> subst false [] false b = Val cells ->
  yields T (hide (x :: h) (List.concat cells)) ts -> yields T [(TId x, h)] ts.
Proof. intros M E S (out & To & G). exists out. split; [exact To|]. intros r v R. cbn [app]. eapply gives_obj; [exact M|exact E|exact S|apply G, R]. Qed.
Lemma yields_becomes d l ts : yields (macros d) (plain_toks l) ts -> becomes d l ts.
Proof.
  intros (out & <- & G). specialize (G [] _ (gives_nil _)). cbn [xbind] in G. rewrite !app_nil_r in G. destruct G as [_ (n & E)].
  exists n. unfold expand_text. rewrite E. reflexivity.
Qed.
Lemma gives_ill d l : gives (macros d) (plain_toks l) Ill -> ill_formed d l.
Proof. intros [_ (n & E)]. exists n. unfold expand_text. rewrite E. reflexivity. Qed.
(** tokens with names from a list *)
Definition safe_b (safe : list string) (l : list tok) : bool := forallb (fun t => match t with TId x => mem_s x safe | _ => true end) l.
Lemma inert_safe T safe h l : (forall x, In x safe -> T x = None) -> safe_b safe l = true -> inert T (with_h h l).
Proof.
  intros S B x k I. apply in_map_iff in I as (t & E & I). injection E as -> _. unfold safe_b in B. rewrite forallb_forall in B. specialize (B _ I). cbn in B.
  unfold mem_s in B. apply existsb_exists in B as (y & J & Q). apply String.eqb_eq in Q. subst y. apply S, J.
Qed.
Lemma yields_safe T safe h l : (forall x, In x safe -> T x = None) -> safe_b safe l = true -> yields T (with_h h l) l.
Proof. intros S B. rewrite <- (toks_with h l) at 2. apply yields_inert. eapply inert_safe; eassumption. Qed.

(** ** The replacements *)
Definition flags_toks : list tok := lex "c4::get_error_flags() & c4::ON_ERROR_DEBUGBREAK".
Definition error_text (brk place args : list tok) : list tok :=
  lex "do { if(" ++ flags_toks ++ lex ") {" ++ brk ++ lex "}" ++ error_call place args ++ lex "; } while(0)".
Definition check_text (test inner : list tok) : list tok := lex "do { if(" ++ test ++ lex ") {" ++ inner ++ lex "; } } while(0)".
Definition breaks : list (list tok) := [[]; lex "if(c4::is_debugger_attached()) { ::debug_break(); }"].
Definition srclocs : list (list tok) := [lex "c4::srcloc{__FILE__, C4_PRETTY_FUNC, __LINE__}"; lex "c4::srcloc{__FILE__, __LINE__}"; lex "c4::srcloc()"].
Definition pretties : list string := ["__FUNCSIG__"; "__PRETTY_FUNCTION__"].
Definition places (pretty : string) : list (list tok) := [lex ("c4::srcloc{__FILE__, " ++ pretty ++ ", __LINE__}")%string; lex "c4::srcloc{__FILE__, __LINE__}"; lex "c4::srcloc()"].
Definition error_body : list tok := lex "do { if(c4::get_error_flags() & c4::ON_ERROR_DEBUGBREAK) { C4_DEBUG_BREAK() } c4::handle_error(C4_SRCLOC(), msg, ## __VA_ARGS__); } while(0)".
Definition check_body : list tok := lex "do { if(C4_UNLIKELY(!(cond))) { C4_ERROR(""check failed: %s"", #cond); } } while(0)".
Definition check_msg_body : list tok := lex "do { if(C4_UNLIKELY(!(cond))) { C4_ERROR(""check failed: "" #cond ""\n"" fmt, ## __VA_ARGS__); } } while(0)".
Definition test_of (gcc : bool) (a : list tok) : list tok := if gcc then TId "__builtin_expect" :: TOp "(" :: a ++ [TOp ","; TNum "0"; TOp ")"] else a.
Definition unlikely_body (gcc : bool) : list tok := test_of gcc [TId "x"].
Definition safe : list string := ["do"; "if"; "while"; "c4"; "get_error_flags"; "ON_ERROR_DEBUGBREAK"; "handle_error"; "handle_warning"; "is_debugger_attached"; "debug_break"; "srcloc"; "__FILE__"; "__LINE__"; "__FUNCSIG__"; "__PRETTY_FUNCTION__"; "__builtin_expect"; "__builtin_unreachable"; "_c4_msvc_unreachable"; "static_assert"; "std"; "is_same"; "value"].
Record has (T : table) (brk place0 : list tok) (pretty : string) (gcc : bool) : Prop := Has {
  h_safe : forall x, In x safe -> T x = None;
  h_error : T "C4_ERROR" = Some (Macro (Some (["msg"], true)) error_body);
  h_break : T "C4_DEBUG_BREAK" = Some (Macro (Some ([], false)) brk);
  h_brk : In brk breaks;
  h_srcloc : T "C4_SRCLOC" = Some (Macro (Some ([], false)) place0);
  h_place0 : In place0 srclocs;
  h_pretty : T "C4_PRETTY_FUNC" = Some (Macro None [TId pretty]);
  h_prettyn : In pretty pretties;
  h_unlikely : T "C4_UNLIKELY" = Some (Macro (Some (["x"], false)) (unlikely_body gcc));
  h_check : T "C4_CHECK" = Some (Macro (Some (["cond"], false)) check_body);
  h_check_msg : T "C4_CHECK_MSG" = Some (Macro (Some (["cond"; "fmt"], true)) check_msg_body) }.
Definition place_of (place0 : list tok) (pretty : string) : list tok :=
  map (fun t => match t with TId x => if String.eqb x "C4_PRETTY_FUNC" then TId pretty else t | _ => t end) place0.

Ltac free := repeat first [reflexivity | assumption | apply mem_inter | apply mem_cons; [reflexivity|] | apply mem_app].
Lemma concat_single (l : list tok) : List.concat (map (fun t => [(t, [] : list string)]) l) = with_h [] l.
Proof. induction l as [|t l IH]; [reflexivity|]. cbn [map List.concat app with_h]. rewrite IH. reflexivity. Qed.
Lemma srcloc_h H : with_h H (lex "c4::srcloc{__FILE__, C4_PRETTY_FUNC, __LINE__}") = with_h H (lex "c4::srcloc{__FILE__,") ++ [(TId "C4_PRETTY_FUNC", H)] ++ with_h H (lex ", __LINE__}").
Proof. vm_compute. reflexivity. Qed.
Lemma srcloc_p pretty : place_of (lex "c4::srcloc{__FILE__, C4_PRETTY_FUNC, __LINE__}") pretty = lex "c4::srcloc{__FILE__," ++ [TId pretty] ++ lex ", __LINE__}".
Proof. vm_compute. reflexivity. Qed.
Section With.
Variables (T : table) (brk place0 : list tok) (pretty : string) (gcc : bool).
Hypothesis HT : has T brk place0 pretty gcc.
Lemma y_safe h l : safe_b safe l = true -> yields T (with_h h l) l.
Proof. apply yields_safe, (h_safe _ _ _ _ _ HT). Qed.
Lemma y_break h h1 h2 : mem_s "C4_DEBUG_BREAK" h = false -> yields T [(TId "C4_DEBUG_BREAK", h); (TOp "(", h1); (TOp ")", h2)] brk.
Proof.
  intros M. apply (yields_call T _ h h1 h2 [] false brk [[]] [] [] [] (map (fun t => [(t, [])]) brk)); [exact M|apply (h_break _ _ _ _ _ HT)|constructor|repeat constructor|reflexivity|constructor| |].
  - destruct (h_brk _ _ _ _ _ HT) as [E|[E|[]]]; rewrite <- E; reflexivity.
  - match goal with |- yields T (hide ?H ?a) _ => replace a with (with_h [] brk) by (symmetry; apply concat_single) end.
    rewrite hide_with. apply y_safe. destruct (h_brk _ _ _ _ _ HT) as [E|[E|[]]]; rewrite <- E; reflexivity.
Qed.
Lemma y_place h h1 h2 : mem_s "C4_SRCLOC" h = false -> mem_s "C4_PRETTY_FUNC" h = false ->
  yields T [(TId "C4_SRCLOC", h); (TOp "(", h1); (TOp ")", h2)] (place_of place0 pretty).
Proof.
  intros M M2. apply (yields_call T _ h h1 h2 [] false place0 [[]] [] [] [] (map (fun t => [(t, [])]) place0)); [exact M|apply (h_srcloc _ _ _ _ _ HT)|constructor|repeat constructor|reflexivity|constructor| |].
  - destruct (h_place0 _ _ _ _ _ HT) as [E|[E|[E|[]]]]; rewrite <- E; reflexivity.
  - match goal with |- yields T (hide ?H ?a) _ => replace a with (with_h [] place0) by (symmetry; apply concat_single) end.
    rewrite hide_with. set (H := ("C4_SRCLOC" :: inter h h2) ++ []).
    destruct (h_place0 _ _ _ _ _ HT) as [E|[E|[E|[]]]]; rewrite <- E; [|apply y_safe; reflexivity..].
    rewrite srcloc_h, srcloc_p.
    apply yields_app; [apply y_safe; reflexivity|]. apply yields_app; [|apply y_safe; reflexivity].
    eapply yields_obj; [unfold H; free|apply (h_pretty _ _ _ _ _ HT)|reflexivity|]. cbn [List.concat app].
    change [(TId pretty, [])] with (with_h [] [TId pretty]). rewrite hide_with. apply y_safe.
    destruct (h_prettyn _ _ _ _ _ HT) as [E2|[E2|[]]]; rewrite <- E2; reflexivity.
Qed.
Definition more (va : list tok) : list tok := match va with [] => [] | _ => TOp "," :: va end.
Lemma toks_joined args : toks (joined args) = with_commas (map toks args).
Proof.
  induction args as [|a [|b args] IH]; try reflexivity. change (joined (a :: b :: args)) with (a ++ comma :: joined (b :: args)).
  change (with_commas (map toks (a :: b :: args))) with (toks a ++ TOp "," :: with_commas (map toks (b :: args))). rewrite <- IH, toks_app. reflexivity.
Qed.
Lemma y_error h h1 h2 msg args l : listed (msg :: args) l -> Forall arg_ok (msg :: args) -> Forall (inert T) (msg :: args) ->
  mem_s "C4_ERROR" h = false -> mem_s "C4_DEBUG_BREAK" h = false -> mem_s "C4_SRCLOC" h = false -> mem_s "C4_PRETTY_FUNC" h = false ->
  yields T ((TId "C4_ERROR", h) :: (TOp "(", h1) :: l ++ [(TOp ")", h2)]) (error_text brk (place_of place0 pretty) (toks msg ++ more (toks (joined args)))).
Proof.
  intros L F I M1 M2 M3 M4. inversion I as [|? ? Im Ia]; subst.
  assert (Ij : inert T (joined args)).
  { destruct args; [apply inert_nil|]. eapply inert_listed; [apply listed_joined; discriminate|exact Ia]. }
  set (va := joined args) in *. set (H := "C4_ERROR" :: inter h h2). set (K := H ++ []).
  eapply (yields_call T _ h h1 h2 ["msg"] true error_body (msg :: args) l [("msg", msg); (va_name, va)] [msg; va]);
    [exact M1|apply (h_error _ _ _ _ _ HT)|exact L|exact F|reflexivity|constructor; [apply gives_self, Im|constructor; [apply gives_self, Ij|constructor]]|reflexivity|].
  fold H. unfold error_text, error_call.
  match goal with |- yields T ?a ?b =>
    replace a with (with_h K (lex "do { if(" ++ flags_toks ++ lex ") {") ++ [(TId "C4_DEBUG_BREAK", K); (TOp "(", K); (TOp ")", K)] ++ with_h K (lex "} c4::handle_error(")
      ++ [(TId "C4_SRCLOC", K); (TOp "(", K); (TOp ")", K)] ++ with_h K [TOp ","] ++ hide H msg ++ hide H (match va with [] => [] | _ => (TOp ",", []) :: va end) ++ with_h K (lex "); } while(0)"));
    [replace b with ((lex "do { if(" ++ flags_toks ++ lex ") {") ++ brk ++ lex "} c4::handle_error(" ++ place_of place0 pretty ++ [TOp ","] ++ toks msg ++ more (toks va) ++ lex "); } while(0)")|]
  end.
  - apply yields_app; [apply y_safe; reflexivity|]. apply yields_app; [apply y_break; unfold K, H; free|]. apply yields_app; [apply y_safe; reflexivity|].
    apply yields_app; [apply y_place; unfold K, H; free|]. apply yields_app; [apply y_safe; reflexivity|].
    apply yields_app; [rewrite <- (toks_hide H msg); apply yields_inert, inert_hide, Im|]. apply yields_app; [|apply y_safe; reflexivity].
    replace (more (toks va)) with (toks (hide H (match va with [] => [] | _ => (TOp ",", []) :: va end))).
    + apply yields_inert, inert_hide. destruct va; [apply inert_nil|]. apply inert_cons; [exact Logic.I|exact Ij].
    + rewrite toks_hide. destruct va; reflexivity.
  - cbn. repeat (progress (rewrite <- ?app_assoc; cbn [app])). reflexivity.
  - cbn [List.concat app]. unfold K. destruct va; cbn [hide map fst snd app]; rewrite ?map_app; cbn [map app fst snd]; rewrite ?map_app; reflexivity.
Qed.
Lemma y_unlikely h h1 h2 a : arg_ok a -> inert T a -> mem_s "C4_UNLIKELY" h = false ->
  yields T ((TId "C4_UNLIKELY", h) :: (TOp "(", h1) :: a ++ [(TOp ")", h2)]) (test_of gcc (toks a)).
Proof.
  intros A I M. set (H := "C4_UNLIKELY" :: inter h h2).
  assert (S : exists cells, subst true (zip_env [("x", a)] [a]) false (unlikely_body gcc) = Val cells /\
    List.concat cells = (if gcc then with_h [] [TId "__builtin_expect"; TOp "("] ++ a ++ with_h [] [TOp ","; TNum "0"; TOp ")"] else a)).
  { destruct gcc; eexists; (split; [reflexivity|]); cbn [List.concat app with_h map]; rewrite ?app_nil_r; reflexivity. }
  destruct S as (cells & S & Cc).
  eapply (yields_call T _ h h1 h2 ["x"] false (unlikely_body gcc) [a] a [("x", a)] [a]);
    [exact M|apply (h_unlikely _ _ _ _ _ HT)|constructor|constructor; [exact A|constructor]|reflexivity|constructor; [apply gives_self, I|constructor]|exact S|].
  fold H. rewrite Cc. unfold test_of. assert (Y := y_safe). clear S Cc. destruct gcc.
  - rewrite !hide_app, !hide_with. change (TId "__builtin_expect" :: TOp "(" :: toks a ++ [TOp ","; TNum "0"; TOp ")"]) with ([TId "__builtin_expect"; TOp "("] ++ toks a ++ [TOp ","; TNum "0"; TOp ")"]).
    apply yields_app; [apply Y; reflexivity|]. apply yields_app; [|apply Y; reflexivity]. rewrite <- (toks_hide H a). apply yields_inert, inert_hide, I.
  - rewrite <- (toks_hide H a). apply yields_inert, inert_hide, I.
Qed.
Definition negated (c : list tok) : list tok := TOp "!" :: TOp "(" :: c ++ [TOp ")"].
Lemma negated_arg h1 h2 h3 c : arg_ok c -> arg_ok ((TOp "!", h1) :: (TOp "(", h2) :: c ++ [(TOp ")", h3)]).
Proof.
  intros A. unfold arg_ok, one_arg. cbn [toks map fst]. rewrite nested_step. cbn [is_op String.eqb Ascii.eqb Bool.eqb]. rewrite nested_step. cbn [is_op String.eqb Ascii.eqb Bool.eqb].
  fold (toks (c ++ [(TOp ")", h3)])). rewrite toks_app. exact (nested_piece (toks c) 0 1 _ A).
Qed.
Definition quoted (c : list tok) : tok := stringized (plain_toks c).
Lemma quoted_toks c : stringized c = quoted (toks c).
Proof. unfold quoted, stringized, plain_toks, toks. rewrite !map_map. reflexivity. Qed.
Definition fmt_args (s : string) (c : list tok) : list tok := [TStr s; TOp ","; quoted c].
Lemma y_check h h1 h2 c : arg_ok c -> inert T c -> (forall x, In x ["C4_CHECK"; "C4_UNLIKELY"; "C4_ERROR"; "C4_DEBUG_BREAK"; "C4_SRCLOC"; "C4_PRETTY_FUNC"] -> mem_s x h = false) ->
  yields T ((TId "C4_CHECK", h) :: (TOp "(", h1) :: c ++ [(TOp ")", h2)])
    (check_text (test_of gcc (negated (toks c))) (error_text brk (place_of place0 pretty) (fmt_args "check failed: %s" (toks c)))).
Proof.
  intros A I M. set (H := "C4_CHECK" :: inter h h2). set (K := H ++ []).
  assert (MK : forall x, x <> "C4_CHECK" -> In x ["C4_CHECK"; "C4_UNLIKELY"; "C4_ERROR"; "C4_DEBUG_BREAK"; "C4_SRCLOC"; "C4_PRETTY_FUNC"] -> mem_s x K = false).
  { intros x N J. unfold K, H. rewrite app_nil_r. apply mem_cons; [|apply mem_inter, M, J]. destruct (String.eqb_spec x "C4_CHECK"); congruence. }
  eapply (yields_call T _ h h1 h2 ["cond"] false check_body [c] c [("cond", c)] [c]);
    [apply M; cbn; tauto|apply (h_check _ _ _ _ _ HT)|constructor|constructor; [exact A|constructor]|reflexivity|constructor; [apply gives_self, I|constructor]|reflexivity|].
  fold H. unfold check_text.
  match goal with |- yields T ?a ?b =>
    replace a with (with_h K (lex "do { if(") ++ ((TId "C4_UNLIKELY", K) :: (TOp "(", K) :: ((TOp "!", K) :: (TOp "(", K) :: hide H c ++ [(TOp ")", K)]) ++ [(TOp ")", K)]) ++ with_h K (lex ") {")
      ++ ((TId "C4_ERROR", K) :: (TOp "(", K) :: ([(TStr "check failed: %s", K)] ++ (TOp ",", K) :: [(stringized c, K)]) ++ [(TOp ")", K)]) ++ with_h K (lex "; } } while(0)")) end.
  - apply yields_app; [apply y_safe; reflexivity|]. apply yields_app.
    { replace (negated (toks c)) with (toks ((TOp "!", K) :: (TOp "(", K) :: hide H c ++ [(TOp ")", K)])).
      - apply y_unlikely; [apply negated_arg, arg_hide, A| |apply MK; [discriminate|cbn; tauto]].
        apply inert_cons; [exact Logic.I|]. apply inert_cons; [exact Logic.I|]. apply inert_app; [apply inert_hide, I|]. intros x k [E|[]]; discriminate.
      - cbn [toks map fst]. fold (toks (hide H c ++ [(TOp ")", K)])). rewrite toks_app, toks_hide. reflexivity. }
    apply yields_app; [apply y_safe; reflexivity|]. apply yields_app; [|apply y_safe; reflexivity].
    unfold fmt_args. rewrite <- quoted_toks.
    apply (y_error K K K [(TStr "check failed: %s", K)] [[(stringized c, K)]] _); [apply l_more, l_one|repeat constructor| |apply MK; [discriminate|cbn; tauto]..].
    constructor; [intros x k [E|[]]; discriminate|]. constructor; [intros x k [E|[]]; discriminate|constructor].
  - cbn [List.concat app]. unfold K. cbn [hide map fst snd app]. rewrite ?map_app. cbn [map app fst snd]. rewrite <- ?app_assoc. reflexivity.
Qed.
Lemma y_check_msg h h1 h2 c fmt args l : listed (c :: fmt :: args) l -> Forall arg_ok (c :: fmt :: args) -> Forall (inert T) (c :: fmt :: args) -> Forall (fun a => a <> []) args ->
  (forall x, In x ["C4_CHECK_MSG"; "C4_UNLIKELY"; "C4_ERROR"; "C4_DEBUG_BREAK"; "C4_SRCLOC"; "C4_PRETTY_FUNC"] -> mem_s x h = false) ->
  yields T ((TId "C4_CHECK_MSG", h) :: (TOp "(", h1) :: l ++ [(TOp ")", h2)])
    (check_text (test_of gcc (negated (toks c))) (error_text brk (place_of place0 pretty) ((TStr "check failed: " :: quoted (toks c) :: TStr "\n" :: toks fmt) ++ more (toks (joined args))))).
Proof.
  intros L F Fi Ne M. inversion Fi as [|? ? I Fi2]; subst. inversion Fi2 as [|? ? If Ia]; subst. clear Fi2. inversion F as [|? ? A F2]; subst. inversion F2 as [|? ? Af Aa]; subst. clear F2.
  assert (Ij : inert T (joined args)).
  { destruct args; [apply inert_nil|]. eapply inert_listed; [apply listed_joined; discriminate|exact Ia]. }
  set (H := "C4_CHECK_MSG" :: inter h h2). set (K := H ++ []).
  assert (MK : forall x, x <> "C4_CHECK_MSG" -> In x ["C4_CHECK_MSG"; "C4_UNLIKELY"; "C4_ERROR"; "C4_DEBUG_BREAK"; "C4_SRCLOC"; "C4_PRETTY_FUNC"] -> mem_s x K = false).
  { intros x N J. unfold K, H. rewrite app_nil_r. apply mem_cons; [|apply mem_inter, M, J]. destruct (String.eqb_spec x "C4_CHECK_MSG"); congruence. }
  eapply (yields_call T _ h h1 h2 ["cond"; "fmt"] true check_msg_body (c :: fmt :: args) l [("cond", c); ("fmt", fmt); (va_name, joined args)] [c; fmt; joined args]);
    [apply M; cbn; tauto|apply (h_check_msg _ _ _ _ _ HT)|exact L|exact F|reflexivity|constructor; [apply gives_self, I|constructor; [apply gives_self, If|constructor; [apply gives_self, Ij|constructor]]]|reflexivity|].
  fold H. unfold check_text.
  set (msg := (TStr "check failed: ", K) :: (stringized c, K) :: (TStr "\n", K) :: hide H fmt).
  set (tail := hide H (match joined args with [] => [] | _ => (TOp ",", []) :: joined args end)).
  match goal with |- yields T ?a ?b =>
    replace a with (with_h K (lex "do { if(") ++ ((TId "C4_UNLIKELY", K) :: (TOp "(", K) :: ((TOp "!", K) :: (TOp "(", K) :: hide H c ++ [(TOp ")", K)]) ++ [(TOp ")", K)]) ++ with_h K (lex ") {")
      ++ ((TId "C4_ERROR", K) :: (TOp "(", K) :: (msg ++ tail) ++ [(TOp ")", K)]) ++ with_h K (lex "; } } while(0)")) end.
  - apply yields_app; [apply y_safe; reflexivity|]. apply yields_app.
    { replace (negated (toks c)) with (toks ((TOp "!", K) :: (TOp "(", K) :: hide H c ++ [(TOp ")", K)])).
      - apply y_unlikely; [apply negated_arg, arg_hide, A| |apply MK; [discriminate|cbn; tauto]].
        apply inert_cons; [exact Logic.I|]. apply inert_cons; [exact Logic.I|]. apply inert_app; [apply inert_hide, I|]. intros x k [E|[]]; discriminate.
      - cbn [toks map fst]. fold (toks (hide H c ++ [(TOp ")", K)])). rewrite toks_app, toks_hide. reflexivity. }
    apply yields_app; [apply y_safe; reflexivity|]. apply yields_app; [|apply y_safe; reflexivity].
    replace (TStr "check failed: " :: quoted (toks c) :: TStr "\n" :: toks fmt) with (toks msg) by (unfold msg; cbn [toks map fst]; fold (toks (hide H fmt)); rewrite toks_hide, quoted_toks; reflexivity).
    replace (more (toks (joined args))) with (more (toks (joined (map (hide H) args)))) by (f_equal; rewrite !toks_joined, map_map; f_equal; apply map_ext; intros; apply toks_hide).
    assert (Am : arg_ok msg) by (unfold arg_ok, one_arg, msg; cbn [toks map fst]; rewrite !nested_step; cbn [is_op]; fold (toks (hide H fmt)); rewrite toks_hide; exact Af).
    assert (Im : inert T msg) by (unfold msg; repeat (apply inert_cons; [exact Logic.I|]); apply inert_hide, If).
    apply y_error; [|constructor; [exact Am|apply map_hide_ok, Aa]|constructor; [exact Im|clear -Ia; induction Ia; constructor; [apply inert_hide|]; assumption]|apply MK; [discriminate|cbn; tauto]..].
    unfold tail. destruct args as [|a args]; [cbn [joined map hide]; rewrite app_nil_r; apply l_one|].
    assert (Nj : joined (a :: args) <> []) by (inversion Ne; subst; destruct a; [congruence|destruct args; discriminate]).
    destruct (joined (a :: args)) as [|t j] eqn:E; [congruence|]. rewrite <- E. cbn [map]. change ((TOp ",", []) :: joined (a :: args)) with ([(TOp ",", [])] ++ joined (a :: args)).
    rewrite hide_app. cbn [hide map fst snd]. apply l_more. apply (hide_joined H (a :: args)). discriminate.
  - unfold tail, msg, K. cbn [List.concat app]. cbn [hide map fst snd app]. rewrite ?map_app. cbn [map app fst snd]. rewrite ?map_app. cbn [map app fst snd]. unfold hide. repeat (progress (rewrite <- ?app_assoc; cbn [app])). reflexivity.
Qed.
End With.
