(** The texts of the messages, and the other macros. *)
From Verif Require Import Base PpModel PpSpec PpText MacroText MacroModel MacroSpec MacroSpec2 MacroProofs MacroProofs2 MacroProofs3 MacroProofs4 MacroProofs5 MacroProofs6 MacroProofs7.
From Coq Require Import String Ascii.
Open Scope string_scope.
Open Scope list_scope.
Open Scope Z_scope.
Local Strategy opaque [D0 D3].

(** ** The text of a condition *)
Lemma concat_cons a l : String.concat "" (a :: l) = (a ++ String.concat "" l)%string.
Proof. destruct l as [|b l]; cbn [String.concat]; [|reflexivity]. induction a as [|c a IH]; [reflexivity|]. cbn [String.append]. f_equal. exact IH. Qed.
Lemma str_assoc (a b c : string) : ((a ++ b) ++ c = a ++ (b ++ c))%string.
Proof. induction a as [|x a IH]; [reflexivity|]. cbn [String.append]. f_equal. exact IH. Qed.
Lemma unescaped_escaped s r : unescaped (escaped s ++ r) = (s ++ unescaped r)%string.
Proof.
  induction s as [|c s IH]; [reflexivity|]. cbn [escaped]. destruct ((c =? """")%char || (c =? "\")%char) eqn:E.
  - cbn [String.append unescaped]. change ("\" =? "\")%char with true. cbn iota. f_equal. exact IH.
  - apply orb_false_iff in E as [_ E]. cbn [String.append unescaped]. rewrite E. f_equal. exact IH.
Qed.
Lemma unescaped_plain s r : Forall (fun c => c <> "\"%char) (list_ascii_of_string s) -> unescaped (s ++ r) = (s ++ unescaped r)%string.
Proof.
  induction s as [|c s IH]; [reflexivity|]. cbn [list_ascii_of_string]. intros F. inversion F as [|? ? N F']; subst. cbn [String.append unescaped].
  destruct (Ascii.eqb_spec c "\"); [congruence|]. f_equal. apply IH, F'.
Qed.
Definition text_of (l : list tok) : string := String.concat "" (map spelled l).
Lemma quoted_is c : quoted c = TStr (text_of c).
Proof. unfold quoted, stringized, plain_toks, text_of. rewrite map_map. reflexivity. Qed.
Lemma text_unescaped c : Forall no_backslash c -> unescaped (text_of c) = spelling c.
Proof.
  intros F. induction F as [|t c N F IH]; [reflexivity|]. unfold text_of in *. cbn [map]. rewrite concat_cons.
  destruct t as [x|x|x|x]; cbn [spelled spelling no_backslash] in *; try (rewrite unescaped_plain by exact N; f_equal; exact IH).
  rewrite !str_assoc. change (unescaped ("\""" ++ (escaped x ++ "\""" ++ String.concat "" (map spelled c)))) with (String """" (unescaped (escaped x ++ ("\""" ++ String.concat "" (map spelled c))))).
  rewrite unescaped_escaped. change ("""" ++ x ++ """" ++ spelling c)%string with (String """" (x ++ """" ++ spelling c)%string). f_equal. f_equal.
  change (unescaped ("\""" ++ String.concat "" (map spelled c))) with (String """" (unescaped (String.concat "" (map spelled c)))).
  change ("""" ++ spelling c)%string with (String """" (spelling c)). f_equal. exact IH.
Qed.
Lemma percents_app a b : percents (a ++ b) = (percents a + percents b)%nat.
Proof. induction a as [|c a IH]; [reflexivity|]. cbn [String.append percents]. destruct (c =? "%")%char; rewrite IH; reflexivity. Qed.
Lemma percents_escaped s : percents (escaped s) = percents s.
Proof.
  induction s as [|c s IH]; [reflexivity|]. cbn [escaped]. destruct ((c =? """")%char || (c =? "\")%char); cbn [percents]; [change ("\" =? "%")%char with false; cbn iota|]; rewrite IH; reflexivity.
Qed.
Lemma percents_text c : percents (text_of c) = percents (spelling c).
Proof.
  induction c as [|t c IH]; [reflexivity|]. unfold text_of in *. cbn [map]. rewrite concat_cons, percents_app, IH.
  destruct t as [x|x|x|x]; cbn [spelled spelling]; rewrite ?percents_app; try reflexivity. rewrite percents_escaped. cbn. lia.
Qed.
Lemma format_percents c f args : match args with [] :: _ => False | _ => True end ->
  exists lit rest, literal (msg_args c [TStr f] args) = (lit, rest) /\ percents lit = (percents (spelling c) + percents f)%nat.
Proof.
  intros N. unfold msg_args. rewrite quoted_is.
  assert (Q : exists r, with_commas ([TStr f] :: args) = TStr f :: r /\ literal r = ("", r)).
  { destruct args as [|a args]; [exists []; auto|]. exists (TOp "," :: with_commas (a :: args)). split; reflexivity. }
  destruct Q as (r & -> & L). cbn [literal]. rewrite L. eexists _, _. split; [reflexivity|]. rewrite !percents_app, percents_text. cbn. lia.
Qed.

(** ** C4_ASSERT_IF is not one statement *)
Lemma if_not_single r p st t0 : (forall t rest, word "else" t = false -> exists n, statement n (r ++ t :: rest) = Some (SIf p st None, t :: rest)) -> t0 = TOp ";" -> ~ exists s, single r s.
Proof.
  intros H -> (s & S). destruct (S []) as (n & A). destruct (H (TOp ";") [] eq_refl) as (m & B). assert (E := statement_same _ _ _ _ _ A B). discriminate.
Qed.

(** ** Other errors *)
Lemma never_end ur rest : In ur unreachables -> block 13 (ur ++ TOp ";" :: TOp "}" :: rest) = Some ([SExpr ur], rest).
Proof.
  unfold unreachables. intros [<-|[<-|[]]].
  - change (lex "_c4_msvc_unreachable()") with [TId "_c4_msvc_unreachable"; TOp "("; TOp ")"]. cbn [app]. eapply bl_more; [reflexivity|apply st_expr; reflexivity|apply bl_end].
  - change (lex "__builtin_unreachable()") with [TId "__builtin_unreachable"; TOp "("; TOp ")"]. cbn [app]. eapply bl_more; [reflexivity|apply st_expr; reflexivity|apply bl_end].
Qed.
Section With.
Variables (w : world) (s : setting).
Variables (brk place0 : list tok) (pretty : string) (gcc : bool).
Hypothesis A : has_all w s brk place0 pretty gcc.
Notation T := (macros (all_defs s)).
Notation HT := (a_has _ _ _ _ _ _ A).
Notation place := (place_of place0 pretty).
Lemma y_error_text h h1 h2 t h3 : (forall x, In x ["C4_ERROR"; "C4_DEBUG_BREAK"; "C4_SRCLOC"; "C4_PRETTY_FUNC"] -> mem_s x h = false) ->
  yields T [(TId "C4_ERROR", h); (TOp "(", h1); (TStr t, h3); (TOp ")", h2)] (error_text brk place [TStr t]).
Proof.
  intros M. change [(TId "C4_ERROR", h); (TOp "(", h1); (TStr t, h3); (TOp ")", h2)] with ((TId "C4_ERROR", h) :: (TOp "(", h1) :: [(TStr t, h3)] ++ [(TOp ")", h2)]).
  apply (y_error T brk place0 pretty gcc HT h h1 h2 [(TStr t, h3)] []); [constructor|constructor; [reflexivity|constructor]|constructor; [intros x k [E|[]]; discriminate|constructor]|apply M; cbn; tauto..].
Qed.
Lemma not_implemented_top : raising w s (call "C4_NOT_IMPLEMENTED" []) [TStr "NOT IMPLEMENTED"].
Proof.
  apply (to_raising w s brk place0 pretty gcc A); [|reflexivity].
  eapply (yields_call T "C4_NOT_IMPLEMENTED" [] [] [] [] false (lex "C4_ERROR(""NOT IMPLEMENTED"")") [[]] [] [] []); [reflexivity| |constructor|repeat constructor|reflexivity|constructor|reflexivity|].
  - apply (a_chks _ _ _ _ _ _ A); vm_compute; reflexivity.
  - apply y_error_text. intros x J. cbn [In] in J. decompose [or] J; subst; try reflexivity; contradiction.
Qed.
Lemma not_implemented_if_top c : argument (all_defs s) c -> guarding w s (call "C4_NOT_IMPLEMENTED_IF" [c]) c [TStr "NOT IMPLEMENTED"].
Proof.
  intros (O & N & B). apply (to_guarding w s brk place0 pretty gcc A); [|reflexivity|exact N|exact B]. rewrite plain_call. cbn [with_commas].
  assert (Ic : inert T (with_h [] c)) by (apply own_inert, O). assert (Oc : arg_ok (with_h [] c)) by (unfold arg_ok; rewrite toks_with; exact N).
  set (H := "C4_NOT_IMPLEMENTED_IF" :: inter [] []). set (K := H ++ []).
  eapply (yields_call T "C4_NOT_IMPLEMENTED_IF" [] [] [] ["condition"] false (lex "do { if(C4_UNLIKELY(condition)) { C4_ERROR(""NOT IMPLEMENTED""); } } while(0)") [with_h [] c] _ [("condition", with_h [] c)] [with_h [] c]);
    [reflexivity| |constructor|constructor; [exact Oc|constructor]|reflexivity|constructor; [apply gives_self, Ic|constructor]|reflexivity|].
  - apply (a_chks _ _ _ _ _ _ A); vm_compute; reflexivity.
  - fold H. unfold check_text.
    match goal with |- yields T ?g0 _ => replace g0 with (with_h K (lex "do { if(") ++ ((TId "C4_UNLIKELY", K) :: (TOp "(", K) :: hide H (with_h [] c) ++ [(TOp ")", K)]) ++ with_h K (lex ") {")
      ++ [(TId "C4_ERROR", K); (TOp "(", K); (TStr "NOT IMPLEMENTED", K); (TOp ")", K)] ++ with_h K (lex "; } } while(0)")) end.
    + apply yields_app; [apply (y_safe T brk place0 pretty gcc HT); reflexivity|]. apply yields_app.
      { replace c with (toks (hide H (with_h [] c))) at 2 by (rewrite toks_hide; apply toks_with). apply (y_unlikely T brk place0 pretty gcc HT); [apply arg_hide, Oc|apply inert_hide, Ic|reflexivity]. }
      apply yields_app; [apply (y_safe T brk place0 pretty gcc HT); reflexivity|]. apply yields_app; [|apply (y_safe T brk place0 pretty gcc HT); reflexivity].
      apply y_error_text. intros x J. cbn [In] in J. decompose [or] J; subst; try reflexivity; contradiction.
    + cbn [List.concat app]. unfold K. generalize H as K0. intros K0. cbn [hide map fst snd app]. rewrite ?map_app. cbn [map app fst snd]. repeat (progress (rewrite <- ?app_assoc; cbn [app])). reflexivity.
Qed.
Definition never_text (ur args : list tok) : list tok := lex "do {" ++ error_text brk place args ++ lex ";" ++ ur ++ lex "; } while(0)".
Definition never_stmt (ur args : list tok) : stmt := SOnce (SBlock [error_stmt brk place args; SExpr ur]).
Lemma never_reach_top : raising w s (call "C4_NEVER_REACH" []) [TStr "never reach this point"].
Proof.
  destruct (a_unreachable _ _ _ _ _ _ A) as (ur & Iu & Eu). destruct (place_shown _ _ _ _ _ _ A) as [Sh Bp]. assert (Ib := h_brk _ _ _ _ _ HT).
  set (args := [TStr "never reach this point"]).
  exists (never_text ur args), (never_stmt ur args), place. split; [|split; [|split; [exact Sh|]]].
  - apply yields_becomes. set (H := "C4_NEVER_REACH" :: inter [] []). set (K := H ++ []).
    eapply (yields_call T "C4_NEVER_REACH" [] [] [] [] false (lex "do { C4_ERROR(""never reach this point""); C4_UNREACHABLE(); } while(0)") [[]] [] [] []); [reflexivity| |constructor|repeat constructor|reflexivity|constructor|reflexivity|].
    + apply (a_chks _ _ _ _ _ _ A); vm_compute; reflexivity.
    + fold H. unfold never_text.
      match goal with |- yields T ?g0 _ => change g0 with (with_h K [TId "do"; TOp "{"] ++ [(TId "C4_ERROR", K); (TOp "(", K); (TStr "never reach this point", K); (TOp ")", K)] ++ with_h K [TOp ";"]
        ++ [(TId "C4_UNREACHABLE", K); (TOp "(", K); (TOp ")", K)] ++ with_h K [TOp ";"; TOp "}"; TId "while"; TOp "("; TNum "0"; TOp ")"]) end.
      apply yields_app; [apply (y_safe T brk place0 pretty gcc HT); reflexivity|]. apply yields_app.
      { apply y_error_text. intros x J. cbn [In] in J. decompose [or] J; subst; try reflexivity; contradiction. }
      apply yields_app; [apply (y_safe T brk place0 pretty gcc HT); reflexivity|]. apply yields_app; [|apply (y_safe T brk place0 pretty gcc HT); reflexivity].
      apply (yields_call T _ K K K [] false ur [[]] [] [] [] (map (fun t => [(t, [])]) ur)); [reflexivity|exact Eu|constructor|repeat constructor|reflexivity|constructor| |].
      * destruct Iu as [<-|[<-|[]]]; reflexivity.
      * match goal with |- yields T (hide ?H ?a) _ => replace a with (with_h [] ur) by (symmetry; apply concat_single) end. rewrite hide_with. apply (y_safe T brk place0 pretty gcc HT).
        destruct Iu as [<-|[<-|[]]]; reflexivity.
  - intros rest. exists (16 + 0)%nat. destruct (inner_do brk place args) as (inner & E).
    replace (never_text ur args ++ TOp ";" :: rest) with (TId "do" :: TOp "{" :: error_text brk place args ++ TOp ";" :: ur ++ TOp ";" :: TOp "}" :: lex "while(0);" ++ rest)
      by (unfold never_text; repeat (progress (rewrite <- ?app_assoc; cbn [app lex])); reflexivity).
    cbn [Nat.add]. apply st_do, st_block. rewrite E. cbn [app]. eapply bl_more; [reflexivity| |].
    + change (TId "do" :: inner ++ TOp ";" :: ur ++ TOp ";" :: TOp "}" :: lex "while(0);" ++ rest) with ((TId "do" :: inner) ++ TOp ";" :: ur ++ TOp ";" :: TOp "}" :: lex "while(0);" ++ rest).
      rewrite <- E. exact (error_parse brk place args 1 _ Ib Bp eq_refl).
    + apply never_end, Iu.
  - intros truth. destruct (error_raises truth brk place args Ib) as (pre & I & Ea). exists pre. split; [exact I|]. unfold never_stmt. cbn [acts]. rewrite Ea. reflexivity.
Qed.
(** ** C4_ASSERT_SAME_TYPE *)
Lemma same_type_top a b : own (all_defs s) a -> own (all_defs s) b -> one_arg a -> one_arg b ->
  exists r, becomes (all_defs s) (call "C4_ASSERT_SAME_TYPE" [a; b]) r /\
    let c := lex "std::is_same<" ++ a ++ TOp "," :: b ++ lex ">::value" in
    r = lex "static_assert(" ++ c ++ lex ")" \/ exists q, r = lex "static_assert((" ++ c ++ lex ")," ++ [TStr q] ++ lex ")".
Proof.
  intros Oa Ob Na Nb.
  assert (Ia : inert T (with_h [] a)) by (apply own_inert, Oa). assert (Ka : arg_ok (with_h [] a)) by (unfold arg_ok; rewrite toks_with; exact Na).
  assert (Ib : inert T (with_h [] b)) by (apply own_inert, Ob). assert (Kb : arg_ok (with_h [] b)) by (unfold arg_ok; rewrite toks_with; exact Nb).
  assert (Ex : T "C4_COMMA_X" = Some (Macro None [TId "C4_COMMA"])).
  { unfold all_defs. rewrite (a_pre _ _ _ _ _ _ A). apply macros_app. vm_compute. reflexivity. }
  set (H := "C4_ASSERT_SAME_TYPE" :: inter [] []). set (K := H ++ []).
  set (P := with_h K (lex "std::is_same<") ++ hide H (with_h [] a)). set (Q := hide H (with_h [] b) ++ with_h K (lex ">::value")).
  assert (Ip : inert T P) by (apply inert_app; [apply (inert_safe T safe); [apply (h_safe _ _ _ _ _ HT)|reflexivity]|apply inert_hide, Ia]).
  assert (Iq : inert T Q) by (apply inert_app; [apply inert_hide, Ib|apply (inert_safe T safe); [apply (h_safe _ _ _ _ _ HT)|reflexivity]]).
  set (cm := (TOp ",", "C4_COMMA" :: "C4_COMMA_X" :: K)).
  assert (G : gives T (P ++ (TId "C4_COMMA_X", K) :: Q) (Val (P ++ cm :: Q))).
  { apply (gives_inert T P _ (Val (cm :: Q)) Ip). eapply gives_obj; [reflexivity|exact Ex|reflexivity|]. cbn [List.concat app hide map fst snd].
    eapply gives_obj; [reflexivity|apply (a_comma _ _ _ _ _ _ A)|reflexivity|]. cbn [List.concat app hide map fst snd]. 
    match goal with |- gives T ?l (Val ?m) => replace l with m by (unfold cm; cbn; rewrite ?app_nil_r; reflexivity) end.
    apply gives_self, inert_cons; [exact Logic.I|exact Iq]. }
  assert (Kc : arg_ok (P ++ (TId "C4_COMMA_X", K) :: Q)).
  { unfold arg_ok, P, Q. rewrite !toks_app. cbn [toks map fst]. fold (toks (hide H (with_h [] b) ++ with_h K (lex ">::value"))). rewrite toks_app, !toks_hide, !toks_with. unfold one_arg.
    cbn [lex app]. rewrite <- app_assoc. change (nested 0 (lex "std::is_same<" ++ (a ++ (TId "C4_COMMA_X" :: b ++ lex ">::value"))) = true).
    change (nested 0 (a ++ (TId "C4_COMMA_X" :: b ++ lex ">::value")) = true). rewrite (nested_piece a 0 0 _ Na : nested 0 (a ++ _) = _), nested_step. cbn [is_op].
    rewrite (nested_piece b 0 0 _ Nb : nested 0 (b ++ _) = _). reflexivity. }
  destruct (a_static _ _ _ _ _ _ A) as (sb & Is & Es).
  set (c := lex "std::is_same<" ++ a ++ TOp "," :: b ++ lex ">::value").
  set (J := "C4_STATIC_ASSERT" :: inter K K). set (L := J ++ []).
  assert (Tc : toks (hide J (P ++ cm :: Q)) = c).
  { unfold c, P, Q, cm. rewrite toks_hide, !toks_app. cbn [toks map fst]. fold (toks (hide H (with_h [] b) ++ with_h K (lex ">::value"))). rewrite toks_app, !toks_hide, !toks_with. rewrite <- app_assoc. reflexivity. }
  assert (Ii : inert T (hide J (P ++ cm :: Q))) by (apply inert_hide, inert_app; [exact Ip|]; apply inert_cons; [exact Logic.I|exact Iq]).
  set (q := stringized (P ++ (TId "C4_COMMA_X", K) :: Q)). assert (Eq : exists z, q = TStr z) by (eexists; unfold q, stringized; reflexivity). destruct Eq as (z & Eq).
  assert (Y : exists r, yields T ((TId "C4_STATIC_ASSERT", K) :: (TOp "(", K) :: (P ++ (TId "C4_COMMA_X", K) :: Q) ++ [(TOp ")", K)]) r /\
    (r = lex "static_assert(" ++ c ++ lex ")" \/ exists z1, r = lex "static_assert((" ++ c ++ lex ")," ++ [TStr z1] ++ lex ")")).
  { destruct Is as [<-|[<-|[]]]; eexists; (split; [eapply yields_call; [reflexivity|exact Es|constructor|constructor; [exact Kc|constructor]|reflexivity|constructor; [exact G|constructor]|reflexivity|]|]).
    - fold J. cbn [List.concat app]. match goal with |- yields T ?g0 _ => replace g0 with (with_h L (lex "static_assert(") ++ hide J (P ++ cm :: Q) ++ with_h L (lex ")")) by (unfold L; rewrite <- ?hide_with; rewrite <- ?hide_app; f_equal; cbn [lex with_h map app]; repeat (progress (rewrite <- ?app_assoc; cbn [app])); reflexivity) end.
      apply yields_app; [apply (y_safe T brk place0 pretty gcc HT); reflexivity|]. apply yields_app; [apply yields_inert, Ii|apply (y_safe T brk place0 pretty gcc HT); reflexivity].
    - left. rewrite Tc. reflexivity.
    - fold J. cbn [fst snd]. fold q. rewrite Eq. cbn [List.concat app]. match goal with |- yields T ?g0 _ => replace g0 with (with_h L (lex "static_assert((") ++ hide J (P ++ cm :: Q) ++ with_h L (lex "),") ++ with_h L [TStr z] ++ with_h L (lex ")")) by (unfold L; rewrite <- ?hide_with; rewrite <- ?hide_app; f_equal; cbn [lex with_h map app]; repeat (progress (rewrite <- ?app_assoc; cbn [app])); reflexivity) end.
      apply yields_app; [apply (y_safe T brk place0 pretty gcc HT); reflexivity|]. apply yields_app; [apply yields_inert, Ii|].
      apply yields_app; [apply (y_safe T brk place0 pretty gcc HT); reflexivity|]. apply yields_app; apply (y_safe T brk place0 pretty gcc HT); reflexivity.
    - right. rewrite Tc. exists z. reflexivity. }
  destruct Y as (r & Y & Er). exists r. split.
  - apply yields_becomes. rewrite plain_call.
    eapply (yields_call T "C4_ASSERT_SAME_TYPE" [] [] [] ["ty1"; "ty2"] false _ [with_h [] a; with_h [] b] _ [("ty1", with_h [] a); ("ty2", with_h [] b)] [with_h [] a; with_h [] b]);
      [reflexivity|apply (a_same _ _ _ _ _ _ A)|apply (listed_plain [] [a; b]); discriminate|constructor; [exact Ka|constructor; [exact Kb|constructor]]|reflexivity|constructor; [apply gives_self, Ia|constructor; [apply gives_self, Ib|constructor]]|reflexivity|].
    fold H. match goal with |- yields T ?g0 _ => replace g0 with ((TId "C4_STATIC_ASSERT", K) :: (TOp "(", K) :: (P ++ (TId "C4_COMMA_X", K) :: Q) ++ [(TOp ")", K)]); [exact Y|] end.
    unfold P, Q, K. generalize H as K0. intros K0. cbn [List.concat app]. unfold hide, with_h. cbn [lex map app fst snd]. rewrite ?map_app. cbn [map app fst snd]. rewrite ?map_app. repeat (progress (rewrite <- ?app_assoc; cbn [app map fst snd])). reflexivity.
  - cbv zeta. fold c. destruct Er as [->|(z1 & ->)]; [left; reflexivity|right]. exists z1. reflexivity.
Qed.
End With.
