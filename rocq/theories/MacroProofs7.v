(** The macros as a client writes them. *)
From Verif Require Import Base PpModel PpSpec PpText MacroText MacroModel MacroSpec MacroSpec2 MacroProofs MacroProofs2 MacroProofs3 MacroProofs4 MacroProofs5 MacroProofs6.
From Coq Require Import String Ascii.
Open Scope string_scope.
Open Scope list_scope.
Open Scope Z_scope.
Local Strategy opaque [D0 D3].

Lemma plain_call f args : plain_toks (call f args) = (TId f, []) :: (TOp "(", []) :: with_h [] (with_commas args) ++ [(TOp ")", [])].
Proof. unfold plain_toks, call. cbn [map]. rewrite map_app. reflexivity. Qed.
Lemma ready_ok args : Forall one_arg args -> Forall arg_ok (map (with_h []) args).
Proof. intros F. induction F; cbn [map]; constructor; [|assumption]. unfold arg_ok. rewrite toks_with. assumption. Qed.
Lemma ready_inert d args : Forall (own d) args -> Forall (inert (macros d)) (map (with_h []) args).
Proof. intros F. induction F; cbn [map]; constructor; [|assumption]. apply own_inert. assumption. Qed.

(** ** preprocessor.hpp *)
Lemma map_toks xs : map (fun x => toks (with_h [] x)) xs = xs.
Proof. rewrite <- (map_id xs) at 2. apply map_ext. intros a. apply toks_with. Qed.
Lemma gives_end T l out : (forall r v, gives T r v -> gives T (l ++ r) (xbind v (fun q => Val (out ++ q)))) -> yields T l (toks out).
Proof. intros H. exists out. split; [reflexivity|exact H]. Qed.
Lemma for_each_sep_ok w dp e what sep xs : new w preprocessor_hpp [] -> leaves w preprocessor_hpp dp -> (1 <= List.length xs <= 32)%nat ->
  Forall one_arg (what :: sep :: xs) -> Forall (own (dp ++ e)) (what :: sep :: xs) ->
  becomes (dp ++ e) (call "C4_FOR_EACH_SEP" (what :: sep :: xs)) (List.concat (map (each what sep) xs)).
Proof.
  intros N L Ln F O. rewrite (pre_leaves _ _ N L) in *. apply yields_becomes. rewrite plain_call.
  destruct (sep_ok e (List.length xs) (with_h [] what) (with_h [] sep) (map (with_h []) xs) (with_h [] (with_commas (what :: sep :: xs))) [] [] []) as (out & To & G).
  - exact Ln.
  - apply map_length.
  - apply (listed_plain [] (what :: sep :: xs)). discriminate.
  - apply (ready_ok (what :: sep :: xs) F).
  - apply (ready_inert _ (what :: sep :: xs) O).
  - split; intros; reflexivity.
  - replace (List.concat (map (each what sep) xs)) with (toks out).
    + apply gives_end. intros r v R. cbn [app]. rewrite <- app_assoc. cbn [app]. apply G, R.
    + rewrite To, map_map. f_equal. apply map_ext. intros x. rewrite !toks_with. reflexivity.
Qed.
Lemma for_each_ok w dp e what xs : new w preprocessor_hpp [] -> leaves w preprocessor_hpp dp -> (1 <= List.length xs <= 32)%nat ->
  Forall one_arg (what :: xs) -> Forall (own (dp ++ e)) (what :: xs) ->
  becomes (dp ++ e) (call "C4_FOR_EACH" (what :: xs)) (List.concat (map (each what [TOp ";"]) xs)).
Proof.
  intros N L Ln F O. rewrite (pre_leaves _ _ N L) in *. apply yields_becomes. rewrite plain_call.
  destruct (for_ok e (List.length xs) (with_h [] what) (map (with_h []) xs) (with_h [] (with_commas (what :: xs))) [] []) as (out & To & G).
  - exact Ln.
  - apply map_length.
  - apply (listed_plain [] (what :: xs)). discriminate.
  - apply (ready_ok (what :: xs) F).
  - apply (ready_inert _ (what :: xs) O).
  - replace (List.concat (map (each what [TOp ";"]) xs)) with (toks out).
    + apply gives_end. intros r v R. cbn [app]. rewrite <- app_assoc. cbn [app]. apply G, R.
    + rewrite To, map_map. f_equal. apply map_ext. intros x. rewrite !toks_with. reflexivity.
Qed.
Lemma for_each_comma w dp e what xs : new w preprocessor_hpp [] -> leaves w preprocessor_hpp dp -> (1 <= List.length xs <= 32)%nat ->
  Forall one_arg (what :: xs) -> Forall (own (dp ++ e)) (what :: xs) ->
  ill_formed (dp ++ e) (call "C4_FOR_EACH_SEP" (what :: [TId "C4_COMMA"] :: xs)).
Proof.
  intros N L Ln F O. rewrite (pre_leaves _ _ N L) in *. apply gives_ill. rewrite plain_call.
  apply (comma_ill e (with_h [] what) (map (with_h []) xs) (with_h [] (with_commas (what :: [TId "C4_COMMA"] :: xs))) [] [] []).
  - rewrite map_length. exact Ln.
  - apply (listed_plain [] (what :: [TId "C4_COMMA"] :: xs)). discriminate.
  - apply (ready_ok (what :: xs) F).
  - apply (ready_inert _ (what :: xs) O).
Qed.
Lemma same_len {A} (a b : list A) : List.length a <> List.length b -> a <> b.
Proof. congruence. Qed.
Lemma between_len what sep xs : xs <> [] -> (List.length (between what sep xs) + List.length sep = List.length (List.concat (map (each what sep) xs)))%nat.
Proof.
  induction xs as [|x [|y xs] IH]; intros N; [congruence| |].
  - cbn [between map List.concat]. unfold each. rewrite !app_length. cbn [List.length]. rewrite !app_length. cbn [List.length]. lia.
  - change (between what sep (x :: y :: xs)) with (each what sep x ++ between what sep (y :: xs)). change (List.concat (map (each what sep) (x :: y :: xs))) with (each what sep x ++ List.concat (map (each what sep) (y :: xs))).
    rewrite !app_length. specialize (IH ltac:(discriminate)). lia.
Qed.
Lemma more_than_between what sep xs : xs <> [] -> sep <> [] -> List.concat (map (each what sep) xs) <> between what sep xs.
Proof. intros N S. apply same_len. assert (H := between_len what sep xs N). destruct sep; [congruence|]. cbn [List.length] in H. lia. Qed.

(** ** error.hpp *)
Lemma split_args d args : Forall (argument d) args -> Forall (own d) args /\ Forall one_arg args /\ Forall (fun a => bracketed 0 a = true) args.
Proof. intros F. repeat split; (eapply Forall_impl; [|exact F]); intros a (A & B & C); assumption. Qed.
Lemma more_commas m args : Forall (fun a => a <> []) args -> m ++ more (with_commas args) = with_commas (m :: args).
Proof.
  intros F. destruct args as [|a args]; [cbn; apply app_nil_r|]. change (with_commas (m :: a :: args)) with (m ++ TOp "," :: with_commas (a :: args)).
  inversion F; subst. assert (Q : with_commas (a :: args) <> []) by (destruct a; [congruence|destruct args; discriminate]). destruct (with_commas (a :: args)); [congruence|reflexivity].
Qed.
Lemma commas_bracketed args : Forall (fun a => bracketed 0 a = true) args -> bracketed 0 (with_commas args) = true.
Proof.
  intros F. induction F as [|a args A F IH]; [reflexivity|]. destruct args as [|b args]; [exact A|].
  change (with_commas (a :: b :: args)) with (a ++ TOp "," :: with_commas (b :: args)). apply bracketed_both; [exact A|]. exact IH.
Qed.
Lemma toks_plain_joined args : toks (joined (map (with_h []) args)) = with_commas args.
Proof. rewrite toks_joined, map_map, map_toks. reflexivity. Qed.
Lemma place_shown w s brk place0 pretty gcc : has_all w s brk place0 pretty gcc -> shown w (s_err s) (place_of place0 pretty) /\ bracketed 0 (place_of place0 pretty) = true.
Proof.
  intros A. destruct (a_place _ _ _ _ _ _ A) as (c & I & Tk). assert (P := h_prettyn _ _ _ _ _ (a_has _ _ _ _ _ _ A)). clear A.
  assert (Q : exists f, In (c, f) place_texts /\ place_of place0 pretty = lex (f pretty) /\ bracketed 0 (place_of place0 pretty) = true).
  { cbn [place_conds map error_places fst snd] in I. destruct I as [E|[E|[E|[]]]]; injection E as <- <-; unfold place_texts.
    - eexists. split; [left; reflexivity|]. destruct P as [<-|[<-|[]]]; split; vm_compute; reflexivity.
    - eexists. split; [right; left; reflexivity|]. destruct P as [<-|[<-|[]]]; split; vm_compute; reflexivity.
    - eexists. split; [right; right; left; reflexivity|]. destruct P as [<-|[<-|[]]]; split; vm_compute; reflexivity. }
  destruct Q as (f & If & E & B). split; [|exact B]. exists c, f, pretty. split; [exact If|]. split; [exact P|]. split; [exact Tk|exact E].
Qed.
Lemma inner_do brk place args : exists inner, error_text brk place args = TId "do" :: inner.
Proof. unfold error_text. eexists. cbn [lex app]. reflexivity. Qed.
Lemma check_single brk place args test : In brk breaks -> bracketed 0 place = true -> bracketed 0 args = true -> bracketed 0 test = true ->
  single (check_text test (error_text brk place args)) (check_stmt test (error_stmt brk place args)).
Proof.
  intros Ib Bp Ba Bt rest. destruct (inner_do brk place args) as (inner & E). exists (18 + 0)%nat. rewrite E. apply check_parse; [exact Bt|].
  intros rest'. change (TId "do" :: inner ++ TOp ";" :: rest') with ((TId "do" :: inner) ++ TOp ";" :: rest'). rewrite <- E. apply error_parse; assumption.
Qed.
Lemma error_single brk place args : In brk breaks -> bracketed 0 place = true -> bracketed 0 args = true -> single (error_text brk place args) (error_stmt brk place args).
Proof. intros Ib Bp Ba rest. exists (12 + 0)%nat. apply error_parse; assumption. Qed.

Section With.
Variables (w : world) (s : setting).
Variables (brk place0 : list tok) (pretty : string) (gcc : bool).
Hypothesis A : has_all w s brk place0 pretty gcc.
Notation T := (macros (all_defs s)).
Notation HT := (a_has _ _ _ _ _ _ A).
Notation place := (place_of place0 pretty).
Lemma to_raising l args : yields T (plain_toks l) (error_text brk place args) -> bracketed 0 args = true -> raising w s l args.
Proof.
  intros Y B. destruct (place_shown _ _ _ _ _ _ A) as [Sh Bp]. exists (error_text brk place args), (error_stmt brk place args), place.
  split; [apply yields_becomes, Y|]. assert (Ib := h_brk _ _ _ _ _ HT). split; [apply error_single; assumption|]. split; [exact Sh|]. intros truth. apply error_raises, Ib.
Qed.
Lemma to_checking l cond args : yields T (plain_toks l) (check_text (test_of gcc (negated cond)) (error_text brk place args)) -> bracketed 0 args = true -> one_arg cond -> bracketed 0 cond = true ->
  checking w s l cond args.
Proof.
  intros Y B O Bc. destruct (place_shown _ _ _ _ _ _ A) as [Sh Bp]. assert (Ib := h_brk _ _ _ _ _ HT).
  exists (check_text (test_of gcc (negated cond)) (error_text brk place args)), (check_stmt (test_of gcc (negated cond)) (error_stmt brk place args)), place.
  split; [apply yields_becomes, Y|]. split; [apply check_single; try assumption; apply test_bracketed, negated_bracketed, Bc|]. split; [exact Sh|].
  apply check_ok; [exact O|]. intros truth. apply error_raises, Ib.
Qed.
Lemma to_guarding l cond args : yields T (plain_toks l) (check_text (test_of gcc cond) (error_text brk place args)) -> bracketed 0 args = true -> one_arg cond -> bracketed 0 cond = true ->
  guarding w s l cond args.
Proof.
  intros Y B O Bc. destruct (place_shown _ _ _ _ _ _ A) as [Sh Bp]. assert (Ib := h_brk _ _ _ _ _ HT).
  exists (check_text (test_of gcc cond) (error_text brk place args)), (check_stmt (test_of gcc cond) (error_stmt brk place args)), place.
  split; [apply yields_becomes, Y|]. split; [apply check_single; try assumption; apply test_bracketed, Bc|]. split; [exact Sh|].
  apply guard_ok; [exact O|]. intros truth. apply error_raises, Ib.
Qed.
Definition all_names : list string := ["C4_CHECK"; "C4_CHECK_MSG"; "C4_UNLIKELY"; "C4_ERROR"; "C4_DEBUG_BREAK"; "C4_SRCLOC"; "C4_PRETTY_FUNC"].
Lemma y_check_plain h h1 h2 c : arg_ok c -> inert T c -> (forall x, In x all_names -> mem_s x h = false) ->
  yields T ((TId "C4_CHECK", h) :: (TOp "(", h1) :: c ++ [(TOp ")", h2)])
    (check_text (test_of gcc (negated (toks c))) (error_text brk place (fmt_args "check failed: %s" (toks c)))).
Proof. intros Ok I M. apply (y_check T brk place0 pretty gcc HT); [exact Ok|exact I|]. intros x J. apply M. clear -J. cbn [In all_names] in *. tauto. Qed.
Definition msg_args (c fmt : list tok) (args : list (list tok)) : list tok := TStr "check failed: " :: quoted c :: TStr "\n" :: with_commas (fmt :: args).
Lemma y_check_msg_plain h h1 h2 c fmt args l : listed (c :: fmt :: args) l -> Forall arg_ok (c :: fmt :: args) -> Forall (inert T) (c :: fmt :: args) -> Forall (fun a => a <> []) args ->
  (forall x, In x all_names -> mem_s x h = false) ->
  yields T ((TId "C4_CHECK_MSG", h) :: (TOp "(", h1) :: l ++ [(TOp ")", h2)])
    (check_text (test_of gcc (negated (toks c))) (error_text brk place (msg_args (toks c) (toks fmt) (map toks args)))).
Proof.
  intros L F I Ne M.
  replace (msg_args (toks c) (toks fmt) (map toks args)) with ((TStr "check failed: " :: quoted (toks c) :: TStr "\n" :: toks fmt) ++ more (toks (joined args))).
  - apply (y_check_msg T brk place0 pretty gcc HT); try assumption. intros x J. apply M. clear -J. cbn [In all_names] in *. tauto.
  - unfold msg_args. rewrite toks_joined. rewrite <- more_commas; [reflexivity|]. clear -Ne. induction Ne as [|a args N Ne IH]; cbn [map]; constructor; [destruct a; [congruence|discriminate]|exact IH].
Qed.
Lemma error_top msg args : Forall (argument (all_defs s)) (msg :: args) -> nonempty args -> raising w s (call "C4_ERROR" (msg :: args)) (with_commas (msg :: args)).
Proof.
  intros F Ne. destruct (split_args _ _ F) as (O & N & B). apply to_raising; [|apply commas_bracketed, B].
  rewrite plain_call. assert (Q : with_commas (msg :: args) = toks (with_h [] msg) ++ more (toks (joined (map (with_h []) args)))) by (rewrite toks_plain_joined, toks_with; symmetry; apply more_commas, Ne).
  rewrite Q at 2.
  apply (y_error T brk place0 pretty gcc HT [] [] [] (with_h [] msg) (map (with_h []) args)); try reflexivity.
  - apply (listed_plain [] (msg :: args)). discriminate.
  - apply (ready_ok (msg :: args) N).
  - apply (ready_inert _ (msg :: args) O).
Qed.
Lemma check_top c : argument (all_defs s) c -> checking w s (call "C4_CHECK" [c]) c (fmt_args "check failed: %s" c).
Proof.
  intros (O & N & B). apply to_checking; [|reflexivity|exact N|exact B]. rewrite plain_call. cbn [with_commas]. rewrite <- (toks_with [] c) at 2 3.
  apply y_check_plain; [unfold arg_ok; rewrite toks_with; exact N|apply own_inert, O|reflexivity].
Qed.
Lemma msg_bracketed c fmt args : Forall (fun a => bracketed 0 a = true) (fmt :: args) -> bracketed 0 (msg_args c fmt args) = true.
Proof. intros F. unfold msg_args. rewrite !bracketed_step. cbn [opens closes is_op orb quoted stringized]. apply commas_bracketed, F. Qed.
Lemma check_msg_top c fmt args : Forall (argument (all_defs s)) (c :: fmt :: args) -> nonempty args -> checking w s (call "C4_CHECK_MSG" (c :: fmt :: args)) c (msg_args c fmt args).
Proof.
  intros F Ne. destruct (split_args _ _ F) as (O & N & B). inversion N; subst. inversion B; subst. apply to_checking; [|apply msg_bracketed; assumption|assumption|assumption].
  rewrite plain_call. rewrite <- (toks_with [] c) at 2 3. rewrite <- (toks_with [] fmt) at 2. rewrite <- (map_toks args) at 2. rewrite <- map_map.
  apply y_check_msg_plain.
  - apply (listed_plain [] (c :: fmt :: args)). discriminate.
  - apply (ready_ok (c :: fmt :: args)). assumption.
  - apply (ready_inert _ (c :: fmt :: args) O).
  - clear -Ne. induction Ne as [|a args N Ne IH]; cbn [map]; constructor; [destruct a; [congruence|discriminate]|exact IH].
  - reflexivity.
Qed.
(** the assertions *)
Lemma y_assert x h h1 h2 c : T x = Some (fn_macro ["cond"] false "C4_CHECK(cond)") -> (forall y, In y (x :: all_names) -> mem_s y h = false) -> (forall y, In y all_names -> String.eqb y x = false) ->
  arg_ok c -> inert T c ->
  yields T ((TId x, h) :: (TOp "(", h1) :: c ++ [(TOp ")", h2)]) (check_text (test_of gcc (negated (toks c))) (error_text brk place (fmt_args "check failed: %s" (toks c)))).
Proof.
  intros E M Nx Ok I. set (H := x :: inter h h2).
  eapply (yields_call T x h h1 h2 ["cond"] false _ [c] c [("cond", c)] [c]);
    [apply M; left; reflexivity|exact E|constructor|constructor; [exact Ok|constructor]|reflexivity|constructor; [apply gives_self, I|constructor]|reflexivity|].
  fold H. cbn [List.concat app]. rewrite <- (toks_hide H c).
  match goal with |- yields T ?g0 _ => replace g0 with ((TId "C4_CHECK", H ++ []) :: (TOp "(", H ++ []) :: hide H c ++ [(TOp ")", H ++ [])]) by (cbn [hide map fst snd]; rewrite map_app; reflexivity) end.
  apply y_check_plain; [apply arg_hide, Ok|apply inert_hide, I|]. intros y J. rewrite app_nil_r. apply mem_cons; [apply Nx, J|]. apply mem_inter, M. right. exact J.
Qed.
Lemma y_assert_msg x h h1 h2 c fmt args l : T x = Some (fn_macro ["cond"] true "C4_CHECK_MSG(cond, ## __VA_ARGS__)") -> (forall y, In y (x :: all_names) -> mem_s y h = false) ->
  (forall y, In y all_names -> String.eqb y x = false) ->
  listed (c :: fmt :: args) l -> Forall arg_ok (c :: fmt :: args) -> Forall (inert T) (c :: fmt :: args) -> fmt <> [] -> Forall (fun a => a <> []) args ->
  yields T ((TId x, h) :: (TOp "(", h1) :: l ++ [(TOp ")", h2)]) (check_text (test_of gcc (negated (toks c))) (error_text brk place (msg_args (toks c) (toks fmt) (map toks args)))).
Proof.
  intros E M Nx L F I Nf Ne. set (H := x :: inter h h2). inversion I as [|? ? Ic Ir]; subst. inversion F as [|? ? Fc Fr]; subst.
  set (va := joined (fmt :: args)).
  assert (Lv : listed (fmt :: args) va) by (apply listed_joined; discriminate).
  assert (Ij : inert T va) by (eapply inert_listed; [exact Lv|exact Ir]).
  assert (Nv : exists t v, va = t :: v) by (unfold va; destruct fmt as [|t f]; [congruence|]; destruct args; eexists _, _; reflexivity).
  eapply (yields_call T x h h1 h2 ["cond"] true _ (c :: fmt :: args) l [("cond", c); (va_name, va)] [c; va]);
    [apply M; left; reflexivity|exact E|exact L|exact F|reflexivity|constructor; [apply gives_self, Ic|constructor; [apply gives_self, Ij|constructor]]|reflexivity|].
  fold H. cbn [List.concat app]. rewrite <- (toks_hide H c), <- (toks_hide H fmt).
  replace (map toks args) with (map toks (map (hide H) args)) by (rewrite map_map; apply map_ext; intros; apply toks_hide).
  match goal with |- yields T ?g0 _ => replace g0 with ((TId "C4_CHECK_MSG", H ++ []) :: (TOp "(", H ++ []) :: (hide H c ++ (TOp ",", H ++ []) :: hide H va) ++ [(TOp ")", H ++ [])]) end.
  - apply y_check_msg_plain.
    + apply l_more. apply (listed_hide H _ _ Lv).
    + constructor; [apply arg_hide, Fc|]. apply (map_hide_ok H (fmt :: args) Fr).
    + constructor; [apply inert_hide, Ic|]. clear -Ir. change (hide H fmt :: map (hide H) args) with (map (hide H) (fmt :: args)). induction Ir; cbn [map]; constructor; [apply inert_hide|]; assumption.
    + clear -Ne. induction Ne as [|a args N Ne IH]; cbn [map]; constructor; [destruct a; [congruence|discriminate]|exact IH].
    + intros y J. rewrite app_nil_r. apply mem_cons; [apply Nx, J|]. apply mem_inter, M. right. exact J.
  - destruct Nv as (t & v & ->). cbn [hide map fst snd app]. rewrite ?map_app. cbn [map app fst snd]. rewrite ?map_app. unfold hide. repeat (progress (rewrite <- ?app_assoc; cbn [app map fst snd])). reflexivity.
Qed.
Lemma empty_top x ps va args ba es : T x = Some (fn_macro ps va "") -> Forall (argument (all_defs s)) args -> bind ps va (map (with_h []) args) = Some ba ->
  args <> [] -> Forall2 (fun q e => gives T (snd q) (Val e)) ba es -> becomes (all_defs s) (call x args) [].
Proof.
  intros E F B N G. destruct (split_args _ _ F) as (O & N1 & _). apply yields_becomes. rewrite plain_call.
  eapply (yields_call T x [] [] [] ps va [] (map (with_h []) args) _ ba es []); [reflexivity|exact E|apply listed_plain, N|apply ready_ok, N1|exact B|exact G|reflexivity|].
  exists []. split; [reflexivity|]. intros r v R. cbn [List.concat hide map app]. destruct v; exact R.
Qed.
Lemma is_switch x c : In (x, c) asserts -> exists rest, In (x, fn_macro ["cond"] false "C4_CHECK(cond)", fn_macro ["cond"] false "", c) rest /\ rest = switches
  /\ In ((x ++ "_MSG")%string, fn_macro ["cond"] true "C4_CHECK_MSG(cond, ## __VA_ARGS__)", fn_macro ["cond"] true "", c) switches
  /\ In ((x ++ "_IF")%string, fn_macro ["predicate"; "cond"] false ("if(predicate) { " ++ x ++ "(cond); }"), fn_macro ["predicate"; "cond"] false "", c) switches
  /\ (forall y, In y all_names -> String.eqb y x = false) /\ (forall y, In y all_names -> String.eqb y (x ++ "_MSG") = false) /\ (forall y, In y (x :: all_names) -> String.eqb y (x ++ "_IF") = false).
Proof.
  intros [E|[E|[]]]; injection E as <- <-; exists switches; unfold switches;
  (split; [simpl; tauto|]; split; [reflexivity|]; split; [simpl; tauto|]; split; [simpl; tauto|]; repeat split; intros y J; cbn [In all_names] in J; decompose [or] J; subst; try reflexivity; contradiction).
Qed.
Lemma assert_top x c cnd : In (x, cnd) asserts -> argument (all_defs s) c ->
  (taken w (s_err s) cnd /\ checking w s (call x [c]) c (fmt_args "check failed: %s" c)) \/ (skipped w (s_err s) cnd /\ becomes (all_defs s) (call x [c]) []).
Proof.
  intros I Ar. destruct (is_switch _ _ I) as (? & J & -> & _ & _ & N1 & _). assert (Q := a_switch _ _ _ _ _ _ A _ J). cbn [switched_in] in Q.
  destruct Q as [[E Tk]|[E Tk]]; [left|right]; (split; [exact Tk|]).
  - destruct Ar as (O & N & B). apply to_checking; [|reflexivity|exact N|exact B]. rewrite plain_call. cbn [with_commas]. rewrite <- (toks_with [] c) at 2 3.
    apply y_assert; [exact E|reflexivity|exact N1|unfold arg_ok; rewrite toks_with; exact N|apply own_inert, O].
  - eapply (empty_top x _ _ [c] [("cond", with_h [] c)] [with_h [] c]); [exact E|constructor; [exact Ar|constructor]|reflexivity|discriminate|constructor; [|constructor]].
    apply gives_self, own_inert, Ar.
Qed.
Lemma assert_msg_top x c fmt args cnd : In (x, cnd) asserts -> Forall (argument (all_defs s)) (c :: fmt :: args) -> nonempty (fmt :: args) ->
  (taken w (s_err s) cnd /\ checking w s (call (x ++ "_MSG") (c :: fmt :: args)) c (msg_args c fmt args)) \/ (skipped w (s_err s) cnd /\ becomes (all_defs s) (call (x ++ "_MSG") (c :: fmt :: args)) []).
Proof.
  intros I F Ne. destruct (is_switch _ _ I) as (? & _ & _ & J & _ & _ & N1 & _). assert (Q := a_switch _ _ _ _ _ _ A _ J). cbn [switched_in] in Q.
  destruct (split_args _ _ F) as (O & N & B). inversion Ne; subst.
  destruct Q as [[E Tk]|[E Tk]]; [left|right]; (split; [exact Tk|]).
  - inversion N; subst. inversion B; subst. apply to_checking; [|apply msg_bracketed; assumption|assumption|assumption].
    rewrite plain_call. rewrite <- (toks_with [] c) at 2 3. rewrite <- (toks_with [] fmt) at 2. rewrite <- (map_toks args) at 2. rewrite <- map_map.
    apply y_assert_msg; [exact E|reflexivity|exact N1|apply (listed_plain [] (c :: fmt :: args)); discriminate|apply (ready_ok (c :: fmt :: args)); assumption|apply (ready_inert _ (c :: fmt :: args) O)| |].
    + destruct fmt; [congruence|discriminate].
    + match goal with H : Forall (fun a => a <> []) args |- _ => clear -H; induction H as [|a args N Ne IH]; cbn [map]; constructor; [destruct a; [congruence|discriminate]|exact IH] end.
  - assert (Fi := ready_inert _ _ O). inversion Fi as [|? ? Ic Ir]; subst.
    eapply (empty_top _ _ _ (c :: fmt :: args) [("cond", with_h [] c); (va_name, joined (map (with_h []) (fmt :: args)))] [with_h [] c; joined (map (with_h []) (fmt :: args))]);
      [exact E|exact F|reflexivity|discriminate|].
    constructor; [apply gives_self, Ic|constructor; [|constructor]]. apply gives_self. eapply inert_listed; [apply listed_joined; discriminate|exact Ir].
Qed.
(** without a message *)
Lemma assert_no_msg x c cnd : In (x, cnd) asserts -> argument (all_defs s) c ->
  (taken w (s_err s) cnd /\ ill_formed (all_defs s) (call (x ++ "_MSG") [c])) \/ (skipped w (s_err s) cnd /\ becomes (all_defs s) (call (x ++ "_MSG") [c]) []).
Proof.
  intros I Ar. destruct (is_switch _ _ I) as (? & _ & _ & J & _ & _ & N1 & _). assert (Q := a_switch _ _ _ _ _ _ A _ J). cbn [switched_in] in Q.
  assert (Ic : inert T (with_h [] c)) by (apply own_inert, Ar). assert (Oc : arg_ok (with_h [] c)) by (unfold arg_ok; rewrite toks_with; apply Ar).
  destruct Q as [[E Tk]|[E Tk]]; [left|right]; (split; [exact Tk|]).
  - apply gives_ill. rewrite plain_call. set (y := (x ++ "_MSG")%string) in *.
    eapply (gives_call T y [] [] ["cond"] true _ _ [with_h [] c] [] [] [("cond", with_h [] c); (va_name, [])] [with_h [] c; []]);
      [reflexivity|exact E|apply collect_listed; [constructor|constructor; [exact Oc|constructor]]|reflexivity|constructor; [apply gives_self, Ic|constructor; [apply gives_self, inert_nil|constructor]]|reflexivity|].
    cbn [List.concat app]. set (H := y :: inter [] []).
    match goal with |- gives T ?g0 _ => replace g0 with ((TId "C4_CHECK_MSG", H ++ []) :: (TOp "(", H ++ []) :: hide H (with_h [] c) ++ (TOp ")", H ++ []) :: []) by (cbn [hide map fst snd app]; rewrite ?map_app, ?app_nil_r; reflexivity) end.
    eapply gives_wrong; [|apply (h_check_msg _ _ _ _ _ HT)|apply collect_listed; [constructor|constructor; [apply arg_hide, Oc|constructor]]|reflexivity].
    rewrite app_nil_r. apply mem_cons; [apply N1; simpl; tauto|reflexivity].
  - eapply (empty_top _ _ _ [c] [("cond", with_h [] c); (va_name, [])] [with_h [] c; []]); [exact E|constructor; [exact Ar|constructor]|reflexivity|discriminate|].
    constructor; [apply gives_self, Ic|constructor; [apply gives_self, inert_nil|constructor]].
Qed.
(** a comma made by C4_COMMA inside of an assertion's condition *)
Lemma assert_comma x a b cnd : In (x, cnd) asserts -> own (all_defs s) a -> own (all_defs s) b -> one_arg a -> one_arg b ->
  (taken w (s_err s) cnd /\ ill_formed (all_defs s) (call x [a ++ TId "C4_COMMA" :: b])) \/ (skipped w (s_err s) cnd /\ becomes (all_defs s) (call x [a ++ TId "C4_COMMA" :: b]) []).
Proof.
  intros I Oa Ob Na Nb. destruct (is_switch _ _ I) as (? & J & -> & _ & _ & N1 & _). assert (Q := a_switch _ _ _ _ _ _ A _ J). cbn [switched_in] in Q.
  set (c := a ++ TId "C4_COMMA" :: b).
  assert (Nc : one_arg c) by (unfold one_arg, c; rewrite (nested_piece a 0 0 _ Na : nested 0 (a ++ TId "C4_COMMA" :: b) = _), nested_step; exact Nb).
  assert (G : gives T (with_h [] c) (Val (with_h [] a ++ (TOp ",", ["C4_COMMA"]) :: with_h [] b))).
  { unfold c, with_h. rewrite map_app. cbn [map]. apply (gives_inert T _ _ (Val ((TOp ",", ["C4_COMMA"]) :: with_h [] b))); [apply own_inert, Oa|].
    eapply gives_obj; [reflexivity|apply (a_comma _ _ _ _ _ _ A)|reflexivity|]. cbn [List.concat app hide map fst snd].
    apply gives_self, inert_cons; [exact Logic.I|]. apply own_inert, Ob. }
  assert (Oc : arg_ok (with_h [] c)) by (unfold arg_ok; rewrite toks_with; exact Nc).
  destruct Q as [[E Tk]|[E Tk]]; [left|right]; (split; [exact Tk|]).
  - apply gives_ill. rewrite plain_call. cbn [with_commas].
    eapply (gives_call T x [] [] ["cond"] false _ _ [with_h [] c] [] [] [("cond", with_h [] c)] [_]);
      [reflexivity|exact E|apply collect_listed; [constructor|constructor; [exact Oc|constructor]]|reflexivity|constructor; [exact G|constructor]|reflexivity|].
    cbn [List.concat app]. set (H := x :: inter [] []).
    match goal with |- gives T ?g0 _ => replace g0 with ((TId "C4_CHECK", H ++ []) :: (TOp "(", H ++ []) :: (hide H (with_h [] a) ++ (TOp ",", H ++ ["C4_COMMA"]) :: hide H (with_h [] b)) ++ (TOp ")", H ++ []) :: [])
      by (cbn [hide map fst snd app]; rewrite ?map_app; cbn [map app fst snd]; rewrite ?app_nil_r; repeat (progress (rewrite <- ?app_assoc; cbn [app])); reflexivity) end.
    eapply gives_wrong; [|apply (h_check _ _ _ _ _ HT)|apply collect_listed; [apply l_more, l_one|constructor; [apply arg_hide|constructor; [apply arg_hide|constructor]]; unfold arg_ok; rewrite toks_with; assumption]|reflexivity].
    rewrite app_nil_r. apply mem_cons; [apply N1; simpl; tauto|reflexivity].
  - apply yields_becomes. rewrite plain_call. cbn [with_commas].
    eapply (yields_call T x [] [] [] ["cond"] false [] [with_h [] c] _ [("cond", with_h [] c)] [_] []); [reflexivity|exact E|constructor|constructor; [exact Oc|constructor]|reflexivity|constructor; [exact G|constructor]|reflexivity|].
    exists []. split; [reflexivity|]. intros r v R. cbn [List.concat hide map app]. destruct v; exact R.
Qed.
(** a comma outside of parentheses *)
Lemma check_comma a b : one_arg a -> one_arg b -> ill_formed (all_defs s) (call "C4_CHECK" [a; b]).
Proof.
  intros Na Nb. apply gives_ill. rewrite plain_call.
  eapply gives_wrong; [reflexivity|apply (h_check _ _ _ _ _ HT)|apply collect_listed; [apply (listed_plain [] [a; b]); discriminate|]|reflexivity].
  constructor; [|constructor; [|constructor]]; unfold arg_ok; rewrite toks_with; assumption.
Qed.
(** C4_ASSERT_IF *)
Lemma assert_if_top x p c cnd : In (x, cnd) asserts -> argument (all_defs s) p -> argument (all_defs s) c ->
  (taken w (s_err s) cnd /\ exists st place, shown w (s_err s) place /\ checked st c place (fmt_args "check failed: %s" c) /\
     exists r, becomes (all_defs s) (call (x ++ "_IF") [p; c]) r /\ (forall t rest, word "else" t = false -> exists n, statement n (r ++ t :: rest) = Some (SIf p (SBlock [st]) None, t :: rest)))
  \/ (skipped w (s_err s) cnd /\ becomes (all_defs s) (call (x ++ "_IF") [p; c]) []).
Proof.
  intros I Ap Ac. destruct (is_switch _ _ I) as (? & J1 & -> & _ & J & N1 & _ & N2). assert (Q := a_switch _ _ _ _ _ _ A _ J). assert (Q1 := a_switch _ _ _ _ _ _ A _ J1). cbn [switched_in] in Q, Q1.
  assert (Ic : inert T (with_h [] c)) by (apply own_inert, Ac). assert (Oc : arg_ok (with_h [] c)) by (unfold arg_ok; rewrite toks_with; apply Ac).
  assert (Ip : inert T (with_h [] p)) by (apply own_inert, Ap). assert (Op : arg_ok (with_h [] p)) by (unfold arg_ok; rewrite toks_with; apply Ap).
  destruct Q as [[E Tk]|[E Tk]]; [left|right]; (split; [exact Tk|]).
  - assert (E1 : T x = Some (fn_macro ["cond"] false "C4_CHECK(cond)")).
    { destruct Q1 as [[E1 _]|[_ Tk1]]; [exact E1|]. exfalso. destruct Tk as (z & V & Nz). unfold skipped in Tk1. rewrite Tk1 in V. injection V as <-. apply Nz. reflexivity. }
    destruct (place_shown _ _ _ _ _ _ A) as [Sh Bp]. assert (Ib := h_brk _ _ _ _ _ HT).
    exists (check_stmt (test_of gcc (negated c)) (error_stmt brk place (fmt_args "check failed: %s" c))), place. split; [exact Sh|].
    split; [apply check_ok; [apply Ac|]; intros truth; apply error_raises, Ib|].
    set (ct := check_text (test_of gcc (negated c)) (error_text brk place (fmt_args "check failed: %s" c))).
    exists (lex "if(" ++ p ++ lex ") {" ++ ct ++ lex "; }"). split.
    + apply yields_becomes. rewrite plain_call. set (y := (x ++ "_IF")%string) in *. set (H := y :: inter [] []).
      assert (S : exists cells, subst true (zip_env [("predicate", with_h [] p); ("cond", with_h [] c)] [with_h [] p; with_h [] c]) false (lex ("if(predicate) { " ++ x ++ "(cond); }")) = Val cells /\
        hide H (List.concat cells) = with_h (H ++ []) (lex "if(") ++ hide H (with_h [] p) ++ with_h (H ++ []) (lex ") {") ++ ((TId x, H ++ []) :: (TOp "(", H ++ []) :: hide H (with_h [] c) ++ [(TOp ")", H ++ [])]) ++ with_h (H ++ []) (lex "; }")).
      { destruct I as [K|[K|[]]]; injection K as <- _; eexists; (split; [reflexivity|]); generalize H as K0; intros K0; cbn [List.concat app]; rewrite ?hide_app; cbn [hide map fst snd app with_h lex]; unfold hide, with_h; rewrite ?map_app; cbn [map fst snd app lex]; rewrite ?map_app; repeat (progress (rewrite <- ?app_assoc; cbn [app map fst snd])); reflexivity. }
      destruct S as (cells & S & Hc).
      eapply (yields_call T y [] [] [] ["predicate"; "cond"] false _ [with_h [] p; with_h [] c] _ [("predicate", with_h [] p); ("cond", with_h [] c)] [with_h [] p; with_h [] c] cells);
        [reflexivity|exact E|apply (listed_plain [] [p; c]); discriminate|constructor; [exact Op|constructor; [exact Oc|constructor]]|reflexivity|constructor; [apply gives_self, Ip|constructor; [apply gives_self, Ic|constructor]]|exact S|].
      fold H. rewrite Hc. apply yields_app; [apply (y_safe T brk place0 pretty gcc HT); reflexivity|].
      apply yields_app; [replace p with (toks (hide H (with_h [] p))) at 2 by (rewrite toks_hide; apply toks_with); apply yields_inert, inert_hide, Ip|].
      apply yields_app; [apply (y_safe T brk place0 pretty gcc HT); reflexivity|]. apply yields_app; [|apply (y_safe T brk place0 pretty gcc HT); reflexivity].
      unfold ct. rewrite <- (toks_with [] c) at 2 3. rewrite <- (toks_hide H (with_h [] c)).
      apply y_assert; [exact E1| |exact N1|apply arg_hide, Oc|apply inert_hide, Ic]. intros z Jz. rewrite app_nil_r. apply mem_cons; [apply N2, Jz|reflexivity].
    + intros t rest W. destruct (check_single brk place (fmt_args "check failed: %s" c) (test_of gcc (negated c)) Ib Bp eq_refl (test_bracketed gcc _ (negated_bracketed _ (proj2 (proj2 Ac)))) (TOp "}" :: t :: rest)) as (n & P).
      fold ct in P. assert (Hd : exists q, ct = TId "do" :: q) by (unfold ct, check_text; eexists; cbn [lex app]; reflexivity). destruct Hd as (q & Eq).
      exists (S (S (S (S n)))). replace ((lex "if(" ++ p ++ lex ") {" ++ ct ++ lex "; }") ++ t :: rest) with (TId "if" :: TOp "(" :: p ++ TOp ")" :: TOp "{" :: ct ++ TOp ";" :: TOp "}" :: t :: rest)
        by (repeat (progress (rewrite <- ?app_assoc; cbn [app lex])); reflexivity).
      eapply st_if; [apply upto_close, Ap| |exact W]. apply st_block. rewrite Eq in *. cbn [app] in *. eapply bl_more; [reflexivity|apply parse_more, P|apply bl_end].
  - eapply (empty_top _ _ _ [p; c] [("predicate", with_h [] p); ("cond", with_h [] c)] [with_h [] p; with_h [] c]); [exact E|constructor; [exact Ap|constructor; [exact Ac|constructor]]|reflexivity|discriminate|].
    constructor; [apply gives_self, Ip|constructor; [apply gives_self, Ic|constructor]].
Qed.
End With.
