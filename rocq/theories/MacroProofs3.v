(** C4_FOR_EACH: what it becomes, and why a comma does not separate. *)
From Verif Require Import Base PpModel PpSpec PpText MacroModel MacroSpec MacroProofs MacroProofs2.
From Coq Require Import String Ascii.
Open Scope string_scope.
Open Scope list_scope.
Open Scope Z_scope.

Local Strategy opaque [D0].
Definition paths : list string := ["C4_FOR_EACH_SEP"; "_C4_FOR_EACH_"; "_C4_FOR_EACH_NARG"; "_C4_FOR_EACH_NARG_"; "_C4_FOR_EACH_ARG_N"; "_C4_FOR_EACH_RSEQ_N"; "C4_XCAT"; "_C4_XCAT"; "C4_CAT"; "C4_COMMA"].
Definition unhid (h : list string) : Prop := (forall x, In x paths -> mem_s x h = false) /\ (forall j, mem_s (label j) h = false).
Lemma label_lex_check : forallb (fun n => toks_eqb (lex ("_C4_FOR_EACH_" ++ two_digits n)) [TId (label n)]) (seq 1 32) = true.
Proof. vm_compute. reflexivity. Qed.
Lemma label_lex n : (1 <= n <= 32)%nat -> lex ("_C4_FOR_EACH_" ++ two_digits n) = [TId (label n)].
Proof.
  intros N. assert (C := label_lex_check). rewrite forallb_forall in C. apply PpProofs.toks_eqb_eq, C, in_seq. lia.
Qed.
Ltac free := repeat first [reflexivity | assumption | apply mem_inter | apply mem_cons; [reflexivity|] | apply mem_app].
Section With.
Variable e : defs.
Let T := macros (D0 ++ e).
Lemma each_to_label n a k what sep xs l h h1 hp : (1 <= n <= 32)%nat -> listed (a :: what :: sep :: xs) l -> Forall arg_ok (a :: what :: sep :: xs) ->
  Forall (inert T) (what :: sep :: xs) -> gives T a (Val [(TNum (two_digits n), k)]) -> xs <> [] ->
  (forall j, mem_s (label j) h = false) -> mem_s "_C4_FOR_EACH_" h = false -> mem_s "C4_XCAT" h = false -> mem_s "_C4_XCAT" h = false -> mem_s "C4_CAT" h = false ->
  exists H h2 h3 h4 l', listed (map (hide H) (what :: sep :: xs)) l' /\ (forall j, mem_s (label j) h2 = false)
    /\ forall r v, gives T ((TId (label n), h2) :: (TOp "(", h3) :: l' ++ (TOp ")", h4) :: r) v -> gives T ((TId "_C4_FOR_EACH_", h) :: (TOp "(", h1) :: l ++ (TOp ")", hp) :: r) v.
Proof.
  intros N Li Fa Fi Ga Nx Mj M1 M2 M3 M4.
  inversion Fi as [|? ? Iw Fi2]; subst. inversion Fi2 as [|? ? Is Fi3]; subst. clear Fi2.
  assert (Ij : inert T (joined xs)) by (eapply inert_listed; [apply listed_joined, Nx|assumption]).
  set (H := "_C4_FOR_EACH_" :: inter h hp).
  set (tail := hide H what ++ (TOp ",", H ++ []) :: hide H sep ++ (TOp ",", H ++ []) :: hide H (joined xs)).
  set (H2 := "C4_XCAT" :: inter (H ++ []) (H ++ [])). set (H3 := "_C4_XCAT" :: inter (H2 ++ []) (H2 ++ [])). set (H4 := "C4_CAT" :: inter (H3 ++ []) (H3 ++ [])).
  set (hn := H3 ++ H2 ++ H ++ k). set (ha := H3 ++ H2 ++ H ++ []).
  exists H, (H4 ++ inter ha hn), (H ++ []), (H ++ []), tail. split; [|split].
  { cbn [map]. apply l_more, l_more, listed_hide, listed_joined, Nx. }
  { intros j. assert (Q := Mj j). unfold H4, ha, H3, H2, H. free. }
  intros r v G.
  eapply (gives_call T _ h h1 ["N"; "what"; "sep"] true _ _ (a :: what :: sep :: xs) hp r [("N", a); ("what", what); ("sep", sep); (va_name, joined xs)]
            [[(TNum (two_digits n), k)]; what; sep; joined xs]); [exact M1|apply T_each|apply collect_listed; assumption| | |reflexivity|].
  { destruct xs; [congruence|reflexivity]. }
  { constructor; [exact Ga|]. constructor; [apply gives_self, Iw|]. constructor; [apply gives_self, Is|]. constructor; [apply gives_self, Ij|constructor]. }
  fold H. cbn [List.concat app]. set (rest := (TOp "(", H ++ []) :: tail ++ (TOp ")", H ++ []) :: r).
  match goal with |- gives T ?a _ => replace a with ((TId "C4_XCAT", H ++ []) :: (TOp "(", H ++ []) :: ([(TId "_C4_FOR_EACH_", H ++ [])] ++ (TOp ",", H ++ []) :: [(TNum (two_digits n), H ++ k)]) ++ (TOp ")", H ++ []) :: rest) end.
  2: { unfold rest, tail. cbn [hide map fst snd app]. rewrite ?hide_app, ?map_app. cbn [hide map fst snd app]. rewrite ?map_app. cbn [map fst snd]. rewrite ?map_app. cbn [map fst snd]. rewrite ?app_nil_r.
       unfold hide. repeat (progress (rewrite <- ?app_assoc; cbn [app])). reflexivity. }
  assert (Sn : forall u k', gives T [(TNum u, k')] (Val [(TNum u, k')])) by (intros u k'; apply gives_self; intros x k2 [E|[]]; discriminate).
  assert (Se : forall k', gives T [(TId "_C4_FOR_EACH_", k')] (Val [(TId "_C4_FOR_EACH_", k')])).
  { intros k'. apply (gives_keep T (TId "_C4_FOR_EACH_", k') [] (Val [])); [right; cbn [fst]; unfold T; rewrite T_each; reflexivity|apply gives_nil]. }
  eapply (gives_call T _ _ _ ["arg1"; "arg2"] false _ _ [[(TId "_C4_FOR_EACH_", H ++ [])]; [(TNum (two_digits n), H ++ k)]] _ _ [("arg1", [(TId "_C4_FOR_EACH_", H ++ [])]); ("arg2", [(TNum (two_digits n), H ++ k)])]);
    [unfold H; free|apply T_xcat|apply collect_listed; [apply l_more, l_one|repeat constructor]|reflexivity|constructor; [apply Se|constructor; [apply Sn|constructor]]|reflexivity|].
  fold H2. cbn [List.concat app hide map fst snd].
  change ((TId "_C4_XCAT", H2 ++ []) :: (TOp "(", H2 ++ []) :: (TId "_C4_FOR_EACH_", H2 ++ H ++ []) :: (TOp ",", H2 ++ []) :: (TNum (two_digits n), H2 ++ H ++ k) :: (TOp ")", H2 ++ []) :: rest)
    with ((TId "_C4_XCAT", H2 ++ []) :: (TOp "(", H2 ++ []) :: ([(TId "_C4_FOR_EACH_", H2 ++ H ++ [])] ++ (TOp ",", H2 ++ []) :: [(TNum (two_digits n), H2 ++ H ++ k)]) ++ (TOp ")", H2 ++ []) :: rest).
  eapply (gives_call T _ _ _ ["arg1"; "arg2"] false _ _ [[(TId "_C4_FOR_EACH_", H2 ++ H ++ [])]; [(TNum (two_digits n), H2 ++ H ++ k)]] _ _ [("arg1", [(TId "_C4_FOR_EACH_", H2 ++ H ++ [])]); ("arg2", [(TNum (two_digits n), H2 ++ H ++ k)])]);
    [unfold H2, H; free|apply T_xcat_|apply collect_listed; [apply l_more, l_one|repeat constructor]|reflexivity|constructor; [apply Se|constructor; [apply Sn|constructor]]|reflexivity|].
  fold H3. cbn [List.concat app hide map fst snd].
  change ((TId "C4_CAT", H3 ++ []) :: (TOp "(", H3 ++ []) :: (TId "_C4_FOR_EACH_", H3 ++ H2 ++ H ++ []) :: (TOp ",", H3 ++ []) :: (TNum (two_digits n), H3 ++ H2 ++ H ++ k) :: (TOp ")", H3 ++ []) :: rest)
    with ((TId "C4_CAT", H3 ++ []) :: (TOp "(", H3 ++ []) :: ([(TId "_C4_FOR_EACH_", ha)] ++ (TOp ",", H3 ++ []) :: [(TNum (two_digits n), hn)]) ++ (TOp ")", H3 ++ []) :: rest).
  eapply (gives_call T _ _ _ ["arg1"; "arg2"] false _ _ [[(TId "_C4_FOR_EACH_", ha)]; [(TNum (two_digits n), hn)]] _ _ [("arg1", [(TId "_C4_FOR_EACH_", ha)]); ("arg2", [(TNum (two_digits n), hn)])]);
    [unfold H3, H2, H; free|apply T_cat|apply collect_listed; [apply l_more, l_one|repeat constructor]|reflexivity|constructor; [apply Se|constructor; [apply Sn|constructor]]| |].
  { assert (P : paste (TId "_C4_FOR_EACH_", ha) (TNum (two_digits n), hn) = Val (TId (label n), inter ha hn)).
    { unfold paste. cbn [fst snd raw_text]. rewrite (label_lex n N). reflexivity. }
    cbn [subst is_op String.eqb Ascii.eqb Bool.eqb zip_env fst snd andb]. unfold operand. cbn [arg_of find fst snd String.eqb Ascii.eqb Bool.eqb].
    cbn [xbind glue]. rewrite P. cbn [xbind]. reflexivity. }
  fold H4. cbn [List.concat app hide map fst snd]. unfold rest. exact G.
Qed.

Lemma narg_ok n xs l h h1 h2 : unhid h -> (1 <= n <= 32)%nat -> List.length xs = n -> listed xs l -> Forall arg_ok xs -> Forall (inert T) xs ->
  exists k, gives T ((TId "_C4_FOR_EACH_NARG", h) :: (TOp "(", h1) :: l ++ [(TOp ")", h2)]) (Val [(TNum (two_digits n), k)]).
Proof. intros [U _] N Lx Li Fa Fi. apply narg with (xs := xs); auto; apply U; unfold paths; cbn; tauto. Qed.
Lemma unhid_cons x h hp : unhid h -> mem_s x ["_C4_FOR_EACH_"; "_C4_FOR_EACH_NARG"; "_C4_FOR_EACH_NARG_"; "_C4_FOR_EACH_ARG_N"; "_C4_FOR_EACH_RSEQ_N"; "C4_XCAT"; "_C4_XCAT"; "C4_CAT"; "C4_COMMA"] = false ->
  (forall j, String.eqb (label j) x = false) -> forall y, y <> "C4_FOR_EACH_SEP" -> In y paths -> mem_s y ((x :: inter h hp) ++ []) = false.
Proof.
  intros [U _] M L y Ny I. rewrite app_nil_r. apply mem_cons; [|apply mem_inter, U, I].
  destruct I as [<-|I]; [congruence|]. destruct (String.eqb_spec y x) as [->|]; [|reflexivity]. exfalso.
  assert (Q : mem_s x ["_C4_FOR_EACH_"; "_C4_FOR_EACH_NARG"; "_C4_FOR_EACH_NARG_"; "_C4_FOR_EACH_ARG_N"; "_C4_FOR_EACH_RSEQ_N"; "C4_XCAT"; "_C4_XCAT"; "C4_CAT"; "C4_COMMA"] = true);
    [unfold mem_s; apply existsb_exists; exists x; split; [exact I|apply String.eqb_refl]|congruence].
Qed.
(** what C4_FOR_EACH_SEP puts in front of its parts *)
Lemma sep_to_each n what sep sep' xs l h h1 hp : (1 <= n <= 32)%nat -> List.length xs = n -> listed (what :: sep :: xs) l -> Forall arg_ok (what :: sep :: xs) ->
  Forall (inert T) (what :: xs) -> gives T sep (Val sep') -> unhid h ->
  exists H a k l', gives T a (Val [(TNum (two_digits n), k)]) /\ arg_ok a /\ listed (map (hide H) xs) l'
    /\ (forall j, mem_s (label j) (H ++ []) = false) /\ (forall x, x <> "C4_FOR_EACH_SEP" -> In x paths -> mem_s x (H ++ []) = false)
    /\ forall r v, gives T ((TId "_C4_FOR_EACH_", H ++ []) :: (TOp "(", H ++ []) :: (a ++ (TOp ",", H ++ []) :: hide H what ++ (TOp ",", H ++ []) :: hide H sep' ++ (TOp ",", H ++ []) :: l') ++ (TOp ")", H ++ []) :: r) v ->
         gives T ((TId "C4_FOR_EACH_SEP", h) :: (TOp "(", h1) :: l ++ (TOp ")", hp) :: r) v.
Proof.
  intros N Lx Li Fa Fi Gs U. assert (Nx : xs <> []) by (intros ->; cbn in Lx; lia).
  inversion Fi as [|? ? Iw Fi2]; subst. inversion Fa as [|? ? Aw Fa2]; subst. inversion Fa2 as [|? ? As Fa3]; subst. clear Fa2.
  assert (Ij : inert T (joined xs)) by (eapply inert_listed; [apply listed_joined, Nx|assumption]).
  set (H := "C4_FOR_EACH_SEP" :: inter h hp).
  assert (Uh : unhid (inter h hp)) by (destruct U as [U1 U2]; split; intros; apply mem_inter; auto).
  assert (Mj : forall j, mem_s (label j) (H ++ []) = false).
  { intros j. rewrite app_nil_r. unfold H. apply mem_cons; [reflexivity|apply Uh]. }
  assert (Mp : forall x, x <> "C4_FOR_EACH_SEP" -> In x paths -> mem_s x (H ++ []) = false).
  { intros x Nx' I. apply unhid_cons; [exact U|reflexivity|reflexivity|exact Nx'|exact I]. }
  destruct (narg e (List.length xs) (map (hide H) xs) (hide H (joined xs)) (H ++ []) (H ++ []) (H ++ [])) as (k & Gn);
    [lia|apply map_length|apply hide_joined, Nx|apply map_hide_ok, Fa3|apply map_hide_inert, Fi2|apply Mp; [discriminate|cbn; tauto]..|].
  exists H, ((TId "_C4_FOR_EACH_NARG", H ++ []) :: (TOp "(", H ++ []) :: hide H (joined xs) ++ [(TOp ")", H ++ [])]), k, (hide H (joined xs)).
  split; [exact Gn|]. split; [eapply call_arg; [apply hide_joined, Nx|apply map_hide_ok, Fa3]|]. split; [apply hide_joined, Nx|]. split; [exact Mj|]. split; [exact Mp|].
  intros r v G.
  eapply (gives_call T _ h h1 ["what"; "sep"] true _ _ (what :: sep :: xs) hp r [("what", what); ("sep", sep); (va_name, joined xs)] [what; sep'; joined xs]);
    [apply U; left; reflexivity|apply T_sep|apply collect_listed; assumption|reflexivity| |reflexivity|].
  { constructor; [apply gives_self, Iw|]. constructor; [exact Gs|]. constructor; [apply gives_self, Ij|constructor]. }
  fold H. match goal with |- gives T ?a _ => match type of G with gives T ?b _ => replace a with b; [exact G|] end end.
  cbn [List.concat app hide map fst snd]. rewrite ?map_app. cbn [map fst snd]. rewrite ?map_app. cbn [map fst snd]. rewrite ?map_app. cbn [map fst snd]. rewrite ?app_nil_r.
  rewrite ?map_app. cbn [map fst snd]. unfold hide. repeat (progress (rewrite <- ?app_assoc; cbn [app])). rewrite ?app_nil_r. reflexivity.
Qed.
Lemma sep_ok n what sep xs l h h1 hp : (1 <= n <= 32)%nat -> List.length xs = n -> listed (what :: sep :: xs) l -> Forall arg_ok (what :: sep :: xs) ->
  Forall (inert T) (what :: sep :: xs) -> unhid h ->
  exists out, toks out = List.concat (map (fun x => each (toks what) (toks sep) (toks x)) xs)
    /\ forall r v, gives T r v -> gives T ((TId "C4_FOR_EACH_SEP", h) :: (TOp "(", h1) :: l ++ (TOp ")", hp) :: r) (xbind v (fun q => Val (out ++ q))).
Proof.
  intros N Lx Li Fa Fi U. assert (Nx : xs <> []) by (intros ->; cbn in Lx; lia).
  inversion Fi as [|? ? Iw Fi2]; subst. inversion Fi2 as [|? ? Is Fi3]; subst. clear Fi2.
  inversion Fa as [|? ? Aw Fa2]; subst. inversion Fa2 as [|? ? As Fa3]; subst. clear Fa2.
  destruct (sep_to_each (List.length xs) what sep sep xs l h h1 hp N eq_refl Li Fa ltac:(constructor; assumption) (gives_self T sep Is) U) as (H & a & k & l' & Ga & Aa & Ll & Mj & Mp & G1).
  destruct (each_to_label (List.length xs) a k (hide H what) (hide H sep) (map (hide H) xs) (a ++ (TOp ",", H ++ []) :: hide H what ++ (TOp ",", H ++ []) :: hide H sep ++ (TOp ",", H ++ []) :: l') (H ++ []) (H ++ []) (H ++ []))
    as (H2 & h2 & h3 & h4 & l2 & L2 & M2 & G2).
  - exact N.
  - apply l_more, l_more, l_more, Ll.
  - constructor; [exact Aa|]. constructor; [apply arg_hide, Aw|]. constructor; [apply arg_hide, As|]. apply map_hide_ok, Fa3.
  - constructor; [apply inert_hide, Iw|]. constructor; [apply inert_hide, Is|]. apply map_hide_inert, Fi3.
  - exact Ga.
  - destruct xs; [congruence|discriminate].
  - exact Mj.
  - apply Mp; [discriminate|cbn; tauto].
  - apply Mp; [discriminate|cbn; tauto].
  - apply Mp; [discriminate|cbn; tauto].
  - apply Mp; [discriminate|cbn; tauto].
  - destruct (chain e (List.length xs) (map (hide H2) (map (hide H) xs)) (hide H2 (hide H what)) (hide H2 (hide H sep)) h2 h3 h4 l2) as (out & To & Go).
    + rewrite !map_length. reflexivity.
    + exact N.
    + exact L2.
    + constructor; [do 2 apply arg_hide; exact Aw|]. constructor; [do 2 apply arg_hide; exact As|]. do 2 apply map_hide_ok. exact Fa3.
    + constructor; [do 2 apply inert_hide; exact Iw|]. constructor; [do 2 apply inert_hide; exact Is|]. do 2 apply map_hide_inert. exact Fi3.
    + intros j _. apply M2.
    + exists out. split.
      * rewrite To, !map_map. f_equal. apply map_ext. intros x. rewrite !toks_hide. reflexivity.
      * intros r v G. apply G1, G2, Go, G.
Qed.
Lemma for_ok n what xs l h1 hp : (1 <= n <= 32)%nat -> List.length xs = n -> listed (what :: xs) l -> Forall arg_ok (what :: xs) -> Forall (inert T) (what :: xs) ->
  exists out, toks out = List.concat (map (fun x => each (toks what) [TOp ";"] (toks x)) xs)
    /\ forall r v, gives T r v -> gives T ((TId "C4_FOR_EACH", []) :: (TOp "(", h1) :: l ++ (TOp ")", hp) :: r) (xbind v (fun q => Val (out ++ q))).
Proof.
  intros N Lx Li Fa Fi. assert (Nx : xs <> []) by (intros ->; cbn in Lx; lia).
  inversion Fi as [|? ? Iw Fi3]; subst. inversion Fa as [|? ? Aw Fa3]; subst.
  assert (Ij : inert T (joined xs)) by (eapply inert_listed; [apply listed_joined, Nx|assumption]).
  set (H := ["C4_FOR_EACH"]). set (semi := [(TOp ";", H ++ [])]).
  assert (Isemi : inert T semi) by (intros x k [E|[]]; discriminate).
  destruct (sep_ok (List.length xs) (hide H what) semi (map (hide H) xs) (hide H what ++ (TOp ",", H ++ []) :: semi ++ (TOp ",", H ++ []) :: hide H (joined xs)) (H ++ []) (H ++ []) (H ++ []))
    as (out & To & Go).
  - exact N.
  - apply map_length.
  - apply l_more, l_more, hide_joined, Nx.
  - constructor; [apply arg_hide, Aw|]. constructor; [reflexivity|apply map_hide_ok, Fa3].
  - constructor; [apply inert_hide, Iw|]. constructor; [exact Isemi|apply map_hide_inert, Fi3].
  - split; [intros x I; repeat (destruct I as [<-|I]; [reflexivity|]); destruct I|reflexivity].
  - exists out. split; [rewrite To, map_map; f_equal; apply map_ext; intros x; rewrite !toks_hide; reflexivity|]. intros r v G.
    eapply (gives_call T _ [] h1 ["what"] true _ _ (what :: xs) hp r [("what", what); (va_name, joined xs)] [what; joined xs]);
      [reflexivity|apply T_for|apply collect_listed; assumption|reflexivity| |reflexivity|].
    { constructor; [apply gives_self, Iw|]. constructor; [apply gives_self, Ij|constructor]. }
    specialize (Go r v G). match goal with |- gives T ?a _ => match type of Go with gives T ?b _ => replace a with b; [exact Go|] end end.
    change ("C4_FOR_EACH" :: inter [] hp) with H. unfold semi. cbn [List.concat app hide map fst snd]. rewrite ?map_app. cbn [map fst snd]. rewrite ?map_app. cbn [map fst snd]. rewrite ?app_nil_r.
    unfold hide. repeat (progress (rewrite <- ?app_assoc; cbn [app])). reflexivity.
Qed.
(** one part too many *)
Lemma chain_ill k : forall xs what sep h h' hp l r, List.length xs = S k -> (1 <= k <= 32)%nat -> listed (what :: sep :: xs) l ->
  Forall arg_ok (what :: sep :: xs) -> Forall (inert T) (what :: sep :: xs) -> (forall j, mem_s (label j) h = false \/ (k < j)%nat) ->
  gives T ((TId (label k), h) :: (TOp "(", h') :: l ++ (TOp ")", hp) :: r) Ill.
Proof.
  induction k as [|k IH]; intros xs what sep h h' hp l r Lx K Li Fa Fi Hh; [lia|].
  assert (C : collect 0 (l ++ (TOp ")", hp) :: r) = Some (what :: sep :: xs, hp, r)) by (apply collect_listed; assumption).
  destruct xs as [|x xs]; [cbn in Lx; lia|]. cbn [List.length] in Lx.
  assert (Fi' := Fi). inversion Fi' as [|? ? Iw Fi2]; subst. inversion Fi2 as [|? ? Is Fi3]; subst. inversion Fi3 as [|? ? Ix Fi4]; subst. clear Fi' Fi2 Fi3.
  assert (Fa' := Fa). inversion Fa' as [|? ? Aw Fa2]; subst. inversion Fa2 as [|? ? As Fa3]; subst. inversion Fa3 as [|? ? Ax Fa4]; subst. clear Fa' Fa2 Fa3.
  assert (Hh' : mem_s (label (S k)) h = false) by (destruct (Hh (S k)) as [Q|Q]; [exact Q|lia]).
  destruct (Nat.eq_dec k 0) as [->|Nk].
  - destruct xs as [|y [|z xs]]; cbn in Lx; try lia. eapply gives_wrong; [exact Hh'|apply T_first|apply C|reflexivity].
  - set (H := label (S k) :: inter h hp).
    set (pre := hide H what ++ (TOp "(", H ++ []) :: hide H x ++ (TOp ")", H ++ []) :: hide H sep).
    assert (Ip : inert T pre).
    { unfold pre. apply inert_app; [apply inert_hide, Iw|]. apply inert_cons; [exact I|]. apply inert_app; [apply inert_hide, Ix|]. apply inert_cons; [exact I|]. apply inert_hide, Is. }
    assert (Nx : xs <> []) by (intros ->; cbn in Lx; lia).
    assert (Ij : inert T (joined xs)) by (eapply inert_listed; [apply listed_joined, Nx|assumption]).
    assert (Go : gives T ((TId (label k), H ++ []) :: (TOp "(", H ++ []) :: (hide H what ++ (TOp ",", H ++ []) :: hide H sep ++ (TOp ",", H ++ []) :: hide H (joined xs)) ++ (TOp ")", H ++ []) :: r) Ill).
    { apply IH with (xs := map (hide H) xs) (what := hide H what) (sep := hide H sep).
      - rewrite map_length. lia.
      - lia.
      - apply l_more, l_more, hide_joined, Nx.
      - constructor; [apply arg_hide, Aw|]. constructor; [apply arg_hide, As|]. apply map_hide_ok, Fa4.
      - constructor; [apply inert_hide, Iw|]. constructor; [apply inert_hide, Is|]. apply map_hide_inert, Fi4.
      - intros j. destruct (Nat.lt_ge_cases k j) as [J|J]; [right; exact J|left]. rewrite app_nil_r. unfold H. apply mem_cons; [apply labels_differ; lia|].
        apply mem_inter. destruct (Hh j) as [Q|Q]; [exact Q|lia]. }
    apply (gives_inert T pre) in Go; [|exact Ip]. cbn [xbind] in Go.
    eapply gives_call; [exact Hh'|apply T_next; lia|apply C| |apply (gives_self_all e [("what", what); ("sep", sep); ("x", x); (va_name, joined xs)]); constructor; [exact Iw|]; constructor; [exact Is|]; constructor; [exact Ix|]; constructor; [exact Ij|constructor]|apply subst_next|].
    { destruct xs; [congruence|reflexivity]. }
    fold H. match goal with |- gives T ?a _ => match type of Go with gives T ?b _ => replace a with b; [exact Go|] end end.
    cbn [List.concat]. unfold pre. rewrite !hide_app. cbn [hide map fst snd app]. repeat (progress (rewrite <- ?app_assoc; cbn [app])). reflexivity.
Qed.
Lemma T_comma : T "C4_COMMA" = Some (Macro None [TOp ","]).
Proof. unfold T. apply macros_app. vm_compute. reflexivity. Qed.
Lemma comma_ill what xs l h1 hp r : (1 <= List.length xs <= 32)%nat -> listed (what :: [(TId "C4_COMMA", [])] :: xs) l -> Forall arg_ok (what :: xs) ->
  Forall (inert T) (what :: xs) -> gives T ((TId "C4_FOR_EACH_SEP", []) :: (TOp "(", h1) :: l ++ (TOp ")", hp) :: r) Ill.
Proof.
  intros N Li Fa Fi. assert (Nx : xs <> []) by (intros ->; cbn in N; lia).
  inversion Fi as [|? ? Iw Fi3]; subst. inversion Fa as [|? ? Aw Fa3]; subst.
  assert (U : unhid []) by (split; intros; reflexivity).
  assert (Gs : gives T [(TId "C4_COMMA", [])] (Val [(TOp ",", ["C4_COMMA"])])).
  { eapply gives_obj; [reflexivity|apply T_comma|reflexivity|]. apply gives_self. intros x k [E|[]]. discriminate. }
  destruct (sep_to_each (List.length xs) what _ _ xs l [] h1 hp N eq_refl Li ltac:(constructor; [exact Aw|constructor; [reflexivity|exact Fa3]]) Fi Gs U) as (H & a & k & l' & Ga & Aa & Ll & Mj & Mp & G1).
  apply G1. cbn [hide map fst snd app].
  destruct (each_to_label (List.length xs) a k (hide H what) [] ([] :: map (hide H) xs) (a ++ (TOp ",", H ++ []) :: hide H what ++ (TOp ",", H ++ []) :: [] ++ (TOp ",", H ++ ["C4_COMMA"]) :: [] ++ (TOp ",", H ++ []) :: l') (H ++ []) (H ++ []) (H ++ []))
    as (H2 & h2 & h3 & h4 & l2 & L2 & M2 & G2).
  - exact N.
  - apply l_more, l_more, l_more, l_more, Ll.
  - constructor; [exact Aa|]. constructor; [apply arg_hide, Aw|]. constructor; [reflexivity|]. constructor; [reflexivity|]. apply map_hide_ok, Fa3.
  - constructor; [apply inert_hide, Iw|]. constructor; [apply inert_nil|]. constructor; [apply inert_nil|]. apply map_hide_inert, Fi3.
  - exact Ga.
  - discriminate.
  - exact Mj.
  - apply Mp; [discriminate|cbn; tauto].
  - apply Mp; [discriminate|cbn; tauto].
  - apply Mp; [discriminate|cbn; tauto].
  - apply Mp; [discriminate|cbn; tauto].
  - apply G2. eapply (chain_ill (List.length xs)) with (what := hide H2 (hide H what)) (sep := []) (xs := [] :: map (hide H2) (map (hide H) xs)).
    + cbn [List.length]. rewrite !map_length. reflexivity.
    + exact N.
    + exact L2.
    + constructor; [do 2 apply arg_hide; exact Aw|]. constructor; [reflexivity|]. constructor; [reflexivity|]. do 2 apply map_hide_ok. exact Fa3.
    + constructor; [do 2 apply inert_hide; exact Iw|]. constructor; [apply inert_nil|]. constructor; [apply inert_nil|]. do 2 apply map_hide_inert. exact Fi3.
    + intros j. left. apply M2.
Qed.
End With.
