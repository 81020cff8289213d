(** Statements: parsing the replacements, and what they do. *)
From Verif Require Import Base PpModel PpSpec PpText MacroText MacroModel MacroSpec MacroSpec2 MacroProofs MacroProofs2 MacroProofs4.
From Coq Require Import String Ascii.
Open Scope string_scope.
Open Scope list_scope.
Open Scope Z_scope.

Lemma bracketed_step n t l : bracketed n (t :: l) =
  if opens t then bracketed (S n) l else if closes t then match n with O => false | S d => bracketed d l end else bracketed n l.
Proof.
  destruct t as [x|x|x|x]; try reflexivity. unfold opens, closes. cbn [bracketed is_op].
  destruct (String.eqb_spec x "(") as [->|N1]; [reflexivity|]. destruct (String.eqb_spec x "{") as [->|N2]; [reflexivity|]. destruct (String.eqb_spec x "[") as [->|N3]; [reflexivity|].
  destruct (String.eqb_spec x ")") as [->|N4]; [reflexivity|]. destruct (String.eqb_spec x "}") as [->|N5]; [reflexivity|]. destruct (String.eqb_spec x "]") as [->|N6]; [reflexivity|].
  destruct x as [|c [|d x]]; try reflexivity; destruct c as [[] [] [] [] [] [] [] []]; try reflexivity; try congruence.
Qed.
Definition behind (a : list tok) (u : option (list tok * list tok)) : option (list tok * list tok) := match u with Some (x, r) => Some (a ++ x, r) | None => None end.
Lemma behind_cons t a u : match behind a u with Some (x, r) => Some (t :: x, r) | None => None end = behind (t :: a) u.
Proof. destruct u as [[x r]|]; reflexivity. Qed.
Lemma upto_in s a : forall n d r, bracketed n a = true -> upto s (S d + n) (a ++ r) = behind a (upto s (S d) r).
Proof.
  induction a as [|t a IH]; intros n d r B.
  - cbn in B. apply Nat.eqb_eq in B. subst n. rewrite Nat.add_0_r. destruct (upto s (S d) r) as [[x q]|] eqn:E; cbn [app behind]; exact E.
  - rewrite bracketed_step in B. cbn [app upto Nat.add]. change (Nat.eqb (S (d + n)) 0) with false. rewrite andb_false_r.
    destruct (opens t); [|destruct (closes t)].
    + replace (S (S (d + n))) with (S d + S n)%nat by lia. rewrite (IH _ _ _ B). apply behind_cons.
    + destruct n as [|n]; [discriminate|]. replace (d + S n)%nat with (S d + n)%nat by lia. rewrite (IH _ _ _ B). apply behind_cons.
    + replace (S (d + n)) with (S d + n)%nat by lia. rewrite (IH _ _ _ B). apply behind_cons.
Qed.
Lemma upto_paren a : forall n r, bracketed n a = true -> upto ")" n (a ++ r) = behind a (upto ")" 0 r).
Proof.
  induction a as [|t a IH]; intros n r B.
  - cbn in B. apply Nat.eqb_eq in B. subst n. destruct (upto ")" 0 r) as [[x q]|] eqn:E; cbn [app behind]; exact E.
  - rewrite bracketed_step in B. cbn [app upto].
    assert (N : is_op ")" t && Nat.eqb n 0 = false).
    { destruct (is_op ")" t) eqn:E; [|reflexivity]. destruct n; [|reflexivity]. exfalso. destruct t as [x|x|x|x]; try discriminate. cbn [is_op] in E. apply String.eqb_eq in E. subst x. discriminate. }
    rewrite N. destruct (opens t); [|destruct (closes t)].
    + rewrite (IH _ _ B). apply behind_cons.
    + destruct n as [|n]; [discriminate|]. rewrite (IH _ _ B). apply behind_cons.
    + rewrite (IH _ _ B). apply behind_cons.
Qed.
Lemma upto_close a r : bracketed 0 a = true -> upto ")" 0 (a ++ TOp ")" :: r) = Some (a, r).
Proof. intros B. rewrite (upto_paren a 0 _ B). cbn [upto is_op String.eqb Ascii.eqb Bool.eqb Nat.eqb andb behind]. rewrite app_nil_r. reflexivity. Qed.
Lemma bracketed_app a : forall n d b, bracketed n a = true -> bracketed (d + n) (a ++ b) = bracketed d b.
Proof.
  induction a as [|t a IH]; intros n d b B.
  - cbn in B. apply Nat.eqb_eq in B. subst n. rewrite Nat.add_0_r. reflexivity.
  - rewrite bracketed_step in B. cbn [app]. rewrite bracketed_step. destruct (opens t); [|destruct (closes t)].
    + replace (S (d + n)) with (d + S n)%nat by lia. apply IH, B.
    + destruct n as [|n]; [discriminate|]. replace (d + S n)%nat with (S (d + n)) by lia. apply IH, B.
    + apply IH, B.
Qed.
Lemma bracketed_both a b : bracketed 0 a = true -> bracketed 0 b = true -> bracketed 0 (a ++ b) = true.
Proof. intros A B. exact (eq_trans (bracketed_app a 0 0 b A) B). Qed.
Lemma bracketed_in o c a b : opens o = true -> closes c = true -> opens c = false -> bracketed 0 a = true -> bracketed 0 b = true -> bracketed 0 (o :: a ++ c :: b) = true.
Proof. intros O C C' A B. rewrite bracketed_step, O. change 1%nat with (1 + 0)%nat. rewrite (bracketed_app a 0 1 _ A). rewrite bracketed_step, C', C. exact B. Qed.

(** ** The grammar *)
Lemma st_do n r s rest : statement n r = Some (s, lex "while(0);" ++ rest) -> statement (S n) (TId "do" :: r) = Some (SOnce s, rest).
Proof. intros H. cbn [statement word String.eqb Ascii.eqb Bool.eqb]. rewrite H. reflexivity. Qed.
Lemma st_block n r b rest : block n r = Some (b, rest) -> statement (S n) (TOp "{" :: r) = Some (SBlock b, rest).
Proof. intros H. cbn [statement word orb is_op String.eqb Ascii.eqb Bool.eqb]. rewrite H. reflexivity. Qed.
Lemma st_if n r c r1 a t r2 : upto ")" 0 r = Some (c, r1) -> statement n r1 = Some (a, t :: r2) -> word "else" t = false ->
  statement (S n) (TId "if" :: TOp "(" :: r) = Some (SIf c a None, t :: r2).
Proof. intros U H W. cbn [statement word orb is_op String.eqb Ascii.eqb Bool.eqb]. rewrite U, H, W. reflexivity. Qed.
Lemma bl_end n r : block (S n) (TOp "}" :: r) = Some ([], r). Proof. reflexivity. Qed.
Lemma bl_more n t l s r b r' : is_op "}" t = false -> statement n (t :: l) = Some (s, r) -> block n r = Some (b, r') -> block (S n) (t :: l) = Some (s :: b, r').
Proof. intros N S B. cbn [block]. rewrite N, S, B. reflexivity. Qed.
Lemma st_expr n x l e r : existsb (String.eqb x) ["do"; "if"; "else"; "while"] = false -> upto ";" 0 (TId x :: l) = Some (e, r) -> statement (S n) (TId x :: l) = Some (SExpr e, r).
Proof.
  intros N U. cbn [existsb] in N. repeat (apply orb_false_iff in N as [? N]). cbn [statement word is_op]. rewrite H, H0, H1, H2. cbn [orb]. rewrite U. reflexivity.
Qed.

(** ** The statements *)
Definition brk_stmts (brk : list tok) : list stmt := match brk with [] => [] | _ => [SIf (lex "c4::is_debugger_attached()") (SBlock [SExpr (lex "::debug_break()")]) None] end.
Definition error_stmt (brk place args : list tok) : stmt := SOnce (SBlock [SIf flags_toks (SBlock (brk_stmts brk)) None; SExpr (error_call place args)]).
Definition check_stmt (test : list tok) (inner : stmt) : stmt := SOnce (SBlock [SIf test (SBlock [inner]) None]).
Lemma brk_parse brk n r : In brk breaks -> block (6 + n) (brk ++ TOp "}" :: r) = Some (brk_stmts brk, r).
Proof. intros [<-|[<-|[]]]; [reflexivity|]. destruct n; reflexivity. Qed.
Lemma call_parse place args r : bracketed 0 place = true -> bracketed 0 args = true -> upto ";" 0 (error_call place args ++ TOp ";" :: r) = Some (error_call place args, r).
Proof.
  intros P A. unfold error_call.
  assert (B : bracketed 0 (place ++ TOp "," :: args) = true) by (apply bracketed_both; [exact P|exact A]).
  replace (TId "c4" :: TOp ":" :: TOp ":" :: TId "handle_error" :: TOp "(" :: place ++ TOp "," :: args ++ [TOp ")"])
    with (TId "c4" :: TOp ":" :: TOp ":" :: TId "handle_error" :: TOp "(" :: (place ++ TOp "," :: args) ++ [TOp ")"]) by (rewrite <- app_assoc; reflexivity).
  set (q := place ++ TOp "," :: args) in *. cbn [app]. rewrite <- app_assoc. cbn [app].
  cbn [upto is_op opens closes String.eqb Ascii.eqb Bool.eqb Nat.eqb andb orb].
  change 1%nat with (1 + 0)%nat. rewrite (upto_in ";" q 0 0 _ B). cbn [upto is_op opens closes String.eqb Ascii.eqb Bool.eqb Nat.eqb andb orb behind]. reflexivity.
Qed.
Lemma error_parse brk place args n rest : In brk breaks -> bracketed 0 place = true -> bracketed 0 args = true ->
  statement (12 + n) (error_text brk place args ++ TOp ";" :: rest) = Some (error_stmt brk place args, rest).
Proof.
  intros Ib P A.
  replace (error_text brk place args ++ TOp ";" :: rest) with
    (TId "do" :: TOp "{" :: TId "if" :: TOp "(" :: flags_toks ++ TOp ")" :: TOp "{" :: brk ++ TOp "}" :: error_call place args ++ TOp ";" :: TOp "}" :: lex "while(0);" ++ rest)
    by (unfold error_text; repeat (progress (rewrite <- ?app_assoc; cbn [app lex])); reflexivity).
  cbn [Nat.add]. apply st_do, st_block.
  eapply bl_more; [reflexivity| |].
  - change (error_call place args ++ TOp ";" :: TOp "}" :: lex "while(0);" ++ rest) with (TId "c4" :: tl (error_call place args ++ TOp ";" :: TOp "}" :: lex "while(0);" ++ rest)).
    eapply st_if; [apply upto_close; reflexivity|apply st_block; exact (brk_parse brk (S n) _ Ib)|reflexivity].
  - eapply bl_more; [reflexivity| |apply bl_end]. apply st_expr; [reflexivity|]. exact (call_parse place args _ P A).
Qed.
Lemma check_parse test inner st n rest : bracketed 0 test = true ->
  (forall rest, statement (12 + n) (TId "do" :: inner ++ TOp ";" :: rest) = Some (st, rest)) ->
  statement (18 + n) (check_text test (TId "do" :: inner) ++ TOp ";" :: rest) = Some (check_stmt test st, rest).
Proof.
  intros B I.
  replace (check_text test (TId "do" :: inner) ++ TOp ";" :: rest) with
    (TId "do" :: TOp "{" :: TId "if" :: TOp "(" :: test ++ TOp ")" :: TOp "{" :: (TId "do" :: inner ++ TOp ";" :: TOp "}" :: TOp "}" :: lex "while(0);" ++ rest))
    by (unfold check_text; repeat (progress (rewrite <- ?app_assoc; cbn [app lex])); reflexivity).
  cbn [Nat.add]. apply st_do, st_block. eapply bl_more; [reflexivity| |apply bl_end].
  eapply st_if; [apply upto_close, B| |reflexivity]. apply st_block. eapply bl_more; [reflexivity| |apply bl_end]. apply I.
Qed.
(** ** What they do *)
Definition attached_toks : list tok := lex "c4::is_debugger_attached()".
Definition break_toks : list tok := lex "::debug_break()".
Lemma brk_cases brk : In brk breaks -> brk_stmts brk = [] \/ brk_stmts brk = [SIf attached_toks (SBlock [SExpr break_toks]) None].
Proof. intros [<-|[<-|[]]]; [left|right]; vm_compute; reflexivity. Qed.
Lemma break_some : exists t r, break_toks = t :: r /\ ends_here break_toks = false.
Proof. eexists _, _. split; vm_compute; reflexivity. Qed.
Lemma error_raises truth brk place args : In brk breaks -> raises truth (error_stmt brk place args) [] place args.
Proof.
  intros Ib. unfold raises, error_stmt. destruct break_some as (b1 & b2 & Eb & Nb).
  assert (D1 : In (Test flags_toks) debug_events) by (unfold flags_toks; left; reflexivity). assert (D2 : In (Test attached_toks) debug_events) by (unfold attached_toks; right; left; reflexivity).
  assert (D3 : In (Do break_toks) debug_events) by (unfold break_toks; right; right; left; reflexivity).
  assert (E : exists a b, error_call place args = a :: b /\ ends_here (a :: b) = true) by (unfold error_call; eexists _, _; split; reflexivity).
  destruct E as (a & b & Ea & E). rewrite Ea. assert (Bc := brk_cases _ Ib). revert Eb Nb D1 D2 D3 Bc. generalize flags_toks attached_toks break_toks.
  intros f at' bt -> Nb D1 D2 D3 Bc.
  cbn [acts]. rewrite E. cbn [negb]. destruct (truth f); [destruct Bc as [-> | ->]|]; cbn [acts].
  - exists [Test f]. split; [intros e [<-|[]]; exact D1|reflexivity].
  - rewrite Nb. cbn [negb]. destruct (truth at').
    + exists [Test f; Test at'; Do (b1 :: b2)]. split; [intros e [<-|[<-|[<-|[]]]]; assumption|reflexivity].
    + exists [Test f; Test at']. split; [intros e [<-|[<-|[]]]; assumption|reflexivity].
  - exists [Test f]. split; [intros e [<-|[]]; exact D1|reflexivity].
Qed.
Lemma check_raises truth test st place args : raises truth st [] place args -> truth test = true -> raises truth (check_stmt test st) [Test test] place args.
Proof. intros (pre & I & E) Tt. exists pre. split; [exact I|]. unfold check_stmt. cbn [acts]. rewrite Tt, E. reflexivity. Qed.
Lemma check_passes truth test st : truth test = false -> acts truth ends_here (check_stmt test st) = ([Test test], true).
Proof. intros Tt. unfold check_stmt. cbn [acts]. rewrite Tt. reflexivity. Qed.
Lemma test_cases gcc a : test_of gcc a = a \/ test_of gcc a = hinted a.
Proof. destruct gcc; [right|left]; reflexivity. Qed.
Lemma test_true truth gcc a : sound truth -> one_arg a -> truth (test_of gcc a) = truth a.
Proof. intros S O. destruct gcc; [exact (proj2 (S a O))|reflexivity]. Qed.
Lemma test_bracketed gcc a : bracketed 0 a = true -> bracketed 0 (test_of gcc a) = true.
Proof.
  intros B. destruct gcc; [|exact B]. cbn [test_of]. rewrite bracketed_step. cbn [opens closes is_op orb].
  replace (a ++ [TOp ","; TNum "0"; TOp ")"]) with ((a ++ [TOp ","; TNum "0"]) ++ TOp ")" :: []) by (rewrite <- app_assoc; reflexivity).
  apply bracketed_in; try reflexivity. apply bracketed_both; [exact B|reflexivity].
Qed.
Lemma negated_bracketed a : bracketed 0 a = true -> bracketed 0 (negated a) = true.
Proof. intros B. unfold negated. rewrite bracketed_step. cbn [opens closes is_op orb]. apply bracketed_in; try reflexivity. exact B. Qed.
Lemma negated_one a : one_arg a -> one_arg (negated a).
Proof. intros A. unfold one_arg, negated. rewrite !nested_step. cbn [is_op String.eqb Ascii.eqb Bool.eqb]. exact (nested_piece a 0 1 _ A). Qed.
Lemma guard_ok gcc bad st place args : one_arg bad -> (forall truth, raises truth st [] place args) -> guarded (check_stmt (test_of gcc bad) st) bad place args.
Proof.
  intros O R. exists (test_of gcc bad). split; [apply test_cases|]. intros truth S. assert (E := test_true truth gcc bad S O).
  destruct (truth bad); [apply check_raises; [apply R|exact E]|apply check_passes, E].
Qed.
Lemma check_ok gcc cond st place args : one_arg cond -> (forall truth, raises truth st [] place args) -> checked (check_stmt (test_of gcc (negated cond)) st) cond place args.
Proof.
  intros O R. exists (test_of gcc (negated cond)). split; [apply test_cases|]. intros truth S. assert (E := test_true truth gcc _ S (negated_one _ O)).
  assert (N := proj1 (S cond O)). change (TOp "!" :: TOp "(" :: cond ++ [TOp ")"]) with (negated cond) in N. rewrite N in E.
  destruct (truth cond); cbn [negb] in E; [apply check_passes, E|apply check_raises; [apply R|exact E]].
Qed.
(** ** Fuel *)
Lemma parse_more n : (forall l v, statement n l = Some v -> statement (S n) l = Some v) /\ (forall l v, block n l = Some v -> block (S n) l = Some v).
Proof.
  induction n as [|n [IHs IHb]]; [split; intros l v H; discriminate|].
  assert (Q : forall l v, statement (S n) l = Some v -> statement (S (S n)) l = Some v).
  { intros l v H. destruct l as [|t r]; [discriminate|]. remember (S n) as m eqn:Em. cbn [statement]. subst m. cbn [statement] in H.
    destruct (word "do" t).
    - destruct (statement n r) as [[s r1]|] eqn:E; [|discriminate]. rewrite (IHs _ _ E). exact H.
    - destruct (word "if" t).
      + destruct r as [|p r]; [discriminate|]. destruct (is_op "(" p); [|discriminate]. destruct (upto ")" 0 r) as [[c r1]|]; [|discriminate].
        destruct (statement n r1) as [[a [|e r2]]|] eqn:E; [| |discriminate]; rewrite (IHs _ _ E); [exact H|].
        destruct (word "else" e); [|exact H]. destruct (statement n r2) as [[b r3]|] eqn:E2; [|discriminate]. rewrite (IHs _ _ E2). exact H.
      + destruct (word "else" t || word "while" t); [discriminate|]. destruct (is_op "{" t); [|exact H].
        destruct (block n r) as [[b r1]|] eqn:E; [|discriminate]. rewrite (IHb _ _ E). exact H. }
  split; [exact Q|].
  intros l v H. destruct l as [|t r]; [discriminate|]. remember (S n) as m eqn:Em. cbn [block]. subst m. cbn [block] in H.
  destruct (is_op "}" t); [exact H|]. destruct (statement n (t :: r)) as [[s r1]|] eqn:E; [|discriminate]. rewrite (IHs _ _ E).
  destruct (block n r1) as [[b r2]|] eqn:E2; [|discriminate]. rewrite (IHb _ _ E2). exact H.
Qed.
Lemma statement_same n m l u v : statement n l = Some u -> statement m l = Some v -> u = v.
Proof.
  assert (K : forall k n l u, statement n l = Some u -> statement (k + n) l = Some u) by (induction k; intros; [assumption|cbn [Nat.add]; apply parse_more; auto]).
  intros A B. apply (K m) in A. apply (K n) in B. rewrite Nat.add_comm in B. congruence.
Qed.
