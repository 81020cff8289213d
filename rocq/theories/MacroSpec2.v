(** What the macros of error.hpp are to do when they are written where a statement can stand. *)
From Verif Require Import Base PpModel PpSpec PpText MacroText MacroModel MacroSpec.
From Coq Require Import String Ascii.
Open Scope string_scope.
Open Scope list_scope.
Open Scope Z_scope.

(** the text and a semicolon are one statement, whatever follows *)
Definition single (r : list tok) (s : stmt) : Prop := forall rest, exists n, statement n (r ++ TOp ";" :: rest) = Some (s, rest).
(** what stands for the place: by what is to be shown, and the name of the compiler for the function *)
Definition place_texts : list (string * (string -> string)) := [
  ("defined(C4_ERROR_SHOWS_FILELINE) && defined(C4_ERROR_SHOWS_FUNC)", fun f => ("c4::srcloc{__FILE__, " ++ f ++ ", __LINE__}")%string);
  ("defined(C4_ERROR_SHOWS_FILELINE) && !defined(C4_ERROR_SHOWS_FUNC)", fun _ => "c4::srcloc{__FILE__, __LINE__}");
  ("!defined(C4_ERROR_SHOWS_FILELINE) && !defined(C4_ERROR_SHOWS_FUNC)", fun _ => "c4::srcloc()")].
Definition shown (w : world) (d : defs) (place : list tok) : Prop :=
  exists c f p, In (c, f) place_texts /\ In p ["__FUNCSIG__"; "__PRETTY_FUNCTION__"] /\ taken w d c /\ place = lex (f p).
(** what may happen before the error is handled *)
Definition debug_events : list event :=
  [Test (lex "c4::get_error_flags() & c4::ON_ERROR_DEBUGBREAK"); Test (lex "c4::is_debugger_attached()"); Do (lex "::debug_break()")].
(** after [first], an error and nothing else; control does not come back *)
Definition raises (truth : list tok -> bool) (s : stmt) (first : list event) (place args : list tok) : Prop :=
  exists pre, incl pre debug_events /\ acts truth ends_here s = (first ++ pre ++ [Do (error_call place args)], false).
Definition not_ (c : list tok) : list tok := TOp "!" :: TOp "(" :: c ++ [TOp ")"].
Definition hinted (c : list tok) : list tok := TId "__builtin_expect" :: TOp "(" :: c ++ [TOp ","; TNum "0"; TOp ")"].
(** the condition is evaluated, once; an error if it is true, and else nothing *)
Definition guarded (s : stmt) (bad place args : list tok) : Prop :=
  exists t, (t = bad \/ t = hinted bad) /\
  forall truth, sound truth -> if truth bad then raises truth s [Test t] place args else acts truth ends_here s = ([Test t], true).
(** the condition is evaluated, once; an error if it is false, and else nothing *)
Definition checked (s : stmt) (cond place args : list tok) : Prop :=
  exists t, (t = not_ cond \/ t = hinted (not_ cond)) /\
  forall truth, sound truth -> if truth cond then acts truth ends_here s = ([Test t], true) else raises truth s [Test t] place args.
(** tokens of an argument: not macros, one argument, brackets balanced *)
Definition argument (d : defs) (l : list tok) : Prop := own d l /\ one_arg l /\ bracketed 0 l = true.
(** tokens other than literals have no backslash *)
Definition no_backslash (t : tok) : Prop :=
  match t with TId s | TNum s | TOp s => Forall (fun c => c <> "\"%char) (list_ascii_of_string s) | TStr _ => True end.
Definition nonempty (args : list (list tok)) : Prop := Forall (fun a => a <> []) args.
(** such a text becomes one statement: it raises an error; it checks a condition; it raises an error if a condition is true *)
Definition raising (w : world) (s : setting) (l : list tok) (args : list tok) : Prop :=
  exists r st place, becomes (all_defs s) l r /\ single r st /\ shown w (s_err s) place /\ forall truth, raises truth st [] place args.
Definition checking (w : world) (s : setting) (l : list tok) (cond args : list tok) : Prop :=
  exists r st place, becomes (all_defs s) l r /\ single r st /\ shown w (s_err s) place /\ checked st cond place args.
Definition guarding (w : world) (s : setting) (l : list tok) (bad args : list tok) : Prop :=
  exists r st place, becomes (all_defs s) l r /\ single r st /\ shown w (s_err s) place /\ guarded st bad place args.
(** the assertions, each with the macro that decides about it *)
Definition asserts : list (string * string) := [("C4_ASSERT", "C4_USE_ASSERT"); ("C4_XASSERT", "C4_USE_XASSERT")].
(** the arguments of an error that shows the condition, as the string literal q *)
Definition failed (q : string) : list tok := [TStr "check failed: %s"; TOp ","; TStr q].
Definition failed_msg (q : string) (fmt : list tok) (args : list (list tok)) : list tok := TStr "check failed: " :: TStr q :: TStr "\n" :: with_commas (fmt :: args).
(** the literal has the characters of the condition *)
Definition says (q : string) (cond : list tok) : Prop := unescaped q = spelling cond.
