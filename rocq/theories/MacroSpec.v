(** What the macros of preprocessor.hpp and error.hpp are to be replaced with: texts, and
    statements with their behaviour. *)
From Verif Require Import Base PpModel PpSpec PpText MacroText MacroModel.
From Coq Require Import String Ascii.
Open Scope string_scope.
Open Scope Z_scope.

(** the replacement of a text ends with these tokens; it is an error *)
Definition becomes (d : defs) (l r : list tok) : Prop := exists n, expand_text n (macros d) l = Val r.
Definition ill_formed (d : defs) (l : list tok) : Prop := exists n, expand_text n (macros d) l = Ill.
(** the headers ran, and left these macros *)
Definition leaves (w : world) (text : string) (d : defs) : Prop := exists out, run w (file text) = Done d out.
(** no token is the name of a macro *)
Definition own (d : defs) (l : list tok) : Prop := forall x, In (TId x) l -> lookup d x = None.
(** one argument: balanced parentheses, and commas only inside of them *)
Fixpoint nested (depth : nat) (l : list tok) : bool :=
  match l with
  | [] => Nat.eqb depth 0
  | TOp "(" :: r => nested (S depth) r
  | TOp ")" :: r => match depth with O => false | S d => nested d r end
  | TOp "," :: r => negb (Nat.eqb depth 0) && nested depth r
  | _ :: r => nested depth r
  end.
Definition one_arg (l : list tok) : Prop := nested 0 l = true.
(** balanced brackets of all kinds *)
Fixpoint bracketed (depth : nat) (l : list tok) : bool :=
  match l with
  | [] => Nat.eqb depth 0
  | TOp ("(" | "{" | "[") :: r => bracketed (S depth) r
  | TOp (")" | "}" | "]") :: r => match depth with O => false | S d => bracketed d r end
  | _ :: r => bracketed depth r
  end.
Fixpoint with_commas (a : list (list tok)) : list tok :=
  match a with [] => [] | [x] => x | x :: r => (x ++ TOp "," :: with_commas r)%list end.
Definition call (f : string) (a : list (list tok)) : list tok := (TId f :: TOp "(" :: with_commas a ++ [TOp ")"])%list.

(** ** preprocessor.hpp *)
Definition each (what sep x : list tok) : list tok := (what ++ TOp "(" :: x ++ TOp ")" :: sep)%list.
(** what(x1) sep what(x2) sep ... what(xn), the separator "between statements" *)
Fixpoint between (what sep : list tok) (xs : list (list tok)) : list tok :=
  match xs with [] => [] | [x] => each what [] x | x :: r => (each what sep x ++ between what sep r)%list end.
Definition identifier (s : string) : Prop := exists c r, s = String c r /\ is_idstart c = true /\ Forall (fun c => is_idchar c = true) (list_ascii_of_string r).

(** ** error.hpp: what the macros for errors need, each header run by itself *)
Record setting := Setting { s_pre : defs; s_lang : defs; s_err : defs; s_chk : defs }.
Definition all_defs (s : setting) : defs := (s_pre s ++ s_lang s ++ s_err s ++ s_chk s)%list.
Definition tools_ints := ["_MSC_VER"; "C4_CPP"; "C4_ASSUME_ALLOW_EVAL"; "__GNUC__"].
Definition set_in (w : world) (s : setting) : Prop :=
  new w preprocessor_hpp [] /\ new w language_tools ["C4_ASSUME_ALLOW_EVAL"] /\ integers w tools_ints
  /\ new w error_hpp error_client /\ integers w error_ints /\ base w "_DOXYGEN_" = None /\ new w error_checks []
  /\ leaves w preprocessor_hpp (s_pre s) /\ leaves w language_tools (s_lang s) /\ leaves w error_hpp (s_err s) /\ leaves w error_checks (s_chk s).

(** *** Statements: [stmt.stmt], as far as they occur *)
Inductive stmt :=
| SExpr (e : list tok)                       (** also the empty statement *)
| SIf (c : list tok) (a : stmt) (b : option stmt)
| SOnce (s : stmt)                           (** do ... while(0); *)
| SBlock (l : list stmt).
Definition opens (t : tok) : bool := is_op "(" t || is_op "{" t || is_op "[" t.
Definition closes (t : tok) : bool := is_op ")" t || is_op "}" t || is_op "]" t.
(** up to a token at the same depth *)
Fixpoint upto (s : string) (depth : nat) (l : list tok) : option (list tok * list tok) :=
  match l with
  | [] => None
  | t :: r =>
      if is_op s t && Nat.eqb depth 0 then Some ([], r)
      else
        let go d := match upto s d r with Some (a, b) => Some (t :: a, b) | None => None end in
        if opens t then go (S depth)
        else if closes t then match depth with O => None | S d => go d end
        else go depth
  end.
Definition word (s : string) (t : tok) : bool := match t with TId u => String.eqb u s | _ => false end.
Fixpoint statement (fuel : nat) (l : list tok) : option (stmt * list tok) :=
  match fuel with
  | O => None
  | S n =>
      match l with
      | [] => None
      | t :: r =>
          if word "do" t then
            match statement n r with
            | Some (s, t1 :: t2 :: t3 :: t4 :: t5 :: r) =>
                if word "while" t1 && is_op "(" t2 && tok_eqb t3 (TNum "0") && is_op ")" t4 && is_op ";" t5 then Some (SOnce s, r) else None
            | _ => None
            end
          else if word "if" t then
            match r with
            | p :: r =>
                if is_op "(" p then
                  match upto ")" 0 r with
                  | Some (c, r) =>
                      match statement n r with
                      | Some (a, e :: r) =>
                          if word "else" e then match statement n r with Some (b, r) => Some (SIf c a (Some b), r) | None => None end
                          else Some (SIf c a None, e :: r)
                      | Some (a, []) => Some (SIf c a None, [])
                      | None => None
                      end
                  | None => None
                  end
                else None
            | [] => None
            end
          else if word "else" t || word "while" t then None
          else if is_op "{" t then match block n r with Some (b, r) => Some (SBlock b, r) | None => None end
          else match upto ";" 0 l with Some (e, r) => Some (SExpr e, r) | None => None end
      end
  end
with block (fuel : nat) (l : list tok) : option (list stmt * list tok) :=
  match fuel with
  | O => None
  | S n =>
      match l with
      | [] => None
      | t :: r =>
          if is_op "}" t then Some ([], r)
          else match statement n l with
               | Some (s, r) => match block n r with Some (b, r) => Some (s :: b, r) | None => None end
               | None => None
               end
      end
  end.
(** *** What a statement does: the conditions it evaluates and the expressions it executes *)
Inductive event := Test (c : list tok) | Do (e : list tok).
(** the events, and whether the statement behind it is reached. [truth]: the value of a condition;
    [noreturn]: expressions that do not return *)
Fixpoint acts (truth noreturn : list tok -> bool) (s : stmt) : list event * bool :=
  match s with
  | SExpr [] => ([], true)
  | SExpr e => ([Do e], negb (noreturn e))
  | SIf c a b =>
      let (l, k) := if truth c then acts truth noreturn a else match b with Some b => acts truth noreturn b | None => ([], true) end in (Test c :: l, k)
  | SOnce s => acts truth noreturn s
  | SBlock l =>
      (fix seq (l : list stmt) : list event * bool :=
         match l with
         | [] => ([], true)
         | s :: r => let (e, k) := acts truth noreturn s in if k then let (f, k') := seq r in ((e ++ f)%list, k') else (e, false)
         end) l
  end.
(** ! and __builtin_expect as C++ and GCC have them *)
Definition sound (truth : list tok -> bool) : Prop :=
  forall e, one_arg e -> truth (TOp "!" :: TOp "(" :: e ++ [TOp ")"])%list = negb (truth e)
    /\ truth (TId "__builtin_expect" :: TOp "(" :: e ++ [TOp ","; TNum "0"; TOp ")"])%list = truth e.
(** handle_error is [[noreturn]] (error.hpp, line 112), the other calls return *)
Definition ends_here (e : list tok) : bool :=
  match e with TId a :: TOp ":" :: TOp ":" :: TId b :: _ => String.eqb a "c4" && String.eqb b "handle_error" | _ => false end.
(** the call of handle_error: place, format, arguments *)
Definition error_call (place : list tok) (args : list tok) : list tok :=
  (TId "c4" :: TOp ":" :: TOp ":" :: TId "handle_error" :: TOp "(" :: place ++ TOp "," :: args ++ [TOp ")"])%list.
(** the spelling of the tokens of a condition, one after the other *)
Fixpoint spelling (l : list tok) : string :=
  match l with [] => "" | (TId s | TNum s | TOp s) :: r => s ++ spelling r | TStr s :: r => """" ++ s ++ """" ++ spelling r end.
(** the characters of a string literal: the escapes that # puts in, undone *)
Fixpoint unescaped (s : string) : string :=
  match s with
  | String c r => if (c =? "\")%char then match r with String d r' => String d (unescaped r') | "" => s end else String c (unescaped r)
  | "" => ""
  end.
Fixpoint percents (s : string) : nat :=
  match s with String c r => if (c =? "%")%char then S (percents r) else percents r | "" => O end.
(** the literal that adjacent string literals make, and what follows *)
Fixpoint literal (l : list tok) : string * list tok :=
  match l with TStr s :: r => let (a, b) := literal r in (s ++ a, b) | _ => ("", l) end.
