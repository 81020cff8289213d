(** The replacement of macros in text: [cpp.replace] of C++, with the operators # and ## and the
    rule that a macro is not replaced in its own replacement. The algorithm is that of Prosser
    ("hide sets"), which the wording of the standard was derived from. The macros are those that a
    run of PpModel.v leaves behind.
    Simplified:
    - tokens do not know the white space in front of them; # puts none between the tokens;
    - the macros that do not come from the texts (PpModel.base) are not replaced;
    - `, ## __VA_ARGS__` is the extension of GCC, Clang and MSVC that preprocessor.hpp, line 8, names:
      without variable arguments the comma goes away. As there, the variable arguments may be left out. *)
From Verif Require Import Base PpModel.
From Coq Require Import String Ascii.
Open Scope string_scope.
Open Scope Z_scope.

Definition mem_s (x : string) (l : list string) : bool := existsb (String.eqb x) l.
Definition is_op (s : string) (t : tok) : bool := match t with TOp u => String.eqb u s | _ => false end.

(** ** Macros: [cpp.replace.general] *)
Record macro := Macro {
  mparams : option (list string * bool);   (** None: object-like; true: ends with ... *)
  mrepl : list tok }.
(** the parameters and what follows *)
Fixpoint params (l : list tok) : option (list string * bool * list tok) :=
  match l with
  | TId x :: r =>
      match r with
      | t :: r' =>
          if is_op ")" t then Some ([x], false, r')
          else if is_op "," t then match params r' with Some (ps, va, b) => Some (x :: ps, va, b) | None => None end else None
      | [] => None
      end
  | t :: r =>
      if is_op ")" t then Some ([], false, r)
      else if is_op "." t then
        match r with
        | t2 :: t3 :: t4 :: r' => if is_op "." t2 && is_op "." t3 && is_op ")" t4 then Some ([], true, r') else None
        | _ => None
        end
      else None
  | [] => None
  end.
Definition macro_of (m : mac) : option macro :=
  if mfn m then
    match mbody m with
    | t :: r => if is_op "(" t then match params r with Some (ps, va, b) => Some (Macro (Some (ps, va)) b) | None => None end else None
    | [] => None
    end
  else Some (Macro None (mbody m)).
Definition table := string -> option macro.
Definition macros (d : defs) : table := fun x => match lookup d x with Some (Some m) => macro_of m | _ => None end.

(** ** Tokens with the macros that do not replace them any more *)
Definition htok := (tok * list string)%type.
Definition hide (h : list string) (l : list htok) : list htok := map (fun t => (fst t, (h ++ snd t)%list)) l.
Definition inter (a b : list string) : list string := filter (fun x => mem_s x b) a.

(** ** Arguments: behind the opening parenthesis [cpp.replace.general]/11 *)
Definition onto (t : htok) (a : list (list htok)) : list (list htok) := match a with x :: r => (t :: x) :: r | [] => [[t]] end.
(** the arguments, what hides the closing parenthesis, and the rest *)
Fixpoint collect (depth : nat) (l : list htok) : option (list (list htok) * list string * list htok) :=
  match l with
  | [] => None
  | t :: r =>
      let put d := match collect d r with Some (a, h, r') => Some (onto t a, h, r') | None => None end in
      if is_op "(" (fst t) then put (S depth)
      else if is_op ")" (fst t) then match depth with O => Some ([[]], snd t, r) | S d => put d end
      else if is_op "," (fst t) && Nat.eqb depth 0 then match collect 0 r with Some (a, h, r') => Some ([] :: a, h, r') | None => None end
      else put depth
  end.
Definition comma : htok := (TOp ",", []).
Fixpoint joined (a : list (list htok)) : list htok :=
  match a with [] => [] | [x] => x | x :: r => (x ++ comma :: joined r)%list end.
Definition va_name : string := "__VA_ARGS__".
(** the tokens of each parameter *)
Definition bind (ps : list string) (va : bool) (args : list (list htok)) : option (list (string * list htok)) :=
  if va then
    if Nat.leb (List.length ps) (List.length args)
    then Some (combine ps args ++ [(va_name, joined (skipn (List.length ps) args))])%list
    else None
  else match ps, args with
       | [], [[]] => Some []
       | _, _ => if Nat.eqb (List.length ps) (List.length args) then Some (combine ps args) else None
       end.

(** ** Replacement *)
(** a value, an error (the program is ill-formed or its behaviour undefined), or not enough fuel *)
Inductive xr (A : Type) := Val (a : A) | Ill | Out.
Arguments Val {A}. Arguments Ill {A}. Arguments Out {A}.
Definition xbind {A B} (m : xr A) (f : A -> xr B) : xr B := match m with Val a => f a | Ill => Ill | Out => Out end.
(** the spelling of a token inside a string literal: [cpp.stringize] *)
Fixpoint escaped (s : string) : string :=
  match s with
  | "" => ""
  | String c r => if ((c =? """") || (c =? "\"))%char then String "\" (String c (escaped r)) else String c (escaped r)
  end.
Definition spelled (t : tok) : string :=
  match t with TId s | TNum s | TOp s => s | TStr s => "\""" ++ escaped s ++ "\""" end.
Definition stringized (l : list htok) : tok := TStr (String.concat "" (map (fun t => spelled (fst t)) l)).
(** [cpp.concat] *)
Definition raw_text (t : tok) : string := match t with TId s | TNum s | TOp s => s | TStr s => """" ++ s ++ """" end.
Definition paste (a b : htok) : xr htok :=
  match lex (raw_text (fst a) ++ raw_text (fst b)) with [t] => Val (t, inter (snd a) (snd b)) | _ => Ill end.
Fixpoint glue (a b : list htok) : xr (list htok) :=
  match a with
  | [] => Val b
  | [x] => match b with [] => Val [x] | y :: b => xbind (paste x y) (fun t => Val (t :: b)) end
  | x :: a => xbind (glue a b) (fun l => Val (x :: l))
  end.
(** a parameter: its argument, and the argument with its macros replaced *)
Definition env := list (string * (list htok * xr (list htok))).
Definition arg_of (e : env) (t : tok) : option (list htok * xr (list htok)) :=
  match t with TId x => match find (fun p => String.eqb (fst p) x) e with Some p => Some (snd p) | None => None end | _ => None end.
Definition operand (e : env) (t : tok) : list htok := match arg_of e t with Some p => fst p | None => [(t, [])] end.
Definition replaced (e : env) (t : tok) : xr (list htok) := match arg_of e t with Some p => snd p | None => Val [(t, [])] end.
(** the tokens for each element of the replacement list. [cat]: behind ## *)
Fixpoint subst (fn : bool) (e : env) (cat : bool) (b : list tok) : xr (list (list htok)) :=
  match b with
  | [] => Val []
  | t :: r =>
      match r with
      | [] => if cat then Val [operand e t] else xbind (replaced e t) (fun x => Val [x])
      | u :: r2 =>
          if is_op "##" u then
            match r2 with
            | v :: r3 =>
                if is_op "," t && (match v with TId x => String.eqb x va_name | _ => false end) && (match arg_of e v with Some _ => true | None => false end) then
                  let a := operand e v in
                  xbind (subst fn e false r3) (fun l => Val (match a with [] => [] | _ => (t, []) :: a end :: l))
                else
                  xbind (subst fn e true r2) (fun l =>
                    match l with x :: l => xbind (glue (operand e t) x) (fun y => Val (y :: l)) | [] => Ill end)
            | [] => Ill
            end
          else if fn && is_op "#" t then
            match arg_of e u with
            | Some p => xbind (subst fn e false r2) (fun l => Val ([(stringized (fst p), [])] :: l))
            | None => Ill
            end
          else
            xbind (if cat then Val (operand e t) else replaced e t) (fun x => xbind (subst fn e false r) (fun l => Val (x :: l)))
      end
  end.
(** the tokens with all macros replaced *)
Fixpoint expand (fuel : nat) (T : table) (l : list htok) : xr (list htok) :=
  match fuel with
  | O => Out
  | S n =>
      match l with
      | [] => Val []
      | (t, h) :: r =>
          let keep := xbind (expand n T r) (fun l => Val ((t, h) :: l)) in
          match t with
          | TId x =>
              if mem_s x h then keep
              else match T x with
                   | None => keep
                   | Some (Macro None b) => xbind (subst false [] false b) (fun l => expand n T (hide (x :: h) (List.concat l) ++ r))
                   | Some (Macro (Some (ps, va)) b) =>
                       match r with
                       | (p, _) :: r1 =>
                           if is_op "(" p then
                             match collect 0 r1 with
                             | Some (args, hp, r2) =>
                                 match bind ps va args with
                                 | Some ba =>
                                     xbind (subst true (map (fun q => (fst q, (snd q, expand n T (snd q)))) ba) false b)
                                           (fun l => expand n T (hide (x :: inter h hp) (List.concat l) ++ r2))
                                 | None => Ill
                                 end
                             | None => Ill
                             end
                           else keep
                       | [] => keep
                       end
                   end
          | _ => keep
          end
      end
  end.
(** a text of tokens that nothing hides yet *)
Definition plain_toks (l : list tok) : list htok := map (fun t => (t, [])) l.
Definition expand_text (fuel : nat) (T : table) (l : list tok) : xr (list tok) :=
  xbind (expand fuel T (plain_toks l)) (fun r => Val (map fst r)).
