(** A preprocessor, to run the headers that detect the compiler, the platform, the processor and
    the language: translation phases 2 to 4 of C++ ([lex.phases], [cpp]), as far as these headers
    use them. The texts are in PpText*.v.
    Simplified:
    - macros that do not come from the texts ([base]) are undefined, empty or an integer;
    - in a condition the replacement of a macro is taken as an expression of its own;
    - the integers of conditions are unbounded (they are compared only);
    - text lines are kept as they are; macros are not replaced in them;
    - text behind the name in #ifdef and #ifndef is ignored, as compilers do (with a warning). *)
From Verif Require Import Base.
From Coq Require Import String Ascii.
Open Scope string_scope.
Open Scope Z_scope.

(** ** Phase 2: a backslash in front of a new-line joins two lines *)
Definition nl : ascii := "010".
Fixpoint splice (s : string) : string :=
  match s with
  | "" => ""
  | String c r =>
      if (c =? "\")%char then
        match r with String d r' => if (d =? nl)%char then splice r' else String c (splice r) | "" => s end
      else String c (splice r)
  end.
(** ** Phase 3: a comment is a space *)
Inductive lexst := LText | LStr (q : ascii) | LLine | LBlock.
Fixpoint uncomment (st : lexst) (s : string) : string :=
  match s with
  | "" => ""
  | String c r =>
      match st with
      | LText =>
          if (c =? "/")%char then
            match r with
            | String d r' =>
                if (d =? "/")%char then String " " (uncomment LLine r')
                else if (d =? "*")%char then String " " (uncomment LBlock r') else String c (uncomment LText r)
            | "" => s
            end
          else if ((c =? """") || (c =? "'"))%char then String c (uncomment (LStr c) r)
          else String c (uncomment LText r)
      | LStr q =>
          if (c =? "\")%char then match r with String d r' => String c (String d (uncomment st r')) | "" => s end
          else if ((c =? q) || (c =? nl))%char then String c (uncomment LText r)
          else String c (uncomment st r)
      | LLine => if (c =? nl)%char then String c (uncomment LText r) else uncomment LLine r
      | LBlock =>
          if (c =? "*")%char then
            match r with String d r' => if (d =? "/")%char then uncomment LText r' else uncomment LBlock r | "" => "" end
          else uncomment LBlock r
      end
  end.
Fixpoint split_lines (s : string) : list string :=
  match s with
  | "" => [""]
  | String c r =>
      let l := split_lines r in
      if (c =? nl)%char then "" :: l else match l with x :: l => String c x :: l | [] => [String c ""] end
  end.

(** ** Tokens *)
Inductive tok := TId (s : string) | TNum (s : string) | TStr (s : string) | TOp (s : string).
Definition blank (c : ascii) : bool := ((c =? " ") || (c =? "009") || (c =? "013"))%char.
Definition in_range_c (a b c : ascii) : bool := (N_of_ascii a <=? N_of_ascii c)%N && (N_of_ascii c <=? N_of_ascii b)%N.
Definition is_digit (c : ascii) : bool := in_range_c "0" "9" c.
Definition is_idstart (c : ascii) : bool := in_range_c "a" "z" c || in_range_c "A" "Z" c || (c =? "_")%char.
Definition is_idchar (c : ascii) : bool := is_idstart c || is_digit c.
Fixpoint span (p : ascii -> bool) (s : string) : string * string :=
  match s with
  | String c r => if p c then let (a, b) := span p r in (String c a, b) else ("", s)
  | "" => ("", "")
  end.
Fixpoint str_lit (s : string) : string * string :=
  match s with
  | String c r =>
      if (c =? "\")%char then match r with String d r' => let (a, b) := str_lit r' in (String c (String d a), b) | "" => (s, "") end
      else if (c =? """")%char then ("", r) else let (a, b) := str_lit r in (String c a, b)
  | "" => ("", "")
  end.
Definition two (s : string) : bool :=
  existsb (String.eqb s) ["&&"; "||"; "=="; "!="; "<="; ">="; "<<"; ">>"; "##"].
Fixpoint tokens (fuel : nat) (s : string) : list tok :=
  match fuel with
  | O => []
  | S fuel =>
      match s with
      | "" => []
      | String c r =>
          if blank c then tokens fuel r
          else if is_idstart c then let (a, b) := span is_idchar s in TId a :: tokens fuel b
          else if is_digit c then let (a, b) := span is_idchar s in TNum a :: tokens fuel b
          else if (c =? """")%char then let (a, b) := str_lit r in TStr a :: tokens fuel b
          else match r with
               | String d r' =>
                   if two (String c (String d "")) then TOp (String c (String d "")) :: tokens fuel r'
                   else TOp (String c "") :: tokens fuel r
               | "" => [TOp (String c "")]
               end
      end
  end.
Definition lex (s : string) : list tok := tokens (String.length s) s.
(** integer literals: decimal and hexadecimal, with the suffixes u and l *)
Definition hex_val (c : ascii) : option Z :=
  if is_digit c then Some (Z.of_N (N_of_ascii c) - 48)
  else if in_range_c "a" "f" c then Some (Z.of_N (N_of_ascii c) - 87)
  else if in_range_c "A" "F" c then Some (Z.of_N (N_of_ascii c) - 55) else None.
Definition suffix (s : string) : bool := existsb (String.eqb s) [""; "L"; "l"; "u"; "U"; "UL"; "ul"; "LL"; "ll"; "ULL"; "ull"].
Fixpoint number_in (base : Z) (s : string) (v : Z) : option Z :=
  match s with
  | "" => Some v
  | String c r =>
      match hex_val c with
      | Some d => if d <? base then number_in base r (v * base + d) else if suffix s then Some v else None
      | None => if suffix s then Some v else None
      end
  end.
Definition number (s : string) : option Z :=
  match s with
  | "0" => Some 0
  | String "0" (String x r) => if ((x =? "x") || (x =? "X"))%char then number_in 16 r 0 else None
  | _ => number_in 10 s 0
  end.

(** ** Conditions: [cpp.cond] *)
Inductive binop := BOr | BAnd | BEq | BNe | BLt | BLe | BGt | BGe.
Inductive expr :=
| ENum (z : Z) | EId (x : string) | EDefined (x : string)
| EHas (f : string) (arg : list tok)   (** __has_include(...), __has_cpp_attribute(...) *)
| ENot (e : expr) | EBin (o : binop) (a b : expr).
(** the operators of a level, the loosest first *)
Definition level (n : nat) (s : string) : option binop :=
  match n, s with
  | 3%nat, "||" => Some BOr
  | 2%nat, "&&" => Some BAnd
  | 1%nat, "==" => Some BEq | 1%nat, "!=" => Some BNe
  | 0%nat, "<" => Some BLt | 0%nat, "<=" => Some BLe | 0%nat, ">" => Some BGt | 0%nat, ">=" => Some BGe
  | _, _ => None
  end.
(** up to the closing parenthesis *)
Fixpoint to_paren (l : list tok) : option (list tok * list tok) :=
  match l with
  | TOp ")" :: r => Some ([], r)
  | t :: r => match to_paren r with Some (a, b) => Some (t :: a, b) | None => None end
  | [] => None
  end.
Definition is_has (x : string) : bool := existsb (String.eqb x) ["__has_include"; "__has_cpp_attribute"].
(** [lev]: S n for the operators of level n, and 0 for unary and primary expressions *)
Fixpoint pexpr (fuel : nat) (lev : nat) (l : list tok) : option (expr * list tok) :=
  match fuel with
  | O => None
  | S fuel =>
      match lev with
      | S n =>
          match pexpr fuel n l with
          | Some (a, l) => ploop fuel n a l
          | None => None
          end
      | O =>
          match l with
          | TNum s :: r => match number s with Some z => Some (ENum z, r) | None => None end
          | TId "defined" :: TId x :: r => Some (EDefined x, r)
          | TId "defined" :: TOp "(" :: TId x :: TOp ")" :: r => Some (EDefined x, r)
          | TId x :: r =>
              match r with
              | TOp "(" :: r => if is_has x then match to_paren r with Some (a, b) => Some (EHas x a, b) | None => None end else None
              | _ => Some (EId x, r)
              end
          | TOp "!" :: r => match pexpr fuel O r with Some (e, r) => Some (ENot e, r) | None => None end
          | TOp "(" :: r => match pexpr fuel 4 r with Some (e, TOp ")" :: r) => Some (e, r) | _ => None end
          | _ => None
          end
      end
  end
with ploop (fuel : nat) (n : nat) (a : expr) (l : list tok) : option (expr * list tok) :=
  match fuel with
  | O => None
  | S fuel =>
      match l with
      | TOp s :: r =>
          match level n s with
          | Some o => match pexpr fuel n r with Some (b, r) => ploop fuel n (EBin o a b) r | None => None end
          | None => Some (a, l)
          end
      | _ => Some (a, l)
      end
  end.
Definition cond (l : list tok) : option expr :=
  match pexpr (8 * (List.length l + 4)) 4 l with Some (e, []) => Some e | _ => None end.

(** ** Directives *)
Inductive line :=
| LText_ (s : string)
| LDefine (x : string) (fn : bool) (body : list tok)
| LUndef (x : string)
| LInclude (f : list tok)
| LError (s : string)
| LNone
| LIf (c : option expr) | LElif (c : option expr) | LElse | LEndif
| LBad.
Fixpoint ltrim (s : string) : string := match s with String c r => if blank c then ltrim r else s | "" => "" end.
(** a macro with parameters has the parenthesis right behind its name *)
Definition define_of (s : string) : line :=
  let '(x, r) := span is_idchar (ltrim s) in
  match x with
  | "" => LBad
  | _ => LDefine x (match r with String c _ => (c =? "(")%char | "" => false end) (lex r)
  end.
Definition first_id (s : string) (k : string -> line) : line := match lex s with TId x :: _ => k x | _ => LBad end.
Definition line_of (s : string) : line :=
  match ltrim s with
  | "" => LNone
  | String c r =>
      if (c =? "#")%char then
        let '(d, r) := span is_idchar (ltrim r) in
        if d =? "if" then LIf (cond (lex r))
        else if d =? "ifdef" then first_id r (fun x => LIf (Some (EDefined x)))
        else if d =? "ifndef" then first_id r (fun x => LIf (Some (ENot (EDefined x))))
        else if d =? "elif" then LElif (cond (lex r))
        else if d =? "else" then LElse
        else if d =? "endif" then LEndif
        else if d =? "define" then define_of r
        else if d =? "undef" then first_id r LUndef
        else if d =? "include" then LInclude (lex r)
        else if d =? "error" then LError (ltrim r)
        else if d =? "pragma" then LNone
        else if d =? "" then LNone else LBad
      else LText_ (String c r)
  end%string.
Definition lines (text : string) : list line := map line_of (split_lines (uncomment LText (splice text))).

(** ** Groups. A condition that does not parse is None *)
Inductive items := Nil | Line (l : line) (rest : items) | If (c : option expr) (a b : items) (rest : items).
Fixpoint app_items (a b : items) : items :=
  match a with Nil => b | Line l r => Line l (app_items r b) | If c x y r => If c x y (app_items r b) end.
(** the items of a group, and the lines from the directive on that ends it *)
Fixpoint group (fuel : nat) (ls : list line) : option (items * list line) :=
  match fuel with
  | O => None
  | S fuel =>
      match ls with
      | [] => Some (Nil, [])
      | LIf c :: r =>
          match group fuel r with
          | Some (a, r) =>
              match alternatives fuel r with
              | Some (b, r) => match group fuel r with Some (rest, r) => Some (If c a b rest, r) | None => None end
              | None => None
              end
          | None => None
          end
      | LElif _ :: _ | LElse :: _ | LEndif :: _ => Some (Nil, ls)
      | l :: r => match group fuel r with Some (rest, r) => Some (Line l rest, r) | None => None end
      end
  end
(** what follows the first group of an #if; the lines behind the #endif *)
with alternatives (fuel : nat) (ls : list line) : option (items * list line) :=
  match fuel with
  | O => None
  | S fuel =>
      match ls with
      | LElif c :: r =>
          match group fuel r with
          | Some (a, r) => match alternatives fuel r with Some (b, r) => Some (If c a b Nil, r) | None => None end
          | None => None
          end
      | LElse :: r => match group fuel r with Some (a, LEndif :: r) => Some (a, r) | _ => None end
      | LEndif :: r => Some (Nil, r)
      | _ => None
      end
  end.
Definition parse (text : string) : option items :=
  let ls := lines text in
  match group (2 * List.length ls + 2) ls with Some (i, []) => Some i | _ => None end.
(** a file that does not parse is an error *)
Definition file (text : string) : items := match parse text with Some i => i | None => Line LBad Nil end.

(** ** Execution: [cpp] *)
Inductive pmac := PEmpty | PInt (z : Z).
(** macros of the texts: with parameters or not, and the replacement; None: undefined *)
Record mac := Mac { mfn : bool; mbody : list tok }.
Definition defs := list (string * option mac).
Fixpoint lookup (d : defs) (x : string) : option (option mac) :=
  match d with [] => None | (y, m) :: d => if (x =? y)%string then Some m else lookup d x end.
(** the macros that the compiler, the command line and other headers define, and the values of
    __has_include and its like *)
Record world := World { base : string -> option pmac; has : string -> list tok -> Z }.
Definition b2z (b : bool) : Z := if b then 1 else 0.
(** macros of the texts replaced; None: not an expression *)
Fixpoint resolve (fuel : nat) (d : defs) (e : expr) : option expr :=
  match fuel with
  | O => None
  | S fuel =>
      match e with
      | ENum z => Some e
      | EHas _ _ => Some e
      | EDefined x => match lookup d x with Some m => Some (ENum (b2z (match m with Some _ => true | None => false end))) | None => Some e end
      | EId x =>
          match lookup d x with
          | None => Some e
          | Some None => Some (ENum 0)
          | Some (Some m) => if mfn m then Some (ENum 0) else match cond (mbody m) with Some e => resolve fuel d e | None => None end
          end
      | ENot e => match resolve fuel d e with Some e => Some (ENot e) | None => None end
      | EBin o a b => match resolve fuel d a, resolve fuel d b with Some a, Some b => Some (EBin o a b) | _, _ => None end
      end
  end.
Definition binval (o : binop) (a b : Z) : Z :=
  match o with
  | BOr => b2z (negb (a =? 0) || negb (b =? 0)) | BAnd => b2z (negb (a =? 0) && negb (b =? 0))
  | BEq => b2z (a =? b) | BNe => b2z (negb (a =? b))
  | BLt => b2z (a <? b) | BLe => b2z (a <=? b) | BGt => b2z (b <? a) | BGe => b2z (b <=? a)
  end.
Fixpoint eval (w : world) (e : expr) : option Z :=
  match e with
  | ENum z => Some z
  | EId x => match base w x with None => Some 0 | Some (PInt z) => Some z | Some PEmpty => None end
  | EDefined x => Some (b2z (match base w x with Some _ => true | None => false end))
  | EHas f a => Some (has w f a)
  | ENot e => match eval w e with Some z => Some (b2z (z =? 0)) | None => None end
  | EBin o a b => match eval w a, eval w b with Some a, Some b => Some (binval o a b) | _, _ => None end
  end.
Definition depth : nat := 64.
(** the value of a condition; None: ill-formed *)
Definition value (w : world) (d : defs) (e : expr) : option Z :=
  match resolve depth d e with Some e => eval w e | None => None end.

(** a macro may be defined again only with the same replacement: [cpp.replace] *)
Definition tok_eqb (a b : tok) : bool :=
  match a, b with
  | TId x, TId y | TNum x, TNum y | TStr x, TStr y | TOp x, TOp y => String.eqb x y
  | _, _ => false
  end.
Fixpoint toks_eqb (a b : list tok) : bool :=
  match a, b with [], [] => true | x :: a, y :: b => tok_eqb x y && toks_eqb a b | _, _ => false end.
Definition same_base (m : mac) (p : pmac) : bool :=
  negb (mfn m) && match p, mbody m with PEmpty, [] => true | PInt z, [TNum s] => match number s with Some y => z =? y | None => false end | _, _ => false end.
Definition may_define (w : world) (d : defs) (x : string) (m : mac) : bool :=
  match lookup d x with
  | Some (Some n) => Bool.eqb (mfn m) (mfn n) && toks_eqb (mbody m) (mbody n)
  | Some None => true
  | None => match base w x with Some p => same_base m p | None => true end
  end.
Inductive outcome := Done (d : defs) (out : list string) | Error (s : string) | Bad | Redefined (x : string).
(** text and #include lines in reversed order *)
Fixpoint toks_text (l : list tok) : string :=
  match l with [] => "" | (TId s | TNum s | TOp s) :: r => s ++ toks_text r | TStr s :: r => String """" (s ++ String """" (toks_text r)) end%string.
Fixpoint exec (w : world) (i : items) (d : defs) (out : list string) : outcome :=
  match i with
  | Nil => Done d out
  | Line l r =>
      match l with
      | LText_ s => exec w r d (s :: out)
      | LDefine x fn body => if may_define w d x (Mac fn body) then exec w r ((x, Some (Mac fn body)) :: d) out else Redefined x
      | LUndef x => exec w r ((x, None) :: d) out
      | LInclude f => exec w r d (("#include " ++ toks_text f)%string :: out)
      | LError s => Error s
      | LNone => exec w r d out
      | _ => Bad
      end
  | If c a b r =>
      match c with
      | None => Bad
      | Some c =>
          match value w d c with
          | None => Bad
          | Some z =>
              match exec w (if z =? 0 then b else a) d out with
              | Done d out => exec w r d out
              | o => o
              end
          end
      end
  end.
(** a condition in a group that is skipped is not looked at; so one that does not parse matters
    only where it is reached *)
Definition run (w : world) (i : items) : outcome := exec w i [] [].
(** included files in the place of their #include lines *)
Fixpoint inline (files : list (string * items)) (i : items) : items :=
  match i with
  | Nil => Nil
  | Line l r =>
      match l with
      | LInclude f =>
          match find (fun p => String.eqb (fst p) (toks_text f)) files with
          | Some (_, j) => app_items j (inline files r)
          | None => Line l (inline files r)
          end
      | _ => Line l (inline files r)
      end
  | If c a b r => If c (inline files a) (inline files b) (inline files r)
  end.
(** after a run *)
Definition is_defined (w : world) (d : defs) (x : string) : bool :=
  match lookup d x with Some (Some _) => true | Some None => false | None => match base w x with Some _ => true | None => false end end.
