(** Model of src/c4/error.cpp and of ScopedErrorSettings in src/c4/error.hpp. *)
From Verif Require Import Base.

(** ** The settings: error.cpp 48-71. A callback is known by a number. *)
Record settings := Settings { eflags : Z; ecallback : option nat }.
(** error.hpp 114-130 *)
Definition ON_ERROR_DEBUGBREAK := 1.
Definition ON_ERROR_LOG := 2.
Definition ON_ERROR_CALLBACK := 4.
Definition ON_ERROR_ABORT := 8.
Definition ON_ERROR_THROW := 16.
Definition ON_ERROR_DEFAULTS := Z.lor (Z.lor (Z.lor ON_ERROR_DEBUGBREAK ON_ERROR_LOG) ON_ERROR_CALLBACK) ON_ERROR_ABORT.
Definition set_error_flags (s : settings) (f : Z) : settings := Settings (f mod 2 ^ 32) (ecallback s).
Definition set_error_callback (s : settings) (cb : option nat) : settings := Settings (eflags s) cb.
Definition get_error_flags (s : settings) : Z := eflags s.
Definition get_error_callback (s : settings) : option nat := ecallback s.

(** ** ScopedErrorSettings: error.hpp 143-172. The object holds what it saved. *)
Inductive scope_kind := KFlags (f : Z) | KCallback (cb : option nat) | KBoth (f : Z) (cb : option nat).
Definition scope_enter (s : settings) (k : scope_kind) : settings * settings :=
  let saved := Settings (get_error_flags s) (get_error_callback s) in
  match k with
  | KCallback cb => (saved, set_error_callback s cb)
  | KFlags f => (saved, set_error_flags s f)
  | KBoth f cb => (saved, set_error_callback (set_error_flags s f) cb)
  end.
Definition scope_leave (saved s : settings) : settings :=
  set_error_callback (set_error_flags s (eflags saved)) (ecallback saved).
(** a program that sets and opens scopes; a scope is left at the end of its block, also
    when the block is left by an exception *)
Inductive prog := PFlags (f : Z) | PCallback (cb : option nat) | PThrow | PScope (k : scope_kind) (body : list prog).
(** runs a block: settings afterwards, and whether an exception left it *)
Fixpoint prun (s : settings) (p : prog) : settings * bool :=
  match p with
  | PFlags f => (set_error_flags s f, false)
  | PCallback cb => (set_error_callback s cb, false)
  | PThrow => (s, true)
  | PScope k body =>
      let '(saved, s) := scope_enter s k in
      let '(s, th) := (fix block s ps := match ps with
        | [] => (s, false)
        | p :: ps => let '(s, th) := prun s p in if th then (s, true) else block s ps end) s body in
      (scope_leave saved s, th)
  end.

(** ** handle_error: error.cpp 77-124 *)
(** characters of a buffer: [None] was never written *)
Definition buffer := list (option Z).
(** vsnprintf into a buffer of [n] characters. The formatted text is an input; [None]
    stands for an encoding error: the result is negative and the buffer not written. The
    result is negative also if the length is not an int; then the text is written. *)
Definition vsnprintf (buf : buffer) (n : Z) (text : option (list Z)) : buffer * Z :=
  match text with
  | None => (buf, -1)
  | Some t =>
      let w := firstn (Z.to_nat (n - 1)) t ++ [0] in
      (map Some w ++ skipn (length w) buf, if 2 ^ 31 <=? len t then -1 else len t)
  end.
(** reading a C string from the buffer: up to the first zero; undefined if there is
    none or a character was never written *)
Fixpoint cstr (buf : buffer) : res (list Z) :=
  match buf with
  | [] => Ub
  | None :: _ => Ub
  | Some c :: buf => if c =? 0 then Ok [] else do r <- cstr buf ;; Ok (c :: r)
  end.
Inductive event := EvLog (text : list Z) | EvCallback (cb : nat) (msg : buffer) (msglen : Z).
Inductive ending := Returns | Aborts | Throws (text : list Z) | CallbackLeaves.
(** what a callback does, given the settings: return with new settings, or not return *)
Definition callbacks := nat -> buffer -> Z -> settings -> option settings.
(** [exc]: compiled with C4_EXCEPTIONS_ENABLED and C4_ERROR_THROWS_EXCEPTION. What is
    printed for a message that is logged is [log_text]. *)
Definition flag (s : settings) (f : Z) : bool := negb (Z.land (eflags s) f =? 0).
Definition handle_error (exc : bool) (cbs : callbacks) (s : settings) (text : option (list Z)) : res (list event * ending) :=
  let buf := repeat None 1024 in
  let '(buf, msglen) :=
    if flag s (Z.lor ON_ERROR_LOG ON_ERROR_CALLBACK) then
      let '(buf, ilen) := vsnprintf buf 1024 text in
      (buf, if (0 <=? ilen) && (ilen <? 1024) then ilen else 1024 - 1)
    else (buf, 0) in
  do log <- (if flag s ON_ERROR_LOG then do t <- cstr buf ;; Ok [EvLog t] else Ok []) ;;
  let '(called, next) :=
    if flag s ON_ERROR_CALLBACK then
      match ecallback s with
      | Some cb => ([EvCallback cb buf msglen], cbs cb buf msglen s)
      | None => ([], Some s)
      end
    else ([], Some s) in
  match next with
  | None => Ok (log ++ called, CallbackLeaves)
  | Some s =>
      if flag s ON_ERROR_THROW && exc then do t <- cstr buf ;; Ok (log ++ called, Throws t)
      else if flag s ON_ERROR_ABORT then Ok (log ++ called, Aborts)
      else Ok (log ++ called, Aborts)
  end.

(** what is printed for a logged message: error.cpp 90-102; C4_LOGF_ERR is fprintf to stderr. [fl], [fn]: C4_ERROR_SHOWS_FILELINE,
    C4_ERROR_SHOWS_FUNC; the number of the line is given as text. The '\n' is printed first. *)
Definition log_text (fl fn : bool) (file line func msg : list Z) : list Z :=
  let nl := [10] in
  nl ++
  (if fl && fn then file ++ s2z ":" ++ line ++ s2z ": ERROR: " ++ msg ++ nl ++
                    file ++ s2z ":" ++ line ++ s2z ": ERROR here: " ++ func ++ nl
   else if fl then file ++ s2z ":" ++ line ++ s2z ": ERROR: " ++ msg ++ nl
   else if negb fn then s2z "ERROR: " ++ msg ++ nl
   else []).

(** ** handle_warning: error.cpp 129-146 *)
Definition handle_warning (text : option (list Z)) : res (list event * ending) :=
  let '(buf, _) := vsnprintf (repeat None 1024) 1024 text in
  do t <- cstr buf ;; Ok ([EvLog t], Returns).

(** ** is_debugger_attached: error.cpp 149-191 (Linux). The statics are (first call,
    result). [status] is the file: [None] if it cannot be opened; otherwise what the one
    call to read delivers of it, [None] if read fails. *)
(** strstr in a buffer: the position of the first occurrence before the terminator;
    undefined if the end of the buffer is reached first *)
Fixpoint starts (pat s : list Z) : res bool :=
  match pat, s with
  | [], _ => Ok true
  | _ :: _, [] => Ub
  | p :: pat, c :: s => if p =? c then starts pat s else Ok false
  end.
Fixpoint strstr (s pat : list Z) : res (option (list Z)) :=
  match s with
  | [] => Ub
  | c :: s' =>
      if c =? 0 then Ok None else
      do b <- starts pat s ;; if b then Ok (Some s) else strstr s' pat
  end.
(** atoi: spaces, a sign, digits; undefined at the end of the buffer and for a value
    that is not an int *)
Definition is_space (c : Z) : bool := (c =? 32) || ((9 <=? c) && (c <=? 13)).
Fixpoint digits (s : list Z) (acc : Z) : res Z :=
  match s with
  | [] => Ub
  | c :: s => if (48 <=? c) && (c <=? 57) then digits s (10 * acc + (c - 48)) else Ok acc
  end.
Definition to_int (v : Z) : res Z := if (- 2 ^ 31 <=? v) && (v <? 2 ^ 31) then Ok v else Ub.
Fixpoint atoi (s : list Z) : res Z :=
  match s with
  | [] => Ub
  | c :: s' =>
      if is_space c then atoi s'
      else if c =? ch "-" then do v <- digits s' 0 ;; to_int (- v)
      else if c =? ch "+" then do v <- digits s' 0 ;; to_int v
      else do v <- digits s 0 ;; to_int v
  end.
Definition tracer_pid : list Z := s2z "TracerPid:".
Definition is_debugger_attached (st : bool * bool) (status : option (option (list Z))) : res (bool * (bool * bool)) :=
  let '(first, result) := st in
  if first then
    match status with
    | None => Ok (false, (false, result))
    | Some data =>
        let text := match data with Some l => l | None => [] end in
        let num_read := len text in
        let buf := text ++ repeat 0 (1024 - length text) in
        do result <- (if (match data with Some _ => 0 <? num_read | None => false end) then
            do buf <- (if num_read <? 1024 then wr buf num_read 0 else Ok buf) ;;
            do p <- strstr buf tracer_pid ;;
            match p with
            | Some p => do v <- atoi (skipn (length tracer_pid) p) ;; Ok (negb (v =? 0))
            | None => Ok result
            end
          else Ok result) ;;
        Ok (result, (false, result))
    end
  else Ok (result, st).
