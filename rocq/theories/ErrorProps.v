(** Properties C93-C95: error settings, error reports, detection of a debugger. *)
From Verif Require Import Base BaseLemmas CharconvSpec ErrorModel ErrorSpec ErrorProofs.

(** ** C93: ScopedErrorSettings sets the flags and callback for a block and restores both after it *)
Theorem C93_restores s k body : 0 <= eflags s < 2 ^ 32 -> fst (prun s (PScope k body)) = s.
Proof. exact (scope_restores s k body). Qed.
Print Assumptions C93_restores.
Theorem C93_sets s : 0 <= eflags s < 2 ^ 32 ->
  (forall f, 0 <= f < 2 ^ 32 -> snd (scope_enter s (KFlags f)) = Settings f (ecallback s)) /\
  (forall cb, snd (scope_enter s (KCallback cb)) = Settings (eflags s) cb) /\
  (forall f cb, 0 <= f < 2 ^ 32 -> snd (scope_enter s (KBoth f cb)) = Settings f cb).
Proof. exact (scope_sets s). Qed.
Print Assumptions C93_sets.
Example C93_ex1 : prun (Settings 15 None) (PScope (KBoth 4 (Some 1%nat)) [PFlags 2; PScope (KCallback None) [PFlags 9; PThrow; PFlags 1]; PFlags 8]) =
  (Settings 15 None, true).
Proof. reflexivity. Qed.
Example C93_ex2 : snd (scope_enter (Settings 15 (Some 3%nat)) (KFlags 16)) = Settings 16 (Some 3%nat). Proof. reflexivity. Qed.

(** ** C94: handle_error logs the message, gives it to the callback and never returns *)
(** whenever logging or the callback is on and the text could be formatted *)
Theorem C94_reports_partial exc cbs s t : flag s ON_ERROR_LOG = true \/ flag s ON_ERROR_CALLBACK = true -> ~ In 0 (message t) ->
  exists ev e, handle_error exc cbs s (Some t) = Ok (ev, e) /\ (forall u, e = Throws u -> u = message t) /\
  reported (flag s ON_ERROR_LOG) (if flag s ON_ERROR_CALLBACK then ecallback s else None) t ev.
Proof. exact (handle_reports exc cbs s t). Qed.
Print Assumptions C94_reports_partial.
Theorem C94_never_returns exc cbs s text ev e : handle_error exc cbs s text = Ok (ev, e) -> e <> Returns.
Proof. exact (never_returns exc cbs s text ev e). Qed.
Print Assumptions C94_never_returns.
Theorem C94_silent exc cbs s text : flag s ON_ERROR_LOG = false -> flag s ON_ERROR_CALLBACK = false -> flag s ON_ERROR_THROW = false \/ exc = false ->
  handle_error exc cbs s text = Ok ([], Aborts).
Proof. exact (silent_abort exc cbs s text). Qed.
Print Assumptions C94_silent.
(** how it ends, by the bits of the flags, if the callback returns and changes nothing *)
Theorem C94_ending exc cbs s t : has_bit s 1 = true \/ has_bit s 2 = true -> ~ In 0 (message t) -> stays cbs ->
  exists ev, handle_error exc cbs s (Some t) = Ok (ev, if has_bit s 4 && exc then Throws (message t) else Aborts) /\
  reported (has_bit s 1) (if has_bit s 2 then ecallback s else None) t ev.
Proof. exact (handle_ending exc cbs s t). Qed.
Print Assumptions C94_ending.
(** with the default flags: logged, given to the callback, then the program is aborted *)
Theorem C94_defaults exc cbs cb t : ~ In 0 (message t) -> stays cbs ->
  exists ev, handle_error exc cbs (Settings ON_ERROR_DEFAULTS cb) (Some t) = Ok (ev, Aborts) /\ reported true cb t ev.
Proof. exact (handle_defaults exc cbs cb t). Qed.
Print Assumptions C94_defaults.
(** what is printed contains the message; the function without file and line is rejected by the
    compiler (error.hpp 224-226) *)
Theorem C94_log_text fl fn file line func msg : fl = true \/ fn = false ->
  exists a b, log_text fl fn file line func msg = a ++ s2z "ERROR: " ++ msg ++ 10 :: b.
Proof.
  intros [->| ->]; [destruct fn|destruct fl]; unfold log_text; cbn [andb negb].
  - exists (10 :: file ++ s2z ":" ++ line ++ s2z ": "), (file ++ s2z ":" ++ line ++ s2z ": ERROR here: " ++ func ++ [10]).
    cbn [app]. rewrite <- !app_assoc. reflexivity.
  - exists (10 :: file ++ s2z ":" ++ line ++ s2z ": "), []. cbn [app]. rewrite <- !app_assoc. reflexivity.
  - exists (10 :: file ++ s2z ":" ++ line ++ s2z ": "), []. cbn [app]. rewrite <- !app_assoc. reflexivity.
  - exists [10], []. reflexivity.
Qed.
Print Assumptions C94_log_text.
(** with throwing alone the message is never made: the exception is constructed from
    uninitialised memory *)
Theorem C94_throw_only_refuted cbs s text : flag s ON_ERROR_LOG = false -> flag s ON_ERROR_CALLBACK = false -> flag s ON_ERROR_THROW = true ->
  handle_error true cbs s text = Ub.
Proof. exact (throw_only cbs s text). Qed.
Print Assumptions C94_throw_only_refuted.
(** a text that cannot be formatted is logged from uninitialised memory *)
Theorem C94_bad_format_refuted exc cbs s : flag s ON_ERROR_LOG = true -> handle_error exc cbs s None = Ub.
Proof. exact (bad_format exc cbs s). Qed.
Print Assumptions C94_bad_format_refuted.
Theorem C94_warning t : ~ In 0 (message t) -> handle_warning (Some t) = Ok ([EvLog (message t)], Returns).
Proof. exact (warning_ok t). Qed.
Print Assumptions C94_warning.
Definition stay : callbacks := fun _ _ _ s => Some s.
Example C94_ex1 : exists b, handle_error true stay (Settings ON_ERROR_DEFAULTS (Some 5%nat)) (Some (s2z "boom")) =
  Ok ([EvLog (s2z "boom"); EvCallback 5 b 4], Aborts) /\ firstn 5 b = map Some (s2z "boom" ++ [0]).
Proof. eexists. split; [reflexivity|]. reflexivity. Qed.
Example C94_ex2 : exists ev, handle_error true stay (Settings (4 + 16) (Some 5%nat)) (Some (s2z "boom")) = Ok (ev, Throws (s2z "boom")).
Proof. eexists. reflexivity. Qed.
Example C94_ex3 : handle_error true stay (Settings 16 None) (Some (s2z "boom")) = Ub. Proof. reflexivity. Qed.
Example C94_ex4 : handle_error false stay (Settings 2 None) (Some (repeat 65 2000)) = Ok ([EvLog (repeat 65 1023)], Aborts). Proof. reflexivity. Qed.

Example C94_ex5 : log_text true true (s2z "a.cpp") (s2z "12") (s2z "f()") (s2z "boom") =
  [10] ++ s2z "a.cpp:12: ERROR: boom" ++ [10] ++ s2z "a.cpp:12: ERROR here: f()" ++ [10].
Proof. reflexivity. Qed.

(** ** C95: is_debugger_attached tells whether the tracer number in the status file is not 0 *)
(** if the first occurrence of the key in the text that was read is followed by the
    number and one more character *)
Theorem C95_found_partial pre sp pid num e post r0 :
  let text := pre ++ key ++ sp ++ num ++ e :: post in
  len text <= 1024 -> ~ In 0 pre -> first_key pre (sp ++ num ++ e :: post) ->
  Forall (fun c => is_space c = true) sp -> is_numeral 10 pid num -> pid < 2 ^ 31 -> ~ (48 <= e <= 57) ->
  is_debugger_attached (true, r0) (Some (Some text)) = Ok (negb (pid =? 0), (false, negb (pid =? 0))).
Proof. exact (attached_found pre sp pid num e post r0). Qed.
Print Assumptions C95_found_partial.
(** a short text without the key *)
Theorem C95_none text r0 : len text < 1024 -> ~ In 0 text -> (forall a b, text <> a ++ key ++ b) ->
  is_debugger_attached (true, r0) (Some (Some text)) = Ok (r0, (false, r0)).
Proof. exact (attached_none text r0). Qed.
Print Assumptions C95_none.
(** later calls give the first answer *)
Theorem C95_again r status : is_debugger_attached (false, r) status = Ok (r, (false, r)).
Proof. exact (attached_again r status). Qed.
Print Assumptions C95_again.
(** a text that fills the buffer and has no key: the search runs past the buffer *)
Theorem C95_full_buffer_refuted : exists text, len text = 1024 /\ ~ In 0 text /\ is_debugger_attached (true, false) (Some (Some text)) = Ub.
Proof. exists (repeat 65 1024). split; [reflexivity|]. split; [|reflexivity]. intros H. apply repeat_spec in H. discriminate. Qed.
Print Assumptions C95_full_buffer_refuted.
(** the name of the process is in the file too, before the tracer *)
Theorem C95_name_refuted :
  is_debugger_attached (true, false) (Some (Some (s2z "Name:" ++ 9 :: s2z "TracerPid:1" ++ 10 :: s2z "TracerPid:" ++ 9 :: s2z "0" ++ [10]))) =
  Ok (true, (false, true)).
Proof. reflexivity. Qed.
Print Assumptions C95_name_refuted.
Example C95_ex1 : is_debugger_attached (true, false) (Some (Some (s2z "Name:" ++ 9 :: s2z "cat" ++ 10 :: s2z "TracerPid:" ++ 9 :: s2z "0" ++ 10 :: s2z "Uid:"))) = Ok (false, (false, false)) /\
  is_debugger_attached (true, false) (Some (Some (s2z "Name:" ++ 9 :: s2z "cat" ++ 10 :: s2z "TracerPid:" ++ 9 :: s2z "417" ++ 10 :: s2z "Uid:"))) = Ok (true, (false, true)).
Proof. split; reflexivity. Qed.
Example C95_ex2 : is_debugger_attached (true, false) None = Ok (false, (false, false)) /\ is_debugger_attached (true, false) (Some None) = Ok (false, (false, false)).
Proof. split; reflexivity. Qed.
