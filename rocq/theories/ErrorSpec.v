(** Specification for error reporting. *)
From Verif Require Import Base CharconvSpec ErrorModel.

(** the part of a text that fits a buffer of 1024 characters with the terminator *)
Definition message (t : list Z) : list Z := firstn 1023 t.
(** a report: what is logged and what the callback gets (a terminated message and its length) *)
Definition reported (log : bool) (cb : option nat) (t : list Z) (ev : list event) : Prop :=
  exists rest, ev = (if log then [EvLog (message t)] else []) ++
    match cb with Some cb => [EvCallback cb (map Some (message t ++ [0]) ++ rest) (len (message t))] | None => [] end.

(** the status file: the first line that begins with the key gives the number *)
Definition key : list Z := s2z "TracerPid:".
Definition first_key (pre rest : list Z) : Prop :=
  forall a b r, pre = a ++ b -> b <> [] -> b ++ key ++ rest <> key ++ r.

(** the flags by their bits: 0 debugger, 1 log, 2 callback, 3 abort, 4 throw *)
Definition has_bit (s : settings) (i : Z) : bool := Z.testbit (eflags s) i.
(** a callback that returns and leaves the settings alone *)
Definition stays (cbs : callbacks) : Prop := forall cb b n s, cbs cb b n s = Some s.
