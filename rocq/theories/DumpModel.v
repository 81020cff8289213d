(** Model of dumping through a callback: src/c4/dump.hpp.

    The callback's calls are recorded as the trace, a list of chunks; the callback
    itself does not touch the buffer. The overloads taking the callback as a template
    argument and as a function argument have the same body. *)
From Verif Require Import Base SubstrModel SpanNumModel Base64Model FormatModel.

Definition trace := list (list Z).

(** dump: 20-70. csubstr and char arrays are passed on directly, if the buffer is not empty *)
Definition dump (dbg : bool) (m : list Z) (b : view) (a : arg) : res (list Z * trace * Z) :=
  match a with
  | AStr s => Ok (m, if 0 <? vl b then [s] else [], 0)
  | _ =>
      do '(m, sz) <- to_chars dbg m b a ;;
      Ok (m, if sz <=? vl b then [contents m (View (vo b) sz)] else [], sz)
  end.

Definition zmax (a b : Z) : Z := if b <? a then a else b.
(** [if(size > buf.len) buf = buf.first(0)] *)
Definition shrink (b : view) (sz : Z) : view := if vl b <? sz then View (vo b) 0 else b.

(** cat_dump: 95-129 *)
Fixpoint cat_dump (dbg : bool) (m : list Z) (b : view) (al : list arg) : res (list Z * trace * Z) :=
  match al with
  | [] => Ok (m, [], 0)
  | a :: more =>
      do '(m, tr, sz) <- dump dbg m b a ;;
      do '(m, tr2, sz2) <- cat_dump dbg m (shrink b sz) more ;;
      Ok (m, tr ++ tr2, zmax sz2 sz)
  end.

(** catsep_dump: 219-267 *)
Fixpoint catsep_dump (dbg : bool) (m : list Z) (b : view) (sep : arg) (al : list arg) : res (list Z * trace * Z) :=
  match al with
  | [] => Ok (m, [], 0)
  | a :: more =>
      do '(m, tr, sz) <- dump dbg m b a ;;
      let b := shrink b sz in
      do '(m, b, tr, sz) <-
        match more with
        | [] => Ok (m, b, tr, sz)
        | _ => do '(m, trs, szs) <- dump dbg m b sep ;; Ok (m, shrink b szs, tr ++ trs, zmax sz szs)
        end ;;
      do '(m, tr2, sz2) <- catsep_dump dbg m b sep more ;;
      Ok (m, tr ++ tr2, zmax sz2 sz)
  end.

(** format_dump: 373-441 *)
Definition lit_dump (b : view) (s : list Z) : trace := if (0 <? vl b) && (0 <? len s) then [s] else [].
Fixpoint format_dump (dbg : bool) (m : list Z) (b : view) (fmt : list Z) (al : list arg) : res (list Z * trace * Z) :=
  match al with
  | [] => Ok (m, lit_dump b fmt, 0)
  | a :: more =>
      do pos <- find fmt (s2z "{}") (Some 0) ;;
      match pos with
      | None => Ok (m, lit_dump b fmt, 0)
      | Some pos =>
          do head <- first_d dbg (len fmt) pos ;;
          let tr0 := lit_dump b (contents fmt head) in
          do rest <- sub_d dbg (len fmt) (pos + 2) ;;
          do '(m, tr, sz) <- dump dbg m b a ;;
          do '(m, tr2, sz2) <- format_dump dbg m (shrink b sz) (contents fmt rest) more ;;
          Ok (m, tr0 ++ tr ++ tr2, zmax sz2 sz)
      end
  end.

(** ** Resumable dumping *)

(** DumpResults: 76-84 *)
Record dres := DRes { bufsize : Z; lastok : Z }.
Definition noarg : Z := 2 ^ 64 - 1.
Definition dres0 : dres := DRes 0 noarg.
Definition write_arg (r : dres) (arg : Z) : bool := (lastok r =? noarg) || (lastok r <? arg).

(** detail::cat_dump_resume for one argument: 136-161 *)
Definition cat_dump_resume1 (dbg : bool) (currarg : Z) (r : dres) (m : list Z) (b : view) (a : arg)
  : res (list Z * trace * dres) :=
  if write_arg r currarg then
    do '(m, tr, sz) <- dump dbg m b a ;;
    let lo := if (currarg =? u64 (lastok r + 1)) && (sz <=? vl b) then currarg else lastok r in
    Ok (m, tr, DRes (zmax sz (bufsize r)) lo)
  else Ok (m, [], r).
Fixpoint cat_dump_resume_ (dbg : bool) (currarg : Z) (r : dres) (m : list Z) (b : view) (al : list arg)
  : res (list Z * trace * dres) :=
  match al with
  | [] => Ok (m, [], r)
  | a :: more =>
      do '(m, tr, r) <- cat_dump_resume1 dbg currarg r m b a ;;
      do '(m, tr2, r) <- cat_dump_resume_ dbg (currarg + 1) r m b more ;;
      Ok (m, tr ++ tr2, r)
  end.
(** cat_dump_resume(results, buf, args...): 181-197 *)
Definition cat_dump_resume dbg (r : dres) (m : list Z) (b : view) (al : list arg) : res (list Z * trace * dres) :=
  if vl b <? bufsize r then Ok (m, [], r) else cat_dump_resume_ dbg 0 r m b al.

(** detail::catsep_dump_resume_: 275-301 *)
Definition catsep_dump_resume1 (dbg : bool) (currarg : Z) (r : dres) (m : list Z) (b : view) (a : arg)
  : res (list Z * view * trace * dres) :=
  if write_arg r currarg then
    do '(m, tr, sz) <- dump dbg m b a ;;
    let bs := zmax sz (bufsize r) in
    if sz <=? vl b then Ok (m, b, tr, DRes bs currarg)
    else Ok (m, View (vo b) 0, tr, DRes bs (lastok r))
  else Ok (m, b, [], r).
(** detail::catsep_dump_resume: 303-329 *)
Fixpoint catsep_dump_resume_ (dbg : bool) (currarg : Z) (r : dres) (m : list Z) (b : view) (sep : arg) (al : list arg)
  : res (list Z * trace * dres) :=
  match al with
  | [] => Ok (m, [], r)
  | a :: more =>
      do '(m, b, tr, r) <- catsep_dump_resume1 dbg currarg r m b a ;;
      match more with
      | [] => Ok (m, tr, r)
      | _ =>
          do '(m, b, tr1, r) <- catsep_dump_resume1 dbg (currarg + 1) r m b sep ;;
          do '(m, tr2, r) <- catsep_dump_resume_ dbg (currarg + 2) r m b sep more ;;
          Ok (m, tr ++ tr1 ++ tr2, r)
      end
  end.
Definition catsep_dump_resume dbg r m b sep al := catsep_dump_resume_ dbg 0 r m b sep al.

(** detail::format_dump_resume: 451-550. [find] returning npos makes [fmt.sub(pos + 2)]
    drop one character; on an empty format this is an assertion failure, or a view of
    wrapped length whose use is [Ub]. *)
Fixpoint format_dump_resume_ (dbg : bool) (currarg : Z) (r : dres) (m : list Z) (b : view) (fmt : list Z) (al : list arg)
  : res (list Z * trace * dres) :=
  match al with
  | [] =>
      if 0 <? vl b then Ok (m, [fmt], DRes (bufsize r) currarg) else Ok (m, [], r)
  | a :: more =>
      do pos <- find fmt (s2z "{}") (Some 0) ;;
      match write_arg r currarg, pos with
      | true, None =>
          if 0 <? vl b then Ok (m, [fmt], DRes (bufsize r) currarg) else Ok (m, [], r)
      | w, _ =>
          let p := match pos with Some p => p | None => npos end in
          do '(tr0, r) <-
            (if w && (0 <? vl b) then
               do head <- first_d dbg (len fmt) p ;; Ok ([contents fmt head], DRes (bufsize r) currarg)
             else Ok ([], r)) ;;
          do rest <- sub_d dbg (len fmt) (u64 (p + 2)) ;;
          if len fmt <? vo rest + vl rest then Ub else
          do '(m, b, tr, r) <- catsep_dump_resume1 dbg (currarg + 1) r m b a ;;
          do '(m, tr2, r) <- format_dump_resume_ dbg (currarg + 2) r m b (contents fmt rest) more ;;
          Ok (m, tr0 ++ tr ++ tr2, r)
      end
  end.
Definition format_dump_resume dbg r m b fmt al := format_dump_resume_ dbg 0 r m b fmt al.

(** DumpResults::success_until: 83 *)
Definition success_until (r : dres) (expected : Z) : bool :=
  if lastok r =? noarg then false else expected <=? lastok r.

(** the caller's loop: calls with the buffers [bs], each given the state returned by the
    previous one, until [success_until(expected)] or no buffer is left; the memory is reused *)
Fixpoint drive (call : dres -> list Z -> view -> res (list Z * trace * dres)) (expected : Z) (r : dres) (m : list Z) (bs : list view)
  : res (list Z * trace * dres) :=
  match bs with
  | [] => Ok (m, [], r)
  | b :: more =>
      do '(m, tr, r) <- call r m b ;;
      if success_until r expected then Ok (m, tr, r) else
      do '(m, tr2, r) <- drive call expected r m more ;;
      Ok (m, tr ++ tr2, r)
  end.
