(** Model of src/c4/enum.hpp and src/c4/bitmask.hpp.

    A C string is the list of its characters without the terminator; a pointer past the
    terminator is undefined. A symbol table is a list. The offsets for the class and the
    prefix ([eoffs_cls], [eoffs_pfx], specialised by the user) are a pair. Failing
    assertions and C4_CHECK are [Err]. *)
From Verif Require Import Base SubstrModel MemUtilModel MemResModel CharconvModel SpanNumModel.

Record sym := Sym { sval : Z; sname : list Z }.
Record offs := Offs { o_cls : Z; o_pfx : Z }.
Inductive otype := ONone | OCls | OPfx.

(** eoffs: enum.hpp 126-143 *)
Definition eoffs (o : offs) (w : otype) : Z :=
  match w with
  | ONone => 0
  | OCls => o_cls o
  | OPfx => if 0 <? o_pfx o then o_pfx o else o_cls o
  end.
(** name + o *)
Definition cskip (s : list Z) (o : Z) : res (list Z) :=
  if (0 <=? o) && (o <=? len s) then Ok (skipn (Z.to_nat o) s) else Ub.
(** strcmp(a, b) == 0 *)
Fixpoint strcmp_eq (a b : list Z) : bool :=
  match a, b with
  | [], [] => true
  | x :: a, y :: b => (x =? y) && strcmp_eq a b
  | _, _ => false
  end.
(** strncmp(a, s, n) == 0, where [s] is only known to have [len s] characters *)
Fixpoint strncmp_eq (a s : list Z) (n : nat) : res bool :=
  match n with
  | O => Ok true
  | S n =>
      match s with
      | [] => Ub
      | c :: s =>
          match a with
          | [] => Ok (c =? 0)
          | x :: a => if x =? c then strncmp_eq a s n else Ok false
          end
      end
  end.

(** Sym::cmp(const char* ): 223-238 *)
Fixpoint cmp_offs (o : offs) (name s : list Z) (ws : list otype) : res bool :=
  match ws with
  | [] => Ok false
  | w :: ws =>
      if 0 <? eoffs o w then
        do tail <- cskip name (eoffs o w) ;;
        if strcmp_eq tail s then Ok true else cmp_offs o name s ws
      else cmp_offs o name s ws
  end.
Definition cmp_z (o : offs) (name s : list Z) : res bool :=
  if strcmp_eq name s then Ok true else cmp_offs o name s [OCls; OPfx].
(** Sym::cmp(const char*, size_t): 240-265; [s] has exactly [len s] characters *)
Fixpoint cmpn_offs (o : offs) (name s : list Z) (ws : list otype) : res bool :=
  match ws with
  | [] => Ok false
  | w :: ws =>
      if 0 <? eoffs o w then
        let nlen := len name in
        assert (eoffs o w <? nlen)
        (let rem := nlen - eoffs o w in
         let m := if rem <? len s then len s else rem in
         if m <=? len s then
           do tail <- cskip name (eoffs o w) ;;
           do e <- strncmp_eq tail s (Z.to_nat m) ;;
           if e then Ok true else cmpn_offs o name s ws
         else cmpn_offs o name s ws)
      else cmpn_offs o name s ws
  end.
Definition cmp_n (o : offs) (name s : list Z) : res bool :=
  do e <- strncmp_eq name s (Z.to_nat (len s)) ;;
  if e then Ok true else cmpn_offs o name s [OCls; OPfx].

(** find: 193-220 *)
Definition find_v (tab : list sym) (v : Z) : option sym := List.find (fun p => sval p =? v) tab.
Fixpoint find_by (f : list Z -> res bool) (tab : list sym) : res (option sym) :=
  match tab with
  | [] => Ok None
  | p :: tab => do e <- f (sname p) ;; if e then Ok (Some p) else find_by f tab
  end.
Definition find_z (o : offs) (tab : list sym) (s : list Z) := find_by (fun n => cmp_z o n s) tab.
Definition find_n (o : offs) (tab : list sym) (s : list Z) := find_by (fun n => cmp_n o n s) tab.
(** get, str2e, e2str, e2stroffs: 64-66, 157-181 *)
Definition str2e (o : offs) (tab : list sym) (s : list Z) : res Z :=
  do p <- find_z o tab s ;; match p with Some p => Ok (sval p) | None => Err end.
Definition e2str (tab : list sym) (v : Z) : res (list Z) :=
  match find_v tab v with Some p => Ok (sname p) | None => Err end.
Definition e2stroffs (o : offs) (tab : list sym) (v : Z) (w : otype) : res (list Z) :=
  do s <- e2str tab v ;; cskip s (eoffs o w).
(** name_offs: 268-273 *)
Definition name_offs (o : offs) (p : sym) (w : otype) : res (list Z) :=
  assert (eoffs o w <? len (sname p)) (cskip (sname p) (eoffs o w)).

(** ** bitmask.hpp. [t] is the underlying type *)
(** bits & b and bits &= ~b *)
Definition band (bits b : Z) : Z := Z.land bits b.
Definition bclear (t : ity) (bits b : Z) : Z := wrap t (Z.land bits (Z.lnot b)).

(** bm2stream: 34-81; the text sent to the stream. The loops run over the reversed table *)
Fixpoint bm_stream_loop (t : ity) (o : offs) (w : otype) (syms : list sym) (bits : Z) (written : bool) : res (list Z) :=
  match syms with
  | [] => Ok []
  | p :: syms =>
      let b := sval p in
      if negb (b =? 0) && (band bits b =? b) then
        do name <- name_offs o p w ;;
        do r <- bm_stream_loop t o w syms (bclear t bits b) true ;;
        Ok ((if written then [ch "|"] else []) ++ name ++ r)
      else bm_stream_loop t o w syms bits written
  end.
Definition bm2stream (t : ity) (o : offs) (tab : list sym) (bits : Z) (w : otype) : res (list Z) :=
  if negb (bits =? 0) then bm_stream_loop t o w (rev tab) bits false
  else
    match List.find (fun p => sval p =? 0) (rev tab) with
    | Some p => name_offs o p w
    | None => Ok [ch "0"]
    end.

(** bm2str: 94-194. The buffer: [None] for a null pointer, with size 0. The state is the
    position and the buffer *)
Definition bstate : Type := Z * option (list Z).
(** _c4prependchars: move what is there to the right, write in front *)
Definition prepend (st : bstate) (txt : list Z) : res bstate :=
  let '(pos, str) := st in
  let num := len txt in
  match str with
  | None => Ok (u64 (pos + num), None)
  | Some m =>
      if u64 (pos + num) <=? len m then
        do m <- memmove m num 0 pos ;; do m <- wrs m 0 txt ;; Ok (u64 (pos + num), Some m)
      else Err
  end.
(** _c4appendchars with the terminator *)
Definition terminate (st : bstate) : res bstate :=
  let '(pos, str) := st in
  match str with
  | None => Ok (u64 (pos + 1), None)
  | Some m => if u64 (pos + 1) <=? len m then do m <- wr m pos 0 ;; Ok (u64 (pos + 1), Some m) else Err
  end.
(** the loop over the reversed table: the remaining bits, the symbol for zero, the state *)
Fixpoint bm_loop (t : ity) (o : offs) (w : otype) (syms : list sym) (bits : Z) (zero : option sym) (st : bstate)
  : res (Z * option sym * bstate) :=
  match syms with
  | [] => Ok (bits, zero, st)
  | p :: syms =>
      let b := sval p in
      if b =? 0 then bm_loop t o w syms bits (Some p) st
      else if band bits b =? b then
        do st <- (if 0 <? fst st then prepend st [ch "|"] else Ok st) ;;
        do name <- name_offs o p w ;;
        do st <- prepend st name ;;
        bm_loop t o w syms (bclear t bits b) zero st
      else bm_loop t o w syms bits zero st
  end.
Definition bm2str (t : ity) (o : offs) (tab : list sym) (bits : Z) (str : option (list Z)) (w : otype) : res bstate :=
  assert (match str with None => true | Some m => negb (len m =? 0) end)
  (do '(bits, zero, st) <- bm_loop t o w (rev tab) bits None (0, str) ;;
   if negb (bits =? 0) then Err else
   do st <- (if fst st =? 0 then
               match zero with
               | Some p => do name <- name_offs o p w ;; prepend st name
               | None => prepend st [ch "0"]
               end
             else Ok st) ;;
   terminate st).

(** str2bm_read_one: 233-248 *)
Definition read_one (t : ity) (o : offs) (tab : list sym) (s : list Z) (alnum : bool) : res Z :=
  if alnum then do p <- find_n o tab s ;; match p with Some p => Ok (sval p) | None => Err end
  else
    do '(n, v) <- ato_first t s 0 ;; match n with Some _ => Ok v | None => Err end.
Definition is_letter (c : Z) : bool :=
  ((ch "a" <=? c) && (c <=? ch "z")) || ((ch "A" <=? c) && (c <=? ch "Z")) || (c =? ch "_").
Definition is_dig (c : Z) : bool := (ch "0" <=? c) && (c <=? ch "9").
(** str2bm: 258-317. [acc] is the text from [f] to the current character ([None]: f is
    null). The text is given without anything behind it *)
Record bmst := BMS { bval : Z; bstarted : bool; balnum : bool; bnum : bool; btext : option (list Z) }.
Definition bput (acc : option (list Z)) (c : Z) : option (list Z) := match acc with Some a => Some (a ++ [c]) | None => None end.
(** a '|' or the end: read the text from f *)
Definition bread (t : ity) (o : offs) (tab : list sym) (st : bmst) : res Z :=
  assert (negb (Bool.eqb (bnum st) (balnum st)))
  (match btext st with
   | None => Ub
   | Some a => do v <- read_one t o tab a (balnum st) ;; Ok (wrap t (Z.lor (bval st) v))
   end).
Fixpoint str2bm_loop (t : ity) (o : offs) (tab : list sym) (s : list Z) (st : bmst) : res Z :=
  match s with
  | [] => match btext st with None => Ok (bval st) | Some _ => bread t o tab st end
  | c :: s =>
      if is_letter c then
        let pos := match btext st with Some a => len a | None => 0 end in
        assert (negb (bnum st) || ((pos =? 1) && ((c =? ch "x") || (c =? ch "X"))))
        (str2bm_loop t o tab s
          (if bstarted st then BMS (bval st) true (balnum st) (bnum st) (bput (btext st) c)
           else BMS (bval st) true true (bnum st) (Some [c])))
      else if is_dig c then
        assert (negb (balnum st))
        (str2bm_loop t o tab s
          (if bstarted st then BMS (bval st) true (balnum st) (bnum st) (bput (btext st) c)
           else BMS (bval st) true (balnum st) true (Some [c])))
      else if (c =? ch ":") || (c =? ch " ") then
        str2bm_loop t o tab s (BMS (bval st) (bstarted st) (balnum st) (bnum st) (bput (btext st) c))
      else if (c =? ch "|") || (c =? 0) then
        do v <- bread t o tab st ;;
        if c =? 0 then Ok v
        else str2bm_loop t o tab s (BMS v false false false (bput (btext st) c))
      else Err
  end.
Definition str2bm (t : ity) (o : offs) (tab : list sym) (s : list Z) : res Z :=
  str2bm_loop t o tab s (BMS 0 false false false None).
