(** Model of what the library does with null pointers: substr.hpp, charconv.hpp, format.cpp,
    format.hpp, memory_util.hpp, memory_util.cpp, ctor_dtor.hpp, memory_resource.cpp and std.
    All views are in one memory, a list of characters. A pointer is [None], the null pointer, or
    an offset into the memory. [dbg]: the assertions are on. *)
From Verif Require Import Base SubstrModel MemUtilModel FormatModel.

Definition ptr := option Z.
Record pview := PV { pp : ptr; pn : Z }.
Definition nullp (p : ptr) : bool := match p with None => true | Some _ => false end.
(** C4_ASSERT and C4_XASSERT *)
Definition chk {A} (dbg b : bool) (k : res A) : res A := if dbg && negb b then Err else k.
(** [p + n]: only 0 may be added to the null pointer *)
Definition padd (p : ptr) (n : Z) : res ptr :=
  match p with None => if n =? 0 then Ok None else Ub | Some o => Ok (Some (o + n)) end.
(** [p < q]; the null pointer is below the others (unspecified by the standard, so on the machines) *)
Definition plt (p q : ptr) : bool :=
  match p, q with None, Some _ => true | Some a, Some b => a <? b | _, None => false end.
Definition ple (p q : ptr) : bool := negb (plt q p).
Definition peq (p q : ptr) : bool :=
  match p, q with None, None => true | Some a, Some b => a =? b | _, _ => false end.
(** [p - q] as size_t *)
Definition pdiff (p q : ptr) : res Z :=
  match p, q with None, None => Ok 0 | Some a, Some b => Ok (u64 (a - b)) | _, _ => Ub end.
(** [*p] *)
Definition deref (m : list Z) (p : ptr) : res Z := match p with None => Ub | Some o => rd m o end.

(** memcpy, memmove and memset may not be given a null pointer, even for no bytes *)
Definition mcpy (m : list Z) (d s : ptr) (n : Z) : res (list Z) :=
  match d, s with Some d, Some s => memcpy m d s n | _, _ => Ub end.
Definition mmove (m : list Z) (d s : ptr) (n : Z) : res (list Z) :=
  match d, s with Some d, Some s => do l <- rds m s n ;; wrs m d l | _, _ => Ub end.
Definition mset (m : list Z) (d : ptr) (c n : Z) : res (list Z) :=
  match d with Some d => wrs m d (repeat c (Z.to_nat n)) | None => Ub end.

(** ** Views: substr.hpp *)
(** the null view: default construction, nullptr, clear(), 116-127 *)
Definition pnull : pview := PV None 0.
(** empty: 199; operator== (nullptr): 266 *)
Definition nempty (v : pview) : bool := (pn v =? 0) || nullp (pp v).
Definition eq_nullptr (v : pview) : bool := nullp (pp v).
(** has_str: 198 *)
Definition nhas_str (m : list Z) (v : pview) : res bool :=
  if nempty v then Ok false else do c <- deref m (pp v) ;; Ok (negb (c =? 0)).
(** operator[]: 212-213; front: 215-216; back: 218-219 *)
Definition nat_ (dbg : bool) (m : list Z) (v : pview) (i : Z) : res Z :=
  chk dbg (i <? pn v) (do p <- padd (pp v) i ;; deref m p).
Definition nfront (dbg : bool) (m : list Z) (v : pview) : res Z :=
  chk dbg ((0 <? pn v) && negb (nullp (pp v))) (deref m (pp v)).
Definition nback (dbg : bool) (m : list Z) (v : pview) : res Z :=
  chk dbg ((0 <? pn v) && negb (nullp (pp v))) (do p <- padd (pp v) (pn v) ;; do p <- padd p (-1) ;; deref m p).

(** compare(that, sz): 237-262 *)
Definition ncompare (dbg : bool) (m : list Z) (v w : pview) : res Z :=
  chk dbg (negb (nullp (pp w)) || (pn w =? 0)) (chk dbg (negb (nullp (pp v)) || (pn v =? 0))
  (match pp v, pp w with
   | Some a, Some b =>
       let mn := if pn v <? pn w then pn v else pn w in
       do r <- for_up (Z.to_nat mn) 0 (fun i =>
          do x <- rd m (a + i) ;; do y <- rd m (b + i) ;;
          Ok (if negb (schar x =? schar y) then Some (if schar x <? schar y then -1 else 1) else None)) ;;
       match r with
       | Some x => Ok x
       | None => Ok (if pn v <? pn w then -1 else if pn v =? pn w then 0 else 1)
       end
   | _, _ =>
       if pn v =? pn w then chk dbg ((pn v =? 0) && (pn w =? 0)) (Ok 0)
       else Ok (if pn v <? pn w then -1 else 1)
   end)).
(** compare(C): 228-235 *)
Definition ncompare_c (dbg : bool) (m : list Z) (v : pview) (c : Z) : res Z :=
  chk dbg (negb (nullp (pp v)) || (pn v =? 0))
  (if negb (nullp (pp v)) && (0 <? pn v) then do x <- deref m (pp v) ;; compare_char_n x (pn v) c else Ok (-1)).

(** is_super: 304-310; overlaps: 313-317 *)
Definition nis_super (v that : pview) : res bool :=
  if 0 <? pn v then
    do te <- padd (pp that) (pn that) ;; do e <- padd (pp v) (pn v) ;; Ok (ple (pp v) (pp that) && ple te e)
  else Ok ((pn that =? 0) && peq (pp that) (pp v) && negb (nullp (pp v))).
Definition noverlaps (v that : pview) : res bool :=
  do te <- padd (pp that) (pn that) ;; do e <- padd (pp v) (pn v) ;; Ok (plt (pp v) te && plt (pp that) e).
(** sub(first): 322-326; sub(first, num): 329-336 *)
Definition nsub (dbg : bool) (v : pview) (first : Z) : res pview :=
  chk dbg (first <=? pn v) (do p <- padd (pp v) first ;; Ok (PV p (u64 (pn v - first)))).
Definition nsub2 (dbg : bool) (v : pview) (first num : Z) : res pview :=
  chk dbg (first <=? pn v) (chk dbg ((num <=? pn v) || (num =? npos))
  (let rnum := if num =? npos then u64 (pn v - first) else num in
   chk dbg ((u64 (first + rnum) <=? pn v) || (num =? 0))
   (do p <- padd (pp v) first ;; Ok (PV p rnum)))).
(** left_of(subs): 415-425; right_of(subs): 429-439 *)
Definition nleft_of (dbg : bool) (v subs : pview) : res pview :=
  do sup <- (if dbg then nis_super v subs else Ok true) ;;
  chk dbg (sup || nempty subs)
  (do e <- padd (pp v) (pn v) ;;
   if ple (pp v) (pp subs) && ple (pp subs) e then do d <- pdiff (pp subs) (pp v) ;; nsub2 dbg v 0 d
   else nsub2 dbg v 0 0).
Definition nright_of (dbg : bool) (v subs : pview) : res pview :=
  do sup <- (if dbg then nis_super v subs else Ok true) ;;
  chk dbg (sup || nempty subs)
  (do sse <- padd (pp subs) (pn subs) ;; do e <- padd (pp v) (pn v) ;;
   if ple (pp v) sse && ple sse e then do d <- pdiff sse (pp v) ;; do n <- pdiff e sse ;; nsub2 dbg v d n
   else nsub2 dbg v 0 0).

(** copy_from: 2012-2023 *)
Definition ncopy_from (dbg : bool) (m : list Z) (v that : pview) (ifirst num : Z) : res (list Z) :=
  chk dbg (ifirst <=? pn v)
  (let num := if negb (num =? npos) then num else u64 (pn v - ifirst) in
   let num := if num <? pn that then num else pn that in
   chk dbg (u64 (ifirst + num) <=? pn v)
   (if negb (num =? 0) then do d <- padd (pp v) ifirst ;; mcpy m d (pp that) num else Ok m)).
(** fill: 1999-2005 *)
Definition nfill (m : list Z) (v : pview) (c : Z) : res (list Z) :=
  match pp v with
  | Some o => fill m (View o (pn v)) c
  | None => if pn v =? 0 then Ok m else Ub
  end.
(** reverse: 2029-2033 *)
Definition nreverse (m : list Z) (v : pview) : res (list Z) :=
  if pn v =? 0 then Ok m else
  match pp v with Some o => do_reverse (Z.to_nat (pn v)) m o (o + pn v - 1) | None => Ub end.
(** erase(pos, num): 2060-2066 *)
Definition nerase (dbg : bool) (m : list Z) (v : pview) (pos num : Z) : res (list Z * pview) :=
  chk dbg (u64 (pos + num) <=? pn v)
  (do d <- padd (pp v) pos ;; do s <- padd d num ;;
   do m <- mmove m d s (u64 (pn v - pos - num)) ;;
   Ok (m, PV (pp v) (u64 (pn v - num)))).

(** ** Conversions: charconv.hpp *)
(** to_chars(buf, csubstr): 2541-2555; to_chars(buf, substr): 2579-2593. string_view.hpp 50-65 is
    the same; vector.hpp 55-69 has no assertions inside *)
Definition nto_chars (dbg : bool) (m : list Z) (buf v : pview) : res (list Z * Z) :=
  do ov <- (if dbg then noverlaps buf v else Ok false) ;;
  chk dbg (negb ov)
  (let n := if pn buf <? pn v then pn buf else pn v in
   if negb (n =? 0) then
     chk dbg (negb (nullp (pp buf))) (chk dbg (negb (nullp (pp v)))
     (do m <- mcpy m (pp buf) (pp v) n ;; Ok (m, pn v)))
   else Ok (m, pn v)).
(** from_chars(buf, substr pointer): 2596-2616; the view is returned *)
Definition nfrom_chars (dbg : bool) (m : list Z) (buf v : pview) : res (bool * list Z * pview) :=
  do ov <- (if dbg then noverlaps buf v else Ok false) ;;
  chk dbg (negb ov)
  (if pn buf <=? pn v then
     do m <- (if negb (pn buf =? 0) then
                chk dbg (negb (nullp (pp buf))) (chk dbg (negb (nullp (pp v))) (mcpy m (pp v) (pp buf) (pn buf)))
              else Ok m) ;;
     Ok (true, m, PV (pp v) (pn buf))
   else Ok (false, m, v)).
(** write_num_digits: 780-794, after [writer], which wrote [ret] characters *)
Definition nwrite_num_digits (dbg : bool) (m : list Z) (buf : pview) (ret num_digits : Z) : res (list Z * Z) :=
  if num_digits <=? ret then Ok (m, ret)
  else if (pn buf <=? ret) || (pn buf <? num_digits) then Ok (m, num_digits)
  else
    chk dbg (ret <=? num_digits)
    (let delta := u64 (num_digits - ret) in
     do d <- padd (pp buf) delta ;;
     do m <- mmove m d (pp buf) ret ;; do m <- mset m (pp buf) 48 delta ;; Ok (m, num_digits)).
(** cat of strings: format.hpp 578-599 *)
Fixpoint ncat (dbg : bool) (m : list Z) (buf : pview) (args : list pview) : res (list Z * Z) :=
  match args with
  | [] => Ok (m, 0)
  | a :: more =>
      do '(m, num) <- nto_chars dbg m buf a ;;
      do buf <- (if num <=? pn buf then nsub dbg buf num else Ok pnull) ;;
      do '(m, n2) <- ncat dbg m buf more ;;
      Ok (m, u64 (num + n2))
  end.

(** ** Raw data: format.cpp 18-55. [addr] is the address of the memory, [r] the object *)
Definition paddr (addr : Z) (p : ptr) : Z := match p with None => 0 | Some o => addr + o end.
(** the pointer std::align returns: null also if the aligned address is 0 *)
Definition palign (addr al n : Z) (b : pview) : ptr :=
  match std_align al n (paddr addr (pp b)) (pn b) with
  | Some q => if q =? 0 then None else Some (q - addr)
  | None => None
  end.
Definition nto_chars_raw (addr : Z) (m : list Z) (buf r : pview) (al : Z) : res (list Z * Z) :=
  let p := palign addr al (pn r) buf in
  if nullp p then Ok (m, u64 (al + pn r)) else
  do e <- padd (pp buf) (pn buf) ;;
  assert (ple (pp buf) p && ple p e)
  (do d <- pdiff p (pp buf) ;;
   let sz := u64 (d + pn r) in
   if sz <=? pn buf then do m <- mcpy m p (pp r) (pn r) ;; Ok (m, sz) else Ok (m, sz)).
Definition nfrom_chars_raw (addr : Z) (m : list Z) (buf r : pview) (al : Z) : res (bool * list Z) :=
  let p := palign addr al (pn r) buf in
  assert (negb (nullp p))
  (do e <- padd (pp buf) (pn buf) ;;
   assert (ple (pp buf) p && ple p e)
   (do m <- mcpy m (pp r) p (pn r) ;; Ok (true, m))).

(** ** Memory, and elements that are copied byte by byte; [w] is the size of an element *)
(** mem_zero: memory_util.hpp 33-48; construct_n: ctor_dtor.hpp 33-37 *)
Definition nmem_zero (m : list Z) (p : ptr) (w n : Z) : res (list Z) := mset m p 0 (u64 (n * w)).
(** mem_repeat: memory_util.cpp 8-29, for a pattern of size 0: the loop ends at once *)
Definition nmem_repeat0 (m : list Z) (dest pattern : ptr) (num : Z) : res (list Z) :=
  if num =? 0 then Ok m else mcpy m dest pattern 0.
(** copy_construct_n, copy_assign_n, move_construct_n, move_assign_n: ctor_dtor.hpp 93-98, 159-164,
    225-230, 256-261 *)
Definition ncopy_n (dbg : bool) (m : list Z) (d s : ptr) (w n : Z) : res (list Z) :=
  chk dbg (negb (peq d s)) (mcpy m d s (u64 (n * w))).
(** make_room at the beginning: 303-315 *)
Definition nmake_room (m : list Z) (buf : ptr) (w bufsz room : Z) : res (list Z) :=
  do d <- padd buf (room * w) ;;
  if bufsz <=? room then mcpy m d buf (u64 (bufsz * w)) else mmove m d buf (u64 (bufsz * w)).
(** destroy_room at the beginning: 396-408 *)
Definition ndestroy_room (dbg : bool) (m : list Z) (buf : ptr) (w n room : Z) : res (list Z) :=
  chk dbg (room <=? n)
  (if room <? n then do s <- padd buf (room * w) ;; mmove m buf s (u64 ((n - room) * w)) else Ok m).
(** arealloc_impl: memory_resource.cpp 79-98; [tmp] is the new memory *)
Definition narealloc (m : list Z) (p tmp : ptr) (oldsz newsz : Z) : res (list Z) :=
  let mn := if newsz <? oldsz then newsz else oldsz in
  do te <- padd tmp newsz ;; do e <- padd p oldsz ;;
  if plt p te && plt tmp e then mmove m tmp p mn else mcpy m tmp p mn.
