(** Model of c4/substr.hpp: search, comparison, sub-selection, trimming,
    splitting and in-place edits.

    - A string is its contents [s : list Z] (bytes). A result that is a view is
      given as [View offset length] relative to the start of [s]; the null view
      [basic_substring()] is [None].
    - Every subscript [str[i]] is [rd s i], which is [Ub] outside [0,len).
    - A position that may be npos is an [option Z].
    - [C4_ASSERT] failures are [Err]. *)
From Verif Require Import Base ScanModel.

(** ** Loops *)

(** [for(size_t i = i0; n times; ++i) { if f(i) returns, return it }] *)
Fixpoint for_up {A} (n : nat) (i : Z) (f : Z -> res (option A)) : res (option A) :=
  match n with
  | O => Ok None
  | S n' => do r <- f i ;; match r with Some a => Ok (Some a) | None => for_up n' (i + 1) f end
  end.
(** [for(size_t i = n - 1; i != size_t(-1); --i) ...] *)
Fixpoint for_down {A} (n : nat) (f : Z -> res (option A)) : res (option A) :=
  match n with
  | O => Ok None
  | S n' => do r <- f (Z.of_nat n') ;; match r with Some a => Ok (Some a) | None => for_down n' f end
  end.
(** loop body [if(p(str[i])) return i;] *)
Definition at_ (s : list Z) (p : Z -> bool) (i : Z) : res (option Z) :=
  do c <- rd s i ;; Ok (if p c then Some i else None).
(** inner loop over a character class: [for j: if(str[i] == chars[j]) ...] *)
Definition mem (c : Z) (chars : list Z) : bool := existsb (Z.eqb c) chars.

(** ** Comparison *)

(** compare(C): 228-235. [static_cast<int>(len) - 1]: the conversion to int wraps
    modulo 2^32 and the subtraction is undefined below INT_MIN; [n] is the length so that
    lengths beyond memory can be discussed. *)
Definition compare_char_n (c0 : Z) (n : Z) (c : Z) : res Z :=
  if 0 <? n then
    if negb (schar c0 =? schar c) then Ok (schar c0 - schar c)
    else let z := wrap i32 n - 1 in if imin i32 <=? z then Ok z else Ub
  else Ok (-1).
Definition compare_char (s : list Z) (c : Z) : res Z := compare_char_n (nth 0 s 0) (len s) c.

(** compare(that, sz): 237-262 *)
Definition compare (s t : list Z) : res Z :=
  let mn := if len s <? len t then len s else len t in
  do r <- for_up (Z.to_nat mn) 0 (fun i =>
     do a <- rd s i ;; do b <- rd t i ;;
     Ok (if negb (schar a =? schar b) then Some (if schar a <? schar b then -1 else 1) else None)) ;;
  match r with
  | Some x => Ok x
  | None => Ok (if len s <? len t then -1 else if len s =? len t then 0 else 1)
  end.
(** operators ==, !=, <, >, <=, >=: 276-283 *)
Definition op_eq s t := do c <- compare s t ;; Ok (c =? 0).
Definition op_ne s t := do c <- compare s t ;; Ok (negb (c =? 0)).
Definition op_lt s t := do c <- compare s t ;; Ok (c <? 0).
Definition op_gt s t := do c <- compare s t ;; Ok (0 <? c).
Definition op_le s t := do c <- compare s t ;; Ok (c <=? 0).
Definition op_ge s t := do c <- compare s t ;; Ok (0 <=? c).
(** the same with a char on the right: 269-274 *)
Definition op_eq_c s c := do k <- compare_char s c ;; Ok (k =? 0).
Definition op_ne_c s c := do k <- compare_char s c ;; Ok (negb (k =? 0)).
Definition op_lt_c s c := do k <- compare_char s c ;; Ok (k <? 0).
Definition op_gt_c s c := do k <- compare_char s c ;; Ok (0 <? k).
Definition op_le_c s c := do k <- compare_char s c ;; Ok (k <=? 0).
Definition op_ge_c s c := do k <- compare_char s c ;; Ok (0 <=? k).
(** with an array on the left, [t] its characters without the terminator: 2217-2222 *)
Definition arr_eq (t s : list Z) := do k <- compare s t ;; Ok (k =? 0).
Definition arr_ne (t s : list Z) := do k <- compare s t ;; Ok (negb (k =? 0)).
Definition arr_lt (t s : list Z) := do k <- compare s t ;; Ok (0 <? k).
Definition arr_gt (t s : list Z) := do k <- compare s t ;; Ok (k <? 0).
Definition arr_le (t s : list Z) := do k <- compare s t ;; Ok (0 <=? k).
Definition arr_ge (t s : list Z) := do k <- compare s t ;; Ok (k <=? 0).
(** with a char on the left: 2224-2229 *)
Definition c_eq (c : Z) s := do k <- compare_char s c ;; Ok (k =? 0).
Definition c_ne (c : Z) s := do k <- compare_char s c ;; Ok (negb (k =? 0)).
Definition c_lt (c : Z) s := do k <- compare_char s c ;; Ok (0 <? k).
Definition c_gt (c : Z) s := do k <- compare_char s c ;; Ok (k <? 0).
Definition c_le (c : Z) s := do k <- compare_char s c ;; Ok (0 <=? k).
Definition c_ge (c : Z) s := do k <- compare_char s c ;; Ok (k <=? 0).

(** ** Sub-selection: 321-439. [n] is the length of the parent; arguments are
    size_t values in [0,2^64), npos = 2^64-1. *)
Definition assert (b : bool) {A} (k : res A) : res A := if b then k else Err.

Definition sub1 (n first : Z) : res view :=
  assert (first <=? n) (Ok (View first (u64 (n - first)))).
Definition sub2 (n first num : Z) : res view :=
  assert (first <=? n)
  (assert ((num <=? n) || (num =? npos))
  (let rnum := if num =? npos then u64 (n - first) else num in
   assert ((u64 (first + rnum) <=? n) || (num =? 0)) (Ok (View first rnum)))).
Definition range (n first last : Z) : res view :=
  assert (first <=? n)
  (let last := if last =? npos then n else last in
   assert (first <=? last) (assert (last <=? n) (Ok (View first (u64 (last - first)))))).
Definition vfirst (n num : Z) : res view :=
  assert ((num <=? n) || (num =? npos)) (Ok (View 0 (if num =? npos then n else num))).
Definition vlast (n num : Z) : res view :=
  assert ((num <=? n) || (num =? npos)) (Ok (if num =? npos then View 0 n else View (n - num) num)).
Definition offs (n left right : Z) : res view :=
  assert (left <=? n) (assert (right <=? n) (assert (left <=? u64 (n - right + 1))
    (Ok (View left (u64 (n - right - left)))))).
Definition left_of (n pos : Z) : res view :=
  assert ((pos <=? n) || (pos =? npos)) (Ok (if pos =? npos then View 0 n else View 0 pos)).
Definition left_of_inc (n pos : Z) (inc : bool) : res view :=
  assert ((pos <=? n) || (pos =? npos))
    (Ok (if pos =? npos then View 0 n else View 0 (u64 (pos + (if inc then 1 else 0))))).
Definition right_of (n pos : Z) : res view :=
  assert ((pos <=? n) || (pos =? npos))
    (Ok (if pos =? npos then View n 0 else View (pos + 1) (u64 (n - (pos + 1))))).
Definition right_of_inc (n pos : Z) (inc : bool) : res view :=
  assert ((pos <=? n) || (pos =? npos))
    (let k := if inc then 0 else 1 in
     Ok (if pos =? npos then View n 0 else View (pos + k) (u64 (n - (pos + k))))).
(** is_super: 298-304, for a view of the same memory; offsets are relative to
    [*this], which is non-null *)
Definition is_super_v (n : Z) (w : view) : bool :=
  if 0 <? n then (0 <=? vo w) && (vo w + vl w <=? n) else (vl w =? 0) && (vo w =? 0).
(** left_of(subs): 407-419, right_of(subs): 423-435. [None] is the null view,
    whose pointers compare less than those of the parent. *)
Definition left_of_v (n : Z) (w : option view) : res view :=
  match w with
  | None => sub2 n 0 0
  | Some w =>
      assert (is_super_v n w || (vl w =? 0))
        (if (0 <=? vo w) && (vo w <=? n) then sub2 n 0 (vo w) else sub2 n 0 0)
  end.
Definition right_of_v (n : Z) (w : option view) : res view :=
  match w with
  | None => sub2 n 0 0
  | Some w =>
      assert (is_super_v n w || (vl w =? 0))
        (let e := vo w + vl w in
         if (0 <=? e) && (e <=? n) then sub2 n e (n - e) else sub2 n 0 0)
  end.

(** ** Character searches: 786-975. [start = None] is npos. *)
Definition chk_start (s : list Z) (start : option Z) : bool :=
  match start with None => true | Some st => (0 <=? st) && (st <=? len s) end.
(** loops from start to len *)
Definition fwd_from (s : list Z) (p : Z -> bool) (start : option Z) : res (option Z) :=
  match start with
  | None => Ok None
  | Some st => for_up (Z.to_nat (len s - st)) st (at_ s p)
  end.
(** loops from start-1 down to 0 *)
Definition bwd_from (s : list Z) (p : Z -> bool) (start : option Z) : res (option Z) :=
  let st := match start with None => len s | Some st => st end in
  for_down (Z.to_nat st) (at_ s p).

(** first_of(c, start): 786-795; first_of(chars, start): 811-823 *)
Definition first_of_c s c start := assert (chk_start s start) (fwd_from s (fun x => x =? c) start).
Definition first_of s chars start := assert (chk_start s start) (fwd_from s (fun x => mem x chars) start).
(** last_of(c, start): 798-809; last_of(chars, start): 826-841 *)
Definition last_of_c s c start := assert (chk_start s start) (bwd_from s (fun x => x =? c) start).
Definition last_of s chars start := assert (chk_start s start) (bwd_from s (fun x => mem x chars) start).
(** first_not_of: 845-864, 889-930 (start must not be npos) *)
Definition first_not_of_c s c st := assert (chk_start s (Some st)) (fwd_from s (fun x => negb (x =? c)) (Some st)).
Definition first_not_of s chars st := assert (chk_start s (Some st)) (fwd_from s (fun x => negb (mem x chars)) (Some st)).
(** last_not_of: 866-887, 932-975 *)
Definition last_not_of_c s c start := assert (chk_start s start) (bwd_from s (fun x => negb (x =? c)) start).
Definition last_not_of s chars start := assert (chk_start s start) (bwd_from s (fun x => negb (mem x chars)) start).

(** ** Trimming and stripping: 449-524 *)
Definition triml_by (s : list Z) (pos : res (option Z)) : res view :=
  if len s =? 0 then sub2 (len s) 0 0 else
  do p <- pos ;;
  match p with Some p => sub1 (len s) p | None => sub2 (len s) 0 0 end.
Definition trimr_by (s : list Z) (pos : res (option Z)) : res view :=
  if len s =? 0 then sub2 (len s) 0 0 else
  do p <- pos ;;
  match p with Some p => sub2 (len s) 0 (p + 1) | None => sub2 (len s) 0 0 end.
Definition triml_c s c := triml_by s (first_not_of_c s c 0).
Definition triml s chars := triml_by s (first_not_of s chars 0).
Definition trimr_c s c := trimr_by s (last_not_of_c s c None).
Definition trimr s chars := trimr_by s (last_not_of s chars None).
(** a method called on a sub-view [v] of [s]; the result is again relative to [s] *)
Definition on_sub (s : list Z) (v : view) (f : list Z -> res view) : res view :=
  do w <- f (contents s v) ;; Ok (View (vo v + vo w) (vl w)).
Definition trim_c s c := do v <- triml_c s c ;; on_sub s v (fun x => trimr_c x c).
Definition trim s chars := do v <- triml s chars ;; on_sub s v (fun x => trimr x chars).

(** begins_with/ends_with: 670-781 *)
Definition begins_with_c (s : list Z) (c : Z) : res bool :=
  if 0 <? len s then do x <- rd s 0 ;; Ok (x =? c) else Ok false.
Definition all_from (s : list Z) (off : Z) (pat : list Z) : res bool :=
  do r <- for_up (Z.to_nat (len pat)) 0 (fun i =>
     do a <- rd s (off + i) ;; do b <- rd pat i ;; Ok (if negb (a =? b) then Some tt else None)) ;;
  Ok (match r with Some _ => false | None => true end).
Definition begins_with_n (s : list Z) (c num : Z) : res bool :=
  if len s <? num then Ok false else
  do r <- for_up (Z.to_nat num) 0 (at_ s (fun x => negb (x =? c))) ;;
  Ok (match r with Some _ => false | None => true end).
Definition begins_with (s pat : list Z) : res bool :=
  if len s <? len pat then Ok false else all_from s 0 pat.
Definition begins_with_any (s chars : list Z) : res bool :=
  if len s =? 0 then Ok false else do x <- rd s 0 ;; Ok (mem x chars).
Definition ends_with_c (s : list Z) (c : Z) : res bool :=
  if 0 <? len s then do x <- rd s (len s - 1) ;; Ok (x =? c) else Ok false.
Definition ends_with_n (s : list Z) (c num : Z) : res bool :=
  if len s <? num then Ok false else
  do r <- for_up (Z.to_nat num) (len s - num) (at_ s (fun x => negb (x =? c))) ;;
  Ok (match r with Some _ => false | None => true end).
Definition ends_with (s pat : list Z) : res bool :=
  if len s <? len pat then Ok false else all_from s (len s - len pat) pat.
Definition ends_with_any (s chars : list Z) : res bool :=
  if len s =? 0 then Ok false else do x <- rd s (len s - 1) ;; Ok (mem x chars).

(** stripl: 508-513; stripr: 517-522 *)
Definition stripl (s pat : list Z) : res view :=
  do b <- begins_with s pat ;;
  if negb b then Ok (full s) else sub1 (len s) (if len pat <? len s then len pat else len s).
Definition stripr (s pat : list Z) : res view :=
  do b <- ends_with s pat ;;
  if negb b then Ok (full s) else left_of (len s) (len s - (if len pat <? len s then len pat else len s)).

(** ** find, count, select: 533-603 *)
Definition find_c s c start := first_of_c s c start.
Definition find (s pat : list Z) (start : option Z) : res (option Z) :=
  assert (chk_start s start)
  (if len s <? len pat then Ok None else
   match start with
   | None => Ok None
   | Some st =>
       let e := len s - len pat + 1 in
       for_up (Z.to_nat (e - st)) st (fun i =>
         do b <- all_from s i pat ;; Ok (if b then Some i else None))
   end).

(** the while(pos != npos) loop of count, at most [fuel] iterations. [Ok None]:
    still running after [fuel] iterations. [next] is [find(c, ...)]. *)
Fixpoint count_loop (fuel : nat) (next : Z -> res (option Z)) (pos : option Z) (num : Z) : res (option Z) :=
  match pos with
  | None => Ok (Some num)
  | Some p =>
      match fuel with
      | O => Ok None
      | S f => do q <- next p ;; count_loop f next q (num + 1)
      end
  end.
(** count(c, pos): 564-575 *)
Definition count_c (fuel : nat) (s : list Z) (c pos : Z) : res (option Z) :=
  assert ((0 <=? pos) && (pos <=? len s))
  (do p <- find_c s c (Some pos) ;; count_loop fuel (fun p => find_c s c (Some (p + 1))) p 0).
(** count(str, pos): 578-589 *)
Definition count (fuel : nat) (s pat : list Z) (pos : Z) : res (option Z) :=
  assert ((0 <=? pos) && (pos <=? len s))
  (do p <- find s pat (Some pos) ;; count_loop fuel (fun p => find s pat (Some (p + len pat))) p 0).
(** select: 592-603 *)
Definition select_c s c start : res (option view) :=
  do p <- find_c s c start ;;
  match p with Some p => do v <- sub2 (len s) p 1 ;; Ok (Some v) | None => Ok None end.
Definition select s pat start : res (option view) :=
  do p <- find s pat start ;;
  match p with Some p => do v <- sub2 (len s) p (len pat) ;; Ok (Some v) | None => Ok None end.

(** first_of_any_iter: 638-665 *)
Fixpoint any_at (s : list Z) (i : Z) (pats : list (list Z)) (curr : Z) : res (option (Z * Z)) :=
  match pats with
  | [] => Ok None
  | p :: r =>
      if len s <? i + len p then any_at s i r (curr + 1)
      else do b <- all_from s i p ;;
           if b then Ok (Some (curr, i)) else any_at s i r (curr + 1)
  end.
Definition first_of_any (s : list Z) (pats : list (list Z)) : res (option (Z * Z)) :=
  for_up (Z.to_nat (len s)) 0 (fun i => any_at s i pats 0).

(** ** Delimited ranges: 987-1058 *)
Definition pair_range (s : list Z) (o c : Z) : res (option view) :=
  do b <- find_c s o (Some 0) ;;
  match b with
  | None => Ok None
  | Some b =>
      do e <- find_c s c (Some (b + 1)) ;;
      match e with
      | None => Ok None
      | Some e =>
          do v <- range (len s) b (e + 1) ;;
          do w <- sub1 (vl v) 1 ;;
          do q <- find_c (contents s (View (vo v + vo w) (vl w))) o (Some 0) ;;
          match q with None => Ok (Some v) | Some _ => Err end
      end
  end.
Definition pair_range_esc (s : list Z) (q esc : Z) : res (option view) :=
  do b <- find_c s q (Some 0) ;;
  match b with
  | None => Ok None
  | Some b =>
      for_up (Z.to_nat (len s - (b + 1))) (b + 1) (fun i =>
        do c <- rd s i ;;
        if c =? q then
          do d <- rd s (i - 1) ;;
          if negb (d =? esc) then do v <- range (len s) b (i + 1) ;; Ok (Some v) else Ok None
        else Ok None)
  end.
(** the while loop; out of fuel is [Err] (excluded by pair_range_nested_ok) *)
Fixpoint nested_loop (fuel : nat) (s : list Z) (o c b curr count : Z) : res (option view) :=
  match fuel with
  | O => Err
  | S f =>
      do e <- first_of s [o; c] (Some curr) ;;
      match e with
      | None => Ok None
      | Some e =>
          do x <- rd s e ;;
          if x =? o then nested_loop f s o c b (e + 1) (count + 1)
          else if x =? c then
            if count =? 0 then do v <- range (len s) b (e + 1) ;; Ok (Some v)
            else nested_loop f s o c b (e + 1) (count - 1)
          else nested_loop f s o c b curr count
      end
  end.
Definition pair_range_nested (s : list Z) (o c : Z) : res (option view) :=
  do b <- find_c s o (Some 0) ;;
  match b with
  | None => Ok None
  | Some b => nested_loop (S (Z.to_nat (len s))) s o c b (b + 1) 0
  end.
(** unquoted: 1046-1058 *)
Definition unquoted (s : list Z) : res view :=
  if len s <? 2 then Ok (full s) else
  do x <- rd s (len s - 2) ;;
  if x =? ch "\" then Ok (full s) else
  do b1 <- begins_with_c s (ch "'") ;; do e1 <- ends_with_c s (ch "'") ;;
  do b2 <- begins_with_c s 34 ;; do e2 <- ends_with_c s 34 ;;
  if (b1 && e1) || (b2 && e2) then range (len s) 1 (len s - 1) else Ok (full s).

(** ** Splitting: 1661-1770 *)

(** next_split(sep, &start, &out): returns (result, new start, out) *)
Definition next_split (s : list Z) (sep start : Z) : res (bool * Z * view) :=
  if start <? len s then
    do r <- for_up (Z.to_nat (len s - start)) start (at_ s (fun x => x =? sep)) ;;
    match r with
    | Some i => Ok (true, i + 1, View start (i - start))
    | None => Ok (true, len s + 1, View start (len s - start))
    end
  else
    let valid := (0 <? len s) && (start =? len s) in
    if valid then
      do x <- rd s (len s - 1) ;;
      Ok (true, len s + 1, if x =? sep then View (len s) 0 else View (len s + 1) 0)
    else Ok (false, len s + 1, View (len s + 1) 0).

(** [while(s.next_split(sep, &pos, &out)) push(out);] out of fuel is [Err] *)
Fixpoint split_while (fuel : nat) (s : list Z) (sep pos : Z) : res (list view) :=
  match fuel with
  | O => Err
  | S f =>
      do '(more, pos', out) <- next_split s sep pos ;;
      if more then do r <- split_while f s sep pos' ;; Ok (out :: r) else Ok []
  end.
(** split iterator: state (m_str, m_pos); operator== compares size, data, pos *)
Definition it_eq (a b : view * Z) : bool :=
  (vl (fst a) =? vl (fst b)) && (vo (fst a) =? vo (fst b)) && (snd a =? snd b).
Definition it_make (s : list Z) (sep pos : Z) : res (view * Z) :=
  do '(_, pos', out) <- next_split s sep pos ;; Ok (out, pos').
(** [for(auto part : s.split(sep)) push(part);] *)
Fixpoint split_iter (fuel : nat) (s : list Z) (sep : Z) (it fin : view * Z) : res (list view) :=
  match fuel with
  | O => Err
  | S f =>
      if it_eq it fin then Ok []
      else do it' <- it_make s sep (snd it) ;; do r <- split_iter f s sep it' fin ;; Ok (fst it :: r)
  end.
Definition split (s : list Z) (sep start : Z) : res (list view) :=
  assert (((0 <=? start) && (start <? len s)) || (len s =? 0))
  (do b <- it_make s sep start ;; do e <- it_make s sep (len s + 1) ;;
   split_iter (Z.to_nat (len s) + 3) s sep b e).

(** ** Popping: 1777-1967. The result of pop_* may be null ([None]). *)
Definition some_v (r : res view) : res (option view) := do v <- r ;; Ok (Some v).
Definition pop_right (s : list Z) (sep : Z) (skip : bool) : res (option view) :=
  let n := len s in
  if 1 <? n then
    do pos <- last_of_c s sep None ;;
    match pos with
    | Some pos =>
        if pos + 1 <? n then some_v (sub1 n (pos + 1))
        else if negb skip then some_v (sub2 n (pos + 1) 0)
        else
          do ppos <- last_not_of_c s sep None ;;
          match ppos with
          | None => some_v (sub2 n 0 0)
          | Some ppos =>
              do pos0 <- last_of_c s sep (Some ppos) ;;
              match pos0 with
              | None => some_v (sub1 n 0)
              | Some pos0 => some_v (sub1 n (pos0 + 1))
              end
          end
    | None => Ok (Some (full s))
    end
  else if n =? 1 then
    do b <- begins_with_c s sep ;; if b then some_v (sub2 n 0 0) else Ok (Some (full s))
  else Ok None.
Definition pop_left (s : list Z) (sep : Z) (skip : bool) : res (option view) :=
  let n := len s in
  if 1 <? n then
    do pos <- first_of_c s sep (Some 0) ;;
    match pos with
    | Some pos =>
        if 0 <? pos then some_v (sub2 n 0 pos)
        else if negb skip then some_v (sub2 n 0 0)
        else
          do ppos <- first_not_of_c s sep 0 ;;
          match ppos with
          | None => some_v (sub2 n 0 0)
          | Some ppos =>
              do pos0 <- first_of_c s sep (Some ppos) ;;
              match pos0 with
              | None => some_v (sub1 n 0)
              | Some pos0 => some_v (sub2 n 0 pos0)
              end
          end
    | None => some_v (sub1 n 0)
    end
  else if n =? 1 then
    do b <- begins_with_c s sep ;; if b then some_v (sub2 n 0 0) else some_v (sub1 n 0)
  else Ok None.
(** gpop_left: 1885-1904 *)
Definition gpop_left (s : list Z) (sep : Z) (skip : bool) : res view :=
  do p <- pop_right s sep skip ;;
  do ss <- left_of_v (len s) p ;;
  do f <- find_c (contents s ss) sep (Some 0) ;;
  match f with
  | None => Ok ss
  | Some _ =>
      do e <- ends_with_c (contents s ss) sep ;;
      if e then
        if skip then on_sub s ss (fun x => trimr_c x sep)
        else on_sub s ss (fun x => sub2 (len x) 0 (len x - 1))
      else Ok ss
  end.
(** gpop_right: 1907-1926 *)
Definition gpop_right (s : list Z) (sep : Z) (skip : bool) : res view :=
  do p <- pop_left s sep skip ;;
  do ss <- right_of_v (len s) p ;;
  do f <- find_c (contents s ss) sep (Some 0) ;;
  match f with
  | None => Ok ss
  | Some _ =>
      do e <- begins_with_c (contents s ss) sep ;;
      if e then
        if skip then on_sub s ss (fun x => triml_c x sep)
        else on_sub s ss (fun x => sub1 (len x) 1)
      else Ok ss
  end.
(** basename: 1935-1940. On the null view trimr gives [sub(0,0)] of null. *)
Definition basename (s : list Z) (sep : Z) : res (option view) :=
  do p <- pop_right s sep true ;;
  match p with
  | None => Ok None
  | Some v => some_v (on_sub s v (fun x => trimr_c x sep))
  end.
(** dirname: 1942-1947 *)
Definition dirname (s : list Z) (sep : Z) : res view :=
  do b <- basename s sep ;;
  match b with
  | None => Ok (full s)
  | Some v => if vl v =? 0 then Ok (full s) else left_of_v (len s) (Some v)
  end.
(** 1949-1967 *)
Definition name_wo_extshort s := gpop_left s (ch ".") false.
Definition name_wo_extlong s := pop_left s (ch ".") false.
Definition extshort s := pop_right s (ch ".") false.
Definition extlong s := gpop_right s (ch ".") false.

(** ** In-place edits: 1978-2116. They act on the memory [m] through a view [v]
    (the writable substr). Stores are [wr]/[wrs]. *)
Definition wrv (m : list Z) (v : view) (i c : Z) : res (list Z) :=
  if (0 <=? i) && (i <? vl v) then wr m (vo v + i) c else Ub.
Definition rdv (m : list Z) (v : view) (i : Z) : res Z :=
  if (0 <=? i) && (i <? vl v) then rd m (vo v + i) else Ub.
(** [for(i = 0; i < len; ++i) str[i] = f(str[i])] *)
Fixpoint map_loop (n : nat) (i : Z) (f : Z -> res Z) (m : list Z) (v : view) : res (list Z) :=
  match n with
  | O => Ok m
  | S n' => do c <- rdv m v i ;; do y <- f c ;; do m' <- wrv m v i y ;; map_loop n' (i + 1) f m' v
  end.
(** ::toupper/::tolower in the "C" locale on a signed char converted to int: only the
    letters change. The argument must be representable as unsigned char or be EOF (-1,
    the byte 255); other negative values are undefined. *)
Definition ctype_arg (c : Z) : bool := (0 <=? schar c) || (schar c =? -1).
Definition toupper1 (c : Z) : res Z :=
  if ctype_arg c then Ok (if (97 <=? c) && (c <=? 122) then c - 32 else c) else Ub.
Definition tolower1 (c : Z) : res Z :=
  if ctype_arg c then Ok (if (65 <=? c) && (c <=? 90) then c + 32 else c) else Ub.
Definition toupper m v := map_loop (Z.to_nat (vl v)) 0 toupper1 m v.
Definition tolower m v := map_loop (Z.to_nat (vl v)) 0 tolower1 m v.
Definition fill m v (c : Z) := map_loop (Z.to_nat (vl v)) 0 (fun _ => Ok c) m v.

(** copy_from(that, ifirst, num): 2012-2024 *)
Definition copy_from (m : list Z) (v : view) (that : list Z) (ifirst num : Z) : res (list Z) :=
  assert (ifirst <=? vl v)
  (let num := if num =? npos then u64 (vl v - ifirst) else num in
   let num := if num <? len that then num else len that in
   assert (u64 (ifirst + num) <=? vl v)
   (if num =? 0 then Ok m else
    do src <- rds that 0 num ;; wrs m (vo v + ifirst) src)).

(** _do_reverse(first, last): 37-45; addresses as offsets in the memory *)
Fixpoint do_reverse (fuel : nat) (m : list Z) (first last : Z) : res (list Z) :=
  if last <=? first then Ok m else
  match fuel with
  | O => Err
  | S f =>
      do tmp <- rd m last ;; do x <- rd m first ;;
      do m1 <- wr m last x ;; do m2 <- wr m1 first tmp ;;
      do_reverse f m2 (first + 1) (last - 1)
  end.
Definition reverse (m : list Z) (v : view) : res (list Z) :=
  if vl v =? 0 then Ok m else do_reverse (Z.to_nat (vl v)) m (vo v) (vo v + vl v - 1).
Definition reverse_sub (m : list Z) (v : view) (ifirst num : Z) : res (list Z) :=
  assert (ifirst <=? vl v) (assert (u64 (ifirst + num) <=? vl v)
  (if num =? 0 then Ok m else do_reverse (Z.to_nat num) m (vo v + ifirst) (vo v + ifirst + num - 1))).
Definition reverse_range (m : list Z) (v : view) (ifirst ilast : Z) : res (list Z) :=
  assert (ifirst <=? vl v) (assert (ilast <=? vl v)
  (if ifirst =? ilast then Ok m else
   do_reverse (Z.to_nat (ilast - ifirst)) m (vo v + ifirst) (vo v + ilast - 1))).

(** erase(pos, num): 2061-2067 *)
Definition erase (m : list Z) (v : view) (pos num : Z) : res (list Z * view) :=
  assert (u64 (pos + num) <=? vl v)
  (let n := u64 (vl v - pos - num) in
   do src <- rds m (vo v + pos + num) n ;;
   do m' <- wrs m (vo v + pos) src ;;
   Ok (m', View (vo v) (u64 (vl v - num)))).
Definition erase_range m v first last : res (list Z * view) :=
  assert (first <=? last) (erase m v first (last - first)).

(** replace(value, repl, pos): 2091-2101; replace(chars, repl, pos): 2107-2117.
    [Err] when out of fuel (excluded by replace_ok). With pos == npos the search returns
    npos at once. *)
Fixpoint replace_loop (fuel : nat) (p : Z -> bool) (repl : Z) (m : list Z) (v : view) (pos did : Z)
  : res (list Z * Z) :=
  match fuel with
  | O => Err
  | S f =>
      do q <- assert (chk_start (contents m v) (Some pos)) (fwd_from (contents m v) p (Some pos)) ;;
      match q with
      | None => Ok (m, did)
      | Some q => do m' <- wrv m v q repl ;; replace_loop f p repl m' v (q + 1) (did + 1)
      end
  end.
Definition replace_c (m : list Z) (v : view) (value repl pos : Z) : res (list Z * Z) :=
  if pos =? npos then Ok (m, 0) else
  assert (pos <=? vl v) (replace_loop (S (Z.to_nat (vl v))) (fun x => x =? value) repl m v pos 0).
Definition replace (m : list Z) (v : view) (chars : list Z) (repl pos : Z) : res (list Z * Z) :=
  if pos =? npos then Ok (m, 0) else
  assert (pos <=? vl v) (replace_loop (S (Z.to_nat (vl v))) (fun x => mem x chars) repl m v pos 0).

(** replace_all(dst, pattern, repl, pos): 2124-2163. [d] is the memory holding
    dst, seen through [dv]. The source's own check also lets pos == npos through; the
    assertion of the first _c4append then fails, since str + npos < str. *)
Definition c4append (d : list Z) (dv : view) (sz : Z) (piece : list Z) : res (list Z * Z) :=
  let num := len piece in
  if (0 <? num) && (u64 (sz + num) <=? vl dv) then
    do d' <- wrs d (vo dv + sz) piece ;; Ok (d', u64 (sz + num))
  else Ok (d, u64 (sz + num)).
(** the do { } while(b < len && b != npos) loop; out of fuel is [Err] *)
Fixpoint replace_all_loop (fuel : nat) (s pat repl d : list Z) (dv : view) (b sz : Z)
  : res (list Z * Z) :=
  match fuel with
  | O => Err
  | S f =>
      do e <- find s pat (Some b) ;;
      match e with
      | None => c4append d dv sz (slice s b (len s - b))
      | Some e =>
          do '(d1, sz1) <- c4append d dv sz (slice s b (e - b)) ;;
          do '(d2, sz2) <- c4append d1 dv sz1 repl ;;
          let b' := e + len pat in
          if b' <? len s then replace_all_loop f s pat repl d2 dv b' sz2 else Ok (d2, sz2)
      end
  end.
Definition replace_all (s : list Z) (d : list Z) (dv : view) (pat repl : list Z) (pos : Z)
  : res (list Z * Z) :=
  assert (negb (len pat =? 0))
  (assert ((0 <=? pos) && (pos <=? len s))
  (do '(d1, sz1) <- c4append d dv 0 (slice s 0 pos) ;;
   replace_all_loop (S (Z.to_nat (len s))) s pat repl d1 dv pos sz1)).
