(** Model of the spans: src/c4/span.hpp.

    The size type [I] is the parameter [t]; arithmetic follows the integer promotions.
    Pointers are element offsets into one memory. All assertions (C4_ASSERT and
    C4_XASSERT) are on; a failed one is [Err]. *)
From Verif Require Import Base SubstrModel MemUtilModel.

(** span, spanrs and spanrsl: 276-282, 353-360, 437-444 *)
Inductive skind := KSpan | KRs | KRsl.
Record span := Span { sp : Z; ssz : Z; scap : Z; soff : Z }.
(** the members a class does not have *)
Definition mk (k : skind) (p sz cap off : Z) : span :=
  match k with KSpan => Span p sz sz 0 | KRs => Span p sz cap 0 | KRsl => Span p sz cap off end.

(** [a + b], [a - b] in [I], converted back to [I] *)
Definition iadd (t : ity) (a b : Z) : res Z := do r <- arith (promote t) (a + b) ;; Ok (wrap t r).
Definition isub (t : ity) (a b : Z) : res Z := do r <- arith (promote t) (a - b) ;; Ok (wrap t r).

(** _select: 284, 362-368 and 446-452 *)
Definition select (k : skind) (t : ity) (s : span) (p sz : Z) : res span :=
  match k with
  | KSpan => Ok (Span p sz sz 0)
  | KRs => assert (sp s <=? p)
           (let delta := u64 (p - sp s) in
            assert (delta <=? u64 (scap s))
            (Ok (Span p sz (wrap t (u64 (scap s - delta))) 0)))
  | KRsl => assert (sp s <=? p)
            (let delta := wrap t (p - sp s) in
             assert (delta <=? scap s)
             (do c <- isub t (scap s) delta ;;
              do o <- iadd t (soff s) delta ;;
              Ok (Span p sz c o)))
  end.

(** 99-133 *)
Definition subspan2 (k : skind) (t : ity) (s : span) (first num : Z) : res span :=
  assert (((0 <=? first) && (first <? ssz s)) || ((first =? ssz s) && (num =? 0)))
  (do e <- arith (promote t) (first + num) ;;
   assert ((0 <=? e) && (e <=? ssz s)) (select k t s (sp s + first) num)).
Definition subspan1 (k : skind) (t : ity) (s : span) (first : Z) : res span :=
  assert ((0 <=? first) && (first <=? ssz s))
  (do n <- isub t (ssz s) first ;; select k t s (sp s + first) n).
Definition range2 (k : skind) (t : ity) (s : span) (first last : Z) : res span :=
  assert (((0 <=? first) && (first <? ssz s)) || ((first =? ssz s) && (first =? last)))
  (assert ((0 <=? last) && (last <=? ssz s))
  (assert (first <=? last)
  (do n <- isub t last first ;; select k t s (sp s + first) n))).
Definition range1 (k : skind) (t : ity) (s : span) (first : Z) : res span :=
  assert ((0 <=? first) && (first <=? ssz s))
  (do n <- isub t (ssz s) first ;; select k t s (sp s + first) n).
Definition first_n (k : skind) (t : ity) (s : span) (num : Z) : res span :=
  assert ((0 <=? num) && (num <=? ssz s)) (select k t s (sp s) num).
Definition last_n (k : skind) (t : ity) (s : span) (num : Z) : res span :=
  assert ((0 <=? num) && (num <=? ssz s)) (select k t s (sp s + ssz s - num) num).

(** resize, rtrim, ltrim: 326-328, 418-420, 497-499; for a span, capacity() is the size *)
Definition resize (k : skind) (t : ity) (s : span) (sz : Z) : res span :=
  assert (sz <=? scap s) (Ok (mk k (sp s) sz (scap s) (soff s))).
Definition rtrim (k : skind) (t : ity) (s : span) (n : Z) : res span :=
  assert ((0 <=? n) && (n <? ssz s))
  (do z <- isub t (ssz s) n ;; Ok (mk k (sp s) z (scap s) (soff s))).
Definition ltrim (k : skind) (t : ity) (s : span) (n : Z) : res span :=
  assert ((0 <=? n) && (n <? ssz s))
  (do z <- isub t (ssz s) n ;;
   match k with
   | KSpan => Ok (mk k (sp s + n) z z 0)
   | KRs => do c <- isub t (scap s) n ;; Ok (mk k (sp s + n) z c 0)
   | KRsl => do o <- iadd t (soff s) n ;; do c <- isub t (scap s) n ;; Ok (mk k (sp s + n) z c o)
   end).
(** clear: 69 *)
Definition clear (k : skind) (s : span) : span := mk k (sp s) 0 (scap s) (soff s).
(** spanrsl::original: 502-505, and as another span type: 507-511 *)
Definition original (t : ity) (s : span) : res span :=
  do n <- iadd t (scap s) (soff s) ;; Ok (Span (sp s - soff s) n n 0).

(** the operations a program can chain *)
Inductive sop :=
| OSub (first num : Z) | OSub1 (first : Z) | ORange (first last : Z) | ORange1 (first : Z)
| OFirst (num : Z) | OLast (num : Z) | OResize (sz : Z) | ORtrim (n : Z) | OLtrim (n : Z) | OClear.
Definition run1 (k : skind) (t : ity) (s : span) (o : sop) : res span :=
  match o with
  | OSub f n => subspan2 k t s f n | OSub1 f => subspan1 k t s f
  | ORange f l => range2 k t s f l | ORange1 f => range1 k t s f
  | OFirst n => first_n k t s n | OLast n => last_n k t s n
  | OResize z => resize k t s z | ORtrim n => rtrim k t s n | OLtrim n => ltrim k t s n
  | OClear => Ok (clear k s)
  end.
Fixpoint runs (k : skind) (t : ity) (s : span) (os : list sop) : res span :=
  match os with [] => Ok s | o :: os => do s <- run1 k t s o ;; runs k t s os end.

(** is_subspan: 135-148; [null]: the pointer is nullptr *)
Definition is_subspan (null : bool) (s ss : span) : bool :=
  if null then false else (sp s <=? sp ss) && (sp ss + ssz ss <=? sp s + ssz s).
(** compll, complr: 152-182. The arguments of subspan are converted from size_t to I *)
Definition compll (k : skind) (t : ity) (s ss : span) : res span :=
  if (sp s <=? sp ss) && (sp ss <=? sp s + ssz s)
  then subspan2 k t s 0 (wrap t (u64 (sp ss - sp s)))
  else subspan2 k t s 0 0.
Definition complr (k : skind) (t : ity) (s ss : span) : res span :=
  let sse := sp ss + ssz ss in let e := sp s + ssz s in
  if (sp s <=? sse) && (sse <=? e)
  then subspan2 k t s (wrap t (u64 (sse - sp s))) (wrap t (u64 (e - sse)))
  else subspan2 k t s 0 0.
(** same_span: 184-193 *)
Definition same_span (s ss : span) : bool := (ssz s =? ssz ss) && (sp s =? sp ss).

(** element access: front, back and operator[]: 90-97 *)
Definition at_ (m : list Z) (s : span) (i : Z) : res Z := assert ((0 <=? i) && (i <? ssz s)) (rd m (sp s + i)).
Definition front (m : list Z) (s : span) : res Z := assert (negb (ssz s =? 0)) (rd m (sp s)).
Definition back (t : ity) (m : list Z) (s : span) : res Z :=
  assert (negb (ssz s =? 0)) (do i <- isub t (ssz s) 1 ;; rd m (sp s + i)).

(** ** Comparison: 204-269 *)
(** std::equal of [n] elements *)
Fixpoint equal_n (m : list Z) (n : nat) (a b : Z) : res bool :=
  match n with
  | O => Ok true
  | S n => do x <- rd m a ;; do y <- rd m b ;; if x =? y then equal_n m n (a + 1) (b + 1) else Ok false
  end.
(** std::equal with both ends (C++14): the lengths are compared first *)
Definition span_eq (m : list Z) (l r : span) : res bool :=
  if ssz l =? ssz r then equal_n m (Z.to_nat (ssz l)) (sp l) (sp r) else Ok false.
(** the C++11 branch: as many elements of [r] are read as [l] has *)
Definition span_eq11 (m : list Z) (l r : span) : res bool :=
  if same_span l r then Ok true else equal_n m (Z.to_nat (ssz l)) (sp l) (sp r).
Definition span_ne (m : list Z) (l r : span) : res bool := do b <- span_eq m l r ;; Ok (negb b).
(** std::lexicographical_compare *)
Fixpoint lex (m : list Z) (na nb : nat) (a b : Z) : res bool :=
  match na, nb with
  | _, O => Ok false
  | O, S _ => Ok true
  | S na, S nb => do x <- rd m a ;; do y <- rd m b ;;
                  if x <? y then Ok true else if y <? x then Ok false else lex m na nb (a + 1) (b + 1)
  end.
Definition span_lt (m : list Z) (l r : span) : res bool := lex m (Z.to_nat (ssz l)) (Z.to_nat (ssz r)) (sp l) (sp r).
Definition span_gt (m : list Z) (l r : span) : res bool := span_lt m r l.
Definition span_le (m : list Z) (l r : span) : res bool := do b <- span_gt m l r ;; Ok (negb b).
Definition span_ge (m : list Z) (l r : span) : res bool := do b <- span_lt m l r ;; Ok (negb b).
