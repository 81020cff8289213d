(** Model of the sizes in bytes, of the conversions between spans, and of comparisons of spans
    with different size types (span.hpp 60-63, 188-216, 294, 378-382, 461-463, 507-511). *)
From Verif Require Import Base SubstrModel MemUtilModel HashModel SpanModel.

(** value_size, elm_size, type_size: 60-62; the size of the type converted to the size type *)
Definition value_size (t : ity) (tsize : Z) : Z := wrap t tsize.
(** byte_size: 63. The product is a size_t, converted to the size type *)
Definition byte_size (t : ity) (tsize : Z) (s : span) : Z := wrap t (u64 (ssz s * tsize)).
(** the conversions to a span and to a spanrs: 378, 461-462 *)
Definition to_span (s : span) : span := mk KSpan (sp s) (ssz s) (ssz s) 0.
Definition to_spanrs (s : span) : span := mk KRs (sp s) (ssz s) (scap s) 0.
(** original<OtherSpanType>: 507-511, with the constructor from a pointer and a size *)
Definition original_as (k : skind) (t : ity) (s : span) : res span :=
  do n <- iadd t (scap s) (soff s) ;; Ok (mk k (sp s - soff s) n n 0).
(** same_span for another size type: 188-193. [dbg]: C4_XASSERT is on *)
Definition same_span2 (dbg : bool) (t t2 : ity) (s ss : span) : res bool :=
  do n <- szconv dbg t t2 (ssz ss) ;; Ok ((ssz s =? n) && (sp s =? sp ss)).
(** operator== before C++14: 214 *)
Definition span_eq11_2 (dbg : bool) (t t2 : ity) (m : list Z) (l r : span) : res bool :=
  do b <- same_span2 dbg t t2 l r ;; if b : bool then Ok true else equal_n m (Z.to_nat (ssz l)) (sp l) (sp r).
