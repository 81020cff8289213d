(** The claims about the spans: C57, C58, C78. *)
From Verif Require Import Base MemUtilModel SpanModel SpanSpec SpanProofs.

(** ** C57: span operations preserve the range invariant *)
(** a legal operation is accepted and selects the documented window; capacity and offset
    follow. [total <= imax t]: the block size is a value of the size type *)
Theorem C57_step k t base total w s o : 0 <= total <= imax t -> inside total w -> stands k base total w s ->
  legal (room k total w) w o ->
  exists s', run1 k t s o = Ok s' /\ stands k base total (picks w o) s' /\ inside total (picks w o).
Proof. exact (run1_ok k t base total w s o). Qed.
Print Assumptions C57_step.
(** any other is refused, except for negative counts and ends that wrap around *)
Theorem C57_refused_partial k t base total w s o : 0 <= total <= imax t -> inside total w -> stands k base total w s ->
  args_in t o -> sane t o -> ~ legal (room k total w) w o -> run1 k t s o = Err.
Proof. exact (run1_err k t base total w s o). Qed.
Print Assumptions C57_refused_partial.
(** sequences of accepted operations *)
Theorem C57_sequence_partial k t base total os w s s' : 0 <= total <= imax t -> inside total w -> stands k base total w s ->
  Forall (args_in t) os -> Forall (sane t) os -> runs k t s os = Ok s' ->
  stands k base total (fold_left picks os w) s' /\ inside total (fold_left picks os w).
Proof. exact (fun T => runs_ok k t base total T os w s s'). Qed.
Print Assumptions C57_sequence_partial.
(** no extra condition for unsigned types narrower than int *)
Theorem C57_narrow t o : isgn t = false -> iw t = W8 \/ iw t = W16 -> args_in t o -> sane t o.
Proof. exact (sane_narrow t o). Qed.
Print Assumptions C57_narrow.
Theorem C57_size_capacity k base total w s : inside total w -> stands k base total w s ->
  0 <= ssz s <= scap s /\ base <= sp s /\ sp s + scap s <= base + total.
Proof. exact (size_cap k base total w s). Qed.
Print Assumptions C57_size_capacity.
Theorem C57_original t base total w s : 0 <= total <= imax t -> inside total w -> stands KRsl base total w s ->
  original t s = Ok (Span base total total 0).
Proof. exact (original_ok t base total w s). Qed.
Print Assumptions C57_original.
(** the assertion of subspan(first, num) adds in the size type: subspan(1, SIZE_MAX) is
    accepted on any span of two elements or more *)
Theorem C57_subspan_wraps_refuted k t base total w s : t = u32t \/ t = u64t -> 0 <= total <= imax t -> inside total w -> stands k base total w s ->
  2 <= snd w -> exists s', subspan2 k t s 1 (imax t) = Ok s' /\ ssz s' = imax t /\ sp s' = sp s + 1.
Proof. exact (subspan_wraps k t base total w s). Qed.
Print Assumptions C57_subspan_wraps_refuted.
(** resize() takes a negative size of a signed size type *)
Theorem C57_resize_negative_refuted k t s z : 0 <= scap s -> z < 0 -> exists s', resize k t s z = Ok s' /\ ssz s' = z.
Proof. exact (resize_negative k t s z). Qed.
Print Assumptions C57_resize_negative_refuted.
Example C57_ex1 : runs KRsl u64t (Span 100 10 10 0) [OSub 2 6; OLtrim 1; OResize 7; OLast 3; ORange 1 2] = Ok (Span 108 1 2 8)
  /\ original u64t (Span 108 1 2 8) = Ok (Span 100 10 10 0).
Proof. split; reflexivity. Qed.
Example C57_ex2 : runs KRs u8t (Span 100 10 10 0) [OSub 2 6; OResize 8] = Ok (Span 102 8 8 0) /\
  runs KRs u8t (Span 100 10 10 0) [OSub 2 6; OResize 9] = Err /\ runs KSpan u8t (Span 100 10 10 0) [OSub 2 6; OResize 7] = Err.
Proof. repeat split; reflexivity. Qed.
Example C57_ex3 : subspan2 KSpan u64t (Span 100 10 10 0) 1 (2 ^ 64 - 1) = Ok (Span 101 (2 ^ 64 - 1) (2 ^ 64 - 1) 0) /\
  subspan2 KSpan u8t (Span 100 10 10 0) 1 255 = Err /\ subspan2 KSpan i32 (Span 100 10 10 0) 3 (-1) = Ok (Span 103 (-1) (-1) 0) /\
  subspan2 KSpan i32 (Span 100 10 10 0) 1 (2 ^ 31 - 1) = Ub.
Proof. repeat split; reflexivity. Qed.
(** trimming everything is refused *)
Example C57_ex4 : rtrim KSpan u64t (Span 100 10 10 0) 10 = Err /\ rtrim KSpan u64t (Span 100 10 10 0) 9 = Ok (Span 100 1 1 0).
Proof. split; reflexivity. Qed.

(** ** C58: span complements *)
Theorem C58_complements k t base total w (m : list Z) s ss : 0 <= base -> base + total <= len m -> 0 <= total <= imax t -> inside total w -> stands k base total w s ->
  0 <= ssz ss -> sp s <= sp ss -> sp ss + ssz ss <= sp s + ssz s ->
  exists l r, compll k t s ss = Ok l /\ complr k t s ss = Ok r /\
    elements m l ++ elements m ss ++ elements m r = elements m s /\
    sp l = sp s /\ sp l + ssz l = sp ss /\ sp r = sp ss + ssz ss /\ sp r + ssz r = sp s + ssz s.
Proof. exact (complements k t base total w m s ss). Qed.
Print Assumptions C58_complements.
Theorem C58_is_subspan s ss : 0 <= ssz ss -> is_subspan false s ss = true <-> sp s <= sp ss /\ sp ss + ssz ss <= sp s + ssz s.
Proof. exact (is_subspan_ok s ss). Qed.
Print Assumptions C58_is_subspan.
(** each end on its own *)
Theorem C58_left k t base total w s ss : 0 <= total <= imax t -> inside total w -> stands k base total w s ->
  sp s <= sp ss <= sp s + ssz s -> exists s', compll k t s ss = Ok s' /\ sp s' = sp s /\ sp s' + ssz s' = sp ss.
Proof. exact (compll_in k t base total w s ss). Qed.
Print Assumptions C58_left.
Theorem C58_right k t base total w s ss : 0 <= total <= imax t -> inside total w -> stands k base total w s ->
  sp s <= sp ss + ssz ss <= sp s + ssz s ->
  exists s', complr k t s ss = Ok s' /\ sp s' = sp ss + ssz ss /\ sp s' + ssz s' = sp s + ssz s.
Proof. exact (complr_in k t base total w s ss). Qed.
Print Assumptions C58_right.
(** outside: empty *)
Theorem C58_outside k t base total w s ss : 0 <= total <= imax t -> inside total w -> stands k base total w s ->
  (~ sp s <= sp ss <= sp s + ssz s -> exists s', compll k t s ss = Ok s' /\ sp s' = sp s /\ ssz s' = 0) /\
  (~ sp s <= sp ss + ssz ss <= sp s + ssz s -> exists s', complr k t s ss = Ok s' /\ sp s' = sp s /\ ssz s' = 0).
Proof. exact (compl_outside k t base total w s ss). Qed.
Print Assumptions C58_outside.
Example C58_ex1 : compll KSpan u64t (Span 10 8 8 0) (Span 13 2 2 0) = Ok (Span 10 3 3 0) /\
  complr KSpan u64t (Span 10 8 8 0) (Span 13 2 2 0) = Ok (Span 15 3 3 0) /\ is_subspan false (Span 10 8 8 0) (Span 13 2 2 0) = true.
Proof. repeat split; reflexivity. Qed.
Example C58_ex2 : compll KRsl u64t (Span 10 8 9 4) (Span 18 0 0 0) = Ok (Span 10 8 9 4) /\ complr KRsl u64t (Span 10 8 9 4) (Span 18 0 0 0) = Ok (Span 18 0 1 12).
Proof. split; reflexivity. Qed.

(** ** C78: span comparison and element access *)
Theorem C78_eq m l r : sin m l -> sin m r -> exists b, span_eq m l r = Ok b /\ (b = true <-> elements m l = elements m r).
Proof. exact (span_eq_ok m l r). Qed.
Print Assumptions C78_eq.
Theorem C78_lt m l r : sin m l -> sin m r -> exists b, span_lt m l r = Ok b /\ (b = true <-> lexlt (elements m l) (elements m r)).
Proof. exact (span_lt_ok m l r). Qed.
Print Assumptions C78_lt.
Theorem C78_others m l r : sin m l -> sin m r ->
  exists bne bgt ble bge,
    span_ne m l r = Ok bne /\ (bne = true <-> elements m l <> elements m r) /\
    span_gt m l r = Ok bgt /\ (bgt = true <-> lexlt (elements m r) (elements m l)) /\
    span_le m l r = Ok ble /\ (ble = true <-> ~ lexlt (elements m r) (elements m l)) /\
    span_ge m l r = Ok bge /\ (bge = true <-> ~ lexlt (elements m l) (elements m r)).
Proof. exact (span_cmp_ok m l r). Qed.
Print Assumptions C78_others.
(** the order is a strict total order *)
Theorem C78_order : (forall a, ~ lexlt a a) /\ (forall a b c, lexlt a b -> lexlt b c -> lexlt a c) /\ (forall a b, lexlt a b \/ a = b \/ lexlt b a).
Proof. exact (conj lexlt_irrefl (conj lexlt_trans lexlt_total)). Qed.
Print Assumptions C78_order.
(** before C++14, only for equal sizes *)
Theorem C78_eq11_partial m l r : sin m l -> sin m r -> ssz l = ssz r -> span_eq11 m l r = span_eq m l r.
Proof. exact (eq11_ok m l r). Qed.
Print Assumptions C78_eq11_partial.
Theorem C78_eq11_refuted : ~ (forall m l r, sin m l -> sin m r -> span_eq11 m l r = span_eq m l r).
Proof.
  intros H. specialize (H [1; 2; 1; 2; 3] (Span 0 2 2 0) (Span 2 3 3 0)).
  assert (A : sin [1; 2; 1; 2; 3] (Span 0 2 2 0)) by (unfold sin; cbn; lia).
  assert (B : sin [1; 2; 1; 2; 3] (Span 2 3 3 0)) by (unfold sin; cbn; lia).
  specialize (H A B). discriminate H.
Qed.
Print Assumptions C78_eq11_refuted.
Theorem C78_at m s i : sin m s -> 0 <= i < ssz s -> exists c, at_ m s i = Ok c /\ nth_error (elements m s) (Z.to_nat i) = Some c.
Proof. exact (at_ok m s i). Qed.
Print Assumptions C78_at.
Theorem C78_at_err m s i : ~ (0 <= i < ssz s) -> at_ m s i = Err.
Proof. exact (at_err m s i). Qed.
Print Assumptions C78_at_err.
Theorem C78_front_back t m s : 0 < ssz s <= imax t -> front m s = at_ m s 0 /\ back t m s = at_ m s (ssz s - 1).
Proof. exact (fun H => conj (front_ok m s (proj1 H)) (back_ok t m s H)). Qed.
Print Assumptions C78_front_back.
Theorem C78_empty t m s : ssz s = 0 -> front m s = Err /\ back t m s = Err.
Proof. exact (front_back_empty t m s). Qed.
Print Assumptions C78_empty.
Example C78_ex1 : span_eq [1; 2; 1; 2; 3] (Span 0 2 2 0) (Span 2 2 2 0) = Ok true /\ span_eq [1; 2; 1; 2; 3] (Span 0 2 2 0) (Span 2 3 3 0) = Ok false
  /\ span_eq11 [1; 2; 1; 2; 3] (Span 0 2 2 0) (Span 2 3 3 0) = Ok true.
Proof. repeat split; reflexivity. Qed.
Example C78_ex2 : span_lt [1; 2; 1; 2; 3] (Span 0 2 2 0) (Span 2 3 3 0) = Ok true /\ span_lt [1; 2; 1; 2; 3] (Span 1 1 1 0) (Span 2 3 3 0) = Ok false
  /\ span_ge [1; 2; 1; 2; 3] (Span 1 1 1 0) (Span 2 3 3 0) = Ok true.
Proof. repeat split; reflexivity. Qed.
(** reading past the end, before C++14 *)
Example C78_ex3 : span_eq11 [1; 2; 1; 2] (Span 0 3 3 0) (Span 3 1 1 0) = Ok false /\ span_eq11 [1; 1; 1] (Span 0 2 2 0) (Span 2 1 1 0) = Ub.
Proof. split; reflexivity. Qed.
