From Verif Require Import Base BaseLemmas SubstrModel MemUtilModel MemResModel AllocModel ProviderModel ProviderSpec ProviderProofs.

(** ** C114: memory goes back to the resource it came from *)
(** allocators that hold their resource: any number of them, copied, rebound, assigned, and
    whatever happens to the global resource *)
Theorem C114_per_allocator : forall dbg g os w e, Forall per_allocator os -> arun dbg (World g [] []) os = Ok (w, e) -> accounted e.
Proof. exact mem_accounted. Qed.
Print Assumptions C114_per_allocator.
(** allocators that use the global resource, as long as it does not change *)
Theorem C114_global_partial : forall dbg g os w e, Forall keeps_global os -> arun dbg (World g [] []) os = Ok (w, e) -> accounted e.
Proof. exact global_accounted. Qed.
Print Assumptions C114_global_partial.
Theorem C114_global_refuted : exists os w e, arun true (World 5 [] []) os = Ok (w, e) /\ ~ accounted e.
Proof.
  exists [ADefault KGlobal; AAlloc 0 100; ASetGlobal 7; AFree 0 0].
  eexists. exists [GotFrom 5 100; GaveTo 7 100]. split; [reflexivity|].
  intros H. specialize (H [GotFrom 5 100; GaveTo 7 100] [] 7 100 eq_refl). vm_compute in H. apply H. reflexivity.
Qed.
Print Assumptions C114_global_refuted.
(** rebinding gives an equal allocator; equality of allocators that hold their resource does not
    depend on the global resource *)
Theorem C114_rebound : forall dbg g p, resource p g <> 0 -> exists q, rebound dbg g p = Ok q /\ alloc_eq g p q = true /\ forall g', resource q g' = resource p g'.
Proof. intros dbg g p H. destruct (rebound_eq dbg g p H) as (q & E & A & ->). exists p. auto. Qed.
Print Assumptions C114_rebound.
Theorem C114_resource : forall dbg g r, r <> 0 -> exists p, provider_from dbg KMem g r = Ok p /\ forall g', resource p g' = r.
Proof. intros dbg g r H. unfold provider_from. destruct (r =? 0) eqn:E; [apply Z.eqb_eq in E; tauto|]. exists (PMem r). auto. Qed.
Print Assumptions C114_resource.
(** a null resource, or none, means the global resource at the time of construction *)
Theorem C114_null : forall dbg g g', (exists p, provider_from dbg KMem g 0 = Ok p /\ resource p g' = g) /\ resource (provider_default KMem g) g' = g.
Proof. intros dbg g g'. split; [exists (PMem g); auto|reflexivity]. Qed.
Print Assumptions C114_null.
(** the resource given to an allocator that uses the global one is ignored without assertions *)
Theorem C114_ignored_refuted : forall g r, r <> g -> provider_from true KGlobal g r = Err /\ exists p, provider_from false KGlobal g r = Ok p /\ resource p g <> r.
Proof.
  intros g r H. unfold provider_from. cbn. destruct (r =? g) eqn:E; [apply Z.eqb_eq in E; tauto|]. split; [reflexivity|]. exists PGlobal. cbn. auto.
Qed.
Print Assumptions C114_ignored_refuted.
(** a copy of a small allocator hands memory inside the original to the resource *)
Theorem C114_small_copy_refuted : forall a num n got addr num' p e, 0 < stsz a -> 0 <= num -> 0 < n -> num + n <= scap a < 2 ^ 64 ->
  small_allocate a num n got = (num', p, e) ->
  addr + scap a * stsz a <= sarr a \/ sarr a + scap a * stsz a <= addr ->
  e = [] /\ exists num'', small_deallocate (small_copy a addr) num' p n = Ok (num'', [EFree p (u64 (n * stsz a))]).
Proof.
  intros a num n got addr num' p e Ht Hn0 Hn Hc E Hd. unfold small_allocate in E. unfold u64 in E at 1. rewrite Z.mod_small in E by lia.
  replace (num + n <=? scap a) with true in E by lia. injection E as <- <- <-. split; [reflexivity|].
  unfold small_deallocate, small_copy. cbn [sarr scap stsz]. unfold u64 at 1. rewrite Z.mod_small by lia. unfold assert. replace (n <=? num + n) with true by lia.
  assert (num * stsz a + stsz a <= scap a * stsz a) by nia. assert (0 <= num * stsz a) by nia.
  replace ((addr <=? sarr a + num * stsz a) && (sarr a + num * stsz a <? addr + scap a * stsz a)) with false by lia. eauto.
Qed.
Print Assumptions C114_small_copy_refuted.
(** memory from the resource can be given back through any copy *)
Theorem C114_small_heap_partial : forall a addr num p n, (p < sarr a \/ sarr a + scap a * stsz a <= p) -> (p < addr \/ addr + scap a * stsz a <= p) ->
  small_deallocate (small_copy a addr) num p n = small_deallocate a num p n.
Proof.
  intros a addr num p n H1 H2. unfold small_deallocate, small_copy. cbn [sarr scap stsz].
  replace ((sarr a <=? p) && (p <? sarr a + scap a * stsz a)) with false by lia.
  replace ((addr <=? p) && (p <? addr + scap a * stsz a)) with false by lia. reflexivity.
Qed.
Print Assumptions C114_small_heap_partial.
(** a small allocator can be converted while none of its array is in use; then an assertion fails,
    or without assertions the count is forgotten *)
Theorem C114_small_convert_partial : forall dbg, small_convert dbg 0 = Ok 0.
Proof. intros [|]; reflexivity. Qed.
Print Assumptions C114_small_convert_partial.
Theorem C114_small_convert_refuted : forall num, num <> 0 -> small_convert true num = Err /\ exists num', small_convert false num = Ok num' /\ num' <> num.
Proof. exact small_convert_used. Qed.
Print Assumptions C114_small_convert_refuted.
(** an allocator must be equal to itself and to its copies; a small allocator never is *)
Theorem C114_small_equal_refuted : forall a addr, small_eq a a = false /\ small_eq a (small_copy a addr) = false.
Proof. intros. split; reflexivity. Qed.
Print Assumptions C114_small_equal_refuted.
(** rebinding and back must give the same type *)
Theorem C114_small_rebind_partial : forall a us ua, st_align a = st_talign a -> small_rebind (small_rebind a us ua) (st_size a) (st_talign a) = a.
Proof. intros [s t n al] us ua H. cbn in *. subst. reflexivity. Qed.
Print Assumptions C114_small_rebind_partial.
Theorem C114_small_rebind_refuted : forall a us ua, st_align a <> st_talign a -> small_rebind (small_rebind a us ua) (st_size a) (st_talign a) <> a.
Proof. intros [s t n al] us ua H E. cbn in *. injection E as E. auto. Qed.
Print Assumptions C114_small_rebind_refuted.
(** construct(): one overload for each type that can be constructed, except the types that take
    a resource both before and after the arguments *)
Theorem C114_construct_partial : forall uses plain leading trailing : bool, (if uses then leading || trailing else plain) = true -> ~ (uses = true /\ leading = true /\ trailing = true) ->
  construct_overloads uses plain leading trailing = [if uses then (if leading then CLeading else CTrailing) else CPlain].
Proof. intros [] [] [] [] H H'; cbn in *; try discriminate; try reflexivity; exfalso; apply H'; auto. Qed.
Print Assumptions C114_construct_partial.
Theorem C114_construct_refuted : forall plain, construct_overloads true plain true true = [CLeading; CTrailing].
Proof. intros []; reflexivity. Qed.
Print Assumptions C114_construct_refuted.
Example C114_ex1 : arun true (World 5 [] []) [AFrom KMem 9; ARebind 0; AAlloc 0 100; ASetGlobal 7; AFree 1 0] = Ok (World 7 [PMem 9; PMem 9] [], [GotFrom 9 100; GaveTo 9 100]).
Proof. reflexivity. Qed.
Example C114_ex2 : arun true (World 5 [] []) [ADefault KMem; AFrom KMem 9; AAlloc 0 100; AFree 1 0; AAssign 1 0; AFree 1 0] = Ok (World 5 [PMem 5; PMem 5] [], [GotFrom 5 100; GaveTo 5 100]).
Proof. reflexivity. Qed.
Example C114_ex3 : small_allocate (Small 1000 16 4) 0 2 0 = (2, 1000, []) /\
  small_deallocate (small_copy (Small 1000 16 4) 2000) 2 1000 2 = Ok (0, [EFree 1000 8]). Proof. split; reflexivity. Qed.

(** ** C115: arithmetic on allocation counts *)
Theorem C115_plus_minus : forall a b c, in_counts a -> counts_plus a b = Ok c -> counts_minus c b = Ok a.
Proof. exact plus_minus. Qed.
Print Assumptions C115_plus_minus.
Theorem C115_plus_comm : forall a b, counts_plus a b = counts_plus b a.
Proof. exact plus_comm. Qed.
Print Assumptions C115_plus_comm.
(** the difference of the counts after and before is the counts of what happened between, except the maximum *)
Theorem C115_difference_partial : forall c es c' d r, item_le (ccurr c) (cmax c) -> counts_run c es = Ok c' -> counts_run zero_counts es = Ok d ->
  counts_minus c' c = Ok r -> ccurr r = ccurr d /\ ctotal r = ctotal d /\ item_le (cmax r) (cmax d).
Proof. intros c es c' d r H E1 E2. apply (difference c es c' d H E1 E2). Qed.
Print Assumptions C115_difference_partial.
Theorem C115_difference_max_partial : forall c es c' d r, ccurr c = cmax c -> counts_run c es = Ok c' -> counts_run zero_counts es = Ok d ->
  counts_minus c' c = Ok r -> cmax r = cmax d.
Proof. intros c es c' d r H E1 E2. apply (difference_max c es c' d H E1 E2). Qed.
Print Assumptions C115_difference_max_partial.
Theorem C115_difference_max_refuted : exists before es c c' d r, counts_run zero_counts before = Ok c /\ counts_run c es = Ok c' /\ counts_run zero_counts es = Ok d /\
  counts_minus c' c = Ok r /\ isz (cmax d) = 4 /\ isz (cmax r) = 0.
Proof.
  exists [CAdd 8; CRem 8], [CAdd 4]. do 4 eexists. split; [reflexivity|]. split; [reflexivity|]. split; [reflexivity|]. split; [reflexivity|]. split; reflexivity.
Qed.
Print Assumptions C115_difference_max_refuted.
(** the sum of two counters is the counter of both histories in any order, except the maximum, which it bounds *)
Theorem C115_sum_partial : forall es1 es2 es a b c p, merge es1 es2 es -> Forall moderate es ->
  counts_run zero_counts es1 = Ok a -> counts_run zero_counts es2 = Ok b -> counts_run zero_counts es = Ok c -> counts_plus a b = Ok p ->
  ccurr p = ccurr c /\ ctotal p = ctotal c /\ item_le (cmax c) (cmax p).
Proof. exact sum_of_counters. Qed.
Print Assumptions C115_sum_partial.
Theorem C115_sum_max_refuted : exists es1 es2 es a b c p, merge es1 es2 es /\
  counts_run zero_counts es1 = Ok a /\ counts_run zero_counts es2 = Ok b /\ counts_run zero_counts es = Ok c /\ counts_plus a b = Ok p /\
  isz (cmax c) = 8 /\ isz (cmax p) = 16.
Proof.
  exists [CAdd 8; CRem 8], [CAdd 8; CRem 8], [CAdd 8; CRem 8; CAdd 8; CRem 8]. do 4 eexists. split.
  { do 2 apply merge_l. do 2 apply merge_r. apply merge_nil. }
  split; [reflexivity|]. split; [reflexivity|]. split; [reflexivity|]. split; [reflexivity|]. split; reflexivity.
Qed.
Print Assumptions C115_sum_max_refuted.
Example C115_ex1 : counts_run zero_counts [CAdd 8; CAdd 4; CRem 8] = Ok (Counts (Item 1 4) (Item 2 12) (Item 2 12)). Proof. reflexivity. Qed.
