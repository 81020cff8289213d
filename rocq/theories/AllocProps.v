(** Properties of the allocators and of the scoped settings: C63-C66 and C80. *)
From Verif Require Import Base SubstrModel MemResModel AllocModel AllocSpec AllocProofs.

Ltac history_step :=
  cbn [small_history snd]; split;
  [cbn; repeat split; try lia; unfold off_array, disjoint_blocks; cbn; intuition (subst; cbn in *; try discriminate; lia)
  |intros ? ? ? E; injection E as <- <- _].

(** ** C63: SmallAllocator hands out disjoint blocks *)
(** not if the first block is given back before the second: N = 16, sizeof(T) = 4 *)
Theorem C63_refuted :
  exists os num live e, small_history (Small 4096 16 4) (0, []) os /\
    small_run (Small 4096 16 4) (0, []) os = Ok (num, live, e) /\
    ~ pairwise (disjoint_blocks 4) live.
Proof.
  exists [SAlloc 8 8192; SAlloc 4 8192; SFree 1; SAlloc 8 8192]. eexists _, _, _. split.
  - do 4 history_step. exact I.
  - split; [reflexivity|]. intro P. specialize (P O (S O) _ _ ltac:(discriminate) eq_refl eq_refl).
    unfold disjoint_blocks in P. cbn in P. lia.
Qed.
Print Assumptions C63_refuted.

Example C63_ex1 : small_run (Small 4096 16 4) (0, []) [SAlloc 8 0; SAlloc 4 0; SFree 1; SAlloc 8 0]
  = Ok (12, [(4112, 8); (4128, 4)], []).
Proof. reflexivity. Qed.

(** ** C64: SmallAllocator under last-in-first-out use *)
Theorem C64_lifo_partial a os : small_ok a -> small_history a (0, []) os -> Forall lifo os ->
  exists num live e, small_run a (0, []) os = Ok (num, live, e) /\
    pairwise (disjoint_blocks (stsz a)) live /\
    (forall b, In b live -> (in_array a b /\ is_off a b = false) \/ (off_array a b /\ is_off a b = true)) /\
    outstanding [] e = Some (map (in_bytes a) (filter (is_off a) live)).
Proof. exact (small_lifo a os). Qed.
Print Assumptions C64_lifo_partial.

(** an empty block taken when the array is full is given to the resource, which has never
    seen it *)
Theorem C64_zero_refuted :
  exists num live e, small_run (Small 4096 4 8) (0, []) [SAlloc 4 8192; SAlloc 0 8192; SFree 0] = Ok (num, live, e) /\
    outstanding [] e = None.
Proof. eexists _, _, _. split; reflexivity. Qed.
Print Assumptions C64_zero_refuted.

(** a count that wraps is taken from the array *)
Theorem C64_wrap_refuted :
  exists num live e, small_run (Small 4096 4 1) (0, []) [SAlloc 2 8192; SAlloc (2 ^ 64 - 1) 8192] = Ok (num, live, e) /\
    e = [] /\ ~ (forall b, In b live -> in_array (Small 4096 4 1) b).
Proof.
  eexists _, _, _. split; [reflexivity|]. split; [reflexivity|].
  intro H. destruct (H (4098, 2 ^ 64 - 1)) as [_ X]; [left; reflexivity|]. cbn in X. lia.
Qed.
Print Assumptions C64_wrap_refuted.

Example C64_ex1 : small_run (Small 4096 4 8) (0, []) [SAlloc 3 0; SAlloc 2 8192; SAlloc 1 9000; SFree 0; SAlloc 5 9000; SFree 0; SFree 0]
  = Ok (3, [(4096, 3)], [EAlloc 8192 16; EAlloc 9000 8; EFree 9000 8; EAlloc 9000 40; EFree 9000 40; EFree 8192 16]).
Proof. reflexivity. Qed.
Example C64_ex2 : small_history (Small 4096 4 8) (0, []) [SAlloc 3 8192; SAlloc 2 8192; SFree 0; SAlloc 1 8192].
Proof. do 4 history_step. exact I. Qed.

(** ** C65: Allocator requests the full size *)
Theorem C65_size_for_partial t n : 0 <= t -> 0 <= n -> size_for t n = n * t <-> n * t < 2 ^ 64.
Proof. exact (size_for_exact t n). Qed.
Print Assumptions C65_size_for_partial.

Theorem C65_allocate_partial t al0 r n al : 0 <= t -> 0 <= n -> n * t < 2 ^ 64 -> r <> 0 -> al0 <= al ->
  allocate t al0 r n al = Ok (QAlloc (n * t) al) /\
  (forall p, deallocate t al0 r p n al = Ok (QFree p (n * t) al)) /\
  (forall p k, 0 <= k -> k * t < 2 ^ 64 -> reallocate t al0 r p n k al = Ok (QRealloc p (n * t) (k * t) al)).
Proof.
  intros T N B R A.
  assert (forall k, 0 <= k -> k * t < 2 ^ 64 -> size_for t k = k * t) as S by (intros k K; apply size_for_exact; auto).
  unfold allocate, deallocate, reallocate, assert.
  rewrite (proj2 (Z.eqb_neq r 0)) by auto. rewrite (proj2 (Z.leb_le al0 al)) by auto. cbn [negb].
  rewrite (S n) by auto. split; [reflexivity|]. split; [reflexivity|]. intros p k K KB. rewrite S by auto. reflexivity.
Qed.
Print Assumptions C65_allocate_partial.

(** otherwise less is requested *)
Theorem C65_refuted t n : 0 <= t -> 0 <= n -> 2 ^ 64 <= n * t -> size_for t n < n * t.
Proof. exact (size_for_less t n). Qed.
Print Assumptions C65_refuted.

Example C65_ex1 : allocate 8 8 1 10 16 = Ok (QAlloc 80 16).
Proof. reflexivity. Qed.
Example C65_ex2 : allocate 8 8 1 (2 ^ 61 + 1) 8 = Ok (QAlloc 8 8).
Proof. reflexivity. Qed.
Example C65_ex3 : allocate 8 8 1 10 4 = Err.
Proof. reflexivity. Qed.

(** ** C66: scoped settings are restored *)
(** also when an exception passes through the scopes *)
Theorem C66_error_settings p : err_scoped p = true ->
  forall g g' t, exec p g = Ok (g', t) -> gflags g' = gflags g /\ gcb g' = gcb g.
Proof. exact (err_restored p). Qed.
Print Assumptions C66_error_settings.

Theorem C66_memory_resource_partial p : mem_scoped p = true ->
  forall g g' t, exec p g = Ok (g', t) -> gres g' = gres g.
Proof. exact (mem_restored p). Qed.
Print Assumptions C66_memory_resource_partial.

(** ScopedMemoryResourceCounts(m) leaves m in place, not the previous resource *)
Theorem C66_counts_of_refuted self m p g g' t :
  exec (PScope (SCountsOf self m) p) g = Ok (g', t) -> gres g' = m.
Proof. exact (counts_of_leaves self m p g g' t). Qed.
Print Assumptions C66_counts_of_refuted.

(** inside a scope its settings hold; the others are those outside *)
Theorem C66_enter k g g' : enter k g = Ok g' -> g' = body_settings k g.
Proof. exact (enter_inside k g g'). Qed.
Print Assumptions C66_enter.

(** such programs do not fail if only existing resources are set *)
Theorem C66_total p : nonnull_prog p -> forall g, gres g <> 0 -> exists g' t, exec p g = Ok (g', t) /\ gres g' <> 0.
Proof. exact (exec_ok p). Qed.
Print Assumptions C66_total.

Example C66_ex1 :
  exec (PSeq (PScope (SErrBoth 5 6) (PSeq (PFlags 7) (PScope (SMem 9) (PSeq (PCb 8) (PRes 10)))))
             (PTry (PScope (SCounts 77) (PScope (SErrFlags 3) (PSeq PThrow (PFlags 4)))))) (Glob 1 2 3)
  = Ok (Glob 1 2 3, false).
Proof. reflexivity. Qed.
Example C66_ex2 : exec (PScope (SCountsOf 77 9) PSkip) (Glob 1 2 3) = Ok (Glob 1 2 9, false).
Proof. reflexivity. Qed.
Example C66_ex3 : exec (PScope (SMem 0) PSkip) (Glob 1 2 3) = Err.
Proof. reflexivity. Qed.

(** ** C80: SmallAllocator::reallocate and alignment *)
(** a block that lies in the array alone, and stays small, keeps its address; large blocks
    are the resource's; nothing else is promised *)
Theorem C80_reallocate_partial a num oldn newn got ptr :
  (oldn <= scap a -> newn <= scap a -> small_reallocate a num (sarr a) oldn newn got = Ok (SR num (sarr a) [])) /\
  (scap a < oldn -> scap a < newn ->
     small_reallocate a num ptr oldn newn got = Ok (SRealloc num got ptr (u64 (oldn * stsz a)) (u64 (newn * stsz a)))).
Proof.
  unfold small_reallocate. split; intros L1 L2.
  - replace (oldn <=? scap a) with true by lia. replace (newn <=? scap a) with true by lia. reflexivity.
  - replace (oldn <=? scap a) with false by lia. replace (newn <=? scap a) with false by lia. cbn [andb]. rewrite andb_false_r. reflexivity.
Qed.
Print Assumptions C80_reallocate_partial.

(** any other block of the array is "moved" to the start of the array, over whatever lives
    there *)
Theorem C80_moved_refuted a num ptr oldn newn got : oldn <= scap a -> newn <= scap a ->
  small_reallocate a num ptr oldn newn got = Ok (SR num (sarr a) []).
Proof.
  intros L1 L2. unfold small_reallocate.
  replace (oldn <=? scap a) with true by lia. replace (newn <=? scap a) with true by lia. reflexivity.
Qed.
Print Assumptions C80_moved_refuted.

(** two live blocks of 4 objects, the second grows to 5: it overlaps the first *)
Theorem C80_overlap_refuted :
  exists num live, small_run (Small 4096 16 4) (0, []) [SAlloc 4 0; SAlloc 4 0] = Ok (num, live, []) /\
    live = [(4112, 4); (4096, 4)] /\
    small_reallocate (Small 4096 16 4) num 4112 4 5 0 = Ok (SR num 4096 []) /\
    ~ disjoint_blocks 4 (4096, 5) (4096, 4).
Proof.
  eexists _, _. split; [reflexivity|]. split; [reflexivity|]. split; [reflexivity|].
  unfold disjoint_blocks. cbn. lia.
Qed.
Print Assumptions C80_overlap_refuted.

(** growing in the array is not counted, so the next block overlaps *)
Theorem C80_uncounted_refuted :
  exists num p e, small_reallocate (Small 4096 16 4) 2 4096 2 10 0 = Ok (SR num 4096 []) /\
    small_allocate (Small 4096 16 4) num 6 0 = (8, p, e) /\ ~ disjoint_blocks 4 (4096, 10) (p, 6).
Proof. eexists _, _, _. split; [reflexivity|]. split; [reflexivity|]. unfold disjoint_blocks. cbn. lia. Qed.
Print Assumptions C80_uncounted_refuted.

(** leaving the array adds the new count to the old one, so the matching deallocate leaves
    the count too high *)
Theorem C80_leak_refuted :
  exists num e num' e', small_reallocate (Small 4096 16 4) 2 4096 2 20 8192 = Ok (SR num 8192 e) /\
    small_deallocate (Small 4096 16 4) num 8192 20 = Ok (num', e') /\
    outstanding [] (e ++ e') = Some [] /\ num' = 2.
Proof. eexists _, _, _, _. repeat split; reflexivity. Qed.
Print Assumptions C80_leak_refuted.

(** the alignment asked for is not looked at in the array: with m_arr aligned to 16 and one
    object of 4 bytes taken, a block "aligned" to 16 starts at 4100 *)
Theorem C80_alignment_refuted :
  exists num e, small_allocate (Small 4096 16 4) 1 2 0 = (num, 4100, e) /\ ~ (16 | 4100).
Proof. eexists _, _. split; [reflexivity|]. intros [k E]. lia. Qed.
Print Assumptions C80_alignment_refuted.

Example C80_ex1 : small_reallocate (Small 4096 16 4) 30 9000 30 3 0 = Ok (SR 0 4096 [EFree 9000 120]).
Proof. reflexivity. Qed.
Example C80_ex2 : small_reallocate (Small 4096 16 4) 30 9000 30 40 9500 = Ok (SRealloc 30 9500 9000 120 160).
Proof. reflexivity. Qed.
