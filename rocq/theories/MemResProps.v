(** Properties of the memory resources: C59-C62 and C79. *)
From Verif Require Import Base SubstrModel FormatModel MemUtilModel MemResModel MemResSpec MemResProofs MemResProofs2.

(** ** C59: the linear resource hands out disjoint, aligned, in-range blocks *)
(** any history of legal requests on a fresh arena: it never fails otherwise than by the
    resource throwing, and the live blocks are inside, aligned and disjoint *)
Theorem C59_history_partial base size os :
  arena base size -> legal true (Lin base size 0, []) os ->
  exists s live, lin_run true (Lin base size 0, []) os = Ok (s, live) /\ blocks_ok base size live.
Proof. exact (history base size os). Qed.
Print Assumptions C59_history_partial.

(** one request: the lowest address that fits, or an error if none does *)
Theorem C59_allocate s sz al :
  lin_ok s -> 0 < sz < 2 ^ 64 -> 0 < al < 2 ^ 64 -> (al | 2 ^ 64) ->
  (exists q, fits (lmem s + lpos s) (lmem s + lsize s) sz al q /\
     (forall r, fits (lmem s + lpos s) (lmem s + lsize s) sz al r -> q <= r) /\
     lin_allocate true s sz al = Ok (set_pos s (q + sz - lmem s), q)) \/
  ((forall q, ~ fits (lmem s + lpos s) (lmem s + lsize s) sz al q) /\ lin_allocate true s sz al = Err).
Proof. exact (alloc_exact s sz al). Qed.
Print Assumptions C59_allocate.

Theorem C59_allocate_zero s al : lin_allocate true s 0 al = Err.
Proof. exact (alloc_zero s al). Qed.
Print Assumptions C59_allocate_zero.

(** if errors do not stop the call, a request that does not fit is answered with a block
    running over the end *)
Theorem C59_continue_refuted :
  exists s sz al p, lin_allocate false (Lin 4096 64 0) sz al = Ok (s, p) /\
    0 < sz < 2 ^ 64 /\ 0 < al < 2 ^ 64 /\ 4096 + 64 < p + sz.
Proof. exists (Lin 4096 64 0), 100, 8, 4096. repeat split; reflexivity. Qed.
Print Assumptions C59_continue_refuted.

(** a reallocation in place does not look at the alignment *)
Theorem C59_realign_refuted :
  exists os s b, lin_run true (Lin 4104 64 0, []) os = Ok (s, [b]) /\ ~ aligned b /\
    os = [LAlloc 8 8; LRealloc 0 16 16].
Proof.
  exists [LAlloc 8 8; LRealloc 0 16 16], (Lin 4104 64 16), (Blk 4104 16 16).
  split; [reflexivity|]. split; [|reflexivity].
  intros [k E]. cbn in E. lia.
Qed.
Print Assumptions C59_realign_refuted.

(** a huge size wraps around the address space and is accepted *)
Theorem C59_huge_refuted :
  exists os s b, lin_run true (Lin 4096 64 0, []) os = Ok (s, [b]) /\ ~ inside 4096 64 b /\
    os = [LAlloc 8 8; LRealloc 0 (2 ^ 64 - 1) 8].
Proof.
  exists [LAlloc 8 8; LRealloc 0 (2 ^ 64 - 1) 8], (Lin 4096 64 (2 ^ 64 - 1)), (Blk 4096 (2 ^ 64 - 1) 8).
  split; [reflexivity|]. split; [|reflexivity].
  intros [_ [_ I]]. cbn in I. lia.
Qed.
Print Assumptions C59_huge_refuted.

Example C59_ex1 :
  lin_run true (Lin 4100 64 0, []) [LAlloc 3 1; LAlloc 8 8; LAlloc 5 4; LRealloc 2 9 4; LFree 0; LRealloc 0 20 8; LAlloc 100 1]
  = Ok (Lin 4100 64 48, [Blk 4128 20 8; Blk 4112 9 4]).
Proof. reflexivity. Qed.
Example C59_ex2 : lin_allocate true (Lin 4097 64 0) 61 4 = Ok (Lin 4097 64 64, 4100).
Proof. reflexivity. Qed.
Example C59_ex3 : lin_allocate true (Lin 4097 64 0) 62 4 = Err.
Proof. reflexivity. Qed.
(** the hypotheses hold of a history with every operation *)
Example C59_ex4 : legal true (Lin 4100 64 0, []) [LAlloc 3 1; LAlloc 8 8; LRealloc 0 5 1; LFree 1].
Proof.
  cbn [legal snd]. split; [cbn; lia|]. intros st E. injection E as <-. cbn [legal snd].
  split; [cbn; lia|]. intros st E. injection E as <-. cbn [legal snd].
  split. { split; [lia|]. split; [lia|]. intros b X. injection X as <-. split; [exists 1; reflexivity|cbn; lia]. }
  intros st E. injection E as <-. cbn. auto.
Qed.

(** ** C60: reallocation preserves contents *)
(** exactly the reallocations that stay in place preserve the bytes *)
Theorem C60_preserved_iff_partial s ptr oldsz newsz al s' p :
  lin_reallocate true s ptr oldsz newsz al = Ok (s', p) -> 0 < Z.min oldsz newsz ->
  (forall m, exists m', lin_reallocate_mem true m s ptr oldsz newsz al = Ok (m', s', p) /\
     forall k, 0 <= k < Z.min oldsz newsz -> m' (p + k) = m (ptr + k)) <-> p = ptr.
Proof. exact (realloc_preserved_iff s ptr oldsz newsz al s' p). Qed.
Print Assumptions C60_preserved_iff_partial.

(** shrinking, and growing the last block within the arena, stay in place *)
Theorem C60_in_place_partial s ptr oldsz newsz al :
  0 < lmem s -> lmem s + lsize s < 2 ^ 64 -> 0 <= lpos s <= lsize s ->
  0 < ptr -> 0 <= oldsz -> 0 <= newsz -> ptr + oldsz < 2 ^ 64 -> ptr + newsz < 2 ^ 64 ->
  newsz <= oldsz \/ (ptr + oldsz = lmem s + lpos s /\ ptr + newsz <= lmem s + lsize s) ->
  exists s', lin_reallocate true s ptr oldsz newsz al = Ok (s', ptr).
Proof. exact (realloc_in_place s ptr oldsz newsz al). Qed.
Print Assumptions C60_in_place_partial.

(** every other successful reallocation moves beyond the old block *)
Theorem C60_moved s ptr oldsz newsz al s' p :
  lin_ok s -> 0 < al < 2 ^ 64 ->
  0 < ptr -> 0 <= oldsz -> oldsz < newsz -> ptr + newsz < 2 ^ 64 -> newsz < 2 ^ 64 ->
  ptr + oldsz <= lmem s + lpos s ->
  ptr + oldsz <> lmem s + lpos s \/ lmem s + lsize s < ptr + newsz ->
  lin_reallocate true s ptr oldsz newsz al = Ok (s', p) -> ptr + oldsz <= p.
Proof. exact (realloc_moved s ptr oldsz newsz al s' p). Qed.
Print Assumptions C60_moved.

(** and then the bytes are not copied: two blocks, the first grows *)
Theorem C60_refuted :
  exists s live, lin_run true (Lin 4096 64 0, []) [LAlloc 4 1; LAlloc 4 1] = Ok (s, live) /\
  exists m m' s' p, lin_reallocate_mem true m s 4096 4 8 1 = Ok (m', s', p) /\ m' p <> m 4096.
Proof.
  eexists _, _. split; [reflexivity|].
  exists (fun a => if a =? 4096 then 65 else 0). eexists _, _, 4104. split; [reflexivity|]. cbn. lia.
Qed.
Print Assumptions C60_refuted.

Example C60_ex1 : lin_reallocate true (Lin 4096 64 8) 4100 4 10 1 = Ok (Lin 4096 64 14, 4100).
Proof. reflexivity. Qed.
Example C60_ex2 : lin_reallocate true (Lin 4096 64 8) 4096 4 10 1 = Ok (Lin 4096 64 18, 4104).
Proof. reflexivity. Qed.

(** ** C61: the arena is released exactly once *)
(** owned memory, no acquire or release in between: given back at destruction *)
Theorem C61_owned_partial stop sz a os ev : a <> 0 -> Forall only_use os ->
  life stop (fst (ctor_owned sz a)) (snd (ctor_owned sz a)) os = Ok ev -> ev = [EAlloc a sz; EFree a sz].
Proof. exact (life_owned stop sz a os ev). Qed.
Print Assumptions C61_owned_partial.

(** borrowed memory, without acquire(size): upstream is never asked *)
Theorem C61_borrowed_partial stop mem sz os ev : Forall no_acquire os ->
  life stop (ctor_borrowed mem sz) [] os = Ok ev -> ev = [].
Proof. exact (life_borrowed stop mem sz os ev). Qed.
Print Assumptions C61_borrowed_partial.

(** whatever happens, nothing is given back twice *)
Theorem C61_once stop c os ev : life stop c [] os = Ok ev -> len (filter is_free ev) <= 1.
Proof. exact (life_once stop c os ev). Qed.
Print Assumptions C61_once.

(** release() of a complete object does not return the memory: it is lost *)
Theorem C61_release_refuted stop sz a :
  life stop (fst (ctor_owned sz a)) (snd (ctor_owned sz a)) [CRelease] = Ok [EAlloc a sz].
Proof. exact (life_release stop sz a). Qed.
Print Assumptions C61_release_refuted.

(** acquire(size) after release() does not go upstream: it always fails *)
Theorem C61_acquire_refuted c sz : 0 <= sz < 2 ^ 64 -> acquire true (fst (release c)) sz = Err.
Proof. exact (acquire_after_release c sz). Qed.
Print Assumptions C61_acquire_refuted.

(** acquire(size) on borrowed memory takes it from the borrowed memory itself, which is
    then given to upstream *)
Theorem C61_steal_refuted base size sz os ev :
  arena base size -> (16 | base) -> 0 < sz <= size -> Forall only_use os ->
  life true (ctor_borrowed base size) [] (CAcquire sz :: os) = Ok ev -> ev = [EFree base sz].
Proof. exact (acquire_borrowed base size sz os ev). Qed.
Print Assumptions C61_steal_refuted.

(** without a chunk, whatever m_owner happens to be: no event *)
Theorem C61_empty stop junk os ev : Forall only_use os -> life stop (ctor_empty junk) [] os = Ok ev -> ev = [].
Proof.
  intros F. unfold life. destruct (crun _ _ os) as [[[c l] e]| |] eqn:E; cbn [bind]; try discriminate.
  intro X. injection X as <-. assert (E2 := E). apply crun_events in E. subst e.
  apply crun_only_use in E2; auto. destruct E2 as [[E1 E2] E3]. cbn in *. unfold dtor. rewrite E1. reflexivity.
Qed.
Print Assumptions C61_empty.

Example C61_ex1 :
  life true (fst (ctor_owned 64 4096)) (snd (ctor_owned 64 4096)) [CUse (LAlloc 8 8); CUse (LFree 0); CUse (LAlloc 200 1)]
  = Ok [EAlloc 4096 64; EFree 4096 64].
Proof. reflexivity. Qed.
Example C61_ex2 : life true (ctor_borrowed 4096 64) [] [CUse (LAlloc 8 8); CAcquireMem 8192 32; CUse (LAlloc 8 8); CRelease] = Ok [].
Proof. reflexivity. Qed.
Example C61_ex3 : life true (ctor_borrowed 4096 64) [] [CUse (LAlloc 8 8); CAcquire 32; CUse (LAlloc 8 8)] = Ok [EFree 4096 32].
Proof. reflexivity. Qed.

(** ** C62: the counters are exact *)
Theorem C62_counts_partial os : Forall count_op os ->
  number (ever [] os) < 2 ^ 63 -> bytes (ever [] os) < 2 ^ 63 ->
  exists c, mrun (zero_counts, []) os = Ok (c, final [] os) /\
    ia (ccurr c) = number (final [] os) /\ isz (ccurr c) = bytes (final [] os) /\
    ia (ctotal c) = number (ever [] os) /\ isz (ctotal c) = bytes (ever [] os) /\
    maximum (map number (states [] os)) (ia (cmax c)) /\ maximum (map bytes (states [] os)) (isz (cmax c)).
Proof. exact (counts_exact os). Qed.
Print Assumptions C62_counts_partial.

(** a reallocation that throws has already been subtracted *)
Theorem C62_throw_refuted :
  exists os c, mrun (zero_counts, []) os = Ok (c, final [] os) /\
    number (final [] os) = 1 /\ bytes (final [] os) = 10 /\ ccurr c = Item 0 0 /\
    os = [MAlloc 10 (Some 4096); MRealloc 0 20 None].
Proof. eexists _, _. repeat split; reflexivity. Qed.
Print Assumptions C62_throw_refuted.

Example C62_ex1 :
  mrun (zero_counts, []) [MAlloc 10 (Some 4096); MAlloc 20 (Some 8192); MFree 0; MRealloc 0 5 (Some 8192); MAlloc 7 None; MAlloc 3 (Some 100)]
  = Ok (Counts (Item 2 8) (Item 4 38) (Item 2 30), [(8192, 5); (100, 3)]).
Proof. reflexivity. Qed.
Example C62_ex2 : maximum (map bytes (states [] [MAlloc 10 (Some 4096); MAlloc 20 (Some 8192); MFree 0])) 30.
Proof. split; cbn; [tauto|]. intros x [<-|[<-|[<-|[<-|[]]]]]; lia. Qed.

(** ** C79: the malloc-based resource *)
(** the alignment passed on is one posix_memalign accepts, and at least the requested one *)
Theorem C79_alignment k : 0 <= k < 64 ->
  exists j, k <= j /\ 3 <= j < 64 /\ aalloc_alignment (2 ^ k) = 2 ^ j.
Proof. exact (aalloc_alignment_ok k). Qed.
Print Assumptions C79_alignment.

Theorem C79_aalloc stop got sz k : 0 <= k < 64 ->
  aalloc stop got sz (2 ^ k) =
  match got with
  | Some p => if p mod aalloc_alignment (2 ^ k) =? 0 then Ok p else Err
  | None => if stop then Err else Ok 0
  end.
Proof. exact (aalloc_ok stop got sz k). Qed.
Print Assumptions C79_aalloc.

(** other alignments are errors *)
Theorem C79_bad_alignment got sz a : 0 <= a < 2 ^ 64 -> ~ (exists k, 0 <= k /\ a = 2 ^ k) -> aalloc true got sz a = Err.
Proof. exact (aalloc_bad got sz a). Qed.
Print Assumptions C79_bad_alignment.

(** reallocation copies the common part and writes nothing else, overlapping or not *)
Theorem C79_arealloc stop tmp m ptr oldsz newsz k :
  0 <= k < 64 -> 0 < tmp -> tmp mod aalloc_alignment (2 ^ k) = 0 ->
  0 <= oldsz -> 0 <= newsz -> 0 < ptr -> ptr + oldsz <= len m -> tmp + newsz <= len m ->
  exists m', arealloc stop (Some tmp) m ptr oldsz newsz (2 ^ k) = Ok (m', tmp) /\ len m' = len m /\
    slice m' tmp (Z.min oldsz newsz) = slice m ptr (Z.min oldsz newsz) /\
    forall a, 0 <= a < len m -> ~ tmp <= a < tmp + Z.min oldsz newsz -> nth (Z.to_nat a) m' 0 = nth (Z.to_nat a) m 0.
Proof. exact (arealloc_ok stop tmp m ptr oldsz newsz k). Qed.
Print Assumptions C79_arealloc.

(** out of memory: an error; if errors do not stop the call, nullptr is written through *)
Theorem C79_out_of_memory m ptr oldsz newsz k : 0 <= k < 64 -> 0 < Z.min oldsz newsz ->
  arealloc true None m ptr oldsz newsz (2 ^ k) = Err /\ arealloc false None m ptr oldsz newsz (2 ^ k) = Ub.
Proof.
  intros K N. unfold arealloc. rewrite !aalloc_ok by auto. cbn [bind Z.eqb andb]. split; [reflexivity|].
  destruct (newsz <? oldsz) eqn:E.
  - replace (0 <? newsz) with true by lia. reflexivity.
  - replace (0 <? oldsz) with true by lia. reflexivity.
Qed.
Print Assumptions C79_out_of_memory.

Example C79_ex1 :
  arealloc true (Some 8) (s2z "xabcdefghijklmnopqrst") 1 4 6 1 = Ok (s2z "xabcdefgabcdlmnopqrst", 8).
Proof. reflexivity. Qed.
Example C79_ex2 :
  arealloc true (Some 8) (s2z "xabcdefghijklmnopqrst") 6 5 7 4 = Ok (s2z "xabcdefgfghijmnopqrst", 8).
Proof. reflexivity. Qed.
Example C79_ex3 : aalloc true (Some 100) 10 24 = Err.
Proof. reflexivity. Qed.
