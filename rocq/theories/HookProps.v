(** Property theorems for the replaceable allocation functions (C129). *)
From Verif Require Import Base HookModel HookSpec HookProofs.

(** ** C129: replaceable allocation functions *)
(** a program that replaces the functions only while it holds no blocks, and then by functions that
    belong together, sees its blocks and nothing else: no undefined behaviour, contents kept, and
    as many blocks alive as it holds. The reallocating function may stay the library's. *)
Theorem C129_team_partial : forall dbg stop h answers os,
  proper_run dbg stop (State h (World [] answers) []) os ->
  run dbg stop (State h (World [] answers) []) os = Err \/
  exists s ls, run dbg stop (State h (World [] answers) []) os = Ok s /\ specs [] os ls /\
    held s ls /\ alive (wheap (sw s)) = length (sp s).
Proof.
  intros dbg stop h a os P. destruct (run_ok dbg stop os _ _ (start_inv h a) P) as [E|(s & ls & E & S & V)]; auto.
  right. exists s, ls. split; auto. split; auto. exact (inv_held s ls V).
Qed.
Print Assumptions C129_team_partial.
(** no error either while there is memory *)
Theorem C129_granted : forall dbg stop h answers os, Forall (eq Got) answers ->
  proper_run dbg stop (State h (World [] answers) []) os ->
  exists s, run dbg stop (State h (World [] answers) []) os = Ok s.
Proof.
  intros dbg stop h a os G P. destruct (run_got dbg stop os _ _ (start_inv h a) P G) as (s & E & _). eauto.
Qed.
Print Assumptions C129_granted.
(** a block goes back exactly to the function it came from *)
Theorem C129_free : forall dbg h w i b, nth_error (wheap w) i = Some (Some b) ->
  (afree dbg h w (Some i) = Ub <-> (exists f, hf h = Some f /\ f <> bfam b) \/ hf h = None /\ dbg = false) /\
  (forall w', afree dbg h w (Some i) = Ok w' <-> hf h = Some (bfam b) /\ w' = World (upd (wheap w) i None) (wans w)).
Proof. exact afree_iff. Qed.
Print Assumptions C129_free.
(** freeing the null pointer does nothing, whichever the function *)
Theorem C129_free_null : forall dbg h w f, hf h = Some f -> afree dbg h w None = Ok w.
Proof. intros dbg h w f H. unfold afree, call. rewrite H. destruct f; reflexivity. Qed.
Print Assumptions C129_free_null.
(** a program can store only into its blocks *)
Theorem C129_store : forall w i off c w', store w i off c = Ok w' ->
  exists b, nth_error (wheap w) i = Some (Some b) /\ 0 <= off < len (bdat b).
Proof.
  intros w i off c w' E. unfold store in E. destruct (nth_error (wheap w) i) as [[b|]|]; try discriminate E.
  destruct (_ && _) eqn:R in E; [|discriminate E]. exists b. split; [reflexivity|lia].
Qed.
Print Assumptions C129_store.
(** the library's arealloc moves a block from the functions that free to those that allocate, with
    its contents, although they be different ones *)
Theorem C129_moves : forall dbg stop h w i l f n al, hr h = Some Lib -> ha h = Some f -> pow2 al -> 0 <= n ->
  nth_error (wheap w) i = Some (Some (Blk (match hf h with Some g => g | None => Lib end) l)) -> hf h <> None ->
  Forall (eq Got) (wans w) ->
  exists a, arealloc dbg stop h w (Some i) (len l) n al =
    Ok (World (upd (wheap w) i None ++ [Some (Blk f (resized l n))]) a, Some (length (wheap w))).
Proof. exact arealloc_mixed. Qed.
Print Assumptions C129_moves.
(** functions that are not set: an assertion, or a call through a null pointer *)
Theorem C129_unset : forall dbg stop w p sz old al,
  aalloc dbg stop hooks_none w sz al = (if dbg then Err else Ub) /\
  afree dbg hooks_none w p = (if dbg then Err else Ub) /\
  arealloc dbg stop hooks_none w p old sz al = (if dbg then Err else Ub).
Proof. intros. repeat split. Qed.
Print Assumptions C129_unset.

(** false in general: each of the three functions replaced alone, or while a block is held *)
Theorem C129_mixed_refuted : forall dbg stop mr k sz n, 0 <= sz -> 0 < n ->
  let start := State hooks0 (World [] []) [] in
  run dbg stop start [OSetA (Some (Cli k)); OAlloc mr sz 16; OFree 0] = Ub /\
  run dbg stop start [OSetF (Some (Cli k)); OAlloc mr sz 16; OFree 0] = Ub /\
  run dbg stop start [OSetR (Some (Cli k)); OAlloc mr sz 16; ORealloc mr 0 n 16] = Ub /\
  run dbg stop start [OAlloc mr sz 16; OSetA (Some (Cli k)); OSetF (Some (Cli k)); OSetR (Some (Cli k)); OFree 0] = Ub /\
  run dbg stop start [OAlloc mr sz 16; OSetA (Some (Cli k)); ORealloc mr 0 n 16; OFree 0] = Ub.
Proof.
  intros dbg stop mr k sz n S N start. unfold start. repeat split.
  1-4: destruct mr; reflexivity.
  assert (P : pow2 16) by (exists 4; lia).
  set (h := set_aalloc hooks0 (Some (Cli k))).
  set (w := World [Some (Blk Lib (repeat None (Z.to_nat sz)))] []).
  assert (L : len (repeat (@None Z) (Z.to_nat sz)) = sz) by (unfold len; rewrite repeat_length; lia).
  destruct (arealloc_mixed dbg stop h w 0 (repeat None (Z.to_nat sz)) (Cli k) n 16) as (a & E);
    try reflexivity; auto; try lia; try discriminate; try constructor.
  rewrite L in E. cbn [run].
  replace (step dbg stop (State hooks0 (World [] []) []) (OAlloc mr sz 16)) with (Ok (State hooks0 w [(0%nat, sz)]))
    by (destruct mr; reflexivity).
  cbn [bind step sh sw sp]. fold h. unfold mr_reallocate, nonnull. cbn [nth_error].
  rewrite E. destruct mr; reflexivity.
Qed.
Print Assumptions C129_mixed_refuted.
(** the library's arealloc does not bear a function that returns null: it copies to the null
    pointer, where the caller's check (MemoryResource::reallocate) comes too late *)
Theorem C129_null_refuted : forall dbg stop h w p old n al k r, hr h = Some Lib -> ha h = Some (Cli k) ->
  wans w = NoMem :: r ->
  arealloc dbg stop h w p old n al = Ub /\ mr_reallocate dbg stop h w p old n al = Ub.
Proof.
  intros dbg stop h w p old n al k r R A W. unfold mr_reallocate.
  rewrite (arealloc_null dbg stop h w p old n al k r R A W). auto.
Qed.
Print Assumptions C129_null_refuted.

(** Examples *)
Example C129_ex1 : (* a client's functions, the library's reallocation: 3 bytes grow to 5, shrink to 2 *)
  run true true (State hooks0 (World [] []) [])
    [OSetA (Some (Cli 7)); OSetF (Some (Cli 7)); OAlloc true 3 8; OWrite 0 0 65; OWrite 0 2 67; OAlloc false 1 1;
     ORealloc true 0 5 8; OWrite 0 4 69; ORealloc false 0 4 8; OFree 1] =
  Ok (State (Hooks (Some (Cli 7)) (Some (Cli 7)) (Some Lib))
        (World [None; None; None; Some (Blk (Cli 7) [Some 65; None; Some 67; None])] []) [(3%nat, 4)]).
Proof. reflexivity. Qed.
Example C129_ex2 : proper_run true true (State hooks0 (World [] [Got; NoMem]) [])
    [OSetA (Some (Cli 7)); OSetF (Some (Cli 7)); OSetR (Some (Cli 7)); OAlloc false 3 8; ORealloc false 0 5 8; OWrite 0 2 1; OFree 0] /\
  run true true (State hooks0 (World [] [Got; NoMem]) [])
    [OSetA (Some (Cli 7)); OSetF (Some (Cli 7)); OSetR (Some (Cli 7)); OAlloc false 3 8; ORealloc false 0 5 8; OWrite 0 2 1; OFree 0] =
  Ok (State (Hooks (Some (Cli 7)) (Some (Cli 7)) (Some (Cli 7))) (World [None] []) []).
Proof.
  assert (P : pow2 8) by (exists 3; lia).
  split; [|reflexivity]. cbn. repeat split; auto; try lia.
  - exists (Cli 7). repeat split; auto.
  - exists (Cli 7). split; [repeat split; auto|]. left. split; [reflexivity|discriminate].
  - exists 3. split; [reflexivity|lia].
Qed.
Example C129_ex3 : (* out of memory: the library's functions report an error, a client's return null *)
  run true true (State hooks0 (World [] [NoMem]) []) [OAlloc false 3 8] = Err /\
  run true true (State (Hooks (Some (Cli 1)) (Some (Cli 1)) (Some (Cli 1))) (World [] [NoMem]) []) [OAlloc false 3 8] =
    Ok (State (Hooks (Some (Cli 1)) (Some (Cli 1)) (Some (Cli 1))) (World [] []) []) /\
  run true true (State (Hooks (Some (Cli 1)) (Some (Cli 1)) (Some (Cli 1))) (World [] [NoMem]) []) [OAlloc true 3 8] = Err.
Proof. repeat split. Qed.
