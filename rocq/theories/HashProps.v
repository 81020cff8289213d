(** C69, C70: hashing and size conversion. *)
From Verif Require Import Base SubstrModel MemUtilModel HashModel HashSpec HashProofs.

(** ** C69: FNV-1a *)
Theorem C69_hash_bytes : forall m a n, 0 <= a -> 0 <= n -> a + n <= len m ->
  hash_bytes m a n = Ok (fnv1a 64 14695981039346656037 1099511628211 (slice m a n)).
Proof. exact hash_bytes_ok. Qed.
Theorem C69_hash32 : forall m a n, 0 <= a -> 0 <= n -> a + n <= len m ->
  hash32 m a n = Ok (fnv1a 32 2166136261 16777619 (slice m a n)).
Proof. exact hash32_ok. Qed.
(** updates in pieces, of any result type and prime *)
Theorem C69_incremental : forall rt p m a n1 n2 acc, 0 <= n1 -> 0 <= n2 ->
  fnv_update rt p acc m a (n1 + n2) = do s <- fnv_update rt p acc m a n1 ;; fnv_update rt p s m (a + n1) n2.
Proof. exact fnv_split. Qed.
Theorem C69_one_byte : forall s t b b', bytes s -> bytes t -> 0 <= b < 256 -> 0 <= b' < 256 ->
  hash_array (s ++ b :: t) = hash_array (s ++ b' :: t) -> b = b'.
Proof.
  intros s t b b' S T B B' E. rewrite !hash_array_ok in E. inversion E.
  assert (0 <= basis64 < 2 ^ 64) as R by (split; vm_compute; congruence).
  apply (fnv_one_byte 64 prime64 14886173955864302971) with s t basis64; auto. lia.
Qed.
Theorem C69_one_byte_32 : forall s t b b', bytes s -> bytes t -> 0 <= b < 256 -> 0 <= b' < 256 ->
  hash32 (s ++ b :: t) 0 (len (s ++ b :: t)) = hash32 (s ++ b' :: t) 0 (len (s ++ b' :: t)) -> b = b'.
Proof.
  intros s t b b' S T B B' E. rewrite !hash32_ok in E by (unfold len; lia). rewrite !slice_full in E. inversion E.
  assert (0 <= basis32 < 2 ^ 32) as R by (split; vm_compute; congruence).
  apply (fnv_one_byte 32 prime32 899433627) with s t basis32; auto. lia.
Qed.
(** A common ending neither makes nor removes a collision. *)
Theorem C69_suffix : forall s s' t, bytes t ->
  hash_array (s ++ t) = hash_array (s' ++ t) <-> hash_array s = hash_array s'.
Proof.
  intros s s' t T. rewrite !hash_array_ok.
  pose proof (fnv_same_suffix 64 prime64 14886173955864302971) as H.
  assert (0 <= basis64 < 2 ^ 64) as R by (split; vm_compute; congruence).
  specialize (H ltac:(lia) eq_refl s s' t basis64 R T). split; intros E; inversion E as [E']; f_equal; apply H; exact E'.
Qed.
(** An array is hashed whole, so a literal is hashed with its terminator. *)
Theorem C69_literal : forall s, hash_array (s ++ [0]) = hash_bytes (s ++ [0]) 0 (len s + 1).
Proof. intros s. unfold hash_array, hash_bytes. f_equal. unfold len. rewrite app_length. cbn [length]. lia. Qed.
Theorem C69_literal_refuted : exists s, hash_array (s ++ [0]) <> hash_bytes (s ++ [0]) 0 (len s).
Proof. exists (s2z "a"). vm_compute. discriminate. Qed.
Print Assumptions C69_hash_bytes.
Print Assumptions C69_hash32.
Print Assumptions C69_incremental.
Print Assumptions C69_one_byte.
Print Assumptions C69_one_byte_32.
Print Assumptions C69_suffix.
Print Assumptions C69_literal.
Print Assumptions C69_literal_refuted.
(** published test vectors *)
Example C69_ex1 : hash_bytes [] 0 0 = Ok 0xcbf29ce484222325.
Proof. reflexivity. Qed.
Example C69_ex2 : hash_bytes (s2z "xfoobar") 1 6 = Ok 0x85944171f73967e8.
Proof. reflexivity. Qed.
Example C69_ex3 : hash32 (s2z "foobar") 0 6 = Ok 0xbf9cf968.
Proof. reflexivity. Qed.
Example C69_ex4 : hash_bytes (s2z "ab") 1 2 = Ub.
Proof. reflexivity. Qed.

(** ** C70: szconv *)
Theorem C70_partial : forall out inp v w, in_range inp v -> 0 <= v \/ isgn out = true ->
  szconv true out inp v = Ok w -> w = v.
Proof. exact szconv_exact. Qed.
(** Conversions to a type with a smaller maximum accept exactly the values from 0 to that
    maximum. *)
Theorem C70_narrow : forall out inp v, imax out < imax inp -> in_range inp v ->
  szconv true out inp v = if (0 <=? v) && (v <=? imax out) then Ok v else Err.
Proof. intros out inp v L. apply szconv_narrow. apply narrower_iff. exact L. Qed.
(** The others accept everything, with or without assertions. *)
Theorem C70_wide : forall out inp v dbg, imax inp <= imax out -> in_range inp v ->
  szconv dbg out inp v = Ok (if (v <? 0) && negb (isgn out) then v + 2 ^ bits (iw out) else v).
Proof.
  intros out inp v dbg L. apply szconv_wide. apply not_true_is_false. intros N. apply narrower_iff in N. lia.
Qed.
(** In particular a conversion to the same type changes nothing. *)
Theorem C70_same : forall t v dbg, in_range t v -> szconv dbg t t v = Ok v.
Proof. exact szconv_same. Qed.
(** So for every signed type and every unsigned one at least as wide, each negative value is
    accepted and changed. *)
Theorem C70_negative_refuted : forall out inp v, isgn inp = true -> isgn out = false -> bits (iw inp) <= bits (iw out) ->
  in_range inp v -> v < 0 -> exists w, szconv true out inp v = Ok w /\ w <> v.
Proof.
  intros out inp v I O B R N. rewrite szconv_wide; auto.
  - eexists. split; [reflexivity|]. replace ((v <? 0) && negb (isgn out)) with true by (rewrite O; lia).
    pose proof (Z.pow_pos_nonneg 2 (bits (iw out))). destruct (iw out); cbn in *; lia.
  - destruct out as [[| | |] []], inp as [[| | |] []]; try discriminate; try reflexivity; cbn in B; lia.
Qed.
(** Without assertions nothing is checked. *)
Theorem C70_release_refuted : exists out inp v w, in_range inp v /\ szconv false out inp v = Ok w /\ w <> v.
Proof. exists u8t, u64t, 256, 0. split; [split; vm_compute; discriminate|]. split; [reflexivity|lia]. Qed.
Print Assumptions C70_partial.
Print Assumptions C70_narrow.
Print Assumptions C70_wide.
Print Assumptions C70_same.
Print Assumptions C70_negative_refuted.
Print Assumptions C70_release_refuted.
Example C70_ex1 : szconv true u8t i64 255 = Ok 255 /\ szconv true u8t i64 256 = Err /\ szconv true u8t i64 (-1) = Err.
Proof. repeat split; reflexivity. Qed.
Example C70_ex2 : szconv true i64 u64t (2 ^ 63) = Err /\ szconv true u64t i64 (-1) = Ok (2 ^ 64 - 1).
Proof. repeat split; reflexivity. Qed.
(** a representable negative value is refused when narrowing *)
Example C70_ex3 : szconv true i32 i64 (-5) = Err /\ szconv true i64 i32 (-5) = Ok (-5).
Proof. split; reflexivity. Qed.
