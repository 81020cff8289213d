(** Null views and pointers: what is done with the others. *)
From Verif Require Import Base BaseLemmas SubstrModel SubstrProofs SubstrProofs6 MemUtilModel FormatModel TightProofs2 NullModel NullSpec NullProofs NullProofs2.

Lemma slice_none (m : list Z) o : slice m o 0 = [].
Proof. reflexivity. Qed.
Lemma u64_small x : 0 <= x < 2 ^ 64 -> u64 x = x.
Proof. intros H. apply u64_id. lia. Qed.
Lemma nsub2_ok dbg m o n first num : len m < 2 ^ 63 -> valid m (PV (Some o) n) -> 0 <= first -> 0 <= num -> first + num <= n ->
  nsub2 dbg (PV (Some o) n) first num = Ok (PV (Some (o + first)) num).
Proof.
  unfold valid. cbn [pp pn]. intros L V F N S. unfold nsub2. cbn [pp pn padd bind]. replace (num =? npos) with false by (unfold npos; lia).
  rewrite u64_small by lia. rewrite !chk_true by lia. reflexivity.
Qed.
Lemma nsub2_npos dbg m o n first : len m < 2 ^ 63 -> valid m (PV (Some o) n) -> 0 <= first <= n ->
  nsub2 dbg (PV (Some o) n) first npos = Ok (PV (Some (o + first)) (n - first)).
Proof.
  unfold valid. cbn [pp pn]. intros L V F. unfold nsub2. cbn [pp pn padd bind]. rewrite Z.eqb_refl, orb_true_r.
  rewrite (u64_small (n - first)) by lia. rewrite u64_small by lia. rewrite !chk_true by lia. reflexivity.
Qed.
Lemma nsub2_out m o n first num : len m < 2 ^ 63 -> valid m (PV (Some o) n) -> 0 <= first -> 0 < num < npos -> n < first + num ->
  nsub2 true (PV (Some o) n) first num = Err.
Proof.
  unfold valid. cbn [pp pn]. intros L V F N S. unfold nsub2, chk. cbn [pp pn padd bind andb].
  destruct (Z.leb_spec first n); [|reflexivity]. cbn [negb]. replace (num =? npos) with false by lia. rewrite orb_false_r.
  destruct (Z.leb_spec num n); [|reflexivity]. cbn [negb]. rewrite u64_small by lia.
  replace ((first + num <=? n) || (num =? 0)) with false by lia. reflexivity.
Qed.
Lemma nparts dbg m o n p k : len m < 2 ^ 63 -> valid m (PV (Some o) n) -> o <= p -> 0 <= k -> p + k <= o + n ->
  nleft_of dbg (PV (Some o) n) (PV (Some p) k) = Ok (PV (Some o) (p - o)) /\
  nright_of dbg (PV (Some o) n) (PV (Some p) k) = Ok (PV (Some (p + k)) (o + n - p - k)).
Proof.
  intros L V A B C. assert (V' := V). unfold valid in V'. cbn [pp pn] in V'.
  assert (S : (if dbg then nis_super (PV (Some o) n) (PV (Some p) k) else Ok true) = Ok true).
  { destruct dbg; [|reflexivity]. unfold nis_super. cbn [pp pn padd bind nullp negb ple plt peq]. destruct (Z.ltb_spec 0 n); f_equal; unfold ple, plt; lia. }
  unfold nleft_of, nright_of. rewrite S. cbn [pp pn padd bind orb]. rewrite !chk_true by reflexivity. unfold ple, plt, pdiff. cbn [bind].
  replace (negb (p <? o) && negb (o + n <? p)) with true by lia. replace (negb (p + k <? o) && negb (o + n <? p + k)) with true by lia.
  rewrite !u64_small by lia. split.
  - rewrite (nsub2_ok dbg m) by (assumption || lia). rewrite Z.add_0_r. reflexivity.
  - rewrite (nsub2_ok dbg m) by (assumption || lia). replace (o + (p + k - o)) with (p + k) by lia. replace (o + n - (p + k)) with (o + n - p - k) by lia. reflexivity.
Qed.
Lemma nmem_zero_ok m d w n : 0 <= d -> 0 <= n -> 0 <= w -> d + n * w <= len m -> len m < 2 ^ 63 ->
  nmem_zero m (Some d) w n = Ok (blit m d (repeat 0 (Z.to_nat (n * w)))).
Proof.
  intros A B C E L. unfold nmem_zero, mset. rewrite u64_small by nia. apply wrs_ok; [lia|]. unfold len. rewrite repeat_length. unfold len in E. lia.
Qed.
Lemma nmem_repeat0_none m d p : nmem_repeat0 m d p 0 = Ok m.
Proof. reflexivity. Qed.
Lemma nmem_repeat0_ok m d p num : 0 <= d <= len m -> 0 <= p <= len m -> nmem_repeat0 m (Some d) (Some p) num = Ok m.
Proof.
  intros A B. unfold nmem_repeat0. destruct (num =? 0); [reflexivity|]. unfold mcpy. rewrite memcpy_ok by lia. f_equal. rewrite slice_none. apply blit_nil. lia.
Qed.
Lemma ncopy_n_ok dbg m d s w n : 0 <= d -> 0 <= s -> 0 < n -> 0 < w -> d + n * w <= len m -> s + n * w <= len m -> len m < 2 ^ 63 -> d + n * w <= s \/ s + n * w <= d ->
  ncopy_n dbg m (Some d) (Some s) w n = Ok (blit m d (slice m s (n * w))).
Proof.
  intros A B C E F G L H. unfold ncopy_n. assert (0 < n * w) by nia. rewrite chk_true by (cbn [peq]; lia). rewrite u64_small by lia. unfold mcpy. apply memcpy_ok; lia.
Qed.
Lemma mmove_ok m d s n : 0 <= d -> 0 <= s -> 0 <= n -> d + n <= len m -> s + n <= len m -> mmove m (Some d) (Some s) n = Ok (blit m d (slice m s n)).
Proof.
  intros A B C E F. unfold mmove. rewrite rds_region by lia. cbn [bind]. apply wrs_ok; [lia|]. rewrite len_slice by lia. lia.
Qed.
Lemma nmake_room_ok m b w n room : 0 <= b -> 0 <= n -> 0 < room -> 0 < w -> b + (n + room) * w <= len m -> len m < 2 ^ 63 ->
  nmake_room m (Some b) w n room = Ok (blit m (b + room * w) (slice m b (n * w))).
Proof.
  intros A B C E F L. unfold nmake_room. cbn [padd bind]. assert (0 <= n * w) by nia. assert (0 < room * w) by nia. assert ((n + room) * w = n * w + room * w) by ring.
  rewrite u64_small by lia. destruct (Z.leb_spec n room).
  - assert (n * w <= room * w) by nia. unfold mcpy. apply memcpy_ok; lia.
  - apply mmove_ok; lia.
Qed.
Lemma ndestroy_room_ok dbg m b w n room : 0 <= b -> 0 <= room <= n -> 0 < w -> b + n * w <= len m -> len m < 2 ^ 63 ->
  ndestroy_room dbg m (Some b) w n room = Ok (blit m b (slice m (b + room * w) ((n - room) * w))).
Proof.
  intros A B C E L. unfold ndestroy_room. rewrite chk_true by lia. assert ((n - room) * w = n * w - room * w) by ring. assert (0 <= room * w) by nia. assert (0 <= (n - room) * w) by nia.
  destruct (Z.ltb_spec room n).
  - cbn [padd bind]. rewrite u64_small by lia. apply mmove_ok; lia.
  - replace ((n - room) * w) with 0 by nia. rewrite slice_none. rewrite blit_nil by lia. reflexivity.
Qed.
Lemma narealloc_ok m p t old new : 0 <= p -> 0 <= t -> 0 < old -> 0 < new -> p + old <= len m -> t + new <= len m ->
  narealloc m (Some p) (Some t) old new = Ok (blit m t (slice m p (Z.min old new))).
Proof.
  intros A B C E F G. unfold narealloc. cbn [padd bind plt]. replace (if new <? old then new else old) with (Z.min old new) by (destruct (Z.ltb_spec new old); lia).
  destruct ((p <? t + new) && (t <? p + old)) eqn:O.
  - apply mmove_ok; lia.
  - unfold mcpy. apply memcpy_ok; lia.
Qed.
