(** Property theorems for null views and null pointers (C127). *)
From Verif Require Import Base SubstrModel SubstrSpec MemUtilModel FormatModel NullModel NullSpec NullProofs NullProofs2 NullProofs3.

(** ** C127: null views *)
(** reading: a null view is empty *)
Theorem C127_access : forall m v, valid m v ->
  (nempty v = true <-> text m v = []) /\
  (exists b, nhas_str m v = Ok b /\ (b = true <-> exists c r, text m v = c :: r /\ c <> 0)) /\
  (forall dbg i, 0 <= i < pn v -> nat_ dbg m v i = Ok (nth (Z.to_nat i) (text m v) 0)) /\
  (forall i, pn v <= i -> nat_ true m v i = Err) /\
  (forall dbg, 0 < pn v -> nfront dbg m v = Ok (nth 0 (text m v) 0) /\ nback dbg m v = Ok (last (text m v) 0)) /\
  (pn v = 0 -> nfront true m v = Err /\ nback true m v = Err).
Proof.
  intros m v V. split; [exact (nempty_text m v V)|]. split; [exact (nhas_str_ok m v V)|].
  split; [exact (fun dbg i => nat_ok dbg m v i V)|]. split; [exact (nat_out m v)|].
  split; [exact (fun dbg H => conj (nfront_ok dbg m v V H) (nback_ok dbg m v V H))|exact (nend_empty m v)].
Qed.
Print Assumptions C127_access.
(** comparing: the order of the texts, whether a view is null or not *)
Theorem C127_compare : forall dbg m v w, bytes m -> valid m v -> valid m w ->
  exists c, ncompare dbg m v w = Ok c /\ (c < 0 <-> lex schar_lt (text m v) (text m w)) /\
    (c = 0 <-> text m v = text m w) /\ (c > 0 <-> lex schar_lt (text m w) (text m v)).
Proof. exact ncompare_ok. Qed.
Print Assumptions C127_compare.
Theorem C127_compare_char : forall dbg m v c, bytes m -> is_byte c -> len m < 2 ^ 31 -> valid m v ->
  exists z, ncompare_c dbg m v c = Ok z /\ (z < 0 <-> lex schar_lt (text m v) [c]) /\
    (z = 0 <-> text m v = [c]) /\ (z > 0 <-> lex schar_lt [c] (text m v)).
Proof. exact ncompare_c_ok. Qed.
Print Assumptions C127_compare_char.
(** writing to, and from, null views *)
Theorem C127_copy_from : forall dbg m v that ifirst num k, len m < 2 ^ 63 -> valid m v -> valid m that -> apart v that ->
  0 <= ifirst <= pn v -> 0 <= num -> k = Z.min (if num =? npos then pn v - ifirst else num) (pn that) -> ifirst + k <= pn v ->
  ncopy_from dbg m v that ifirst num = Ok (put m v ifirst (firstn (Z.to_nat k) (text m that))).
Proof. exact ncopy_from_ok. Qed.
Print Assumptions C127_copy_from.
Theorem C127_fill_reverse : forall m v c, valid m v ->
  nfill m v c = Ok (put m v 0 (repeat c (Z.to_nat (pn v)))) /\ nreverse m v = Ok (put m v 0 (rev (text m v))).
Proof. exact (fun m v c V => conj (nfill_ok m v c V) (nreverse_ok m v V)). Qed.
Print Assumptions C127_fill_reverse.
Theorem C127_to_chars : forall dbg m buf v, valid m buf -> valid m v -> apart buf v ->
  nto_chars dbg m buf v = Ok (put m buf 0 (firstn (Z.to_nat (pn buf)) (text m v)), pn v).
Proof. exact nto_chars_ok. Qed.
Print Assumptions C127_to_chars.
Theorem C127_from_chars : forall dbg m buf v, valid m buf -> valid m v -> apart buf v ->
  nfrom_chars dbg m buf v =
    Ok (if pn buf <=? pn v then (true, put m v 0 (text m buf), PV (pp v) (pn buf)) else (false, m, v)).
Proof. exact nfrom_chars_ok. Qed.
Print Assumptions C127_from_chars.
Theorem C127_cat : forall dbg args m buf, len m < 2 ^ 63 -> valid m buf -> Forall (fun a => valid m a /\ apart buf a) args ->
  len (concat (map (text m) args)) < 2 ^ 64 ->
  ncat dbg m buf args =
    Ok (put m buf 0 (firstn (Z.to_nat (pn buf)) (concat (map (text m) args))), len (concat (map (text m) args))).
Proof. exact ncat_ok. Qed.
Print Assumptions C127_cat.
(** numbers padded with zeros, and raw data, written to a null buffer: the size needed; raw data
    read from a null buffer: an error *)
Theorem C127_null_buffer : forall dbg m ret num addr r al, 0 <= ret -> 0 < al < 2 ^ 64 ->
  nwrite_num_digits dbg m pnull ret num = Ok (m, Z.max ret num) /\
  nto_chars_raw addr m pnull r al = Ok (m, u64 (al + pn r)) /\ nfrom_chars_raw addr m pnull r al = Err.
Proof.
  intros dbg m ret num addr r al H H'.
  exact (conj (nwrite_num_digits_null dbg m ret num H) (conj (nto_chars_raw_null addr m r al H') (nfrom_chars_raw_null addr m r al H'))).
Qed.
Print Assumptions C127_null_buffer.
(** the parts to the left and right of a null view, or of a null view's: empty *)
Theorem C127_parts : forall dbg m v w, valid m v -> valid m w -> pn w = 0 -> pp v = None \/ pp w = None ->
  nleft_of dbg v w = Ok (PV (pp v) 0) /\ nright_of dbg v w = Ok (PV (pp v) 0).
Proof. exact parts_null. Qed.
Print Assumptions C127_parts.
Example C127_ex1 : let m := s2z "abXcd" in
  ncompare true m pnull (PV (Some 2) 0) = Ok 0 /\ ncompare true m pnull (PV (Some 2) 1) = Ok (-1) /\ ncompare true m (PV (Some 0) 2) (PV (Some 3) 2) = Ok (-1) /\
  ncat true m (PV (Some 0) 3) [pnull; PV (Some 4) 1; pnull; PV (Some 3) 2] = Ok (s2z "dcdcd", 3) /\
  ncat true m pnull [PV (Some 4) 1; pnull; PV (Some 3) 2] = Ok (m, 3).
Proof. repeat split. Qed.
Example C127_ex2 : let m := s2z "abXcd" in
  nto_chars true m pnull (PV (Some 0) 2) = Ok (m, 2) /\ nto_chars true m (PV (Some 0) 2) pnull = Ok (m, 0) /\
  nfrom_chars true m pnull (PV (Some 0) 2) = Ok (true, m, PV (Some 0) 0) /\ ncopy_from true m (PV (Some 3) 2) (PV (Some 0) 2) 1 npos = Ok (s2z "abXca").
Proof. repeat split. Qed.

(** a null view and an empty one are equal, but only the first is equal to nullptr *)
Theorem C127_nullptr_refuted : exists m v w, valid m v /\ valid m w /\ text m v = text m w /\
  ncompare true m v w = Ok 0 /\ eq_nullptr v <> eq_nullptr w.
Proof.
  exists [97], pnull, (PV (Some 0) 0). split; [reflexivity|]. split; [cbv; repeat split; discriminate|].
  split; [reflexivity|]. split; [reflexivity|]. discriminate.
Qed.
Print Assumptions C127_nullptr_refuted.
(** a null view is not a part of anything, nor is anything of it; others are parts of themselves *)
Theorem C127_is_super : forall m v w, valid m v -> valid m w -> pp v = None \/ pp w = None -> nis_super v w = Ok false.
Proof. exact nis_super_null. Qed.
Print Assumptions C127_is_super.
Theorem C127_is_super_refuted : exists m v, valid m v /\ text m v = [] /\ nis_super v v = Ok false /\
  (forall o n, 0 <= n -> nis_super (PV (Some o) n) (PV (Some o) n) = Ok true).
Proof.
  exists [], pnull. repeat split. intros o n H. unfold nis_super. cbn [pp pn padd bind nullp]. unfold ple, plt, peq.
  destruct (0 <? n) eqn:E; f_equal; lia.
Qed.
Print Assumptions C127_is_super_refuted.
(** erase() of an empty view is fine, of a null view undefined: memmove gets null pointers *)
Theorem C127_erase : forall dbg m o n pos num, len m < 2 ^ 63 -> valid m (PV (Some o) n) -> 0 <= pos -> 0 <= num -> pos + num <= n ->
  nerase dbg m (PV (Some o) n) pos num =
    Ok (blit m (o + pos) (slice m (o + pos + num) (n - pos - num)), PV (Some o) (n - num)).
Proof. exact nerase_ok. Qed.
Print Assumptions C127_erase.
Theorem C127_erase_refuted : forall dbg m, valid m pnull /\ nerase dbg m pnull 0 0 = Ub.
Proof. intros [] m; split; reflexivity. Qed.
Print Assumptions C127_erase_refuted.
(** raw data of no bytes without an address: undefined as soon as the buffer is aligned *)
Theorem C127_raw_refuted : forall addr m o n al, 0 < addr -> addr + o + n < 2 ^ 63 -> 0 <= o -> 0 <= n -> 0 < al < 2 ^ 62 -> (addr + o) mod al = 0 ->
  nto_chars_raw addr m (PV (Some o) n) pnull al = Ub /\ nfrom_chars_raw addr m (PV (Some o) n) pnull al = Ub.
Proof. exact nraw_ub. Qed.
Print Assumptions C127_raw_refuted.
(** no elements at a null pointer, as in an empty container: undefined in the bytewise versions,
    except in destroy_room *)
Theorem C127_elements_refuted : forall m d w n num, num <> 0 ->
  nmem_zero m None w 0 = Ub /\ nmem_repeat0 m d None num = Ub /\
  ncopy_n true m (Some n) None w 0 = Ub /\ ncopy_n true m None (Some n) w 0 = Ub /\
  ncopy_n true m None None w 0 = Err /\ ncopy_n false m None None w 0 = Ub /\ nmake_room m None w 0 0 = Ub /\
  ndestroy_room true m None w 0 0 = Ok m.
Proof.
  intros m d w n num H. repeat split. unfold nmem_repeat0. replace (num =? 0) with false by lia. destruct d; reflexivity.
Qed.
Print Assumptions C127_elements_refuted.
(** reallocating nothing *)
Theorem C127_arealloc_refuted : forall m t n, narealloc m None (Some t) 0 n = Ub.
Proof. intros m t n. unfold narealloc. cbn [padd bind plt]. reflexivity. Qed.
Print Assumptions C127_arealloc_refuted.
Example C127_ex3 : nerase true (s2z "abcd") (PV (Some 1) 3) 0 1 = Ok (s2z "acdd", PV (Some 1) 2) /\
  nerase true (s2z "abcd") (PV (Some 1) 0) 0 0 = Ok (s2z "abcd", PV (Some 1) 0) /\
  nto_chars_raw 16 (s2z "abcd") (PV (Some 0) 4) (PV (Some 3) 1) 4 = Ok (s2z "dbcd", 1) /\
  narealloc (s2z "abcd") (Some 0) (Some 2) 2 2 = Ok (s2z "abab").
Proof. repeat split. Qed.
(** views that are not null: parts of a view, and what is beside a part *)
Theorem C127_sub : forall dbg m o n first num, len m < 2 ^ 63 -> valid m (PV (Some o) n) -> 0 <= first ->
  (first <= n -> nsub2 dbg (PV (Some o) n) first npos = Ok (PV (Some (o + first)) (n - first))) /\
  (0 <= num -> first + num <= n -> nsub2 dbg (PV (Some o) n) first num = Ok (PV (Some (o + first)) num)) /\
  (0 < num < npos -> n < first + num -> nsub2 true (PV (Some o) n) first num = Err).
Proof.
  intros dbg m o n first num L V F. repeat split; intros.
  - apply (nsub2_npos dbg m); assumption || lia.
  - apply (nsub2_ok dbg m); assumption.
  - apply (nsub2_out m); assumption.
Qed.
Print Assumptions C127_sub.
Theorem C127_left_right : forall dbg m o n p k, len m < 2 ^ 63 -> valid m (PV (Some o) n) -> o <= p -> 0 <= k -> p + k <= o + n ->
  nleft_of dbg (PV (Some o) n) (PV (Some p) k) = Ok (PV (Some o) (p - o)) /\
  nright_of dbg (PV (Some o) n) (PV (Some p) k) = Ok (PV (Some (p + k)) (o + n - p - k)).
Proof. exact nparts. Qed.
Print Assumptions C127_left_right.
(** elements at an address: the bytewise versions change just their bytes *)
Theorem C127_zero : forall m d w n, 0 <= d -> 0 <= n -> 0 <= w -> d + n * w <= len m -> len m < 2 ^ 63 ->
  nmem_zero m (Some d) w n = Ok (blit m d (repeat 0 (Z.to_nat (n * w)))).
Proof. exact nmem_zero_ok. Qed.
Print Assumptions C127_zero.
Theorem C127_repeat : forall m d p num,
  nmem_repeat0 m d p 0 = Ok m /\
  (forall a b, d = Some a -> p = Some b -> 0 <= a <= len m -> 0 <= b <= len m -> nmem_repeat0 m d p num = Ok m).
Proof. intros m d p num. split; [apply nmem_repeat0_none|intros a b -> ->; apply nmem_repeat0_ok]. Qed.
Print Assumptions C127_repeat.
Theorem C127_copy : forall dbg m d s w n, 0 <= d -> 0 <= s -> 0 < n -> 0 < w -> d + n * w <= len m -> s + n * w <= len m -> len m < 2 ^ 63 ->
  d + n * w <= s \/ s + n * w <= d ->
  ncopy_n dbg m (Some d) (Some s) w n = Ok (blit m d (slice m s (n * w))).
Proof. exact ncopy_n_ok. Qed.
Print Assumptions C127_copy.
Theorem C127_rooms : forall dbg m b w n room, 0 <= b -> 0 < w -> len m < 2 ^ 63 ->
  (0 <= n -> 0 < room -> b + (n + room) * w <= len m ->
   nmake_room m (Some b) w n room = Ok (blit m (b + room * w) (slice m b (n * w)))) /\
  (0 <= room <= n -> b + n * w <= len m ->
   ndestroy_room dbg m (Some b) w n room = Ok (blit m b (slice m (b + room * w) ((n - room) * w)))).
Proof.
  intros dbg m b w n room B W L. split; intros.
  - apply nmake_room_ok; assumption.
  - apply ndestroy_room_ok; assumption.
Qed.
Print Assumptions C127_rooms.
Theorem C127_arealloc : forall m p t old new, 0 <= p -> 0 <= t -> 0 < old -> 0 < new -> p + old <= len m -> t + new <= len m ->
  narealloc m (Some p) (Some t) old new = Ok (blit m t (slice m p (Z.min old new))).
Proof. exact narealloc_ok. Qed.
Print Assumptions C127_arealloc.
Example C127_ex4 : nleft_of true (PV (Some 2) 8) (PV (Some 5) 2) = Ok (PV (Some 2) 3) /\
  nright_of true (PV (Some 2) 8) (PV (Some 5) 2) = Ok (PV (Some 7) 3) /\
  nsub2 true (PV (Some 2) 8) 3 npos = Ok (PV (Some 5) 5) /\ nsub2 true (PV (Some 2) 8) 3 6 = Err /\
  nmake_room (s2z "abcdefgh") (Some 0) 2 3 1 = Ok (s2z "ababcdef") /\
  ndestroy_room true (s2z "abcdefgh") (Some 0) 2 4 1 = Ok (s2z "cdefghgh") /\
  narealloc (s2z "abcdefgh") (Some 0) (Some 1) 4 3 = Ok (s2z "aabcefgh").
Proof. repeat split. Qed.
