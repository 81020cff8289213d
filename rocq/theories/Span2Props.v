From Verif Require Import Base BaseLemmas SubstrModel MemUtilModel HashModel HashSpec HashProofs SpanModel SpanSpec SpanProofs Span2Model.

Lemma wrap_id t z : in_range t z -> wrap t z = z.
Proof.
  intros H. destruct t as [w g]. unfold in_range, imin, imax in H. unfold wrap. cbn [iw isgn] in *.
  assert (B : 2 ^ bits w = 2 * 2 ^ (bits w - 1)) by (destruct w; reflexivity). assert (0 < 2 ^ (bits w - 1)) by (destruct w; reflexivity).
  destruct g; cbn [andb].
  - destruct (Z_lt_le_dec z 0).
    + replace (z mod 2 ^ bits w) with (z + 2 ^ bits w) by (apply Zmod_unique with (-1); lia).
      replace (2 ^ (bits w - 1) <=? z + 2 ^ bits w) with true by lia. lia.
    + rewrite Z.mod_small by lia. replace (2 ^ (bits w - 1) <=? z) with false by lia. reflexivity.
  - rewrite Z.mod_small by lia. reflexivity.
Qed.
Lemma wrap_in t z : in_range t (wrap t z).
Proof.
  destruct t as [w g]. unfold in_range, imin, imax, wrap. cbn [iw isgn].
  assert (B : 2 ^ bits w = 2 * 2 ^ (bits w - 1)) by (destruct w; reflexivity). assert (0 < 2 ^ (bits w - 1)) by (destruct w; reflexivity).
  pose proof (Z.mod_pos_bound z (2 ^ bits w) ltac:(lia)). destruct g; cbn [andb]; [|lia].
  destruct (2 ^ (bits w - 1) <=? z mod 2 ^ bits w) eqn:E; lia.
Qed.
Lemma imax_64 t : imax t < 2 ^ 64.
Proof. destruct t as [w []]; destruct w; cbn; lia. Qed.
Lemma imin_0 t : imin t <= 0.
Proof. destruct t as [w []]; destruct w; cbn; lia. Qed.

(** ** C116: sizes and conversions of spans *)
(** byte_size() is exact when it can be *)
Theorem C116_byte_size_partial : forall t tsize s, 0 <= ssz s -> 0 <= tsize -> ssz s * tsize <= imax t -> byte_size t tsize s = ssz s * tsize.
Proof.
  intros t tsize s H1 H2 H. unfold byte_size, u64. pose proof (imax_64 t). pose proof (imin_0 t). assert (0 <= ssz s * tsize) by nia.
  rewrite Z.mod_small by lia. apply wrap_id. unfold in_range. lia.
Qed.
Print Assumptions C116_byte_size_partial.
(** and wrong, though the size itself is representable, otherwise *)
Theorem C116_byte_size_refuted : forall t tsize s, imax t < ssz s * tsize -> byte_size t tsize s <> ssz s * tsize.
Proof. intros t tsize s H E. pose proof (wrap_in t (u64 (ssz s * tsize))) as W. unfold byte_size in E. rewrite E in W. unfold in_range in W. lia. Qed.
Print Assumptions C116_byte_size_refuted.
Theorem C116_value_size : forall t tsize, 0 <= tsize -> value_size t tsize = tsize <-> tsize <= imax t.
Proof.
  intros t tsize H. unfold value_size. split; intros E.
  - pose proof (wrap_in t tsize) as W. rewrite E in W. unfold in_range in W. lia.
  - apply wrap_id. pose proof (imin_0 t). unfold in_range. lia.
Qed.
Print Assumptions C116_value_size.
(** a converted span is the same window of the same block; only the capacity on the left is lost *)
Theorem C116_to_span : forall k base total w s, stands k base total w s -> stands KSpan base total w (to_span s).
Proof. intros k base total w s (H1 & H2 & H3 & H4). unfold stands, to_span. cbn. auto. Qed.
Print Assumptions C116_to_span.
Theorem C116_to_spanrs : forall base total w s, stands KRsl base total w s -> stands KRs base total w (to_spanrs s).
Proof. intros base total w s (H1 & H2 & H3 & H4). unfold stands, to_spanrs. cbn. auto. Qed.
Print Assumptions C116_to_spanrs.
Theorem C116_elements : forall m s, elements m (to_span s) = elements m s /\ elements m (to_spanrs s) = elements m s.
Proof. intros. split; reflexivity. Qed.
Print Assumptions C116_elements.
Theorem C116_original_as : forall k t base total w s, 0 <= total <= imax t -> inside total w -> stands KRsl base total w s ->
  exists s', original_as k t s = Ok s' /\ stands k base total (0, total) s'.
Proof.
  intros k t base total w s Ht Hw Hs. pose proof (original_ok t base total w s Ht Hw Hs) as E. unfold original in E. unfold original_as.
  destruct (iadd t (scap s) (soff s)) as [n| |] eqn:En; try discriminate. cbn [bind] in *. injection E as E1 E2 _. eexists. split; [reflexivity|].
  rewrite E1, E2. unfold stands. destruct k; cbn; repeat split; lia.
Qed.
Print Assumptions C116_original_as.
(** comparing spans with different size types: right, or an assertion *)
Theorem C116_same_span : forall t t2 s ss b, 0 <= ssz s -> in_range t2 (ssz ss) -> 0 <= ssz ss -> same_span2 true t t2 s ss = Ok b ->
  (b = true <-> ssz s = ssz ss /\ sp s = sp ss).
Proof.
  intros t t2 s ss b H0 H1 H2 E. unfold same_span2 in E. destruct (szconv true t t2 (ssz ss)) as [n| |] eqn:En; try discriminate.
  cbn [bind] in E. injection E as <-. apply szconv_exact in En; [|auto..]. subst n. rewrite andb_true_iff, !Z.eqb_eq. tauto.
Qed.
Print Assumptions C116_same_span.
Theorem C116_same_span_total_partial : forall t t2 s ss, in_range t2 (ssz ss) -> 0 <= ssz ss <= imax t -> exists b, same_span2 true t t2 s ss = Ok b.
Proof.
  intros t t2 s ss H1 H2. unfold same_span2, szconv. destruct (is_narrower t t2) eqn:N; cbn [negb bind]; [|eauto].
  replace (0 <=? ssz ss) with true by lia. cbn [andb negb].
  assert (M : wrap t2 (ssz ss) <= wrap t2 (imax t)).
  { rewrite wrap_id by auto.
    assert (imax t <= imax t2) by (unfold is_narrower, size_of in N; destruct t as [w []], t2 as [w2 []]; destruct w, w2; cbn in *; try discriminate; lia).
    rewrite wrap_id; [lia|]. pose proof (imin_0 t2). unfold in_range. lia. }
  replace (wrap t2 (ssz ss) <=? wrap t2 (imax t)) with true by lia. cbn. eauto.
Qed.
Print Assumptions C116_same_span_total_partial.
(** a span that is too long for the other's size type is an error, not a difference *)
Theorem C116_same_span_error_refuted : exists s ss, same_span2 true u8t u16t s ss = Err /\ ssz s <> ssz ss.
Proof. exists (Span 0 1 1 0), (Span 0 300 300 0). split; [reflexivity|discriminate]. Qed.
Print Assumptions C116_same_span_error_refuted.
(** and without assertions it can be taken for the same: 0 and 256 elements *)
Theorem C116_same_span_refuted : exists s ss, same_span2 false u8t u16t s ss = Ok true /\ ssz s <> ssz ss.
Proof. exists (Span 0 0 0 0), (Span 0 256 256 0). split; [reflexivity|discriminate]. Qed.
Print Assumptions C116_same_span_refuted.
(** operator== from C++14 on compares by iterators: the size types do not matter (C78_eq). Before, it goes
    through same_span: right for spans of one length, when the length fits the size type on the left *)
Theorem C116_eq11_partial : forall dbg t t2 m l r, sin m l -> sin m r -> ssz l = ssz r -> in_range t (ssz l) -> in_range t2 (ssz r) ->
  exists b, span_eq11_2 dbg t t2 m l r = Ok b /\ (b = true <-> elements m l = elements m r).
Proof.
  intros dbg t t2 m l r Hl Hr E H1 H2. pose proof Hl as (L0 & L1 & L2). pose proof Hr as (R0 & R1 & R2).
  assert (C : szconv dbg t t2 (ssz r) = Ok (ssz r)).
  { assert (A : szconv true t t2 (ssz r) = Ok (ssz r)).
    { destruct (C116_same_span_total_partial t t2 l r H2) as (b & B); [unfold in_range in H1; lia|].
      unfold same_span2 in B. destruct (szconv true t t2 (ssz r)) as [n| |] eqn:En; try discriminate.
      pose proof (szconv_exact _ _ _ _ H2 (or_introl R1) En) as X. subst n. reflexivity. }
    destruct dbg; [exact A|]. unfold szconv in *. rewrite wrap_id by (rewrite <- E; exact H1). destruct (is_narrower t t2); reflexivity. }
  unfold span_eq11_2, same_span2. rewrite C. cbn [bind].
  destruct (span_eq_ok m l r Hl Hr) as (b & B & I). pose proof (eq11_ok m l r Hl Hr E) as X. unfold span_eq11, same_span in X.
  exists b. split; [|exact I]. rewrite B in X. rewrite <- X. destruct ((ssz l =? ssz r) && (sp l =? sp r)); reflexivity.
Qed.
Print Assumptions C116_eq11_partial.
Theorem C116_eq11_refuted : exists m l r, sin m l /\ sin m r /\ elements m l <> elements m r /\ span_eq11_2 false u8t u16t m l r = Ok true /\ span_eq11_2 true u8t u16t m l r = Err.
Proof.
  exists (repeat 0 256), (Span 0 0 0 0), (Span 0 256 256 0). split; [|split; [|split; [|split]]]; try (unfold sin; cbn; lia); try reflexivity.
  vm_compute. discriminate.
Qed.
Print Assumptions C116_eq11_refuted.
Example C116_ex1 : byte_size u8t 4 (Span 0 50 50 0) = 200 /\ byte_size u8t 4 (Span 0 100 100 0) = 144 /\ byte_size i8 4 (Span 0 50 50 0) = -56. Proof. repeat split; reflexivity. Qed.
Example C116_ex2 : original_as KRs i32 (Span 7 2 5 3) = Ok (Span 4 8 8 0) /\ to_spanrs (Span 7 2 5 3) = Span 7 2 5 0. Proof. split; reflexivity. Qed.
Example C116_ex3 : same_span2 true u8t u64t (Span 5 3 3 0) (Span 5 3 3 0) = Ok true. Proof. reflexivity. Qed.
Example C116_ex4 : span_eq11_2 true u8t u64t [1; 2; 1; 2] (Span 0 2 2 0) (Span 2 2 2 0) = Ok true /\ span_eq11_2 true u8t u64t [1; 2; 1; 3] (Span 0 2 2 0) (Span 2 2 2 0) = Ok false. Proof. split; reflexivity. Qed.
