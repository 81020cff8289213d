(** Statements of CharconvProps assembled from the lemmas. *)
From Verif Require Import Base BaseLemmas ScanModel CharconvModel CharconvSpec CharconvProofs CharconvProofs2 CharconvProofs3 CharconvProofs4.

Lemma is_int_text_eq r v s : is_int_text true (base r) v s <-> s = int_txt r v.
Proof.
  unfold int_txt, pfx, is_int_text. split.
  - intros (n & H & ->). rewrite (is_numeral_eq (base r) (Z.abs v) n) by auto using base_ge2. reflexivity.
  - intros ->. eexists. split; [|reflexivity]. apply numeral_is; [apply base_ge2|lia].
Qed.
Lemma is_dec_text_eq v s : is_int_text false 10 v s <-> s = dec_txt v.
Proof.
  unfold dec_txt, is_int_text. split.
  - intros (n & H & ->). rewrite (is_numeral_eq 10 (Z.abs v) n) by (auto; lia). reflexivity.
  - intros ->. eexists. split; [|reflexivity]. apply numeral_is; lia.
Qed.
Lemma is_padded_text_eq r v nd s : is_padded_text (base r) v nd s <-> s = pad_txt r v nd.
Proof.
  unfold pad_txt, padded, pfx, is_padded_text. split.
  - intros (n & H & ->). rewrite (is_numeral_eq (base r) (Z.abs v) n) by auto using base_ge2. reflexivity.
  - intros ->. exists (numeral (base r) (Z.abs v)). split; [|reflexivity]. apply numeral_is; [apply base_ge2|lia].
Qed.

Lemma text_unique b v pf : 2 <= b -> exists! s, is_int_text pf b v s.
Proof.
  intros Hb. exists (sign_of v ++ (if pf then prefix_of b else []) ++ numeral b (Z.abs v)). split.
  - exists (numeral b (Z.abs v)). split; [apply numeral_is; lia|reflexivity].
  - intros s (n & H & ->). rewrite (is_numeral_eq b (Z.abs v) n) by auto. reflexivity.
Qed.

Lemma same_outside_refl m b : same_outside m m b.
Proof. split; auto. Qed.
Lemma same_outside_blit m b l : vin b m -> len l <= vl b -> same_outside m (blit m (vo b) l) b.
Proof.
  intros (Ho & Hl & Hi) Hll. pose proof (len_nonneg l). split; [apply len_blit; lia|].
  intros k Hk H'. rewrite nth_blit by lia.
  destruct ((vo b <=? k) && (k <? vo b + len l)) eqn:E; [lia|auto].
Qed.
Lemma same_outside_sign m b v : vin b m -> same_outside m (partial_sign m b v) b.
Proof.
  intros H. unfold partial_sign. destruct ((v <? 0) && (0 <? vl b)) eqn:E; [|apply same_outside_refl].
  apply same_outside_blit; auto. cbn. lia.
Qed.

Lemma to_chars_int_ok t m b v :
  vin b m -> vl b < 2 ^ 64 -> in_range t v ->
  to_chars_int t m b v =
  Ok (if len (dec_txt v) <=? vl b then blit m (vo b) (dec_txt v) else m, len (dec_txt v)).
Proof.
  intros Hin H64 Hv. unfold to_chars_int. destruct t as [w []]; cbn [isgn iw].
  - apply itoa_ok; auto.
  - apply utoa_ok; auto. apply in_range_nonneg in Hv; auto.
Qed.
Definition part_sign (t : ity) m b v := if isgn t then partial_sign m b v else m.
Lemma to_chars_radix_ok t m b v r :
  vin b m -> vl b < 2 ^ 64 -> in_range t v ->
  to_chars_radix t m b v r =
  Ok (if len (int_txt r v) <=? vl b then blit m (vo b) (int_txt r v) else part_sign t m b v, len (int_txt r v)).
Proof.
  intros Hin H64 Hv. unfold to_chars_radix, part_sign. destruct t as [w []]; cbn [isgn iw].
  - apply itoa_radix_ok; auto.
  - apply utoa_radix_ok; auto. apply in_range_nonneg in Hv; auto.
Qed.
Lemma to_chars_nd_ok t m b v r nd :
  vin b m -> vl b < 2 ^ 64 -> in_range t v -> 0 <= nd <= nd_max ->
  to_chars_nd t m b v r nd =
  Ok (if len (pad_txt r v nd) <=? vl b then blit m (vo b) (pad_txt r v nd) else part_sign t m b v, len (pad_txt r v nd)).
Proof.
  intros Hin H64 Hv Hnd. unfold to_chars_nd, part_sign. destruct t as [w []]; cbn [isgn iw].
  - apply itoa_nd_ok; auto.
  - apply utoa_nd_ok; auto. apply in_range_nonneg in Hv; auto.
Qed.
Lemma same_outside_part t m b v : vin b m -> same_outside m (part_sign t m b v) b.
Proof. unfold part_sign. destruct (isgn t); [apply same_outside_sign|intros; apply same_outside_refl]. Qed.

(** C01 *)
Lemma digits_count_eq w r v n : 0 <= v < 2 ^ bits w -> is_numeral (base r) v n -> digits w r v = len n.
Proof.
  intros Hv Hn. rewrite (is_numeral_eq (base r) v n) by auto using base_ge2. apply digits_numeral; auto.
Qed.

(** C02 *)
Lemma write_num_fits w r m b v s :
  vin b m -> 0 <= v < 2 ^ bits w -> is_numeral (base r) v s -> len s <= vl b ->
  write_num w r m b v = Ok (blit m (vo b) s, len s).
Proof.
  intros Hin Hv Hs Hl. rewrite (is_numeral_eq (base r) v s) in * by auto using base_ge2.
  rewrite write_num_ok by auto. replace (len (numeral (base r) v) <=? vl b) with true by lia. reflexivity.
Qed.
Lemma to_chars_int_fits t m b v s :
  vin b m -> vl b < 2 ^ 64 -> in_range t v -> is_int_text false 10 v s -> len s <= vl b ->
  to_chars_int t m b v = Ok (blit m (vo b) s, len s).
Proof.
  intros Hin H64 Hv Hs Hl. apply is_dec_text_eq in Hs. subst. rewrite to_chars_int_ok by auto.
  replace (len (dec_txt v) <=? vl b) with true by lia. reflexivity.
Qed.
Lemma to_chars_radix_fits t m b v r s :
  vin b m -> vl b < 2 ^ 64 -> in_range t v -> is_int_text true (base r) v s -> len s <= vl b ->
  to_chars_radix t m b v r = Ok (blit m (vo b) s, len s).
Proof.
  intros Hin H64 Hv Hs Hl. apply is_int_text_eq in Hs. subst. rewrite to_chars_radix_ok by auto.
  replace (len (int_txt r v) <=? vl b) with true by lia. reflexivity.
Qed.

(** C03 *)
Lemma write_num_small w r m b v s :
  vin b m -> 0 <= v < 2 ^ bits w -> is_numeral (base r) v s -> vl b < len s ->
  write_num w r m b v = Ok (m, len s).
Proof.
  intros Hin Hv Hs Hl. rewrite (is_numeral_eq (base r) v s) in * by auto using base_ge2.
  rewrite write_num_ok by auto. replace (len (numeral (base r) v) <=? vl b) with false by lia. reflexivity.
Qed.
Lemma to_chars_int_small t m b v s :
  vin b m -> vl b < 2 ^ 64 -> in_range t v -> is_int_text false 10 v s -> vl b < len s ->
  to_chars_int t m b v = Ok (m, len s).
Proof.
  intros Hin H64 Hv Hs Hl. apply is_dec_text_eq in Hs. subst. rewrite to_chars_int_ok by auto.
  replace (len (dec_txt v) <=? vl b) with false by lia. reflexivity.
Qed.
Lemma to_chars_radix_small t m b v r s :
  vin b m -> vl b < 2 ^ 64 -> in_range t v -> is_int_text true (base r) v s -> vl b < len s ->
  exists m', to_chars_radix t m b v r = Ok (m', len s) /\ same_outside m m' b.
Proof.
  intros Hin H64 Hv Hs Hl. apply is_int_text_eq in Hs. subst. rewrite to_chars_radix_ok by auto.
  replace (len (int_txt r v) <=? vl b) with false by lia. eexists; split; [reflexivity|].
  apply same_outside_part; auto.
Qed.
(** C04 *)
Lemma to_chars_radix_unsigned_small w m b v r s :
  vin b m -> vl b < 2 ^ 64 -> in_range (Ity w false) v -> is_int_text true (base r) v s -> vl b < len s ->
  to_chars_radix (Ity w false) m b v r = Ok (m, len s).
Proof.
  intros Hin H64 Hv Hs Hl. apply is_int_text_eq in Hs. subst. rewrite to_chars_radix_ok by auto.
  replace (len (int_txt r v) <=? vl b) with false by lia. reflexivity.
Qed.
Lemma to_chars_radix_signed_small w m b v r s :
  vin b m -> vl b < 2 ^ 64 -> in_range (Ity w true) v -> is_int_text true (base r) v s -> vl b < len s ->
  to_chars_radix (Ity w true) m b v r =
    Ok (if (v <? 0) && (0 <? vl b) then blit m (vo b) (s2z "-") else m, len s).
Proof.
  intros Hin H64 Hv Hs Hl. apply is_int_text_eq in Hs. subst. rewrite to_chars_radix_ok by auto.
  replace (len (int_txt r v) <=? vl b) with false by lia. reflexivity.
Qed.

(** C05 *)
Lemma pad_txt_nonneg r v nd : 0 <= v -> pad_txt r v nd = pfx r ++ padded (base r) v nd.
Proof. intros. unfold pad_txt. rewrite sign_pos, Z.abs_eq by lia. reflexivity. Qed.
Lemma write_num_digits_fits w r m b v nd n s :
  vin b m -> 0 <= v < 2 ^ bits w -> 0 <= nd < 2 ^ 64 ->
  is_numeral (base r) v n -> s = repeat 48 (Z.to_nat (nd - len n)) ++ n -> len s <= vl b ->
  write_num_digits w r m b v nd = Ok (blit m (vo b) s, len s).
Proof.
  intros Hin Hv Hnd Hn -> Hl. rewrite (is_numeral_eq (base r) v n) in * by auto using base_ge2.
  fold (zeros (nd - len (numeral (base r) v))) in *. fold (padded (base r) v nd) in *.
  rewrite write_num_digits_ok by auto.
  replace (len (padded (base r) v nd) <=? vl b) with true by lia. reflexivity.
Qed.
Lemma write_num_digits_small w r m b v nd n s :
  vin b m -> 0 <= v < 2 ^ bits w -> 0 <= nd < 2 ^ 64 ->
  is_numeral (base r) v n -> s = repeat 48 (Z.to_nat (nd - len n)) ++ n -> vl b < len s ->
  exists m', write_num_digits w r m b v nd = Ok (m', len s) /\ same_outside m m' b.
Proof.
  intros Hin Hv Hnd Hn -> Hl. rewrite (is_numeral_eq (base r) v n) in * by auto using base_ge2.
  fold (zeros (nd - len (numeral (base r) v))) in *. fold (padded (base r) v nd) in *.
  rewrite write_num_digits_ok by auto.
  replace (len (padded (base r) v nd) <=? vl b) with false by lia.
  eexists; split; [reflexivity|].
  destruct (Z.leb_spec (len (numeral (base r) v)) (vl b)); [|apply same_outside_refl].
  apply same_outside_blit; auto.
Qed.
Lemma to_chars_nd_fits t m b v r nd s :
  vin b m -> vl b < 2 ^ 64 -> in_range t v -> 0 <= nd <= 2 ^ 32 - 4 ->
  is_padded_text (base r) v nd s -> len s <= vl b ->
  to_chars_nd t m b v r nd = Ok (blit m (vo b) s, len s).
Proof.
  intros Hin H64 Hv Hnd Hs Hl. apply is_padded_text_eq in Hs. subst. rewrite to_chars_nd_ok by auto.
  replace (len (pad_txt r v nd) <=? vl b) with true by lia. reflexivity.
Qed.
Lemma to_chars_nd_small t m b v r nd s :
  vin b m -> vl b < 2 ^ 64 -> in_range t v -> 0 <= nd <= 2 ^ 32 - 4 ->
  is_padded_text (base r) v nd s -> vl b < len s ->
  exists m', to_chars_nd t m b v r nd = Ok (m', len s) /\ same_outside m m' b.
Proof.
  intros Hin H64 Hv Hnd Hs Hl. apply is_padded_text_eq in Hs. subst. rewrite to_chars_nd_ok by auto.
  replace (len (pad_txt r v nd) <=? vl b) with false by lia. eexists; split; [reflexivity|].
  apply same_outside_part; auto.
Qed.
Lemma padded_text_len r v nd s n :
  is_padded_text (base r) v nd s -> is_numeral (base r) (Z.abs v) n ->
  len s = len (sign_of v) + len (prefix_of (base r)) + Z.max nd (len n).
Proof.
  intros Hs Hn. apply is_padded_text_eq in Hs. subst.
  rewrite (is_numeral_eq (base r) (Z.abs v) n) by auto using base_ge2.
  unfold pad_txt, pfx. rewrite !len_app, len_padded. lia.
Qed.

(** C06: the 32-bit digit count *)
Definition view1 := View 0 1.
Lemma nd_wraps_oob :
  to_chars_nd u32t [0] view1 1 Hex (2 ^ 32 - 1) = Ub.
Proof. vm_compute. reflexivity. Qed.
Lemma nd_wraps_size :
  to_chars_nd u32t [] (View 0 0) 1 Dec (2 ^ 32) = Ok ([], 0).
Proof. vm_compute. reflexivity. Qed.

(** C07 *)
Lemma contents_blit (m : list Z) b (s : list Z) :
  vin b m -> len s <= vl b -> contents (blit m (vo b) s) (View (vo b) (len s)) = s.
Proof. intros (Ho & Hl & Hi) H. unfold contents. cbn [vo vl]. apply slice_blit_same; lia. Qed.

Lemma from_chars_pad t r v nd v0 : in_range t v -> from_chars_int t (pad_txt r v nd) v0 = Ok (true, v).
Proof.
  intros Hv. rewrite (from_chars_int_text t _ v v0) by (apply pad_txt_int_text; auto).
  rewrite wrap_id by auto. reflexivity.
Qed.
Lemma roundtrip_int t m b v v0 m' n :
  vin b m -> vl b < 2 ^ 64 -> in_range t v ->
  to_chars_int t m b v = Ok (m', n) -> n <= vl b ->
  from_chars_int t (contents m' (View (vo b) n)) v0 = Ok (true, v).
Proof.
  intros Hin H64 Hv. rewrite to_chars_int_ok by auto. intros E Hn. inversion E as [[E1 E2]]. subst n.
  replace (len (dec_txt v) <=? vl b) with true by lia. rewrite contents_blit by auto.
  rewrite dec_txt_int, int_txt_pad. apply from_chars_pad; auto.
Qed.
Lemma roundtrip_radix t m b v r v0 m' n :
  vin b m -> vl b < 2 ^ 64 -> in_range t v ->
  to_chars_radix t m b v r = Ok (m', n) -> n <= vl b ->
  from_chars_int t (contents m' (View (vo b) n)) v0 = Ok (true, v).
Proof.
  intros Hin H64 Hv. rewrite to_chars_radix_ok by auto. intros E Hn. inversion E as [[E1 E2]]. subst n.
  replace (len (int_txt r v) <=? vl b) with true by lia. rewrite contents_blit by auto.
  rewrite int_txt_pad. apply from_chars_pad; auto.
Qed.
Lemma roundtrip_nd t m b v r nd v0 m' n :
  vin b m -> vl b < 2 ^ 64 -> in_range t v -> 0 <= nd <= 2 ^ 32 - 4 ->
  to_chars_nd t m b v r nd = Ok (m', n) -> n <= vl b ->
  from_chars_int t (contents m' (View (vo b) n)) v0 = Ok (true, v).
Proof.
  intros Hin H64 Hv Hnd. rewrite to_chars_nd_ok by auto. intros E Hn. inversion E as [[E1 E2]]. subst n.
  replace (len (pad_txt r v nd) <=? vl b) with true by lia. rewrite contents_blit by auto.
  apply from_chars_pad; auto.
Qed.

(** C08 *)
Lemma read_num_ok r t s :
  bytes s -> s <> [] -> outcome t (parse1 (base r) s) (read_num r t s).
Proof.
  intros Hs Hne. unfold read_num. destruct r; cbn [base].
  - apply read1_dec; auto.
  - apply read1_hex; auto.
  - apply read1_oct; auto.
  - apply read1_bin; auto.
Qed.
Lemma read_num_value r t s v : bytes s -> digit_text (base r) s v -> read_num r t s = Ok (true, wrap t v).
Proof.
  intros Hs H. pose proof (read_num_ok r t s Hs (proj1 H)) as HO. apply parse1_spec in H. rewrite H in HO. exact HO.
Qed.
Lemma read_num_reject r t s :
  bytes s -> s <> [] -> ~ (exists v, digit_text (base r) s v) -> exists x, read_num r t s = Ok (false, x).
Proof.
  intros Hs Hne H. pose proof (read_num_ok r t s Hs Hne) as HO.
  destruct (parse1 (base r) s) as [v|] eqn:E; [|exact HO]. apply parse1_spec in E. destruct H; eauto.
Qed.
Lemma from_chars_reject t s v0 :
  bytes s -> (isgn t = true -> forall r, s <> ch "+" :: r) ->
  ~ (exists v, int_text t s v) -> exists x, from_chars_int t s v0 = Ok (false, x).
Proof.
  intros Hs Hp H. pose proof (from_chars_int_outcome t s v0 Hs Hp) as HO.
  destruct (parse_int t s) as [v|] eqn:E; [|exact HO]. apply parse_int_spec in E. destruct H; eauto.
Qed.
Lemma from_chars_plus w s v0 : from_chars_int (Ity w true) (ch "+" :: s) v0 = Err.
Proof.
  unfold from_chars_int, atoi; cbn [isgn iw]. pose proof (len_nonneg s).
  replace (len (ch "+" :: s) =? 0) with false by (rewrite len_cons; lia). rewrite rd0. reflexivity.
Qed.

Lemma overflows_minus w : overflows (Ity w true) (s2z "-") = Ub.
Proof. destruct w; reflexivity. Qed.
Lemma overflows_unparsable :
  (~ exists v, int_text u8t (s2z "-0") v) /\ overflows u8t (s2z "-0") = Ok true.
Proof.
  split; [|vm_compute; reflexivity]. intros (v & H). apply parse_int_spec in H. vm_compute in H. discriminate.
Qed.
Lemma overflows_unparsable2 :
  (~ exists v, int_text u8t (s2z "abcd") v) /\ overflows u8t (s2z "abcd") = Ok true.
Proof.
  split; [|vm_compute; reflexivity]. intros (v & H). apply parse_int_spec in H. vm_compute in H. discriminate.
Qed.
