(** Proofs about padded writers, itoa and utoa. *)
From Verif Require Import Base BaseLemmas ScanModel CharconvModel CharconvSpec CharconvProofs.

Lemma blit_over {A} (m : list A) i l l' :
  0 <= i -> len l <= len l' -> i + len l' <= len m -> blit (blit m i l) i l' = blit m i l'.
Proof.
  intros Hi Hl Hm. pose proof (len_nonneg l).
  destruct m as [|d0 m0].
  { unfold len in *; cbn [length] in *.
    destruct l, l'; cbn [length] in *; try lia.
    unfold blit; rewrite ?firstn_nil, ?skipn_nil; cbn. rewrite ?firstn_nil, ?skipn_nil. reflexivity. }
  set (m := d0 :: m0) in *.
  assert (L1 : len (blit m i l) = len m) by (apply len_blit; lia).
  assert (L2 : len (blit (blit m i l) i l') = len m) by (rewrite len_blit; lia).
  assert (L3 : len (blit m i l') = len m) by (apply len_blit; lia).
  apply (list_eq_nth _ _ d0); [unfold len in *; lia|].
  intros k Hk. rewrite <- (Nat2Z.id k).
  assert (Hk' : Z.of_nat k < len m) by (unfold len in *; lia). clear Hk.
  rewrite (nth_blit (blit m i l)) by lia. rewrite (nth_blit m i l') by lia.
  rewrite (nth_blit m i l) by lia.
  destruct ((i <=? Z.of_nat k) && (Z.of_nat k <? i + len l')) eqn:E; auto.
  replace ((i <=? Z.of_nat k) && (Z.of_nat k <? i + len l)) with false by lia. reflexivity.
Qed.

Lemma numeral_len_pos b v : 2 <= b -> 0 <= v -> 1 <= len (numeral b v).
Proof. intros. apply numeral_count; auto. Qed.
Lemma numeral_len_64 w r v : 0 <= v < 2 ^ bits w -> len (numeral (base r) v) <= 64.
Proof. intros. rewrite <- (digits_numeral w) by auto. apply digits_bound; auto. Qed.

Definition zeros (n : Z) : list Z := repeat 48 (Z.to_nat n).
Lemma len_zeros n : 0 <= n -> len (zeros n) = n.
Proof. intros. unfold zeros. rewrite len_repeat. lia. Qed.
Lemma len_zeros_max n : len (zeros n) = Z.max 0 n.
Proof. intros. unfold zeros. rewrite len_repeat. lia. Qed.
Lemma zeros_neg n : n <= 0 -> zeros n = [].
Proof. intros. unfold zeros. replace (Z.to_nat n) with O by lia. reflexivity. Qed.

Definition padded (b v nd : Z) : list Z :=
  zeros (nd - len (numeral b v)) ++ numeral b v.
Lemma len_padded b v nd : len (padded b v nd) = Z.max nd (len (numeral b v)).
Proof. unfold padded. rewrite len_app, len_zeros_max. lia. Qed.

Lemma write_num_digits_ok w r m b v nd :
  vin b m -> 0 <= v < 2 ^ bits w -> 0 <= nd < 2 ^ 64 ->
  write_num_digits w r m b v nd =
  Ok (if len (padded (base r) v nd) <=? vl b then blit m (vo b) (padded (base r) v nd)
      else if len (numeral (base r) v) <=? vl b then blit m (vo b) (numeral (base r) v) else m,
      len (padded (base r) v nd)).
Proof.
  intros Hin Hv Hnd. unfold write_num_digits. rewrite write_num_ok by auto. rewrite bind_ok.
  rewrite len_padded. pose proof (numeral_len_pos (base r) v (base_ge2 r) ltac:(lia)) as HL.
  set (n := numeral (base r) v) in *. destruct Hin as (Ho & Hl & Hin).
  destruct (Z.leb_spec nd (len n)) as [H1|H1].
  - rewrite Z.max_r by lia. unfold padded. fold n. rewrite zeros_neg by lia. cbn [app].
    destruct (len n <=? vl b); reflexivity.
  - rewrite Z.max_l by lia.
    destruct (Z.leb_spec (vl b) (len n)) as [H2|H2]; cbn [orb].
    { destruct (Z.leb_spec nd (vl b)); [lia|]. reflexivity. }
    destruct (Z.ltb_spec (vl b) nd) as [H3|H3].
    { destruct (Z.leb_spec nd (vl b)); [lia|]. reflexivity. }
    destruct (Z.leb_spec nd (vl b)); [|lia]. destruct (Z.leb_spec (len n) (vl b)); [|lia].
    rewrite u64_id by lia.
    set (m1 := blit m (vo b) n).
    assert (Lm1 : len m1 = len m) by (apply len_blit; lia).
    unfold rds. replace (len n <=? 0) with false by lia. rewrite Lm1.
    replace ((0 <=? vo b) && (vo b + len n <=? len m)) with true by lia.
    rewrite bind_ok. unfold m1 at 2. rewrite slice_blit_same by lia.
    rewrite wrs_ok by lia. rewrite bind_ok.
    fold (zeros (nd - len n)).
    assert (Lz : len (zeros (nd - len n)) = nd - len n) by (apply len_zeros; lia).
    rewrite wrs_ok by (rewrite ?len_blit; rewrite ?Lz; lia). rewrite bind_ok.
    do 2 f_equal. unfold padded; fold n.
    rewrite <- Lz at 1. rewrite blit_cons_before by lia.
    unfold m1. apply blit_over; rewrite ?len_app, ?Lz; lia.
Qed.

(** ** the minimum value *)
Lemma min_value_ok w r : min_value w r = numeral (base r) (2 ^ (bits w - 1)).
Proof. destruct w, r; vm_compute; reflexivity. Qed.

Definition pfx (r : radix) : list Z := prefix_of (base r).
Lemma pfx_ok r : pfx r = match r with Dec => [] | _ => [48; pfx_char r] end.
Proof. destruct r; reflexivity. Qed.
Lemma len_pfx r : 0 <= len (pfx r) <= 2.
Proof. destruct r; vm_compute; intuition discriminate. Qed.

Definition int_txt (r : radix) (v : Z) : list Z :=
  sign_of v ++ pfx r ++ numeral (base r) (Z.abs v).
Definition dec_txt (v : Z) : list Z := sign_of v ++ numeral 10 (Z.abs v).
Definition pad_txt (r : radix) (v nd : Z) : list Z :=
  sign_of v ++ pfx r ++ padded (base r) (Z.abs v) nd.

Lemma imin_neg w : imin (Ity w true) = - 2 ^ (bits w - 1). Proof. reflexivity. Qed.
Lemma maxdigits_ok w r :
  maxdigits (Ity w true) r = len (int_txt r (imin (Ity w true))).
Proof. destruct w, r; vm_compute; reflexivity. Qed.

Lemma abs_range w v :
  in_range (Ity w true) v -> 0 <= Z.abs v < 2 ^ bits w.
Proof.
  unfold in_range, imin, imax; cbn [isgn iw]. pose proof (pow2_bits w).
  assert (0 < 2 ^ (bits w - 1)) by (apply Z.pow_pos_nonneg; destruct w; cbn; lia). lia.
Qed.
Lemma abs_range_pos w v :
  in_range (Ity w true) v -> v <> imin (Ity w true) -> 0 <= Z.abs v < 2 ^ (bits w - 1).
Proof.
  unfold in_range, imin, imax; cbn [isgn iw]. lia.
Qed.

Lemma vin_vsub b (m : list Z) n :
  vin b m -> vl b < 2 ^ 64 -> 0 <= n <= vl b ->
  vin (vsub b n) m /\ vo (vsub b n) = vo b + n /\ vl (vsub b n) = vl b - n.
Proof.
  intros (Ho & Hl & Hin) H64 Hn. unfold vsub, vin; cbn [vo vl]. rewrite u64_id by lia. lia.
Qed.
Lemma vin_blit b (m : list Z) i l :
  vin b m -> 0 <= i -> i + len l <= len m -> vin b (blit m i l).
Proof. intros (Ho & Hl & Hin) Hi Hm. unfold vin. rewrite len_blit; lia. Qed.

Lemma sign_neg v : v < 0 -> sign_of v = [45].
Proof. intros. unfold sign_of. replace (v <? 0) with true by lia. reflexivity. Qed.
Lemma sign_pos v : 0 <= v -> sign_of v = [].
Proof. intros. unfold sign_of. replace (v <? 0) with false by lia. reflexivity. Qed.

Lemma blit_app1 {A} (m : list A) i (a b : list A) j :
  0 <= i -> j = i + len a -> i + len a + len b <= len m ->
  blit (blit m i a) j b = blit m i (a ++ b).
Proof. intros ? -> ?. apply blit_app; auto. Qed.

Lemma len1 (x : Z) : len [x] = 1. Proof. reflexivity. Qed.
Lemma len2 (x y : Z) : len [x; y] = 2. Proof. reflexivity. Qed.

(** itoa(buf, v) *)
Lemma itoa_ok w m b v :
  vin b m -> vl b < 2 ^ 64 -> in_range (Ity w true) v ->
  itoa w m b v =
  Ok (if len (dec_txt v) <=? vl b then blit m (vo b) (dec_txt v) else m, len (dec_txt v)).
Proof.
  intros Hin H64 Hv. pose proof (abs_range w v Hv) as Ha.
  unfold itoa, dec_txt. destruct (Z.leb_spec 0 v).
  - rewrite write_num_ok by (auto; lia). rewrite sign_pos by lia.
    rewrite Z.abs_eq by lia. cbn [app base]. reflexivity.
  - rewrite sign_neg by lia. destruct (Z.eqb_spec v (imin (Ity w true))) as [Hm|Hm]; cbn [negb].
    + (* minimum *)
      unfold itoadec2buf. rewrite maxdigits_ok. unfold int_txt. rewrite <- Hm, sign_neg by lia.
      cbn [pfx base prefix_of app]. change (pfx Dec) with (@nil Z). cbn [app].
      set (n := numeral 10 (Z.abs v)).
      pose proof (numeral_len_pos 10 (Z.abs v) ltac:(lia) ltac:(lia)) as HL. fold n in HL.
      pose proof Hin as (Ho & Hl & Hi). rewrite len_cons.
      destruct (Z.ltb_spec (vl b) (1 + len n)).
      { destruct (Z.leb_spec (1 + len n) (vl b)); [lia|]. reflexivity. }
      destruct (Z.leb_spec (1 + len n) (vl b)); [|lia].
      rewrite wr_ok by lia. rewrite bind_ok. unfold itoa2buf_at.
      replace (min_value w Dec) with n.
      2:{ rewrite min_value_ok. unfold n. rewrite Hm, imin_neg. cbn [base]. f_equal. lia. }
      destruct (Z.ltb_spec (vl b) (1 + len n)); [lia|].
      rewrite wrs_ok by lens. rewrite bind_ok.
      rewrite blit_app1 by (rewrite ?len1; lia). reflexivity.
    + replace (- v) with (Z.abs v) by lia.
      pose proof (digits_numeral w Dec (Z.abs v) ltac:(lia)) as Hd. cbn [digits base] in Hd. rewrite Hd.
      set (n := numeral 10 (Z.abs v)) in *.
      pose proof (numeral_len_pos 10 (Z.abs v) ltac:(lia) ltac:(lia)) as HL. fold n in HL.
      pose proof Hin as (Ho & Hl & Hi). rewrite len_app, len1.
      replace (len n + 1) with (1 + len n) by lia.
      destruct (Z.leb_spec (1 + len n) (vl b)); [|reflexivity].
      rewrite wr_ok by lia. rewrite bind_ok.
      destruct (vin_vsub b m 1 Hin H64 ltac:(lia)) as (V1 & V2 & V3).
      rewrite <- Hd. rewrite (write_dec_unchecked_ok w) by
        (try (apply vin_blit; [assumption|lia|rewrite len1; lia]); rewrite ?Hd; lia).
      rewrite bind_ok, V2. fold n. rewrite blit_app1 by (rewrite ?len1; lia). rewrite Hd. reflexivity.
Qed.

Lemma itoa2buf_at_ok m b pos val :
  vin b m -> 0 <= pos -> pos + len val <= vl b ->
  itoa2buf_at m b pos val = Ok (blit m (vo b + pos) val, pos + len val).
Proof.
  intros (Ho & Hl & Hin) Hp Hv. unfold itoa2buf_at.
  destruct (Z.ltb_spec (vl b) (pos + len val)); [lia|].
  rewrite wrs_ok by lia. reflexivity.
Qed.

(** what is left in the buffer when it is too small: itoa with a radix may
    have stored the sign *)
Definition partial_sign (m : list Z) (b : view) (v : Z) : list Z :=
  if (v <? 0) && (0 <? vl b) then blit m (vo b) [45] else m.

Lemma itoa_sign_ok m b v :
  vin b m ->
  itoa_sign m b v = Ok (partial_sign m b v, Z.abs v, len (sign_of v)).
Proof.
  intros (Ho & Hl & Hin). unfold itoa_sign, partial_sign. destruct (Z.ltb_spec v 0).
  - rewrite sign_neg by lia. cbn [andb]. replace (- v) with (Z.abs v) by lia.
    destruct (Z.ltb_spec 0 (vl b)); rewrite ?wr_ok by lia; reflexivity.
  - rewrite sign_pos by lia. cbn [andb]. rewrite Z.abs_eq by lia. reflexivity.
Qed.

Lemma partial_sign_blit m b v :
  vin b m -> 1 <= vl b -> partial_sign m b v = blit m (vo b) (sign_of v).
Proof.
  intros (Ho & Hl & Hin) H1. unfold partial_sign, sign_of. destruct (v <? 0); cbn [andb].
  - destruct (Z.ltb_spec 0 (vl b)); [reflexivity|lia].
  - rewrite blit_nil by lia. reflexivity.
Qed.
Lemma len_sign v : 0 <= len (sign_of v) <= 1.
Proof. unfold sign_of. destruct (v <? 0); cbn; lia. Qed.
Lemma vin_partial m b v : vin b m -> vin b (partial_sign m b v).
Proof.
  intros H. unfold partial_sign. destruct ((v <? 0) && (0 <? vl b)) eqn:E; auto.
  destruct H as (Ho & Hl & Hin). apply vin_blit; [repeat split; lia|lia|]. rewrite len1. lia.
Qed.

Lemma wr2_prefix m i c1 c2 j :
  0 <= i -> j = i + 1 -> i + 2 <= len m ->
  (do m1 <- wr m i c1 ;; wr m1 j c2) = Ok (blit m i [c1; c2]).
Proof.
  intros Hi -> Hl. rewrite wr_ok by lia. rewrite bind_ok.
  rewrite wr_ok by (rewrite len_blit; rewrite ?len1; lia).
  rewrite blit_app1 by (rewrite ?len1; lia). reflexivity.
Qed.

Lemma itoa_radix_ok w m b v r :
  vin b m -> vl b < 2 ^ 64 -> in_range (Ity w true) v ->
  itoa_radix w m b v r =
  Ok (if len (int_txt r v) <=? vl b then blit m (vo b) (int_txt r v) else partial_sign m b v,
      len (int_txt r v)).
Proof.
  intros Hin H64 Hv. pose proof (abs_range w v Hv) as Ha.
  pose proof Hin as (Ho & Hl & Hi).
  pose proof (numeral_len_pos (base r) (Z.abs v) (base_ge2 r) ltac:(lia)) as HL.
  pose proof (len_sign v) as HS.
  unfold itoa_radix. destruct (Z.eqb_spec v (imin (Ity w true))) as [Hm|Hm]; cbn [negb].
  - (* minimum *)
    assert (Hneg : v < 0).
    { rewrite Hm, imin_neg. assert (0 < 2 ^ (bits w - 1)) by (apply Z.pow_pos_nonneg; destruct w; cbn; lia). lia. }
    unfold itoa2buf. rewrite maxdigits_ok, <- Hm.
    assert (Hmv : min_value w r = numeral (base r) (Z.abs v)).
    { rewrite min_value_ok. f_equal. rewrite Hm, imin_neg.
      assert (0 < 2 ^ (bits w - 1)) by (apply Z.pow_pos_nonneg; destruct w; cbn; lia). lia. }
    assert (E : (if 0 <? vl b then do m1 <- wr m (vo b) 45 ;; Ok (m1, 1) else Ok (m, 0))
                = Ok (partial_sign m b v, if 0 <? vl b then 1 else 0)).
    { unfold partial_sign. replace (v <? 0) with true by lia. cbn [andb].
      destruct (Z.ltb_spec 0 (vl b)); rewrite ?wr_ok by lia; reflexivity. }
    rewrite E, bind_ok. clear E.
    assert (Hlen : len (int_txt r v) = 1 + (len (pfx r) + len (numeral (base r) (Z.abs v)))).
    { unfold int_txt. rewrite !len_app, sign_neg by lia. reflexivity. }
    pose proof (len_pfx r).
    destruct (Z.leb_spec (len (int_txt r v)) (vl b)) as [Hfit|Hfit].
    + assert (Hps : partial_sign m b v = blit m (vo b) [45]).
      { rewrite partial_sign_blit by (auto; lia). rewrite sign_neg by lia. reflexivity. }
      destruct (Z.ltb_spec 0 (vl b)); [|lia].
      destruct (Z.ltb_spec (vl b) (len (int_txt r v))); [lia|].
      unfold int_txt in *. rewrite sign_neg in * by lia. rewrite Hps, !Hmv.
      set (n := numeral (base r) (Z.abs v)) in *.
      assert (Hrest : forall r', r' = r -> r <> Dec -> 
        (do m1 <- wr (blit m (vo b) [45]) (vo b + 1) 48;;
         do m2 <- wr m1 (vo b + (1 + 1)) (pfx_char r');; itoa2buf_at m2 b (1 + 2) n)
        = Ok (blit m (vo b) ([45] ++ pfx r ++ n), len ([45] ++ pfx r ++ n))).
      { intros r' -> Hr. assert (Hp : pfx r = [48; pfx_char r]) by (rewrite pfx_ok; destruct r; congruence).
        rewrite Hp in *. rewrite len2 in *.
        rewrite wr_ok by (rewrite len_blit; rewrite ?len1; lia). rewrite bind_ok.
        rewrite blit_app1 by (rewrite ?len1; lia).
        rewrite wr_ok by (rewrite len_blit; rewrite ?len_app, ?len1; lia). rewrite bind_ok.
        rewrite blit_app1 by (rewrite ?len_app, ?len1; lia). cbn [app].
        rewrite itoa2buf_at_ok by (try (apply vin_blit; [assumption|lia|]); change (len [45; 48; pfx_char r]) with 3; lia).
        rewrite blit_app1 by (change (len [45; 48; pfx_char r]) with 3; lia).
        cbn [app]. rewrite !len_cons. do 2 f_equal. lia. }
      destruct r; try (apply Hrest; congruence).
      change (pfx Dec) with (@nil Z) in *. cbn [app] in *.
      rewrite ?len_nil, ?len_cons in Hlen. rewrite ?len_cons in Hfit. rewrite Hmv.
      rewrite itoa2buf_at_ok by (try (apply vin_blit; [assumption|lia|]); rewrite ?len1; lia).
      rewrite blit_app1 by (rewrite ?len1; lia). rewrite len_cons. reflexivity.
    + destruct (Z.ltb_spec (vl b) (len (int_txt r v))); [|lia].
      destruct r; reflexivity.
  - rewrite itoa_sign_ok by auto. rewrite bind_ok.
    rewrite (digits_numeral w) by auto.
    set (n := numeral (base r) (Z.abs v)) in *.
    assert (Hlen : len (int_txt r v) = len (sign_of v) + (len (pfx r) + len n)).
    { unfold int_txt. rewrite !len_app. reflexivity. }
    pose proof (vin_partial m b v Hin) as Hinp.
    assert (Hlp : len (partial_sign m b v) = len m).
    { unfold partial_sign. destruct ((v <? 0) && (0 <? vl b)) eqn:E; auto.
      rewrite len_blit; rewrite ?len1; lia. }
    assert (Hrest : r <> Dec ->
      (if len (sign_of v) + 2 + len n <=? vl b
       then
        do m1 <- wr (partial_sign m b v) (vo b + len (sign_of v)) 48;;
        do m2 <- wr m1 (vo b + (len (sign_of v) + 1)) (pfx_char r);;
        do m3 <- write_unchecked r m2 (vsub b (len (sign_of v) + 2)) (Z.abs v) (len n);;
        Ok (m3, len (sign_of v) + (len n + 2))
       else Ok (partial_sign m b v, len (sign_of v) + (len n + 2)))
      = Ok (if len (int_txt r v) <=? vl b then blit m (vo b) (int_txt r v) else partial_sign m b v,
            len (int_txt r v))).
    { intros Hr. assert (Hp : pfx r = [48; pfx_char r]) by (rewrite pfx_ok; destruct r; congruence).
      rewrite Hlen, Hp, len2.
      replace (len (sign_of v) + 2 + len n) with (len (sign_of v) + (2 + len n)) by lia.
      replace (len n + 2) with (2 + len n) by lia.
      destruct (Z.leb_spec (len (sign_of v) + (2 + len n)) (vl b)); [|reflexivity].
      rewrite wr_ok by lia. rewrite bind_ok.
      rewrite wr_ok by (rewrite len_blit; rewrite ?len1; lia). rewrite bind_ok.
      rewrite blit_app1 by (rewrite ?len1; lia). cbn [app].
      destruct (vin_vsub b m (len (sign_of v) + 2) Hin H64 ltac:(lia)) as (V1 & V2 & V3).
      pose proof (digits_numeral w r (Z.abs v) Ha) as Hdn. fold n in Hdn. rewrite <- Hdn at 1.
      rewrite write_unchecked_ok; [| |assumption|rewrite Hdn; lia].
      2:{ destruct V1 as (W1 & W2 & W3). unfold vin. rewrite len_blit; rewrite ?len2; lia. }
      rewrite bind_ok, V2. fold n. rewrite blit_app1 by (rewrite ?len2; lia).
      do 2 f_equal. rewrite partial_sign_blit by (auto; lia).
      rewrite blit_app1; rewrite ?len_app, ?len2; try lia.
      unfold int_txt. fold n. rewrite Hp. reflexivity. }
    destruct r; try (apply Hrest; congruence).
    clear Hrest. change (pfx Dec) with (@nil Z) in *. rewrite len_nil in Hlen. rewrite Hlen.
    replace (0 + len n) with (len n) by lia.
    destruct (Z.leb_spec (len (sign_of v) + len n) (vl b)); [|reflexivity].
    destruct (vin_vsub b m (len (sign_of v)) Hin H64 ltac:(lia)) as (V1 & V2 & V3).
    pose proof (digits_numeral w Dec (Z.abs v) Ha) as Hdn. fold n in Hdn. rewrite <- Hdn at 1.
    cbn [digits base] in *.
    rewrite write_dec_unchecked_ok; [| |assumption|rewrite Hdn; lia].
    2:{ destruct V1 as (W1 & W2 & W3). unfold vin. lia. }
    rewrite bind_ok, V2. fold n.
    rewrite partial_sign_blit by (auto; lia). rewrite blit_app1 by lia.
    unfold int_txt. change (pfx Dec) with (@nil Z). reflexivity.
Qed.

Lemma utoa_ok w m b v :
  vin b m -> 0 <= v < 2 ^ bits w ->
  utoa w m b v =
  Ok (if len (dec_txt v) <=? vl b then blit m (vo b) (dec_txt v) else m, len (dec_txt v)).
Proof.
  intros Hin Hv. unfold utoa, dec_txt. rewrite write_num_ok by auto.
  rewrite sign_pos, Z.abs_eq by lia. reflexivity.
Qed.

Lemma utoa_radix_ok w m b v r :
  vin b m -> vl b < 2 ^ 64 -> 0 <= v < 2 ^ bits w ->
  utoa_radix w m b v r =
  Ok (if len (int_txt r v) <=? vl b then blit m (vo b) (int_txt r v) else m,
      len (int_txt r v)).
Proof.
  intros Hin H64 Hv. pose proof Hin as (Ho & Hl & Hi).
  unfold utoa_radix, int_txt. rewrite sign_pos, Z.abs_eq by lia. cbn [app].
  rewrite (digits_numeral w) by auto. rewrite len_app.
  pose proof (numeral_len_pos (base r) v (base_ge2 r) ltac:(lia)) as HL.
  pose proof (digits_numeral w r v Hv) as Hdn.
  set (n := numeral (base r) v) in *.
  assert (Hrest : r <> Dec ->
    (if len n + 2 <=? vl b
     then do m1 <- wr m (vo b) 48;;
          do m2 <- wr m1 (vo b + 1) (pfx_char r);;
          do m3 <- write_unchecked r m2 (vsub b 2) v (len n);; Ok (m3, len n + 2)
     else Ok (m, len n + 2)) =
    Ok (if len (pfx r) + len n <=? vl b then blit m (vo b) (pfx r ++ n) else m, len (pfx r) + len n)).
  { intros Hr. assert (Hp : pfx r = [48; pfx_char r]) by (rewrite pfx_ok; destruct r; congruence).
    rewrite Hp, len2. replace (len n + 2) with (2 + len n) by lia.
    destruct (Z.leb_spec (2 + len n) (vl b)); [|reflexivity].
    rewrite wr_ok by lia. rewrite bind_ok.
    rewrite wr_ok by (rewrite len_blit; rewrite ?len1; lia). rewrite bind_ok.
    rewrite blit_app1 by (rewrite ?len1; lia). cbn [app].
    destruct (vin_vsub b m 2 Hin H64 ltac:(lia)) as (V1 & V2 & V3).
    rewrite <- Hdn at 1.
    rewrite write_unchecked_ok; [| |assumption|rewrite Hdn; lia].
    2:{ destruct V1 as (W1 & W2 & W3). unfold vin. rewrite len_blit; rewrite ?len2; lia. }
    rewrite bind_ok, V2. fold n. rewrite blit_app1 by (rewrite ?len2; lia). reflexivity. }
  destruct r; try (apply Hrest; congruence).
  change (pfx Dec) with (@nil Z) in *. rewrite len_nil. cbn [app].
  replace (0 + len n) with (len n) by lia.
  destruct (Z.leb_spec (len n) (vl b)); [|reflexivity].
  cbn [digits] in Hdn. rewrite <- Hdn at 1. rewrite write_dec_unchecked_ok by (auto; lia).
  reflexivity.
Qed.

(** ** padded *)
Lemma append_zeros_ok n m b pos :
  vin b m -> 0 <= pos -> pos + Z.of_nat n <= vl b ->
  append_zeros n m b pos = Ok (blit m (vo b + pos) (repeat 48 n), pos + Z.of_nat n).
Proof.
  intros Hin. revert m pos Hin; induction n as [|n IH]; intros m pos Hin Hp Hn; pose proof Hin as (Ho & Hl & Hi).
  - cbn [append_zeros repeat]. rewrite blit_nil by lia. do 2 f_equal. lia.
  - cbn [append_zeros]. destruct (Z.ltb_spec pos (vl b)); [|lia].
    rewrite wr_ok by lia. rewrite bind_ok.
    rewrite IH; [|apply vin_blit; auto; rewrite ?len1; lia|lia|lia].
    rewrite blit_app1; rewrite ?len1, ?len_repeat; try lia.
    do 2 f_equal. lia.
Qed.

Lemma itoa2bufwithdigits_ok m b pos nd val :
  vin b m -> 0 <= pos -> pos + Z.max nd (len val) <= vl b -> 
  itoa2bufwithdigits m b pos nd val =
  Ok (blit m (vo b + pos) (zeros (nd - len val) ++ val), pos + Z.max nd (len val)).
Proof.
  intros Hin Hp Hf. pose proof Hin as (Ho & Hl & Hi). pose proof (len_nonneg val).
  unfold itoa2bufwithdigits.
  set (k := if len val <? nd then nd - len val else 0).
  assert (Hk : k = Z.max 0 (nd - len val)) by (unfold k; destruct (Z.ltb_spec (len val) nd); lia).
  destruct (Z.ltb_spec (vl b) (k + len val)); [lia|].
  rewrite append_zeros_ok by (auto; lia). rewrite bind_ok.
  assert (Hz : repeat 48 (Z.to_nat k) = zeros (nd - len val)) by (unfold zeros; f_equal; lia).
  rewrite Hz. rewrite itoa2buf_at_ok; [|apply vin_blit; auto; rewrite ?len_zeros_max; lia|lia|lia].
  rewrite blit_app1; rewrite ?len_zeros_max; try lia. do 2 f_equal. lia.
Qed.

Definition nd_max : Z := 2 ^ 32 - 4.

Lemma pad_len w r v nd : 0 <= Z.abs v < 2 ^ bits w -> 0 <= nd <= nd_max ->
  len (padded (base r) (Z.abs v) nd) = Z.max nd (len (numeral (base r) (Z.abs v))) /\
  1 <= len (numeral (base r) (Z.abs v)) <= 64 /\
  1 <= len (padded (base r) (Z.abs v) nd) <= nd_max.
Proof.
  intros Hv Hnd. rewrite len_padded.
  pose proof (numeral_len_pos (base r) (Z.abs v) (base_ge2 r) ltac:(lia)).
  pose proof (numeral_len_64 w r (Z.abs v) Hv). unfold nd_max in *. lia.
Qed.

Lemma itoa_nd_ok w m b v r nd :
  vin b m -> vl b < 2 ^ 64 -> in_range (Ity w true) v -> 0 <= nd <= nd_max ->
  itoa_nd w m b v r nd =
  Ok (if len (pad_txt r v nd) <=? vl b then blit m (vo b) (pad_txt r v nd) else partial_sign m b v,
      len (pad_txt r v nd)).
Proof.
  intros Hin H64 Hv Hnd. pose proof (abs_range w v Hv) as Ha.
  pose proof Hin as (Ho & Hl & Hi).
  destruct (pad_len w r v nd Ha Hnd) as (HPL & HL & HPb).
  pose proof (len_sign v) as HS. pose proof (len_pfx r) as HP.
  unfold itoa_nd. destruct (Z.eqb_spec v (imin (Ity w true))) as [Hm|Hm]; cbn [negb].
  - assert (Hpow : 0 < 2 ^ (bits w - 1)) by (apply Z.pow_pos_nonneg; destruct w; cbn; lia).
    assert (Hneg : v < 0) by (rewrite Hm, imin_neg; lia).
    unfold itoa2buf_nd. rewrite maxdigits_ok, <- Hm.
    assert (Hmv : min_value w r = numeral (base r) (Z.abs v)).
    { rewrite min_value_ok. f_equal. rewrite Hm, imin_neg. lia. }
    assert (E : (if 0 <? vl b then do m1 <- wr m (vo b) 45 ;; Ok (m1, 1) else Ok (m, 0))
                = Ok (partial_sign m b v, if 0 <? vl b then 1 else 0)).
    { unfold partial_sign. replace (v <? 0) with true by lia. cbn [andb].
      destruct (Z.ltb_spec 0 (vl b)); rewrite ?wr_ok by lia; reflexivity. }
    rewrite E, bind_ok. clear E.
    assert (Hlen : len (pad_txt r v nd) = 1 + (len (pfx r) + len (padded (base r) (Z.abs v) nd))).
    { unfold pad_txt. rewrite !len_app, sign_neg by lia. reflexivity. }
    assert (Hleni : len (int_txt r v) = 1 + (len (pfx r) + len (numeral (base r) (Z.abs v)))).
    { unfold int_txt. rewrite !len_app, sign_neg by lia. reflexivity. }
    set (n := numeral (base r) (Z.abs v)) in *.
    assert (Hneed : forall k, k = 1 + len (pfx r) ->
       (if len (int_txt r v) <? u64 (nd + k) then u64 (nd + k) else len (int_txt r v)) = len (pad_txt r v nd)).
    { intros k ->. unfold nd_max in *. rewrite u64_id by lia.
      destruct (Z.ltb_spec (len (int_txt r v)) (nd + (1 + len (pfx r)))); lia. }
    destruct (Z.leb_spec (len (pad_txt r v nd)) (vl b)) as [Hfit|Hfit].
    + assert (Hps : partial_sign m b v = blit m (vo b) [45]).
      { rewrite partial_sign_blit by (auto; lia). rewrite sign_neg by lia. reflexivity. }
      destruct (Z.ltb_spec 0 (vl b)); [|lia].
      rewrite Hps, !Hmv. fold n.
      assert (Hnf : vl b <? len (pad_txt r v nd) = false) by lia.
      assert (Hrest : r <> Dec -> pfx r = [48; pfx_char r] ->
        (if vl b <? (if len (int_txt r v) <? u64 (nd + 3) then u64 (nd + 3) else len (int_txt r v))
         then Ok (blit m (vo b) [45], if len (int_txt r v) <? u64 (nd + 3) then u64 (nd + 3) else len (int_txt r v))
         else do m1 <- wr (blit m (vo b) [45]) (vo b + 1) 48;;
              do m2 <- wr m1 (vo b + (1 + 1)) (pfx_char r);; itoa2bufwithdigits m2 b (1 + 2) nd n)
        = Ok (blit m (vo b) (pad_txt r v nd), len (pad_txt r v nd))).
      { intros Hr Hp. rewrite (Hneed 3) by (rewrite Hp, len2; lia). rewrite Hnf.
        rewrite Hp, len2 in *.
        rewrite wr_ok by (rewrite len_blit; rewrite ?len1; lia). rewrite bind_ok.
        rewrite blit_app1 by (rewrite ?len1; lia).
        rewrite wr_ok by (rewrite len_blit; rewrite ?len_app, ?len1; lia). rewrite bind_ok.
        rewrite blit_app1 by (rewrite ?len_app, ?len1; lia). cbn [app].
        rewrite itoa2bufwithdigits_ok by (try (apply vin_blit; [assumption|lia|]); change (len [45; 48; pfx_char r]) with 3; lia).
        rewrite blit_app1 by (change (len [45; 48; pfx_char r]) with 3; rewrite ?len_app, ?len_zeros_max; lia).
        unfold pad_txt, padded. fold n. rewrite sign_neg, Hp by lia. cbn [app].
        do 2 f_equal. rewrite !len_cons, len_app, len_zeros_max. lia. }
      destruct r; try (apply Hrest; [congruence|reflexivity]).
      change (pfx Dec) with (@nil Z) in *. rewrite len_nil in *.
      rewrite (Hneed 1) by lia. rewrite Hnf, Hmv.
      rewrite itoa2bufwithdigits_ok by (try (apply vin_blit; [assumption|lia|]); rewrite ?len1; lia).
      rewrite blit_app1 by (rewrite ?len_app, ?len_zeros_max, ?len1; lia).
      unfold pad_txt, padded. fold n. rewrite sign_neg by lia. change (pfx Dec) with (@nil Z). cbn [app].
      do 2 f_equal. rewrite !len_cons, len_app, len_zeros_max. lia.
    + destruct r; [rewrite (Hneed 1) by reflexivity|rewrite (Hneed 3) by reflexivity..];
        (replace (vl b <? len (pad_txt _ v nd)) with true by lia); reflexivity.
  - rewrite itoa_sign_ok by auto. rewrite bind_ok.
    rewrite (digits_numeral w) by auto.
    set (n := numeral (base r) (Z.abs v)) in *.
    assert (Hlen : len (pad_txt r v nd) = len (sign_of v) + (len (pfx r) + len (padded (base r) (Z.abs v) nd))).
    { unfold pad_txt. rewrite !len_app. reflexivity. }
    pose proof (vin_partial m b v Hin) as Hinp.
    assert (Hlp : len (partial_sign m b v) = len m).
    { unfold partial_sign. destruct ((v <? 0) && (0 <? vl b)) eqn:E; auto.
      rewrite len_blit; rewrite ?len1; lia. }
    assert (Hmax : (if len n <? nd then nd else len n) = len (padded (base r) (Z.abs v) nd)).
    { rewrite HPL. destruct (Z.ltb_spec (len n) nd); lia. }
    rewrite Hmax. rewrite (u32_id (len (padded (base r) (Z.abs v) nd))) by (unfold nd_max in *; lia).
    assert (Hrest : r <> Dec -> pfx r = [48; pfx_char r] ->
      (if u32 (len (sign_of v) + 2 + len (padded (base r) (Z.abs v) nd)) <=? vl b
       then
        do m1 <- wr (partial_sign m b v) (vo b + len (sign_of v)) 48;;
        do m2 <- wr m1 (vo b + (len (sign_of v) + 1)) (pfx_char r);;
        (if negb (sub_ok b (len (sign_of v) + 2)) then Err else
        do '(m3, _) <- write_num_digits w r m2 (vsub b (len (sign_of v) + 2)) (Z.abs v) nd;;
        Ok (m3, u32 (len (sign_of v) + 2 + len (padded (base r) (Z.abs v) nd))))
       else Ok (partial_sign m b v, u32 (len (sign_of v) + 2 + len (padded (base r) (Z.abs v) nd))))
      = Ok (if len (pad_txt r v nd) <=? vl b then blit m (vo b) (pad_txt r v nd) else partial_sign m b v,
            len (pad_txt r v nd))).
    { intros Hr Hp. rewrite Hp, len2 in Hlen.
      replace (u32 (len (sign_of v) + 2 + len (padded (base r) (Z.abs v) nd)))
        with (len (pad_txt r v nd)) by (unfold nd_max in *; rewrite u32_id; lia).
      destruct (Z.leb_spec (len (pad_txt r v nd)) (vl b)) as [Hfit|Hfit]; [|reflexivity].
      rewrite wr_ok by lia. rewrite bind_ok.
      rewrite wr_ok by (rewrite len_blit; rewrite ?len1; lia). rewrite bind_ok.
      rewrite blit_app1 by (rewrite ?len1; lia). cbn [app].
      destruct (vin_vsub b m (len (sign_of v) + 2) Hin H64 ltac:(lia)) as (V1 & V2 & V3).
      unfold sub_ok. replace (len (sign_of v) + 2 <=? vl b) with true by lia. cbn [negb].
      rewrite write_num_digits_ok; [| |assumption|unfold nd_max in *; lia].
      2:{ destruct V1 as (W1 & W2 & W3). unfold vin. rewrite len_blit; rewrite ?len2; lia. }
      rewrite bind_ok, V2, V3.
      replace (len (padded (base r) (Z.abs v) nd) <=? vl b - (len (sign_of v) + 2)) with true by lia.
      rewrite blit_app1 by (rewrite ?len2; lia).
      do 2 f_equal. rewrite partial_sign_blit by (auto; lia).
      rewrite blit_app1; rewrite ?len_app, ?len2; try lia.
      unfold pad_txt. rewrite Hp. reflexivity. }
    destruct r; try (apply Hrest; [congruence|reflexivity]).
    clear Hrest. change (pfx Dec) with (@nil Z) in *. rewrite len_nil in Hlen. cbn [base] in *.
    replace (u32 (len (sign_of v) + len (padded 10 (Z.abs v) nd)))
        with (len (pad_txt Dec v nd)) by (unfold nd_max in *; rewrite u32_id; lia).
    destruct (Z.leb_spec (len (pad_txt Dec v nd)) (vl b)) as [Hfit|Hfit]; [|reflexivity].
    destruct (vin_vsub b m (len (sign_of v)) Hin H64 ltac:(lia)) as (V1 & V2 & V3).
    unfold sub_ok. replace (len (sign_of v) <=? vl b) with true by lia. cbn [negb].
    rewrite write_num_digits_ok; [| |assumption|unfold nd_max in *; lia].
    2:{ destruct V1 as (W1 & W2 & W3). unfold vin. lia. }
    rewrite bind_ok, V2, V3. cbn [base].
    replace (len (padded 10 (Z.abs v) nd) <=? vl b - len (sign_of v)) with true by lia.
    rewrite partial_sign_blit by (auto; lia). rewrite blit_app1 by lia.
    unfold pad_txt. change (pfx Dec) with (@nil Z). reflexivity.
Qed.

Lemma utoa_nd_ok w m b v r nd :
  vin b m -> vl b < 2 ^ 64 -> 0 <= v < 2 ^ bits w -> 0 <= nd <= nd_max ->
  utoa_nd w m b v r nd =
  Ok (if len (pad_txt r v nd) <=? vl b then blit m (vo b) (pad_txt r v nd) else m,
      len (pad_txt r v nd)).
Proof.
  intros Hin H64 Hv Hnd. pose proof Hin as (Ho & Hl & Hi).
  assert (Hva : Z.abs v = v) by lia.
  destruct (pad_len w r v nd ltac:(lia) Hnd) as (HPL & HL & HPb). rewrite Hva in *.
  pose proof (len_pfx r) as HP.
  unfold utoa_nd. rewrite (digits_numeral w) by auto.
  set (n := numeral (base r) v) in *.
  assert (Hlen : len (pad_txt r v nd) = len (pfx r) + len (padded (base r) v nd)).
  { unfold pad_txt. rewrite !len_app, sign_pos, Hva by lia. reflexivity. }
  assert (Hmax : (if len n <? nd then nd else len n) = len (padded (base r) v nd)).
  { rewrite HPL. destruct (Z.ltb_spec (len n) nd); lia. }
  rewrite Hmax. rewrite (u32_id (len (padded (base r) v nd))) by (unfold nd_max in *; lia).
  assert (Hrest : r <> Dec -> pfx r = [48; pfx_char r] ->
    (if u32 (2 + len (padded (base r) v nd)) <=? vl b
     then do m1 <- wr m (vo b) 48;; do m2 <- wr m1 (vo b + 1) (pfx_char r);;
      (if negb (sub_ok b 2) then Err else
       do '(m3, _) <- write_num_digits w r m2 (vsub b 2) v nd;;
       Ok (m3, u32 (2 + len (padded (base r) v nd))))
     else Ok (m, u32 (2 + len (padded (base r) v nd))))
    = Ok (if len (pad_txt r v nd) <=? vl b then blit m (vo b) (pad_txt r v nd) else m,
          len (pad_txt r v nd))).
  { intros Hr Hp. rewrite Hp, len2 in Hlen.
    replace (u32 (2 + len (padded (base r) v nd)))
      with (len (pad_txt r v nd)) by (unfold nd_max in *; rewrite u32_id; lia).
    destruct (Z.leb_spec (len (pad_txt r v nd)) (vl b)) as [Hfit|Hfit]; [|reflexivity].
    rewrite wr_ok by lia. rewrite bind_ok.
    rewrite wr_ok by (rewrite len_blit; rewrite ?len1; lia). rewrite bind_ok.
    rewrite blit_app1 by (rewrite ?len1; lia). cbn [app].
    destruct (vin_vsub b m 2 Hin H64 ltac:(lia)) as (V1 & V2 & V3).
    unfold sub_ok. replace (2 <=? vl b) with true by lia. cbn [negb].
    rewrite write_num_digits_ok; [| |assumption|unfold nd_max in *; lia].
    2:{ destruct V1 as (W1 & W2 & W3). unfold vin. rewrite len_blit; rewrite ?len2; lia. }
    rewrite bind_ok, V2, V3.
    replace (len (padded (base r) v nd) <=? vl b - 2) with true by lia.
    rewrite blit_app1 by (rewrite ?len2; lia).
    unfold pad_txt. rewrite Hp, sign_pos, Hva by lia. reflexivity. }
  destruct r; try (apply Hrest; [congruence|reflexivity]).
  clear Hrest. change (pfx Dec) with (@nil Z) in *. rewrite len_nil in Hlen.
  replace (len (padded (base Dec) v nd)) with (len (pad_txt Dec v nd)) by lia.
  destruct (Z.leb_spec (len (pad_txt Dec v nd)) (vl b)) as [Hfit|Hfit]; [|reflexivity].
  rewrite write_num_digits_ok by (auto; unfold nd_max in *; lia). rewrite bind_ok.
  replace (len (padded (base Dec) v nd) <=? vl b) with true by lia.
  unfold pad_txt. change (pfx Dec) with (@nil Z). rewrite sign_pos, Hva by lia. reflexivity.
Qed.
