(** Properties C34-C40: base64 and UTF-8. *)
From Verif Require Import Base BaseLemmas CharconvModel SubstrModel Base64Model Base64Spec SubstrProofs SubstrProofs2 SubstrProofs3 CharconvSpec CharconvProofs4 CharconvProofs5 Base64Proofs Base64Proofs2 Base64Proofs3.

(** [dbg] is whether assertions are compiled in: the theorems hold for both. *)

(** ** C34: base64 round trip *)
Theorem C34_roundtrip : forall dbg m b data m2 b2, vin b m -> vin b2 m2 -> bytes data -> len data < 2 ^ 63 ->
  let n := 4 * ((len data + 2) / 3) in
  n <= vl b -> len data <= vl b2 ->
  exists m', base64_encode dbg m b data = Ok (m', n) /\
    base64_decode dbg (contents m' (View (vo b) n)) m2 b2 = Ok (blit m2 (vo b2) data, len data).
Proof.
  intros dbg m b data m2 b2 Hb Hb2 Hd Hl n Hn Hn2. exists (stored m b (rfc_encode data)).
  split; [apply encode_ok; auto|].
  pose proof (rfc_len data) as HL. fold n in HL. destruct Hb as (H1 & H2 & H3).
  assert (E : contents (stored m b (rfc_encode data)) (View (vo b) n) = rfc_encode data).
  { unfold contents, stored. cbn [vo vl]. rewrite firstn_all2 by (unfold len in *; lia).
    rewrite <- HL. apply slice_blit_same; lia. }
  rewrite E. rewrite (decode_ok dbg true m2 b2 _ data); auto using text_of_encode; [|lia].
  unfold stored. rewrite firstn_all2 by (unfold len in *; lia). reflexivity.
Qed.
Print Assumptions C34_roundtrip.

Example C34_ex : exists m,
  base64_encode true (repeat 0 10) (View 1 8) [0; 255; 128; 7] = Ok (m, 8) /\
  contents m (View 1 8) = s2z "AP+ABw==" /\
  base64_decode true (s2z "AP+ABw==") (repeat 9 6) (View 1 4) = Ok ([9; 0; 255; 128; 7; 9], 4).
Proof. eexists. repeat split; reflexivity. Qed.

(** ** C35: the encoder writes the RFC 4648 text *)
Theorem C35_encode : forall dbg m b data, vin b m -> bytes data -> len data < 2 ^ 63 ->
  base64_encode dbg m b data = Ok (stored m b (rfc_encode data), 4 * ((len data + 2) / 3)).
Proof. exact encode_ok. Qed.
Print Assumptions C35_encode.

Theorem C35_text : forall data, bytes data ->
  len (rfc_encode data) = 4 * ((len data + 2) / 3) /\
  rfc_text true (rfc_encode data) data /\ base64_valid (rfc_encode data) = Ok true.
Proof.
  intros data Hd. split; [apply rfc_len|]. split; [apply text_of_encode; auto|].
  eapply rfc_text_valid. apply text_of_encode; auto.
Qed.
Print Assumptions C35_text.

(** RFC 4648 section 10 *)
Example C35_ex1 : map rfc_encode [s2z ""; s2z "f"; s2z "fo"; s2z "foo"; s2z "foob"; s2z "fooba"; s2z "foobar"]
  = [s2z ""; s2z "Zg=="; s2z "Zm8="; s2z "Zm9v"; s2z "Zm9vYg=="; s2z "Zm9vYmE="; s2z "Zm9vYmFy"].
Proof. reflexivity. Qed.
Example C35_ex2 : base64_encode true (repeat 0 8) (View 0 8) (s2z "fooba") = Ok (s2z "Zm9vYmE=", 8).
Proof. reflexivity. Qed.

(** ** C36: buffer discipline *)
Lemma stored_outside m b t : vin b m -> same_outside m (stored m b t) b.
Proof.
  intros (H1 & H2 & H3). unfold stored.
  assert (HL : len (firstn (Z.to_nat (vl b)) t) = Z.min (vl b) (len t)) by (apply len_firstn; lia).
  pose proof (len_nonneg t).
  split; [apply len_blit; lia|]. intros k Hk Ho. rewrite nth_blit by lia.
  replace ((vo b <=? k) && _) with false by lia. reflexivity.
Qed.

Theorem C36_encode : forall dbg m b data, vin b m -> bytes data -> len data < 2 ^ 63 ->
  exists m', base64_encode dbg m b data = Ok (m', len (rfc_encode data)) /\ same_outside m m' b /\
    contents m' (View (vo b) (Z.min (vl b) (len (rfc_encode data)))) = firstn (Z.to_nat (vl b)) (rfc_encode data).
Proof.
  intros dbg m b data Hb Hd Hl. exists (stored m b (rfc_encode data)). rewrite rfc_len.
  split; [apply encode_ok; auto|]. split; [apply stored_outside; auto|].
  rewrite <- rfc_len. destruct Hb as (H1 & H2 & H3). unfold contents, stored. cbn [vo vl].
  rewrite <- len_firstn by lia. apply slice_blit_same; [lia|]. rewrite len_firstn by lia. lia.
Qed.
Print Assumptions C36_encode.

Theorem C36_decode : forall dbg strict m b s d, vin b m -> rfc_text strict s d -> len d < 2 ^ 64 ->
  exists m', base64_decode dbg s m b = Ok (m', len d) /\ same_outside m m' b /\
    contents m' (View (vo b) (Z.min (vl b) (len d))) = firstn (Z.to_nat (vl b)) d.
Proof.
  intros dbg strict m b s d Hb Hd Hl. exists (stored m b d).
  split; [eapply decode_ok; eauto|]. split; [apply stored_outside; auto|].
  destruct Hb as (H1 & H2 & H3). unfold contents, stored. cbn [vo vl].
  rewrite <- len_firstn by lia. apply slice_blit_same; [lia|]. rewrite len_firstn by lia. lia.
Qed.
Print Assumptions C36_decode.

(** any text at all: with assertions, or when base64_valid holds, there is no
    out-of-bounds access and nothing outside the buffer changes *)
Theorem C36_decode_safe : forall dbg s m b, vin b m -> bytes s ->
  dbg = true \/ base64_valid s = Ok true ->
  match base64_decode dbg s m b with
  | Ok (m', _) => same_outside m m' b
  | Err => True
  | Ub => False
  end.
Proof. intros. apply decode_safe; auto. Qed.
Print Assumptions C36_decode_safe.

Example C36_ex1 : base64_encode true (repeat 1 5) (View 1 3) (s2z "foo") = Ok (1 :: s2z "Zm9" ++ [1], 4).
Proof. reflexivity. Qed.
Example C36_ex2 : base64_decode true (s2z "Zm9v") (repeat 1 4) (View 1 2) = Ok (1 :: s2z "fo" ++ [1], 3).
Proof. reflexivity. Qed.
(** without assertions a byte above 127 indexes before the table *)
Example C36_ex3 : base64_decode false [200; 65; 65; 65] (repeat 1 4) (View 0 4) = Ub.
Proof. reflexivity. Qed.

(** ** C37: base64_valid *)
Theorem C37_exact_partial : forall s, bytes s ->
  exists b, base64_valid s = Ok b /\ (b = true <-> len s mod 4 = 0 /\ Forall (fun c => c = ch "=" \/ alphabet c) s).
Proof. exact valid_spec. Qed.
Print Assumptions C37_exact_partial.

Theorem C37_accepts : forall strict s d, rfc_text strict s d -> base64_valid s = Ok true.
Proof. exact rfc_text_valid. Qed.
Print Assumptions C37_accepts.

(** it accepts '=' anywhere; the decoder then invents bytes or fails an assertion *)
Theorem C37_padding_refuted :
  exists s, bytes s /\ base64_valid s = Ok true /\ (forall strict d, ~ rfc_text strict s d) /\
    base64_decode true s [0; 0; 0] (View 0 3) = Ok ([255; 0; 0], 1).
Proof.
  exists (s2z "===="). split; [cbn; repeat (apply Forall_cons; [unfold is_byte; lia|]); apply Forall_nil|].
  split; [reflexivity|]. split; [|reflexivity].
  intros strict d H. assert (E : forall v, 0 <= v < 64 -> alpha v <> ch "=") by (intros v Hv; apply alpha_range; auto).
  unfold s2z in H. inversion H as [|a b va vb [Ha Ea] Hb Hs|a b c va vb vc [Ha Ea] Hb Hc Hs|a b c x va vb vc vx r dr [Ha Ea] Hb Hc Hd Hr];
    apply (E va Ha); rewrite <- Ea; reflexivity.
Qed.
Print Assumptions C37_padding_refuted.

Theorem C37_middle_refuted :
  base64_valid (s2z "AA==AAAA") = Ok true /\
  base64_decode true (s2z "AA==AAAA") [9; 9; 9; 9] (View 0 4) = Err /\
  base64_decode false (s2z "AA==AAAA") [9; 9; 9; 9] (View 0 4) = Ok ([0; 9; 9; 9], 1) /\
  base64_valid (s2z "A=BC") = Ok true /\
  base64_decode true (s2z "A=BC") [9; 9; 9] (View 0 3) = Ok ([255; 240; 66], 3).
Proof. repeat split; reflexivity. Qed.
Print Assumptions C37_middle_refuted.

Example C37_ex1 : base64_valid (s2z "Zm9vYg==") = Ok true /\ base64_valid (s2z "Zm9vYg=") = Ok false /\
  base64_valid (s2z "Zm9v Zg=") = Ok false /\ base64_valid [65; 65; 65; 195] = Ok false.
Proof. repeat split; reflexivity. Qed.

(** ** C38: decode then encode on canonical text *)
Theorem C38_roundtrip : forall dbg s d m b m2 b2, vin b m -> vin b2 m2 -> rfc_text true s d -> len d < 2 ^ 63 ->
  len d <= vl b -> len s <= vl b2 ->
  exists m', base64_decode dbg s m b = Ok (m', len d) /\
    base64_encode dbg m2 b2 (contents m' (View (vo b) (len d))) = Ok (blit m2 (vo b2) s, len s).
Proof.
  intros dbg s d m b m2 b2 Hb Hb2 H Hl Hd Hs. exists (stored m b d).
  split; [eapply decode_ok; eauto; lia|].
  destruct Hb as (H1 & H2 & H3).
  assert (E : contents (stored m b d) (View (vo b) (len d)) = d).
  { unfold contents, stored. cbn [vo vl]. rewrite firstn_all2 by (unfold len in *; lia). apply slice_blit_same; lia. }
  rewrite E. rewrite encode_ok; auto; [|eapply rfc_text_bytes; eauto].
  pose proof (encode_of_text s d H) as Es. rewrite <- rfc_len, Es. unfold stored.
  rewrite firstn_all2 by (unfold len in *; lia). reflexivity.
Qed.
Print Assumptions C38_roundtrip.

(** decoding is injective on canonical texts, and the texts are functional *)
Theorem C38_injective : forall s1 s2 d, rfc_text true s1 d -> rfc_text true s2 d -> s1 = s2.
Proof. intros s1 s2 d H1 H2. apply encode_of_text in H1. apply encode_of_text in H2. congruence. Qed.
Print Assumptions C38_injective.

Example C38_ex : rfc_text true (s2z "Zm8=") (s2z "fo") /\ base64_decode true (s2z "Zm8=") [0; 0] (View 0 2) = Ok (s2z "fo", 2).
Proof. split; [|reflexivity]. apply (text_of_encode (s2z "fo")). cbn. repeat (apply Forall_cons; [unfold is_byte; lia|]); apply Forall_nil. Qed.
(** "Zm9=" is not canonical: it decodes to the same bytes *)
Example C38_ex2 : base64_decode true (s2z "Zm9=") [0; 0] (View 0 2) = Ok (s2z "fo", 2).
Proof. reflexivity. Qed.

(** ** C39: the UTF-8 encoder *)
Theorem C39_encode : forall dbg m b c, vin b m -> 0 <= c <= 1114111 ->
  (dbg = true -> 4 <= vl b) -> len (utf8 c) <= vl b ->
  decode_code_point dbg m b c = Ok (blit m (vo b) (utf8 c), len (utf8 c)).
Proof. exact code_point_ok. Qed.
Print Assumptions C39_encode.

Theorem C39_above : forall dbg m b c, 1114111 < c -> 4 <= vl b -> decode_code_point dbg m b c = Ok (m, 0).
Proof. exact code_point_above. Qed.
Print Assumptions C39_above.

Theorem C39_back : forall c, 0 <= c <= 1114111 -> utf8_value (utf8 c) = Some c /\ 1 <= len (utf8 c) <= 4.
Proof. intros c Hc. split; [apply utf8_back; auto|apply utf8_len; lia]. Qed.
Print Assumptions C39_back.

Theorem C39_prefix_free : forall a b r, 0 <= a <= 1114111 -> 0 <= b <= 1114111 -> utf8 a ++ r = utf8 b -> a = b.
Proof. exact utf8_prefix_free. Qed.
Print Assumptions C39_prefix_free.

Lemma hex_bound s v : digit_text 16 s v -> 0 <= v < 16 ^ len s.
Proof.
  intros (_ & ds & HF & <-). unfold positional.
  assert (G : forall s ds a, Forall2 (fun c d => char_digit c = Some d /\ d < 16) s ds -> 0 <= a ->
    0 <= fold_left (fun a d => a * 16 + d) ds a < (a + 1) * 16 ^ len s).
  { clear. induction s as [|c s IH]; intros ds a HF Ha; inversion HF as [|? d ? ds' [Hc Hd] HF']; subst.
    - cbn. lia.
    - cbn [fold_left]. assert (0 <= d) by (unfold char_digit in Hc; destruct (_ && _) eqn:? in Hc; [injection Hc as <-; lia|]; destruct (_ && _) eqn:? in Hc; [injection Hc as <-; lia|]; destruct (_ && _) eqn:? in Hc; [injection Hc as <-; lia|discriminate]).
      specialize (IH ds' (a * 16 + d) HF' ltac:(lia)). rewrite len_cons. pose proof (len_nonneg s).
      rewrite Z.pow_add_r by lia. pose proof (Z.pow_pos_nonneg 16 (len s) ltac:(lia) ltac:(lia)). nia. }
  specialize (G s ds 0 HF ltac:(lia)). lia.
Qed.

(** the string version: hexadecimal digits without leading zero *)
Theorem C39_from_text : forall m b s v, vin b m -> 4 <= vl b -> bytes s -> digit_text 16 s v -> len s <= 8 ->
  (forall r, s <> ch "0" :: r) ->
  decode_code_point_str m b s =
    if v <=? 1114111 then Ok (blit m (vo b) (utf8 v), View (vo b) (len (utf8 v)))
    else Ok (m, View (vo b) 0).
Proof.
  intros m b s v Hb H4 Hs Hd Hl H0. pose proof (hex_bound s v Hd) as Hv.
  assert (16 ^ len s <= 16 ^ 8) by (apply Z.pow_le_mono_r; lia).
  unfold decode_code_point_str, assert. replace (4 <=? vl b) with true by lia.
  assert (Hpre : forall p r, s = p :: r -> p <> 85 /\ p <> 92).
  { intros p r ->. destruct Hd as (_ & ds & HF & _). inversion HF as [|? d ? ds' [Hc Hdd] HF']; subst.
    split; intros ->; unfold char_digit in Hc; cbn in Hc; [injection Hc as <-; lia|discriminate]. }
  assert (Hb2 : forall p q, p = 85 \/ p = 92 -> begins_with s [p; q] = Ok false).
  { intros p q Hp. destruct (begins_with_ok s [p; q]) as (x & -> & Hx). destruct x; [|reflexivity].
    destruct (proj1 Hx eq_refl) as (r & Er). destruct (Hpre p (q :: r) Er). lia. }
  change (s2z "U+") with [85; 43]. change (s2z "\x") with [92; 120]. change (s2z "\u") with [92; 117]. change (s2z "\U") with [92; 85].
  rewrite !Hb2 by lia. cbn [bind negb].
  destruct (begins_with_c_ok s (ch "0")) as (x & -> & Hx). destruct x.
  { destruct (proj1 Hx eq_refl) as (r & Er). elim (H0 r Er). }
  cbn [bind negb]. replace (len s <=? 8) with true by lia.
  assert (0 < len s) by (destruct Hd as (Hn & _); destruct s; [congruence|rewrite len_cons; pose proof (len_nonneg s); lia]).
  replace (0 <? len s) with true by lia.
  rewrite (read_num_value Hex u32t s v) by auto. cbn [bind].
  assert (Ew : wrap u32t v = v) by (apply wrap_id; unfold in_range; cbn; lia). rewrite Ew.
  destruct (Z.leb_spec v 1114111).
  - pose proof (utf8_len v ltac:(lia)). rewrite code_point_ok by (auto; lia). cbn [bind].
    replace (len (utf8 v) <=? 4) with true by lia. unfold vfirst, assert.
    replace (len (utf8 v) <=? vl b) with true by lia. cbn [orb bind].
    replace (len (utf8 v) =? npos) with false by (unfold npos; lia). cbn [vo vl]. rewrite Z.add_0_r. reflexivity.
  - rewrite code_point_above by lia. cbn [bind]. change (0 <=? 4) with true. cbn iota. unfold vfirst, assert.
    replace (0 <=? vl b) with true by lia. cbn [orb bind]. change (0 =? npos) with false. cbn [vo vl]. rewrite Z.add_0_r. reflexivity.
Qed.
Print Assumptions C39_from_text.

(** anything that is not a hexadecimal number is an error *)
Theorem C39_text_reject : forall m b s, vin b m -> bytes s -> ~ (exists v, digit_text 16 s v) ->
  decode_code_point_str m b s = Err.
Proof.
  intros m b s Hb Hs Hd. unfold decode_code_point_str, assert.
  destruct (4 <=? vl b); [|reflexivity].
  destruct (begins_with_ok s (s2z "U+")) as (b1 & -> & _); cbn [bind]; destruct b1; [reflexivity|cbn [negb]].
  destruct (begins_with_ok s (s2z "\x")) as (b2 & -> & _); cbn [bind]; destruct b2; [reflexivity|cbn [negb]].
  destruct (begins_with_ok s (s2z "\u")) as (b3 & -> & _); cbn [bind]; destruct b3; [reflexivity|cbn [negb]].
  destruct (begins_with_ok s (s2z "\U")) as (b4 & -> & _); cbn [bind]; destruct b4; [reflexivity|cbn [negb]].
  destruct (begins_with_c_ok s (ch "0")) as (b5 & -> & _); cbn [bind]; destruct b5; [reflexivity|cbn [negb]].
  destruct (len s <=? 8); [|reflexivity].
  destruct (Z.ltb_spec 0 (len s)); [|reflexivity].
  destruct (read_num_reject Hex u32t s) as (x & ->); auto. intros ->. change (len (@nil Z)) with 0 in *. lia.
Qed.
Print Assumptions C39_text_reject.

Example C39_ex1 : map utf8 [36; 163; 8364; 66376] = [[36]; [194; 163]; [226; 130; 172]; [240; 144; 141; 136]].
Proof. reflexivity. Qed.
Example C39_ex2 : decode_code_point_str (repeat 7 6) (View 1 4) (s2z "20aC") = Ok ([7; 226; 130; 172; 7; 7], View 1 3).
Proof. reflexivity. Qed.
Example C39_ex3 : decode_code_point_str (repeat 7 6) (View 1 4) (s2z "U+20ac") = Err. Proof. reflexivity. Qed.

(** ** C40: well-formed output *)
Theorem C40_wellformed_partial : forall dbg m b c, vin b m -> scalar c -> 4 <= vl b ->
  exists s, decode_code_point dbg m b c = Ok (blit m (vo b) s, len s) /\ wf_utf8 s.
Proof.
  intros dbg m b c Hb Hc H4. pose proof Hc as [Hr _]. pose proof (utf8_len c ltac:(lia)).
  exists (utf8 c). split; [apply code_point_ok; auto; lia|apply utf8_wf; auto].
Qed.
Print Assumptions C40_wellformed_partial.

(** all well-formed sequences are produced *)
Theorem C40_onto : forall s, wf_utf8 s -> exists c, scalar c /\ s = utf8 c.
Proof. exact wf_utf8_scalar. Qed.
Print Assumptions C40_onto.

(** every surrogate is encoded, to an ill-formed sequence *)
Theorem C40_surrogates_refuted : forall dbg m b c, vin b m -> 4 <= vl b -> 55296 <= c <= 57343 ->
  decode_code_point dbg m b c = Ok (blit m (vo b) (utf8 c), 3) /\ ~ wf_utf8 (utf8 c).
Proof.
  intros dbg m b c Hb H4 Hc. destruct (surrogate_not_wf c Hc) as [E H]. split; [|auto].
  rewrite code_point_ok by (auto; lia). rewrite E. reflexivity.
Qed.
Print Assumptions C40_surrogates_refuted.

Example C40_ex : decode_code_point true (repeat 0 4) (View 0 4) 55296 = Ok ([237; 160; 128; 0], 3). Proof. reflexivity. Qed.
