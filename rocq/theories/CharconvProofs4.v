(** Round trips and overflow detection. *)
From Verif Require Import Base BaseLemmas ScanModel CharconvModel CharconvSpec CharconvProofs CharconvProofs2 CharconvProofs3.

(** ** written texts are readable *)
Lemma char_digit_char d : 0 <= d < 36 -> char_digit (digit_char d) = Some d.
Proof.
  intros H. unfold digit_char, char_digit. destruct (Z.ltb_spec d 10).
  - replace ((48 <=? 48 + d) && (48 + d <=? 57)) with true by lia. f_equal; lia.
  - replace ((48 <=? 97 + (d - 10)) && (97 + (d - 10) <=? 57)) with false by lia.
    replace ((97 <=? 97 + (d - 10)) && (97 + (d - 10) <=? 122)) with true by lia. f_equal; lia.
Qed.
Lemma digits_forall2 b ds : b <= 36 -> Forall (fun d => 0 <= d < b) ds ->
  Forall2 (fun c d => char_digit c = Some d /\ d < b) (map digit_char ds) ds.
Proof.
  intros Hb. induction 1; cbn; constructor; auto. split; [apply char_digit_char|]; lia.
Qed.
Lemma positional_zeros b n ds : positional b (repeat 0 n ++ ds) = positional b ds.
Proof.
  rewrite positional_app. replace (positional b (repeat 0 n)) with 0; [reflexivity|].
  induction n; cbn [repeat]; [reflexivity|]. rewrite positional_cons. lia.
Qed.
Lemma zeros_map n : zeros n = map digit_char (repeat 0 (Z.to_nat n)).
Proof. unfold zeros. induction (Z.to_nat n); cbn; f_equal; auto. Qed.

Lemma padded_digit_text b v nd :
  2 <= b <= 36 -> 0 <= v -> digit_text b (padded b v nd) v.
Proof.
  intros Hb Hv. unfold padded. destruct (ddigits_canonical b v ltac:(lia) Hv) as [Hne Hds Hl Hp].
  set (k := nd - len (numeral b v)). split.
  - unfold numeral. destruct (ddigits b v); [congruence|]. destruct (zeros k); discriminate.
  - exists (repeat 0 (Z.to_nat k) ++ ddigits b v). split.
    + rewrite zeros_map. unfold numeral. rewrite <- map_app. apply digits_forall2; [lia|].
      apply Forall_app; split; auto. apply Forall_forall. intros x Hx. apply repeat_spec in Hx. lia.
    + rewrite positional_zeros; auto.
Qed.
Lemma padded_0 b v : 2 <= b -> 0 <= v -> padded b v 0 = numeral b v.
Proof.
  intros. unfold padded. pose proof (numeral_len_pos b v ltac:(lia) ltac:(lia)).
  rewrite zeros_neg by lia. reflexivity.
Qed.
Lemma numeral_digit_text b v : 2 <= b <= 36 -> 0 <= v -> digit_text b (numeral b v) v.
Proof. intros. rewrite <- padded_0 by lia. apply padded_digit_text; lia. Qed.

Lemma pad_txt_unsigned r v nd : 0 <= v -> unsigned_text (pfx r ++ padded (base r) v nd) v.
Proof.
  intros Hv. pose proof (padded_digit_text (base r) v nd ltac:(destruct r; cbn; lia) Hv) as H.
  destruct r; cbn [base] in *.
  - apply ut_dec; auto.
  - apply (ut_hex (ch "x")); auto.
  - apply (ut_oct (ch "o")); auto.
  - apply (ut_bin (ch "b")); auto.
Qed.
Lemma pad_txt_signed r v nd : signed_text (pad_txt r v nd) v.
Proof.
  unfold pad_txt. pose proof (pad_txt_unsigned r (Z.abs v) nd ltac:(lia)) as H.
  unfold sign_of. destruct (Z.ltb_spec v 0).
  - replace v with (- Z.abs v) at 2 by lia. apply (st_neg _ (Z.abs v)). auto.
  - rewrite Z.abs_eq in * by lia. apply st_pos. auto.
Qed.
Lemma int_txt_pad r v : int_txt r v = pad_txt r v 0.
Proof. unfold int_txt, pad_txt. rewrite padded_0; auto; [apply base_ge2|lia]. Qed.
Lemma dec_txt_int v : dec_txt v = int_txt Dec v.
Proof. reflexivity. Qed.

Lemma in_range_nonneg t v : isgn t = false -> in_range t v -> 0 <= v < 2 ^ bits (iw t).
Proof. unfold in_range, imin, imax. intros ->. lia. Qed.

Lemma pad_txt_int_text t r v nd : in_range t v -> int_text t (pad_txt r v nd) v.
Proof.
  intros Hv. unfold int_text. destruct (isgn t) eqn:E; [apply pad_txt_signed|].
  apply in_range_nonneg in Hv; auto. unfold pad_txt. rewrite sign_pos, Z.abs_eq by lia.
  apply pad_txt_unsigned; lia.
Qed.

(** digit texts are bytes and do not start with '+' *)
Lemma digit_text_bytes b s v : digit_text b s v -> bytes s.
Proof.
  intros (_ & ds & H & _). induction H as [|c d s ds (Hc & _) _ IH]; constructor; auto.
  apply char_digit_range in Hc. unfold is_byte. lia.
Qed.
Lemma unsigned_text_bytes s v : unsigned_text s v -> bytes s.
Proof.
  assert (B : forall x, 0 <= x < 256 -> is_byte x) by (unfold is_byte; auto).
  intros H. destruct H as [s v H|p s v Hp H|p s v Hp H|p s v Hp H]; apply digit_text_bytes in H; auto;
   chars; (constructor; [apply B; lia|constructor; [apply B; lia|auto]]).
Qed.
Lemma int_text_bytes t s v : int_text t s v -> bytes s.
Proof.
  unfold int_text. destruct (isgn t); [|apply unsigned_text_bytes].
  intros [s' v' H|s' v' H]; apply unsigned_text_bytes in H; auto. constructor; auto.
  unfold is_byte; chars; lia.
Qed.
Lemma unsigned_text_head s v : unsigned_text s v -> exists c r, s = c :: r /\ 48 <= c.
Proof.
  intros H. destruct H as [s v (Hn & ds & H & _)|p s v Hp H|p s v Hp H|p s v Hp H]; chars;
    try (eexists _, _; split; [reflexivity|lia]).
  destruct H as [|c d s ds (Hc & _) _]; [congruence|]. apply char_digit_range in Hc.
  eexists _, _; split; [reflexivity|lia].
Qed.
Lemma int_text_noplus t s v r : int_text t s v -> s <> 43 :: r.
Proof.
  unfold int_text. intros H ->. destruct (isgn t).
  - inversion H as [? ? H1|? ? H1]; subst.
    destruct (unsigned_text_head _ _ H1) as (c & r' & E & Hc). inversion E; lia.
  - destruct (unsigned_text_head _ _ H) as (c & r' & E & Hc). inversion E; lia.
Qed.

Lemma from_chars_int_outcome t s v0 :
  bytes s -> (isgn t = true -> forall r, s <> 43 :: r) ->
  outcome t (parse_int t s) (from_chars_int t s v0).
Proof.
  intros Hs Hp. unfold parse_int, from_chars_int. destruct t as [w []]; cbn [isgn iw] in *.
  - apply atoi_outcome; auto.
  - apply atou_outcome; auto.
Qed.

Lemma from_chars_int_text t s v v0 :
  int_text t s v -> from_chars_int t s v0 = Ok (true, wrap t v).
Proof.
  intros H. pose proof (from_chars_int_outcome t s v0 (int_text_bytes _ _ _ H)
     (fun _ r => int_text_noplus t s v r H)) as HO.
  apply parse_int_spec in H. rewrite H in HO. exact HO.
Qed.

(** ** overflow detection *)
Lemma parse_cons b c s a :
  parse b (c :: s) a = match char_digit c with
     | Some d => if d <? b then parse b s (a * b + d) else None | None => None end.
Proof. reflexivity. Qed.

Lemma parse_acc b s a :
  parse b s a = option_map (fun x => a * b ^ len s + x) (parse b s 0).
Proof.
  revert a; induction s as [|c s IH]; intros a; cbn [parse].
  - rewrite len_nil. cbn. f_equal. lia.
  - destruct (char_digit c) as [d|]; [|reflexivity]. destruct (d <? b); [|reflexivity].
    rewrite IH, (IH (0 * b + d)). destruct (parse b s 0); [|reflexivity]. cbn [option_map]. f_equal.
    rewrite len_cons. replace (1 + len s) with (Z.succ (len s)) by lia.
    rewrite Z.pow_succ_r by apply len_nonneg. ring.
Qed.
Lemma parse_bounds b s v : 2 <= b -> parse b s 0 = Some v -> 0 <= v < b ^ len s.
Proof.
  intros Hb H. apply parse_spec in H as (ds & H & <-).
  assert (L : len s = len ds) by (unfold len; f_equal; induction H; cbn; auto).
  rewrite L. apply positional_bounds; auto.
  clear L. induction H as [|c d s ds (Hc & Hd) _ IH]; constructor; auto.
  apply char_digit_range in Hc. lia.
Qed.
Lemma parse_cons_inv b c s v :
  2 <= b -> parse b (c :: s) 0 = Some v ->
  exists d x, char_digit c = Some d /\ 0 <= d < b /\ parse b s 0 = Some x /\
              v = d * b ^ len s + x /\ 0 <= x < b ^ len s.
Proof.
  intros Hb H. rewrite parse_cons in H. destruct (char_digit c) as [d|] eqn:E; [|discriminate].
  destruct (Z.ltb_spec d b); [|discriminate]. rewrite parse_acc in H.
  destruct (parse b s 0) as [x|] eqn:Ex; [|discriminate]. cbn in H. inversion H.
  exists d, x. repeat split; auto; try (apply parse_bounds in Ex; auto; lia).
  - apply char_digit_range in E; lia.
Qed.
Lemma parse_lead b c s v :
  2 <= b -> c <> 48 -> parse b (c :: s) 0 = Some v -> b ^ len s <= v < b ^ (1 + len s).
Proof.
  intros Hb Hc H. split; [|apply parse_bounds in H; auto; rewrite len_cons in H; lia].
  destruct (parse_cons_inv b c s v Hb H) as (d & x & Hd & Hr & Hx & -> & Hxr).
  assert (d <> 0) by (intros ->; apply char_digit_zero in Hd; congruence).
  pose proof (Z.pow_pos_nonneg b (len s) ltac:(lia) (len_nonneg s)). nia.
Qed.
Lemma parse_zeros b k s : 2 <= b -> parse b (repeat 48 k ++ s) 0 = parse b s 0.
Proof.
  intros Hb. induction k; cbn [repeat app]; auto. rewrite parse_cons.
  change (char_digit 48) with (Some 0). cbn beta iota. replace (0 <? b) with true by lia.
  rewrite Z.mul_0_l. auto.
Qed.

Lemma digit_cmp c l d e :
  char_digit c = Some d -> 48 <= l <= 57 -> char_digit l = Some e ->
  (schar c <? schar l) = (d <? e) /\ (schar l <? schar c) = (e <? d).
Proof.
  intros Hc Hl He. pose proof (char_digit_range _ _ Hc). rewrite !schar_id by lia.
  unfold char_digit in He. replace ((48 <=? l) && (l <=? 57)) with true in He by lia. inversion He; subst.
  unfold char_digit in Hc.
  destruct ((48 <=? c) && (c <=? 57)) eqn:E1; [inversion Hc; lia|].
  destruct ((97 <=? c) && (c <=? 122)) eqn:E2; [inversion Hc; lia|].
  destruct ((65 <=? c) && (c <=? 90)) eqn:E3; [inversion Hc; lia|discriminate].
Qed.

Lemma check_overflow_loop_ok b s l v L :
  2 <= b -> len s = len l -> Forall (fun x => 48 <= x <= 57) l ->
  parse b s 0 = Some v -> parse b l 0 = Some L -> check_overflow_loop s l = (L <? v).
Proof.
  intros Hb. revert l v L; induction s as [|c s IH]; intros l v L Hlen Hl Hs HL.
  - rewrite len_nil in Hlen. symmetry in Hlen. apply len_0_nil in Hlen. subst. cbn in *.
    inversion Hs; inversion HL; subst. reflexivity.
  - destruct l as [|x l]; [rewrite len_cons, len_nil in Hlen; pose proof (len_nonneg s); lia|].
    rewrite !len_cons in Hlen. inversion Hl; subst.
    destruct (parse_cons_inv b c s v Hb Hs) as (d & y & Hd & Hdr & Hy & -> & Hyr).
    destruct (parse_cons_inv b x l L Hb HL) as (e & z & He & Her & Hz & -> & Hzr).
    assert (E : len s = len l) by lia. rewrite E in *.
    cbn [check_overflow_loop]. destruct (digit_cmp c x d e Hd ltac:(lia) He) as [-> ->].
    destruct (Z.ltb_spec d e); [symmetry; apply Z.ltb_ge; nia|].
    destruct (Z.ltb_spec e d); [symmetry; apply Z.ltb_lt; nia|].
    assert (d = e) by lia. subst. rewrite (IH l y z) by auto.
    destruct (Z.ltb_spec z y), (Z.ltb_spec (e * b ^ len l + z) (e * b ^ len l + y)); auto; lia.
Qed.

Lemma check_overflow_ok b c s l0 l v L :
  2 <= b -> c <> 48 -> l0 <> 48 -> Forall (fun x => 48 <= x <= 57) (l0 :: l) ->
  parse b (c :: s) 0 = Some v -> parse b (l0 :: l) 0 = Some L ->
  check_overflow (c :: s) (l0 :: l) = (L <? v).
Proof.
  intros Hb Hc Hl0 Hl Hs HL. unfold check_overflow. rewrite !len_cons.
  destruct (Z.eqb_spec (1 + len s) (1 + len l)).
  - apply (check_overflow_loop_ok b); auto. rewrite !len_cons; lia.
  - pose proof (parse_lead b c s v Hb Hc Hs). pose proof (parse_lead b l0 l L Hb Hl0 HL).
    pose proof (len_nonneg s). pose proof (len_nonneg l).
    destruct (Z.ltb_spec (1 + len l) (1 + len s)); symmetry.
    + apply Z.ltb_lt. assert (b ^ (1 + len l) <= b ^ len s) by (apply Z.pow_le_mono_r; lia). lia.
    + apply Z.ltb_ge. assert (b ^ (1 + len s) <= b ^ len l) by (apply Z.pow_le_mono_r; lia). lia.
Qed.

Definition good_limit (b : Z) (l : list Z) (L : Z) : bool :=
  match l with
  | [] => false
  | c :: _ => negb (c =? 48)
  end && forallb (fun x => (48 <=? x) && (x <=? 57)) l
  && match parse b l 0 with Some x => x =? L | None => false end.
Lemma check_overflow_limit b c s l v L :
  2 <= b -> good_limit b l L = true -> c <> 48 -> parse b (c :: s) 0 = Some v ->
  check_overflow (c :: s) l = (L <? v).
Proof.
  intros Hb Hg Hc Hs. unfold good_limit in Hg. destruct l as [|l0 l]; [discriminate|].
  apply andb_prop in Hg as [Hg H3]. apply andb_prop in Hg as [H1 H2].
  destruct (parse b (l0 :: l) 0) as [x|] eqn:E; [|discriminate].
  apply Z.eqb_eq in H3. subst x.
  apply (check_overflow_ok b); auto.
  - intros ->. discriminate.
  - apply Forall_forall. rewrite forallb_forall in H2. intros x Hx. specialize (H2 x Hx). lia.
Qed.
Lemma max_value_dec_good t : good_limit 10 (max_value_dec t) (imax t) = true.
Proof. destruct t as [[] []]; vm_compute; reflexivity. Qed.
Lemma min_value_good w r : good_limit (base r) (min_value w r) (2 ^ (bits w - 1)) = true.
Proof. destruct w, r; vm_compute; reflexivity. Qed.

(** octal limits *)
Lemma is_oct_overflow_ok t c s v :
  c <> 48 -> parse 8 (c :: s) 0 = Some v -> is_oct_overflow t (c :: s) = (imax t <? v).
Proof.
  intros Hc H. pose proof (parse_lead 8 c s v ltac:(lia) Hc H) as HB.
  destruct (parse_cons_inv 8 c s v ltac:(lia) H) as (d & x & Hd & Hdr & Hx & Hv & Hxr).
  pose proof (char_digit_range _ _ Hd) as Hcr.
  assert (Hcd : c = 48 + d).
  { unfold char_digit in Hd.
    destruct ((48 <=? c) && (c <=? 57)) eqn:E1; [inversion Hd; lia|].
    destruct ((97 <=? c) && (c <=? 122)) eqn:E2; [inversion Hd; lia|].
    destruct ((65 <=? c) && (c <=? 90)) eqn:E3; [inversion Hd; lia|discriminate]. }
  pose proof (len_nonneg s) as Hn.
  unfold is_oct_overflow. cbn [nth]. rewrite schar_id by lia. chars. rewrite len_cons.
  (* k digits: the length decides, or the first digit when the length is equal *)
  assert (Hlt : forall k, 0 <= k -> 1 + len s < 1 + k -> v < 8 ^ k).
  { intros k Hk Hlt. assert (8 ^ (1 + len s) <= 8 ^ k) by (apply Z.pow_le_mono_r; lia). lia. }
  assert (Hgt : forall k, 0 <= k -> 1 + k < 1 + len s -> 8 ^ (k + 1) <= v).
  { intros k Hk Hgt. assert (8 ^ (k + 1) <= 8 ^ (len s)) by (apply Z.pow_le_mono_r; lia). lia. }
  assert (Hge : forall k, 0 <= k -> 1 + k <= 1 + len s -> 8 ^ k <= v).
  { intros k Hk Hgt0. assert (8 ^ k <= 8 ^ (len s)) by (apply Z.pow_le_mono_r; lia). lia. }
  assert (Hone : forall k q M, 0 <= k -> 0 <= q < 8 -> M = (q + 1) * 8 ^ k - 1 -> 
     negb ((1 + len s <? 1 + k) || ((1 + len s =? 1 + k) && (c <=? 48 + q))) = (M <? v)).
  { intros k q M Hk Hq ->. assert (0 < 8 ^ k) by (apply Z.pow_pos_nonneg; lia).
    destruct (Z.ltb_spec (1 + len s) (1 + k)); cbn [orb negb].
    { specialize (Hlt k Hk ltac:(lia)). symmetry. apply Z.ltb_ge. nia. }
    destruct (Z.eqb_spec (1 + len s) (1 + k)) as [E|E]; cbn [andb negb].
    - assert (len s = k) by lia. subst k. destruct (Z.leb_spec c (48 + q)); symmetry.
      + apply Z.ltb_ge. nia.
      + apply Z.ltb_lt. nia.
    - specialize (Hgt k Hk ltac:(lia)). symmetry. apply Z.ltb_lt.
      rewrite Z.pow_add_r in Hgt by lia. change (8 ^ 1) with 8 in Hgt. nia. }
  assert (Htwo : forall k M, 0 <= k -> M = 8 ^ k - 1 -> negb (1 + len s <? 1 + k) = (M <? v)).
  { intros k M Hk ->. destruct (Z.ltb_spec (1 + len s) (1 + k)); cbn [negb].
    - specialize (Hlt k Hk ltac:(lia)). symmetry. apply Z.ltb_ge. lia.
    - specialize (Hge k Hk ltac:(lia)). symmetry. apply Z.ltb_lt. lia. }
  destruct t as [[] []]; cbn [iw isgn].
  - apply (Hone 2 1); [lia|lia|reflexivity].
  - apply (Hone 2 3); [lia|lia|reflexivity].
  - apply (Htwo 5); [lia|reflexivity].
  - apply (Hone 5 1); [lia|lia|reflexivity].
  - apply (Hone 10 1); [lia|lia|reflexivity].
  - apply (Hone 10 3); [lia|lia|reflexivity].
  - apply (Htwo 21); [lia|reflexivity].
  - apply (Hone 21 1); [lia|lia|reflexivity].
Qed.

(** ** first_not_of('0') *)
Lemma scan_fwd_zeros k rest pos :
  scan_fwd (fun x => negb (x =? 48)) (repeat 48 k ++ rest) pos
  = scan_fwd (fun x => negb (x =? 48)) rest (pos + Z.of_nat k).
Proof.
  revert pos; induction k; intros pos; cbn [repeat app scan_fwd].
  - f_equal. lia.
  - cbn [Z.eqb Pos.eqb negb]. rewrite IHk. f_equal. lia.
Qed.
Lemma strip_zeros (s : list Z) :
  exists k rest, s = repeat 48 k ++ rest /\ match rest with [] => True | c :: _ => c <> 48 end.
Proof.
  induction s as [|c s (k & rest & -> & H)].
  - exists O, []. auto.
  - destruct (Z.eq_dec c 48) as [->|].
    + exists (S k), rest. auto.
    + exists O, (c :: repeat 48 k ++ rest). auto.
Qed.

Lemma with_fno_ok s start kont (b : bool) :
  0 <= start <= len s ->
  (forall k, skipn (Z.to_nat start) s = repeat 48 k -> b = false) ->
  (forall k c r, skipn (Z.to_nat start) s = repeat 48 k ++ c :: r -> c <> 48 ->
     csub s (start + Z.of_nat k) = Ok (c :: r) -> rd s (start + Z.of_nat k) = Ok c ->
     len s = start + Z.of_nat k + len (c :: r) -> kont (start + Z.of_nat k) = Ok b) ->
  with_fno s start kont = Ok b.
Proof.
  intros Hst H0 H1. unfold with_fno, first_not_of_from. chars.
  replace ((0 <=? start) && (start <=? len s)) with true by lia. rewrite bind_ok.
  destruct (strip_zeros (skipn (Z.to_nat start) s)) as (k & rest & E & Hr).
  rewrite E, scan_fwd_zeros. destruct rest as [|c r]; cbn [scan_fwd].
  - rewrite app_nil_r in E. rewrite (H0 k E). reflexivity.
  - destruct (Z.eqb_spec c 48); [congruence|]. cbn [negb].
    assert (Hlen : len s = start + Z.of_nat k + len (c :: r)).
    { pose proof (len_skipn start s ltac:(lia)) as HL. rewrite E, len_app, len_repeat in HL.
      pose proof (len_nonneg (c :: r)). lia. }
    assert (Hsk : skipn (Z.to_nat (start + Z.of_nat k)) s = c :: r).
    { replace (Z.to_nat (start + Z.of_nat k)) with (k + Z.to_nat start)%nat by lia.
      rewrite <- skipn_skipn, E. rewrite skipn_app, repeat_length, Nat.sub_diag.
      rewrite skipn_all2 by (rewrite repeat_length; lia). reflexivity. }
    pose proof (len_nonneg r). rewrite len_cons in Hlen.
    apply (H1 k c r); auto.
    + rewrite csub_ok by lia. f_equal. auto.
    + unfold rd. replace ((0 <=? start + Z.of_nat k) && (start + Z.of_nat k <? len s)) with true by lia.
      f_equal. rewrite <- (Nat.add_0_r (Z.to_nat (start + Z.of_nat k))), <- nth_skipn, Hsk. reflexivity.
    + rewrite len_cons. lia.
Qed.

Lemma repeat_parse b k v : 2 <= b -> parse b (repeat 48 k) 0 = Some v -> v = 0.
Proof. intros Hb H. rewrite <- (app_nil_r (repeat 48 k)), parse_zeros in H by auto. cbn in H. congruence. Qed.
Lemma parse1_parse b s v : parse1 b s = Some v -> parse b s 0 = Some v.
Proof. destruct s; [discriminate|auto]. Qed.

(** bound from length for powers of two bases *)
Lemma len_bound b c r v k :
  2 <= b -> c <> 48 -> 0 <= k -> parse b (c :: r) 0 = Some v -> (len (c :: r) <=? k) = (v <? b ^ k).
Proof.
  intros Hb Hc Hk H. pose proof (parse_lead b c r v Hb Hc H). pose proof (len_nonneg r). rewrite len_cons.
  destruct (Z.leb_spec (1 + len r) k); symmetry.
  - apply Z.ltb_lt. assert (b ^ (1 + len r) <= b ^ k) by (apply Z.pow_le_mono_r; lia). lia.
  - apply Z.ltb_ge. assert (b ^ k <= b ^ len r) by (apply Z.pow_le_mono_r; lia). lia.
Qed.

Lemma imax_pos t : 0 < imax t. Proof. destruct t as [[] []]; reflexivity. Qed.
Lemma imin_nonpos t : imin t <= 0. Proof. destruct t as [[] []]; vm_compute; discriminate. Qed.
Lemma in_rangeb_nonneg t v : 0 <= v -> negb (in_rangeb t v) = (imax t <? v).
Proof. intros. unfold in_rangeb. pose proof (imin_nonpos t). lia. Qed.
Lemma in_rangeb_neg w v : 0 <= v -> negb (in_rangeb (Ity w true) (- v)) = (2 ^ (bits w - 1) <? v).
Proof.
  intros. unfold in_rangeb. pose proof (imax_pos (Ity w true)). unfold imin; cbn [isgn iw]. lia.
Qed.

(** the text after the radix prefix *)
Lemma unsigned_text_parse_nonneg s v : unsigned_text s v -> 0 <= v.
Proof.
  intros H. destruct H as [s v H|p s v Hp H|p s v Hp H|p s v Hp H];
   apply parse1_spec, parse1_parse, parse_bounds in H; lia.
Qed.

Lemma second_digit p r v : parse 10 (48 :: p :: r) 0 = Some v ->
  is_xX p = false /\ is_bB p = false /\ is_oO p = false.
Proof.
  intros H. assert (P1 : parse1 10 (48 :: p :: r) = Some v) by exact H.
  destruct (is_xX p || is_bB p || is_oO p) eqn:E.
  - rewrite parse1_prefix_none in P1 by auto. discriminate.
  - destruct (is_xX p), (is_bB p), (is_oO p); try discriminate; auto.
Qed.

Lemma overflows_u_ok w s v :
  unsigned_text s v -> overflows_u w s = Ok (imax (Ity w false) <? v).
Proof.
  intros H. pose proof (imax_pos (Ity w false)) as HM. unfold overflows_u.
  set (t := Ity w false) in *.
  assert (Hbits : imax t = 2 ^ bits w - 1) by reflexivity.
  assert (Hnb : bits w / 8 * 2 = bits w / 4 /\ bits w / 8 * 8 = bits w /\ 16 ^ (bits w / 4) = 2 ^ bits w) by (destruct w; cbn; auto).
  destruct Hnb as (Hn2 & Hn8 & H16).
  destruct H as [s v H|p s v Hp H|p s v Hp H|p s v Hp H]; apply parse1_spec in H.
  - pose proof (parse1_parse _ _ _ H) as HP. destruct s as [|c s]; [discriminate|].
    pose proof (len_nonneg s). replace (len (c :: s) =? 0) with false by (rewrite len_cons; lia).
    rewrite rd0, bind_ok. chars. destruct (Z.eqb_spec c 48) as [->|Hc].
    + destruct s as [|p r].
      * replace (len [48] =? 1) with true by reflexivity. cbn in HP. inversion HP; subst.
        f_equal. symmetry. apply Z.ltb_ge. lia.
      * pose proof (len_nonneg r). replace (len (48 :: p :: r) =? 1) with false by (rewrite !len_cons; lia).
        rewrite rd1, bind_ok. destruct (second_digit p r v HP) as (E1 & E2 & E3).
        unfold is_xX, is_bB, is_oO in *. rewrite E1, E2, E3.
        apply with_fno_ok; [rewrite !len_cons; lia| |].
        -- intros k Hk. change (skipn (Z.to_nat 1) (48 :: p :: r)) with (p :: r) in Hk.
           change (48 :: p :: r) with (repeat 48 1 ++ (p :: r)) in HP. rewrite parse_zeros, Hk in HP by lia.
           apply repeat_parse in HP; [|lia]. subst. apply Z.ltb_ge; lia.
        -- intros k c r' Hk Hc' Hcs Hrd Hlen. change (skipn (Z.to_nat 1) (48 :: p :: r)) with (p :: r) in Hk.
           rewrite Hcs, bind_ok. f_equal.
           change (48 :: p :: r) with (repeat 48 1 ++ (p :: r)) in HP. rewrite parse_zeros, Hk, parse_zeros in HP by lia.
           apply (check_overflow_limit 10); auto; try lia; apply max_value_dec_good.
    + assert (c <> 45).
      { intros ->. discriminate. }
      destruct (Z.eqb_spec c 45); [congruence|]. f_equal.
      apply (check_overflow_limit 10); auto; try lia; apply max_value_dec_good.
  - pose proof (parse1_parse _ _ _ H) as HP.
    pose proof (len_nonneg s). chars. replace (len (48 :: p :: s) =? 0) with false by (rewrite !len_cons; lia).
    rewrite rd0, bind_ok. cbn [Z.eqb Pos.eqb]. replace (len (48 :: p :: s) =? 1) with false by (rewrite !len_cons; lia).
    rewrite rd1, bind_ok. replace ((p =? 120) || (p =? 88)) with true by lia.
    apply with_fno_ok; [rewrite !len_cons; lia| |].
    + intros k Hk. change (skipn (Z.to_nat 2) (48 :: p :: s)) with s in Hk. rewrite Hk in HP.
      apply repeat_parse in HP; [|lia]. subst. apply Z.ltb_ge; lia.
    + intros k c r Hk Hc Hcs Hrd Hlen. change (skipn (Z.to_nat 2) (48 :: p :: s)) with s in Hk.
      rewrite Hk, parse_zeros in HP by lia. f_equal.
      pose proof (len_bound 16 c r v (bits w / 4) ltac:(lia) Hc ltac:(destruct w; cbn; lia) HP) as HL.
      rewrite H16 in HL. rewrite Hn2, Hlen, Hbits. lia.
  - pose proof (parse1_parse _ _ _ H) as HP.
    pose proof (len_nonneg s). chars. replace (len (48 :: p :: s) =? 0) with false by (rewrite !len_cons; lia).
    rewrite rd0, bind_ok. cbn [Z.eqb Pos.eqb]. replace (len (48 :: p :: s) =? 1) with false by (rewrite !len_cons; lia).
    rewrite rd1, bind_ok. replace ((p =? 120) || (p =? 88)) with false by lia.
    replace ((p =? 98) || (p =? 66)) with false by lia. replace ((p =? 111) || (p =? 79)) with true by lia.
    apply with_fno_ok; [rewrite !len_cons; lia| |].
    + intros k Hk. change (skipn (Z.to_nat 2) (48 :: p :: s)) with s in Hk. rewrite Hk in HP.
      apply repeat_parse in HP; [|lia]. subst. apply Z.ltb_ge; lia.
    + intros k c r Hk Hc Hcs Hrd Hlen. change (skipn (Z.to_nat 2) (48 :: p :: s)) with s in Hk.
      rewrite Hk, parse_zeros in HP by lia. rewrite Hcs, bind_ok. f_equal. apply is_oct_overflow_ok; auto.
  - pose proof (parse1_parse _ _ _ H) as HP.
    pose proof (len_nonneg s). chars. replace (len (48 :: p :: s) =? 0) with false by (rewrite !len_cons; lia).
    rewrite rd0, bind_ok. cbn [Z.eqb Pos.eqb]. replace (len (48 :: p :: s) =? 1) with false by (rewrite !len_cons; lia).
    rewrite rd1, bind_ok. replace ((p =? 120) || (p =? 88)) with false by lia.
    replace ((p =? 98) || (p =? 66)) with true by lia.
    apply with_fno_ok; [rewrite !len_cons; lia| |].
    + intros k Hk. change (skipn (Z.to_nat 2) (48 :: p :: s)) with s in Hk. rewrite Hk in HP.
      apply repeat_parse in HP; [|lia]. subst. apply Z.ltb_ge; lia.
    + intros k c r Hk Hc Hcs Hrd Hlen. change (skipn (Z.to_nat 2) (48 :: p :: s)) with s in Hk.
      rewrite Hk, parse_zeros in HP by lia. f_equal.
      pose proof (len_bound 2 c r v (bits w) ltac:(lia) Hc ltac:(destruct w; cbn; lia) HP) as HL.
      rewrite Hn8, Hlen, Hbits. lia.
Qed.

Lemma overflows_s_pos w s v :
  unsigned_text s v -> overflows_s w s = Ok (imax (Ity w true) <? v).
Proof.
  intros H. pose proof (imax_pos (Ity w true)) as HM. unfold overflows_s.
  set (t := Ity w true) in *.
  assert (Hbits : imax t = 2 ^ (bits w - 1) - 1) by reflexivity.
  assert (Hnb : bits w / 8 * 2 = bits w / 4 /\ bits w / 8 * 8 = bits w /\ 8 * 16 ^ (bits w / 4 - 1) = 2 ^ (bits w - 1)) by (destruct w; cbn; auto).
  destruct Hnb as (Hn2 & Hn8 & H16).
  destruct H as [s v H|p s v Hp H|p s v Hp H|p s v Hp H]; apply parse1_spec in H.
  - pose proof (parse1_parse _ _ _ H) as HP. destruct s as [|c s]; [discriminate|].
    pose proof (len_nonneg s). replace (len (c :: s) =? 0) with false by (rewrite len_cons; lia).
    rewrite rd0, bind_ok. chars.
    assert (c <> 45) by (intros ->; discriminate).
    destruct (Z.eqb_spec c 45); [congruence|].
    destruct (Z.eqb_spec c 48) as [->|Hc].
    + destruct s as [|p r].
      * replace (len [48] =? 1) with true by reflexivity. cbn in HP. inversion HP; subst.
        f_equal. symmetry. apply Z.ltb_ge. lia.
      * pose proof (len_nonneg r). replace (len (48 :: p :: r) =? 1) with false by (rewrite !len_cons; lia).
        rewrite rd1, bind_ok. destruct (second_digit p r v HP) as (E1 & E2 & E3).
        unfold is_xX, is_bB, is_oO in *. rewrite E1, E2, E3.
        apply with_fno_ok; [rewrite !len_cons; lia| |].
        -- intros k Hk. change (skipn (Z.to_nat 1) (48 :: p :: r)) with (p :: r) in Hk.
           change (48 :: p :: r) with (repeat 48 1 ++ (p :: r)) in HP. rewrite parse_zeros, Hk in HP by lia.
           apply repeat_parse in HP; [|lia]. subst. apply Z.ltb_ge; lia.
        -- intros k c r' Hk Hc' Hcs Hrd Hlen. change (skipn (Z.to_nat 1) (48 :: p :: r)) with (p :: r) in Hk.
           rewrite Hcs, bind_ok. f_equal.
           change (48 :: p :: r) with (repeat 48 1 ++ (p :: r)) in HP. rewrite parse_zeros, Hk, parse_zeros in HP by lia.
           apply (check_overflow_limit 10); auto; try lia; apply max_value_dec_good.
    + f_equal. apply (check_overflow_limit 10); auto; try lia; apply max_value_dec_good.
  - pose proof (parse1_parse _ _ _ H) as HP.
    pose proof (len_nonneg s). chars. replace (len (48 :: p :: s) =? 0) with false by (rewrite !len_cons; lia).
    rewrite rd0, bind_ok. cbn [Z.eqb Pos.eqb]. replace (len (48 :: p :: s) =? 1) with false by (rewrite !len_cons; lia).
    rewrite rd1, bind_ok. replace ((p =? 120) || (p =? 88)) with true by lia.
    apply with_fno_ok; [rewrite !len_cons; lia| |].
    + intros k Hk. change (skipn (Z.to_nat 2) (48 :: p :: s)) with s in Hk. rewrite Hk in HP.
      apply repeat_parse in HP; [|lia]. subst. apply Z.ltb_ge; lia.
    + intros k c r Hk Hc Hcs Hrd Hlen. change (skipn (Z.to_nat 2) (48 :: p :: s)) with s in Hk.
      rewrite Hk, parse_zeros in HP by lia. rewrite Hrd, bind_ok. f_equal.
      rewrite Hlen, Hn2, Hbits. replace (2 + Z.of_nat k + len (c :: r) - (2 + Z.of_nat k)) with (len (c :: r)) by lia.
      set (q := bits w / 4) in *. assert (Hq : 2 <= q) by (unfold q; destruct w; cbn; lia).
      destruct (parse_cons_inv 16 c r v ltac:(lia) HP) as (d & x & Hd & Hdr & Hx & Hv & Hxr).
      pose proof (char_digit_range _ _ Hd) as Hcr. rewrite schar_id by lia.
      pose proof (parse_lead 16 c r v ltac:(lia) Hc HP) as HB. pose proof (len_nonneg r).
      assert (Hd7 : (c <=? 55) = (d <=? 7)).
      { unfold char_digit in Hd.
        destruct ((48 <=? c) && (c <=? 57)) eqn:E1; [inversion Hd; lia|].
        destruct ((97 <=? c) && (c <=? 122)) eqn:E2; [inversion Hd; lia|].
        destruct ((65 <=? c) && (c <=? 90)) eqn:E3; [inversion Hd; lia|discriminate]. }
      chars. rewrite Hd7, len_cons, <- H16.
      assert (Hpp : 0 < 16 ^ (q - 1)) by (apply Z.pow_pos_nonneg; lia).
      destruct (Z.ltb_spec (1 + len r) q); cbn [orb negb].
      { symmetry. apply Z.ltb_ge. assert (16 ^ (1 + len r) <= 16 ^ (q - 1)) by (apply Z.pow_le_mono_r; lia). lia. }
      destruct (Z.eqb_spec (1 + len r) q); cbn [andb negb].
      * replace (q - 1) with (len r) in * by lia. destruct (Z.leb_spec d 7); symmetry; cbn [negb].
        -- apply Z.ltb_ge. nia.
        -- apply Z.ltb_lt. nia.
      * symmetry. apply Z.ltb_lt. assert (16 ^ q <= 16 ^ len r) by (apply Z.pow_le_mono_r; lia).
        replace q with (Z.succ (q - 1)) in H3 by lia. rewrite Z.pow_succ_r in H3 by lia. lia.
  - pose proof (parse1_parse _ _ _ H) as HP.
    pose proof (len_nonneg s). chars. replace (len (48 :: p :: s) =? 0) with false by (rewrite !len_cons; lia).
    rewrite rd0, bind_ok. cbn [Z.eqb Pos.eqb]. replace (len (48 :: p :: s) =? 1) with false by (rewrite !len_cons; lia).
    rewrite rd1, bind_ok. replace ((p =? 120) || (p =? 88)) with false by lia.
    replace ((p =? 98) || (p =? 66)) with false by lia. replace ((p =? 111) || (p =? 79)) with true by lia.
    apply with_fno_ok; [rewrite !len_cons; lia| |].
    + intros k Hk. change (skipn (Z.to_nat 2) (48 :: p :: s)) with s in Hk. rewrite Hk in HP.
      apply repeat_parse in HP; [|lia]. subst. apply Z.ltb_ge; lia.
    + intros k c r Hk Hc Hcs Hrd Hlen. change (skipn (Z.to_nat 2) (48 :: p :: s)) with s in Hk.
      rewrite Hk, parse_zeros in HP by lia. rewrite Hcs, bind_ok. f_equal. apply is_oct_overflow_ok; auto.
  - pose proof (parse1_parse _ _ _ H) as HP.
    pose proof (len_nonneg s). chars. replace (len (48 :: p :: s) =? 0) with false by (rewrite !len_cons; lia).
    rewrite rd0, bind_ok. cbn [Z.eqb Pos.eqb]. replace (len (48 :: p :: s) =? 1) with false by (rewrite !len_cons; lia).
    rewrite rd1, bind_ok. replace ((p =? 120) || (p =? 88)) with false by lia.
    replace ((p =? 98) || (p =? 66)) with true by lia.
    apply with_fno_ok; [rewrite !len_cons; lia| |].
    + intros k Hk. change (skipn (Z.to_nat 2) (48 :: p :: s)) with s in Hk. rewrite Hk in HP.
      apply repeat_parse in HP; [|lia]. subst. apply Z.ltb_ge; lia.
    + intros k c r Hk Hc Hcs Hrd Hlen. change (skipn (Z.to_nat 2) (48 :: p :: s)) with s in Hk.
      rewrite Hk, parse_zeros in HP by lia. f_equal.
      pose proof (len_bound 2 c r v (bits w - 1) ltac:(lia) Hc ltac:(destruct w; cbn; lia) HP) as HL.
      rewrite Hn8, Hlen, Hbits. lia.
Qed.

Lemma overflows_s_neg w s v :
  unsigned_text s v -> overflows_s w (45 :: s) = Ok (2 ^ (bits w - 1) <? v).
Proof.
  intros H. unfold overflows_s.
  assert (HM : 0 < 2 ^ (bits w - 1)) by (apply Z.pow_pos_nonneg; destruct w; cbn; lia).
  pose proof (len_nonneg s) as Hl. replace (len (45 :: s) =? 0) with false by (rewrite len_cons; lia).
  rewrite rd0, bind_ok. chars. cbn [Z.eqb Pos.eqb].
  destruct H as [s v H|p s v Hp H|p s v Hp H|p s v Hp H]; apply parse1_spec in H;
    pose proof (parse1_parse _ _ _ H) as HP.
  - destruct s as [|c s]; [discriminate|]. rewrite rd1, bind_ok. rewrite len_cons in Hl.
    destruct (Z.eqb_spec c 48) as [->|Hc].
    + destruct s as [|p r].
      * replace (len [45; 48] =? 2) with true by reflexivity. cbn in HP. inversion HP; subst.
        f_equal. symmetry. apply Z.ltb_ge. lia.
      * pose proof (len_nonneg r). replace (len (45 :: 48 :: p :: r) =? 2) with false by (rewrite !len_cons; lia).
        rewrite rd2, bind_ok. destruct (second_digit p r v HP) as (E1 & E2 & E3).
        unfold is_xX, is_bB, is_oO in *. rewrite E1, E2, E3.
        apply with_fno_ok; [rewrite !len_cons; lia| |].
        -- intros k Hk. change (skipn (Z.to_nat 2) (45 :: 48 :: p :: r)) with (p :: r) in Hk.
           change (48 :: p :: r) with (repeat 48 1 ++ (p :: r)) in HP. rewrite parse_zeros, Hk in HP by lia.
           apply repeat_parse in HP; [|lia]. subst. apply Z.ltb_ge; lia.
        -- intros k c r' Hk Hc' Hcs Hrd Hlen. change (skipn (Z.to_nat 2) (45 :: 48 :: p :: r)) with (p :: r) in Hk.
           rewrite Hcs, bind_ok. f_equal.
           change (48 :: p :: r) with (repeat 48 1 ++ (p :: r)) in HP. rewrite parse_zeros, Hk, parse_zeros in HP by lia.
           apply (check_overflow_limit 10); auto; try lia; apply (min_value_good w Dec).
    + rewrite csub1, bind_ok. f_equal. apply (check_overflow_limit 10); auto; try lia; apply (min_value_good w Dec).
  - rewrite rd1, bind_ok. chars. cbn [Z.eqb Pos.eqb]. rewrite !len_cons. pose proof (len_nonneg s) as Hl0.
    replace (1 + (1 + (1 + len s)) =? 2) with false by lia.
    rewrite rd2, bind_ok. replace ((p =? 120) || (p =? 88)) with true by lia.
    apply with_fno_ok; [rewrite !len_cons; lia| |].
    + intros k Hk. change (skipn (Z.to_nat 3) (45 :: 48 :: p :: s)) with s in Hk. rewrite Hk in HP.
      apply repeat_parse in HP; [|lia]. subst. apply Z.ltb_ge; lia.
    + intros k c r Hk Hc Hcs Hrd Hlen. change (skipn (Z.to_nat 3) (45 :: 48 :: p :: s)) with s in Hk.
      rewrite Hk, parse_zeros in HP by lia. rewrite Hcs, bind_ok. f_equal.
      apply (check_overflow_limit 16); auto; try lia; apply (min_value_good w Hex).
  - rewrite rd1, bind_ok. chars. cbn [Z.eqb Pos.eqb]. rewrite !len_cons. pose proof (len_nonneg s) as Hl0.
    replace (1 + (1 + (1 + len s)) =? 2) with false by lia.
    rewrite rd2, bind_ok. replace ((p =? 120) || (p =? 88)) with false by lia.
    replace ((p =? 98) || (p =? 66)) with false by lia. replace ((p =? 111) || (p =? 79)) with true by lia.
    apply with_fno_ok; [rewrite !len_cons; lia| |].
    + intros k Hk. change (skipn (Z.to_nat 3) (45 :: 48 :: p :: s)) with s in Hk. rewrite Hk in HP.
      apply repeat_parse in HP; [|lia]. subst. apply Z.ltb_ge; lia.
    + intros k c r Hk Hc Hcs Hrd Hlen. change (skipn (Z.to_nat 3) (45 :: 48 :: p :: s)) with s in Hk.
      rewrite Hk, parse_zeros in HP by lia. rewrite Hcs, bind_ok. f_equal.
      apply (check_overflow_limit 8); auto; try lia; apply (min_value_good w Oct).
  - rewrite rd1, bind_ok. chars. cbn [Z.eqb Pos.eqb]. rewrite !len_cons. pose proof (len_nonneg s) as Hl0.
    replace (1 + (1 + (1 + len s)) =? 2) with false by lia.
    rewrite rd2, bind_ok. replace ((p =? 120) || (p =? 88)) with false by lia.
    replace ((p =? 98) || (p =? 66)) with true by lia.
    apply with_fno_ok; [rewrite !len_cons; lia| |].
    + intros k Hk. change (skipn (Z.to_nat 3) (45 :: 48 :: p :: s)) with s in Hk. rewrite Hk in HP.
      apply repeat_parse in HP; [|lia]. subst. apply Z.ltb_ge; lia.
    + intros k c r Hk Hc Hcs Hrd Hlen. change (skipn (Z.to_nat 3) (45 :: 48 :: p :: s)) with s in Hk.
      rewrite Hk, parse_zeros in HP by lia. rewrite Hcs, bind_ok. f_equal.
      apply (check_overflow_limit 2); auto; try lia; apply (min_value_good w Bin).
Qed.

Lemma overflows_ok t s v : int_text t s v -> overflows t s = Ok (negb (in_rangeb t v)).
Proof.
  unfold int_text, overflows. destruct t as [w []]; cbn [isgn iw].
  - intros [s' v' H|s' v' H].
    + rewrite overflows_s_pos with (v := v') by auto.
      rewrite in_rangeb_nonneg by eauto using unsigned_text_parse_nonneg. reflexivity.
    + chars. rewrite overflows_s_neg with (v := v') by auto.
      rewrite in_rangeb_neg by eauto using unsigned_text_parse_nonneg. reflexivity.
  - intros H. rewrite overflows_u_ok with (v := v) by auto.
    rewrite in_rangeb_nonneg by eauto using unsigned_text_parse_nonneg. reflexivity.
Qed.

(** no undefined behaviour for any string except a lone "-" in the signed version *)
Lemma with_fno_total s start kont :
  0 <= start <= len s ->
  (forall k c r, csub s (start + Z.of_nat k) = Ok (c :: r) -> rd s (start + Z.of_nat k) = Ok c ->
     exists b, kont (start + Z.of_nat k) = Ok b) ->
  exists b, with_fno s start kont = Ok b.
Proof.
  intros Hst H1. unfold with_fno, first_not_of_from. chars.
  replace ((0 <=? start) && (start <=? len s)) with true by lia. rewrite bind_ok.
  destruct (strip_zeros (skipn (Z.to_nat start) s)) as (k & rest & E & Hr).
  rewrite E, scan_fwd_zeros. destruct rest as [|c r]; cbn [scan_fwd]; [eauto|].
  destruct (Z.eqb_spec c 48); [congruence|]. cbn [negb].
  assert (Hlen : len s = start + Z.of_nat k + len (c :: r)).
  { pose proof (len_skipn start s ltac:(lia)) as HL. rewrite E, len_app, len_repeat in HL.
    pose proof (len_nonneg (c :: r)). lia. }
  assert (Hsk : skipn (Z.to_nat (start + Z.of_nat k)) s = c :: r).
  { replace (Z.to_nat (start + Z.of_nat k)) with (k + Z.to_nat start)%nat by lia.
    rewrite <- skipn_skipn, E. rewrite skipn_app, repeat_length, Nat.sub_diag.
    rewrite skipn_all2 by (rewrite repeat_length; lia). reflexivity. }
  pose proof (len_nonneg r). rewrite len_cons in Hlen.
  apply (H1 k c r).
  - rewrite csub_ok by lia. f_equal. auto.
  - unfold rd. replace ((0 <=? start + Z.of_nat k) && (start + Z.of_nat k <? len s)) with true by lia.
    f_equal. rewrite <- (Nat.add_0_r (Z.to_nat (start + Z.of_nat k))), <- nth_skipn, Hsk. reflexivity.
Qed.

Lemma overflows_total t s : (isgn t = true -> s <> [45]) -> exists b, overflows t s = Ok b.
Proof.
  intros Hm. unfold overflows. destruct t as [w []]; cbn [isgn iw] in *.
  - specialize (Hm eq_refl). unfold overflows_s. destruct s as [|c s]; [cbn; eauto|].
    pose proof (len_nonneg s) as Hl. rewrite !len_cons. replace (1 + len s =? 0) with false by lia.
    rewrite rd0, bind_ok. chars.
    destruct (Z.eqb_spec c 45) as [->|].
    + destruct s as [|d s]; [congruence|]. rewrite rd1, bind_ok. rewrite len_cons in *.
      destruct (Z.eqb_spec d 48) as [->|]; [|rewrite csub1, bind_ok; eauto].
      destruct s as [|e s]; [cbn; eauto|]. rewrite len_cons in *. pose proof (len_nonneg s).
      replace (1 + (1 + (1 + len s)) =? 2) with false by lia. rewrite rd2, bind_ok.
      repeat match goal with |- context [if ?b then with_fno _ _ _ else _] => destruct b end;
      (apply with_fno_total; [rewrite !len_cons; lia|intros k x r E1 E2; rewrite E1, bind_ok; eauto]).
    + destruct (Z.eqb_spec c 48) as [->|]; [|eauto].
      destruct s as [|d s]; [cbn; eauto|]. rewrite len_cons in *. pose proof (len_nonneg s).
      replace (1 + (1 + len s) =? 1) with false by lia. rewrite rd1, bind_ok.
      repeat match goal with |- context [if ?b then with_fno _ _ _ else _] => destruct b end;
      (apply with_fno_total; [rewrite !len_cons; lia|intros k x r E1 E2; rewrite ?E1, ?E2, ?bind_ok; eauto]).
  - unfold overflows_u. destruct s as [|c s]; [cbn; eauto|].
    pose proof (len_nonneg s) as Hl. rewrite !len_cons. replace (1 + len s =? 0) with false by lia.
    rewrite rd0, bind_ok. chars.
    destruct (Z.eqb_spec c 48) as [->|]; [|destruct (c =? 45); eauto].
    destruct s as [|d s]; [cbn; eauto|]. rewrite len_cons in *. pose proof (len_nonneg s).
    replace (1 + (1 + len s) =? 1) with false by lia. rewrite rd1, bind_ok.
    repeat match goal with |- context [if ?b then with_fno _ _ _ else _] => destruct b end;
      (apply with_fno_total; [rewrite !len_cons; lia|intros k x r E1 E2; rewrite ?E1, ?E2, ?bind_ok; eauto]).
Qed.

Lemma in_rangeb_iff t v : in_rangeb t v = true <-> in_range t v.
Proof. unfold in_rangeb, in_range. lia. Qed.

Lemma from_chars_checked_ok t s v0 :
  bytes s -> (isgn t = true -> s <> [45] /\ forall r, s <> 43 :: r) ->
  exists ok x, from_chars_checked t s v0 = Ok (ok, x) /\
    (ok = true <-> exists v, int_text t s v /\ in_range t v) /\
    (ok = true -> int_text t s x).
Proof.
  intros Hs Hm. unfold from_chars_checked.
  pose proof (from_chars_int_outcome t s v0 Hs (fun E => proj2 (Hm E))) as HO.
  destruct (parse_int t s) as [v|] eqn:EP.
  - apply parse_int_spec in EP. rewrite (overflows_ok t s v EP), bind_ok.
    destruct (in_rangeb t v) eqn:ER; cbn [negb].
    + cbn [outcome] in HO. apply in_rangeb_iff in ER. rewrite HO, wrap_id by auto.
      exists true, v. split; auto. split; auto. split; eauto.
    + exists false, v0. split; auto. split; [|discriminate]. split; [discriminate|].
      intros (v' & Hv' & Hr). rewrite (int_text_fun t s v v') in * by auto.
      apply in_rangeb_iff in Hr. congruence.
  - destruct (overflows_total t s (fun E => proj1 (Hm E))) as (b & ->). rewrite bind_ok.
    assert (Hno : ~ exists v, int_text t s v /\ in_range t v).
    { intros (v & Hv & _). apply parse_int_spec in Hv. congruence. }
    destruct b.
    + exists false, v0. split; auto. split; [|discriminate]. split; [discriminate|]. tauto.
    + destruct HO as (x & HO). rewrite HO. exists false, x. split; auto.
      split; [|discriminate]. split; [discriminate|]. tauto.
Qed.
