(** Proofs for the std interoperation, blobs, character traits and uncat. *)
From Verif Require Import Base BaseLemmas CharconvModel CharconvSpec SubstrModel SubstrSpec SubstrProofs SubstrProofs2 SubstrProofs3 SubstrProofs4 SpanNumSpec MemUtilModel MemUtilProofs MemUtilProofs2 FormatModel FormatSpec FormatProofs FormatProofs2 FormatProofs3 FormatProofs4 InteropModel InteropSpec.

(** ** comparisons *)

Lemma mixed_ok s t : bytes s -> bytes t ->
  (ok_iff (ss_eq s t) (s = t) /\ ok_iff (ss_ne s t) (s <> t) /\
   ok_iff (ss_lt s t) (lex schar_lt s t) /\ ok_iff (ss_gt s t) (lex schar_lt t s) /\
   ok_iff (ss_le s t) (lex schar_lt s t \/ s = t) /\ ok_iff (ss_ge s t) (lex schar_lt t s \/ s = t)) /\
  (ok_iff (st_eq s t) (s = t) /\ ok_iff (st_ne s t) (s <> t) /\
   ok_iff (st_lt s t) (lex schar_lt s t) /\ ok_iff (st_gt s t) (lex schar_lt t s) /\
   ok_iff (st_le s t) (lex schar_lt s t \/ s = t) /\ ok_iff (st_ge s t) (lex schar_lt t s \/ s = t)) /\
  (ok_iff (vec_eq s t) (s = t) /\ ok_iff (vec_ne s t) (s <> t) /\
   ok_iff (vec_lt s t) (lex schar_lt s t) /\ ok_iff (vec_gt s t) (lex schar_lt t s) /\
   ok_iff (vec_le s t) (lex schar_lt s t \/ s = t) /\ ok_iff (vec_ge s t) (lex schar_lt t s \/ s = t)).
Proof.
  intros Hs Ht. destruct (ops_spec s t Hs Ht) as (A1 & A2 & A3 & A4 & A5 & A6).
  destruct (ops_spec t s Ht Hs) as (B1 & B2 & B3 & B4 & B5 & B6).
  assert (SW : forall r P Q, ok_iff r P -> (P <-> Q) -> ok_iff r Q).
  { intros r P Q (b & E & H) HPQ. exists b. split; auto. tauto. }
  assert (Y : t = s <-> s = t) by (split; congruence).
  split; [|split]; repeat split; try assumption;
    (eapply SW; [first [exact B1|exact B2|exact B3|exact B4|exact B5|exact B6]|intuition congruence]).
Qed.

(** ** to_chars and from_chars *)
Lemma to_chars_std_ok m b s : vin b m -> len s <= vl b -> to_chars_std m b s = Ok (blit m (vo b) s, len s).
Proof.
  intros Hb Hl. unfold vin in Hb. pose proof (nonneg_len s). unfold to_chars_std.
  destruct (Z.ltb_spec (vl b) (len s)); [lia|]. destruct (Z.eqb_spec (len s) 0); cbn [negb].
  - rewrite (len_0_nil s) by auto. rewrite blit_nil by lia. reflexivity.
  - unfold rds. replace (len s <=? 0) with false by lia. replace ((0 <=? 0) && (0 + len s <=? len s)) with true by lia. cbn [bind].
    rewrite slice_0, to_nat_len, firstn_all. rewrite wrs_ok by lia. reflexivity.
Qed.
Lemma to_chars_std_short m b s : vin b m -> vl b < len s ->
  to_chars_std m b s = Ok (blit m (vo b) (firstn (Z.to_nat (vl b)) s), len s).
Proof.
  intros Hb Hl. unfold vin in Hb. unfold to_chars_std. replace (vl b <? len s) with true by lia.
  destruct (Z.eqb_spec (vl b) 0) as [E|E]; cbn [negb].
  - rewrite E. cbn [Z.to_nat firstn]. rewrite blit_nil by lia. reflexivity.
  - unfold rds. replace (vl b <=? 0) with false by lia. replace ((0 <=? 0) && (0 + vl b <=? len s)) with true by lia. cbn [bind].
    rewrite slice_0. rewrite wrs_ok; [reflexivity|lia|rewrite len_firstn by lia; lia].
Qed.
Lemma len_resize s n : 0 <= n -> len (resize s n) = n.
Proof. intros. unfold resize, len. rewrite app_length, firstn_length, repeat_length. lia. Qed.
Lemma from_chars_std_ok src s : from_chars_std src s = Ok (true, src).
Proof.
  pose proof (nonneg_len src). unfold from_chars_std. destruct (Z.eqb_spec (len src) 0) as [E|E]; cbn [negb].
  - rewrite E. rewrite (len_0_nil src) by auto. do 2 f_equal.
  - unfold rds. replace (len src <=? 0) with false by lia. replace ((0 <=? 0) && (0 + len src <=? len src)) with true by lia. cbn [bind].
    rewrite slice_0, to_nat_len, firstn_all. rewrite wrs_ok by (rewrite ?len_resize; lia). cbn [bind]. do 2 f_equal.
    unfold blit. cbn [Z.to_nat firstn app]. rewrite skipn_all2. apply app_nil_r.
    pose proof (len_resize s (len src) H) as L. unfold len in *. lia.
Qed.
(** reading a part of the string into itself *)
Lemma byte_at_term (s : list Z) n i : 0 <= n <= len s -> 0 <= i < len s ->
  byte_at (blit (s ++ [0]) n [0]) i = if i =? n then 0 else byte_at s i.
Proof.
  intros. unfold byte_at. rewrite nth_blit by (rewrite ?len_app; change (len [0]) with 1; lia).
  change (len [0]) with 1. destruct (Z.eqb_spec i n) as [->|N].
  - replace ((n <=? n) && (n <? n + 1)) with true by lia. rewrite Z.sub_diag. reflexivity.
  - replace ((n <=? i) && (i <? n + 1)) with false by lia. apply app_nth1. unfold len in *. lia.
Qed.
Lemma self_dbg s v : vin v s -> 0 < vl v -> vo v < vl v -> from_chars_self true v s = Err.
Proof.
  intros Hv H0 H1. unfold vin in Hv. unfold from_chars_self. rewrite wr_ok by (rewrite len_app; change (len [0]) with 1; lia).
  cbn [bind]. unfold overlaps. replace ((vo v <? 0 + vl v) && (0 <? vo v + vl v)) with true by lia. reflexivity.
Qed.
Lemma self_far dbg s v : len s < 2 ^ 62 -> vin v s -> vl v < vo v -> from_chars_self dbg v s = Ok (true, contents s v).
Proof.
  intros HS Hv H1. unfold vin in Hv. unfold from_chars_self. rewrite wr_ok by (rewrite len_app; change (len [0]) with 1; lia).
  cbn [bind]. unfold overlaps. replace ((vo v <? 0 + vl v) && (0 <? vo v + vl v)) with false by lia. rewrite andb_false_r.
  set (mem := blit (s ++ [0]) (vl v) [0]).
  assert (LM : len mem = len s + 1) by (unfold mem; rewrite len_blit; rewrite ?len_app; change (len [0]) with 1; lia).
  assert (NM : forall i, 0 <= i < len s -> byte_at mem i = if i =? vl v then 0 else byte_at s i) by (intros; apply byte_at_term; lia).
  destruct (Z.eqb_spec (vl v) 0) as [E|E]; cbn [negb].
  - cbn [bind]. rewrite E. unfold contents. rewrite E. reflexivity.
  - unfold memcpy. replace (mem_overlaps 0 (vo v) (vl v) (vl v)) with false. 2:{ unfold mem_overlaps. lia. }
    unfold rds. replace (vl v <=? 0) with false by lia. replace ((0 <=? vo v) && (vo v + vl v <=? len mem)) with true by lia. cbn [bind].
    rewrite wrs_ok by (rewrite ?len_slice by lia; lia). cbn [bind]. do 2 f_equal.
    unfold blit. cbn [Z.to_nat firstn app].
    assert (LS : length (slice mem (vo v) (vl v)) = Z.to_nat (vl v)).
    { assert (Q : len (slice mem (vo v) (vl v)) = vl v) by (apply len_slice; lia). unfold len in Q. lia. }
    rewrite <- LS at 1. rewrite firstn_app, firstn_all, Nat.sub_diag. cbn [firstn]. rewrite app_nil_r.
    apply list_eq_at; [unfold contents; rewrite !len_slice by lia; reflexivity|]. rewrite len_slice by lia. intros i Hi.
    unfold contents. rewrite !byte_at_slice by lia. rewrite NM by lia. replace (vo v + i =? vl v) with false by lia. reflexivity.
Qed.
(** the terminator falls on the first character read *)
Lemma self_adjacent dbg s v : len s < 2 ^ 62 -> vin v s -> vl v = vo v -> 0 < vl v ->
  from_chars_self dbg v s = Ok (true, 0 :: skipn 1 (contents s v)).
Proof.
  intros HS Hv H1 H0. unfold vin in Hv. unfold from_chars_self. rewrite wr_ok by (rewrite len_app; change (len [0]) with 1; lia).
  cbn [bind]. unfold overlaps. replace ((vo v <? 0 + vl v) && (0 <? vo v + vl v)) with false by lia. rewrite andb_false_r.
  set (mem := blit (s ++ [0]) (vl v) [0]).
  assert (LM : len mem = len s + 1) by (unfold mem; rewrite len_blit; rewrite ?len_app; change (len [0]) with 1; lia).
  assert (NM : forall i, 0 <= i < len s -> byte_at mem i = if i =? vl v then 0 else byte_at s i) by (intros; apply byte_at_term; lia).
  replace (vl v =? 0) with false by lia. cbn [negb].
  unfold memcpy. replace (mem_overlaps 0 (vo v) (vl v) (vl v)) with false. 2:{ unfold mem_overlaps. lia. }
  unfold rds. replace (vl v <=? 0) with false by lia. replace ((0 <=? vo v) && (vo v + vl v <=? len mem)) with true by lia. cbn [bind].
  rewrite wrs_ok by (rewrite ?len_slice by lia; lia). cbn [bind]. do 2 f_equal.
  unfold blit. cbn [Z.to_nat firstn app].
  assert (LS : length (slice mem (vo v) (vl v)) = Z.to_nat (vl v)).
  { assert (Q : len (slice mem (vo v) (vl v)) = vl v) by (apply len_slice; lia). unfold len in Q. lia. }
  rewrite <- LS at 1. rewrite firstn_app, firstn_all, Nat.sub_diag. cbn [firstn]. rewrite app_nil_r.
  assert (LC : len (contents s v) = vl v) by (unfold contents; rewrite len_slice; lia).
  assert (LK : len (skipn 1 (contents s v)) = vl v - 1) by (unfold len in *; rewrite skipn_length; lia).
  apply list_eq_at; [rewrite len_slice, len_cons by lia; lia|]. rewrite len_slice by lia. intros i Hi.
  rewrite byte_at_slice by lia. rewrite NM by lia. destruct (Z.eqb_spec (vo v + i) (vl v)) as [Hi0|Hi0].
  - replace i with 0 by lia. reflexivity.
  - rewrite byte_at_consS by lia. change 1%nat with (Z.to_nat 1). rewrite byte_at_skipn by lia. unfold contents. rewrite byte_at_slice by lia.
    f_equal. lia.
Qed.

(** ** blobs and character counts *)
Lemma needed_ok e n : 0 <= e -> 0 <= n -> least_units (2 ^ e) n (needed_chars_wchar (2 ^ e) n).
Proof.
  intros He Hn. unfold needed_chars_wchar, least_units. replace (2 ^ e - 1) with (Z.ones e) by (rewrite Z.ones_equiv; lia).
  rewrite Z.land_ones by lia. set (w := 2 ^ e). assert (Hw : 0 < w) by (apply Z.pow_pos_nonneg; lia).
  pose proof (Z.div_mod n w ltac:(lia)) as D. pose proof (Z.mod_pos_bound n w Hw) as B.
  destruct (Z.eqb_spec (n mod w) 0) as [E|E]; cbn [negb]; split; try nia; intros k' Hk Hn'; nia.
Qed.

(** ** uncat *)
Lemma readable_text al xs ys : readable al xs ys -> forall ts, Forall2 arg_text al ts ->
  bytes (concat ts) /\ (al = [] \/ (exists c al', al = AChar c :: al' /\ delim c) -> ended (concat ts)).
Proof.
  induction 1 as [|c c0 al xs ys Hc H IH|a t v v0 al xs ys Ha Hn H IH]; intros ts Ht; inversion Ht as [|? w ? ws Hw Hws]; subst; cbn [concat].
  - split; [constructor|]. left. reflexivity.
  - destruct (IH _ Hws) as [IB _]. inversion Hw; subst. split; [constructor; auto|]. intros [E|(c' & al' & E & Hd)]; [discriminate|].
    inversion E; subst. right. exists c', (concat ws). auto.
  - destruct (IH _ Hws) as [IB _]. destruct (int_arg_text _ _ _ _ Ha Hw) as [Hr Hi]. split.
    + apply bytes_app. split; auto. assert (Q : Forall bytes [w]) by (apply (texts_bytes [(t, v)] [w]); constructor; [split; auto|constructor]). inversion Q; auto.
    + intros [E|(c' & al' & E & Hd)]; [discriminate|]. inversion E; subst. destruct Ha as [Ha|[(r & Ha)|(r & nd & Ha)]]; discriminate.
Qed.
Lemma uncat_ok al xs ys : readable al xs ys -> forall ts d, Forall2 arg_text al ts -> small (d ++ concat ts) -> bytes (d ++ concat ts) ->
  uncat (d ++ concat ts) (View (len d) (len (concat ts))) xs = Ok (Some (len (concat ts)), ys).
Proof.
  induction 1 as [|c c0 al xs ys Hc H IH|a t v v0 al xs ys Ha Hn H IH]; intros ts d Ht Hs By; inversion Ht as [|? w ? ws Hw Hws]; subst; cbn [concat uncat] in *.
  - reflexivity.
  - inversion Hw; subst. cbn [app] in *. set (R := concat ws) in *. rewrite read_char. cbn [bind].
    assert (BND : len d + 1 + len R < 2 ^ 63) by (unfold small in Hs; rewrite len_app, len_cons in Hs; lia).
    pose proof (len_nonneg d). pose proof (len_nonneg R).
    rewrite radvance_ok by (rewrite ?len_cons; lia).
    assert (E1 : d ++ c :: R = (d ++ [c]) ++ R) by (rewrite <- app_assoc; reflexivity). rewrite E1 in *.
    replace (View (len d + 1) (len (c :: R) - 1)) with (View (len (d ++ [c])) (len R)) by (rewrite len_cons, len_app; change (len [c]) with 1; f_equal; lia).
    unfold R in *. rewrite (IH ws (d ++ [c])) by auto. cbn [bind]. rewrite u64_id by lia. rewrite len_cons. reflexivity.
  - destruct (int_arg_text _ _ _ _ Ha Hw) as [Hr Hi]. destruct (readable_text _ _ _ H _ Hws) as [_ HE]. specialize (HE Hn). set (R := concat ws) in *.
    assert (BND : len d + len w + len R < 2 ^ 63) by (unfold small in Hs; rewrite !len_app in Hs; lia).
    pose proof (len_nonneg d). pose proof (len_nonneg R). pose proof (len_nonneg w).
    rewrite read_int with (v := v) by auto. cbn [bind]. rewrite radvance_ok by (rewrite ?len_app; lia). rewrite app_assoc in *.
    replace (View (len d + len w) (len (w ++ R) - len w)) with (View (len (d ++ w)) (len R)) by (rewrite !len_app; f_equal; lia).
    unfold R in *. rewrite (IH ws (d ++ w)) by auto. cbn [bind]. rewrite u64_id by lia. rewrite len_app. reflexivity.
Qed.
Lemma cat_uncat dbg m b al xs ys ts : readable al xs ys -> Forall2 arg_text al ts -> vin b m -> vl b < 2 ^ 63 -> len (concat ts) <= vl b ->
  exists m' n, cat dbg m b al = Ok (m', n) /\
    let s := contents m' (View (vo b) n) in uncat s (full s) xs = Ok (Some n, ys).
Proof.
  intros Hr Ht Hb H63 HL. exists (blit m (vo b) (concat ts)), (len (concat ts)). split.
  - apply (cat_fits dbg _ ts); auto. lia.
  - cbn zeta. assert (C : contents (blit m (vo b) (concat ts)) (View (vo b) (len (concat ts))) = concat ts).
    { unfold vin in Hb. apply slice_blit_same; cbn [vo]; lia. }
    rewrite C. pose proof (len_nonneg (concat ts)). unfold full. apply (uncat_ok al xs ys Hr ts [] Ht); cbn [app].
    + unfold small. lia.
    + apply (readable_text al xs ys Hr ts Ht).
Qed.
Lemma blob_ok dbg addr sz e n : 0 <= sz -> 0 <= n -> sz * n < 2 ^ 64 -> 0 <= addr -> 0 <= e < 64 -> (2 ^ e | addr) ->
  blob_ptr dbg addr sz (2 ^ e) n = Ok (Blob addr (sz * n)) /\ blob_arr addr sz n = Blob addr (sz * n) /\ blob_var addr sz = Blob addr sz /\ blob_void addr n = Blob addr n.
Proof.
  intros Hs Hn H64 Ha He D. unfold blob_ptr, blob_arr. rewrite u64_id by nia.
  apply (proj2 (is_aligned_iff addr e Ha He)) in D. rewrite D, orb_true_r. auto.
Qed.
Lemma blob_misaligned addr sz e n : 0 <= addr -> 0 <= e < 64 -> ~ (2 ^ e | addr) ->
  blob_ptr true addr sz (2 ^ e) n = Err /\ blob_ptr false addr sz (2 ^ e) n = Ok (blob_arr addr sz n).
Proof.
  intros Ha He D. unfold blob_ptr. destruct (is_aligned addr (2 ^ e)) eqn:E; [|auto].
  apply (is_aligned_iff addr e Ha He) in E. contradiction.
Qed.
Lemma isspace_ok c : is_byte c -> c < 128 \/ c = 255 -> exists b, isspace c = Ok b /\ (b = true <-> In c whitespace_chars).
Proof.
  unfold is_byte, isspace, ctype_arg, schar. intros Hc H.
  assert (E : (0 <=? (if c <? 128 then c else c - 256)) || ((if c <? 128 then c else c - 256) =? -1) = true).
  { destruct (Z.ltb_spec c 128); rewrite orb_true_iff, Z.leb_le, Z.eqb_eq; lia. }
  rewrite E. eexists. split; [reflexivity|].
  rewrite orb_true_iff, andb_true_iff, Z.eqb_eq, !Z.leb_le. unfold whitespace_chars. cbn [In]. lia.
Qed.
Lemma isspace_ub c : 128 <= c < 255 -> isspace c = Ub.
Proof.
  unfold isspace, ctype_arg, schar. intros H. destruct (Z.ltb_spec c 128); [lia|].
  destruct (Z.leb_spec 0 (c - 256)); [lia|]. destruct (Z.eqb_spec (c - 256) (-1)); [lia|reflexivity].
Qed.
Lemma cblob_make_ok b : cblob_make b = b.
Proof. destruct b. reflexivity. Qed.
Lemma needed_char_ok n : 0 <= n -> least_units 1 n (needed_chars_char n).
Proof. unfold least_units, needed_chars_char. intros. split; [lia|]. intros. lia. Qed.
Lemma num_whitespace_wide w : 1 < w -> len whitespace_chars < num_whitespace_chars w.
Proof. unfold num_whitespace_chars. change (len whitespace_chars) with 6. lia. Qed.
