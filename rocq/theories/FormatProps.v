(** Properties C41-C47 and C76: formatted output and input. *)
From Verif Require Import Base BaseLemmas CharconvModel CharconvSpec CharconvProofs5 SubstrModel SubstrSpec SubstrProofs SubstrProofs4 SpanNumModel SpanNumSpec Base64Model Base64Spec FormatModel FormatSpec FormatProofs FormatProofs2 FormatProofs3 FormatProofs4 SpanNumProofs6.

(** ** C41: cat concatenates *)
(** every argument kind has exactly one text *)
Theorem C41_text_unique : forall a t t', arg_text a t -> arg_text a t' -> t = t'.
Proof. exact arg_text_fun. Qed.
Print Assumptions C41_text_unique.

Theorem C41_fits : forall dbg al ts m b, Forall2 arg_text al ts -> vin b m -> vl b < 2 ^ 64 -> len (concat ts) <= vl b ->
  cat dbg m b al = Ok (blit m (vo b) (concat ts), len (concat ts)).
Proof. intros. apply cat_fits; auto. Qed.
Print Assumptions C41_fits.
(** buffers of any length: the size is the full length, nothing outside the buffer
    changes, and the leading arguments that fit together are in place. Missing: aligned
    arguments (they are covered when they fit, by C41_fits, and see C46) *)
Theorem C41_any_partial : forall dbg al ts m b, Forall2 arg_text al ts -> vin b m -> vl b < 2 ^ 64 -> len (concat ts) < 2 ^ 64 ->
  Forall simple al ->
  exists m', cat dbg m b al = Ok (m', len (concat ts)) /\ same_outside m m' b /\
    forall ts1 ts2, ts = ts1 ++ ts2 -> len (concat ts1) <= vl b -> contents m' (View (vo b) (len (concat ts1))) = concat ts1.
Proof. intros. apply cat_any; auto. apply room_simple; auto. Qed.
Print Assumptions C41_any_partial.
(** asking for the size with an empty buffer: all argument kinds *)
Theorem C41_size_query : forall dbg al ts m o, Forall2 arg_text al ts -> 0 <= o <= len m -> len (concat ts) < 2 ^ 64 ->
  cat dbg m (View o 0) al = Ok (m, len (concat ts)).
Proof.
  intros dbg al ts m o H Ho Hl. destruct (cat_any dbg al ts H m (View o 0)) as (m' & E & [O1 O2] & _); cbn [vl]; auto; try lia.
  { unfold vin; cbn [vo vl]; lia. } { apply room_0; auto. }
  rewrite E. do 2 f_equal. apply mem_ext; auto. intros k Hk. apply O2; cbn [vo vl]; lia.
Qed.
Print Assumptions C41_size_query.
(** cat_sub: the written part, or a failed check *)
Theorem C41_sub : forall dbg al ts m b, Forall2 arg_text al ts -> vin b m -> vl b < 2 ^ 64 -> len (concat ts) < 2 ^ 64 -> Forall simple al ->
  if len (concat ts) <=? vl b
  then exists m' v, out_sub (cat dbg m b al) b = Ok (m', v) /\ v = View (vo b) (len (concat ts)) /\ contents m' v = concat ts
  else out_sub (cat dbg m b al) b = Err.
Proof.
  intros dbg al ts m b H Hb H64 Hl S. destruct (Z.leb_spec (len (concat ts)) (vl b)) as [L|L].
  - exists (blit m (vo b) (concat ts)), (View (vo b) (len (concat ts))). unfold out_sub. rewrite (cat_fits _ _ ts) by auto. cbn [bind].
    unfold assert. replace (len (concat ts) <=? vl b) with true by lia. repeat split; auto.
    destruct Hb as (B1 & B2 & B3). apply slice_blit_same; cbn [vo]; lia.
  - destruct (cat_any dbg al ts H m b) as (m' & E & _); auto; [apply room_simple; auto|].
    unfold out_sub. rewrite E. cbn [bind]. unfold assert. replace (len (concat ts) <=? vl b) with false by lia. reflexivity.
Qed.
Print Assumptions C41_sub.
Example C41_ex1 : cat true (repeat 35 12) (View 1 10) [AInt i32 (-7); AStr (s2z "ab"); AChar 33; ABool true] = Ok (s2z "#-7ab!1#####", 6).
Proof. reflexivity. Qed.
Example C41_ex2 : cat true (repeat 35 12) (View 1 3) [AStr (s2z "ab"); AInt i32 123; AChar 33] = Ok (s2z "#ab#########", 6).
Proof. reflexivity. Qed.
Example C41_ex3 : cat true (repeat 35 20) (View 0 20) [ARadix u8t 255 Hex; ALeft (AStr (s2z "x")) 3 46; ABase64 [1]] = Ok (s2z "0xffx..AQ==#########", 11).
Proof. reflexivity. Qed.

(** ** C42: catsep *)
Theorem C42_catsep : forall dbg m b sep al, catsep dbg m b sep al = cat dbg m b (intersperse sep al).
Proof. exact catsep_eq. Qed.
Print Assumptions C42_catsep.
Theorem C42_text : forall dbg m b sep st al ts, arg_text sep st -> Forall2 arg_text al ts -> vin b m -> vl b < 2 ^ 64 ->
  len (concat (intersperse st ts)) <= vl b ->
  catsep dbg m b sep al = Ok (blit m (vo b) (concat (intersperse st ts)), len (concat (intersperse st ts))).
Proof. intros. rewrite catsep_eq. apply cat_fits; auto. apply intersperse_text; auto. Qed.
Print Assumptions C42_text.
Example C42_ex1 : catsep true (repeat 35 12) (View 1 10) (AStr (s2z ", ")) [AInt i32 1; AInt i32 2; AInt i32 3] = Ok (s2z "#1, 2, 3####", 7).
Proof. reflexivity. Qed.
Example C42_ex2 : intersperse 0 [1; 2; 3] = [1; 0; 2; 0; 3] /\ intersperse 0 [1] = [1] /\ intersperse 0 [] = [].
Proof. repeat split; reflexivity. Qed.
Example C42_ex3 : catsep true (repeat 35 12) (View 1 2) (AStr (s2z ", ")) [AInt i32 1; AInt i32 2; AInt i32 3] = Ok (s2z "#1,#########", 7).
Proof. reflexivity. Qed.

(** ** C43: format *)
Theorem C43_spec_exists_unique : forall f ts, exists! out, fmt_subst f ts out.
Proof. intros f ts. destruct (subst_exists f ts) as (out & H). exists out. split; auto. intros o' H'. eapply subst_fun; eauto. Qed.
Print Assumptions C43_spec_exists_unique.
Theorem C43_fits : forall dbg f ts out al m b, fmt_subst f ts out -> Forall2 arg_text al ts -> small f ->
  vin b m -> vl b < 2 ^ 64 -> len out <= vl b -> format dbg m b f al = Ok (blit m (vo b) out, len out).
Proof. exact format_fits. Qed.
Print Assumptions C43_fits.
(** any buffer length; missing: aligned arguments in buffers that are too small but not empty *)
Theorem C43_any_partial : forall dbg f ts out al m b, fmt_subst f ts out -> Forall2 arg_text al ts -> small f ->
  vin b m -> vl b < 2 ^ 64 -> len out < 2 ^ 64 -> Forall simple al \/ vl b = 0 ->
  exists m', format dbg m b f al = Ok (m', len out) /\ same_outside m m' b.
Proof. exact format_any. Qed.
Print Assumptions C43_any_partial.
(** format is cat of the pieces, so the leading pieces that fit are in place (C41) *)
Theorem C43_pieces : forall dbg f al ps, fmt_pieces f al ps -> small f -> forall m b, format dbg m b f al = cat dbg m b ps.
Proof. exact format_eq. Qed.
Print Assumptions C43_pieces.
Example C43_ex1 : format true (repeat 35 30) (View 0 30) (s2z "a {} b {}{} c {}") [AInt i32 5; AStr (s2z "xy"); AChar 122]
  = Ok (s2z "a 5 b xyz c {}################", 14).
Proof. reflexivity. Qed.
Example C43_ex2 : format true (repeat 35 8) (View 0 8) (s2z "no holes{") [AInt i32 5] = Ok (s2z "no holes", 9). Proof. reflexivity. Qed.
Example C43_ex3 : format true (repeat 35 8) (View 0 8) (s2z "{{}}") [AInt i32 5] = Ok (s2z "{5}#####", 3). Proof. reflexivity. Qed.
Example C43_ex4 : fmt_subst (s2z "{{}}") [s2z "5"; s2z "6"] (s2z "{5}").
Proof.
  apply (fs_hole _ (s2z "{") (s2z "}") (s2z "5") _ (s2z "}")).
  - split; [reflexivity|]. intros a b E. destruct a as [|x a]; [discriminate E|]. rewrite len_cons. pose proof (len_nonneg a). change (len (s2z "{")) with 1. lia.
  - apply fs_nohole. intros (a & b & E). destruct a as [|x [|y a]]; discriminate E.
Qed.

(** ** C44: reading back *)
(** integers of any type and radix, separated by a delimiter character *)
Theorem C44_uncatsep : forall dbg m b c al ts its xs c0, delim c -> al <> [] ->
  Forall2 arg_text al ts -> ints al its -> vars xs its ->
  vin b m -> vl b < 2 ^ 63 -> len (concat (intersperse [c] ts)) <= vl b ->
  exists m' n x xs', xs = x :: xs' /\ catsep dbg m b (AChar c) al = Ok (m', n) /\
    let s := contents m' (View (vo b) n) in
    uncatsep s (full s) (SChar c0) x xs' = Ok (Some n, SChar (if (length al =? 1)%nat then c0 else c), values its).
Proof.
  intros dbg m b c al ts its xs c0 Hc Hn Ht Hi Hx Hb Hl L.
  pose proof (ints_texts _ _ _ Ht Hi) as HT. pose proof (texts_bytes _ _ HT) as HB.
  assert (LEN : length al = length ts) by (eapply Forall2_len; eauto).
  destruct ts as [|w ws]; [destruct al; [congruence|discriminate]|]. inversion HB; subst.
  rewrite concat_intersperse in L.
  destruct (uncatsep_ok c w ws its xs c0) as (x & xs' & -> & E); auto; [unfold small; lia|apply bytes_app; split; auto; apply bytes_sepd; auto|].
  eexists _, _, x, xs'. split; [reflexivity|]. split.
  { rewrite catsep_eq. apply (cat_fits dbg _ (intersperse [c] (w :: ws))); auto; [apply intersperse_text; auto; constructor|lia|].
    rewrite concat_intersperse; auto. }
  rewrite concat_intersperse. cbn zeta. destruct Hb as (B1 & B2 & B3).
  assert (C : contents (blit m (vo b) (w ++ sepd c ws)) (View (vo b) (len (w ++ sepd c ws))) = w ++ sepd c ws) by (apply slice_blit_same; cbn [vo]; lia).
  rewrite C, E, LEN. do 3 f_equal. destruct ws; reflexivity.
Qed.
Print Assumptions C44_uncatsep.
(** words: the variable is where the word is in the whole text *)
Lemma lead_unique (P : Z -> Prop) a : forall b x y, Forall P a -> Forall P b ->
  (x = [] \/ exists c r, x = c :: r /\ ~ P c) -> (y = [] \/ exists c r, y = c :: r /\ ~ P c) -> a ++ x = b ++ y -> a = b /\ x = y.
Proof.
  induction a as [|c a IH]; intros [|e b] x y A B X Y E; cbn [app] in E.
  - auto.
  - exfalso. destruct X as [->|(c & r & -> & N)]; [discriminate|]. injection E as -> _. apply N. inversion B; assumption.
  - exfalso. destruct Y as [->|(c' & r & -> & N)]; [discriminate|]. injection E as <- _. apply N. inversion A; assumption.
  - injection E as -> E. apply Forall_inv_tail in A, B. destruct (IH b x y) as [-> ->]; auto.
Qed.
Lemma first_word_at bl w r v : Forall blank bl -> w <> [] -> Forall (fun c => ~ blank c) w -> (r = [] \/ exists c r', r = c :: r' /\ blank c) ->
  first_word (bl ++ w ++ r) v -> v = View (len bl) (len w).
Proof.
  intros B N W R (a & u & b & E & A & U & Q & Z1 & Z2 & V).
  assert (X : w ++ r = [] \/ exists c t, w ++ r = c :: t /\ ~ blank c). { destruct w as [|c w]; [contradiction|]. right. exists c, (w ++ r). split; [reflexivity|]. inversion W; auto. }
  assert (Y : u ++ b = [] \/ exists c t, u ++ b = c :: t /\ ~ blank c).
  { destruct u as [|c u]; [left; rewrite Z1 by reflexivity; reflexivity|]. right. exists c, (u ++ b). split; [reflexivity|]. inversion U; auto. }
  destruct (lead_unique blank bl a _ _ B A X Y E) as [-> E2].
  assert (D : forall l, (l = [] \/ exists c l', l = c :: l' /\ blank c) -> l = [] \/ exists c l', l = c :: l' /\ ~ ~ blank c).
  { intros l [H|(c & l' & H & K)]; [left; exact H|right; exists c, l'; split; [exact H|tauto]]. }
  destruct (lead_unique (fun c => ~ blank c) w u _ _ W U (D _ R) (D _ Q) E2) as [-> ->]. apply V. exact N.
Qed.
Theorem C44_word : forall d bl w r v0, small (d ++ bl ++ w ++ r) -> Forall blank bl -> w <> [] -> Forall (fun c => ~ blank c) w ->
  (r = [] \/ exists c r', r = c :: r' /\ blank c) ->
  let s := d ++ bl ++ w ++ r in
  uncat s (View (len d) (len s - len d)) [SWord v0] = Ok (Some (len bl + len w), [SWord (View (len d + len bl) (len w))]).
Proof.
  intros d bl w r v0 S B N W R. cbn zeta. pose proof (len_nonneg d). pose proof (len_nonneg bl). pose proof (len_nonneg r).
  assert (0 < len w) by (destruct w; [contradiction|rewrite len_cons; pose proof (len_nonneg w); lia]).
  unfold small in S. assert (LS := S). rewrite !len_app in LS.
  cbn [uncat read_first]. assert (C : contents (d ++ bl ++ w ++ r) (View (len d) (len (d ++ bl ++ w ++ r) - len d)) = bl ++ w ++ r).
  { unfold contents, slice. cbn [vo vl]. rewrite !len_app. replace (Z.to_nat (len d)) with (length d) by (unfold len; lia). rewrite skipn_app, skipn_all, Nat.sub_diag. cbn [skipn app].
    apply firstn_all2. rewrite !app_length. unfold len. lia. }
  rewrite C. destruct (SpanNumProofs6.first_csubstr_ok (bl ++ w ++ r) v0) as (v & F & E).
  { unfold small. rewrite !len_app. lia. }
  rewrite E. rewrite (first_word_at bl w r v B N W R F). cbn [vl vo]. replace (len w =? 0) with false by lia. cbn [bind].
  rewrite Z.add_0_r. unfold u64. rewrite Z.mod_small by lia. reflexivity.
Qed.
Print Assumptions C44_word.
Example C44_ex_word : let s := s2z "7  two words" in uncat s (View 1 11) [SWord (View 0 0)] = Ok (Some 5, [SWord (View 3 3)]).
Proof. reflexivity. Qed.
(** formats in which every placeholder is followed by a delimiter or the end *)
Theorem C44_unformat : forall dbg m b f al ts its xs out,
  fmt_subst f ts out -> delimited f (length al) -> Forall2 arg_text al ts -> ints al its -> vars xs its ->
  bytes f -> small f -> vin b m -> vl b < 2 ^ 63 -> len out <= vl b ->
  exists m' n, format dbg m b f al = Ok (m', n) /\
    let s := contents m' (View (vo b) n) in unformat s (full s) f xs = Ok (Some n, values its).
Proof.
  intros dbg m b f al ts its xs out Hf Hd Ht Hi Hx By Hs Hb Hl L.
  pose proof (ints_texts _ _ _ Ht Hi) as HT. pose proof (texts_bytes _ _ HT) as HB.
  assert (LEN : length al = length ts) by (eapply Forall2_len; eauto). rewrite LEN in Hd.
  eexists _, _. split; [eapply format_fits; eauto; lia|]. cbn zeta. pose proof Hb as (B1 & B2 & B3).
  assert (C : contents (blit m (vo b) out) (View (vo b) (len out)) = out) by (apply slice_blit_same; cbn [vo]; lia).
  rewrite C. apply (unformat_ok f ts out Hf its xs [] Hd HT Hx Hs); cbn [app]; [unfold small; lia|].
  eapply bytes_subst; eauto.
Qed.
Print Assumptions C44_unformat.
Example C44_ex1 : let s := s2z "-7,0x1f;8" in
  uncatsep s (full s) (SChar 0) (SInt i32 0) [SInt u8t 0; SInt i64 0] = Ok (Some 9, SChar (ch ";"), [SInt i32 (-7); SInt u8t 31; SInt i64 8]).
Proof. reflexivity. Qed.
Example C44_ex2 : let s := s2z "x=-7, y=12)" in
  unformat s (full s) (s2z "x={}, y={})") [SInt i32 0; SInt i32 0] = Ok (Some 11, [SInt i32 (-7); SInt i32 12]).
Proof. reflexivity. Qed.
(** a separator that is not one of the delimiters: the second number is not found *)
Example C44_ex3 : let s := s2z "1/2" in uncatsep s (full s) (SChar 0) (SInt i32 9) [SInt i32 9] = Ok (None, SChar 0, [SInt i32 9; SInt i32 9]).
Proof. reflexivity. Qed.
(** the literal text of the format is skipped, not compared *)
Example C44_ex4 : let s := s2z "speed 5" in unformat s (full s) (s2z "weigh {}") [SInt i32 0] = Ok (Some 7, [SInt i32 5]).
Proof. reflexivity. Qed.
Example C44_ex5 : delimited (s2z "x={}, y={})") 2.
Proof.
  assert (forall f pre post, f = pre ++ s2z "{}" ++ post -> ~ In (ch "{") pre -> first_placeholder f pre post) as P.
  { intros f pre post -> N. split; auto. intros a. revert pre N. induction a as [|x a IH]; intros [|p pre] N b E; [apply Z.le_refl| |apply len_nonneg|].
    - exfalso. apply N. left. injection E as E _. auto.
    - injection E as E1 E2. rewrite !len_cons. cut (len pre <= len a); [lia|]. apply (IH pre) with b; [intros X; apply N; right; auto|exact E2]. }
  apply (dl_hole _ (s2z "x=") (s2z ", y={})")); [apply P; [reflexivity|cbn; intuition discriminate]| |].
  - right. exists (ch ","), (s2z " y={})"). split; auto. cbn. tauto.
  - apply (dl_hole _ (s2z ", y=") (s2z ")")); [apply P; [reflexivity|cbn; intuition discriminate]| |constructor].
    right. exists (ch ")"), []. split; auto. cbn. tauto.
Qed.

(** ** C45: growable containers. The fuel is the number of passes: two, so at most one retry *)
(** missing: aligned arguments when the container is neither empty nor large enough *)
Theorem C45_catrs_partial : forall dbg k c al ts, Forall2 arg_text al ts -> len c < 2 ^ 64 -> len (concat ts) < 2 ^ 64 ->
  Forall simple al \/ c = [] \/ len (concat ts) <= len c ->
  catrs dbg (S (S k)) c al = Ok (concat ts).
Proof.
  intros dbg k c al ts H Lc Lt HS. unfold catrs. apply rs_ok; auto.
  - intros. apply cat_fits; auto.
  - pose proof (len_nonneg c). destruct HS as [HS|[->|HS]]; auto; right.
    + destruct (cat_any dbg al ts H c (full c)) as (m' & E & O & _); cbn [vl full]; auto; [unfold vin, full; cbn [vo vl]; lia|apply room_simple; auto|]. exists m'. auto.
    + destruct (cat_any dbg al ts H (@nil Z) (full (@nil Z))) as (m' & E & O & _); auto; [unfold vin; cbn; lia|apply room_0; auto|]. exists m'. auto.
Qed.
Print Assumptions C45_catrs_partial.
Theorem C45_catseprs_partial : forall dbg k c sep st al ts, arg_text sep st -> Forall2 arg_text al ts -> len c < 2 ^ 64 ->
  len (concat (intersperse st ts)) < 2 ^ 64 ->
  simple sep /\ Forall simple al \/ c = [] \/ len (concat (intersperse st ts)) <= len c ->
  catseprs dbg (S (S k)) c sep al = Ok (concat (intersperse st ts)).
Proof.
  intros dbg k c sep st al ts Hs H Lc Lt HS.
  assert (E : catseprs dbg (S (S k)) c sep al = catrs dbg (S (S k)) c (intersperse sep al)).
  { unfold catseprs, catrs. cbn [rs_loop]. rewrite catsep_eq. destruct (cat dbg c (full c) (intersperse sep al)) as [[c' ret]| |]; cbn [bind]; auto.
    destruct (len c <? ret); auto. rewrite catsep_eq. destruct (cat dbg (resize c' ret) _ _) as [[c2 r2]| |]; cbn [bind]; auto.
    destruct (_ <? _); auto. generalize (resize c2 r2). induction k as [|k IH]; intros l; [reflexivity|]. cbn [rs_loop]. rewrite catsep_eq.
    destruct (cat dbg l _ _) as [[x y]| |]; cbn [bind]; auto. destruct (_ <? _); auto. }
  rewrite E. apply C45_catrs_partial; auto; [apply intersperse_text; auto|].
  destruct HS as [[S1 S2]|HS]; auto. left. eapply Forall_impl; [|apply intersperse_in]. cbn. intros a [->|X]; auto.
  rewrite Forall_forall in S2. auto.
Qed.
Print Assumptions C45_catseprs_partial.
Theorem C45_formatrs_partial : forall dbg k c f al ts out, fmt_subst f ts out -> Forall2 arg_text al ts -> small f -> len c < 2 ^ 64 -> len out < 2 ^ 64 ->
  Forall simple al \/ c = [] \/ len out <= len c ->
  formatrs dbg (S (S k)) c f al = Ok out.
Proof.
  intros dbg k c f al ts out Hf H Sf Lc Lt HS. unfold formatrs. apply rs_ok; auto.
  - intros. eapply format_fits; eauto.
  - pose proof (len_nonneg c). destruct HS as [HS|[->|HS]]; auto; right.
    + eapply format_any; eauto. unfold vin, full; cbn [vo vl]; lia.
    + eapply format_any; eauto; try reflexivity; unfold vin; cbn; lia.
Qed.
Print Assumptions C45_formatrs_partial.
(** the append variants: all argument kinds *)
Theorem C45_catrs_append : forall dbg k c al ts, Forall2 arg_text al ts -> len c + len (concat ts) < 2 ^ 64 - 1 ->
  catrs_append dbg (S (S k)) c al = Ok (c ++ concat ts, View (len c) (len (concat ts))).
Proof.
  intros dbg k c al ts H L. unfold catrs_append. apply rs_append_ok; auto.
  - intros. apply cat_fits; auto.
  - pose proof (len_nonneg c). pose proof (len_nonneg (concat ts)).
    destruct (cat_any dbg al ts H c (View (len c) 0)) as (m' & E & O & _); auto; try (cbn [vl]; lia); [unfold vin; cbn [vo vl]; lia|apply room_0; auto|]. exists m'. auto.
Qed.
Print Assumptions C45_catrs_append.
Theorem C45_catseprs_append : forall dbg k c sep st al ts, arg_text sep st -> Forall2 arg_text al ts ->
  let out := concat (intersperse st ts) in len c + len out < 2 ^ 64 - 1 ->
  catseprs_append dbg (S (S k)) c sep al = Ok (c ++ out, View (len c) (len out)).
Proof.
  intros dbg k c sep st al ts Hs H out L. unfold catseprs_append. pose proof (intersperse_text _ _ _ _ Hs H) as HI. apply rs_append_ok; auto.
  - intros. rewrite catsep_eq. apply cat_fits; auto.
  - pose proof (len_nonneg c). pose proof (len_nonneg out). unfold W_any. rewrite catsep_eq.
    destruct (cat_any dbg _ _ HI c (View (len c) 0)) as (m' & E & O & _); auto; try (fold out; cbn [vl]; lia); [unfold vin; cbn [vo vl]; lia|apply room_0; auto|]. exists m'. auto.
Qed.
Print Assumptions C45_catseprs_append.
Theorem C45_formatrs_append : forall dbg k c f al ts out, fmt_subst f ts out -> Forall2 arg_text al ts -> small f -> len c + len out < 2 ^ 64 - 1 ->
  formatrs_append dbg (S (S k)) c f al = Ok (c ++ out, View (len c) (len out)).
Proof.
  intros dbg k c f al ts out Hf H Sf L. unfold formatrs_append. apply rs_append_ok; auto.
  - intros. eapply format_fits; eauto.
  - pose proof (len_nonneg c). pose proof (len_nonneg out). eapply format_any; eauto; try (cbn [vl]; lia); unfold vin; cbn [vo vl]; lia.
Qed.
Print Assumptions C45_formatrs_append.
(** an aligned argument with a container longer than its text and shorter than its
    width: with assertions the call aborts, without it writes outside the container *)
Theorem C45_aligned_refuted : forall k c s w p, len s < len c < w -> len c < 2 ^ 64 -> w < npos ->
  catrs true (S k) c [ALeft (AStr s) w p] = Err /\ catrs false (S k) c [ALeft (AStr s) w p] = Ub.
Proof.
  intros k c s w p L L64 Hw. pose proof (len_nonneg s).
  assert (V : vin (full c) c) by (unfold vin, full; cbn [vo vl]; lia).
  split; unfold catrs; cbn [rs_loop cat].
  - rewrite (left_overrun_dbg _ s); auto; try constructor; cbn [full vl]; lia.
  - rewrite (left_overrun _ s); auto; try constructor; try (cbn [full vl]; lia). cbn [full vo].
    replace (0 + w <=? len c) with false by lia. reflexivity.
Qed.
Print Assumptions C45_aligned_refuted.
Example C45_ex1 : catrs true 2 (s2z "zz") [AInt i32 12345; AStr (s2z "abc")] = Ok (s2z "12345abc"). Proof. reflexivity. Qed.
Example C45_ex2 : formatrs_append true 2 (s2z "log: ") (s2z "v={};") [ALeft (AInt i32 7) 3 46] = Ok (s2z "log: v=7..;", View 5 6). Proof. reflexivity. Qed.
Example C45_ex3 : catrs false 2 (s2z "zzzz") [ALeft (AStr (s2z "ab")) 8 46] = Ub. Proof. reflexivity. Qed.
Example C45_ex4 : catseprs true 2 (repeat 35 20) (AChar 44) [AInt i32 1; AInt i32 2] = Ok (s2z "1,2"). Proof. reflexivity. Qed.

(** ** C46: aligned output with any buffer *)
(** Missing: left, len t < buf.len < width; right, len t < buf.len and padding
    beyond buf.len. There it is false (next theorems). *)
Theorem C46_left_partial : forall dbg a t w p m b, arg_text a t -> simple a -> 0 <= w < 2 ^ 64 -> vin b m -> vl b < 2 ^ 64 ->
  vl b <= len t \/ w <= vl b ->
  exists m', to_chars dbg m b (ALeft a w p) = Ok (m', Z.max w (len t)) /\ same_outside m m' b.
Proof.
  intros dbg a t w p m b Ha Hs Hw Hb H64 C. pose proof (at_left _ _ _ p Ha Hw) as HL. pose proof (len_nonneg t).
  set (T := t ++ repeat p (Z.to_nat (w - len t))) in *. assert (LT : len T = Z.max w (len t)) by (unfold T; rewrite len_app, len_repeat; lia).
  rewrite <- LT. destruct (Z.leb_spec (len T) (vl b)) as [L|L].
  - rewrite (to_chars_fits dbg _ T) by auto. eexists; split; [reflexivity|]. apply same_outside_blit; auto.
  - apply to_chars_small; auto. eapply si_left; eauto. apply si_simple; auto.
Qed.
Print Assumptions C46_left_partial.
Theorem C46_right_partial : forall dbg a t w p m b, arg_text a t -> simple a -> 0 <= w < 2 ^ 64 -> vin b m -> vl b < 2 ^ 64 ->
  vl b <= len t \/ w <= vl b + len t ->
  exists m', to_chars dbg m b (ARight a w p) = Ok (m', Z.max w (len t)) /\ same_outside m m' b.
Proof.
  intros dbg a t w p m b Ha Hs Hw Hb H64 C. pose proof (at_right _ _ _ p Ha Hw) as HL. pose proof (len_nonneg t).
  set (T := repeat p (Z.to_nat (w - len t)) ++ t) in *. assert (LT : len T = Z.max w (len t)) by (unfold T; rewrite len_app, len_repeat; lia).
  rewrite <- LT. destruct (Z.leb_spec (len T) (vl b)) as [L|L].
  - rewrite (to_chars_fits dbg _ T) by auto. eexists; split; [reflexivity|]. apply same_outside_blit; auto.
  - apply to_chars_small; auto. eapply si_right; eauto using si_simple. destruct C; auto. right. right. split; auto. apply si_simple; auto.
Qed.
Print Assumptions C46_right_partial.
(** with assertions the call fails; without, the padded text is written past the end
    of the buffer *)
Theorem C46_left_refuted : forall a t w p m b, arg_text a t -> vin b m -> vl b < 2 ^ 64 -> len t < vl b < w -> w < npos ->
  to_chars true m b (ALeft a w p) = Err /\
  to_chars false m b (ALeft a w p) =
    if vo b + w <=? len m then Ok (blit m (vo b) (t ++ repeat p (Z.to_nat (w - len t))), w) else Ub.
Proof. intros. split; [eapply left_overrun_dbg|eapply left_overrun]; eauto. Qed.
Print Assumptions C46_left_refuted.
Theorem C46_right_refuted : forall a t w p m b, arg_text a t -> vin b m -> vl b < 2 ^ 64 -> len t < vl b -> vl b + len t < w -> w < npos ->
  to_chars true m b (ARight a w p) = Err.
Proof. intros. eapply right_overrun_dbg; eauto. Qed.
Print Assumptions C46_right_refuted.
(** the width npos: first() takes it for the whole buffer, which is filled; the size is npos *)
Theorem C46_left_npos : forall dbg a t p m b, arg_text a t -> vin b m -> vl b < npos -> len t < vl b ->
  to_chars dbg m b (ALeft a npos p) = Ok (blit m (vo b) (t ++ repeat p (Z.to_nat (vl b - len t))), npos).
Proof.
  intros dbg a t p m b Ha Hb H64 L. cbn [to_chars]. pose proof (len_nonneg t). unfold npos in H64. rewrite (to_chars_fits dbg a t) by (auto; lia). cbn [bind].
  replace ((vl b <=? len t) || (npos <=? len t)) with false by (unfold npos; lia). unfold first_d, sub_d, dassert. rewrite Z.eqb_refl, !orb_true_r.
  cbn [bind vl vo]. replace (negb dbg || (len t <=? vl b)) with true by lia. cbn [bind vo vl].
  rewrite u64_id by lia.
  pose proof Hb as (B1 & B2 & B3). assert (LB : len (blit m (vo b) t) = len m) by (apply len_blit; lia).
  unfold fill_v. set (q := repeat p (Z.to_nat (vl b - len t))). assert (LQ : len q = vl b - len t) by (unfold q; rewrite len_repeat; lia).
  rewrite wrs_ok by lia. cbn [bind]. rewrite blit_app by lia.
  assert (LB2 : len (blit m (vo b) (t ++ q)) = len m) by (apply len_blit; rewrite ?len_app; lia).
  rewrite (to_chars_fits dbg a t); [|auto|unfold vin; lia|lia|lia]. cbn [bind]. rewrite blit_back by lia. reflexivity.
Qed.
Print Assumptions C46_left_npos.
Example C46_ex_npos : to_chars true (repeat 35 8) (View 1 5) (ALeft (AStr (s2z "ab")) npos 46) = Ok (s2z "#ab...##", npos). Proof. reflexivity. Qed.
(** four byte buffer at offset 1: bytes 5-8 are overwritten *)
Example C46_ex1 : to_chars false (repeat 35 12) (View 1 4) (ALeft (AStr (s2z "ab")) 8 46) = Ok (s2z "#ab......###", 8). Proof. reflexivity. Qed.
Example C46_ex2 : to_chars true (repeat 35 12) (View 1 4) (ALeft (AStr (s2z "ab")) 8 46) = Err. Proof. reflexivity. Qed.
Example C46_ex3 : to_chars false (repeat 35 12) (View 1 4) (ARight (AStr (s2z "ab")) 8 46) = Ok (s2z "#......ab###", 8). Proof. reflexivity. Qed.
Example C46_ex4 : to_chars true (repeat 35 12) (View 1 4) (ARight (AStr (s2z "abc")) 6 46) = Ok (s2z "#...a#######", 6). Proof. reflexivity. Qed.

(** ** C47: aligned output that fits *)
Theorem C47_left : forall dbg a t w p m b, arg_text a t -> 0 <= w < 2 ^ 64 -> vin b m -> vl b < 2 ^ 64 -> Z.max w (len t) <= vl b ->
  to_chars dbg m b (ALeft a w p) = Ok (blit m (vo b) (t ++ repeat p (Z.to_nat (w - len t))), Z.max w (len t)).
Proof.
  intros dbg a t w p m b Ha Hw Hb H64 L. pose proof (len_nonneg t).
  rewrite (to_chars_fits dbg _ _ (at_left _ _ _ p Ha Hw)); auto; rewrite len_app, len_repeat; [do 2 f_equal|]; lia.
Qed.
Print Assumptions C47_left.
Theorem C47_right : forall dbg a t w p m b, arg_text a t -> 0 <= w < 2 ^ 64 -> vin b m -> vl b < 2 ^ 64 -> Z.max w (len t) <= vl b ->
  to_chars dbg m b (ARight a w p) = Ok (blit m (vo b) (repeat p (Z.to_nat (w - len t)) ++ t), Z.max w (len t)).
Proof.
  intros dbg a t w p m b Ha Hw Hb H64 L. pose proof (len_nonneg t).
  rewrite (to_chars_fits dbg _ _ (at_right _ _ _ p Ha Hw)); auto; rewrite len_app, len_repeat; [do 2 f_equal|]; lia.
Qed.
Print Assumptions C47_right.
Example C47_ex1 : to_chars true (repeat 35 12) (View 1 9) (ALeft (AInt i32 (-42)) 6 46) = Ok (s2z "#-42...#####", 6). Proof. reflexivity. Qed.
Example C47_ex2 : to_chars true (repeat 35 12) (View 1 9) (ARight (AInt i32 (-42)) 6 46) = Ok (s2z "#...-42#####", 6). Proof. reflexivity. Qed.

(** ** C76: raw binary data *)
(** writing: aligned position, exact size; or nothing and an upper bound of the size *)
Theorem C76_write : forall addr m b data al, 0 <= addr -> vin b m -> 0 < al -> addr + len m + al <= 2 ^ 64 -> len data < 2 ^ 63 -> al <= 2 ^ 63 ->
  exists q, addr + vo b <= q < addr + vo b + al /\ q mod al = 0 /\
    let pad := q - (addr + vo b) in
    to_chars_raw addr m b data al =
      if pad + len data <=? vl b then Ok (blit m (vo b + pad) data, pad + len data) else Ok (m, al + len data).
Proof.
  intros addr m b data al Ha (B1 & B2 & B3) Hal L Ld Lal. destruct (align_up_ok (addr + vo b) al) as [Q1 Q2]; try lia.
  exists (align_up (addr + vo b) al). split; auto. split; auto. cbn zeta. unfold to_chars_raw, std_align.
  set (q := align_up (addr + vo b) al) in *. pose proof (len_nonneg data).
  rewrite (u64_id (q - (addr + vo b))) by lia.
  destruct (Z.leb_spec (q - (addr + vo b) + len data) (vl b)) as [F|F].
  - replace ((vl b <? q - (addr + vo b)) || (vl b - (q - (addr + vo b)) <? len data)) with false by lia.
    unfold assert. replace ((addr + vo b <=? q) && (q <=? addr + vo b + vl b)) with true by lia. rewrite u64_id by lia.
    replace (q - (addr + vo b) + len data <=? vl b) with true by lia. rewrite wrs_ok by lia. cbn [bind]. do 3 f_equal. lia.
  - replace ((vl b <? q - (addr + vo b)) || (vl b - (q - (addr + vo b)) <? len data)) with true by lia.
    rewrite u64_id by lia. reflexivity.
Qed.
Print Assumptions C76_write.
(** reading back from the same buffer *)
Theorem C76_roundtrip : forall addr m b data al m' n dm d, 0 <= addr -> vin b m -> 0 < al -> addr + len m + al <= 2 ^ 64 -> len data < 2 ^ 63 -> al <= 2 ^ 63 ->
  to_chars_raw addr m b data al = Ok (m', n) -> n <= vl b -> (exists q, q mod al = 0 /\ addr + vo b <= q /\ q + len data <= addr + vo b + vl b) ->
  vin d dm -> vl d = len data ->
  from_chars_raw addr m' b dm d al = Ok (true, blit dm (vo d) data).
Proof.
  intros addr m b data al m' n dm d Ha (B1 & B2 & B3) Hal L Ld Lal E Hn (q' & Hq1 & Hq2 & Hq3) (D1 & D2 & D3) Hd.
  destruct (align_up_ok (addr + vo b) al) as [Q1 Q2]; try lia.
  unfold to_chars_raw, from_chars_raw, std_align in *. rewrite Hd. set (q := align_up (addr + vo b) al) in *. pose proof (len_nonneg data).
  rewrite (u64_id (q - (addr + vo b))) in * by lia.
  assert (q <= q').
  { destruct (Z.leb_spec q q'); auto. exfalso. apply Z.mod_divide in Q2, Hq1; try lia. destruct Q2 as [x Hx]. destruct Hq1 as [y Hy]. assert (0 < x - y) by (apply (Zmult_lt_0_reg_r al); lia). assert (1 * al <= (x - y) * al) by (apply Z.mul_le_mono_nonneg_r; lia). lia. }
  replace ((vl b <? q - (addr + vo b)) || (vl b - (q - (addr + vo b)) <? len data)) with false in * by lia.
  unfold assert in *. replace ((addr + vo b <=? q) && (q <=? addr + vo b + vl b)) with true in * by lia. rewrite u64_id in E by lia.
  replace (q - (addr + vo b) + len data <=? vl b) with true in E by lia. rewrite wrs_ok in E by lia. cbn [bind] in E.
  injection E as <- _. rewrite rds_blit by lia. cbn [bind]. rewrite wrs_ok by lia. reflexivity.
Qed.
Print Assumptions C76_roundtrip.
(** from_chars_first of raw data returns 1, not the number of bytes consumed *)
Theorem C76_first_refuted : exists addr s b dm d al r,
  vin b s /\ vin d dm /\ vl d = 4 /\ from_chars_first_raw addr s b dm d al = Ok r /\ fst r = 1.
Proof. exists 16, [1; 2; 3; 4; 5; 6], (View 0 6), [0; 0; 0; 0], (View 0 4), 4, (1, [1; 2; 3; 4]). repeat split; reflexivity || discriminate. Qed.
Print Assumptions C76_first_refuted.
Example C76_ex1 : to_chars_raw 17 (repeat 35 10) (View 1 9) [1; 2] 4 = Ok ([35; 35; 35; 1; 2; 35; 35; 35; 35; 35], 4). Proof. reflexivity. Qed.
Example C76_ex2 : to_chars_raw 17 (repeat 35 10) (View 1 3) [1; 2] 4 = Ok (repeat 35 10, 6). Proof. reflexivity. Qed.
