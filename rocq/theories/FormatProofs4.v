From Verif Require Import Base BaseLemmas CharconvModel CharconvSpec CharconvProofs CharconvProofs3 CharconvProofs4 CharconvProofs5 SubstrModel SubstrSpec SubstrProofs SubstrProofs2 SubstrProofs3 SubstrProofs4 SpanNumModel SpanNumSpec SpanNumProofs5 SpanNumProofs6 Base64Model Base64Spec Base64Proofs Base64Props FormatModel FormatSpec FormatProofs FormatProofs2 FormatProofs3.

(** ** reading integers back *)
Lemma int_arg_text a t v s : int_arg a t v -> arg_text a s -> in_range t v /\ int_text t s v.
Proof.
  intros [->|[(r & ->)|(r & nd & ->)]] H; inversion H; subst; split; auto.
  - rewrite is_dec_text_eq in *. subst. rewrite dec_txt_int, int_txt_pad. apply pad_txt_int_text; auto.
  - rewrite is_int_text_eq in *. subst. rewrite int_txt_pad. apply pad_txt_int_text; auto.
  - rewrite is_padded_text_eq in *. subst. apply pad_txt_int_text; auto.
Qed.
Lemma radvance_ok (s : list Z) o l n : 0 <= n <= l -> l < 2 ^ 64 -> radvance s (View o l) n = View (o + n) (l - n).
Proof. intros. unfold radvance. cbn [vl]. replace (n <=? l) with true by lia. rewrite vsub_eq by (cbn [vl]; lia). reflexivity. Qed.
Lemma bytes_app a b : bytes (a ++ b) <-> bytes a /\ bytes b.
Proof. apply Forall_app. Qed.
(** reading one integer at the start of the rest of the text *)
Lemma read_int (d w r : list Z) t v v0 : small (d ++ w ++ r) -> bytes (d ++ w ++ r) -> ended r -> in_range t v -> int_text t w v ->
  read_first (d ++ w ++ r) (View (len d) (len (w ++ r))) (SInt t v0) = Ok (Some (len w), SInt t v).
Proof.
  intros Hs By He Hv Hw. unfold read_first. rewrite (contents_app _ d (w ++ r) []) by (rewrite app_nil_r; auto).
  unfold small in *. rewrite !len_app in Hs. pose proof (len_nonneg d). apply bytes_app in By. destruct By as [_ By].
  rewrite (ato_first_value t (w ++ r) v0 [] w r v); auto; [|unfold small; rewrite len_app; lia].
  cbn [bind]. rewrite wrap_id by auto. reflexivity.
Qed.
Lemma read_char (d r : list Z) c c0 : 
  read_first (d ++ c :: r) (View (len d) (len (c :: r))) (SChar c0) = Ok (Some 1, SChar c).
Proof.
  unfold read_first. rewrite (contents_app _ d (c :: r) []) by (rewrite app_nil_r; auto).
  unfold from_chars_first_char. rewrite len_cons. pose proof (len_nonneg r). replace (1 + len r <? 1) with false by lia.
  rewrite rd_ok by (rewrite len_cons; lia). reflexivity.
Qed.

Definition sepd (c : Z) (ws : list (list Z)) : list Z := flat_map (fun w => c :: w) ws.

Lemma ended_sepd c ws : delim c -> ended (sepd c ws).
Proof. intros H. destruct ws as [|w ws]; [left; auto|right]. exists c, (w ++ sepd c ws). auto. Qed.
Lemma delim_byte c : delim c -> is_byte c.
Proof. unfold delim, is_byte. cbn. intuition (subst; lia). Qed.

Lemma uncatsep_more_ok c ws : delim c -> forall its xs d c0, texts its ws -> vars xs its ->
  small (d ++ sepd c ws) -> bytes (d ++ sepd c ws) ->
  uncatsep_more (d ++ sepd c ws) (View (len d) (len (sepd c ws))) (SChar c0) xs =
    Ok (Some (len (sepd c ws)), SChar (match ws with [] => c0 | _ => c end), values its).
Proof.
  intros Hc. induction ws as [|w ws IH]; intros its xs d c0 Ht Hx Hs By; inversion Ht as [|it ? its' ? [Hv Hw] Ht']; subst; inversion Hx as [|x ? xs' ? [v0 ->] Hx']; subst.
  - reflexivity.
  - change (sepd c (w :: ws)) with (c :: w ++ sepd c ws) in *. set (R := sepd c ws) in *.
    assert (BND : len d + 1 + len w + len R < 2 ^ 63) by (unfold small in Hs; rewrite len_app, len_cons, len_app in Hs; lia).
    pose proof (len_nonneg d). pose proof (len_nonneg w). pose proof (len_nonneg R).
    cbn [uncatsep_more]. rewrite read_char. cbn [bind]. rewrite radvance_ok by (rewrite ?len_cons, ?len_app; lia).
    assert (E1 : d ++ c :: w ++ R = (d ++ [c]) ++ w ++ R) by (rewrite <- app_assoc; reflexivity).
    rewrite E1 in *. replace (View (len d + 1) (len (c :: w ++ R) - 1)) with (View (len (d ++ [c])) (len (w ++ R)))
      by (rewrite !len_cons, !len_app; change (len [c]) with 1; f_equal; lia).
    rewrite read_int with (v := snd it) by (auto; apply ended_sepd; auto). cbn [bind].
    rewrite radvance_ok by (rewrite ?len_app; lia). rewrite app_assoc in *.
    replace (View (len (d ++ [c]) + len w) (len (w ++ R) - len w)) with (View (len ((d ++ [c]) ++ w)) (len R)) by (rewrite !len_app; f_equal; lia).
    rewrite (IH its') by auto. cbn [bind]. rewrite (u64_id (1 + len w)) by lia. rewrite u64_id by lia. rewrite len_cons, len_app, Z.add_assoc.
    destruct ws; reflexivity.
Qed.
Lemma uncatsep_ok c w ws its xs c0 : delim c -> texts its (w :: ws) -> vars xs its ->
  small (w ++ sepd c ws) -> bytes (w ++ sepd c ws) ->
  exists x xs', xs = x :: xs' /\
  uncatsep (w ++ sepd c ws) (full (w ++ sepd c ws)) (SChar c0) x xs' =
    Ok (Some (len (w ++ sepd c ws)), SChar (match ws with [] => c0 | _ => c end), values its).
Proof.
  intros Hc Ht Hx Hs By. inversion Ht as [|it ? its' ? [Hv Hw] Ht']; subst; inversion Hx as [|x ? xs' ? [v0 ->] Hx']; subst.
  eexists; eexists; split; [reflexivity|]. unfold uncatsep, full.
  assert (BND : len w + len (sepd c ws) < 2 ^ 63) by (unfold small in Hs; rewrite len_app in Hs; lia).
  pose proof (len_nonneg w). pose proof (len_nonneg (sepd c ws)).
  pose proof (read_int [] w (sepd c ws) (fst it) (snd it) v0 Hs By (ended_sepd c ws Hc) Hv Hw) as R. cbn [app] in R. change (len []) with 0 in R.
  rewrite R. cbn [bind]. rewrite radvance_ok by (rewrite ?len_app; lia).
  replace (View (0 + len w) (len (w ++ sepd c ws) - len w)) with (View (len w) (len (sepd c ws))) by (rewrite len_app; f_equal; lia).
  rewrite (uncatsep_more_ok c ws Hc its') by auto. cbn [bind]. rewrite u64_id by lia. rewrite len_app. reflexivity.
Qed.
Lemma concat_intersperse c w ws : concat (intersperse [c] (w :: ws)) = w ++ sepd c ws.
Proof. rewrite intersperse_cons. cbn [concat]. f_equal. induction ws as [|x ws IH]; [reflexivity|]. cbn. rewrite IH. reflexivity. Qed.

(** ** unformat *)
Lemma ended_subst post ts out : ended post -> fmt_subst post ts out -> ended out.
Proof.
  intros He H. destruct H as [f|f ts N|f pre post t ts out [E _] _]; auto. right.
  destruct He as [He|(c & r & He & Hd)].
  - rewrite He in E. destruct pre; discriminate E.
  - rewrite He in E. destruct pre as [|p pre].
    + injection E as E _. subst c. cbn in Hd. intuition discriminate.
    + injection E as E _. subst p. exists c, (pre ++ t ++ out). auto.
Qed.
Lemma unformat_ok f ws out : fmt_subst f ws out -> forall its xs d, delimited f (length ws) -> texts its ws -> vars xs its ->
  small f -> small (d ++ out) -> bytes (d ++ out) ->
  unformat (d ++ out) (View (len d) (len out)) f xs = Ok (Some (len out), values its).
Proof.
  induction 1 as [f|f ws N|f pre post w ws out P H IH]; intros its xs d Hd Ht Hx Hf Hs By.
  - inversion Ht; subst. inversion Hx; subst. reflexivity.
  - destruct ws as [|w ws].
    + inversion Ht; subst. inversion Hx; subst. reflexivity.
    + cbn [length] in Hd. inversion Hd as [|? pre post ? [P _] _ _]; subst. exfalso. apply N. exists pre, post. auto.
  - cbn [length] in Hd. inversion Hd as [|? pre' post' ? P' He Hd']; subst. destruct (first_placeholder_fun _ _ _ _ _ P' P) as [-> ->]. clear P'.
    inversion Ht as [|it ? its' ? [Hv Hw] Ht']; subst; inversion Hx as [|x ? xs' ? [v0 ->] Hx']; subst.
    cbn [unformat]. destruct (find_placeholder f) as (o & E & Ho). rewrite E. cbn [bind].
    destruct o as [p|]; [|exfalso; destruct P as [P _]; apply Ho; exists pre, post; auto].
    destruct Ho as (x & y & P' & ->). destruct (first_placeholder_fun _ _ _ _ _ P' P) as [-> ->]. clear P'.
    pose proof (placeholder_len _ _ _ P) as PL. pose proof (len_nonneg pre). pose proof (len_nonneg post).
    pose proof (len_nonneg d). pose proof (len_nonneg w). pose proof (len_nonneg out).
    assert (BND : len d + len pre + len w + len out < 2 ^ 63) by (unfold small in Hs; rewrite !len_app in Hs; lia).
    rewrite radvance_ok by (rewrite ?len_app; lia). rewrite app_assoc in *.
    replace (View (len d + len pre) (len (pre ++ w ++ out) - len pre)) with (View (len (d ++ pre)) (len (w ++ out))) by (rewrite !len_app; f_equal; lia).
    rewrite read_int with (v := snd it); auto; [|eapply ended_subst; eauto]. cbn [bind].
    rewrite sub1_ok by (unfold small in *; lia). cbn [bind].
    assert (C2 : contents f (View (len pre + 2) (len f - (len pre + 2))) = post).
    { rewrite PL. replace (len pre + 2 + len post - (len pre + 2)) with (len post) by lia. destruct P as [-> _].
      replace (len pre + 2) with (len (pre ++ s2z "{}")) by (rewrite len_app; reflexivity).
      apply (contents_app _ (pre ++ s2z "{}") post []). rewrite app_nil_r, app_assoc. reflexivity. }
    rewrite C2. rewrite radvance_ok by (rewrite ?len_app; lia). rewrite app_assoc in *.
    replace (View (len (d ++ pre) + len w) (len (w ++ out) - len w)) with (View (len ((d ++ pre) ++ w)) (len out)) by (rewrite !len_app; f_equal; lia).
    rewrite (IH its') by (auto; unfold small in *; lia). cbn [bind]. rewrite (u64_id (len pre + len w)) by lia. rewrite u64_id by lia. rewrite !len_app. do 3 f_equal. lia.
Qed.

Lemma ints_texts al ts its : Forall2 arg_text al ts -> ints al its -> texts its ts.
Proof.
  intros H. revert its. induction H as [|a t al ts Ha H IH]; intros its Hi; inversion Hi as [|? it ? its' Hit Hi']; subst; constructor; auto.
  eapply int_arg_text; eauto.
  apply IH; auto.
Qed.
Lemma texts_bytes its ts : texts its ts -> Forall bytes ts.
Proof. induction 1 as [|it w its ws [_ H] _ IH]; constructor; auto. eapply int_text_bytes; eauto. Qed.
Lemma bytes_sepd c ws : delim c -> Forall bytes ws -> bytes (sepd c ws).
Proof.
  intros Hc. induction 1 as [|w ws Hw _ IH]; [constructor|]. change (sepd c (w :: ws)) with (c :: w ++ sepd c ws).
  constructor; [apply delim_byte; auto|]. apply bytes_app. auto.
Qed.
Lemma bytes_subst f ts out : fmt_subst f ts out -> bytes f -> Forall bytes ts -> bytes out.
Proof.
  induction 1 as [f|f ts N|f pre post t ts out [-> P] H IH]; intros Hf Ht; auto. inversion Ht; subst.
  apply bytes_app in Hf. destruct Hf as [F1 F2]. apply bytes_app in F2. destruct F2 as [_ F2].
  repeat (apply bytes_app; split; auto).
Qed.

(** ** raw data *)
Lemma align_up_ok p a : 0 < a -> 0 <= p -> p + a <= 2 ^ 64 -> p <= align_up p a < p + a /\ align_up p a mod a = 0.
Proof.
  intros Ha Hp L. unfold align_up. destruct (Z.eqb_spec (p - 1 + a) (-1)) as [E|E]; [lia|]. rewrite u64_id by lia.
  pose proof (Z.div_mod (p - 1 + a) a ltac:(lia)). pose proof (Z.mod_pos_bound (p - 1 + a) a Ha).
  rewrite Z_mod_mult. split; auto. rewrite (Z.mul_comm _ a). lia.
Qed.
Lemma rds_blit (m : list Z) i l : 0 <= i -> i + len l <= len m -> rds (blit m i l) i (len l) = Ok l.
Proof.
  intros Hi H. unfold rds. assert (L : len (blit m i l) = len m) by (apply len_blit; lia). pose proof (len_nonneg l).
  destruct (Z.leb_spec (len l) 0) as [E|E].
  - rewrite (len_0_nil l) by lia. reflexivity.
  - rewrite L. replace ((0 <=? i) && (i + len l <=? len m)) with true by lia. rewrite slice_blit_same by lia. reflexivity.
Qed.
Lemma Forall2_len {A B} (R : A -> B -> Prop) l l' : Forall2 R l l' -> length l = length l'.
Proof. induction 1; cbn; congruence. Qed.
