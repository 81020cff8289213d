From Verif Require Import Base BaseLemmas ScanModel CharconvModel CharconvSpec SubstrModel SubstrSpec SubstrProofs SubstrProofs2 SubstrProofs3 SubstrProofs4 SpanNumModel SpanNumSpec SpanNumProofs SpanNumProofs2.

(** ** from the word to the whole text *)
Lemma lead_unique (P : Z -> Prop) (a a' : list Z) : forall c x c' x', Forall P a -> Forall P a' -> ~ P c -> ~ P c' ->
  a ++ c :: x = a' ++ c' :: x' -> a = a' /\ c :: x = c' :: x'.
Proof.
  revert a'. induction a as [|h a IH]; intros a' c x c' x' Ha Ha' Hc Hc' E.
  - destruct a' as [|h' a']; cbn in E; [auto|]. injection E as -> ->. apply Forall_inv in Ha'. contradiction.
  - destruct a' as [|h' a']; cbn in E; injection E as -> E.
    + apply Forall_inv in Ha. contradiction.
    + destruct (IH a' c x c' x') as [-> ?]; auto; eapply Forall_inv_tail; eauto.
Qed.
Lemma app_eq_app2 (a b c d : list Z) : a ++ b = c ++ d -> (exists l, a = c ++ l /\ d = l ++ b) \/ (exists l, c = a ++ l /\ b = l ++ d).
Proof.
  revert c. induction a as [|h a IH]; intros c E.
  - right. exists c. auto.
  - destruct c as [|h' c]; cbn in E.
    + left. exists (h :: a). auto.
    + injection E as -> E. destruct (IH c E) as [(l & -> & ->)|(l & -> & ->)]; [left|right]; exists l; auto.
Qed.
Definition blank_or_end (b : list Z) : Prop := b = [] \/ exists c b', b = c :: b' /\ blank c.
Definition delim_free (L : list Z -> Prop) : Prop := forall w, L w -> w <> [] /\ Forall (fun c => ~ delim c) w.

Lemma wrap_literal L (a w b : list Z) v : delim_free L ->
  Forall blank a -> Forall (fun c => ~ blank c) w -> blank_or_end b -> (w = [] -> b = []) ->
  (forall u r, w = u ++ r -> ended r -> L u -> v = View (len a) (len u)) ->
  (vo v = 0 /\ vl v = 0 \/ v = View (len a) 0 \/ exists u r, w = u ++ r /\ ended r /\ L u /\ v = View (len a) (len u)) ->
  first_literal L (a ++ w ++ b) v.
Proof.
  intros HL Ha Hw Hb Hwb Hit Any. unfold first_literal. pose proof (nonneg_len a). pose proof (nonneg_len w). pose proof (nonneg_len b). split; [|split].
  - unfold vin. rewrite !len_app. destruct Any as [[-> ->]|[->|(u & r & -> & _ & _ & ->)]]; [lia|cbn; lia|]. cbn.
    rewrite len_app in *. pose proof (nonneg_len u). pose proof (nonneg_len r). lia.
  - intros a' w' b' E Ha' He HLw. destruct (HL w' HLw) as [Nw' Fw'].
    destruct w' as [|c' w']; [congruence|].
    assert (Nc' : ~ blank c') by (intros X; apply Forall_inv in Fw'; apply Fw', blank_delim, X).
    destruct w as [|c w].
    { specialize (Hwb eq_refl). subst b. cbn [app] in E. rewrite app_nil_r in E. exfalso. rewrite E in Ha.
      apply Forall_app in Ha as [_ Ha]. apply Forall_inv in Ha. auto. }
    cbn [app] in E. apply (lead_unique blank) in E as [<- E]; auto; [|apply Forall_inv in Hw; auto].
    change (c :: w ++ b) with ((c :: w) ++ b) in E. change (c' :: w' ++ b') with ((c' :: w') ++ b') in E.
    apply app_eq_app2 in E as [(l & E1 & E2)|(l & E1 & E2)].
    + eapply (Hit (c' :: w') l); eauto. destruct l as [|h l]; [left; auto|].
      destruct He as [He|(h' & r' & He & D)]; [rewrite He in E2; discriminate|]. rewrite He in E2. cbn in E2. injection E2 as <- _.
      right. exists h', l. auto.
    + assert (l = []) as ->.
      { destruct l as [|h l]; auto. exfalso. destruct Hb as [Hb|(h' & r' & Hb & D)]; rewrite Hb in E2; [discriminate|].
        injection E2 as -> _. apply blank_delim in D. rewrite E1 in Fw'. apply Forall_app in Fw' as [_ Fw']. apply Forall_inv in Fw'. auto. }
      rewrite app_nil_r in E1. rewrite E1. rewrite E1 in HLw. apply (Hit (c :: w) []); auto; [rewrite app_nil_r; auto|left; auto].
  - intros Hv. destruct Any as [[_ ?]|[->|(u & r & -> & He & HLu & ->)]]; [lia|cbn in Hv; lia|].
    assert (C : contents (a ++ (u ++ r) ++ b) (View (len a) (len u)) = u) by (apply (contents_app _ a u (r ++ b)); rewrite <- app_assoc; reflexivity).
    rewrite C. exists a, (r ++ b). split; [rewrite <- app_assoc; reflexivity|]. split; auto. split; auto.
    destruct He as [->|(c & r' & -> & D)].
    + destruct Hb as [->|(c & b' & -> & B)]; [left; auto|right]. exists c, b'. split; auto. apply blank_delim; auto.
    + right. exists c, (r' ++ b). auto.
Qed.

(** ** literals contain no delimiters *)
Lemma Forall_digits_nodelim b l : b <= 36 -> Forall (digit_of b) l -> Forall (fun c => ~ delim c) l.
Proof. intros Hb H. eapply Forall_impl; [|exact H]. intros c. apply digit_not_delim; auto. Qed.
Ltac nodelim := let H := fresh in unfold delim; cbn; unfold ch; cbn; intros H; lia.
Lemma unsigned_nodelim u v : unsigned_text u v -> u <> [] /\ Forall (fun c => ~ delim c) u.
Proof.
  intros H. destruct (is_uint_cases u) as [[N F]|(p & w & -> & N & HC)]; [exists v; auto| |].
  - split; auto. eapply Forall_digits_nodelim; [|eauto]. lia.
  - split; [discriminate|]. constructor; [nodelim|].
    assert (P : ~ delim p). { destruct HC as [[[->| ->] _]|[[[->| ->] _]|[[->| ->] _]]]; nodelim. }
    constructor; auto. destruct HC as [[_ F]|[[_ F]|[_ F]]]; (eapply Forall_digits_nodelim; [|eauto]; lia).
Qed.
Lemma sign_nodelim m sg : sign_opt m sg -> Forall (fun c => ~ delim c) sg.
Proof. intros [->|[->|[_ ->]]]; repeat constructor; nodelim. Qed.
Lemma int_literal_free m : delim_free (int_literal m).
Proof.
  intros w (sg & u & v & -> & H1 & H2). destruct (unsigned_nodelim u v H2) as [N F]. split.
  - intros X. apply app_eq_nil in X as [_ X]. auto.
  - apply Forall_app. split; auto. eapply sign_nodelim; eauto.
Qed.
Lemma mantissa_nodelim b m : b <= 36 -> mantissa b m -> m <> [] /\ Forall (fun c => ~ delim c) m.
Proof.
  intros Hb [d N F|d f N F1 F2]; split; auto.
  - eapply Forall_digits_nodelim; eauto.
  - intros X. apply app_eq_nil in X as [_ X]. discriminate.
  - apply Forall_app. split; [eapply Forall_digits_nodelim; eauto|]. constructor; [nodelim|eapply Forall_digits_nodelim; eauto].
Qed.
Lemma exponent_nodelim ls o x : Forall (fun c => ~ delim c) ls -> exponent ls o x -> Forall (fun c => ~ delim c) x.
Proof.
  intros Hl [|e sg d H1 H2 H3 H4]; auto. rewrite Forall_forall in Hl. constructor; [apply Hl; auto|]. apply Forall_app. split.
  - destruct H2 as [->|[->|[_ ->]]]; repeat constructor; nodelim.
  - eapply Forall_digits_nodelim; [|eauto]. lia.
Qed.
Lemma word_nodelim u : u = s2z "inf" \/ u = s2z "infinity" \/ u = s2z "nan" -> u <> [] /\ Forall (fun c => ~ delim c) u.
Proof. intros [->|[->| ->]]; (split; [discriminate|repeat constructor; nodelim]). Qed.
Lemma real_body_nodelim u : real_body u -> u <> [] /\ Forall (fun c => ~ delim c) u.
Proof.
  assert (LE : Forall (fun c => ~ delim c) (s2z "eE")) by (repeat constructor; nodelim).
  assert (LP : Forall (fun c => ~ delim c) (s2z "pP")) by (repeat constructor; nodelim).
  assert (P : forall p b m x, b <= 36 -> ~ delim p -> mantissa b m -> exponent (s2z "pP") false x ->
     (ch "0" :: p :: m ++ x) <> [] /\ Forall (fun c => ~ delim c) (ch "0" :: p :: m ++ x)).
  { intros p b m x Hb Hp Hm Hx. split; [discriminate|]. destruct (mantissa_nodelim b m Hb Hm) as [_ F].
    constructor; [nodelim|]. constructor; auto. apply Forall_app. split; auto. apply (exponent_nodelim (s2z "pP") false); auto. }
  intros [m x H1 H2|p m x Hp H1 H2|p m x Hp H1 H2|p m x Hp H1 H2| | |]; try (apply word_nodelim; auto; fail).
  - destruct (mantissa_nodelim 10 m) as [N F]; auto; [lia|]. split; [intros X; apply app_eq_nil in X as [X _]; auto|].
    apply Forall_app. split; auto. apply (exponent_nodelim (s2z "eE") true); auto.
  - apply (P p 16); auto; [lia|]. destruct Hp as [<-|[<-|[]]]; nodelim.
  - apply (P p 2); auto; [lia|]. destruct Hp as [<-|[<-|[]]]; nodelim.
  - apply (P p 8); auto; [lia|]. destruct Hp as [<-|[<-|[]]]; nodelim.
Qed.
Lemma real_literal_free : delim_free real_literal.
Proof.
  intros w (sg & u & -> & H1 & H2). destruct (real_body_nodelim u H2) as [N F]. split.
  - intros X. apply app_eq_nil in X as [_ X]. auto.
  - apply Forall_app. split; auto. eapply sign_nodelim; eauto.
Qed.

(** ** integer spans *)
Lemma unsigned_head u v : unsigned_text u v -> exists c u', u = c :: u' /\ c <> ch "+" /\ c <> ch "-".
Proof.
  intros H. destruct (is_uint_cases u) as [[N F]|(p & w & -> & N & HC)]; [exists v; auto| |].
  - destruct u as [|c u]; [congruence|]. exists c, u. split; auto. apply Forall_inv, digit_char_range in F; [|lia].
    unfold ch; cbn. lia.
  - exists (ch "0"), (p :: w). repeat split; discriminate.
Qed.

(** on the word *)
Definition int_word (m : bool) (w : list Z) (k : Z) : res view := first_integral_span w k.
Definition sign_skip (m : bool) (w : list Z) : Z :=
  match w with c :: _ => if (c =? ch "+") || (m && (c =? ch "-")) then 1 else 0 | [] => 0 end.
Lemma int_word_hit m (u r : list Z) : small (u ++ r) -> bytes (u ++ r) -> ended r -> int_literal m u ->
  first_integral_span (u ++ r) (sign_skip m (u ++ r)) = Ok (View 0 (len u)).
Proof.
  intros Hs By He (sg & t & v & -> & H1 & H2). destruct (unsigned_head t v H2) as (c & t' & E & C1 & C2).
  destruct H1 as [->|[->|[-> ->]]].
  - cbn [app]. assert (sign_skip m (t ++ r) = len (@nil Z)) as ->.
    { subst t. cbn [app sign_skip]. replace (c =? ch "+") with false by lia. replace (c =? ch "-") with false by lia.
      rewrite andb_false_r. reflexivity. }
    apply (integral_hit [] t r); auto. exists v; auto.
  - change (sign_skip m _) with (len (s2z "+")). rewrite <- app_assoc in *. rewrite integral_hit; auto; [|exists v; auto].
    do 2 f_equal. lens; lia.
  - change (sign_skip true _) with (len (s2z "-")). rewrite <- app_assoc in *. rewrite integral_hit; auto; [|exists v; auto].
    do 2 f_equal. lens; lia.
Qed.
Lemma int_word_any m (w : list Z) : small w -> bytes w -> w <> [] ->
  exists n, first_integral_span w (sign_skip m w) = Ok (View 0 n) /\
    (n = 0 \/ exists u r, w = u ++ r /\ ended r /\ int_literal m u /\ n = len u).
Proof.
  intros Hs By N. destruct w as [|c w]; [congruence|]. unfold sign_skip.
  assert (L1 : 1 <= len (c :: w)) by (rewrite len_cons; pose proof (nonneg_len w); lia).
  destruct ((c =? ch "+") || m && (c =? ch "-")) eqn:EC.
  - destruct (integral_any [c] w) as (n & E & HE); auto. exists n. split; [exact E|].
    destruct HE as [->|(u & r & -> & He & (v & Hu) & ->)]; auto. right. exists (c :: u), r. split; auto. split; auto.
    split; [|change (len [c]) with 1; rewrite len_cons; lia].
    exists [c], u, v. split; auto. split; auto. unfold sign_opt. destruct (Z.eqb_spec c (ch "+")) as [-> |]; auto.
    cbn [orb] in EC. apply andb_true_iff in EC as [-> EC]. assert (c = ch "-") as -> by lia. auto.
  - destruct (integral_any [] (c :: w)) as (n & E & HE); auto. exists n. split; [exact E|].
    destruct HE as [->|(u & r & E1 & He & (v & Hu) & ->)]; auto. right. exists u, r. split; auto. split; auto. split; auto.
    exists [], u, v. split; auto. split; auto. left; auto.
Qed.

Lemma bytes_mid (a w b : list Z) : bytes (a ++ w ++ b) -> bytes w.
Proof. intros H. apply bytes_app in H as [_ H]. apply bytes_app in H as [H _]. exact H. Qed.
Lemma small_mid (a w b : list Z) : small (a ++ w ++ b) -> small w.
Proof. unfold small. rewrite !len_app. pose proof (nonneg_len a). pose proof (nonneg_len b). lia. Qed.

Lemma first_uint_span_ok s : small s -> bytes s ->
  exists v, first_uint_span s = Ok v /\ first_literal (int_literal false) s v.
Proof.
  intros Hs By. destruct (word_split s) as (a & w & b & -> & Ha & Hw & Hb & Hwb).
  unfold first_uint_span. rewrite fnes_ok by auto. cbn [bind].
  destruct (Z.eqb_spec (len w) 0) as [E|E].
  - cbn [vl]. rewrite Z.eqb_refl. exists (View 0 0). split; auto. apply wrap_literal; auto using int_literal_free.
    intros u r -> _ HL. apply int_literal_free in HL as [N _]. destruct u as [|c u]; [congruence|].
    rewrite len_app, len_cons in E. pose proof (nonneg_len u). pose proof (nonneg_len r). lia.
  - cbn [vl vo]. replace (len w =? 0) with false by lia. destruct w as [|c w]; [change (len []) with 0 in E; lia|].
    assert (R : rd (a ++ (c :: w) ++ b) (len a) = Ok c) by apply rd_mid. rewrite R. cbn [bind].
    destruct (Z.eqb_spec c (ch "-")) as [-> |Nc].
    + rewrite vfirst_ok by (unfold small in *; pose proof (nonneg_len (a ++ (ch "-" :: w) ++ b)); lia).
      exists (View 0 0). split; auto. apply wrap_literal; auto using int_literal_free.
      intros u r E1 _ (sg & t & v & -> & H1 & H2). exfalso. destruct (unsigned_head t v H2) as (c & t' & -> & C1 & C2).
      destruct H1 as [->|[->|[X _]]]; [|discriminate|discriminate]. cbn in E1. injection E1 as E1 _. apply C2; symmetry; exact E1.
    + pose proof (contents_app _ a (c :: w) b eq_refl) as C. unfold on_sub. rewrite C.
      assert (SK : (if c =? ch "+" then 1 else 0) = sign_skip false (c :: w)).
      { unfold sign_skip. cbn [andb]. rewrite orb_false_r. reflexivity. }
      rewrite SK. destruct (int_word_any false (c :: w)) as (n & EN & HE); [eapply small_mid; eauto|eapply bytes_mid; eauto|discriminate|].
      rewrite EN. cbn [bind vo vl]. rewrite Z.add_0_r. eexists; split; [reflexivity|]. apply wrap_literal; auto using int_literal_free.
      * intros u r E1 He HL. pose proof (int_word_hit false u r) as HH. rewrite <- E1 in HH. rewrite HH in EN; auto.
        -- injection EN as <-. auto.
        -- eapply small_mid; eauto.
        -- eapply bytes_mid; eauto.
      * destruct HE as [->|(u & r & E1 & He & HL & ->)]; auto. right; right. exists u, r. auto.
Qed.
Lemma first_int_span_ok s : small s -> bytes s ->
  exists v, first_int_span s = Ok v /\ first_literal (int_literal true) s v.
Proof.
  intros Hs By. destruct (word_split s) as (a & w & b & -> & Ha & Hw & Hb & Hwb).
  unfold first_int_span. rewrite fnes_ok by auto. cbn [bind].
  destruct (Z.eqb_spec (len w) 0) as [E|E].
  - cbn [vl]. rewrite Z.eqb_refl. exists (View 0 0). split; auto. apply wrap_literal; auto using int_literal_free.
    intros u r -> _ HL. apply int_literal_free in HL as [N _]. destruct u as [|c u]; [congruence|].
    rewrite len_app, len_cons in E. pose proof (nonneg_len u). pose proof (nonneg_len r). lia.
  - cbn [vl vo]. replace (len w =? 0) with false by lia. destruct w as [|c w]; [change (len []) with 0 in E; lia|].
    assert (R : rd (a ++ (c :: w) ++ b) (len a) = Ok c) by apply rd_mid. rewrite R. cbn [bind].
    pose proof (contents_app _ a (c :: w) b eq_refl) as C. unfold on_sub. rewrite C.
    change (if (c =? ch "+") || (c =? ch "-") then 1 else 0) with (sign_skip true (c :: w)).
    destruct (int_word_any true (c :: w)) as (n & EN & HE); [eapply small_mid; eauto|eapply bytes_mid; eauto|discriminate|].
    rewrite EN. cbn [bind vo vl]. rewrite Z.add_0_r. eexists; split; [reflexivity|]. apply wrap_literal; auto using int_literal_free.
    + intros u r E1 He HL. pose proof (int_word_hit true u r) as HH. rewrite <- E1 in HH. rewrite HH in EN; auto.
      * injection EN as <-. auto.
      * eapply small_mid; eauto.
      * eapply bytes_mid; eauto.
    + destruct HE as [->|(u & r & E1 & He & HL & ->)]; auto. right; right. exists u, r. auto.
Qed.

(** ** real spans *)
Lemma op_eq_iff s t : bytes s -> bytes t -> op_eq s t = Ok (if list_eq_dec Z.eq_dec s t then true else false).
Proof.
  intros Hs Ht. destruct (ops_spec s t Hs Ht) as ((b & E & H) & _). rewrite E. f_equal.
  destruct (list_eq_dec Z.eq_dec s t); destruct b; auto; [apply H; auto|exfalso; tauto].
Qed.
Lemma word_hit (p wd r : list Z) : small (p ++ wd ++ r) -> bytes wd -> ended r ->
  word_follows (p ++ wd ++ r) (len p) wd = Ok (View 0 (len p + len wd)).
Proof.
  intros Hs Bw He. pose proof Hs as Hs'. nas. set (s := p ++ wd ++ r) in *.
  pose proof (nonneg_len p). pose proof (nonneg_len wd). pose proof (nonneg_len r).
  assert (Ls : len s = len p + len wd + len r) by (unfold s; lens; lia).
  unfold word_follows. replace (len p + len wd <=? len s) with true by lia. rewrite sub2_ok by lia. cbn [bind].
  assert (C : contents s (View (len p) (len wd)) = wd) by (apply (contents_app _ p wd r); auto). rewrite C.
  rewrite op_eq_iff by auto. cbn [bind]. destruct (list_eq_dec Z.eq_dec wd wd); [|congruence].
  destruct (Z.eqb_spec (len s) (len p + len wd)); [apply vfirst_ok; lia|].
  destruct r as [|c r]; [change (len []) with 0 in *; lia|]. assert (R : rd s (len p + len wd) = Ok c).
  { unfold s. rewrite app_assoc. replace (len p + len wd) with (len (p ++ wd)) by (lens; lia). apply rd_mid. }
  rewrite R. cbn [bind]. destruct He as [He|(c' & r' & He & D)]; [discriminate|]. injection He as <- <-.
  apply is_delim_spec in D. rewrite D. apply vfirst_ok; lia.
Qed.
Lemma word_any (p x wd : list Z) : small (p ++ x) -> bytes x -> bytes wd ->
  exists n, word_follows (p ++ x) (len p) wd = Ok (View 0 n) /\
    (n = 0 \/ exists r, x = wd ++ r /\ ended r /\ n = len p + len wd).
Proof.
  intros Hs Bx Bw. pose proof Hs as Hs'. nas. set (s := p ++ x) in *.
  pose proof (nonneg_len p). pose proof (nonneg_len wd). pose proof (nonneg_len x).
  assert (Ls : len s = len p + len x) by (unfold s; lens; lia).
  assert (Z0 : vfirst (len s) 0 = Ok (View 0 0)) by (apply vfirst_ok; lia).
  unfold word_follows. destruct (Z.leb_spec (len p + len wd) (len s)); [|exists 0; auto].
  destruct (split_at x (len wd)) as (x1 & x2 & -> & L1 & _); [lia|].
  rewrite len_app in *. pose proof (nonneg_len x2).
  rewrite sub2_ok by lia. cbn [bind].
  assert (C : contents s (View (len p) (len wd)) = x1) by (rewrite <- L1; apply (contents_app _ p x1 x2); auto). rewrite C.
  apply bytes_app in Bx as [B1 B2]. rewrite op_eq_iff by auto. cbn [bind].
  destruct (list_eq_dec Z.eq_dec x1 wd) as [->|]; [|exists 0; auto].
  destruct (Z.eqb_spec (len s) (len p + len wd)) as [E|E].
  - exists (len p + len wd). split; [apply vfirst_ok; lia|]. right. exists x2. split; auto. split; auto. left. apply len_0_nil. lia.
  - destruct x2 as [|c r]; [change (len []) with 0 in *; lia|]. assert (R : rd s (len p + len wd) = Ok c).
    { unfold s. rewrite app_assoc. replace (len p + len wd) with (len (p ++ wd)) by (lens; lia). apply rd_mid. }
    rewrite R. cbn [bind]. destruct (is_delim_char c) eqn:D; [|exists 0; auto].
    exists (len p + len wd). split; [apply vfirst_ok; lia|]. right. exists (c :: r). split; auto. split; auto.
    right. exists c, r. split; auto. apply is_delim_spec; auto.
Qed.
