From Verif Require Import Base BaseLemmas ScanModel CharconvModel CharconvSpec CharconvProofs CharconvProofs2 CharconvProofs3 CharconvProofs4 CharconvProofs5 SubstrModel SubstrSpec SubstrProofs SubstrProofs2 SubstrProofs3 SubstrProofs4 SubstrProofs5 SubstrProofs6 SpanNumModel SpanNumSpec SpanNumProofs SpanNumProofs2 SpanNumProofs3 SpanNumProofs4.

(** ** is_number and friends *)
Lemma bytes_contents s v : bytes s -> bytes (contents s v).
Proof.
  intros H. unfold contents, slice. rewrite <- (firstn_skipn (Z.to_nat (vo v)) s) in H. apply bytes_app in H as [_ H].
  rewrite <- (firstn_skipn (Z.to_nat (vl v)) (skipn _ s)) in H. apply bytes_app in H as [H _]. exact H.
Qed.
Lemma span_is_ok L f s : bytes s -> s <> [] -> delim_free L ->
  (exists v, f s = Ok v /\ first_literal L s v) -> exists b, span_is s f = Ok b /\ (b = true <-> L s).
Proof.
  intros By N HL (v & E & V & H1 & H2). unfold span_is. rewrite E. cbn [bind].
  rewrite op_eq_iff by auto using bytes_contents.
  destruct (list_eq_dec Z.eq_dec (contents s v) s) as [C|C]; eexists; (split; [reflexivity|]).
  - split; auto. intros _. assert (vl v <> 0).
    { intros X. apply N. rewrite <- C. unfold contents. rewrite X. reflexivity. }
    destruct (H2 H) as (a & b & _ & _ & _ & Y). rewrite C in Y. exact Y.
  - split; [discriminate|]. intros X. exfalso. apply C. rewrite (H1 [] s []); auto.
    + apply contents_full.
    + rewrite app_nil_r. reflexivity.
    + left; auto.
Qed.
Lemma any_span_ok fLs s : bytes s -> s <> [] ->
  Forall (fun fL => delim_free (snd fL) /\ exists v, fst fL s = Ok v /\ first_literal (snd fL) s v) fLs ->
  exists b, any_span s (map fst fLs) = Ok b /\ (b = true <-> exists fL, In fL fLs /\ snd fL s).
Proof.
  intros By N. induction 1 as [|[f L] fLs (HL & Hf) H (b & IH & Hb)]; cbn [map any_span fst].
  - exists false. split; auto. split; [discriminate|]. intros (? & [] & _).
  - cbn [fst snd] in *. destruct (span_is_ok L f s) as (c & E & Hc); auto. rewrite E. cbn [bind]. destruct c.
    + exists true. split; auto. split; auto. intros _. exists (f, L). split; [left; auto|cbn; tauto].
    + exists b. split; auto. rewrite Hb. split.
      * intros (fL & I & X). exists fL. split; auto. right; auto.
      * intros (fL & [<-|I] & X); [cbn in X; apply Hc in X; discriminate|]. exists fL; auto.
Qed.
Lemma is_some_ok fLs s : small s -> bytes s ->
  Forall (fun fL => delim_free (snd fL) /\ exists v, fst fL s = Ok v /\ first_literal (snd fL) s v) fLs ->
  exists b, is_some_number s (map fst fLs) = Ok b /\ (b = true <-> exists fL, In fL fLs /\ snd fL s).
Proof.
  intros Hs By H. unfold is_some_number.
  assert (NO : (forall fL, In fL fLs -> ~ snd fL s) -> (false = true <-> exists fL, In fL fLs /\ snd fL s)).
  { intros X. split; [discriminate|]. intros (fL & I & Y). exfalso. eapply X; eauto. }
  rewrite Forall_forall in H.
  destruct (Z.eqb_spec (len s) 0) as [E|E].
  - exists false. split; auto. apply NO. intros fL I X. destruct (H fL I) as (HL & _). apply HL in X as [X _]. apply X, len_0_nil, E.
  - destruct (word_split s) as (a & w & b & -> & Ha & Hw & Hb & Hwb). rewrite fnes_ok by auto. cbn [bind].
    destruct (Z.eqb_spec (len w) 0) as [E0|E0]; cbn [vl].
    + exists false. split; auto. apply NO. intros fL I X. destruct (H fL I) as (HL & _). apply HL in X as [X1 X2].
      assert (w = []) as -> by (apply len_0_nil, E0). specialize (Hwb eq_refl). subst b. cbn [app] in *. rewrite app_nil_r in *.
      destruct a as [|c a]; [congruence|]. apply Forall_inv in Ha, X2. apply X2, blank_delim, Ha.
    + replace (len w =? 0) with false by lia. apply any_span_ok; auto.
      * intros X. rewrite X in E. apply E. reflexivity.
      * rewrite Forall_forall. exact H.
Qed.

Ltac spans := repeat (apply Forall_cons; [split; cbn; auto using int_literal_free, real_literal_free, first_uint_span_ok, first_int_span_ok, first_real_span_ok|]); apply Forall_nil.
Lemma int_literal_mono w : int_literal false w -> int_literal true w.
Proof. intros (sg & u & v & -> & H & Hu). exists sg, u, v. split; auto. split; auto. unfold sign_opt in *. intuition discriminate. Qed.
Lemma is_unsigned_integer_ok s : small s -> bytes s -> exists b, is_unsigned_integer s = Ok b /\ (b = true <-> int_literal false s).
Proof.
  intros Hs By. destruct (is_some_ok [(first_uint_span, int_literal false)] s) as (b & E & H); auto.
  { spans. }
  exists b. split; auto. rewrite H. split; [intros (fL & [<-|[]] & X); auto|]. intros X. eexists. split; [left; reflexivity|auto].
Qed.
Lemma is_integer_ok s : small s -> bytes s -> exists b, is_integer s = Ok b /\ (b = true <-> int_literal true s).
Proof.
  intros Hs By. destruct (is_some_ok [(first_uint_span, int_literal false); (first_int_span, int_literal true)] s) as (b & E & H); auto.
  { spans. }
  exists b. split; auto. rewrite H. split.
  - intros (fL & [<-|[<-|[]]] & X); auto. apply int_literal_mono; auto.
  - intros X. eexists. split; [right; left; reflexivity|auto].
Qed.
Lemma is_real_ok s : small s -> bytes s -> exists b, is_real s = Ok b /\ (b = true <-> real_literal s).
Proof.
  intros Hs By. destruct (is_some_ok [(first_real_span, real_literal)] s) as (b & E & H); auto.
  { spans. }
  exists b. split; auto. rewrite H. split; [intros (fL & [<-|[]] & X); auto|]. intros X. eexists. split; [left; reflexivity|auto].
Qed.
Lemma is_number_ok s : small s -> bytes s -> exists b, is_number s = Ok b /\ (b = true <-> int_literal true s \/ real_literal s).
Proof.
  intros Hs By. destruct (is_some_ok [(first_uint_span, int_literal false); (first_int_span, int_literal true); (first_real_span, real_literal)] s) as (b & E & H); auto.
  { spans. }
  exists b. split; auto. rewrite H. split.
  - intros (fL & [<-|[<-|[<-|[]]]] & X); auto. left. apply int_literal_mono; auto.
  - intros [X|X]; [exists (first_int_span, int_literal true)|exists (first_real_span, real_literal)]; split; cbn; auto.
Qed.

(** ** relation of the literals to the parsers' grammar *)
Lemma int_text_literal t s v : int_text t s v -> int_literal (isgn t) s.
Proof.
  unfold int_text. destruct (isgn t); intros H.
  - destruct H as [s v H|s v H].
    + exists [], s, v. split; auto. split; [left; auto|auto].
    + exists (s2z "-"), s, v. split; auto. split; [right; right; auto|auto].
  - exists [], s, v. split; auto. split; [left; auto|auto].
Qed.
Lemma literal_int_text t s : int_literal (isgn t) s -> (forall r, s <> ch "+" :: r) -> exists v, int_text t s v.
Proof.
  intros (sg & u & v & -> & H & Hu) N. unfold int_text. destruct H as [->|[->|[E ->]]].
  - exists v. destruct (isgn t); auto. constructor; auto.
  - exfalso. apply (N u). reflexivity.
  - rewrite E. exists (- v). apply st_neg; auto.
Qed.
Lemma is_int_agree (m : bool) s : small s -> bytes s -> (forall r, s <> ch "+" :: r) ->
  exists b, (if m then is_integer s else is_unsigned_integer s) = Ok b /\
    forall w v0, exists x, from_chars_int (Ity w m) s v0 = Ok (b, x).
Proof.
  intros Hs By N. assert (exists b, (if m then is_integer s else is_unsigned_integer s) = Ok b /\ (b = true <-> int_literal m s)) as (b & E & H).
  { destruct m; [apply is_integer_ok|apply is_unsigned_integer_ok]; auto. }
  exists b. split; auto. intros w v0. destruct b.
  - destruct (literal_int_text (Ity w m) s) as (v & Hv); [apply H; auto|auto|]. eexists. apply from_chars_int_text; eauto.
  - apply from_chars_reject; auto. intros (v & Hv). apply int_text_literal in Hv. apply H in Hv. discriminate.
Qed.

(** ** the prefix parsers *)
Lemma span_for t s : small s -> bytes s -> exists v, (if isgn t then first_int_span s else first_uint_span s) = Ok v /\ first_literal (int_literal (isgn t)) s v.
Proof. destruct (isgn t); [apply first_int_span_ok|apply first_uint_span_ok]. Qed.
Lemma ato_first_value t s v0 (a w b : list Z) v : small s -> bytes s -> s = a ++ w ++ b -> Forall blank a -> ended b -> int_text t w v ->
  ato_first t s v0 = Ok (Some (len a + len w), wrap t v).
Proof.
  intros Hs By E Ha He Hv. unfold ato_first. destruct (span_for t s Hs By) as (x & Ex & V & H1 & _). rewrite Ex. cbn [bind].
  pose proof (int_text_literal t w v Hv) as HL. rewrite (H1 a w b); auto. cbn [vl vo].
  destruct (int_literal_free _ _ HL) as [N _]. pose proof (nonneg_len w).
  destruct (Z.eqb_spec (len w) 0); [exfalso; apply N, len_0_nil; auto|].
  assert (C : contents s (View (len a) (len w)) = w) by (apply (contents_app _ a w b); auto). rewrite C.
  rewrite (from_chars_int_text t w v v0 Hv). reflexivity.
Qed.
Lemma ato_first_none t s v0 : small s -> bytes s ->
  (forall a w b, s = a ++ w ++ b -> Forall blank a -> ended b -> ~ int_literal (isgn t) w) -> ato_first t s v0 = Ok (None, v0).
Proof.
  intros Hs By H. unfold ato_first. destruct (span_for t s Hs By) as (x & Ex & V & H1 & H2). rewrite Ex. cbn [bind].
  destruct (Z.eqb_spec (vl x) 0) as [E|E]; auto. exfalso. destruct (H2 E) as (a & b & E' & Ha & He & HL). eapply H; eauto.
Qed.
Lemma ato_first_plus w s v0 (a u b : list Z) v : small s -> bytes s -> s = a ++ (ch "+" :: u) ++ b -> Forall blank a -> ended b -> unsigned_text u v ->
  ato_first (Ity w true) s v0 = Err /\ exists x, ato_first (Ity w false) s v0 = Ok (None, x).
Proof.
  intros Hs By E Ha He Hv.
  assert (HL : forall m, int_literal m (ch "+" :: u)) by (intros m; exists (s2z "+"), u, v; split; auto; split; auto; right; left; auto).
  assert (C : contents s (View (len a) (len (ch "+" :: u))) = ch "+" :: u) by (apply (contents_app _ a _ b); auto).
  pose proof (nonneg_len u).
  assert (NZ : (len (ch "+" :: u) =? 0) = false) by (rewrite len_cons; lia).
  split.
  - unfold ato_first. cbn [isgn]. destruct (first_int_span_ok s Hs By) as (x & Ex & V & H1 & _). rewrite Ex. cbn [bind].
    rewrite (H1 a (ch "+" :: u) b) by auto. cbn [vl]. rewrite NZ, C, from_chars_plus. reflexivity.
  - unfold ato_first. cbn [isgn]. destruct (first_uint_span_ok s Hs By) as (x & Ex & V & H1 & _). rewrite Ex. cbn [bind].
    rewrite (H1 a (ch "+" :: u) b) by auto. cbn [vl]. rewrite NZ, C.
    destruct (from_chars_reject (Ity w false) (ch "+" :: u) v0) as (y & Ey).
    + rewrite E in By. apply bytes_mid in By. exact By.
    + discriminate.
    + intros (z & X). apply unsigned_head in X as (c & u' & X & N & _). injection X as X _. congruence.
    + rewrite Ey. cbn [bind]. eauto.
Qed.

(** ** bool *)
Lemma is1 : is_int_text false 10 1 (s2z "1").
Proof. exists (s2z "1"). split; [|reflexivity]. exists [1]. split; [|reflexivity]. constructor; [discriminate|repeat constructor; lia|discriminate|reflexivity]. Qed.
Lemma is0 : is_int_text false 10 0 (s2z "0").
Proof. exists (s2z "0"). split; [|reflexivity]. exists [0]. split; [|reflexivity]. constructor; [discriminate|repeat constructor; lia| |reflexivity]. intros t H. injection H as H; auto. Qed.
Lemma to_chars_bool_ok m b v : vin b m -> vl b < 2 ^ 64 ->
  to_chars_bool m b v = Ok (if 0 <? vl b then blit m (vo b) (s2z (if v then "1" else "0")) else m, 1).
Proof.
  intros Hb Hl. unfold to_chars_bool.
  assert (R : forall z, z = 0 \/ z = 1 -> in_range i32 z) by (intros z [-> | ->]; vm_compute; intuition discriminate).
  destruct (Z.ltb_spec 0 (vl b)).
  - destruct v; [apply (to_chars_int_fits i32 m b 1 (s2z "1"))|apply (to_chars_int_fits i32 m b 0 (s2z "0"))]; auto using is1, is0; change (len (s2z _)) with 1; lia.
  - destruct v; [apply (to_chars_int_small i32 m b 1 (s2z "1"))|apply (to_chars_int_small i32 m b 0 (s2z "0"))]; auto using is1, is0; change (len (s2z _)) with 1; lia.
Qed.

Lemma compare_char_0 s c : bytes s -> is_byte c -> len s < 2 ^ 31 -> op_eq_c s c = Ok (if list_eq_dec Z.eq_dec s [c] then true else false).
Proof.
  intros Hs Hc Hl. destruct (compare_char_sgn s c Hs Hc Hl) as (z & k & E & Ez & Hk). unfold op_eq_c. rewrite Ez. cbn [bind]. f_equal.
  destruct (compare_spec s [c]) as (k' & E' & _ & H1 & _); auto; [repeat constructor; apply Hc|].
  rewrite E in E'. injection E' as <-.
  destruct (list_eq_dec Z.eq_dec s [c]) as [X|X].
  - apply H1 in X. apply Z.eqb_eq. apply Z.sgn_null_iff. lia.
  - apply Z.eqb_neq. intros Y. apply X, H1. rewrite Y in Hk. cbn in Hk. auto.
Qed.
Lemma bool_words_ok s ws : bytes s -> Forall (fun wb => bytes (fst wb)) ws ->
  bool_words s ws = Ok (match List.find (fun wb => if list_eq_dec Z.eq_dec s (fst wb) then true else false) ws with Some (_, b) => Some b | None => None end).
Proof.
  intros Hs. induction 1 as [|[w b] ws H1 H2 IH]; cbn [bool_words List.find fst]; auto. cbn [fst] in H1. rewrite op_eq_iff by auto. cbn [bind].
  destruct (list_eq_dec Z.eq_dec s w); auto.
Qed.
Definition bool_words_list := [(s2z "false", false); (s2z "true", true); (s2z "False", false); (s2z "True", true); (s2z "FALSE", false); (s2z "TRUE", true)].
Lemma bool_words_bytes : Forall (fun wb => bytes (fst wb)) bool_words_list.
Proof. repeat constructor; cbn; lia. Qed.

Lemma from_chars_bool_word w b v0 : In (w, b) bool_words_list -> from_chars_bool w v0 = Ok (true, b).
Proof. intros H. repeat (destruct H as [H|H]; [injection H as <- <-; reflexivity|]). destruct H. Qed.
Lemma from_chars_bool_int s v v0 : bytes s -> len s < 2 ^ 31 -> signed_text s v -> from_chars_bool s v0 = Ok (true, negb (wrap i32 v =? 0)).
Proof.
  intros Hs Hl H. unfold from_chars_bool. rewrite !compare_char_0 by (auto; vm_compute; intuition discriminate). cbn [bind].
  destruct (list_eq_dec Z.eq_dec s [ch "0"]) as [E|_].
  { assert (v = 0) as ->; [|reflexivity]. apply (int_text_fun i32 s); auto. rewrite E. apply parse_int_spec. reflexivity. }
  destruct (list_eq_dec Z.eq_dec s [ch "1"]) as [E|_].
  { assert (v = 1) as ->; [|reflexivity]. apply (int_text_fun i32 s); auto. rewrite E. apply parse_int_spec. reflexivity. }
  fold bool_words_list. rewrite bool_words_ok by auto using bool_words_bytes.
  destruct (List.find _ bool_words_list) as [[w b]|] eqn:EF.
  - exfalso. apply List.find_some in EF as [EI EF]. cbn [fst] in EF. destruct (list_eq_dec Z.eq_dec s w) as [-> |]; [|discriminate].
    apply (from_chars_int_text i32 w v 0) in H.
    repeat (destruct EI as [EI|EI]; [injection EI as <- <-; discriminate H|]). destruct EI.
  - cbn [bind]. rewrite (from_chars_int_text i32 s v 0 H). reflexivity.
Qed.
Lemma from_chars_bool_text s b v0 : bytes s -> len s < 2 ^ 31 -> bool_text s b -> from_chars_bool s v0 = Ok (true, b).
Proof.
  intros Hs Hl HB. destruct HB as [w c H|w v H Hr]; [apply from_chars_bool_word; auto|].
  rewrite (from_chars_bool_int w v) by auto. rewrite wrap_id; auto.
Qed.
Lemma from_chars_bool_reject s v0 : bytes s -> len s < 2 ^ 31 -> (forall b, ~ In (s, b) bool_words_list) -> (~ exists v, signed_text s v) ->
  (forall r, s <> ch "+" :: r) -> from_chars_bool s v0 = Ok (false, v0).
Proof.
  intros Hs Hl Hw Hi Hp. unfold from_chars_bool. rewrite !compare_char_0 by (auto; vm_compute; intuition discriminate). cbn [bind].
  destruct (list_eq_dec Z.eq_dec s [ch "0"]) as [E|_].
  { exfalso. apply Hi. exists 0. apply (parse_int_spec i32). rewrite E. reflexivity. }
  destruct (list_eq_dec Z.eq_dec s [ch "1"]) as [E|_].
  { exfalso. apply Hi. exists 1. apply (parse_int_spec i32). rewrite E. reflexivity. }
  fold bool_words_list. rewrite bool_words_ok by auto using bool_words_bytes.
  destruct (List.find _ bool_words_list) as [[w b]|] eqn:EF.
  - exfalso. apply List.find_some in EF as [EI EF]. cbn [fst] in EF. destruct (list_eq_dec Z.eq_dec s w) as [-> |]; [|discriminate]. eapply Hw; eauto.
  - cbn [bind]. destruct (from_chars_reject i32 s 0) as (x & Ex); auto. rewrite Ex. reflexivity.
Qed.
