From Verif Require Import Base BaseLemmas ScanModel CharconvModel CharconvSpec CharconvProofs SubstrModel SubstrSpec SubstrProofs SubstrProofs2 SubstrProofs3 SubstrProofs4 SpanNumModel SpanNumSpec SpanNumProofs SpanNumProofs2 SpanNumProofs3.

(** the characters of a decimal real: no letters but e *)
Definition dec_real_char (c : Z) : Prop := 48 <= c <= 57 \/ In c (s2z ".eE+-").
Lemma dec_digit_char c : digit_of 10 c -> 48 <= c <= 57.
Proof. intros H. pose proof (digit_char_range 10 c H). destruct (Z.ltb_spec 57 c); [exfalso; eapply letter_not_dec; eauto|lia]. Qed.
Lemma dec_digits_char d : Forall (digit_of 10) d -> Forall dec_real_char d.
Proof. intros H. eapply Forall_impl; [|exact H]. intros c Hc. left. apply dec_digit_char; auto. Qed.
Lemma rnum_dec_chars u : rnum 10 true (s2z "eE") u -> Forall dec_real_char u /\ exists c u', u = c :: u' /\ (48 <= c <= 57 \/ c = ch ".").
Proof.
  intros (m & x & -> & Hm & Hx).
  assert (X : Forall dec_real_char x).
  { destruct Hx as [|e sg d H1 H2 H3 H4]; auto. constructor.
    { right. destruct H1 as [<-|[<-|[]]]; cbn; auto. }
    apply Forall_app. split; [|apply dec_digits_char; auto]. destruct H2 as [->|[->|[_ ->]]]; repeat constructor; right; cbn; auto 10. }
  destruct Hm as [d N F|d f N F1 F2].
  - split; [apply Forall_app; split; auto using dec_digits_char|]. destruct d as [|c d]; [congruence|]. exists c, (d ++ x). split; auto.
    left. apply dec_digit_char, (Forall_inv F).
  - split.
    { apply Forall_app; split; auto. apply Forall_app; split; [apply dec_digits_char; auto|]. constructor; [right; cbn; auto|apply dec_digits_char; auto]. }
    destruct d as [|c d]; [exists (ch "."), (f ++ x); auto|]. exists c, ((d ++ ch "." :: f) ++ x). split; auto. left. apply dec_digit_char, (Forall_inv F1).
Qed.
Lemma rb_rnum_dec u : rnum 10 true (s2z "eE") u -> real_body u.
Proof. intros (m & x & -> & Hm & Hx). apply rb_dec; auto. Qed.

Lemma real_ne_dispatch (sg x : list Z) : (sg = [] \/ sg = s2z "+" \/ sg = s2z "-") -> (sg = [] -> forall y, x <> ch "+" :: y /\ x <> ch "-" :: y) ->
  sg ++ x <> [] ->
  first_real_span_ne (sg ++ x) =
  match x with
  | c :: n :: _ :: _ =>
      if negb (c =? ch "0") then
        if c =? ch "i" then
          do w <- word_follows (sg ++ x) (len sg + 1) (s2z "nfinity") ;;
          if negb (vl w =? 0) then Ok w else word_follows (sg ++ x) (len sg + 1) (s2z "nf")
        else if c =? ch "n" then word_follows (sg ++ x) (len sg + 1) (s2z "an")
        else first_real_span_dec (sg ++ x) (len sg)
      else
        if (n =? ch "x") || (n =? ch "X") then first_real_span_hex (sg ++ x) (len sg + 2)
        else if (n =? ch "b") || (n =? ch "B") then first_real_span_bin (sg ++ x) (len sg + 2)
        else if (n =? ch "o") || (n =? ch "O") then first_real_span_oct (sg ++ x) (len sg + 2)
        else first_real_span_dec (sg ++ x) (len sg)
  | _ => first_real_span_dec (sg ++ x) (len sg)
  end.
Proof.
  intros Hsg Hx N. pose proof (nonneg_len sg). pose proof (nonneg_len x). unfold first_real_span_ne.
  assert (SK : exists c0, rd (sg ++ x) 0 = Ok c0 /\ (if (c0 =? ch "+") || (c0 =? ch "-") then 1 else 0) = len sg).
  { destruct Hsg as [->|[->| ->]].
    - specialize (Hx eq_refl). cbn [app] in *. destruct x as [|c x]; [congruence|]. exists c. split; [reflexivity|].
      destruct (Z.eqb_spec c (ch "+")) as [->|]; [exfalso; apply (proj1 (Hx x)); auto|].
      destruct (Z.eqb_spec c (ch "-")) as [->|]; [exfalso; apply (proj2 (Hx x)); auto|]. reflexivity.
    - exists (ch "+"). split; reflexivity.
    - exists (ch "-"). split; reflexivity. }
  destruct SK as (c0 & R0 & SK). rewrite R0. cbn [bind]. rewrite SK. rewrite len_app.
  destruct x as [|c [|n [|c3 x]]].
  - change (len []) with 0. replace (len sg + 3 <=? len sg + 0) with false by lia. reflexivity.
  - change (len [c]) with 1. replace (len sg + 3 <=? len sg + 1) with false by lia. reflexivity.
  - change (len [c; n]) with 2. replace (len sg + 3 <=? len sg + 2) with false by lia. reflexivity.
  - assert (L : 3 <= len (c :: n :: c3 :: x)) by (rewrite !len_cons; pose proof (nonneg_len x); lia).
    replace (len sg + 3 <=? len sg + len (c :: n :: c3 :: x)) with true by lia.
    rewrite rd_mid. cbn [bind]. destruct (negb (c =? ch "0")); [reflexivity|].
    assert (R : rd (sg ++ c :: n :: c3 :: x) (len sg + 1) = Ok n).
    { rewrite app_snoc. replace (len sg + 1) with (len (sg ++ [c])) by (lens; lia). apply rd_mid. }
    rewrite R. reflexivity.
Qed.

Lemma sgn_cases m sg : sign_opt m sg -> sg = [] \/ sg = s2z "+" \/ sg = s2z "-".
Proof. unfold sign_opt. tauto. Qed.
Lemma real_body_head u : real_body u -> exists c u', u = c :: u' /\ c <> ch "+" /\ c <> ch "-".
Proof.
  intros [m x H1 H2|p m x Hp H1 H2|p m x Hp H1 H2|p m x Hp H1 H2| | |].
  - destruct (rnum_dec_chars (m ++ x)) as (_ & c & u' & E & HC); [exists m, x; auto|]. exists c, u'. split; auto.
    destruct HC as [HC | ->]; [unfold ch; cbn; lia|split; discriminate].
  - eexists _, _; split; [reflexivity|split; discriminate].
  - eexists _, _; split; [reflexivity|split; discriminate].
  - eexists _, _; split; [reflexivity|split; discriminate].
  - eexists _, _; split; [reflexivity|split; discriminate].
  - eexists _, _; split; [reflexivity|split; discriminate].
  - eexists _, _; split; [reflexivity|split; discriminate].
Qed.
Lemma mantissa_ne b m : mantissa b m -> m <> [].
Proof. intros [d N _|d f _ _ _]; auto. intros X. apply app_eq_nil in X as [_ X]. discriminate. Qed.

Ltac lit_bytes := repeat constructor; cbn; lia.
Lemma real_ne_hit (u r : list Z) : small (u ++ r) -> bytes (u ++ r) -> ended r -> real_literal u ->
  first_real_span_ne (u ++ r) = Ok (View 0 (len u)).
Proof.
  intros Hs By He (sg & t & -> & H1 & H2). rewrite <- app_assoc in *. pose proof (sgn_cases _ _ H1) as Hsg.
  destruct (real_body_head t H2) as (c & t' & E & C1 & C2).
  rewrite real_ne_dispatch; auto.
  2: { intros _ y. rewrite E. cbn [app]. split; intros X; injection X as X _; congruence. }
  2: { rewrite E. intros X. apply app_eq_nil in X as [_ X]. discriminate. }
  assert (LL : len (sg ++ t) = len sg + len t) by (lens; lia). rewrite LL.
  pose proof By as By'. apply bytes_app in By' as [Bsg By']. apply bytes_app in By' as [Bt Br].
  destruct H2 as [m x Hm Hx|p m x Hp Hm Hx|p m x Hp Hm Hx|p m x Hp Hm Hx| | |].
  - (* decimal *)
    assert (RN : rnum 10 true (s2z "eE") (m ++ x)) by (exists m, x; auto).
    destruct (rnum_dec_chars _ RN) as (FC & _). pose proof (real_dec_hit sg (m ++ x) r Hs By He RN) as D.
    set (t := m ++ x) in *. clearbody t. rewrite D. destruct (t ++ r) as [|a [|n [|c3 y]]] eqn:EX; auto.
    assert (Fa : forall k d1 d2, t ++ r = d1 ++ k :: d2 -> True) by auto. clear Fa.
    rewrite E in EX, FC. cbn [app] in EX. injection EX as -> EX.
    assert (Fc : dec_real_char a) by apply (Forall_inv FC). assert (Fn : dec_real_char n \/ delim n).
    { destruct t' as [|k t']; cbn [app] in EX.
      - destruct He as [->|(k & r' & -> & Dk)]; [discriminate|]. injection EX as -> _. auto.
      - injection EX as -> _. left. apply (Forall_inv (Forall_inv_tail FC)). }
    assert ((a =? ch "i") = false) as -> by (unfold dec_real_char in Fc; unfold ch; cbn in *; lia).
    assert ((a =? ch "n") = false) as -> by (unfold dec_real_char in Fc; unfold ch; cbn in *; lia).
    assert (((n =? ch "x") || (n =? ch "X")) = false) as -> by (unfold dec_real_char, delim in Fn; unfold ch; cbn in *; lia).
    assert (((n =? ch "b") || (n =? ch "B")) = false) as -> by (unfold dec_real_char, delim in Fn; unfold ch; cbn in *; lia).
    assert (((n =? ch "o") || (n =? ch "O")) = false) as -> by (unfold dec_real_char, delim in Fn; unfold ch; cbn in *; lia).
    destruct (negb (a =? ch "0")); reflexivity.
  - (* hexadecimal *)
    assert (PP : first_real_span_base (sg ++ (ch "0" :: p :: m ++ x) ++ r) is_hex_char is_p false (len sg + 2) = Ok (View 0 (len sg + len (ch "0" :: p :: m ++ x)))).
    { change (sg ++ (ch "0" :: p :: m ++ x) ++ r) with (sg ++ [ch "0"; p] ++ (m ++ x) ++ r) in *. rewrite (app_assoc sg) in *.
      replace (len sg + 2) with (len (sg ++ [ch "0"; p])) by (lens; lia). rewrite (real_p_hit 16); auto; [do 2 f_equal; lens; lia|exists m, x; auto]. }
    destruct (m ++ x) as [|k y] eqn:EM; [apply app_eq_nil in EM as [EM _]; apply mantissa_ne in Hm; congruence|].
    cbn [app]. replace (negb (ch "0" =? ch "0")) with false by reflexivity.
    destruct Hp as [<-|[<-|[]]]; exact PP.
  - assert (PP : first_real_span_base (sg ++ (ch "0" :: p :: m ++ x) ++ r) is_bin_char is_p false (len sg + 2) = Ok (View 0 (len sg + len (ch "0" :: p :: m ++ x)))).
    { change (sg ++ (ch "0" :: p :: m ++ x) ++ r) with (sg ++ [ch "0"; p] ++ (m ++ x) ++ r) in *. rewrite (app_assoc sg) in *.
      replace (len sg + 2) with (len (sg ++ [ch "0"; p])) by (lens; lia). rewrite (real_p_hit 2); auto; [do 2 f_equal; lens; lia|exists m, x; auto]. }
    destruct (m ++ x) as [|k y] eqn:EM; [apply app_eq_nil in EM as [EM _]; apply mantissa_ne in Hm; congruence|].
    cbn [app]. replace (negb (ch "0" =? ch "0")) with false by reflexivity.
    destruct Hp as [<-|[<-|[]]]; exact PP.
  - assert (PP : first_real_span_base (sg ++ (ch "0" :: p :: m ++ x) ++ r) is_oct_char is_p false (len sg + 2) = Ok (View 0 (len sg + len (ch "0" :: p :: m ++ x)))).
    { change (sg ++ (ch "0" :: p :: m ++ x) ++ r) with (sg ++ [ch "0"; p] ++ (m ++ x) ++ r) in *. rewrite (app_assoc sg) in *.
      replace (len sg + 2) with (len (sg ++ [ch "0"; p])) by (lens; lia). rewrite (real_p_hit 8); auto; [do 2 f_equal; lens; lia|exists m, x; auto]. }
    destruct (m ++ x) as [|k y] eqn:EM; [apply app_eq_nil in EM as [EM _]; apply mantissa_ne in Hm; congruence|].
    cbn [app]. replace (negb (ch "0" =? ch "0")) with false by reflexivity.
    destruct Hp as [<-|[<-|[]]]; exact PP.
  - (* inf: "infinity" does not follow *)
    change (s2z "inf" ++ r) with (ch "i" :: s2z "nf" ++ r) in *.
    pose proof (word_any (sg ++ [ch "i"]) (s2z "nf" ++ r) (s2z "nfinity")) as WA.
    pose proof (word_hit (sg ++ [ch "i"]) (s2z "nf") r) as WH.
    rewrite <- app_snoc in WA, WH. replace (len (sg ++ [ch "i"])) with (len sg + 1) in WA, WH by (lens; lia).
    destruct WA as (n & EN & HN); auto; [apply Forall_app; split; auto; lit_bytes|lit_bytes|].
    change (ch "i" :: s2z "nf" ++ r) with (ch "i" :: ch "n" :: ch "f" :: r) in *.
    cbn [app]. replace (negb (ch "i" =? ch "0")) with true by reflexivity. replace (ch "i" =? ch "i") with true by reflexivity.
    rewrite EN. cbn [bind vl]. destruct HN as [->|(r' & E' & _)].
    + cbn [Z.eqb negb]. rewrite WH; auto; [|lit_bytes]. change (s2z "nf" ++ r) with (ch "n" :: ch "f" :: r); cbv iota; do 2 f_equal. change (len (s2z "inf")) with 3. change (len (s2z "nf")) with 2. lia.
    + exfalso. destruct He as [->|(k & r2 & -> & Dk)]; [discriminate|]. cbn in E'. injection E' as -> _. revert Dk. nodelim.
  - change (s2z "infinity" ++ r) with (ch "i" :: s2z "nfinity" ++ r) in *.
    pose proof (word_hit (sg ++ [ch "i"]) (s2z "nfinity") r) as WH.
    rewrite <- app_snoc in WH. replace (len (sg ++ [ch "i"])) with (len sg + 1) in WH by (lens; lia).
    change (len (s2z "nfinity")) with 7 in WH. change (len (s2z "infinity")) with 8.
    change (s2z "nfinity" ++ r) with (ch "n" :: ch "f" :: s2z "inity" ++ r) in *. cbv iota.
    replace (negb (ch "i" =? ch "0")) with true by reflexivity. replace (ch "i" =? ch "i") with true by reflexivity.
    rewrite WH; auto; [|lit_bytes]. cbn [bind vl].
    replace (len sg + 1 + 7 =? 0) with false by (pose proof (nonneg_len sg); lia). cbn [negb]. do 2 f_equal. lia.
  - change (s2z "nan" ++ r) with (ch "n" :: s2z "an" ++ r) in *.
    pose proof (word_hit (sg ++ [ch "n"]) (s2z "an") r) as WH.
    rewrite <- app_snoc in WH. replace (len (sg ++ [ch "n"])) with (len sg + 1) in WH by (lens; lia).
    change (len (s2z "an")) with 2 in WH. change (len (s2z "nan")) with 3.
    change (s2z "an" ++ r) with (ch "a" :: ch "n" :: r) in *. cbv iota.
    replace (negb (ch "n" =? ch "0")) with true by reflexivity.
    replace (ch "n" =? ch "i") with false by reflexivity. replace (ch "n" =? ch "n") with true by reflexivity.
    rewrite WH; auto; [|lit_bytes]. do 2 f_equal. lia.
Qed.

Lemma real_ne_any (w : list Z) : small w -> bytes w -> w <> [] ->
  exists n, first_real_span_ne w = Ok (View 0 n) /\
    (n = 0 \/ exists u r, w = u ++ r /\ ended r /\ real_literal u /\ n = len u).
Proof.
  intros Hs By N.
  assert (exists sg x, w = sg ++ x /\ (sg = [] \/ sg = s2z "+" \/ sg = s2z "-") /\ (sg = [] -> forall y, x <> ch "+" :: y /\ x <> ch "-" :: y)) as (sg & x & -> & Hsg & Hx).
  { destruct w as [|c w]; [congruence|]. destruct (Z.eqb_spec c (ch "+")) as [->|C1]; [exists (s2z "+"), w; split; auto; split; auto; discriminate|].
    destruct (Z.eqb_spec c (ch "-")) as [->|C2]; [exists (s2z "-"), w; split; auto; split; auto; discriminate|].
    exists [], (c :: w). split; auto. split; auto. intros _ y. split; intros X; injection X as X _; auto. }
  rewrite real_ne_dispatch; auto.
  assert (So : sign_opt true sg) by (unfold sign_opt; tauto).
  apply bytes_app in By as B'. destruct B' as [Bsg Bx].
  (* conclusion from a body *)
  assert (FIN : forall n, (n = 0 \/ exists t r, x = t ++ r /\ ended r /\ real_body t /\ n = len sg + len t) ->
     (n = 0 \/ exists u r, sg ++ x = u ++ r /\ ended r /\ real_literal u /\ n = len u)).
  { intros n [->|(t & r & -> & He & Hb & ->)]; auto. right. exists (sg ++ t), r. rewrite app_assoc. split; auto. split; auto.
    split; [exists sg, t; auto|lens; lia]. }
  assert (DEC : exists n, first_real_span_dec (sg ++ x) (len sg) = Ok (View 0 n) /\ (n = 0 \/ exists u r, sg ++ x = u ++ r /\ ended r /\ real_literal u /\ n = len u)).
  { destruct (real_dec_any sg x) as (n & E & HE); auto. exists n. split; auto. apply FIN. destruct HE as [->|(t & r & -> & He & Hr & ->)]; auto.
    right. exists t, r. split; auto. split; auto. split; auto. apply rb_rnum_dec; auto. }
  destruct x as [|c [|n [|c3 x]]]; auto.
  destruct (negb (c =? ch "0")) eqn:E0.
  - destruct (Z.eqb_spec c (ch "i")) as [->|].
    + pose proof (word_any (sg ++ [ch "i"]) (n :: c3 :: x) (s2z "nfinity")) as W1.
      pose proof (word_any (sg ++ [ch "i"]) (n :: c3 :: x) (s2z "nf")) as W2.
      rewrite <- app_snoc in W1, W2. replace (len (sg ++ [ch "i"])) with (len sg + 1) in W1, W2 by (lens; lia).
      destruct W1 as (n1 & E1 & H1); auto; [apply (Forall_inv_tail Bx)|lit_bytes|].
      destruct W2 as (n2 & E2 & H2); auto; [apply (Forall_inv_tail Bx)|lit_bytes|].
      rewrite E1, E2. cbn [bind vl]. destruct (Z.eqb_spec n1 0) as [->|N1]; cbn [negb].
      * exists n2. split; auto. apply FIN. destruct H2 as [->|(r & E & He & ->)]; auto. right. exists (s2z "inf"), r. rewrite E.
        split; auto. split; auto. split; [constructor|]. change (len (s2z "nf")) with 2. change (len (s2z "inf")) with 3. lia.
      * exists n1. split; auto. apply FIN. destruct H1 as [->|(r & E & He & ->)]; auto. right. exists (s2z "infinity"), r. rewrite E.
        split; auto. split; auto. split; [constructor|]. change (len (s2z "nfinity")) with 7. change (len (s2z "infinity")) with 8. lia.
    + destruct (Z.eqb_spec c (ch "n")) as [->|]; [|exact DEC].
      pose proof (word_any (sg ++ [ch "n"]) (n :: c3 :: x) (s2z "an")) as W1.
      rewrite <- app_snoc in W1. replace (len (sg ++ [ch "n"])) with (len sg + 1) in W1 by (lens; lia).
      destruct W1 as (n1 & E1 & H1); auto; [apply (Forall_inv_tail Bx)|lit_bytes|].
      exists n1. split; auto. apply FIN. destruct H1 as [->|(r & E & He & ->)]; auto. right. exists (s2z "nan"), r. rewrite E.
      split; auto. split; auto. split; [constructor|]. change (len (s2z "an")) with 2. change (len (s2z "nan")) with 3. lia.
  - assert (c = ch "0") as -> by lia.
    assert (PP : forall b dig, (b = 16 /\ dig = is_hex_char /\ In n (s2z "xX") \/ b = 2 /\ dig = is_bin_char /\ In n (s2z "bB") \/ b = 8 /\ dig = is_oct_char /\ In n (s2z "oO")) ->
      exists k, first_real_span_base (sg ++ ch "0" :: n :: c3 :: x) dig is_p false (len sg + 2) = Ok (View 0 k) /\
       (k = 0 \/ exists u r, sg ++ ch "0" :: n :: c3 :: x = u ++ r /\ ended r /\ real_literal u /\ k = len u)).
    { intros b dig HB. destruct (real_p_any b dig (sg ++ [ch "0"; n]) (c3 :: x)) as (k & E & HE); [tauto|rewrite <- app_assoc; auto|rewrite <- app_assoc; auto|].
      rewrite <- app_assoc in E. replace (len (sg ++ [ch "0"; n])) with (len sg + 2) in * by (lens; lia). exists k. split; [exact E|]. apply FIN.
      destruct HE as [->|(t & r & Ex & He & (m & y & -> & Hm & Hy) & ->)]; auto. right. exists (ch "0" :: n :: m ++ y), r. rewrite Ex.
      split; auto. split; auto. split; [|rewrite !len_cons; lia].
      destruct HB as [(-> & _ & HB)|[(-> & _ & HB)|(-> & _ & HB)]]; [apply rb_hex|apply rb_bin|apply rb_oct]; auto. }
    destruct ((n =? ch "x") || (n =? ch "X")) eqn:EX; [apply (PP 16); left; repeat split; cbn; unfold ch in *; cbn in *; lia|].
    destruct ((n =? ch "b") || (n =? ch "B")) eqn:EB; [apply (PP 2); right; left; repeat split; cbn; unfold ch in *; cbn in *; lia|].
    destruct ((n =? ch "o") || (n =? ch "O")) eqn:EO; [apply (PP 8); right; right; repeat split; cbn; unfold ch in *; cbn in *; lia|].
    exact DEC.
Qed.

Lemma first_real_span_ok s : small s -> bytes s ->
  exists v, first_real_span s = Ok v /\ first_literal real_literal s v.
Proof.
  intros Hs By. destruct (word_split s) as (a & w & b & -> & Ha & Hw & Hb & Hwb).
  unfold first_real_span. rewrite fnes_ok by auto. cbn [bind].
  destruct (Z.eqb_spec (len w) 0) as [E|E].
  - cbn [vl]. rewrite Z.eqb_refl. exists (View 0 0). split; auto. apply wrap_literal; auto using real_literal_free.
    intros u r -> _ HL. apply real_literal_free in HL as [N _]. destruct u as [|c u]; [congruence|].
    rewrite len_app, len_cons in E. pose proof (nonneg_len u). pose proof (nonneg_len r). lia.
  - cbn [vl vo]. replace (len w =? 0) with false by lia.
    pose proof (contents_app _ a w b eq_refl) as C. unfold on_sub. rewrite C.
    destruct (real_ne_any w) as (n & EN & HE); [eapply small_mid; eauto|eapply bytes_mid; eauto|intros ->; apply E; reflexivity|].
    rewrite EN. cbn [bind vo vl]. rewrite Z.add_0_r. eexists; split; [reflexivity|]. apply wrap_literal; auto using real_literal_free.
    + intros u r E1 He HL. pose proof (real_ne_hit u r) as HH. rewrite <- E1 in HH. rewrite HH in EN; auto.
      * injection EN as <-. auto.
      * eapply small_mid; eauto.
      * eapply bytes_mid; eauto.
    + destruct HE as [->|(u & r & E1 & He & HL & ->)]; auto. right; right. exists u, r. auto.
Qed.
