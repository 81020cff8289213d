(** Proofs about atof and atod with std::from_chars. *)
From Verif Require Import Base BaseLemmas CharconvSpec SpanNumSpec ScanModel SubstrModel SubstrSpec SubstrProofs4 SubstrProofs CharconvModel SpanNumModel SpanNumProofs4 Base64Model MemUtilProofs2 CharconvProofs3 FormatProofs.
From Verif Require Import FloatTable FloatModel FloatSpec FloatProofs1 FloatProofs2 FloatProofs7 FloatProofs8 FloatProofs11 FloatProofs15 FloatProofs16 FloatProofs17.
From Verif Require Import FloatProofs10 RealModel RealSpec RealProofs RealProofs3 ScanfModel ScanfSpec ScanfProofs ScanfProofs2 ScanfProofs3 StdModel StdSpec.
From Coq Require Import Lia Qpower Lqa.
Open Scope Z_scope.

(** ** the longest number is unique and exists *)
Lemma longest_by (P : list Z -> Prop) : (forall t, P t \/ ~ P t) -> forall s p,
  (exists a rest, s = a ++ rest /\ P (p ++ a) /\ forall x y, rest = x ++ y -> P (p ++ a ++ x) -> x = []) \/ (forall a b, s = a ++ b -> ~ P (p ++ a)).
Proof.
  intros D. induction s as [|c s IH]; intros p.
  - destruct (D p) as [H|H].
    + left. exists [], []. rewrite (app_nil_r p). split; [reflexivity|]. split; [exact H|]. intros x y E _. symmetry in E. now apply app_eq_nil in E.
    + right. intros a b E. symmetry in E. apply app_eq_nil in E. destruct E as [-> _]. now rewrite app_nil_r.
  - destruct (IH (p ++ [c])) as [(a & rest & -> & H & L)|N].
    + left. exists (c :: a), rest. rewrite <- app_assoc in H. split; [reflexivity|]. split; [exact H|]. intros x y E K. apply (L x y E). now rewrite <- app_assoc.
    + destruct (D p) as [H|H].
      * left. exists [], (c :: s). rewrite (app_nil_r p). split; [reflexivity|]. split; [exact H|]. intros x y E K. destruct x as [|d x]; [reflexivity|]. injection E as <- E.
        exfalso. apply (N x y E). rewrite <- app_assoc. exact K.
      * right. intros [|d a] b E; [now rewrite app_nil_r|]. injection E as <- E. intros K. apply (N a b E). now rewrite <- app_assoc.
Qed.
Lemma subject_dec t : subject t \/ ~ subject t.
Proof.
  destruct (run Start t) as [q|] eqn:R.
  - destruct (sfinal q) eqn:F; [left|right]; rewrite (subject_run t q R); [exact F|now rewrite F].
  - right. rewrite <- start_lang. intros (q & E & _). congruence.
Qed.
Definition number (t : list Z) : Prop := exists neg m e, decimal_text t neg m e.
Definition special (t : list Z) : Prop := exists neg nan, special_text t neg nan.
Lemma of_digs d : Forall (digit_of 10) d -> digs d.
Proof.
  intros H. eapply Forall_impl; [|exact H]. intros c (v & E & L). unfold dig. change (ch "0") with 48. change (ch "9") with 57. unfold char_digit in E.
  destruct ((48 <=? c) && (c <=? 57)) eqn:A; [lia|]. destruct ((97 <=? c) && (c <=? 122)) eqn:B; [injection E as <-; lia|].
  destruct ((65 <=? c) && (c <=? 90)) eqn:C; [injection E as <-; lia|discriminate].
Qed.
Lemma dec_body u : mantissa 10 u -> exists i f d, u = i ++ f /\ digs i /\ fraction f d /\ i ++ d <> [].
Proof.
  intros [d NE H|d f NE H1 H2].
  - exists d, [], []. rewrite !app_nil_r. repeat split; auto using of_digs. constructor.
  - exists d, (ch "." :: f), f. repeat split; auto using of_digs. constructor. now apply of_digs.
Qed.
Lemma dec_expo x : exponent (s2z "eE") true x -> exists e, expo x e.
Proof.
  intros [|c sg d I [->|[->|[_ ->]]] NE H]; [exists 0; constructor| | |]; assert (C : c = ch "e" \/ c = ch "E") by (cbn in I; destruct I as [<-|[<-|[]]]; auto); cbn [app].
  - exists (dec d). apply ex_plus; auto using of_digs.
  - exists (- dec d). apply ex_minus; auto using of_digs.
  - exists (dec d). apply ex_plain; auto using of_digs.
Qed.
Lemma subject_cases t : subject t -> number t \/ special t \/ (exists r, t = ch "+" :: r) \/ (exists sg p r, In p (s2z "xX") /\ (sg = [] \/ sg = s2z "-") /\ t = sg ++ ch "0" :: p :: r).
Proof.
  intros (sg & u & -> & S & B). destruct S as [->|[->|[_ ->]]]; [|right; right; left; eexists; reflexivity|].
  - destruct B as [m x M X|p m x P M X|s L|s L|s L|s p L W].
    + left. destruct (dec_body m M) as (i & f & d & -> & A & F & NE). destruct (dec_expo x X) as [e E]. exists false, (dec (i ++ d)), (e - len d).
      rewrite <- app_assoc. now apply (decimal_text_intro false i f d x e).
    + right. right. right. exists [], p, (m ++ x). auto.
    + right. left. exists false, false. now apply (sp_inf false).
    + right. left. exists false, false. now apply (sp_infinity false).
    + right. left. exists false, true. now apply (sp_nan false).
    + right. left. exists false, true. now apply (sp_nan_code false).
  - destruct B as [m x M X|p m x P M X|s L|s L|s L|s p L W].
    + left. destruct (dec_body m M) as (i & f & d & -> & A & F & NE). destruct (dec_expo x X) as [e E]. exists true, (dec (i ++ d)), (e - len d).
      rewrite <- app_assoc. now apply (decimal_text_intro true i f d x e).
    + right. right. right. exists (s2z "-"), p, (m ++ x). auto.
    + right. left. exists true, false. now apply (sp_inf true).
    + right. left. exists true, false. now apply (sp_infinity true).
    + right. left. exists true, true. now apply (sp_nan true).
    + right. left. exists true, true. now apply (sp_nan_code true).
Qed.
Lemma hex_no_number sg p r : In p (s2z "xX") -> (sg = [] \/ sg = s2z "-") -> ~ number (sg ++ ch "0" :: p :: r).
Proof.
  intros P S (neg & m & e & D). apply decimal_not_0x in D. destruct S as [->| ->]; cbn in D; cbn in P; destruct P as [<-|[<-|[]]]; discriminate.
Qed.
Lemma hex_no_special sg p r : (sg = [] \/ sg = s2z "-") -> ~ special (sg ++ ch "0" :: p :: r).
Proof.
  intros S (neg & nan & D). destruct (special_head _ _ _ D) as (q & E & c & r' & -> & K). destruct S as [->| ->], neg; cbn in E; injection E; intros; subst; try discriminate; lia.
Qed.
Lemma number_dec t : number t \/ ~ number t.
Proof.
  destruct (subject_dec t) as [S|S].
  - destruct (subject_cases t S) as [H|[(neg & nan & H)|[[r ->]|(sg & p & r & P & SG & ->)]]]; auto; right.
    + intros (neg' & m & e & D). rewrite <- (app_nil_r t) in D. assert (X := special_no_number t neg nan [] H). rewrite app_nil_r in X, D. apply (X t [] neg' m e); auto. now rewrite app_nil_r.
    + intros (neg & m & e & D). exact (plus_no_number r _ [] neg m e (eq_sym (app_nil_r _)) D).
    + now apply hex_no_number.
  - right. intros (neg & m & e & D). apply S. exact (decimal_subject _ _ _ _ D).
Qed.
Lemma special_dec t : special t \/ ~ special t.
Proof.
  destruct (subject_dec t) as [S|S].
  - destruct (subject_cases t S) as [(neg & m & e & D)|[H|[[r ->]|(sg & p & r & P & SG & ->)]]]; auto; right.
    + intros (neg' & nan & H). assert (X := special_no_number t neg' nan [] H). rewrite app_nil_r in X. apply (X t [] neg m e); auto. now rewrite app_nil_r.
    + intros (neg & nan & D). exact (plus_no_special r _ [] neg nan (eq_sym (app_nil_r _)) D).
    + now apply hex_no_special.
  - right. intros (neg & nan & D). apply S. exact (special_subject _ _ _ D).
Qed.
Lemma longest_unique t rest t' rest' neg m e neg' m' e' : t ++ rest = t' ++ rest' -> decimal_text t neg m e -> decimal_text t' neg' m' e' -> longest t rest -> longest t' rest' -> t = t' /\ rest = rest'.
Proof.
  intros E D D' L L'. apply app_eq_app in E. destruct E as [l [[-> ->]|[-> ->]]].
  - assert (l = []) as -> by (apply (L' l rest neg m e); auto). rewrite app_nil_r. auto.
  - assert (l = []) as -> by (apply (L l rest' neg' m' e'); auto). rewrite app_nil_r. auto.
Qed.
Lemma infinite_dec mb eb w : b_infinite mb eb w \/ ~ b_infinite mb eb w.
Proof. unfold b_infinite. lia. Qed.
Lemma range_dec under mb eb m w : out_of_range under mb eb m w \/ ~ out_of_range under mb eb m w.
Proof. unfold out_of_range, b_infinite, b_zero. destruct under; [|destruct (infinite_dec mb eb w) as [H|H]; unfold b_infinite in H; [left; now left|right; intros [K|[K _]]; [tauto|discriminate]]]. lia. Qed.
(** fast_float's result is one of std::from_chars, but for the value that it writes if it is out of range *)
Definition std_of (r : ffres) : std_res := StdRes (r_rest r) (r_ec r) (match r_ec r with EOk => r_value r | _ => None end).
Theorem fast_float_std rn f eb s : fok f eb -> bytes s -> len s + 400 <= 2 ^ 28 ->
  exists r, from_chars_float rn f s = Ok r /\ std_from_chars true (f_mb f) eb s (std_of r).
Proof.
  intros F BY L. destruct (longest_by number number_dec s []) as [(t & rest & -> & (neg & m & e & D) & LG)|NN].
  - assert (LT : longest t rest). { intros a b neg' m' e' E D'. apply (LG a b E). cbn [app]. exists neg', m', e'. exact D'. }
    destruct (from_chars_number rn f eb t rest neg m e F BY D LT) as [w [ec [E [N [C1 C2]]]]]; [rewrite len_app in L; assert (0 <= len rest) by apply len_nonneg; lia|].
    rewrite E. eexists. split; [reflexivity|]. unfold std_of. cbn [r_rest r_ec r_value]. destruct (range_dec true (f_mb f) eb m w) as [O|O].
    + rewrite C1 by (destruct O as [O|[_ O]]; auto). now apply (std_range true _ _ t rest neg m e w).
    + rewrite C2 by (unfold out_of_range in O; tauto). now apply (std_number true _ _ t rest neg m e w).
  - assert (N1 : no_number s) by (intros a b neg m e E D; apply (NN a b E); exists neg, m, e; exact D).
    destruct (longest_by special special_dec s []) as [(t & rest & -> & (neg & nan & D) & LG)|NS].
    + assert (LT : longest_special t rest). { intros a b neg' nan' E D'. apply (LG a b E). cbn [app]. exists neg', nan'. exact D'. }
      destruct (from_chars_special rn f eb t rest neg nan F BY D LT) as [w [E [W1 W2]]]. rewrite E. eexists. split; [reflexivity|].
      apply (std_special true _ _ t rest neg nan w); auto. destruct nan; auto.
    + assert (N2 : no_special s) by (intros a b neg nan E D; apply (NS a b E); exists neg, nan; exact D).
      rewrite (from_chars_invalid rn f s BY N1 N2). eexists. split; [reflexivity|]. now apply std_invalid.
Qed.
Lemma std_longest t rest neg m e : decimal_text t neg m e -> exists t' rest' neg' m' e', t ++ rest = t' ++ rest' /\ decimal_text t' neg' m' e' /\ longest t' rest'.
Proof.
  intros D. destruct (longest_by number number_dec (t ++ rest) []) as [(t' & rest' & E & (neg' & m' & e' & D') & LG)|NN].
  - exists t', rest', neg', m', e'. split; [exact E|]. split; [exact D'|]. intros a b x y z E2 D2. apply (LG a b E2). exists x, y, z. exact D2.
  - exfalso. apply (NN t rest eq_refl). exists neg, m, e. exact D.
Qed.
(** ** atof and atod *)
Lemma atof_std_eq dbg r s w0 : starts s -> len s < 2 ^ 64 -> atof_std dbg r s w0 = Ok (match sr_ec r with EOk => true | _ => false end, match sr_value r with Some w => w | None => w0 end).
Proof.
  intros S L. destruct (triml_starts s S L) as [v [T V]]. unfold atof_std. destruct S as [c [q [-> H]]].
  assert (LP : 0 < len (c :: q)) by (unfold len; cbn [length]; lia).
  rewrite dassert_true by lia. rewrite T. cbn [bind]. apply dassert_true. lia.
Qed.
Lemma not_hex_start s : ~ hex_start s -> begins_0x (unsign s) = false.
Proof.
  intros N. apply not_true_iff_false. intros H. apply N. destruct s as [|c s]; [discriminate|]. cbn [unsign] in H.
  destruct ((c =? ch "-") || (c =? ch "+")) eqn:E.
  - destruct s as [|a [|b s]]; try discriminate. cbn [begins_0x] in H. apply andb_prop in H. destruct H as [H1 H2]. apply Z.eqb_eq in H1. subst a.
    exists [c], b, s. split; [apply orb_prop in E; destruct E as [E|E]; apply Z.eqb_eq in E; subst c; cbn; auto|]. split; [|reflexivity].
    apply orb_prop in H2. destruct H2 as [H2|H2]; apply Z.eqb_eq in H2; subst; cbn; auto.
  - destruct s as [|b s]; try discriminate. cbn [begins_0x] in H. apply andb_prop in H. destruct H as [H1 H2]. apply Z.eqb_eq in H1. subst c.
    exists [], b, s. split; [now left|]. split; [|reflexivity]. apply orb_prop in H2. destruct H2 as [H2|H2]; apply Z.eqb_eq in H2; subst; cbn; auto.
Qed.
Lemma special_unique t rest t' rest' neg nan neg' nan' : t ++ rest = t' ++ rest' -> special_text t neg nan -> special_text t' neg' nan' -> longest_special t rest -> longest_special t' rest' -> t = t' /\ rest = rest'.
Proof.
  intros E D D' L L'. apply app_eq_app in E. destruct E as [l [[-> ->]|[-> ->]]].
  - assert (l = []) as -> by (apply (L' l rest neg nan); auto). rewrite app_nil_r. auto.
  - assert (l = []) as -> by (apply (L l rest' neg' nan'); auto). rewrite app_nil_r. auto.
Qed.
Lemma decimal_mant t neg m e : decimal_text t neg m e -> (0 <= decimal m e)%Q.
Proof.
  intros [n i ft d xt e' DI FR _ _]. apply decimal_nonneg. apply dec_range. apply digs_app; split; [exact DI|destruct FR; [constructor|assumption]].
Qed.
(** a number that has the same sign in all texts *)
Lemma agree dbg rn f eb s r w0 : fok f eb -> bytes s -> starts s -> len s + 400 <= 2 ^ 28 -> ~ hex_start s -> std_from_chars true (f_mb f) eb s r ->
  exists ok w w', atod dbg rn f s w0 = Ok (ok, w) /\ atof_std dbg r s w0 = Ok (ok, w') /\ (ok = true -> w = w' \/ b_nan (f_mb f) eb w /\ b_nan (f_mb f) eb w').
Proof.
  intros F BY ST L NH R. assert (L2 : len s < 2 ^ 64) by (assert (2 ^ 28 < 2 ^ 64) by reflexivity; lia). assert (HX := not_hex_start s NH).
  rewrite atof_std_eq by auto. destruct (fok_facts f eb F) as [M1 [M2 _]]. destruct R as [t rest neg m e w D LG N O|t rest neg m e w D LG N O|t rest neg nan w D LG W|s N1 N2]; cbn [sr_ec sr_value].
  - destruct (atod_decimal dbg rn f eb t rest neg m e w0 F BY D LG) as (ok & w1 & E & N1 & K); auto; [rewrite len_app in L; assert (0 <= len rest) by apply len_nonneg; lia|].
    assert (w1 = w) as -> by (apply (nearest_unique (f_mb f) eb M1 M2 neg (decimal m e)); auto; exact (decimal_mant t neg m e D)).
    exists true, w, w. assert (ok = true) as ->. { destruct ok; [reflexivity|]. exfalso. apply O. unfold out_of_range. destruct K as [K _]. destruct (K eq_refl); tauto. }
    auto.
  - destruct (atod_decimal dbg rn f eb t rest neg m e w0 F BY D LG) as (ok & w1 & E & N1 & K); auto; [rewrite len_app in L; assert (0 <= len rest) by apply len_nonneg; lia|].
    assert (w1 = w) as -> by (apply (nearest_unique (f_mb f) eb M1 M2 neg (decimal m e)); auto; exact (decimal_mant t neg m e D)).
    exists false, w, w0. assert (ok = false) as -> by (apply K; unfold out_of_range in O; tauto). repeat split; auto. discriminate.
  - destruct (atod_special dbg rn f eb t rest neg nan w0 F BY D LG L2) as (w1 & E & S1 & S2). exists true, w1, w. repeat split; auto. intros _.
    destruct nan; [right; auto|]. left. destruct W as [W1 W2]. rewrite <- W2 in S1. clear - S1 S2 W1 M1 M2. unfold b_neg in S1. destruct S2 as (A1 & A2 & A3), W1 as (C1 & C2 & C3).
    unfold b_words, b_exp, b_frac in *. replace (1 + eb + f_mb f) with (1 + (eb + f_mb f)) in * by lia. rewrite Z.pow_add_r, (Z.pow_add_r 2 eb (f_mb f)) in * by lia.
    assert (P1 : 0 < 2 ^ f_mb f) by (apply Z.pow_pos_nonneg; lia). assert (P2 : 0 < 2 ^ eb) by (apply Z.pow_pos_nonneg; lia).
    set (a := 2 ^ f_mb f) in *. set (b := 2 ^ eb) in *. change (2 ^ 1) with 2 in *.
    pose proof (Z.div_mod w a ltac:(lia)) as X1. pose proof (Z.div_mod w1 a ltac:(lia)) as X2. rewrite C3 in X1. rewrite A3 in X2.
    pose proof (Z.div_mod (w / a) b ltac:(lia)) as Y1. pose proof (Z.div_mod (w1 / a) b ltac:(lia)) as Y2. rewrite C2 in Y1. rewrite A2 in Y2.
    set (p := w / a) in *. set (q := w1 / a) in *. set (x := p / b) in *. set (y := q / b) in *.
    assert (x = y); [|congruence]. assert (0 <= x <= 1) by (split; nia). assert (0 <= y <= 1) by (split; nia).
    destruct (Z.leb_spec (b * a) w1), (Z.leb_spec (b * a) w); try discriminate; nia.
  - rewrite (atod_reject dbg rn f s w0 BY ST L2 N1 N2 HX). exists false, w0, w0. repeat split; auto.
Qed.
(** the zero before the x is the number *)
Lemma hex_zero under mb eb sg p r x : 1 <= mb -> 2 <= eb -> In p (s2z "xX") -> (sg = [] \/ sg = s2z "-") -> std_from_chars under mb eb (sg ++ ch "0" :: p :: r) x ->
  exists w, x = StdRes (p :: r) EOk (Some w) /\ nearest mb eb (match sg with [] => false | _ => true end) 0 w.
Proof.
  intros M E P SG. set (neg := match sg with [] => false | _ => true end).
  assert (D : decimal_text (sg ++ [ch "0"]) neg 0 0).
  { assert (Z0 : digs [ch "0"]) by (constructor; [split; discriminate|constructor]).
    destruct SG as [->| ->]; [apply (decimal_text_intro false [ch "0"] [] [] [] 0)|apply (decimal_text_intro true [ch "0"] [] [] [] 0)]; auto; try constructor; discriminate. }
  assert (LG : longest (sg ++ [ch "0"]) (p :: r)).
  { intros a b neg' m e E2 D2. destruct a as [|c a]; [reflexivity|]. injection E2 as <- E2. exfalso. apply (hex_no_number sg p a P SG). rewrite <- app_assoc in D2. exists neg', m, e. exact D2. }
  remember (sg ++ ch "0" :: p :: r) as s eqn:ES. intros R. assert (ES2 : s = (sg ++ [ch "0"]) ++ p :: r) by (rewrite ES, <- app_assoc; reflexivity).
  assert (UN : forall t rest neg' m e, t ++ rest = (sg ++ [ch "0"]) ++ p :: r -> decimal_text t neg' m e -> longest t rest -> rest = p :: r /\ neg' = neg /\ (decimal m e == 0)%Q /\ m = 0).
  { intros t rest neg' m e ET DT LT. destruct (longest_unique t rest _ _ neg' m e neg 0 0 ET DT D LT LG) as [-> ->]. split; [reflexivity|].
    assert (X : m = 0 /\ neg' = neg).
    { clear - DT SG. unfold neg. remember (sg ++ [ch "0"]) as u eqn:EU. destruct DT as [n i f d x e Hi Hf Hx NE].
      assert (Q : i = [ch "0"] /\ f = [] /\ x = [] /\ n = (match sg with [] => false | _ => true end)).
      { assert (GEN : forall i f x, i ++ f ++ x = [ch "0"] -> fraction f d -> expo x e -> i ++ d <> [] -> i = [ch "0"] /\ f = [] /\ x = []).
        { clear. intros i f x E F X NE. destruct i as [|c i]; cbn [app] in E.
          - destruct F as [|d F]; [now destruct NE|discriminate].
          - injection E as -> E. apply app_eq_nil in E. destruct E as [-> E]. apply app_eq_nil in E. destruct E as [-> ->]. auto. }
        destruct SG as [->| ->], n; cbn [app] in EU.
        - exfalso. injection EU as EU _. discriminate.
        - destruct (GEN _ _ _ EU Hf Hx NE) as (A & B & C). auto.
        - injection EU as EU. destruct (GEN _ _ _ EU Hf Hx NE) as (A & B & C). auto.
        - exfalso. destruct i as [|c i]; cbn [app] in EU.
          + destruct Hf as [|d F]; [now destruct NE|discriminate].
          + injection EU as -> _. inversion Hi as [|? ? HH]. destruct HH as [HH _]. exact (HH eq_refl). }
      destruct Q as (-> & -> & -> & ->). inversion Hf; subst. split; reflexivity. }
    destruct X as [-> ->]. split; [reflexivity|]. split; [|reflexivity]. unfold decimal. apply Qmult_0_l. }
  assert (NW : forall x w, (x == 0)%Q -> nearest mb eb neg x w -> nearest mb eb neg 0 w /\ ~ b_infinite mb eb w).
  { intros y w Y N. assert (N0 : nearest mb eb neg 0 w).
    { destruct N as (A & B & C). split; [exact A|]. split; [intros H; apply B; now rewrite Y|]. intros H. destruct C as [C1 C2]; [now rewrite Y|]. split; [exact C1|].
      intros w' F. specialize (C2 w' F). assert (SY : (signed neg y == signed neg 0)%Q) by (unfold signed; destruct neg; rewrite Y; reflexivity). rewrite <- !SY. exact C2. }
    split; [exact N0|]. destruct N0 as (_ & _ & N0). destruct N0 as [(N1 & N2) _].
    - unfold b_limit. apply Qmult_lt_0_compat; [|apply Qpower_0_lt; reflexivity]. unfold Qlt. cbn. assert (0 < 2 ^ (mb + 2)) by (apply Z.pow_pos_nonneg; lia).
      assert (2 <= 2 ^ (mb + 2)) by (rewrite Z.pow_add_r by lia; change (2 ^ 2) with 4; assert (0 < 2 ^ mb) by (apply Z.pow_pos_nonneg; lia); lia). lia.
    - intros (_ & I & _). lia. }
  destruct R as [t rest neg' m e w DT LT N O|t rest neg' m e w DT LT N O|t rest neg' nan w DT LT W|s N1 N2].
  - rewrite ES2 in *. destruct (UN t rest neg' m e) as (-> & -> & DZ & ->); auto. exists w. split; [reflexivity|]. now apply (NW (decimal 0 e)).
  - exfalso. destruct (UN t rest neg' m e) as (-> & -> & DZ & ->); [rewrite <- ES2; reflexivity|auto|auto|]. destruct (NW _ _ DZ N) as [_ NI]. destruct O as [O|[_ [O _]]]; [tauto|lia].
  - exfalso. apply (special_no_number t neg' nan rest DT (sg ++ [ch "0"]) (p :: r) neg 0 0); [rewrite <- ES2; reflexivity|exact D].
  - exfalso. apply (N1 (sg ++ [ch "0"]) (p :: r) neg 0 0); auto.
Qed.
(** ** atof_first, atod_first *)
Lemma first_std_eq dbg fc a w b w0 : small (a ++ w ++ b) -> bytes (a ++ w ++ b) -> Forall blank a -> ended b -> real_literal w ->
  atof_first_std dbg fc (a ++ w ++ b) w0 = Ok (match sr_ec (fc w) with EOk => Some (len a + len w) | _ => None end, match sr_value (fc w) with Some x => x | None => w0 end).
Proof.
  intros S BY HA HB HW. destruct (real_start w HW) as (c & r & E & NW). assert (len w <> 0) by (subst w; unfold len; cbn [length]; lia).
  destruct (first_real_span_ok (a ++ w ++ b) S BY) as [v [E2 [_ [U _]]]]. unfold atof_first_std. rewrite E2. cbn [bind].
  rewrite (U a w b eq_refl HA HB HW). cbn [vo vl]. replace (len w =? 0) with false by lia. unfold contents. cbn [vo vl]. rewrite slice_app_mid.
  rewrite atof_std_eq; [cbn [bind]; destruct (sr_ec (fc w)); reflexivity| |].
  - exists c, r. split; [exact E|]. intros B. apply NW. unfold blank in B. unfold white. cbn in *. lia.
  - unfold small in S. rewrite !len_app in S. pose proof (len_nonneg a). pose proof (len_nonneg b). lia.
Qed.
Lemma first_std_none dbg fc s w0 : small s -> bytes s -> (forall a w b, s = a ++ w ++ b -> Forall blank a -> ended b -> ~ real_literal w) ->
  atof_first_std dbg fc s w0 = Ok (None, w0).
Proof.
  intros S BY N. destruct (first_real_span_ok s S BY) as [v [E [_ [_ U]]]]. unfold atof_first_std. rewrite E. cbn [bind].
  destruct (Z.eqb_spec (vl v) 0) as [Z0|Z0]; [reflexivity|exfalso]. destruct (U Z0) as [a [b [E2 [A [C D]]]]]. exact (N a _ b E2 A C D).
Qed.
(** ** the number of a text is unique *)
Definition nodig (s : list Z) : Prop := forall c r, s = c :: r -> ~ dig c.
Lemma digs_split a b x y : digs a -> digs b -> nodig x -> nodig y -> a ++ x = b ++ y -> a = b /\ x = y.
Proof.
  intros A. revert b. induction A as [|c a C A IH]; intros b B X Y E; destruct B as [|d b D B]; cbn [app] in E.
  - auto.
  - exfalso. exact (X d (b ++ y) E D).
  - exfalso. exact (Y c (a ++ x) (eq_sym E) C).
  - injection E as -> E. destruct (IH b B X Y E) as [-> ->]. auto.
Qed.
Lemma expo_nodig x e : expo x e -> nodig x.
Proof. intros [|c d [->| ->] _ _|c d [->| ->] _ _|c d [->| ->] _ _] y r E; inversion E; subst; intros [H1 H2]; (discriminate || (now apply H2)). Qed.
Lemma frac_nodig f d x e : fraction f d -> expo x e -> nodig (f ++ x).
Proof.
  intros F X. destruct F as [|d F]; [exact (expo_nodig x e X)|]. intros c r E. cbn [app] in E. injection E as <- _. intros [H _]. now apply H.
Qed.
Lemma expo_unique x e e' : expo x e -> expo x e' -> e = e'.
Proof.
  assert (NS : forall c d, digs (c :: d) -> c <> ch "+" /\ c <> ch "-").
  { intros c d D. inversion D as [|? ? [H1 H2] _]; subst. change (ch "0") with 48 in H1. change (ch "9") with 57 in H2. change (ch "+") with 43. change (ch "-") with 45. lia. }
  intros H K. destruct H as [|c d C N D|c d C N D|c d C N D]; inversion K as [|c' d' C' N' D'|c' d' C' N' D'|c' d' C' N' D']; subst; auto; try discriminate;
    repeat match goal with H : digs (?c :: ?d) |- _ => destruct (NS c d H); clear H end; congruence.
Qed.
Lemma decimal_unique t neg m e neg' m' e' : decimal_text t neg m e -> decimal_text t neg' m' e' -> neg = neg' /\ m = m' /\ e = e'.
Proof.
  intros D D'. assert (NG : neg = neg').
  { destruct (decimal_shape t neg m e D) as [c [r [E H]]], (decimal_shape t neg' m' e' D') as [c' [r' [E' H']]]. subst t. unfold dig in *. change (ch "0") with 48 in *. change (ch "9") with 57 in *. change (ch ".") with 46 in *.
    destruct neg, neg'; auto; cbn [minus app] in E'; injection E' as E1 E2; subst; change (ch "-") with 45 in *; lia. }
  subst neg'. split; [reflexivity|]. destruct D as [neg i f d x e Hi Hf Hx NE]. remember ((if neg then [ch "-"] else []) ++ i ++ f ++ x) as t eqn:ET. destruct D' as [neg i' f' d' x' e' Hi' Hf' Hx' NE'].
  apply app_inv_head in ET. destruct (digs_split i' i (f' ++ x') (f ++ x)) as [-> E]; eauto using frac_nodig. clear ET.
  assert (Q : d = d' /\ x = x').
  { destruct Hf as [|d Hd], Hf' as [|d' Hd']; cbn [app] in E.
    - auto.
    - exfalso. subst x. inversion Hx as [|c ? [C|C]|c ? [C|C]|c ? [C|C]]; subst; discriminate.
    - exfalso. subst x'. inversion Hx' as [|c ? [C|C]|c ? [C|C]|c ? [C|C]]; subst; discriminate.
    - injection E as E. destruct (digs_split d' d x' x) as [-> ->]; eauto using expo_nodig. }
  destruct Q as [-> ->]. rewrite (expo_unique x' e e' Hx Hx'). auto.
Qed.
(** ** a text that is a decimal number *)
Lemma std_decimal_res under mb eb t neg m e r : decimal_text t neg m e -> std_from_chars under mb eb t r -> exists w, nearest mb eb neg (decimal m e) w /\
    (out_of_range under mb eb m w /\ r = StdRes [] ERange None \/ ~ out_of_range under mb eb m w /\ r = StdRes [] EOk (Some w)).
Proof.
  intros D R. remember t as s eqn:ES in R. assert (DD := D). assert (U : forall t' rest neg' m' e', s = t' ++ rest -> decimal_text t' neg' m' e' -> longest t' rest -> rest = [] /\ neg' = neg /\ m' = m /\ e' = e).
  { intros t' rest neg' m' e' E D' L. assert (rest = []) as ->. { apply (L rest [] neg m e); [now rewrite app_nil_r|]. rewrite <- E, ES. exact D. }
    split; [reflexivity|]. rewrite app_nil_r in E. subst s t'. exact (decimal_unique t neg' m' e' neg m e D' D). }
  destruct R as [t' rest neg' m' e' w D' L N O|t' rest neg' m' e' w D' L N O|t' rest neg' nan w D' L W|s N1 N2].
  - destruct (U t' rest neg' m' e' eq_refl D' L) as (-> & -> & -> & ->). exists w. auto.
  - destruct (U t' rest neg' m' e' eq_refl D' L) as (-> & -> & -> & ->). exists w. auto.
  - exfalso. apply (special_no_number t' neg' nan rest D' t [] neg m e); [rewrite ES; symmetry; apply app_nil_r|exact D].
  - exfalso. subst s. apply (N1 t [] neg m e); [symmetry; apply app_nil_r|exact D].
Qed.
Lemma std_decimal under mb eb t neg m e r w0 : decimal_text t neg m e -> std_from_chars under mb eb t r -> exists w, nearest mb eb neg (decimal m e) w /\
    (out_of_range under mb eb m w /\ Ok (match sr_ec r with EOk => true | _ => false end, match sr_value r with Some w => w | None => w0 end) = Ok (false, w0) \/
     ~ out_of_range under mb eb m w /\ Ok (match sr_ec r with EOk => true | _ => false end, match sr_value r with Some w => w | None => w0 end) = Ok (true, w)).
Proof. intros D R. destruct (std_decimal_res under mb eb t neg m e r D R) as [w [N [[O ->]|[O ->]]]]; exists w; auto. Qed.
Lemma nearest_zero mb eb neg w : 1 <= mb -> 2 <= eb -> nearest mb eb neg 0 w -> (b_value mb eb w == 0)%Q.
Proof.
  intros M E (A & _ & N). destruct N as [F N].
  - unfold b_limit. apply Qmult_lt_0_compat; [|apply Qpower_0_lt; reflexivity]. unfold Qlt. cbn. assert (0 < 2 ^ mb) by (apply Z.pow_pos_nonneg; lia).
    rewrite Z.pow_add_r by lia. change (2 ^ 2) with 4. lia.
  - assert (Z0 : b_finite mb eb 0 /\ (b_value mb eb 0 == 0)%Q).
    { assert (P : 2 <= 2 ^ eb) by (change 2 with (2 ^ 1) at 1; apply Z.pow_le_mono_r; lia). split.
      - unfold b_finite, b_exp, b_words. rewrite Z.div_0_l, Z.mod_0_l by (try apply Z.pow_nonzero; lia). split; [|lia]. split; [lia|apply Z.pow_pos_nonneg; lia].
      - unfold b_value, b_exp, b_frac, b_neg. rewrite Z.div_0_l, !Z.mod_0_l by (try apply Z.pow_nonzero; lia). cbn [Z.eqb].
        unfold signed. destruct (2 ^ (eb + mb) <=? 0); rewrite Qmult_0_l; reflexivity. }
    destruct Z0 as [Z0 V]. destruct (N 0 Z0) as [K _]. assert (SG : (signed neg 0 == 0)%Q) by (destruct neg; reflexivity). rewrite SG, V in K.
    assert (T : (Qabs (0 - 0) == 0)%Q) by reflexivity. rewrite T in K. apply Qabs_Qle_condition in K. destruct K as [K1 K2]. unfold Qopp in K1. cbn in K1. lra.
Qed.
Lemma triml_blank c r : len (c :: r) < 2 ^ 63 -> blank c -> exists t, triml (c :: r) (s2z " " ++ [13; 9; 10]) = Ok t /\ vl t <> len (c :: r).
Proof.
  intros L B. pose proof (len_nonneg r) as NR. destruct (triml_ok (c :: r) (s2z " " ++ [13; 9; 10])) as (t & -> & Vt & a & Ea & _ & NL); [exact L|].
  exists t. split; [reflexivity|]. intros Q. assert (LT : len (contents (c :: r) t) = vl t).
  { unfold vin in Vt. unfold contents, slice, len in *. rewrite firstn_length, skipn_length. cbn [length] in *. lia. }
  assert (a = []) as ->. { destruct a as [|x a]; [reflexivity|]. apply (f_equal (@len Z)) in Ea. rewrite len_app, !len_cons in Ea. rewrite len_cons in Q. pose proof (len_nonneg a). lia. }
  cbn [app] in Ea. rewrite <- Ea in NL. apply (NL c r eq_refl). unfold blank in B. cbn in *. tauto.
Qed.
Lemma std_blank r s w0 : len s < 2 ^ 63 -> s = [] \/ (exists c q, s = c :: q /\ blank c) -> atof_std true r s w0 = Err.
Proof.
  intros L [->|(c & q & -> & B)]; [reflexivity|]. unfold atof_std. pose proof (len_nonneg q) as NR. rewrite dassert_true by (rewrite len_cons; lia).
  destruct (triml_blank c q L B) as (t & -> & N). cbn [bind]. unfold dassert. cbn [negb orb]. destruct (Z.eqb_spec (vl t) (len (c :: q))); [tauto|reflexivity].
Qed.
