(** Proofs about sscanf: the states are those of the subject sequence. *)
From Verif Require Import Base BaseLemmas CharconvSpec SpanNumSpec FloatSpec ScanModel SubstrModel CharconvModel SpanNumModel Base64Model FloatModel RealModel ScanfModel ScanfSpec.
Open Scope Z_scope.

Fixpoint run (q : sstate) (s : list Z) : option sstate :=
  match s with [] => Some q | c :: r => match snext q c with Some q => run q r | None => None end end.
Definition acc (q : sstate) (s : list Z) : Prop := exists q', run q s = Some q' /\ sfinal q' = true.
Lemma run_app q s t : run q (s ++ t) = match run q s with Some q => run q t | None => None end.
Proof. revert q. induction s as [|c s IH]; intros q; cbn; [reflexivity|]. destruct (snext q c); [apply IH|reflexivity]. Qed.
Lemma acc_nil q : acc q [] <-> sfinal q = true.
Proof. unfold acc. cbn. split; [intros (q' & E & H); now inversion E; subst|eauto]. Qed.
Lemma acc_cons q c s : acc q (c :: s) <-> exists q', snext q c = Some q' /\ acc q' s.
Proof.
  unfold acc. cbn. destruct (snext q c) as [q1|].
  - split; [intros H; eauto|]. intros (q' & E & H). inversion E; subst. exact H.
  - split; [intros (? & E & _); discriminate|intros (? & E & _); discriminate].
Qed.

(** ** characters *)
Lemma lower_is c l : 97 <= l <= 122 -> lower c =? l = true <-> c = l \/ c = l - 32.
Proof.
  intros Hl. unfold lower. rewrite Z.eqb_eq. destruct (Z.leb_spec 65 c), (Z.leb_spec c 90); cbn [andb]; lia.
Qed.
Lemma is_dig_iff c : is_dig c = true <-> digit_of 10 c.
Proof.
  unfold is_dig, digit_of, char_digit. rewrite andb_true_iff, !Z.leb_le.
  destruct (Z.leb_spec 48 c), (Z.leb_spec c 57), (Z.leb_spec 97 c), (Z.leb_spec c 122), (Z.leb_spec 65 c), (Z.leb_spec c 90); cbn [andb];
    (split; [intros; first [lia|eexists; split; [reflexivity|lia]]|intros (d & E & L); inversion E; lia]).
Qed.
Lemma is_hexdig_iff c : is_hexdig c = true <-> digit_of 16 c.
Proof.
  unfold is_hexdig, is_dig, lower, digit_of, char_digit. rewrite orb_true_iff, !andb_true_iff, !Z.leb_le.
  destruct (Z.leb_spec 48 c), (Z.leb_spec c 57), (Z.leb_spec 97 c), (Z.leb_spec c 122), (Z.leb_spec 65 c), (Z.leb_spec c 90); cbn [andb];
    (split; [intros; first [lia|eexists; split; [reflexivity|lia]]|intros (d & E & L); inversion E; lia]).
Qed.
Lemma is_sign_iff c : is_sign c = true <-> c = ch "+" \/ c = ch "-".
Proof. unfold is_sign. rewrite orb_true_iff, !Z.eqb_eq. tauto. Qed.
Lemma is_word_iff c : is_word c = true <-> word_char c.
Proof.
  unfold is_word, is_dig, lower, word_char. rewrite !orb_true_iff, !andb_true_iff, !Z.leb_le, Z.eqb_eq.
  change (ch "a") with 97. change (ch "z") with 122. change (ch "A") with 65. change (ch "Z") with 90. change (ch "0") with 48. change (ch "9") with 57. change (ch "_") with 95.
  destruct (Z.leb_spec 65 c), (Z.leb_spec c 90); cbn [andb]; lia.
Qed.
Lemma in2 (c a b : Z) : In c [a; b] <-> c = a \/ c = b.
Proof. cbn [In]. split; [intros [H|[H|[]]]; auto|intros [H|H]; auto]. Qed.
Lemma lower_in c l : 97 <= l <= 122 -> lower c =? l = true <-> In c [l; l - 32].
Proof. intros H. rewrite in2. apply lower_is. exact H. Qed.

(** ** the languages of the states *)
Local Notation D := (digit_of 10).
Local Notation H := (digit_of 16).
Local Notation eE := (s2z "eE").
Local Notation pP := (s2z "pP").
Definition expo_rest (s : list Z) : Prop := exists sg d, s = sg ++ d /\ (sg = s2z "+" \/ sg = s2z "-" \/ sg = []) /\ d <> [] /\ Forall D d.
Lemma D_not_sign c : D c -> is_sign c = false.
Proof.
  intros Hd. apply is_dig_iff in Hd. unfold is_dig in Hd. apply andb_prop in Hd. rewrite !Z.leb_le in Hd. unfold is_sign.
  change (ch "+") with 43. change (ch "-") with 45. destruct (Z.eqb_spec c 43), (Z.eqb_spec c 45); cbn; auto; lia.
Qed.
Lemma loop_lang q (P : Z -> Prop) : (forall c, P c -> snext q c = Some q) -> (forall c q', snext q c = Some q' -> P c /\ q' = q) -> sfinal q = true ->
  forall s, acc q s <-> Forall P s.
Proof.
  intros H1 H2 HF. induction s as [|c s IH].
  - rewrite acc_nil. split; auto.
  - rewrite acc_cons. split.
    + intros (q' & E & A). apply H2 in E. destruct E as [HP ->]. constructor; [exact HP|apply IH; exact A].
    + intros F. inversion F; subst. exists q. split; [apply H1; assumption|apply IH; assumption].
Qed.
Lemma if_some {A} (b : bool) (x y : A) : (if b then Some x else None) = Some y <-> b = true /\ x = y.
Proof. destruct b; split; intros E; try discriminate; try (inversion E; auto; fail); destruct E as [E ->]; [reflexivity|discriminate]. Qed.
Lemma expint_lang s : acc ExpInt s <-> Forall D s.
Proof.
  apply loop_lang; [intros c Hc; cbn; apply is_dig_iff in Hc; rewrite Hc; reflexivity| |reflexivity].
  intros c q'. cbn. rewrite if_some, is_dig_iff. intuition.
Qed.
Lemma powint_lang s : acc PowInt s <-> Forall D s.
Proof.
  apply loop_lang; [intros c Hc; cbn; apply is_dig_iff in Hc; rewrite Hc; reflexivity| |reflexivity].
  intros c q'. cbn. rewrite if_some, is_dig_iff. intuition.
Qed.
Lemma expsign_lang s : acc ExpSign s <-> s <> [] /\ Forall D s.
Proof.
  destruct s as [|c s].
  - rewrite acc_nil. split; [discriminate|intros [E _]; congruence].
  - rewrite acc_cons. cbn. split.
    + intros (q' & E & A). rewrite if_some, is_dig_iff in E. destruct E as [E <-]. apply expint_lang in A. split; [discriminate|auto].
    + intros [_ F]. inversion F as [|? ? Hc Fs]; subst. exists ExpInt. apply is_dig_iff in Hc. rewrite Hc. split; [reflexivity|apply expint_lang; exact Fs].
Qed.
Lemma powsign_lang s : acc PowSign s <-> s <> [] /\ Forall D s.
Proof.
  destruct s as [|c s].
  - rewrite acc_nil. split; [discriminate|intros [E _]; congruence].
  - rewrite acc_cons. cbn. split.
    + intros (q' & E & A). rewrite if_some, is_dig_iff in E. destruct E as [E <-]. apply powint_lang in A. split; [discriminate|auto].
    + intros [_ F]. inversion F as [|? ? Hc Fs]; subst. exists PowInt. apply is_dig_iff in Hc. rewrite Hc. split; [reflexivity|apply powint_lang; exact Fs].
Qed.
Lemma expo_lang_gen q qs qi : sfinal q = false ->
  (forall c, snext q c = if is_sign c then Some qs else if is_dig c then Some qi else None) ->
  (forall s, acc qs s <-> s <> [] /\ Forall D s) -> (forall s, acc qi s <-> Forall D s) ->
  forall s, acc q s <-> expo_rest s.
Proof.
  intros HF HN HS HI [|c s].
  - rewrite acc_nil, HF. split; [discriminate|]. intros (sg & d & E & _ & NE & _). symmetry in E. apply app_eq_nil in E. tauto.
  - rewrite acc_cons, HN. split.
    + intros (q' & E & A). destruct (is_sign c) eqn:Es.
      * inversion E; subst. apply HS in A. apply is_sign_iff in Es. exists [c], s. split; [reflexivity|]. destruct Es as [->| ->]; tauto.
      * rewrite if_some, is_dig_iff in E. destruct E as [E <-]. apply HI in A. exists [], (c :: s). repeat split; auto. discriminate.
    + intros (sg & d & E & Hs & NE & F). destruct Hs as [->|[->| ->]]; cbn in E.
      * inversion E; subst. exists qs. split; [reflexivity|]. apply HS. auto.
      * inversion E; subst. exists qs. split; [reflexivity|]. apply HS. auto.
      * subst d. inversion F as [|? ? Hc Fs]; subst. rewrite (D_not_sign _ Hc). apply is_dig_iff in Hc. rewrite Hc. exists qi. split; [reflexivity|apply HI; exact Fs].
Qed.
Lemma exp_lang s : acc Exp s <-> expo_rest s.
Proof. apply (expo_lang_gen Exp ExpSign ExpInt); [reflexivity|reflexivity|exact expsign_lang|exact expint_lang]. Qed.
Lemma pow_lang s : acc Pow s <-> expo_rest s.
Proof. apply (expo_lang_gen Pow PowSign PowInt); [reflexivity|reflexivity|exact powsign_lang|exact powint_lang]. Qed.
Lemma exponent_iff l s : exponent l true s <-> s = [] \/ exists e r, s = e :: r /\ In e l /\ expo_rest r.
Proof.
  split.
  - destruct 1 as [|e sg d He Hs NE F]; [auto|]. right. exists e, (sg ++ d). split; [reflexivity|]. split; [exact He|].
    exists sg, d. repeat split; auto. tauto.
  - intros [->|(e & r & -> & He & sg & d & -> & Hs & NE & F)]; [constructor|]. apply exp_some; auto. tauto.
Qed.
(** after the point *)
Definition frac_rest (P : Z -> Prop) (l s : list Z) : Prop := exists d x, s = d ++ x /\ Forall P d /\ exponent l true x.
(** before the point *)
Definition point_opt (P : Z -> Prop) (m : list Z) : Prop := m = [] \/ exists f, m = ch "." :: f /\ Forall P f.
Definition int_rest (P : Z -> Prop) (l s : list Z) : Prop := exists d m x, s = d ++ m ++ x /\ Forall P d /\ point_opt P m /\ exponent l true x.
Lemma frac_lang_gen q qe (P : Z -> Prop) (isd : Z -> bool) (e : Z) : sfinal q = true -> 97 <= e <= 122 ->
  (forall c, isd c = true <-> P c) -> (forall c, snext q c = if isd c then Some q else if lower c =? e then Some qe else None) ->
  (forall c, In c [e; e - 32] -> ~ P c) ->
  (forall s, acc qe s <-> expo_rest s) -> forall s, acc q s <-> frac_rest P [e; e - 32] s.
Proof.
  intros HF He HD HN HX HE. induction s as [|c s IH].
  - rewrite acc_nil. split; [|auto]. exists [], []. repeat constructor.
  - rewrite acc_cons, HN. split.
    + intros (q' & E & A). destruct (isd c) eqn:Ed.
      * inversion E; subst. apply IH in A. destruct A as (d & x & -> & Fd & Hx). exists (c :: d), x. split; [reflexivity|]. split; [constructor; [apply HD; exact Ed|exact Fd]|exact Hx].
      * rewrite if_some, lower_in in E by auto. destruct E as [E <-]. apply HE in A. exists [], (c :: s). split; [reflexivity|]. split; [constructor|]. apply exponent_iff. right. eauto.
    + intros (d & x & E & Fd & Hx). destruct d as [|c' d]; cbn in E.
      * subst x. apply exponent_iff in Hx. destruct Hx as [Hx|(e' & r & Hx & Hin & Hr)]; [discriminate|]. inversion Hx; subst e' r.
        destruct (isd c) eqn:Ed; [apply HD in Ed; elim (HX c Hin Ed)|]. apply lower_in in Hin; auto. rewrite Hin. exists qe. split; [reflexivity|apply HE; exact Hr].
      * inversion E; subst c'. inversion Fd as [|? ? Hc Fs]; subst. apply HD in Hc. rewrite Hc. exists q. split; [reflexivity|]. apply IH. exists d, x. auto.
Qed.
Lemma int_lang_gen q qf qe (P : Z -> Prop) (isd : Z -> bool) (e : Z) : sfinal q = true -> 97 <= e <= 122 ->
  (forall c, isd c = true <-> P c) -> (forall c, snext q c = if isd c then Some q else if c =? ch "." then Some qf else if lower c =? e then Some qe else None) ->
  (forall c, In c [e; e - 32] -> ~ P c) -> ~ P (ch ".") ->
  (forall s, acc qe s <-> expo_rest s) -> (forall s, acc qf s <-> frac_rest P [e; e - 32] s) ->
  forall s, acc q s <-> int_rest P [e; e - 32] s.
Proof.
  intros HF He HD HN HX HP HE HFr. induction s as [|c s IH].
  - rewrite acc_nil. split; [|auto]. exists [], [], []. repeat constructor.
  - rewrite acc_cons, HN. split.
    + intros (q' & E & A). destruct (isd c) eqn:Ed; [|destruct (Z.eqb_spec c (ch ".")) as [->|Np]].
      * inversion E; subst. apply IH in A. destruct A as (d & m & x & -> & Fd & Hm & Hx). exists (c :: d), m, x. split; [reflexivity|]. split; [constructor; [apply HD; exact Ed|exact Fd]|auto].
      * inversion E; subst. apply HFr in A. destruct A as (d & x & -> & Fd & Hx). exists [], (ch "." :: d), x. split; [reflexivity|]. split; [constructor|]. split; [right; eauto|exact Hx].
      * rewrite if_some, lower_in in E by auto. destruct E as [E <-]. apply HE in A. exists [], [], (c :: s). split; [reflexivity|]. split; [constructor|]. split; [left; reflexivity|]. apply exponent_iff. right. eauto.
    + intros (d & m & x & E & Fd & Hm & Hx). destruct d as [|c' d]; cbn in E.
      * destruct Hm as [->|(f & -> & Ff)]; cbn in E.
        -- subst x. apply exponent_iff in Hx. destruct Hx as [Hx|(e' & r & Hx & Hin & Hr)]; [discriminate|]. inversion Hx; subst e' r.
           destruct (isd c) eqn:Ed; [apply HD in Ed; elim (HX c Hin Ed)|].
           destruct (Z.eqb_spec c (ch ".")) as [->|Np]. { exfalso. apply in2 in Hin. change (ch ".") with 46 in Hin. lia. }
           apply lower_in in Hin; auto. rewrite Hin. exists qe. split; [reflexivity|apply HE; exact Hr].
        -- inversion E; subst. destruct (isd 46) eqn:Ed; [apply HD in Ed; elim (HP Ed)|]. exists qf. split; [reflexivity|]. apply HFr. exists f, x. auto.
      * inversion E; subst c'. inversion Fd as [|? ? Hc Fs]; subst. apply HD in Hc. rewrite Hc. exists q. split; [reflexivity|]. apply IH. exists d, m, x. auto.
Qed.
Lemma D_range c : D c -> 48 <= c <= 57.
Proof. intros Hc. apply is_dig_iff in Hc. unfold is_dig in Hc. apply andb_prop in Hc. rewrite !Z.leb_le in Hc. exact Hc. Qed.
Lemma H_range c : H c -> 48 <= c <= 57 \/ 97 <= c <= 102 \/ 65 <= c <= 70.
Proof.
  intros (d & E & L). revert E. unfold char_digit.
  destruct (Z.leb_spec 48 c), (Z.leb_spec c 57), (Z.leb_spec 97 c), (Z.leb_spec c 122), (Z.leb_spec 65 c), (Z.leb_spec c 90); cbn [andb]; intros E; inversion E; lia.
Qed.
Lemma frac_lang s : acc Frac s <-> frac_rest D eE s.
Proof.
  apply (frac_lang_gen Frac Exp D is_dig 101); [reflexivity|lia|exact is_dig_iff|reflexivity| |exact exp_lang].
  intros c Hin Hc. apply D_range in Hc. apply in2 in Hin. lia.
Qed.
Lemma int_lang s : acc Int s <-> int_rest D eE s.
Proof.
  apply (int_lang_gen Int Frac Exp D is_dig 101); [reflexivity|lia|exact is_dig_iff|reflexivity| | |exact exp_lang|exact frac_lang].
  - intros c Hin Hc. apply D_range in Hc. apply in2 in Hin. lia.
  - intros Hc. apply D_range in Hc. change (ch ".") with 46 in Hc. lia.
Qed.
Lemma hexfrac_lang s : acc HexFrac s <-> frac_rest H pP s.
Proof.
  apply (frac_lang_gen HexFrac Pow H is_hexdig 112); [reflexivity|lia|exact is_hexdig_iff|reflexivity| |exact pow_lang].
  intros c Hin Hc. apply H_range in Hc. apply in2 in Hin. lia.
Qed.
Lemma hexint_lang s : acc HexInt s <-> int_rest H pP s.
Proof.
  apply (int_lang_gen HexInt HexFrac Pow H is_hexdig 112); [reflexivity|lia|exact is_hexdig_iff|reflexivity| | |exact pow_lang|exact hexfrac_lang].
  - intros c Hin Hc. apply H_range in Hc. apply in2 in Hin. lia.
  - intros Hc. apply H_range in Hc. change (ch ".") with 46 in Hc. lia.
Qed.
(** a mantissa and an exponent *)
Definition number (b : Z) (l s : list Z) : Prop := exists m x, s = m ++ x /\ mantissa b m /\ exponent l true x.
Definition dot_rest (P : Z -> Prop) (l s : list Z) : Prop := exists d x, s = d ++ x /\ d <> [] /\ Forall P d /\ exponent l true x.
Lemma dot_lang_gen q qf (P : Z -> Prop) (isd : Z -> bool) l : sfinal q = false ->
  (forall c, isd c = true <-> P c) -> (forall c, snext q c = if isd c then Some qf else None) ->
  (forall s, acc qf s <-> frac_rest P l s) -> (forall c, In c l -> ~ P c) -> forall s, acc q s <-> dot_rest P l s.
Proof.
  intros HF HD HN HFr HX [|c s].
  - rewrite acc_nil, HF. split; [discriminate|]. intros (d & x & E & NE & _). symmetry in E. apply app_eq_nil in E. tauto.
  - rewrite acc_cons, HN. split.
    + intros (q' & E & A). rewrite if_some, HD in E. destruct E as [E <-]. apply HFr in A. destruct A as (d & x & -> & Fd & Hx).
      exists (c :: d), x. split; [reflexivity|]. split; [discriminate|]. split; [constructor; auto|exact Hx].
    + intros (d & x & E & NE & Fd & Hx). destruct d as [|c' d]; [congruence|]. inversion E; subst. inversion Fd as [|? ? Hc Fs]; subst.
      apply HD in Hc. rewrite Hc. exists qf. split; [reflexivity|]. apply HFr. exists d, x. auto.
Qed.
Lemma dot_lang s : acc Dot s <-> dot_rest D eE s.
Proof.
  apply (dot_lang_gen Dot Frac D is_dig); [reflexivity|exact is_dig_iff|reflexivity|exact frac_lang|].
  intros c Hin Hc. apply D_range in Hc. change (In c [101; 69]) in Hin. apply in2 in Hin. lia.
Qed.
Lemma hexdot_lang s : acc HexDot s <-> dot_rest H pP s.
Proof.
  apply (dot_lang_gen HexDot HexFrac H is_hexdig); [reflexivity|exact is_hexdig_iff|reflexivity|exact hexfrac_lang|].
  intros c Hin Hc. apply H_range in Hc. change (In c [112; 80]) in Hin. apply in2 in Hin. lia.
Qed.
(** a number begins with a digit or with the point *)
Lemma number_iff b l s : number b l s <->
  (exists c r, s = c :: r /\ digit_of b c /\ int_rest (digit_of b) l r) \/ (exists r, s = ch "." :: r /\ dot_rest (digit_of b) l r).
Proof.
  split.
  - intros (m & x & -> & Hm & Hx). destruct Hm as [d NE Fd|d f NE Fd Ff].
    + destruct d as [|c d]; [congruence|]. inversion Fd; subst. left. exists c, (d ++ x). split; [reflexivity|]. split; [assumption|].
      exists d, [], x. split; [reflexivity|]. split; [assumption|]. split; [left; reflexivity|exact Hx].
    + destruct d as [|c d].
      * right. exists (f ++ x). split; [reflexivity|]. exists f, x. repeat split; auto.
      * inversion Fd; subst. left. exists c, (d ++ (ch "." :: f) ++ x). split; [cbn; rewrite <- app_assoc; reflexivity|]. split; [assumption|].
        exists d, (ch "." :: f), x. split; [reflexivity|]. split; [assumption|]. split; [right; eauto|exact Hx].
  - intros [(c & r & -> & Hc & d & m & x & -> & Fd & Hm & Hx)|(r & -> & d & x & -> & NE & Fd & Hx)].
    + destruct Hm as [->|(f & -> & Ff)].
      * exists (c :: d), x. split; [reflexivity|]. split; [apply man_int; [discriminate|auto]|exact Hx].
      * exists ((c :: d) ++ ch "." :: f), x. split; [cbn; rewrite <- app_assoc; reflexivity|]. split; [apply man_frac; [discriminate|auto|auto]|exact Hx].
    + exists ([] ++ ch "." :: d), x. split; [reflexivity|]. split; [apply man_frac; auto|exact Hx].
Qed.
Lemma hexx_lang s : acc HexX s <-> number 16 pP s.
Proof.
  rewrite number_iff. destruct s as [|c s].
  - rewrite acc_nil. split; [discriminate|]. intros [(c & r & E & _)|(r & E & _)]; discriminate.
  - rewrite acc_cons. cbn. split.
    + intros (q' & E & A). destruct (is_hexdig c) eqn:Ed.
      * inversion E; subst. left. exists c, s. split; [reflexivity|]. split; [apply is_hexdig_iff; exact Ed|apply hexint_lang; exact A].
      * rewrite if_some, Z.eqb_eq in E. destruct E as [-> <-]. right. exists s. split; [reflexivity|apply hexdot_lang; exact A].
    + intros [(c' & r & E & Hc & A)|(r & E & A)]; inversion E; subst.
      * apply is_hexdig_iff in Hc. rewrite Hc. exists HexInt. split; [reflexivity|apply hexint_lang; exact A].
      * destruct (is_hexdig (ch ".")) eqn:Ed; [discriminate|]. exists HexDot. split; [reflexivity|apply hexdot_lang; exact A].
Qed.
Lemma zero_lang s : acc Zero s <-> acc Int s \/ exists p u, s = p :: u /\ In p (s2z "xX") /\ acc HexX u.
Proof.
  destruct s as [|c s].
  - rewrite !acc_nil. cbn. split; auto.
  - rewrite !acc_cons. cbn [snext]. destruct (lower c =? ch "x") eqn:Ex.
    + assert (In c (s2z "xX")) by (apply (lower_in c 120); [lia|exact Ex]). split.
      * intros (q' & E & A). inversion E; subst. right. exists c, s. auto.
      * intros [(q' & E & A)|(p & u & E & _ & A)].
        -- exfalso. revert E. apply Z.eqb_eq in Ex. unfold sint. destruct (is_dig c) eqn:Ed.
           { apply is_dig_iff, D_range in Ed. unfold lower in Ex. change (ch "x") with 120 in Ex. destruct ((65 <=? c) && (c <=? 90)); lia. }
           destruct (Z.eqb_spec c (ch ".")) as [->|Np]; [discriminate Ex|]. rewrite Ex. discriminate.
        -- inversion E; subst. eauto.
    + split; [auto|]. intros [Hi|(p & u & E & Hp & A)]; [exact Hi|]. inversion E; subst. change (In p [120; 120 - 32]) in Hp.
      apply lower_in in Hp; [|lia]. change (ch "x") with 120 in Ex. congruence.
Qed.
(** ** infinity and nan *)
Lemma letters_nil s : letters s [] <-> s = [].
Proof. split; [inversion 1; reflexivity|intros ->; constructor]. Qed.
Lemma letters_cons s l p : letters s (l :: p) <-> exists c r, s = c :: r /\ (c = l \/ c = l - 32) /\ letters r p.
Proof.
  split; [intros F; inversion F; subst; eauto|]. intros (c & r & -> & Hc & Hr). constructor; auto.
Qed.
Lemma inf_step k l s : 0 <= k < 8 -> nth (Z.to_nat k) (s2z "infinity") 0 = l -> 97 <= l <= 122 ->
  acc (Inf_ k) s <-> sfinal (Inf_ k) = true /\ s = [] \/ exists c r, s = c :: r /\ (c = l \/ c = l - 32) /\ acc (Inf_ (k + 1)) r.
Proof.
  intros Hk Hl HL. destruct s as [|c s].
  - rewrite acc_nil. split; [auto|]. intros [[E _]|(c & r & E & _)]; [exact E|discriminate].
  - rewrite acc_cons. cbn [snext]. rewrite Hl. destruct (Z.ltb_spec k 8); [|lia]. cbn [andb]. split.
    + intros (q' & E & A). rewrite if_some, lower_is in E by auto. destruct E as [E <-]. right. exists c, s. auto.
    + intros [[_ E]|(c' & r & E & Hc & A)]; [discriminate|]. inversion E; subst c' r. apply lower_is in Hc; auto. rewrite Hc. eauto.
Qed.
Lemma inf8 s : acc (Inf_ 8) s <-> s = [].
Proof.
  destruct s; [rewrite acc_nil; cbn; tauto|]. rewrite acc_cons. cbn. split; [intros (q & E & _); discriminate|discriminate].
Qed.
Lemma inf_more k l s p : 0 <= k < 8 -> nth (Z.to_nat k) (s2z "infinity") 0 = l -> 97 <= l <= 122 -> sfinal (Inf_ k) = false ->
  (forall s, acc (Inf_ (k + 1)) s <-> letters s p) -> acc (Inf_ k) s <-> letters s (l :: p).
Proof.
  intros Hk Hl HL HF IH. rewrite (inf_step k l) by auto. rewrite letters_cons, HF. split.
  - intros [[E _]|(c & r & E & Hc & A)]; [discriminate|]. exists c, r. rewrite <- IH. auto.
  - intros (c & r & E & Hc & A). right. exists c, r. rewrite IH. auto.
Qed.
Lemma inf4 s : acc (Inf_ 4) s <-> letters s (s2z "nity").
Proof.
  change (s2z "nity") with [110; 105; 116; 121]. apply (inf_more 4 110); try reflexivity; try lia. clear s. intros s.
  apply (inf_more 5 105); try reflexivity; try lia. clear s. intros s.
  apply (inf_more 6 116); try reflexivity; try lia. clear s. intros s.
  apply (inf_more 7 121); try reflexivity; try lia. clear s. intros s.
  rewrite letters_nil. apply inf8.
Qed.
Lemma inf1 s : acc (Inf_ 1) s <-> letters s (s2z "nf") \/ letters s (s2z "nfinity").
Proof.
  change (s2z "nfinity") with (110 :: 102 :: 105 :: s2z "nity"). change (s2z "nf") with [110; 102].
  assert (I3 : forall s, acc (Inf_ 3) s <-> letters s [] \/ letters s (105 :: s2z "nity")).
  { intros t. rewrite (inf_step 3 105) by (reflexivity || lia). rewrite letters_nil, letters_cons. cbn [sfinal]. setoid_rewrite inf4. cbn. tauto. }
  assert (I2 : forall s, acc (Inf_ 2) s <-> letters s [102] \/ letters s (102 :: 105 :: s2z "nity")).
  { intros t. rewrite (inf_step 2 102) by (reflexivity || lia). rewrite !(letters_cons t). change (2 + 1) with 3. setoid_rewrite I3. cbn [sfinal]. split.
    - intros [[E _]|(c & r & E & Hc & [A|A])]; [discriminate| |]; [left|right]; exists c, r; auto.
    - intros [(c & r & E & Hc & A)|(c & r & E & Hc & A)]; right; exists c, r; auto. }
  rewrite (inf_step 1 110) by (reflexivity || lia). rewrite !(letters_cons s). change (1 + 1) with 2. setoid_rewrite I2. cbn [sfinal]. split.
  - intros [[E _]|(c & r & E & Hc & [A|A])]; [discriminate| |]; [left|right]; exists c, r; auto.
  - intros [(c & r & E & Hc & A)|(c & r & E & Hc & A)]; right; exists c, r; auto.
Qed.
Lemma nanclosed_lang s : acc NanClosed s <-> s = [].
Proof. destruct s; [rewrite acc_nil; cbn; tauto|]. rewrite acc_cons. cbn. split; [intros (q & E & _); discriminate|discriminate]. Qed.
Lemma nanopen_lang s : acc NanOpen s <-> exists p, s = p ++ [ch ")"] /\ Forall word_char p.
Proof.
  induction s as [|c s IH].
  - rewrite acc_nil. split; [discriminate|]. intros (p & E & _). symmetry in E. apply app_eq_nil in E. destruct E. discriminate.
  - rewrite acc_cons. cbn [snext]. destruct (is_word c) eqn:Ew.
    + split.
      * intros (q' & E & A). inversion E; subst. apply IH in A. destruct A as (p & -> & F). exists (c :: p). split; [reflexivity|]. constructor; [apply is_word_iff; exact Ew|exact F].
      * intros (p & E & F). exists NanOpen. split; [reflexivity|]. apply IH. destruct p as [|c' p]; cbn in E; inversion E; subst; [discriminate Ew|]. inversion F; subst. eauto.
    + rewrite <- not_true_iff_false, is_word_iff in Ew. split.
      * intros (q' & E & A). rewrite if_some, Z.eqb_eq in E. destruct E as [-> <-]. apply nanclosed_lang in A. subst. exists []. split; [reflexivity|constructor].
      * intros (p & E & F). destruct p as [|c' p]; cbn in E; inversion E; subst.
        -- exists NanClosed. split; [reflexivity|apply nanclosed_lang; reflexivity].
        -- inversion F; subst. contradiction.
Qed.
Definition nan_tail (s : list Z) : Prop := s = [] \/ exists p, s = [ch "("] ++ p ++ [ch ")"] /\ Forall word_char p.
Lemma nan3 s : acc (Nan_ 3) s <-> nan_tail s.
Proof.
  unfold nan_tail. destruct s as [|c s].
  - rewrite acc_nil. cbn. tauto.
  - rewrite acc_cons. cbn [snext]. change (3 <? 3) with false. cbn iota. split.
    + intros (q' & E & A). rewrite if_some, Z.eqb_eq in E. destruct E as [-> <-]. apply nanopen_lang in A. destruct A as (p & -> & F). right. exists p. auto.
    + intros [E|(p & E & F)]; [discriminate|]. inversion E; subst. exists NanOpen. split; [reflexivity|]. apply nanopen_lang. eauto.
Qed.
Lemma nan_step k l s : 0 <= k < 3 -> nth (Z.to_nat k) (s2z "nan") 0 = l -> 97 <= l <= 122 ->
  acc (Nan_ k) s <-> exists c r, s = c :: r /\ (c = l \/ c = l - 32) /\ acc (Nan_ (k + 1)) r.
Proof.
  intros Hk Hl HL. destruct s as [|c s].
  - rewrite acc_nil. cbn [sfinal]. destruct (Z.eqb_spec k 3); [lia|]. split; [discriminate|]. intros (c & r & E & _). discriminate.
  - rewrite acc_cons. cbn [snext]. rewrite Hl. destruct (Z.ltb_spec k 3); [|lia]. split.
    + intros (q' & E & A). rewrite if_some, lower_is in E by auto. destruct E as [E <-]. exists c, s. auto.
    + intros (c' & r & E & Hc & A). inversion E; subst c' r. apply lower_is in Hc; auto. rewrite Hc. eauto.
Qed.
Lemma nan1 s : acc (Nan_ 1) s <-> exists w u, s = w ++ u /\ letters w (s2z "an") /\ nan_tail u.
Proof.
  rewrite (nan_step 1 97) by (reflexivity || lia). split.
  - intros (c & r & -> & Hc & A). rewrite (nan_step 2 110) in A by (reflexivity || lia). destruct A as (d & u & -> & Hd & A).
    change (2 + 1) with 3 in A. rewrite nan3 in A. exists [c; d], u. split; [reflexivity|]. split; [|exact A].
    change (s2z "an") with [97; 110]. constructor; [exact Hc|]. constructor; [exact Hd|constructor].
  - intros (w & u & -> & Hw & Hu). change (s2z "an") with [97; 110] in Hw. inversion Hw as [|c ? r ? Hc Hr]; subst. inversion Hr as [|d ? r' ? Hd Hr']; subst. inversion Hr'; subst.
    exists c, (d :: u). split; [reflexivity|]. split; [exact Hc|]. rewrite (nan_step (1 + 1) 110) by (reflexivity || lia).
    exists d, u. split; [reflexivity|]. split; [exact Hd|]. change (1 + 1 + 1) with 3. apply nan3. exact Hu.
Qed.
(** ** the number *)
Lemma body_lang s : (exists c r q, s = c :: r /\ sbegin c = Some q /\ acc q r) <-> subject_body s.
Proof.
  split.
  - intros (c & r & q & -> & E & A). unfold sbegin in E.
    destruct (Z.eqb_spec c (ch "0")) as [->|N0].
    { inversion E; subst. apply zero_lang in A. destruct A as [A|(p & u & -> & Hp & A)].
      - apply int_lang in A. assert (N : number 10 eE (ch "0" :: r)) by (apply number_iff; left; exists (ch "0"), r; split; [reflexivity|split; [apply is_dig_iff; reflexivity|exact A]]).
        destruct N as (m & x & -> & Hm & Hx). apply sb_dec; auto.
      - apply hexx_lang in A. destruct A as (m & x & -> & Hm & Hx). apply sb_hex; auto. }
    destruct (is_dig c) eqn:Ed.
    { inversion E; subst. apply int_lang in A. assert (N : number 10 eE (c :: r)) by (apply number_iff; left; exists c, r; split; [reflexivity|split; [apply is_dig_iff; exact Ed|exact A]]).
      destruct N as (m & x & -> & Hm & Hx). apply sb_dec; auto. }
    destruct (Z.eqb_spec c (ch ".")) as [->|Np].
    { inversion E; subst. apply dot_lang in A. assert (N : number 10 eE (ch "." :: r)) by (apply number_iff; right; eauto).
      destruct N as (m & x & -> & Hm & Hx). apply sb_dec; auto. }
    destruct (lower c =? ch "i") eqn:Ei.
    { inversion E; subst. apply lower_is in Ei; [|cbn; lia]. apply inf1 in A. destruct A as [A|A]; [apply sb_inf|apply sb_infinity]; constructor; auto. }
    rewrite if_some in E. destruct E as [En <-]. apply lower_is in En; [|cbn; lia]. apply nan1 in A. destruct A as (w & u & -> & Hw & [->|(p & -> & F)]).
    + rewrite app_nil_r. apply sb_nan. constructor; auto.
    + change (c :: w ++ [ch "("] ++ p ++ [ch ")"]) with ((c :: w) ++ [ch "("] ++ p ++ [ch ")"]). apply sb_nan_code; auto. constructor; auto.
  - assert (NOT : forall c l, 97 <= l <= 122 -> c = l \/ c = l - 32 -> (c =? ch "0") = false /\ is_dig c = false /\ (c =? ch ".") = false).
    { intros c l Hl Hc. unfold is_dig. change (ch "0") with 48. change (ch ".") with 46.
      repeat split; [apply Z.eqb_neq; lia| |apply Z.eqb_neq; lia]. apply andb_false_iff. rewrite !Z.leb_gt. lia. }
    assert (INF : forall c r, c = 105 \/ c = 105 - 32 -> acc (Inf_ 1) r -> exists c' r' q, c :: r = c' :: r' /\ sbegin c' = Some q /\ acc q r').
    { intros c r Hc A. exists c, r, (Inf_ 1). split; [reflexivity|]. split; [|exact A]. unfold sbegin. destruct (NOT c 105 ltac:(lia) Hc) as (-> & -> & ->).
      apply (lower_is c 105) in Hc; [|lia]. change (ch "i") with 105. rewrite Hc. reflexivity. }
    assert (NAN : forall c r, c = 110 \/ c = 110 - 32 -> acc (Nan_ 1) r -> exists c' r' q, c :: r = c' :: r' /\ sbegin c' = Some q /\ acc q r').
    { intros c r Hc A. exists c, r, (Nan_ 1). split; [reflexivity|]. split; [|exact A]. unfold sbegin. destruct (NOT c 110 ltac:(lia) Hc) as (-> & -> & ->).
      assert (NI : lower c =? ch "i" = false). { destruct (lower c =? ch "i") eqn:X; [|reflexivity]. apply (lower_is c 105) in X; lia. }
      rewrite NI. apply (lower_is c 110) in Hc; [|lia]. change (ch "n") with 110. rewrite Hc. reflexivity. }
    intros B. destruct B as [m x Hm Hx|p m x Hp Hm Hx|s L|s L|s L|s p L F].
    + assert (N : number 10 eE (m ++ x)) by (exists m, x; auto). apply number_iff in N. destruct N as [(c & r & -> & Hc & A)|(r & -> & A)].
      * apply int_lang in A. unfold sbegin. destruct (Z.eqb_spec c (ch "0")) as [->|N0].
        -- exists (ch "0"), r, Zero. split; [reflexivity|]. split; [reflexivity|]. apply zero_lang. auto.
        -- exists c, r, Int. split; [reflexivity|]. apply is_dig_iff in Hc. destruct (Z.eqb_spec c (ch "0")); [contradiction|]. rewrite Hc. auto.
      * exists (ch "."), r, Dot. split; [reflexivity|]. split; [reflexivity|]. apply dot_lang. exact A.
    + exists (ch "0"), (p :: m ++ x), Zero. split; [reflexivity|]. split; [reflexivity|]. apply zero_lang. right. exists p, (m ++ x). split; [reflexivity|]. split; [exact Hp|].
      apply hexx_lang. exists m, x. auto.
    + apply letters_cons in L. destruct L as (c & r & -> & Hc & L). apply INF; [exact Hc|]. apply inf1. auto.
    + apply letters_cons in L. destruct L as (c & r & -> & Hc & L). apply INF; [exact Hc|]. apply inf1. auto.
    + apply letters_cons in L. destruct L as (c & r & -> & Hc & L). apply NAN; [exact Hc|]. apply nan1. exists r, []. split; [rewrite app_nil_r; reflexivity|]. split; [exact L|left; reflexivity].
    + apply letters_cons in L. destruct L as (c & r & -> & Hc & L). apply (NAN c (r ++ [ch "("] ++ p ++ [ch ")"])); [exact Hc|]. apply nan1. exists r, ([ch "("] ++ p ++ [ch ")"]). split; [reflexivity|]. split; [exact L|right; eauto].
Qed.
Lemma signed_lang s : acc Signed s <-> subject_body s.
Proof.
  rewrite <- body_lang. destruct s as [|c s].
  - rewrite acc_nil. split; [discriminate|]. intros (c & r & q & E & _). discriminate.
  - rewrite acc_cons. cbn [snext]. split; [intros (q & E & A); eauto 6|]. intros (c' & r & q & E & B & A). inversion E; subst. eauto.
Qed.
Lemma begin_not_sign c q : sbegin c = Some q -> is_sign c = false.
Proof.
  unfold is_sign. destruct (Z.eqb_spec c (ch "+")) as [->|]; [discriminate|]. destruct (Z.eqb_spec c (ch "-")) as [->|]; [discriminate|reflexivity].
Qed.
Lemma start_lang s : acc Start s <-> subject s.
Proof.
  split.
  - destruct s as [|c s]; [rewrite acc_nil; discriminate|]. rewrite acc_cons. cbn [snext]. intros (q & E & A). destruct (is_sign c) eqn:Es.
    + inversion E; subst. apply signed_lang in A. exists [c], s. split; [reflexivity|]. split; [|exact A]. apply is_sign_iff in Es. unfold sign_opt. destruct Es as [->| ->]; auto.
    + exists [], (c :: s). split; [reflexivity|]. split; [left; reflexivity|]. apply body_lang. eauto 6.
  - intros (sg & u & -> & [->|[->|[_ ->]]] & B).
    + apply body_lang in B. destruct B as (c & r & q & -> & E & A). cbn [app]. apply acc_cons. cbn [snext]. rewrite (begin_not_sign _ _ E). eauto.
    + cbn [app s2z]. apply acc_cons. exists Signed. split; [reflexivity|]. apply signed_lang. exact B.
    + cbn [app s2z]. apply acc_cons. exists Signed. split; [reflexivity|]. apply signed_lang. exact B.
Qed.
