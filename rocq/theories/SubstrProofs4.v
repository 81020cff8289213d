(** Trimming, selection, first_of_any; the views derived from searches. *)
From Verif Require Import Base BaseLemmas ScanModel SubstrModel SubstrSpec SubstrProofs SubstrProofs2 SubstrProofs3.

Lemma contents_app (s a r b : list Z) : s = a ++ r ++ b -> contents s (View (len a) (len r)) = r.
Proof. intros ->. apply slice_app_mid. Qed.
Lemma contents_tail (s a r : list Z) : s = a ++ r -> contents s (View (len a) (len s - len a)) = r.
Proof. intros ->. rewrite len_app. replace (len a + len r - len a) with (len r) by lia. apply (contents_app _ _ _ []). rewrite app_nil_r. auto. Qed.
Lemma contents_head (s a r : list Z) : s = a ++ r -> contents s (View 0 (len a)) = a.
Proof. intros ->. apply (contents_app _ [] _ r). reflexivity. Qed.

(** ** trimming *)
Lemma triml_by_ok s P pos : small s ->
  (exists o, pos = Ok o /\ is_first (fun i => ~ P (byte_at s i)) 0 (len s) o) -> (forall c, P c \/ ~ P c) ->
  exists v, triml_by s pos = Ok v /\ vin v s /\ trimmed_left P s (contents s v).
Proof.
  nas. intros Hs (o & -> & Ho) Hdec. unfold triml_by. pose proof (nonneg_len s).
  destruct (Z.eqb_spec (len s) 0) as [E|E].
  - apply len_0_nil in E. subst s. exists (View 0 0). split; [reflexivity|]. split; [apply vin_view; cbn; lia|].
    exists []. cbn. repeat split; auto. intros c t X; discriminate.
  - cbn [bind]. destruct o as [p|]; cbn in Ho.
    + destruct Ho as (H1 & H2 & H3). rewrite sub1_ok by lia. eexists; split; [reflexivity|]. split; [apply vin_view; lia|].
      destruct (split_elem s p H1) as (a & b & Es & La).
      rewrite <- La. erewrite contents_tail by exact Es. exists a. split; auto. split.
      * apply Forall_range. intros j Hj. destruct (Hdec (byte_at a j)); auto.
        destruct (H3 j); [lia|]. rewrite Es, byte_at_app1 by lia. auto.
      * intros c t X. injection X as <- _. auto.
    + rewrite sub2_ok by lia. eexists; split; [reflexivity|]. split; [apply vin_view; lia|].
      exists s. cbn. rewrite app_nil_r. split; auto. split; [|intros c t X; discriminate].
      apply Forall_range. intros j Hj. destruct (Hdec (byte_at s j)); auto. destruct (Ho j); auto.
Qed.
Lemma trimr_by_ok s P pos : small s ->
  (exists o, pos = Ok o /\ is_last (fun i => ~ P (byte_at s i)) (len s) o) -> (forall c, P c \/ ~ P c) ->
  exists v, trimr_by s pos = Ok v /\ vin v s /\ trimmed_right P s (contents s v).
Proof.
  nas. intros Hs (o & -> & Ho) Hdec. unfold trimr_by. pose proof (nonneg_len s).
  destruct (Z.eqb_spec (len s) 0) as [E|E].
  - apply len_0_nil in E. subst s. exists (View 0 0). split; [reflexivity|]. split; [apply vin_view; cbn; lia|].
    exists []. cbn. repeat split; auto. intros c t X. destruct t; discriminate.
  - cbn [bind]. destruct o as [p|]; cbn in Ho.
    + destruct Ho as (H1 & H2 & H3). rewrite sub2_ok by lia. eexists; split; [reflexivity|]. split; [apply vin_view; lia|].
      destruct (split_elem s p H1) as (a & b & Es & La).
      assert (Es' : s = (a ++ [byte_at s p]) ++ b) by (rewrite <- app_assoc; exact Es).
      replace (p + 1) with (len (a ++ [byte_at s p])) by (rewrite len_app; change (len [byte_at s p]) with 1; lia).
      erewrite contents_head by exact Es'. exists b. split; auto. split.
      * apply Forall_range. intros j Hj. destruct (Hdec (byte_at b j)); auto.
        destruct (H3 (p + 1 + j)).
        { apply (f_equal len) in Es. rewrite len_app, len_cons in Es. lia. }
        rewrite Es, byte_at_app2 by lia. rewrite byte_at_consS by lia. replace (p + 1 + j - len a - 1) with j by lia. auto.
      * intros c t X. apply app_inj_tail in X. destruct X as [_ <-]. auto.
    + rewrite sub2_ok by lia. eexists; split; [reflexivity|]. split; [apply vin_view; lia|].
      exists s. cbn. split; auto. split; [|intros c t X; destruct t; discriminate].
      apply Forall_range. intros j Hj. destruct (Hdec (byte_at s j)); auto. destruct (Ho j); auto.
Qed.

Lemma dec_in (cs : list Z) c : In c cs \/ ~ In c cs.
Proof. destruct (in_dec Z.eq_dec c cs); auto. Qed.
Lemma dec_eq (c x : Z) : x = c \/ ~ x = c.
Proof. destruct (Z.eq_dec x c); auto. Qed.

Lemma triml_ok s cs : small s ->
  exists v, triml s cs = Ok v /\ vin v s /\ trimmed_left (fun c => In c cs) s (contents s v).
Proof.
  intros Hs. apply triml_by_ok; auto using dec_in. apply first_not_of_ok. pose proof (nonneg_len s). lia.
Qed.
Lemma trimr_ok s cs : small s ->
  exists v, trimr s cs = Ok v /\ vin v s /\ trimmed_right (fun c => In c cs) s (contents s v).
Proof.
  intros Hs. apply trimr_by_ok; auto using dec_in. pose proof (nonneg_len s).
  destruct (last_not_of_ok s cs (len s)) as (o & E & Ho); [lia|]. exists o; split; auto.
  rewrite <- E. unfold last_not_of. rewrite bwd_from_npos. cbn [chk_start]. unfold chk_start. replace ((0 <=? len s) && (len s <=? len s)) with true by lia. reflexivity.
Qed.
Lemma triml_c_ok s c : small s ->
  exists v, triml_c s c = Ok v /\ vin v s /\ trimmed_left (fun x => x = c) s (contents s v).
Proof.
  intros Hs. apply triml_by_ok; auto using dec_eq. apply first_not_of_c_ok. pose proof (nonneg_len s). lia.
Qed.
Lemma trimr_c_ok s c : small s ->
  exists v, trimr_c s c = Ok v /\ vin v s /\ trimmed_right (fun x => x = c) s (contents s v).
Proof.
  intros Hs. apply trimr_by_ok; auto using dec_eq. pose proof (nonneg_len s).
  destruct (last_not_of_c_ok s c (len s)) as (o & E & Ho); [lia|]. exists o; split; auto.
  rewrite <- E. unfold last_not_of_c. rewrite bwd_from_npos. unfold chk_start. replace ((0 <=? len s) && (len s <=? len s)) with true by lia. reflexivity.
Qed.
(** a view of the contents of a view *)
Lemma sub_sub (s : list Z) v w : vin v s -> vin w (contents s v) ->
  vin (View (vo v + vo w) (vl w)) s /\ contents s (View (vo v + vo w) (vl w)) = contents (contents s v) w.
Proof.
  intros (H1 & H2 & H3) (H4 & H5 & H6). unfold contents in H6. rewrite len_slice in H6 by auto. split.
  { apply vin_view; lia. }
  unfold contents; cbn [vo vl]. apply list_eq_at.
  { rewrite !len_slice; rewrite ?len_slice; lia. }
  rewrite len_slice by lia. intros i Hi. rewrite !byte_at_slice by lia. f_equal. lia.
Qed.
Lemma contents_small s v : small s -> vin v s -> small (contents s v).
Proof. nas. intros Hs (H1 & H2 & H3). unfold contents. rewrite len_slice; lia. Qed.
Lemma on_sub_ok s v f w : vin v s -> f (contents s v) = Ok w -> vin w (contents s v) ->
  on_sub s v f = Ok (View (vo v + vo w) (vl w)).
Proof. intros Hv E Hw. unfold on_sub. rewrite E. reflexivity. Qed.
Lemma no_lead_prefix P r b : no_lead P (r ++ b) -> no_lead P r.
Proof. intros H c t ->. apply (H c (t ++ b)). reflexivity. Qed.
Lemma trimmed_both P s r r' : trimmed_left P s r -> trimmed_right P r r' -> trimmed P s r'.
Proof.
  intros (a & -> & Ha & Hl) (b & -> & Hb & Hr). exists a, b. repeat split; auto. eapply no_lead_prefix; eauto.
Qed.
Lemma trim_ok s cs : small s ->
  exists v, trim s cs = Ok v /\ vin v s /\ trimmed (fun c => In c cs) s (contents s v).
Proof.
  intros Hs. unfold trim. destruct (triml_ok s cs Hs) as (v & E & Hv & HT). rewrite E. cbn [bind].
  destruct (trimr_ok (contents s v) cs) as (w & E' & Hw & HT'); [apply contents_small; auto|].
  destruct (sub_sub s v w Hv Hw) as (H1 & H2).
  erewrite on_sub_ok; eauto. eexists; split; [reflexivity|]. split; auto. rewrite H2. eapply trimmed_both; eauto.
Qed.
Lemma trim_c_ok s c : small s ->
  exists v, trim_c s c = Ok v /\ vin v s /\ trimmed (fun x => x = c) s (contents s v).
Proof.
  intros Hs. unfold trim_c. destruct (triml_c_ok s c Hs) as (v & E & Hv & HT). rewrite E. cbn [bind].
  destruct (trimr_c_ok (contents s v) c) as (w & E' & Hw & HT'); [apply contents_small; auto|].
  destruct (sub_sub s v w Hv Hw) as (H1 & H2).
  erewrite on_sub_ok; eauto. eexists; split; [reflexivity|]. split; auto. rewrite H2. eapply trimmed_both; eauto.
Qed.

(** uniqueness and idempotence *)
Lemma trimmed_left_unique P s r r' : trimmed_left P s r -> trimmed_left P s r' -> r = r'.
Proof.
  intros (a & -> & Ha & Hl). revert r' Ha. induction a as [|x a IH]; intros r' Ha (a' & E & Ha' & Hl').
  - destruct a' as [|y a']; auto. cbn in E. inversion Ha'; subst. destruct (Hl y (a' ++ r')); auto.
  - inversion Ha; subst. destruct a' as [|y a']; cbn in E.
    + destruct (Hl' x (a ++ r)); auto.
    + inversion E; subst. inversion Ha'; subst. apply IH; auto. exists a'. auto.
Qed.
Lemma trimmed_rev P s r : trimmed_right P s r -> trimmed_left P (rev s) (rev r).
Proof.
  intros (b & -> & Hb & Hr). exists (rev b). rewrite rev_app_distr. repeat split; auto.
  - apply Forall_rev; auto.
  - intros c t E. apply (Hr c (rev t)). rewrite <- (rev_involutive r), E. reflexivity.
Qed.
Lemma trimmed_right_unique P s r r' : trimmed_right P s r -> trimmed_right P s r' -> r = r'.
Proof.
  intros H H'. apply trimmed_rev in H, H'. rewrite <- (rev_involutive r), <- (rev_involutive r'). f_equal.
  eapply trimmed_left_unique; eauto.
Qed.
Lemma trimmed_unique P s r r' : trimmed P s r -> trimmed P s r' -> r = r'.
Proof.
  intros (a & b & -> & Ha & Hb & Hl & Hr) (a' & b' & E & Ha' & Hb' & Hl' & Hr').
  destruct r as [|x r].
  - destruct r' as [|y r']; auto. exfalso. cbn in E. assert (Hall : Forall P (a ++ b)) by (apply Forall_app; auto).
    rewrite E in Hall. apply Forall_app in Hall. destruct Hall as [_ Hall]. inversion Hall; subst. eapply Hl'; eauto.
  - destruct r' as [|y r'].
    { exfalso. cbn in E. assert (Hall : Forall P (a' ++ b')) by (apply Forall_app; auto).
      rewrite <- E in Hall. apply Forall_app in Hall. destruct Hall as [_ Hall]. inversion Hall; subst. eapply Hl; eauto. }
    assert (X : (x :: r) ++ b = (y :: r') ++ b').
    { apply trimmed_left_unique with (P := P) (s := a ++ (x :: r) ++ b).
      - exists a. split; [auto|]. split; [auto|]. intros c t Y. injection Y as <- _. apply (Hl x r); reflexivity.
      - exists a'. split; [auto|]. split; [auto|]. intros c t Y. injection Y as <- _. apply (Hl' y r'); reflexivity. }
    apply trimmed_right_unique with (P := P) (s := (x :: r) ++ b); [exists b|exists b']; auto.
Qed.
Lemma trimmed_self P r : no_lead P r -> no_trail P r -> trimmed P r r.
Proof. intros. exists [], []. cbn. rewrite app_nil_r. repeat split; auto. Qed.
Lemma trim_idem s cs v w : small s -> trim s cs = Ok v -> trim (contents s v) cs = Ok w ->
  contents (contents s v) w = contents s v.
Proof.
  intros Hs E E'. destruct (trim_ok s cs Hs) as (v' & E1 & Hv & HT). rewrite E in E1. inversion E1; subst v'.
  destruct (trim_ok (contents s v) cs) as (w' & E2 & Hw & HT'); [apply contents_small; auto|]. rewrite E' in E2. inversion E2; subst w'.
  eapply trimmed_unique; [exact HT'|]. destruct HT as (a & b & _ & _ & _ & Hl & Hr). apply trimmed_self; auto.
Qed.
Lemma triml_idem s cs v w : small s -> triml s cs = Ok v -> triml (contents s v) cs = Ok w ->
  contents (contents s v) w = contents s v.
Proof.
  intros Hs E E'. destruct (triml_ok s cs Hs) as (v' & E1 & Hv & HT). rewrite E in E1. inversion E1; subst v'.
  destruct (triml_ok (contents s v) cs) as (w' & E2 & Hw & HT'); [apply contents_small; auto|]. rewrite E' in E2. inversion E2; subst w'.
  eapply trimmed_left_unique; [exact HT'|]. destruct HT as (a & _ & _ & Hl). exists []. auto.
Qed.
Lemma trimr_idem s cs v w : small s -> trimr s cs = Ok v -> trimr (contents s v) cs = Ok w ->
  contents (contents s v) w = contents s v.
Proof.
  intros Hs E E'. destruct (trimr_ok s cs Hs) as (v' & E1 & Hv & HT). rewrite E in E1. inversion E1; subst v'.
  destruct (trimr_ok (contents s v) cs) as (w' & E2 & Hw & HT'); [apply contents_small; auto|]. rewrite E' in E2. inversion E2; subst w'.
  eapply trimmed_right_unique; [exact HT'|]. destruct HT as (a & _ & _ & Hl). exists []. rewrite app_nil_r. auto.
Qed.

(** ** select *)
Lemma select_ok s pat st : small s -> 0 <= st <= len s ->
  exists o, select s pat (Some st) = Ok o /\
  match o with
  | Some v => vin v s /\ contents s v = pat /\ is_first (occurs s pat) st (len s + 1) (Some (vo v))
  | None => forall j, st <= j <= len s -> ~ occurs s pat j
  end.
Proof.
  nas. intros Hs Hst. unfold select. destruct (find_ok s pat st Hst) as (o & E & Ho). rewrite E. cbn [bind].
  destruct o as [p|]; cbn in Ho.
  - destruct Ho as (H1 & H2 & H3). pose proof H2 as H4. rewrite occurs_slice in H4. destruct H4 as (H4 & H5 & H6).
    rewrite sub2_ok by (try lia; apply nonneg_len). cbn [bind]. eexists; split; [reflexivity|]. cbn.
    pose proof (nonneg_len pat). repeat split; auto; try lia.
  - eexists; split; [reflexivity|]. intros j Hj. apply Ho. lia.
Qed.

(** ** first_of_any *)
(** the first pattern of the list that occurs at [i] *)
Lemma any_at_ok s i pats curr : 0 <= i ->
  exists o, any_at s i pats curr = Ok o /\
  match o with
  | Some (w, j) => j = i /\ exists k p, w = curr + Z.of_nat k /\ nth_error pats k = Some p /\ occurs s p i /\
                   (forall k' p', (k' < k)%nat -> nth_error pats k' = Some p' -> ~ occurs s p' i)
  | None => forall p, In p pats -> ~ occurs s p i
  end.
Proof.
  intros Hi. revert curr. induction pats as [|p r IH]; intros curr.
  - eexists; split; [reflexivity|]. cbn. tauto.
  - cbn [any_at]. destruct (Z.ltb_spec (len s) (i + len p)) as [HL|HL].
    + destruct (IH (curr + 1)) as (o & E & Ho). rewrite E. exists o; split; auto. destruct o as [[w j]|].
      * destruct Ho as (-> & k & q & H1 & H2 & H3 & H4). split; auto. exists (S k), q. repeat split; auto; try lia.
        intros [|k'] p' Hk Hp; [|apply (H4 k'); auto; lia]. inversion Hp; subst. rewrite occurs_slice. lia.
      * intros q [<-|Hq]; auto. rewrite occurs_slice. lia.
    + destruct (all_from_ok s i p Hi ltac:(lia)) as (b & E & Hb). rewrite E. cbn [bind]. destruct b.
      * eexists; split; [reflexivity|]. cbn. split; auto. exists O, p. repeat split; auto; try lia. { apply Hb; auto. }
      * destruct (IH (curr + 1)) as (o & E' & Ho). rewrite E'. exists o; split; auto. destruct o as [[w j]|].
        -- destruct Ho as (-> & k & q & H1 & H2 & H3 & H4). split; auto. exists (S k), q. repeat split; auto; try lia.
           intros [|k'] p' Hk Hp; [|apply (H4 k'); auto; lia]. inversion Hp; subst. rewrite <- Hb. discriminate.
        -- intros q [<-|Hq]; auto. rewrite <- Hb. discriminate.
Qed.
Lemma for_up_gen {A} (f : Z -> res (option A)) (P : Z -> A -> Prop) (N : Z -> Prop) : forall n i,
  (forall j, i <= j < i + Z.of_nat n -> exists o, f j = Ok o /\ match o with Some a => P j a | None => N j end) ->
  exists o, for_up n i f = Ok o /\
  match o with
  | Some a => exists j, i <= j < i + Z.of_nat n /\ P j a /\ forall k, i <= k < j -> N k
  | None => forall k, i <= k < i + Z.of_nat n -> N k
  end.
Proof.
  induction n as [|n IH]; intros i H; cbn [for_up].
  - eexists; split; [reflexivity|]. cbn. intros; lia.
  - destruct (H i) as (o & E & Ho); [lia|]. rewrite E. cbn [bind]. destruct o as [a|].
    + eexists; split; [reflexivity|]. cbn. exists i. repeat split; auto; lia.
    + destruct (IH (i + 1)) as (o & E' & Ho'). { intros j Hj. apply H. lia. }
      rewrite E'. exists o; split; auto. destruct o as [a|].
      * destruct Ho' as (j & Hj & HP & Hmin). exists j. repeat split; auto; try lia.
        intros k Hk. destruct (Z.eq_dec k i); [subst; auto|]. apply Hmin; lia.
      * intros k Hk. destruct (Z.eq_dec k i); [subst; auto|]. apply Ho'; lia.
Qed.
Lemma first_of_any_ok s pats :
  exists o, first_of_any s pats = Ok o /\
  match o with
  | Some (w, i) => 0 <= i < len s /\ exists k p, w = Z.of_nat k /\ nth_error pats k = Some p /\ occurs s p i /\
      (forall k' p', (k' < k)%nat -> nth_error pats k' = Some p' -> ~ occurs s p' i) /\
      (forall i' p', 0 <= i' < i -> In p' pats -> ~ occurs s p' i')
  | None => forall i p, 0 <= i < len s -> In p pats -> ~ occurs s p i
  end.
Proof.
  unfold first_of_any. pose proof (nonneg_len s).
  destruct (for_up_gen (fun i => any_at s i pats 0)
    (fun i a => snd a = i /\ exists k p, fst a = Z.of_nat k /\ nth_error pats k = Some p /\ occurs s p i /\
      (forall k' p', (k' < k)%nat -> nth_error pats k' = Some p' -> ~ occurs s p' i))
    (fun i => forall p, In p pats -> ~ occurs s p i) (Z.to_nat (len s)) 0) as (o & E & Ho).
  { intros j Hj. destruct (any_at_ok s j pats 0) as (o & E & Ho); [lia|]. exists o; split; auto. destruct o as [[w i]|]; auto. }
  rewrite E. exists o; split; auto. destruct o as [[w i]|]; cbn [fst snd] in *.
  - destruct Ho as (j & Hj & (<- & k & p & H1 & H2 & H3 & H4) & Hmin). split; [lia|]. exists k, p. repeat split; auto.
  - intros i p Hi. apply Ho. lia.
Qed.
