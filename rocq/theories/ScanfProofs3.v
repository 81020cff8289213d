(** Texts that sscanf reads, and atof_first, atod_first. *)
From Verif Require Import Base BaseLemmas CharconvSpec SpanNumSpec FloatSpec ScanModel SubstrModel SubstrSpec SubstrProofs4 SubstrProofs CharconvModel SpanNumModel SpanNumProofs4 Base64Model FloatModel RealModel RealSpec RealProofs RealProofs3 ScanfModel ScanfSpec ScanfProofs ScanfProofs2.
From Coq Require Import Lia.
Open Scope Z_scope.

Lemma decimal_subject w neg m e : decimal_text w neg m e -> subject w.
Proof.
  intros T. destruct T as [neg i f d x e Hi Hf Hx NE]. exists (if neg then [ch "-"] else []), (i ++ f ++ x). split; [reflexivity|].
  split; [destruct neg; [right; right; auto|left; reflexivity]|]. rewrite app_assoc. apply sb_dec.
  - destruct Hf as [|d Hd]; [rewrite app_nil_r in *; apply man_int; [exact NE|apply digs_of; exact Hi]|].
    apply man_frac; [exact NE|apply digs_of; exact Hi|apply digs_of; exact Hd].
  - destruct Hx as [|c d0 Hc N D|c d0 Hc N D|c d0 Hc N D]; [constructor|apply (exp_some _ _ c [] d0)|apply (exp_some _ _ c (s2z "+") d0)|apply (exp_some _ _ c (s2z "-") d0)];
      auto using digs_of; destruct Hc as [->| ->]; cbn; auto.
Qed.
Lemma hexdigs_of s ds : hexdigs s ds -> Forall (digit_of 16) s.
Proof. induction 1 as [|c d s ds [E L] _ IH]; constructor; [exists d; auto|exact IH]. Qed.
Lemma hex_subject w neg m e : hex_text w neg m e -> subject w.
Proof.
  intros T. destruct T as [sg neg p i f x di df e Hs Hp Hi Hf Hx NE]. exists sg, (ch "0" :: p :: i ++ f ++ x). split; [reflexivity|].
  split; [unfold sign_opt; destruct neg; [auto|tauto]|]. rewrite app_assoc. apply sb_hex; [exact Hp| |].
  - destruct Hf as [|g ds Hg]; [rewrite app_nil_r in *; apply man_int; [|apply (hexdigs_of i di); exact Hi]|apply man_frac; [|apply (hexdigs_of i di); exact Hi|apply (hexdigs_of g ds); exact Hg]].
    + intros ->. inversion Hi; subst. apply NE. reflexivity.
    + intros E. apply app_eq_nil in E. destruct E as [-> ->]. inversion Hi; subst. inversion Hg; subst. apply NE. reflexivity.
  - destruct Hx as [|c d0 Hc N D|c d0 Hc N D|c d0 Hc N D]; [constructor|apply (exp_some _ _ c [] d0)|apply (exp_some _ _ c (s2z "+") d0)|apply (exp_some _ _ c (s2z "-") d0)]; auto using digs_of.
Qed.
Lemma special_subject w neg nan : special_text w neg nan -> subject w.
Proof.
  intros T. destruct T as [neg s L|neg s L|neg s L|neg s p L F]; (eexists (if neg then [ch "-"] else []), _; split; [reflexivity|]; split; [destruct neg; [right; right; auto|left; reflexivity]|]);
    [apply sb_inf|apply sb_infinity|apply sb_nan|apply sb_nan_code]; auto.
Qed.
(** ** the literals first_real_span finds *)
Lemma real_start w : real_literal w -> clear_start w.
Proof.
  assert (MAN : forall b m, b = 10 \/ b = 16 \/ b = 2 \/ b = 8 -> mantissa b m -> exists c r, m = c :: r /\ ~ white c).
  { intros b m Hb M. assert (DG : forall c, digit_of b c -> ~ white c).
    { intros c (d & E & L) W. unfold white in W. cbn in W. decompose [or] W; subst; try discriminate; contradiction. }
    destruct M as [d NE F|d f NE F1 F2].
    - destruct d as [|c d]; [congruence|]. inversion F; subst. eauto.
    - destruct d as [|c d]; [exists (ch "."), f; split; [reflexivity|]; intros W; unfold white in W; cbn in W; decompose [or] W; try discriminate; contradiction|].
      inversion F1; subst. exists c, (d ++ ch "." :: f). split; [reflexivity|auto]. }
  assert (NW : forall c, In c (s2z "+-0in") -> ~ white c).
  { intros c I W. unfold white in W. cbn in I, W. decompose [or] I; decompose [or] W; subst; try discriminate; contradiction. }
  intros (sg & u & -> & Hs & B). destruct Hs as [->|[->|[_ ->]]]; [|eexists _, _; split; [reflexivity|apply NW; cbn; tauto]..]. cbn [app].
  destruct B as [m x Hm _|p m x _ _ _|p m x _ _ _|p m x _ _ _| | |]; try (eexists _, _; split; [reflexivity|apply NW; cbn; tauto]).
  destruct (MAN 10 m) as (c & r & -> & N); [auto|exact Hm|]. exists c, (r ++ x). auto.
Qed.
Lemma first_span_eq dbg lm m v : vin v m -> vl v < 2 ^ 31 -> bytes (contents m v) ->
  exists t, first_literal real_literal (contents m v) t /\ atof_first_scanf dbg lm m v =
    (if vl t =? 0 then Ok None else
     do r <- atof_scanf dbg lm m (View (vo v + vo t) (vl t)) ;; Ok (match r with Some x => Some (vo t + vl t, x) | None => None end)) /\
    (vl t <> 0 -> vin (View (vo v + vo t) (vl t)) m /\ vl t < 2 ^ 31 /\ contents m (View (vo v + vo t) (vl t)) = contents (contents m v) t).
Proof.
  intros V L By. destruct (skipn_contents m v V) as (_ & _ & Lc & _).
  destruct (first_real_span_ok (contents m v)) as (t & E & F); [unfold small; lia|exact By|]. exists t. split; [exact F|]. split; [unfold atof_first_scanf; rewrite E; reflexivity|].
  intros NZ. destruct F as (Vt & _). pose proof Vt as Vt'. unfold vin in Vt'. rewrite Lc in Vt'. destruct (sub_sub m v t V Vt) as [V2 E2]. repeat split; auto; try apply V2. lia.
Qed.
Lemma real_nonempty w : real_literal w -> len w <> 0.
Proof. intros R. destruct (real_start w R) as (c & r & -> & _). rewrite len_cons. pose proof (len_nonneg r). lia. Qed.
Lemma first_read dbg lm m v a w b : vin v m -> vl v < 2 ^ 31 -> bytes (contents m v) -> In lm [[]; s2z "l"] ->
  contents m v = a ++ w ++ b -> Forall blank a -> ended b -> real_literal w ->
  exists t, item w t /\ (subject t /\ atof_first_scanf dbg lm m v = Ok (Some (len a + len w, t)) \/ ~ subject t /\ atof_first_scanf dbg lm m v = Ok None).
Proof.
  intros V L By Hl E Ha Hb Hw. destruct (first_span_eq dbg lm m v V L By) as (t & F & -> & K). destruct F as (Vt & U & _).
  rewrite (U a w b E Ha Hb Hw) in *. cbn [vo vl] in *. pose proof (real_nonempty w Hw) as NZ. destruct (K NZ) as (V2 & L2 & E2).
  destruct (Z.eqb_spec (len w) 0); [contradiction|].
  assert (EW : contents m (View (vo v + len a) (len w)) = w).
  { rewrite E2, E. unfold contents. cbn [vo vl]. apply slice_app_mid. }
  destruct (atof_ok dbg lm m _ V2 L2 Hl) as (x & I & H); [rewrite EW; apply real_start; exact Hw|]. rewrite EW in I.
  exists x. split; [exact I|]. destruct H as [[S ->]|[S ->]]; cbn [bind]; auto.
Qed.
Lemma first_whole dbg lm m v a w b : vin v m -> vl v < 2 ^ 31 -> bytes (contents m v) -> In lm [[]; s2z "l"] ->
  contents m v = a ++ w ++ b -> Forall blank a -> ended b -> real_literal w -> subject w -> atof_first_scanf dbg lm m v = Ok (Some (len a + len w, w)).
Proof.
  intros V L By Hl E Ha Hb Hw S. destruct (first_read dbg lm m v a w b V L By Hl E Ha Hb Hw) as (t & I & K).
  assert (t = w) as -> by (apply (item_unique w); [exact I|apply subject_item; exact S]). destruct K as [[_ K]|[N _]]; [exact K|contradiction].
Qed.
Lemma first_nothing dbg lm m v : vin v m -> vl v < 2 ^ 31 -> bytes (contents m v) ->
  (forall a w b, contents m v = a ++ w ++ b -> Forall blank a -> ended b -> ~ real_literal w) -> atof_first_scanf dbg lm m v = Ok None.
Proof.
  intros V L By N. destruct (first_span_eq dbg lm m v V L By) as (t & F & -> & _). destruct F as (_ & _ & U).
  destruct (Z.eqb_spec (vl t) 0) as [Z0|Z0]; [reflexivity|exfalso]. destruct (U Z0) as (a & b & E & A & C & D). exact (N a _ b E A C D).
Qed.
(** ** blanks are asserted to be absent *)
Lemma atof_blank lm m v c r : vin v m -> vl v < 2 ^ 63 -> contents m v = c :: r -> blank c -> atof_scanf true lm m v = Err.
Proof.
  intros V L E B. destruct (skipn_contents m v V) as (_ & _ & Lc & _). unfold atof_scanf. rewrite E in *. pose proof (len_nonneg r) as NR. rewrite len_cons in Lc.
  rewrite dassert_true by (apply Z.ltb_lt; lia).
  destruct (triml_ok (c :: r) (s2z " " ++ [13; 9; 10])) as (t & -> & Vt & a & Ea & _ & NL); [unfold small; rewrite len_cons; lia|]. cbn [bind].
  unfold dassert at 1. cbn [negb orb]. destruct (Z.eqb_spec (vl t) (vl v)) as [Q|Q]; [exfalso|reflexivity].
  assert (LT : len (contents (c :: r) t) = vl t).
  { unfold vin in Vt. unfold contents, slice, len in *. rewrite firstn_length, skipn_length. cbn [length] in *. lia. }
  assert (a = []) as ->. { destruct a as [|x a]; [reflexivity|]. apply (f_equal (@len Z)) in Ea. rewrite len_app, !len_cons in Ea. pose proof (len_nonneg a). lia. }
  cbn [app] in Ea. rewrite <- Ea in NL. apply (NL c r eq_refl). unfold blank in B. cbn in *. tauto.
Qed.
