(** Proofs about atof and atod on decimal text, infinity, NaN and other text. *)
From Verif Require Import Base BaseLemmas ScanModel SubstrModel CharconvModel CharconvSpec CharconvProofs3 SpanNumModel SpanNumSpec Base64Model.
From Verif Require Import FloatTable FloatModel FloatSpec FloatProofs1 FloatProofs2 FloatProofs7 FloatProofs8 FloatProofs11 FloatProofs15 FloatProofs16 FloatProofs17 RealModel RealSpec.
From Coq Require Import Lia.
Open Scope Z_scope.

Lemma letters_head s l p : letters s (l :: p) -> exists c r, s = c :: r /\ (c = l \/ c = l - 32).
Proof. intros H. inversion H; subst. eexists _, _. split; [reflexivity|assumption]. Qed.
Lemma special_head t neg nan : special_text t neg nan -> exists p, t = minus neg ++ p /\ exists c r, p = c :: r /\ (c = 105 \/ c = 73 \/ c = 110 \/ c = 78).
Proof.
  intros D. destruct D as [ng s H|ng s H|ng s H|ng s q H _]; destruct (letters_head _ _ _ H) as [c [r [-> K]]]; rewrite ?app_comm_cons;
    (eexists; split; [reflexivity|]); eexists _, _; (split; [reflexivity|]); cbn in K; lia.
Qed.
Definition starts (s : list Z) : Prop := exists c r, s = c :: r /\ ~ blank c.
Lemma triml_starts s : starts s -> len s < 2 ^ 64 -> exists v, triml s (s2z " " ++ [13; 9; 10]) = Ok v /\ vl v = len s.
Proof.
  intros [c [r [-> H]]] L. unfold triml, triml_by. assert (LP : 0 < len (c :: r)) by (unfold len; cbn [length]; lia).
  replace (len (c :: r) =? 0) with false by lia. unfold first_not_of, chk_start, assert, fwd_from.
  replace ((0 <=? 0) && (0 <=? len (c :: r))) with true by lia.
  replace (Z.to_nat (len (c :: r) - 0)) with (S (length r)) by (unfold len; cbn [length]; lia). cbn [for_up].
  unfold at_, rd. replace ((0 <=? 0) && (0 <? len (c :: r))) with true by lia. cbn [bind Z.to_nat nth].
  replace (negb (mem c (s2z " " ++ [13; 9; 10]))) with true.
  - cbn [bind]. unfold sub1, assert. replace (0 <=? len (c :: r)) with true by lia. eexists. split; [reflexivity|]. cbn [vl]. rewrite u64_id; lia.
  - symmetry. apply negb_true_iff. unfold mem. apply not_true_iff_false. intros E. apply existsb_exists in E. destruct E as [x [I E]]. apply Z.eqb_eq in E. subst x.
    apply H. unfold blank. cbn in I |- *. tauto.
Qed.

(** the text after the sign *)
Definition unsign (s : list Z) : list Z :=
  match s with c :: r => if (c =? ch "-") || (c =? ch "+") then r else s | [] => [] end.
Lemma atod_eq dbg rn f s w0 : starts s -> len s < 2 ^ 64 -> atod dbg rn f s w0 =
  if negb (begins_0x (unsign s)) then
    do r <- from_chars_float rn f s ;;
    Ok (match r_ec r with EOk => true | _ => false end, match r_value r with Some w => w | None => w0 end)
  else
    do x <- csub (unsign s) 2 ;;
    do '(ok, v) <- scan_rhex dbg f x (decode f w0) ;;
    Ok (ok, encode f (if ok then fmul f v (if nth 0 s 0 =? ch "-" then fneg (of_int f 1) else of_int f 1) else v)).
Proof.
  intros S L. destruct (triml_starts s S L) as [v [T V]]. unfold atod. destruct S as [c [r [-> H]]].
  assert (LP : 0 < len (c :: r)) by (unfold len; cbn [length]; lia).
  unfold dassert at 1. replace (negb dbg || (0 <? len (c :: r))) with true by (destruct dbg; cbn [negb orb]; [symmetry; apply Z.ltb_lt|]; lia).
  rewrite T. cbn [bind]. rewrite V, Z.eqb_refl. unfold dassert at 1. rewrite orb_true_r. unfold rd. replace ((0 <=? 0) && (0 <? len (c :: r))) with true by lia.
  cbn [bind Z.to_nat nth unsign]. destruct (_ || _); [rewrite csub1|rewrite csub0]; reflexivity.
Qed.

Lemma decimal_starts t rest neg m e : decimal_text t neg m e -> starts (t ++ rest).
Proof.
  intros D. destruct (decimal_shape t neg m e D) as [c [r [-> H]]]. destruct neg; cbn [minus app]; eexists _, _; (split; [reflexivity|]); unfold blank.
  - cbn. intros K. repeat (destruct K as [K|K]; [discriminate|]). exact K.
  - cbn. intros K. destruct H as [H|H]; [unfold dig in H; change (ch "0") with 48 in H; change (ch "9") with 57 in H; lia|subst c; change (ch ".") with 46 in K; lia].
Qed.
Lemma special_starts t rest neg nan : special_text t neg nan -> starts (t ++ rest).
Proof.
  intros D. destruct (special_head t neg nan D) as [p [-> H]]. destruct H as [c [r [-> H]]].
  destruct neg; cbn [minus app]; eexists _, _; (split; [reflexivity|]); unfold blank.
  - cbn. intros K. repeat (destruct K as [K|K]; [discriminate|]). exact K.
  - cbn. intros K. lia.
Qed.
Lemma decimal_not_0x t neg m e : decimal_text t neg m e -> begins_0x (unsign t) = false.
Proof.
  intros D. inversion D as [ng i f d x ex DI FR EX NE]. subst. clear D.
  assert (U : unsign ((if neg then [ch "-"] else []) ++ i ++ f ++ x) = i ++ f ++ x).
  { destruct neg; cbn [app]; [reflexivity|]. destruct i as [|c i].
    - cbn [app] in *. inversion FR; subst; [exfalso; now apply NE|reflexivity].
    - cbn [app unsign]. inversion DI; subst. unfold dig in *. change (ch "0") with 48 in *. change (ch "9") with 57 in *.
      change (ch "-") with 45. change (ch "+") with 43. replace ((c =? 45) || (c =? 43)) with false by lia. reflexivity. }
  rewrite U. clear U. unfold begins_0x. assert (X : forall c r, x = c :: r -> c = ch "e" \/ c = ch "E").
  { intros c r ->. inversion EX; subst; auto. }
  change (ch "x") with 120 in *. change (ch "X") with 88 in *. change (ch "0") with 48 in *.
  assert (N : forall c, c <> 120 -> c <> 88 -> (c =? 120) || (c =? 88) = false) by (intros; lia).
  destruct i as [|c i]; cbn [app].
  - inversion FR; subst; [exfalso; now apply NE|]. cbn [app]. destruct (d ++ x); reflexivity.
  - destruct i as [|c' i]; cbn [app].
    + inversion FR; subst; cbn [app].
      * destruct x as [|c' x]; [reflexivity|]. destruct (X c' x eq_refl); subst; now rewrite andb_false_r.
      * rewrite N by discriminate. now rewrite andb_false_r.
    + inversion DI as [|? ? _ D2]; subst. inversion D2 as [|? ? K _]; subst. unfold dig in K. change (ch "0") with 48 in K. change (ch "9") with 57 in K.
      rewrite N by lia. apply andb_false_r.
Qed.
Lemma special_not_0x t neg nan : special_text t neg nan -> begins_0x (unsign t) = false.
Proof.
  intros D. destruct (special_head t neg nan D) as [p [-> H]]. destruct H as [c [r [-> H]]].
  assert (U : unsign (minus neg ++ c :: r) = c :: r).
  { destruct neg; cbn [minus app]; [reflexivity|]. cbn [unsign]. change (ch "-") with 45. change (ch "+") with 43. replace ((c =? 45) || (c =? 43)) with false by lia. reflexivity. }
  rewrite U. unfold begins_0x. change (ch "0") with 48. destruct r; [reflexivity|]. replace (c =? 48) with false by lia. reflexivity.
Qed.

(** ** Text that is a number, followed by more text *)
Theorem atod_decimal dbg rn f eb t rest neg m e w0 : fok f eb -> bytes (t ++ rest) -> decimal_text t neg m e -> longest t rest ->
  len t + 400 <= 2 ^ 28 -> len (t ++ rest) < 2 ^ 64 -> begins_0x (unsign (t ++ rest)) = false ->
  exists ok w, atod dbg rn f (t ++ rest) w0 = Ok (ok, w) /\ nearest (f_mb f) eb neg (decimal m e) w /\
    (ok = false <-> b_infinite (f_mb f) eb w \/ 0 < m /\ b_zero (f_mb f) eb w).
Proof.
  intros F BY D LG L L2 HX. rewrite atod_eq, HX by (auto; eapply decimal_starts; eauto). cbn [negb].
  destruct (from_chars_number rn f eb t rest neg m e F BY D LG L) as [w [ec [-> [N [A C]]]]]. cbn [bind r_ec r_value].
  eexists _, w. split; [reflexivity|]. split; [exact N|].
  assert (DEC : (b_infinite (f_mb f) eb w \/ 0 < m /\ b_zero (f_mb f) eb w) \/ ~ (b_infinite (f_mb f) eb w \/ 0 < m /\ b_zero (f_mb f) eb w)).
  { destruct ec; [right|right|left].
    - intros H. specialize (A H). discriminate.
    - intros H. specialize (A H). discriminate.
    - assert (DI : b_infinite (f_mb f) eb w \/ ~ b_infinite (f_mb f) eb w) by (unfold b_infinite; lia).
      assert (DZ : (0 < m /\ b_zero (f_mb f) eb w) \/ ~ (0 < m /\ b_zero (f_mb f) eb w)) by (unfold b_zero; lia).
      destruct DI as [DI|DI]; [now left|]. destruct DZ as [DZ|DZ]; [now right|]. specialize (C DI DZ). discriminate. }
  destruct DEC as [H|H].
  - rewrite (A H). tauto.
  - rewrite C by tauto. split; [discriminate|tauto].
Qed.
Theorem atod_special dbg rn f eb t rest neg nan w0 : fok f eb -> bytes (t ++ rest) -> special_text t neg nan -> longest_special t rest -> len (t ++ rest) < 2 ^ 64 ->
  exists w, atod dbg rn f (t ++ rest) w0 = Ok (true, w) /\ b_neg (f_mb f) eb w = neg /\ (if nan then b_nan (f_mb f) eb w else b_infinite (f_mb f) eb w).
Proof.
  intros F BY D LG L. assert (HX : begins_0x (unsign (t ++ rest)) = false).
  { destruct (special_head t neg nan D) as [p [-> H]]. destruct H as [c [r [-> H]]].
    assert (U : unsign ((minus neg ++ c :: r) ++ rest) = c :: r ++ rest).
    { destruct neg; cbn [minus app]; [reflexivity|]. cbn [unsign]. change (ch "-") with 45. change (ch "+") with 43. replace ((c =? 45) || (c =? 43)) with false by lia. reflexivity. }
    rewrite U. unfold begins_0x. change (ch "0") with 48. destruct (r ++ rest); [reflexivity|]. replace (c =? 48) with false by lia. reflexivity. }
  rewrite atod_eq, HX by (auto; eapply special_starts; eauto). cbn [negb].
  destruct (from_chars_special rn f eb t rest neg nan F BY D LG) as [w [-> W]]. cbn [bind r_ec r_value]. exists w. split; [reflexivity|exact W].
Qed.
Theorem atod_reject dbg rn f s w0 : bytes s -> starts s -> len s < 2 ^ 64 -> no_number s -> no_special s -> begins_0x (unsign s) = false ->
  atod dbg rn f s w0 = Ok (false, w0).
Proof.
  intros BY S L N1 N2 HX. rewrite atod_eq, HX by auto. cbn [negb]. rewrite (from_chars_invalid rn f s BY N1 N2). reflexivity.
Qed.
Lemma longest_nil t : longest t []. Proof. intros a b neg m e H. symmetry in H. now apply app_eq_nil in H. Qed.
Lemma longest_special_nil t : longest_special t []. Proof. intros a b neg m H _. symmetry in H. now apply app_eq_nil in H. Qed.

(** no number begins with a plus sign *)
Lemma plus_no_number s : no_number (ch "+" :: s).
Proof.
  intros a b neg m e H D. destruct (decimal_shape a neg m e D) as [c [r [-> [K|K]]]]; destruct neg; cbn [minus app] in H; injection H as H1 H2; try discriminate; subst c.
  - unfold dig in K. change (ch "0") with 48 in K. change (ch "+") with 43 in K. lia.
  - discriminate.
Qed.
Lemma plus_no_special s : no_special (ch "+" :: s).
Proof.
  intros a b neg nan H D. destruct (special_head a neg nan D) as [p [-> K]]. destruct K as [c [r [-> K]]]. destruct neg; cbn [minus app] in H; injection H as H1 H2; try discriminate.
  subst c. change (ch "+") with 43 in K. lia.
Qed.
