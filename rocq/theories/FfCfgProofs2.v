(** Proofs for C130: infinity and NaN behind signs, and totality. *)
From Verif Require Import Base BaseLemmas FloatTable FloatModel FloatSpec FfOptModel FfOptSpec FloatProofs2 FloatProofs10 FloatProofs11 FloatProofs14 FloatProofs17 FfOptProofs2 FfOptProofs3 FfOptProofs4 FfOptProofs5
  FfIntModel FfIntSpec CharconvSpec FfIntProofs2 FfCfgModel FfCfgSpec FfCfgProofs.
From Coq Require Import Lia.
Open Scope Z_scope.

Lemma special_minus t nan : special_text t false nan -> special_text (ch "-" :: t) true nan.
Proof.
  intro H. remember false as neg eqn:N. destruct H; subst; cbn [app].
  - now apply (sp_inf true).
  - now apply (sp_infinity true).
  - now apply (sp_nan true).
  - now apply (sp_nan_code true).
Qed.
Lemma special_first t nan : special_text t false nan -> exists c r, t = c :: r /\ c <> ch "-" /\ c <> ch "+" /\ is_integer c = false.
Proof.
  intro H. assert (K : exists c r x, t = c :: r /\ (x = ch "n" \/ x = ch "i") /\ (c = x \/ c = x - 32)).
  { remember false as neg eqn:N. destruct H as [neg s L|neg s L|neg s L|neg s p L W]; subst; cbn [app];
    inversion L as [|c l' r p' C _ E1 E2]; subst; exists c; eexists; eexists; (split; [reflexivity|]); (split; [|exact C]); auto. }
  destruct K as [c [r [x [-> [X C]]]]]. exists c, r. split; [reflexivity|].
  destruct X as [-> | ->]; destruct C as [-> | ->]; repeat split; discriminate.
Qed.
Lemma special_minus_inv t neg nan : special_text (ch "-" :: t) neg nan -> neg = true /\ special_text t false nan.
Proof.
  intro H. destruct neg.
  - split; [reflexivity|]. remember (ch "-" :: t) as u eqn:U. remember true as m eqn:M. destruct H; subst; cbn [app] in U; injection U as <-.
    + now apply (sp_inf false).
    + now apply (sp_infinity false).
    + now apply (sp_nan false).
    + now apply (sp_nan_code false).
  - apply special_first in H. destruct H as [c [r [E [C _]]]]. injection E as <- _. contradiction.
Qed.
Lemma longest_minus t rest : longest_special t rest -> longest_special (ch "-" :: t) rest.
Proof. intros L a b neg nan E S. cbn [app] in S. apply special_minus_inv in S as [_ S]. exact (L a b false nan E S). Qed.
Lemma infnan_body_eq f m s c r : (m = false -> c <> ch "-") -> infnan_body f m s (c :: r) = at_start s (parse_infnan f (minus m ++ c :: r)).
Proof.
  intro C. rewrite (infnan_at f m s (minus m ++ c :: r)). f_equal. rewrite <- infnan_off. destruct m; cbn [minus app].
  - reflexivity.
  - unfold parse_infnan_c. replace (c =? ch "-") with false; [reflexivity|]. symmetry. apply Z.eqb_neq. auto.
Qed.
Lemma infnan_special f eb m s t rest nan : fok f eb -> bytes (t ++ rest) -> special_text t false nan -> longest_special t rest ->
  exists w, infnan_body f m s (t ++ rest) = Ok (FFRes rest EOk (Some w)) /\ b_neg (f_mb f) eb w = m /\
  (if nan then b_nan (f_mb f) eb w else b_infinite (f_mb f) eb w).
Proof.
  intros F B S L.
  assert (S' : special_text (minus m ++ t) m nan) by (destruct m; [now apply special_minus|exact S]).
  assert (L' : longest_special (minus m ++ t) rest) by (destruct m; [now apply longest_minus|exact L]).
  assert (B' : bytes ((minus m ++ t) ++ rest)) by (destruct m; [constructor; [red; change (ch "-") with 45; lia|exact B]|exact B]).
  destruct (from_chars_special true f eb _ rest m nan F B' S' L') as [w [E W]].
  rewrite (from_special true f _ B') in E; [|destruct (special_first t nan S) as [c [r [-> _]]]; destruct m; discriminate|exact (special_no_number _ _ _ rest S')].
  exists w. split; [|exact W]. destruct (special_first t nan S) as [c [r [-> [C _]]]]. cbn [app]. rewrite infnan_body_eq by auto.
  rewrite <- app_assoc in E. cbn [app] in E. rewrite E. reflexivity.
Qed.
Lemma cfg_special rn f eb o t rest nan : fok f eb -> point_char (o_dot o) -> o_noinf o = false -> bytes (t ++ rest) -> special_text t false nan -> longest_special t rest ->
  exists w, from_chars_cfg true false rn f o (ch "+" :: t ++ rest) = Ok (FFRes rest EOk (Some w)) /\ b_neg (f_mb f) eb w = false /\
  (if nan then b_nan (f_mb f) eb w else b_infinite (f_mb f) eb w).
Proof.
  intros F P N B S L. destruct (o_json o) eqn:J.
  - destruct (infnan_special f eb false (ch "+" :: t ++ rest) t rest nan F B S L) as [w [E W]].
    exists w. split; [|exact W]. rewrite <- E. rewrite cfg_plus_json by exact J. now rewrite N.
  - destruct (from_chars_special rn f eb t rest false nan F B S L) as [w [E W]]. exists w. split; [|exact W].
    rewrite cfg_plus; [|exact J|exact P|].
    + rewrite any_special; [rewrite N, E; reflexivity|exact P|exact B|]. exists t, rest, false, nan. auto.
    + intros q X. destruct (special_first t nan S) as [c [r [-> [C _]]]]. inversion X. congruence.
Qed.
Lemma cfg_minus_special rn f eb o t rest nan : fok f eb -> point_char (o_dot o) -> o_noinf o = false -> bytes (t ++ rest) -> special_text t false nan -> longest_special t rest ->
  exists w, from_chars_cfg true false rn f o (ch "-" :: ch "+" :: t ++ rest) = Ok (FFRes rest EOk (Some w)) /\ b_neg (f_mb f) eb w = true /\
  (if nan then b_nan (f_mb f) eb w else b_infinite (f_mb f) eb w).
Proof.
  intros F P N B S L. destruct (infnan_special f eb true (ch "-" :: ch "+" :: t ++ rest) t rest nan F B S L) as [w [E W]].
  exists w. split; [|exact W]. rewrite <- E. rewrite cfg_minus_plus by exact P. now rewrite N.
Qed.
Lemma minus_plus_none q : no_special (ch "-" :: ch "+" :: q) /\ no_number (ch "-" :: ch "+" :: q).
Proof.
  split.
  - intros a b neg nan E S. destruct a as [|c a]; [destruct (special_shape _ _ _ S) as [p [X [x [y [-> _]]]]]; destruct neg; discriminate|].
    injection E as <- E. apply special_minus_inv in S as [_ S]. apply special_first in S. destruct S as [c [r [-> [_ [C _]]]]]. injection E as <- _. contradiction.
  - intros a b neg m e E S. apply decimal_shape in S. destruct S as [c [r [-> H]]]. destruct neg; cbn [minus app] in E; injection E as E1 E2.
    + subst c. destruct H as [H|H]; [rewrite dig_range in H; change (ch "+") with 43 in H; lia|discriminate H].
    + subst c. destruct H as [H|H]; [rewrite dig_range in H; change (ch "-") with 45 in H; lia|discriminate H].
Qed.
(** ** Totality *)
Lemma infnan_body_total f m k p : exists r k', infnan_body f m (k ++ p) p = Ok r /\ k ++ p = k' ++ r_rest r.
Proof.
  unfold infnan_body.
  assert (SK : forall n, exists k', k ++ p = k' ++ skipn n p) by (intros n; exists (k ++ firstn n p); rewrite <- app_assoc; now rewrite firstn_skipn).
  destruct (3 <=? len p); [|eexists; exists []; split; reflexivity].
  destruct (strncasecmp (firstn 3 p) (s2z "nan")).
  - destruct (SK 3%nat) as [k1 K]. destruct (skipn 3 p) as [|x q] eqn:S3; [eexists; exists k1; split; [reflexivity|exact K]|].
    destruct (Z.eqb_spec x (ch "(")) as [->|]; [|eexists; exists k1; split; [reflexivity|exact K]].
    destruct (nan_loop q) as [y|] eqn:NL; [|eexists; exists k1; split; [reflexivity|exact K]].
    apply nan_loop_spec in NL. destruct NL as [pp [W ->]]. eexists. exists (k1 ++ [ch "("] ++ pp ++ [ch ")"]). split; [reflexivity|]. cbn [r_rest]. rewrite K, <- !app_assoc. reflexivity.
  - destruct (strncasecmp (firstn 3 p) (s2z "inf")); [|eexists; exists []; split; reflexivity].
    destruct ((8 <=? len p) && strncasecmp (firstn 5 (skipn 3 p)) (s2z "inity")); [destruct (SK 8%nat) as [k1 K]|destruct (SK 3%nat) as [k1 K]]; eexists; exists k1; (split; [reflexivity|exact K]).
Qed.
Lemma minus_dec s : {s = [ch "-"]} + {s <> [ch "-"]}. Proof. apply list_eq_dec, Z.eq_dec. Qed.
Lemma plus_total rn f eb o s : fok f eb -> point_char (o_dot o) -> bytes s -> o_noinf o = true \/ s <> [ch "-"] ->
  exists r k, from_chars_cfg true false rn f o s = Ok r /\ s = k ++ r_rest r.
Proof.
  intros F P B H. destruct (minus_dec s) as [->|NM].
  - rewrite cfg_minus. destruct H as [->|H]; [|contradiction]. eexists. exists []. split; reflexivity.
  - destruct s as [|c s]; [eexists; exists []; split; reflexivity|].
    destruct (Z.eq_dec c (ch "+")) as [->|C].
    + destruct (o_json o) eqn:J.
      * rewrite cfg_plus_json by exact J. destruct (o_noinf o); [eexists; exists []; split; reflexivity|].
        exact (infnan_body_total f false [ch "+"] s).
      * destruct s as [|x s].
        { rewrite cfg_plus by (auto; discriminate). eexists. exists []. split; reflexivity. }
        destruct (Z.eq_dec x (ch "-")) as [->|X]; [rewrite cfg_plus_minus by exact P; eexists; exists []; split; reflexivity|].
        rewrite cfg_plus by (auto; intros r E; injection E as E _; contradiction).
        destruct (any_total rn f eb o (x :: s) F P ltac:(now inversion B)) as [r [k [E K]]]. rewrite E. destruct r as [rest ec v]. cbn [r_rest] in K.
        destruct ec; [exists (FFRes rest EOk v), (ch "+" :: k)|exists (FFRes (ch "+" :: x :: s) EInvalid v), []|exists (FFRes rest ERange v), (ch "+" :: k)];
          (split; [reflexivity|]); cbn [r_rest app]; rewrite ?K; reflexivity.
    + destruct s as [|x s].
      * rewrite cfg_same; [apply (any_total rn f eb); auto|intros [r E]; injection E; auto|auto|discriminate].
      * destruct (Z.eq_dec c (ch "-")) as [->|M]; [destruct (Z.eq_dec x (ch "+")) as [->|X]|].
        -- rewrite cfg_minus_plus by exact P. destruct (o_noinf o); [eexists; exists []; split; reflexivity|].
           exact (infnan_body_total f true [ch "-"; ch "+"] s).
        -- rewrite cfg_same; [apply (any_total rn f eb); auto|intros [r E]; inversion E; congruence|auto|intros q E; inversion E; congruence].
        -- rewrite cfg_same; [apply (any_total rn f eb); auto|intros [r E]; inversion E; congruence|auto|intros q E; inversion E; congruence].
Qed.
Lemma skip_space_split s : bytes s -> exists w, s = w ++ skip_space s /\ Forall space w /\ no_space_first (skip_space s).
Proof.
  intro B. induction B as [|c s C B IH].
  - exists []. repeat split; constructor.
  - cbn [skip_space]. destruct (is_space (c mod 2 ^ 8)) eqn:E.
    + destruct IH as [w [S [W N]]]. exists (c :: w). split; [cbn [app]; f_equal; exact S|]. split; [|exact N]. constructor; [|exact W]. now apply is_space_byte in E.
    + exists []. split; [reflexivity|]. split; [constructor|]. cbn. intro X. apply is_space_byte in X; [congruence|exact C].
Qed.
Lemma cfg_total plus ws rn f eb o s : fok f eb -> point_char (o_dot o) -> bytes s ->
  plus = false \/ o_noinf o = true \/ (forall w, s = w ++ [ch "-"] -> Forall space w -> w <> [] /\ ws = false) ->
  exists r k, from_chars_cfg plus ws rn f o s = Ok r /\ s = k ++ r_rest r.
Proof.
  intros F P B H. assert (A : forall s', bytes s' -> plus = false \/ o_noinf o = true \/ s' <> [ch "-"] -> exists r k, from_chars_cfg plus false rn f o s' = Ok r /\ s' = k ++ r_rest r).
  { intros s' B' H'. destruct plus; [apply (plus_total rn f eb); auto; destruct H' as [H'|H']; [discriminate|exact H']|]. rewrite cfg_off. now apply (any_total rn f eb). }
  destruct ws.
  - destruct (skip_space_split s B) as [w [E [W N]]]. destruct (A (skip_space s)) as [r [k [R K]]].
    + rewrite E in B. apply Forall_app in B. apply B.
    + destruct H as [H|[H|H]]; auto. right. right. intro M. rewrite M in E. destruct (H w E W) as [_ X]. discriminate X.
    + exists r, (w ++ k). split; [rewrite <- R; rewrite E at 1; apply cfg_ws; auto; rewrite E in B; apply Forall_app in B; apply B|].
      rewrite <- app_assoc, <- K. exact E.
  - apply A; [exact B|]. destruct H as [H|[H|H]]; auto. right. right. intros ->. destruct (H [] eq_refl ltac:(constructor)) as [X _]. contradiction.
Qed.
Lemma cfg_ub ws rn f o w : o_noinf o = false -> Forall space w -> ws = true \/ w = [] -> from_chars_cfg true ws rn f o (w ++ [ch "-"]) = Ub.
Proof.
  intros N W H. destruct ws.
  - rewrite cfg_ws; [rewrite cfg_minus, N; reflexivity|exact W|repeat constructor; cbn; lia|]. cbn. change (ch "-") with 45. unfold space. lia.
  - destruct H as [H| ->]; [discriminate|]. cbn [app]. rewrite cfg_minus, N. reflexivity.
Qed.
Lemma cfg_plus_ok rn f o s r ec x : o_json o = false -> point_char (o_dot o) -> ~ starts_with (ch "-") s -> from_chars_opt rn f o s = Ok (FFRes r ec x) ->
  from_chars_cfg true false rn f o (ch "+" :: s) = Ok (FFRes (match ec with EInvalid => ch "+" :: s | _ => r end) ec x).
Proof.
  intros J P M E. rewrite cfg_plus; [|exact J|exact P|intros q ->; apply M; now exists q]. rewrite E. destruct ec; reflexivity.
Qed.
Lemma int_plus_ok t b s r ec x : bytes s -> ~ starts_with (ch "-") s -> from_chars_int t s b = Ok (FFRes r ec x) ->
  from_chars_int_cfg true false t (ch "+" :: s) b = Ok (FFRes (match ec with EInvalid => ch "+" :: s | _ => r end) ec x).
Proof. intros B M E. rewrite int_plus by auto. rewrite E. destruct ec; reflexivity. Qed.
Lemma int_total plus ws t b s : bytes s -> exists r k, from_chars_int_cfg plus ws t s b = Ok r /\ s = k ++ r_rest r.
Proof.
  assert (Q : forall s', bytes s' -> exists r k, from_chars_int t s' b = Ok r /\ s' = k ++ r_rest r).
  { intros s' B'. destruct (FfIntProofs2.total t b s' B') as [x [E X]]. exists x. destruct x as [r ec v].
    assert (NA : forall n, number_at t b s' n r -> exists k, s' = k ++ r).
    { intros n H. destruct H as [d v' r' _ _|d v' r' _ _ _]; [now exists d|now exists (ch "-" :: d)]. }
    destruct ec, v as [v|]; try contradiction; cbn [r_rest].
    - destruct X as [_ [_ [n [X _]]]]. destruct (NA n X) as [k K]. now exists k.
    - subst r. now exists [].
    - destruct X as [n [X _]]. destruct (NA n X) as [k K]. now exists k. }
  assert (A : forall s', bytes s' -> exists r k, from_chars_int_cfg plus false t s' b = Ok r /\ s' = k ++ r_rest r).
  { intros s' B'. destruct plus; [|rewrite int_cfg_off; now apply Q].
    destruct s' as [|c s']; [eexists; exists []; split; reflexivity|].
    destruct (Z.eq_dec c (ch "+")) as [->|C]; [|rewrite int_same; [now apply Q|intros [r E]; injection E; auto]].
    assert (B'' : bytes s') by (now inversion B').
    assert (D : starts_with (ch "-") s' \/ ~ starts_with (ch "-") s').
    { destruct s' as [|x s']; [right; intros [r E]; discriminate|]. destruct (Z.eq_dec x (ch "-")) as [->|X]; [left; now exists s'|right; intros [r E]; injection E; auto]. }
    destruct D as [D|D]; [rewrite int_plus_minus by auto; eexists; exists []; split; reflexivity|].
    destruct (Q s' B'') as [[r ec v] [k [E K]]]. rewrite (int_plus_ok t b s' r ec v B'' D E). cbn [r_rest] in K.
    destruct ec; eexists; [exists (ch "+" :: k)|exists []|exists (ch "+" :: k)]; (split; [reflexivity|]); cbn [r_rest app]; rewrite ?K; reflexivity. }
  intro B. destruct ws; [|now apply A].
  destruct (skip_space_split s B) as [w [E [W N]]]. assert (B' : bytes (skip_space s)) by (rewrite E in B; apply Forall_app in B; apply B).
  destruct (A _ B') as [r [k [R K]]]. exists r, (w ++ k). split; [rewrite <- R; rewrite E at 1; now apply int_cfg_ws|]. rewrite <- app_assoc, <- K. exact E.
Qed.
