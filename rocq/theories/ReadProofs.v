(** Proofs about uncat, uncatsep and unformat for any variables. *)
From Verif Require Import Base BaseLemmas CharconvModel CharconvSpec SubstrModel SubstrSpec SubstrProofs SubstrProofs2 SubstrProofs3 SubstrProofs4 SpanNumModel SpanNumSpec SpanNumProofs5 FormatModel FormatSpec FormatProofs FormatProofs2 FormatProofs3 FormatProofs4.
From Verif Require Import FloatModel FloatSpec FloatProofs1 FloatProofs2 FloatProofs3 FloatProofs9 FloatProofs10 FloatProofs11 FloatProofs16 FloatProofs17 RealModel RealSpec RealProofs RealProofs2 RealProofs3 RealProofs4 RealProofs5 ReadModel ReadSpec.
From Coq Require Import Qpower Lia.
Open Scope Z_scope.

Lemma read_at g t v P d r v0 : reads g t v P -> P r -> bytes (d ++ t ++ r) -> small (d ++ t ++ r) ->
  g (contents (d ++ t ++ r) (View (len d) (len (t ++ r)))) v0 = Ok (Some (len t), v).
Proof.
  intros R H B S. rewrite (contents_app _ d (t ++ r) []) by now rewrite app_nil_r. apply R; auto.
  - now apply bytes_app in B.
  - unfold small in *. rewrite len_app in S. pose proof (len_nonneg d). lia.
Qed.
Lemma step_at (d t r : list Z) : small (d ++ t ++ r) -> radvance (d ++ t ++ r) (View (len d) (len (t ++ r))) (len t) = View (len (d ++ t)) (len r).
Proof. intros S. unfold small in S. rewrite !len_app in S. pose proof (len_nonneg d). pose proof (len_nonneg t). pose proof (len_nonneg r). rewrite radvance_ok by (rewrite ?len_app; lia). rewrite !len_app. f_equal; lia. Qed.

Theorem uncatw_ok gs ts vs : reads_all gs ts vs -> forall xs d, map fst xs = gs -> bytes (d ++ concat ts) -> small (d ++ concat ts) ->
  uncatw (d ++ concat ts) (View (len d) (len (concat ts))) xs = Ok (Some (len (concat ts)), vs).
Proof.
  induction 1 as [|g t v P gs ts vs R H A IH]; intros xs d X B S.
  - destruct xs; [reflexivity|discriminate X].
  - destruct xs as [|[g' v0] xs]; [discriminate X|]. injection X as -> X. cbn [uncatw concat] in *. rewrite (read_at g t v P) by auto. cbn [bind].
    rewrite step_at by exact S. rewrite app_assoc in *. rewrite IH by auto. cbn [bind].
    unfold small in S. rewrite !len_app in *. pose proof (len_nonneg d). pose proof (len_nonneg t). pose proof (len_nonneg (concat ts)). rewrite u64_id by lia. reflexivity.
Qed.
Lemma uncatsepw_more_ok sg st sv gs ts vs : reads_sep sg st sv gs ts vs -> forall xs d s0, map fst xs = gs ->
  let out := concat (map (fun u => st ++ u) ts) in bytes (d ++ out) -> small (d ++ out) ->
  uncatsepw_more (d ++ out) (View (len d) (len out)) (sg, s0) xs = Ok (Some (len out), match ts with [] => s0 | _ => sv end, vs).
Proof.
  cbv zeta. induction 1 as [|g t v P Q gs ts vs SR SH R H A IH]; intros xs d s0 X B S.
  - destruct xs; [reflexivity|discriminate X].
  - destruct xs as [|[g' v0] xs]; [discriminate X|]. injection X as -> X. cbn [uncatsepw_more concat map fst snd] in *. rewrite <- !app_assoc in *. rewrite (read_at sg st sv Q) by auto. cbn [bind].
    rewrite step_at by exact S. rewrite (app_assoc d st) in *. rewrite (read_at g t v P) by auto. cbn [bind].
    rewrite step_at by exact S. rewrite (app_assoc (d ++ st) t) in *. rewrite IH by auto. cbn [bind].
    unfold small in S. rewrite !len_app in *. pose proof (len_nonneg d). pose proof (len_nonneg st). pose proof (len_nonneg t).
    match goal with |- context[len (concat ?x)] => pose proof (len_nonneg (concat x)) end. rewrite (u64_id (len st + len t)) by lia. rewrite u64_id by lia.
    replace (match ts with [] => sv | _ => sv end) with sv by (destruct ts; reflexivity). do 4 f_equal. lia.
Qed.
Theorem uncatsepw_ok sg st sv g t v P gs ts vs x xs s0 : reads g t v P -> P (concat (map (fun u => st ++ u) ts)) -> reads_sep sg st sv gs ts vs ->
  fst x = g -> map fst xs = gs -> let s := concat (intersperse st (t :: ts)) in bytes s -> small s ->
  uncatsepw s (full s) (sg, s0) x xs = Ok (Some (len s), match ts with [] => s0 | _ => sv end, v :: vs).
Proof.
  intros R H A X XS. cbv zeta. replace (concat (intersperse st (t :: ts))) with (t ++ concat (map (fun u => st ++ u) ts)).
  2: { clear. revert t. induction ts as [|u ts IH]; intros t; [cbn; now rewrite !app_nil_r|]. cbn [map concat intersperse]. f_equal. cbn [concat]. rewrite <- app_assoc. f_equal. apply IH. }
  intros B S. unfold uncatsepw, full. destruct x as [g' v0]. cbn [fst snd] in *. subst g'.
  pose proof (read_at g t v P [] (concat (map (fun u => st ++ u) ts)) v0 R H B S) as E. cbn [app] in E. change (len []) with 0 in E. rewrite E. cbn [bind].
  pose proof (step_at [] t (concat (map (fun u => st ++ u) ts)) S) as E2. cbn [app] in E2. change (len []) with 0 in E2. rewrite E2.
  rewrite (uncatsepw_more_ok sg st sv gs ts vs A) by auto. cbn [bind].
  unfold small in S. rewrite !len_app in *. pose proof (len_nonneg t). match goal with |- context[len (concat ?x)] => pose proof (len_nonneg (concat x)) end. rewrite u64_id by lia. reflexivity.
Qed.
Theorem unformatw_ok f gs ts vs out : reads_format f gs ts vs out -> forall xs d, map fst xs = gs -> small f -> bytes (d ++ out) -> small (d ++ out) ->
  unformatw (d ++ out) (View (len d) (len out)) f xs = Ok (Some (len out), vs).
Proof.
  induction 1 as [f|f pre post g t v P gs ts vs out FP RF IH R H]; intros xs d X Hf B S.
  - destruct xs; [reflexivity|discriminate X].
  - destruct xs as [|[g' v0] xs]; [discriminate X|]. injection X as -> X. cbn [unformatw].
    destruct (find_placeholder f) as (o & E & Ho). rewrite E. cbn [bind].
    destruct o as [p|]; [|exfalso; destruct FP as [FP _]; apply Ho; exists pre, post; auto].
    destruct Ho as (x & y & P' & ->). destruct (first_placeholder_fun _ _ _ _ _ P' FP) as [-> ->]. clear P'.
    pose proof (placeholder_len _ _ _ FP) as PL. pose proof (len_nonneg pre). pose proof (len_nonneg post).
    rewrite step_at by exact S. rewrite (app_assoc d pre) in *. rewrite (read_at g t v P) by auto. cbn [bind].
    rewrite sub1_ok by (unfold small in *; lia). cbn [bind].
    assert (C2 : contents f (View (len pre + 2) (len f - (len pre + 2))) = post).
    { rewrite PL. replace (len pre + 2 + len post - (len pre + 2)) with (len post) by lia. destruct FP as [-> _].
      replace (len pre + 2) with (len (pre ++ s2z "{}")) by (rewrite len_app; reflexivity).
      apply (contents_app _ (pre ++ s2z "{}") post []). rewrite app_nil_r, app_assoc. reflexivity. }
    rewrite C2, step_at by exact S. rewrite (app_assoc (d ++ pre) t) in *. rewrite IH by (auto; unfold small in *; lia). cbn [bind].
    unfold small in S. rewrite !len_app in *. pose proof (len_nonneg d). pose proof (len_nonneg t). pose proof (len_nonneg out).
    rewrite (u64_id (len pre + len t)) by lia. rewrite u64_id by lia. do 3 f_equal. lia.
Qed.

(** ** The variables of FormatModel *)
Definition slot_z (x : slot) : Z := match x with SInt _ v => v | SBool b => if b then 1 else 0 | SChar c => c | SWord _ => 0 end.
Lemma var_reads x g v s b : var_of x = Some (g, v) -> exists r, read_first s b x = r /\
  g (contents s b) v = (do '(o, y) <- r ;; Ok (o, slot_z y)) /\ v = slot_z x /\ (forall o y, r = Ok (o, y) -> exists v', var_of y = Some (g, v')).
Proof.
  intros H. eexists. split; [reflexivity|]. destruct x as [t z|z|c|w]; cbn [var_of] in H; try discriminate H; injection H as <- <-; cbn [read_first slot_z].
  - destruct (ato_first t (contents s b) z) as [[o y]| |]; cbn [bind]; (split; [reflexivity|]); (split; [reflexivity|]); intros ? ? E; try discriminate E. injection E as <- <-. eexists. reflexivity.
  - unfold read_bool. replace (negb ((if z then 1 else 0) =? 0)) with z by (destruct z; reflexivity).
    destruct (from_chars_first_bool (contents s b) z) as [[o y]| |]; cbn [bind]; (split; [reflexivity|]); (split; [reflexivity|]); intros ? ? E; try discriminate E. injection E as <- <-. eexists. reflexivity.
  - destruct (from_chars_first_char (contents s b) c) as [[o y]| |]; cbn [bind]; (split; [reflexivity|]); (split; [reflexivity|]); intros ? ? E; try discriminate E. injection E as <- <-. eexists. reflexivity.
Qed.
(** the functions of FormatModel are those of ReadModel on these variables *)
Definition vars_of (xs : list slot) (ps : list var) : Prop := Forall2 (fun x p => var_of x = Some p) xs ps.
Lemma vars_values xs ps : vars_of xs ps -> map snd ps = map slot_z xs.
Proof. induction 1 as [|x [g v] xs ps H _ IH]; [reflexivity|]. cbn [map snd]. rewrite IH. destruct (var_reads x g v [] (View 0 0) H) as [_ [_ [_ [-> _]]]]. reflexivity. Qed.
Lemma uncat_uncatw s xs ps : vars_of xs ps -> forall b, uncatw s b ps = do '(o, ys) <- uncat s b xs ;; Ok (o, map slot_z ys).
Proof.
  induction 1 as [|x [g v] xs ps H HS IH]; intros b; [reflexivity|]. cbn [uncatw uncat]. destruct (var_reads x g v s b H) as [r [-> [E [V N]]]]. rewrite E.
  destruct r as [[[out|] y]| |]; cbn [bind]; try reflexivity.
  - rewrite IH. destruct (uncat s (radvance s b out) xs) as [[[n|] ys]| |]; reflexivity.
  - cbn [map]. now rewrite (vars_values _ _ HS).
Qed.
Lemma uncatsep_more_w s xs ps : vars_of xs ps -> forall b sep g0 v0, var_of sep = Some (g0, v0) ->
  uncatsepw_more s b (g0, v0) ps = do '(o, sp, ys) <- uncatsep_more s b sep xs ;; Ok (o, slot_z sp, map slot_z ys).
Proof.
  induction 1 as [|x [g v] xs ps H HS IH]; intros b sep g0 v0 SP.
  - destruct (var_reads sep g0 v0 s b SP) as [_ [_ [_ [-> _]]]]. reflexivity.
  - cbn [uncatsepw_more uncatsep_more fst snd]. destruct (var_reads sep g0 v0 s b SP) as [r [-> [E [V N]]]]. rewrite E.
    destruct r as [[[r1|] y]| |]; cbn [bind]; try reflexivity.
    + destruct (var_reads x g v s (radvance s b r1) H) as [r' [-> [E' [V' N']]]]. rewrite E'. destruct (N _ _ eq_refl) as [v1 Y].
      destruct (var_reads y g0 v1 s b Y) as [_ [_ [_ [V1 _]]]]. subst v1.
      destruct r' as [[[r2|] z]| |]; cbn [bind]; try reflexivity.
      * rewrite (IH _ y g0 (slot_z y) Y). destruct (uncatsep_more s (radvance s (radvance s b r1) r2) y xs) as [[[[n|] sp] ys]| |]; reflexivity.
      * cbn [map]. now rewrite (vars_values _ _ HS).
    + cbn [map]. rewrite (vars_values _ _ HS). destruct (var_reads x g v s b H) as [_ [_ [_ [-> _]]]]. reflexivity.
Qed.
Lemma uncatsep_uncatsepw s b sep g0 v0 x p xs ps : var_of sep = Some (g0, v0) -> var_of x = Some p -> vars_of xs ps ->
  uncatsepw s b (g0, v0) p ps = do '(o, sp, ys) <- uncatsep s b sep x xs ;; Ok (o, slot_z sp, map slot_z ys).
Proof.
  intros SP H HS. destruct p as [g v]. unfold uncatsepw, uncatsep. cbn [fst snd]. destruct (var_reads x g v s b H) as [r [-> [E [V N]]]]. rewrite E.
  destruct r as [[[num|] y]| |]; cbn [bind]; try reflexivity.
  - rewrite (uncatsep_more_w s xs ps HS _ sep g0 v0 SP). destruct (uncatsep_more s (radvance s b num) sep xs) as [[[[n|] sp] ys]| |]; reflexivity.
  - cbn [map]. rewrite (vars_values _ _ HS). destruct (var_reads sep g0 v0 s b SP) as [_ [_ [_ [-> _]]]]. reflexivity.
Qed.
Lemma unformat_unformatw s xs ps : vars_of xs ps -> forall b f, unformatw s b f ps = do '(o, ys) <- unformat s b f xs ;; Ok (o, map slot_z ys).
Proof.
  induction 1 as [|x [g v] xs ps H HS IH]; intros b f; [reflexivity|]. cbn [unformatw unformat]. destruct (find f (s2z "{}") (Some 0)) as [[pos|]| |]; cbn [bind]; try reflexivity.
  - destruct (var_reads x g v s (radvance s b pos) H) as [r [-> [E [V N]]]]. rewrite E.
    destruct r as [[[num|] y]| |]; cbn [bind]; try reflexivity.
    + destruct (sub1 (len f) (pos + 2)) as [rest| |]; cbn [bind]; try reflexivity. rewrite IH.
      destruct (unformat s (radvance s (radvance s b pos) num) (contents f rest) xs) as [[[n|] ys]| |]; reflexivity.
    + cbn [map]. now rewrite (vars_values _ _ HS).
  - cbn [map]. rewrite (vars_values _ _ HS). destruct (var_reads x g v s b H) as [_ [_ [_ [-> _]]]]. reflexivity.
Qed.

(** ** Readers *)
Lemma int_reads t w v : int_text t w v -> in_range t v -> reads (ato_first t) w v ended.
Proof.
  intros H R r v0 E B S. rewrite (ato_first_value t (w ++ r) v0 [] w r v) by (auto; constructor). change (len []) with 0. rewrite wrap_id by exact R. reflexivity.
Qed.
Lemma char_reads c : reads from_chars_first_char [c] c (fun _ => True).
Proof.
  intros r v0 _ B S. unfold from_chars_first_char. cbn [app]. rewrite len_cons. pose proof (len_nonneg r). replace (1 + len r <? 1) with false by lia. reflexivity.
Qed.
Lemma real_reads dbg rn f eb w neg m e x : fok f eb -> decimal_text w neg m e -> len w + 400 <= 2 ^ 28 ->
  nearest (f_mb f) eb neg (decimal m e) x -> b_finite (f_mb f) eb x -> m = 0 \/ ~ b_zero (f_mb f) eb x ->
  reads (atod_first dbg rn f) w x ended.
Proof.
  intros F D L N FX Z r v0 E B S. destruct (atod_first_decimal dbg rn f eb [] w r neg m e v0 F S B ltac:(constructor) E D L) as [ok [x' [H [N' O]]]]. cbn [app] in H. rewrite H.
  destruct (fok_facts f eb F) as [M [EB _]].
  assert (MN : 0 <= m).
  { destruct D as [neg i ft d xt e DI FR _ _]. assert (digs (i ++ d)) by (apply digs_app; split; [exact DI|destruct FR; [constructor|assumption]]). apply dec_range. assumption. }
  assert (X : x' = x) by (apply (nearest_unique _ _ M EB neg (decimal m e)); [now apply decimal_nonneg|exact N'|exact N]). subst x'.
  destruct ok; [reflexivity|]. exfalso. destruct O as [O _]. destruct (O eq_refl) as [[_ [I _]]|[MP ZX]].
  - destruct FX as [_ FX]. lia.
  - destruct Z as [Z|Z]; [lia|exact (Z ZX)].
Qed.
Lemma inf_reads dbg rn f eb w neg x : fok f eb -> In (w, neg) [(s2z "inf", false); (s2z "-inf", true); (s2z "infinity", false); (s2z "-infinity", true)] ->
  b_neg (f_mb f) eb x = neg -> b_infinite (f_mb f) eb x -> reads (atod_first dbg rn f) w x ended.
Proof.
  intros F I NX IX r v0 E B S. destruct (fok_facts f eb F) as [M [EB _]].
  assert (I2 : In (w, neg, false) [(s2z "inf", false, false); (s2z "-inf", true, false); (s2z "infinity", false, false); (s2z "-infinity", true, false); (s2z "nan", false, true); (s2z "-nan", true, true)]).
  { destruct I as [I|[I|[I|[I|[]]]]]; injection I as <- <-; vm_compute; auto 20. }
  destruct (atod_first_special dbg rn f eb [] w r neg false v0 F S B ltac:(constructor) E I2) as [x' [H [NX' IX']]]. cbn [app] in H. rewrite H.
  assert (X : x' = x); [|now subst].
  assert (P : (0 <= b_limit (f_mb f) eb)%Q).
  { unfold b_limit. apply Qmult_le_0_compat; [|apply Qpower_pos; discriminate]. change 0%Q with (inject_Z 0). rewrite <- Zle_Qle. assert (0 < 2 ^ (f_mb f + 2)) by (apply Z.pow_pos_nonneg; lia). lia. }
  apply (nearest_unique _ _ M EB neg (b_limit (f_mb f) eb)); [exact P| |]; (split; [assumption|]); (split; [now intros _|]); intros C; exfalso; exact (Qlt_irrefl _ C).
Qed.
Lemma nan_reads dbg rn f eb w neg : fok f eb -> In (w, neg) [(s2z "nan", false); (s2z "-nan", true)] ->
  exists x, b_neg (f_mb f) eb x = neg /\ b_nan (f_mb f) eb x /\ reads (atod_first dbg rn f) w x ended.
Proof.
  intros F I.
  assert (I2 : In (w, neg, true) [(s2z "inf", false, false); (s2z "-inf", true, false); (s2z "infinity", false, false); (s2z "-infinity", true, false); (s2z "nan", false, true); (s2z "-nan", true, true)]).
  { destruct I as [I|[I|[]]]; injection I as <- <-; vm_compute; auto 20. }
  assert (BW : bytes w) by (destruct I as [I|[I|[]]]; injection I as <- <-; repeat constructor; discriminate).
  assert (SW : small w) by (destruct I as [I|[I|[]]]; injection I as <- <-; reflexivity).
  destruct (special_word w neg true I2) as [SP RL]. assert (NE := starts_ne w (special_starts w [] neg true SP)).
  destruct (atod_special dbg rn f eb w [] neg true 0 F) as [x [E [N NX]]]; rewrite ?app_nil_r; auto; [apply longest_special_nil|unfold small in SW; lia|].
  rewrite app_nil_r in E. exists x. split; [exact N|]. split; [exact NX|].
  intros r v0 R B S. change (w ++ r) with ([] ++ w ++ r). rewrite first_eq by auto.
  replace (atod dbg rn f w v0) with (Ok (true, x)); [reflexivity|]. rewrite <- E.
  destruct F as [[-> _]|[-> _]]; destruct I as [I|[I|[]]]; injection I as <- <-; destruct dbg, rn; vm_compute; reflexivity.
Qed.
