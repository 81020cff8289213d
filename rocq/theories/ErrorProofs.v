(** Proofs for the error settings, handle_error and is_debugger_attached. *)
From Verif Require Import Base BaseLemmas CharconvSpec ErrorModel ErrorSpec.

(** ** settings *)
Lemma scope_restores s k body : 0 <= eflags s < 2 ^ 32 -> fst (prun s (PScope k body)) = s.
Proof.
  intros H. destruct s as [f cb]. cbn [eflags] in H. cbn [prun]. destruct (scope_enter _ k) as [saved s'] eqn:E.
  assert (S : saved = Settings f cb) by (destruct k; inversion E; reflexivity). subst saved.
  match goal with |- context [let '(_, _) := ?X in _] => destruct X as [s2 th] end.
  cbn [fst scope_leave eflags ecallback]. unfold scope_leave, set_error_callback, set_error_flags. cbn. rewrite Z.mod_small by lia. reflexivity.
Qed.
Lemma scope_sets s : 0 <= eflags s < 2 ^ 32 ->
  (forall f, 0 <= f < 2 ^ 32 -> snd (scope_enter s (KFlags f)) = Settings f (ecallback s)) /\
  (forall cb, snd (scope_enter s (KCallback cb)) = Settings (eflags s) cb) /\
  (forall f cb, 0 <= f < 2 ^ 32 -> snd (scope_enter s (KBoth f cb)) = Settings f cb).
Proof.
  intros H. unfold scope_enter, set_error_flags, set_error_callback. repeat split; intros; cbn; rewrite ?Z.mod_small by lia; reflexivity.
Qed.

(** ** handle_error *)
Lemma cstr_ok t r : ~ In 0 t -> cstr (map Some (t ++ [0]) ++ r) = Ok t.
Proof.
  induction t as [|c t IH]; intros H; cbn [app map cstr].
  - reflexivity.
  - destruct (Z.eqb_spec c 0) as [->|]; [exfalso; apply H; left; auto|]. rewrite IH by (intros ?; apply H; right; auto). reflexivity.
Qed.
Lemma flag_or s a b : flag s (Z.lor a b) = flag s a || flag s b.
Proof.
  unfold flag. rewrite Z.land_lor_distr_r. destruct (Z.eqb_spec (Z.land (eflags s) a) 0) as [->|Ha]; cbn [negb orb].
  - rewrite Z.lor_0_l. reflexivity.
  - destruct (Z.eqb_spec (Z.lor (Z.land (eflags s) a) (Z.land (eflags s) b)) 0) as [E|]; auto.
    apply Z.lor_eq_0_iff in E. tauto.
Qed.
Lemma len_message t : len (message t) = Z.min (len t) 1023.
Proof. unfold message, len. rewrite firstn_length. lia. Qed.
Definition msg_buffer (t : list Z) : buffer := map Some (message t ++ [0]) ++ repeat None (1023 - length (message t)).
Lemma vsn_ok t : vsnprintf (repeat None 1024) 1024 (Some t) = (msg_buffer t, if 2 ^ 31 <=? len t then -1 else len t).
Proof.
  unfold vsnprintf, msg_buffer, message. change (Z.to_nat (1024 - 1)) with 1023%nat. f_equal. f_equal.
  set (w := firstn 1023 t ++ [0]). replace 1024%nat with (length w + (1023 - length (firstn 1023 t)))%nat.
  - rewrite repeat_app, skipn_app, skipn_all2 by (rewrite repeat_length; lia). rewrite repeat_length, Nat.sub_diag. reflexivity.
  - unfold w. rewrite app_length. cbn [length]. pose proof (firstn_le_length 1023 t). lia.
Qed.
Lemma handle_ok exc cbs s t : flag s ON_ERROR_LOG = true \/ flag s ON_ERROR_CALLBACK = true -> ~ In 0 (message t) ->
  exists e, e <> Returns /\ (forall u, e = Throws u -> u = message t) /\
  handle_error exc cbs s (Some t) =
  Ok ((if flag s ON_ERROR_LOG then [EvLog (message t)] else []) ++
      match (if flag s ON_ERROR_CALLBACK then ecallback s else None) with
      | Some cb => [EvCallback cb (msg_buffer t) (Z.min (len t) 1023)] | None => [] end, e).
Proof.
  intros HF H0. unfold handle_error. rewrite flag_or. replace (flag s ON_ERROR_LOG || flag s ON_ERROR_CALLBACK) with true by (destruct HF as [->| ->]; [reflexivity|rewrite orb_true_r; reflexivity]).
  rewrite vsn_ok. pose proof (len_nonneg t) as HL.
  set (n := if 2 ^ 31 <=? len t then -1 else len t).
  replace (if (0 <=? n) && (n <? 1024) then n else 1024 - 1) with (Z.min (len t) 1023) by (unfold n; destruct (Z.leb_spec (2 ^ 31) (len t)); [cbn; lia|]; destruct (Z.leb_spec 0 (len t)); [|lia]; destruct (Z.ltb_spec (len t) 1024); cbn [andb]; lia).
  assert (C : cstr (msg_buffer t) = Ok (message t)) by (apply cstr_ok; auto). rewrite C. clear C.
  assert (D : forall ev s', exists e, e <> Returns /\ (forall u, e = Throws u -> u = message t) /\
    (if flag s' ON_ERROR_THROW && exc then do t <- Ok (message t) ;; Ok (ev, Throws t)
     else if flag s' ON_ERROR_ABORT then Ok (ev, Aborts) else Ok (ev, Aborts)) = Ok (ev : list event, e)).
  { intros ev s'. destruct (flag s' ON_ERROR_THROW && exc).
    - exists (Throws (message t)). repeat split; [discriminate|]. intros u E. inversion E; auto.
    - exists Aborts. repeat split; [discriminate..|]. destruct (flag s' ON_ERROR_ABORT); reflexivity. }
  assert (B : (if flag s ON_ERROR_LOG then do t0 <- Ok (message t);; Ok [EvLog t0] else Ok []) = Ok (if flag s ON_ERROR_LOG then [EvLog (message t)] else [])) by (destruct (flag s ON_ERROR_LOG); reflexivity).
  rewrite B. cbn [bind]. set (lg := if flag s ON_ERROR_LOG then [EvLog (message t)] else []).
  destruct (flag s ON_ERROR_CALLBACK); [destruct (ecallback s) as [cb|]|].
  - destruct (cbs cb (msg_buffer t) (Z.min (len t) 1023) s) as [s'|].
    + apply D.
    + exists CallbackLeaves. repeat split; discriminate.
  - apply D.
  - apply D.
Qed.
Lemma handle_reports exc cbs s t : flag s ON_ERROR_LOG = true \/ flag s ON_ERROR_CALLBACK = true -> ~ In 0 (message t) ->
  exists ev e, handle_error exc cbs s (Some t) = Ok (ev, e) /\ (forall u, e = Throws u -> u = message t) /\
  reported (flag s ON_ERROR_LOG) (if flag s ON_ERROR_CALLBACK then ecallback s else None) t ev.
Proof.
  intros H H0. destruct (handle_ok exc cbs s t H H0) as (e & _ & HT & E). eexists _, e. split; [exact E|]. split; [exact HT|].
  eexists. rewrite len_message. reflexivity.
Qed.
(** how it ends *)
Lemma flag_bit s i : 0 <= i -> flag s (2 ^ i) = has_bit s i.
Proof.
  intro H. unfold flag, has_bit. destruct (Z.testbit (eflags s) i) eqn:B.
  - destruct (Z.eqb_spec (Z.land (eflags s) (2 ^ i)) 0) as [C|C]; [|reflexivity].
    apply (f_equal (fun z => Z.testbit z i)) in C. rewrite Z.land_spec, B, Z.pow2_bits_true, Z.bits_0 in C by lia. discriminate.
  - replace (Z.land (eflags s) (2 ^ i)) with 0; [reflexivity|]. symmetry. apply Z.bits_inj'. intros j J.
    rewrite Z.land_spec, Z.bits_0, Z.pow2_bits_eqb by lia. destruct (Z.eqb_spec i j) as [<-|]; [rewrite B; reflexivity|apply andb_false_r].
Qed.
Lemma handle_ending exc cbs s t : has_bit s 1 = true \/ has_bit s 2 = true -> ~ In 0 (message t) -> stays cbs ->
  exists ev, handle_error exc cbs s (Some t) = Ok (ev, if has_bit s 4 && exc then Throws (message t) else Aborts) /\
  reported (has_bit s 1) (if has_bit s 2 then ecallback s else None) t ev.
Proof.
  rewrite <- !(flag_bit s) by lia. change (2 ^ 1) with ON_ERROR_LOG. change (2 ^ 2) with ON_ERROR_CALLBACK. change (2 ^ 4) with ON_ERROR_THROW.
  intros H H0 S. destruct (handle_reports exc cbs s t H H0) as (ev & e & E & _ & R).
  exists ev. split; [|exact R]. rewrite E. f_equal. f_equal. revert E. unfold handle_error. rewrite flag_or.
  replace (flag s ON_ERROR_LOG || flag s ON_ERROR_CALLBACK) with true by (destruct H as [->| ->]; [reflexivity|rewrite orb_true_r; reflexivity]).
  rewrite vsn_ok. assert (C : cstr (msg_buffer t) = Ok (message t)) by (apply cstr_ok; auto). rewrite C. clear C.
  set (nx := if flag s ON_ERROR_CALLBACK then _ else ([], Some s)).
  assert (N : snd nx = Some s).
  { unfold nx. destruct (flag s ON_ERROR_CALLBACK); [destruct (ecallback s)|]; cbn; auto. }
  destruct nx as [cl nx]. cbn [snd] in N. subst nx.
  destruct (flag s ON_ERROR_LOG); cbn [bind]; destruct (flag s ON_ERROR_THROW && exc); cbn [bind];
    try destruct (flag s ON_ERROR_ABORT); intro E; congruence.
Qed.
Lemma handle_defaults exc cbs cb t : ~ In 0 (message t) -> stays cbs ->
  exists ev, handle_error exc cbs (Settings ON_ERROR_DEFAULTS cb) (Some t) = Ok (ev, Aborts) /\ reported true cb t ev.
Proof. intros H S. exact (handle_ending exc cbs (Settings ON_ERROR_DEFAULTS cb) t (or_introl eq_refl) H S). Qed.
Lemma never_returns exc cbs s text ev e : handle_error exc cbs s text = Ok (ev, e) -> e <> Returns.
Proof.
  unfold handle_error. destruct (flag s _); [destruct (vsnprintf _ _ _) as [buf il]|].
  all: (destruct (flag s ON_ERROR_LOG); [destruct (cstr _) as [t| |]; cbn [bind]; try discriminate|cbn [bind]]);
    (destruct (flag s ON_ERROR_CALLBACK); [destruct (ecallback s) as [cb|]; [destruct (cbs _ _ _ _) as [s'|]|]|]);
    repeat match goal with |- context [if ?b then _ else _] => destruct b end;
    try (destruct (cstr _)); cbn [bind]; intros H; inversion H; discriminate.
Qed.
Lemma silent_abort exc cbs s text : flag s ON_ERROR_LOG = false -> flag s ON_ERROR_CALLBACK = false -> flag s ON_ERROR_THROW = false \/ exc = false ->
  handle_error exc cbs s text = Ok ([], Aborts).
Proof.
  intros H1 H2 H3. unfold handle_error. rewrite flag_or, H1, H2. cbn [orb bind app].
  replace (flag s ON_ERROR_THROW && exc) with false by (destruct H3 as [->| ->]; [reflexivity|rewrite andb_false_r; reflexivity]).
  destruct (flag s ON_ERROR_ABORT); reflexivity.
Qed.
Lemma throw_only cbs s text : flag s ON_ERROR_LOG = false -> flag s ON_ERROR_CALLBACK = false -> flag s ON_ERROR_THROW = true ->
  handle_error true cbs s text = Ub.
Proof. intros H1 H2 H3. unfold handle_error. rewrite flag_or, H1, H2. cbn [orb bind]. rewrite H3. reflexivity. Qed.
Lemma bad_format exc cbs s : flag s ON_ERROR_LOG = true -> handle_error exc cbs s None = Ub.
Proof. intros H. unfold handle_error. rewrite flag_or, H. reflexivity. Qed.
Lemma warning_ok t : ~ In 0 (message t) -> handle_warning (Some t) = Ok ([EvLog (message t)], Returns).
Proof. intros H. unfold handle_warning. rewrite vsn_ok. unfold msg_buffer. rewrite cstr_ok by auto. reflexivity. Qed.

(** ** is_debugger_attached *)
Lemma starts_true pat r : starts pat (pat ++ r) = Ok true.
Proof. induction pat as [|c pat IH]; [reflexivity|]. cbn. rewrite Z.eqb_refl. auto. Qed.
Lemma starts_long pat s : (length pat <= length s)%nat -> (forall r, s <> pat ++ r) -> starts pat s = Ok false.
Proof.
  revert s. induction pat as [|p pat IH]; intros s L H.
  - exfalso. apply (H s). reflexivity.
  - destruct s as [|c s]; [cbn in L; lia|]. cbn [starts]. destruct (Z.eqb_spec p c) as [->|]; auto. apply IH; [cbn in L; lia|].
    intros r ->. apply (H r). reflexivity.
Qed.
(** with a terminator in the text the end is not reached *)
Lemma starts_term pat s r : ~ In 0 pat -> (forall q, s <> pat ++ q) -> starts pat (s ++ 0 :: r) = Ok false.
Proof.
  revert s. induction pat as [|p pat IH]; intros s H0 H.
  - exfalso. apply (H s). reflexivity.
  - destruct s as [|c s]; cbn [app starts].
    + destruct (Z.eqb_spec p 0) as [->|]; auto. exfalso. apply H0. left. auto.
    + destruct (Z.eqb_spec p c) as [->|]; auto. apply IH; [intros ?; apply H0; right; auto|]. intros q ->. apply (H q). reflexivity.
Qed.
Lemma strstr_found pat pre rest : pat <> [] -> ~ In 0 pat -> ~ In 0 pre ->
  (forall a b r, pre = a ++ b -> b <> [] -> b ++ pat ++ rest <> pat ++ r) ->
  strstr (pre ++ pat ++ rest) pat = Ok (Some (pat ++ rest)).
Proof.
  intros Hp Hz. induction pre as [|c pre IH]; intros H0 H.
  - destruct pat as [|p pat]; [contradiction|]. cbn [app strstr]. destruct (Z.eqb_spec p 0) as [->|]; [exfalso; apply Hz; left; auto|].
    change (p :: pat ++ rest) with ((p :: pat) ++ rest). rewrite starts_true. reflexivity.
  - cbn [app strstr]. destruct (Z.eqb_spec c 0) as [->|]; [exfalso; apply H0; left; auto|].
    rewrite starts_long.
    + cbn [bind]. apply IH; [intros ?; apply H0; right; auto|]. intros a b r -> Hb. apply (H (c :: a) b r); auto.
    + cbn [length]. rewrite !app_length. lia.
    + intros r. apply (H [] (c :: pre) r); [reflexivity|discriminate].
Qed.
Lemma strstr_none pat t rest : pat <> [] -> ~ In 0 pat -> ~ In 0 t -> (forall a b, t <> a ++ pat ++ b) ->
  strstr (t ++ 0 :: rest) pat = Ok None.
Proof.
  intros Hp Hz. induction t as [|c t IH]; intros H0 H; [reflexivity|].
  cbn [app strstr]. destruct (Z.eqb_spec c 0) as [->|]; [exfalso; apply H0; left; auto|].
  change (c :: t ++ 0 :: rest) with ((c :: t) ++ 0 :: rest). rewrite starts_term; auto.
  - cbn [bind]. apply IH; [intros ?; apply H0; right; auto|]. intros a b ->. apply (H (c :: a) b). reflexivity.
  - intros q E. apply (H [] q). auto.
Qed.
Lemma digits_ok ds : forall acc e r, Forall (fun d => 0 <= d < 10) ds -> ~ (48 <= e <= 57) ->
  digits (map digit_char ds ++ e :: r) acc = Ok (fold_left (fun a d => a * 10 + d) ds acc).
Proof.
  induction ds as [|d ds IH]; intros acc e r HD He; cbn [map app digits fold_left].
  - replace ((48 <=? e) && (e <=? 57)) with false by lia. reflexivity.
  - inversion HD; subst. assert (DC : digit_char d = 48 + d) by (unfold digit_char; replace (d <? 10) with true by lia; auto). rewrite DC.
    replace ((48 <=? 48 + d) && (48 + d <=? 57)) with true by lia. rewrite IH by auto. f_equal. f_equal. lia.
Qed.
Lemma atoi_ok sp pid num e r : Forall (fun c => is_space c = true) sp -> is_numeral 10 pid num -> pid < 2 ^ 31 -> ~ (48 <= e <= 57) ->
  atoi (sp ++ num ++ e :: r) = Ok pid.
Proof.
  intros Hs (ds & [Hne Hd _ Hv] & ->) Hp He. induction sp as [|c sp IH].
  - cbn [app]. destruct ds as [|d ds]; [contradiction|]. pose proof Hd as Hd'. inversion Hd'; subst.
    assert (N : 0 <= positional 10 (d :: ds)).
    { clear -Hd. unfold positional. assert (forall l a, 0 <= a -> Forall (fun d => 0 <= d < 10) l -> 0 <= fold_left (fun a d => a * 10 + d) l a).
      { induction l as [|x l IH]; intros a Ha Hl; cbn; auto. inversion Hl; subst. apply IH; auto. lia. } apply H; auto. lia. }
    cbn [map app atoi]. assert (DC : digit_char d = 48 + d) by (unfold digit_char; replace (d <? 10) with true by lia; auto).
    rewrite DC. unfold is_space. replace (48 + d =? 32) with false by lia. replace ((9 <=? 48 + d) && (48 + d <=? 13)) with false by lia. cbn [orb].
    change (ch "-") with 45. change (ch "+") with 43. replace (48 + d =? 45) with false by lia. replace (48 + d =? 43) with false by lia.
    rewrite <- DC. change (digit_char d :: map digit_char ds ++ e :: r) with (map digit_char (d :: ds) ++ e :: r).
    rewrite digits_ok by auto. cbn [bind]. change (fold_left (fun a d => a * 10 + d) (d :: ds) 0) with (positional 10 (d :: ds)).
    unfold to_int. replace ((- 2 ^ 31 <=? positional 10 (d :: ds)) && (positional 10 (d :: ds) <? 2 ^ 31)) with true by lia. reflexivity.
  - inversion Hs; subst. cbn [app atoi]. rewrite H1. auto.
Qed.
Lemma pid_no_zero : ~ In 0 tracer_pid. Proof. vm_compute. intuition discriminate. Qed.
Lemma wr_pad (t : list Z) : (length t < 1024)%nat -> wr (t ++ repeat 0 (1024 - length t)) (len t) 0 = Ok (t ++ repeat 0 (1024 - length t)).
Proof.
  intros H. rewrite wr_ok by (unfold len; rewrite app_length, repeat_length; lia). f_equal. replace (1024 - length t)%nat with (S (1023 - length t)) by lia.
  cbn [repeat]. change (0 :: repeat 0 (1023 - length t)) with ([0] ++ repeat 0 (1023 - length t)). unfold blit.
  rewrite to_nat_len, firstn_app, firstn_all, Nat.sub_diag. cbn [firstn]. rewrite app_nil_r. f_equal. cbn [app]. f_equal.
  rewrite skipn_app, skipn_all2 by (cbn [length]; lia). replace (length t + length [0%Z] - length t)%nat with 1%nat by (cbn [length]; lia). reflexivity.
Qed.
Lemma attached_found pre sp pid num e post res0 :
  let text := pre ++ tracer_pid ++ sp ++ num ++ e :: post in
  len text <= 1024 -> ~ In 0 pre -> (forall a b r, pre = a ++ b -> b <> [] -> b ++ tracer_pid ++ sp ++ num ++ e :: post <> tracer_pid ++ r) ->
  Forall (fun c => is_space c = true) sp -> is_numeral 10 pid num -> pid < 2 ^ 31 -> ~ (48 <= e <= 57) ->
  is_debugger_attached (true, res0) (Some (Some text)) = Ok (negb (pid =? 0), (false, negb (pid =? 0))).
Proof.
  intros text HL H0 HF Hs Hn Hp He. unfold is_debugger_attached.
  assert (LP : 0 < len text) by (unfold text; rewrite !len_app; change (len tracer_pid) with 10; pose proof (len_nonneg pre); pose proof (len_nonneg (sp ++ num ++ e :: post)) as Q; rewrite !len_app in Q; lia).
  replace (0 <? len text) with true by lia.
  assert (W : (if len text <? 1024 then wr (text ++ repeat 0 (1024 - length text)) (len text) 0 else Ok (text ++ repeat 0 (1024 - length text))) = Ok (text ++ repeat 0 (1024 - length text))).
  { destruct (Z.ltb_spec (len text) 1024); auto. apply wr_pad. unfold len in *. lia. }
  rewrite W. cbn [bind]. set (pad := repeat 0 _).
  assert (T : text ++ pad = pre ++ tracer_pid ++ (sp ++ num ++ e :: post ++ pad)) by (unfold text; rewrite <- !app_assoc; reflexivity).
  rewrite T. rewrite strstr_found; [|discriminate|exact pid_no_zero|auto|].
  - cbn [bind]. rewrite skipn_app, Nat.sub_diag, skipn_all. cbn [app skipn]. rewrite (atoi_ok sp pid num e (post ++ pad)) by auto. reflexivity.
  - intros a b r Ea Hb E. apply (HF a b (firstn (length (b ++ tracer_pid ++ sp ++ num ++ e :: post) - length tracer_pid) r) Ea Hb).
    assert (LB : (length tracer_pid <= length (b ++ tracer_pid ++ sp ++ num ++ e :: post))%nat) by (rewrite !app_length; lia).
    assert (E' : (b ++ tracer_pid ++ sp ++ num ++ e :: post) ++ pad = tracer_pid ++ r) by (rewrite <- E, <- !app_assoc; reflexivity).
    apply (f_equal (firstn (length (b ++ tracer_pid ++ sp ++ num ++ e :: post)))) in E'.
    rewrite firstn_app, firstn_all, Nat.sub_diag in E'. cbn [firstn] in E'. rewrite app_nil_r in E'. rewrite E' at 1.
    rewrite firstn_app. f_equal. apply firstn_all2. exact LB.
Qed.
Lemma attached_none text res0 : len text < 1024 -> ~ In 0 text -> (forall a b, text <> a ++ tracer_pid ++ b) ->
  is_debugger_attached (true, res0) (Some (Some text)) = Ok (res0, (false, res0)).
Proof.
  intros HL H0 HF. unfold is_debugger_attached. destruct (Z.ltb_spec 0 (len text)); [|reflexivity]. replace (len text <? 1024) with true by lia.
  rewrite wr_pad by (unfold len in *; lia). cbn [bind]. replace (1024 - length text)%nat with (S (1023 - length text)) by (unfold len in *; lia).
  cbn [repeat]. rewrite strstr_none; [reflexivity|discriminate|exact pid_no_zero|auto|auto].
Qed.
Lemma attached_again r status : is_debugger_attached (false, r) status = Ok (r, (false, r)).
Proof. reflexivity. Qed.
