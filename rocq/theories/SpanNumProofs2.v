From Verif Require Import Base BaseLemmas ScanModel CharconvModel CharconvSpec SubstrModel SubstrSpec SubstrProofs SubstrProofs2 SubstrProofs3 SubstrProofs4 SpanNumModel SpanNumSpec SpanNumProofs.

Definition stopped (dig : Z -> bool) (y : list Z) : Prop := y = [] \/ exists c y', y = c :: y' /\ dig c = false.
Definition nonemp (d : list Z) : bool := negb (len d =? 0).
Lemma nonemp_cons c d : nonemp (c :: d) = true.
Proof. unfold nonemp. rewrite len_cons. pose proof (nonneg_len d). lia. Qed.
Lemma nonemp_spec d : nonemp d = true <-> d <> [].
Proof. destruct d as [|c d]; [split; [discriminate|congruence]|rewrite nonemp_cons; split; auto; discriminate]. Qed.

Lemma steps_cons (p : list Z) c x : steps (p ++ c :: x) (len p) = S (steps (p ++ c :: x) (len (p ++ [c]))).
Proof. unfold steps. pose proof (nonneg_len x). lens; lia. Qed.
Lemma steps_nil (p : list Z) : steps (p ++ []) (len p) = O.
Proof. unfold steps. lens; lia. Qed.
Lemma app_snoc (p : list Z) c x : p ++ c :: x = (p ++ [c]) ++ x.
Proof. rewrite <- app_assoc. reflexivity. Qed.

Section Loops.
Variables (dig isexp : Z -> bool).
Lemma int_loop_ok y (Hy : stopped dig y) d : forall p ic, small (p ++ d ++ y) -> Forall (fun c => dig c = true) d ->
  int_loop (steps (p ++ d ++ y) (len p)) (p ++ d ++ y) dig isexp (len p) ic = Ok
    (let ic' := ic || nonemp d in
     let q := len p + len d in
     match y with
     | [] => Ret (View 0 (if ic' then q else 0))
     | c :: _ => if c =? ch "." then GoFrac (q + 1) ic'
                 else if isexp c then GoPow (q + 1) ic'
                 else Ret (View 0 (if is_delim_char c && ic' then q else 0))
     end).
Proof.
  induction d as [|c d IH]; intros p ic Hs Hd; pose proof (nonneg_len p).
  - cbn [app]. change (nonemp []) with false. rewrite orb_false_r. change (len []) with 0. rewrite Z.add_0_r. cbv zeta.
    destruct y as [|c y].
    + rewrite steps_nil. cbn [int_loop]. cbn [app] in Hs. nas. rewrite app_nil_r in *.
      rewrite vfirst_ok; [reflexivity|destruct ic; lia|lia].
    + destruct Hy as [Hy|(c' & y' & Hy & Hc)]; [discriminate|]. injection Hy as <- <-.
      rewrite steps_cons. cbn [int_loop]. rewrite rd_mid. cbn [bind]. rewrite Hc.
      destruct (c =? ch "."); [reflexivity|]. destruct (isexp c); [reflexivity|].
      cbn [app] in Hs. nas. pose proof (nonneg_len y). rewrite len_app, len_cons in *.
      destruct (is_delim_char c); cbn [andb]; (rewrite vfirst_ok; [reflexivity|try destruct ic; lia|lia]).
  - change (p ++ (c :: d) ++ y) with (p ++ c :: d ++ y). rewrite steps_cons. cbn [int_loop].
    rewrite rd_mid. cbn [bind]. rewrite (Forall_inv Hd).
    rewrite app_snoc. replace (len p + 1) with (len (p ++ [c])) by (lens; lia).
    rewrite IH; [|rewrite <- app_snoc; exact Hs|exact (Forall_inv_tail Hd)].
    rewrite nonemp_cons, !orb_true_r. cbn [orb]. rewrite ?orb_true_r. cbv zeta. replace (len (p ++ [c]) + len d) with (len p + len (c :: d)) by (lens; lia).
    reflexivity.
Qed.
Lemma frac_loop_ok ic y (Hy : stopped dig y) d : forall p fc, small (p ++ d ++ y) -> Forall (fun c => dig c = true) d ->
  frac_loop (steps (p ++ d ++ y) (len p)) (p ++ d ++ y) dig isexp (len p) ic fc = Ok
    (let ic' := ic || (fc || nonemp d) in
     let q := len p + len d in
     match y with
     | [] => Ret (View 0 (if ic' then q else 0))
     | c :: _ => if isexp c then GoPow (q + 1) ic'
                 else Ret (View 0 (if is_delim_char c && ic' then q else 0))
     end).
Proof.
  induction d as [|c d IH]; intros p fc Hs Hd; pose proof (nonneg_len p).
  - cbn [app]. change (nonemp []) with false. rewrite orb_false_r. change (len []) with 0. rewrite Z.add_0_r. cbv zeta.
    destruct y as [|c y].
    + rewrite steps_nil. cbn [frac_loop]. cbn [app] in Hs. nas. rewrite app_nil_r in *.
      rewrite vfirst_ok; [reflexivity|destruct (ic || fc); lia|lia].
    + destruct Hy as [Hy|(c' & y' & Hy & Hc)]; [discriminate|]. injection Hy as <- <-.
      rewrite steps_cons. cbn [frac_loop]. rewrite rd_mid. cbn [bind]. rewrite Hc.
      destruct (isexp c); [reflexivity|].
      cbn [app] in Hs. nas. pose proof (nonneg_len y). rewrite len_app, len_cons in *.
      destruct (is_delim_char c); cbn [andb]; (rewrite vfirst_ok; [reflexivity|try destruct (ic || fc); lia|lia]).
  - change (p ++ (c :: d) ++ y) with (p ++ c :: d ++ y). rewrite steps_cons. cbn [frac_loop].
    rewrite rd_mid. cbn [bind]. rewrite (Forall_inv Hd).
    rewrite app_snoc. replace (len p + 1) with (len (p ++ [c])) by (lens; lia).
    rewrite IH; [|rewrite <- app_snoc; exact Hs|exact (Forall_inv_tail Hd)].
    rewrite nonemp_cons, !orb_true_r. cbn [orb]. rewrite ?orb_true_r. cbv zeta. replace (len (p ++ [c]) + len d) with (len p + len (c :: d)) by (lens; lia).
    reflexivity.
Qed.
Lemma pow_loop_ok check y (Hy : stopped is_dec_char y) d : forall p pc, small (p ++ d ++ y) -> Forall (fun c => is_dec_char c = true) d ->
  pow_loop (steps (p ++ d ++ y) (len p)) (p ++ d ++ y) (len p) pc check = Ok
    (let pc' := pc || nonemp d in
     let q := len p + len d in
     match y with
     | [] => View 0 (if negb check || pc' then q else 0)
     | c :: _ => View 0 (if pc' && is_delim_char c then q else 0)
     end).
Proof.
  induction d as [|c d IH]; intros p pc Hs Hd; pose proof (nonneg_len p).
  - cbn [app]. change (nonemp []) with false. rewrite orb_false_r. change (len []) with 0. rewrite Z.add_0_r. cbv zeta.
    destruct y as [|c y].
    + rewrite steps_nil. cbn [pow_loop]. cbn [app] in Hs. nas. rewrite app_nil_r in *.
      rewrite vfirst_ok; [reflexivity|destruct (negb check || pc); lia|lia].
    + destruct Hy as [Hy|(c' & y' & Hy & Hc)]; [discriminate|]. injection Hy as <- <-.
      rewrite steps_cons. cbn [pow_loop]. rewrite rd_mid. cbn [bind]. rewrite Hc.
      cbn [app] in Hs. nas. pose proof (nonneg_len y). rewrite len_app, len_cons in *.
      destruct (pc && is_delim_char c); (rewrite vfirst_ok; [reflexivity|lia|lia]).
  - change (p ++ (c :: d) ++ y) with (p ++ c :: d ++ y). rewrite steps_cons. cbn [pow_loop].
    rewrite rd_mid. cbn [bind]. rewrite (Forall_inv Hd).
    rewrite app_snoc. replace (len p + 1) with (len (p ++ [c])) by (lens; lia).
    rewrite IH; [|rewrite <- app_snoc; exact Hs|exact (Forall_inv_tail Hd)].
    rewrite nonemp_cons, !orb_true_r. cbn [orb]. rewrite ?orb_true_r. cbv zeta. replace (len (p ++ [c]) + len d) with (len p + len (c :: d)) by (lens; lia).
    reflexivity.
Qed.
End Loops.

Lemma ended_stopped b dig r : cls b dig -> b <= 36 -> ended r -> stopped dig r.
Proof.
  intros K Hb [->|(c & r' & -> & D)]; [left; auto|right]. exists c, r'. split; auto.
  eapply delim_not_dig; eauto. apply delim_byte; auto.
Qed.
Lemma sign_not_dec c : c = ch "+" \/ c = ch "-" -> is_dec_char c = false.
Proof. intros [-> | ->]; reflexivity. Qed.
Lemma dec_not_sign c : is_dec_char c = true -> (c =? ch "-") || (c =? ch "+") = false.
Proof.
  intros H. destruct (Z.eqb_spec c (ch "-")) as [-> |]; [discriminate|].
  destruct (Z.eqb_spec c (ch "+")) as [-> |]; [discriminate|]. reflexivity.
Qed.

Section Pow.
Variables (isexp : Z -> bool) (optsign : bool).
Definition sgn_ok (sg : list Z) : Prop := sg = s2z "+" \/ sg = s2z "-" \/ optsign = true /\ sg = [].

(** the power part after a sign *)
Lemma pow_tail_hit (p d r : list Z) check : small (p ++ d ++ r) -> bytes d -> d <> [] -> Forall (digit_of 10) d -> ended r ->
  pow_loop (steps (p ++ d ++ r) (len p)) (p ++ d ++ r) (len p) false check = Ok (View 0 (len p + len d)).
Proof.
  intros Hs Bd Nd Hd He. rewrite pow_loop_ok; auto.
  - cbn [orb]. rewrite (proj2 (nonemp_spec d) Nd). cbv zeta. destruct r as [|c r]; [rewrite orb_true_r; reflexivity|].
    destruct He as [He|(c' & r' & He & D)]; [discriminate|]. injection He as <- <-.
    apply is_delim_spec in D. rewrite D. reflexivity.
  - eapply ended_stopped; eauto using cls_dec. lia.
  - apply (digits_iff 10); auto using cls_dec.
Qed.
Lemma pow_tail_any (p x : list Z) check : small (p ++ x) -> bytes x -> (check = false -> x <> []) ->
  exists n, pow_loop (steps (p ++ x) (len p)) (p ++ x) (len p) false check = Ok (View 0 n) /\
   (n = 0 \/ exists d r, x = d ++ r /\ ended r /\ d <> [] /\ Forall (digit_of 10) d /\ n = len p + len d).
Proof.
  intros Hs Bx Hx. destruct (class_split is_dec_char x) as (d & y & -> & Hd & Hy).
  rewrite pow_loop_ok; auto. cbn [orb]. cbv zeta.
  apply bytes_app in Bx as [Bd _]. pose proof (proj1 (digits_iff 10 _ d cls_dec Bd) Hd) as Hd'.
  destruct y as [|c y].
  - eexists; split; [reflexivity|]. destruct (negb check || nonemp d) eqn:E; auto. right. exists d, []. split; auto. split; [left; auto|].
    split; auto. rewrite app_nil_r in *. destruct check; [apply nonemp_spec, E|auto].
  - eexists; split; [reflexivity|]. destruct (nonemp d && is_delim_char c) eqn:E; auto. right. apply andb_true_iff in E as [E1 E2].
    exists d, (c :: y). split; auto. split; [right; exists c, y; split; auto; apply is_delim_spec; auto|].
    split; auto. apply nonemp_spec; auto.
Qed.

Lemma pow_part_hit (p sg d r : list Z) e : small (p ++ e :: sg ++ d ++ r) -> bytes d -> isexp e = true -> sgn_ok sg ->
  d <> [] -> Forall (digit_of 10) d -> ended r ->
  pow_part (p ++ e :: sg ++ d ++ r) isexp optsign (len p + 1) true = Ok (View 0 (len p + 1 + len sg + len d)).
Proof.
  intros Hs Bd Ee Hsg Nd Hd He. pose proof Hs as Hs'. nas. pose proof (nonneg_len p). pose proof (nonneg_len sg).
  pose proof (nonneg_len d). pose proof (nonneg_len r).
  set (s := p ++ e :: sg ++ d ++ r) in *. assert (Ls : len s = len p + 1 + len sg + len d + len r) by (unfold s; lens; lia).
  assert (Ld : 1 <= len d). { destruct d; [congruence|]. rewrite len_cons. pose proof (nonneg_len d). lia. }
  unfold pow_part, assert. replace (0 <? len p + 1) with true by lia.
  replace (len p + 1 - 1) with (len p) by lia. unfold s at 1. rewrite rd_mid. cbn [bind]. rewrite Ee.
  assert (T : forall check, pow_loop (steps s (len p + 1 + len sg)) s (len p + 1 + len sg) false check = Ok (View 0 (len p + 1 + len sg + len d))).
  { intros check. unfold s. rewrite app_snoc, (app_assoc (p ++ [e])).
    replace (len p + 1 + len sg) with (len ((p ++ [e]) ++ sg)) by (lens; lia). apply pow_tail_hit; auto.
    rewrite <- app_assoc, <- app_snoc. exact Hs'. }
  assert (R : forall c sg', sg = c :: sg' -> rd s (len p + 1) = Ok c).
  { intros c sg' ->. unfold s. rewrite app_snoc. cbn [app]. replace (len p + 1) with (len (p ++ [e])) by (lens; lia). apply rd_mid. }
  destruct optsign eqn:EO.
  - replace (len s =? len p + 1) with false by lia. cbn [orb negb].
    destruct Hsg as [-> |[-> |[_ ->]]].
    + rewrite (R (ch "+") []) by reflexivity. cbn [bind]. replace (_ || _) with true by reflexivity.
      apply (T true).
    + rewrite (R (ch "-") []) by reflexivity. cbn [bind]. replace (_ || _) with true by reflexivity.
      apply (T true).
    + change (len []) with 0 in *. rewrite !Z.add_0_r in *. destruct d as [|c d]; [congruence|].
      assert (RR : rd s (len p + 1) = Ok c).
      { unfold s. rewrite app_snoc. cbn [app]. replace (len p + 1) with (len (p ++ [e])) by (lens; lia). apply rd_mid. }
      rewrite RR. cbn [bind]. rewrite dec_not_sign; [apply (T true)|]. apply cls_dec; [apply Forall_inv in Bd; auto|apply Forall_inv in Hd; auto].
  - destruct Hsg as [-> |[-> |[X _]]]; [| |congruence].
    + change (len (s2z "+")) with 1 in *. replace (len s <=? len p + 1 + 1) with false by lia.
      rewrite (R (ch "+") []) by reflexivity. cbn [bind negb orb]. replace (_ && _) with false by reflexivity. cbn [orb].
      apply (T false).
    + change (len (s2z "-")) with 1 in *. replace (len s <=? len p + 1 + 1) with false by lia.
      rewrite (R (ch "-") []) by reflexivity. cbn [bind negb orb]. replace (_ && _) with false by reflexivity. cbn [orb].
      apply (T false).
Qed.

Lemma pow_part_any (p x : list Z) e digits : small (p ++ e :: x) -> bytes x -> isexp e = true ->
  exists n, pow_part (p ++ e :: x) isexp optsign (len p + 1) digits = Ok (View 0 n) /\
   (n = 0 \/ digits = true /\ exists sg d r, x = sg ++ d ++ r /\ ended r /\ sgn_ok sg /\ d <> [] /\ Forall (digit_of 10) d /\ n = len p + 1 + len sg + len d).
Proof.
  intros Hs Bx Ee. pose proof Hs as Hs'. nas. pose proof (nonneg_len p). pose proof (nonneg_len x).
  set (s := p ++ e :: x) in *. assert (Ls : len s = len p + 1 + len x) by (unfold s; lens; lia).
  unfold pow_part, assert. replace (0 <? len p + 1) with true by lia.
  replace (len p + 1 - 1) with (len p) by lia. unfold s at 1. rewrite rd_mid. cbn [bind]. rewrite Ee.
  assert (Z0 : vfirst (len s) 0 = Ok (View 0 0)) by (apply vfirst_ok; lia).
  destruct x as [|c x].
  { change (len []) with 0 in *. destruct optsign.
    - replace (len s =? len p + 1) with true by lia. exists 0. auto.
    - replace (len s <=? len p + 1 + 1) with true by lia. exists 0. auto. }
  rewrite len_cons in *. assert (R : rd s (len p + 1) = Ok c).
  { unfold s. rewrite app_snoc. replace (len p + 1) with (len (p ++ [e])) by (lens; lia). apply rd_mid. }
  assert (B2 : bytes x) by (apply Forall_inv_tail in Bx; auto).
  destruct optsign eqn:EO.
  - replace (len s =? len p + 1) with false by (pose proof (nonneg_len x); lia). destruct digits; cbn [orb negb]; [|exists 0; auto].
    rewrite R. cbn [bind]. destruct ((c =? ch "-") || (c =? ch "+")) eqn:EC.
    + unfold s. destruct (pow_tail_any ((p ++ [e]) ++ [c]) x true) as (n & E & HE); auto; [|discriminate|].
      { rewrite <- !app_snoc. exact Hs'. }
      replace (len ((p ++ [e]) ++ [c])) with (len p + 1 + 1) in * by (lens; lia). rewrite <- !app_snoc in E.
      exists n. split; [exact E|]. destruct HE as [->|(d & r & -> & E2 & E3 & E4 & E5)]; auto. right. split; auto.
      exists [c], d, r. split; auto. split; auto. split; [unfold sgn_ok; destruct (Z.eqb_spec c (ch "-")) as [-> |]; auto; assert (c = ch "+") as -> by lia; auto|].
      split; auto. 
    + unfold s. destruct (pow_tail_any (p ++ [e]) (c :: x) true) as (n & E & HE); auto; [|discriminate|].
      { rewrite <- !app_snoc. exact Hs'. }
      replace (len (p ++ [e])) with (len p + 1) in * by (lens; lia). rewrite <- !app_snoc in E.
      exists n. split; [exact E|]. destruct HE as [->|(d & r & -> & E2 & E3 & E4 & E5)]; auto. right. split; auto.
      exists [], d, r. split; auto. split; auto. split; [right; right; auto|]. split; auto. split; auto. rewrite E5. change (len []) with 0. lia.
  - destruct (Z.leb_spec (len s) (len p + 1 + 1)); [exists 0; auto|]. rewrite R. cbn [bind].
    destruct digits; [rewrite orb_false_r|rewrite orb_true_r; exists 0; auto].
    destruct (negb (c =? ch "+") && negb (c =? ch "-")) eqn:EC; [exists 0; auto|].
    unfold s. destruct (pow_tail_any ((p ++ [e]) ++ [c]) x false) as (n & E & HE); auto.
    { rewrite <- !app_snoc. exact Hs'. }
    { intros _ ->. change (len []) with 0 in *. lia. }
    replace (len ((p ++ [e]) ++ [c])) with (len p + 1 + 1) in * by (lens; lia). rewrite <- !app_snoc in E.
    exists n. split; [exact E|]. destruct HE as [->|(d & r & -> & E2 & E3 & E4 & E5)]; auto. right. split; auto.
    exists [c], d, r. split; auto. split; auto. split; [unfold sgn_ok; destruct (Z.eqb_spec c (ch "-")) as [-> |]; auto; assert (c = ch "+") as -> by lia; auto|].
    split; auto.
Qed.
End Pow.

Section Real.
Variables (b : Z) (dig isexp : Z -> bool) (optsign : bool) (letters : list Z).
Hypothesis K : cls b dig.
Hypothesis Hb : b <= 36.
Hypothesis Kexp : forall c, isexp c = true <-> In c letters.
Hypothesis Kexp_dig : forall c, is_byte c -> isexp c = true -> dig c = false.
Hypothesis Kexp_delim : forall c, isexp c = true -> is_delim_char c = false /\ c <> ch ".".

Lemma dot_not_dig : dig (ch ".") = false.
Proof.
  destruct (dig (ch ".")) eqn:E; auto. apply K in E; [|unfold is_byte, ch; cbn; lia]. apply digit_char_range in E; [|exact Hb].
  unfold ch in E; cbn in E. lia.
Qed.

Definition rnum (u : list Z) : Prop := exists m x, u = m ++ x /\ mantissa b m /\ exponent letters optsign x.

(** what follows the mantissa: exponent and rest *)
Lemma exp_rest_stopped x r : exponent letters optsign x -> ended r -> bytes x -> stopped dig (x ++ r).
Proof.
  intros Hx He Bx. destruct Hx as [|e sg d H1 H2 H3 H4]; [eapply ended_stopped; eauto|].
  right. exists e, ((sg ++ d) ++ r). split; auto. apply Kexp_dig; [apply Forall_inv in Bx; auto|apply Kexp; auto].
Qed.

(** the code at the end of a mantissa *)
Lemma after_mantissa (p m x r : list Z) : small (p ++ m ++ x ++ r) -> exponent letters optsign x -> ended r -> bytes (x ++ r) ->
  match x ++ r with
  | [] => True
  | c :: _ => c <> ch "." /\ (isexp c = true -> pow_part (p ++ m ++ x ++ r) isexp optsign (len p + len m + 1) true = Ok (View 0 (len p + len m + len x))) /\
     (isexp c = false -> is_delim_char c = true /\ x = [])
  end.
Proof.
  intros Hs Hx He Bx. destruct Hx as [|e sg d H1 H2 H3 H4].
  - cbn [app]. destruct He as [->|(c & r' & -> & D)]; auto. apply is_delim_spec in D. split.
    { intros ->. discriminate D. }
    split; auto. intros X. apply Kexp_delim in X as [X _]. rewrite X in D. discriminate.
  - cbn [app]. apply Kexp in H1. split; [apply Kexp_delim; auto|]. split; [|rewrite H1; discriminate]. intros _.
    rewrite app_assoc. rewrite <- (app_assoc sg). replace (len p + len m) with (len (p ++ m)) by (lens; lia).
    rewrite pow_part_hit; auto.
    + do 2 f_equal. lens; lia.
    + rewrite <- app_assoc. cbn [app] in Hs; rewrite <- (app_assoc sg) in Hs. exact Hs.
    + apply bytes_app in Bx as [Bx _]. apply Forall_inv_tail in Bx. apply Forall_app in Bx as [_ Bx]. exact Bx.
Qed.

Lemma real_hit (p u r : list Z) : small (p ++ u ++ r) -> bytes (p ++ u ++ r) -> ended r -> rnum u ->
  first_real_span_base (p ++ u ++ r) dig isexp optsign (len p) = Ok (View 0 (len p + len u)).
Proof.
  intros Hs By He (m & x & -> & Hm & Hx). apply bytes_app in By as [Bp By]. apply bytes_app in By as [By Br].
  apply bytes_app in By as [Bm Bx]. pose proof (exp_rest_stopped x r Hx He Bx) as St.
  assert (Bxr : bytes (x ++ r)) by (apply bytes_app; auto).
  rewrite <- (app_assoc m) in *. unfold first_real_span_base.
  pose proof (after_mantissa p m x r Hs Hx He Bxr) as AM.
  destruct Hm as [d Nd Hd|d f Nd Hd Hf].
  - rewrite int_loop_ok; auto; [|apply (digits_iff b); auto]. cbn [bind orb]. rewrite (proj2 (nonemp_spec d) Nd). cbv zeta.
    rewrite len_app. rewrite !Z.add_assoc.
    destruct (x ++ r) as [|c y] eqn:EX.
    + apply app_eq_nil in EX as [-> ->]. change (len []) with 0. rewrite !Z.add_0_r. reflexivity.
    + destruct AM as (A1 & A2 & A3). replace (c =? ch ".") with false by lia.
      destruct (isexp c); [apply A2; auto|]. destruct A3 as [A3 ->]; auto. rewrite A3. change (len []) with 0. rewrite !Z.add_0_r. reflexivity.
  - apply bytes_app in Bm as [Bd Bf]. apply Forall_inv_tail in Bf.
    rewrite <- (app_assoc d) in *. rewrite int_loop_ok; auto; [|right; exists (ch "."), (f ++ x ++ r); split; auto using dot_not_dig|apply (digits_iff b); auto].
    cbv zeta. change (((ch "." :: f) ++ x ++ r)) with (ch "." :: f ++ x ++ r) in *. cbv iota; replace (ch "." =? ch ".") with true by reflexivity. cbn [bind orb].
    unfold frac_part, assert. pose proof (nonneg_len p). pose proof (nonneg_len d). replace (0 <? len p + len d + 1) with true by lia.
    replace (len p + len d + 1 - 1) with (len (p ++ d)) by (lens; lia).
    assert (R : rd (p ++ d ++ ch "." :: f ++ x ++ r) (len (p ++ d)) = Ok (ch ".")) by (rewrite (app_assoc p); apply rd_mid).
    rewrite R. cbn [bind]. rewrite Z.eqb_refl.
    assert (EQ : p ++ d ++ ch "." :: f ++ x ++ r = ((p ++ d) ++ [ch "."]) ++ f ++ x ++ r) by (rewrite (app_assoc p), app_snoc; reflexivity).
    assert (FL : frac_loop (steps (p ++ d ++ ch "." :: f ++ x ++ r) (len p + len d + 1)) (p ++ d ++ ch "." :: f ++ x ++ r) dig isexp (len p + len d + 1) (nonemp d) false
      = Ok (match x ++ r with [] => Ret (View 0 (len p + len d + 1 + len f))
        | c :: _ => if isexp c then GoPow (len p + len d + 1 + len f + 1) true else Ret (View 0 (if is_delim_char c then len p + len d + 1 + len f else 0)) end)).
    { rewrite EQ in *. replace (len p + len d + 1) with (len ((p ++ d) ++ [ch "."])) by (lens; lia).
      rewrite frac_loop_ok; auto; [|apply (digits_iff b); auto]. cbv zeta. cbn [orb].
      assert (ND : nonemp d || nonemp f = true).
      { destruct d; [|rewrite nonemp_cons; auto]. destruct f; [exfalso; apply Nd; reflexivity|]. rewrite nonemp_cons. apply orb_true_r. }
      rewrite ND. destruct (x ++ r); [reflexivity|]. rewrite andb_true_r. reflexivity. }
    rewrite FL. cbn [bind].
    replace (len (d ++ ch "." :: f)) with (len d + 1 + len f) in AM by (lens; lia).
    replace (len ((d ++ ch "." :: f) ++ x)) with (len d + 1 + len f + len x) by (lens; lia).
    rewrite !Z.add_assoc in *.
    destruct (x ++ r) as [|c y] eqn:EX.
    + apply app_eq_nil in EX as [-> ->]. change (len []) with 0. rewrite !Z.add_0_r. reflexivity.
    + destruct AM as (A1 & A2 & A3). destruct (isexp c); [apply A2; auto|]. destruct A3 as [A3 ->]; auto. rewrite A3. change (len []) with 0. rewrite !Z.add_0_r. reflexivity.
Qed.

Lemma exp_build e sg d : isexp e = true -> sgn_ok optsign sg -> d <> [] -> Forall (digit_of 10) d -> exponent letters optsign (e :: sg ++ d).
Proof. intros H1 H2 H3 H4. constructor; auto. apply Kexp; auto. Qed.

Lemma real_any (p x : list Z) : small (p ++ x) -> bytes (p ++ x) ->
  exists n, first_real_span_base (p ++ x) dig isexp optsign (len p) = Ok (View 0 n) /\
    (n = 0 \/ exists u r, x = u ++ r /\ ended r /\ rnum u /\ n = len p + len u).
Proof.
  intros Hs By. apply bytes_app in By as [_ By].
  destruct (class_split dig x) as (d & y & -> & Hd & Hy).
  apply bytes_app in By as [Bd By]. pose proof (proj1 (digits_iff b _ d K Bd) Hd) as Hd'.
  unfold first_real_span_base. rewrite int_loop_ok; auto. cbv zeta. cbn [orb].
  destruct y as [|c y]; cbn [bind].
  { eexists; split; [reflexivity|]. destruct (nonemp d) eqn:E; auto. apply nonemp_spec in E. right. exists d, []. split; auto.
    split; [left; auto|]. split; auto. exists d, []. rewrite app_nil_r. repeat constructor; auto. }
  destruct Hy as [Hy|(c' & y' & Hy & Hc)]; [discriminate|]. injection Hy as <- <-.
  destruct (Z.eqb_spec c (ch ".")) as [-> | Nc].
  - cbn [bind]. unfold frac_part, assert. pose proof (nonneg_len p). pose proof (nonneg_len d). replace (0 <? len p + len d + 1) with true by lia.
    replace (len p + len d + 1 - 1) with (len (p ++ d)) by (lens; lia).
    assert (R : rd (p ++ d ++ ch "." :: y) (len (p ++ d)) = Ok (ch ".")) by (rewrite (app_assoc p); apply rd_mid).
    rewrite R. cbn [bind]. rewrite Z.eqb_refl.
    apply Forall_inv_tail in By.
    destruct (class_split dig y) as (f & z & -> & Hf & Hz). apply bytes_app in By as [Bf Bz]. pose proof (proj1 (digits_iff b _ f K Bf) Hf) as Hf'.
    assert (EQ : p ++ d ++ ch "." :: f ++ z = ((p ++ d) ++ [ch "."]) ++ f ++ z) by (rewrite (app_assoc p), app_snoc; reflexivity).
    rewrite EQ in *. replace (len p + len d + 1) with (len ((p ++ d) ++ [ch "."])) by (lens; lia).
    rewrite frac_loop_ok; auto. cbv zeta. cbn [orb].
    assert (ND : nonemp d || nonemp f = true -> mantissa b (d ++ ch "." :: f)).
    { intros X. apply man_frac; auto. intros Y. apply app_eq_nil in Y as [-> ->]. discriminate. }
    destruct z as [|c z]; cbn [bind].
    { eexists; split; [reflexivity|]. destruct (nonemp d || nonemp f) eqn:E; auto. right. exists (d ++ ch "." :: f), []. rewrite !app_nil_r.
      split; auto. split; [left; auto|]. split; [|lens; lia]. exists (d ++ ch "." :: f), []. rewrite !app_nil_r. split; auto. split; [apply ND; auto|constructor]. }
    destruct (isexp c) eqn:Ec; cbn [bind].
    + destruct (pow_part_any isexp optsign (((p ++ d) ++ [ch "."]) ++ f) z c (nonemp d || nonemp f)) as (n & E & HE); auto.
      { rewrite <- app_assoc. exact Hs. }
      { apply Forall_inv_tail in Bz; auto. }
      rewrite <- app_assoc in E. replace (len (((p ++ d) ++ [ch "."]) ++ f)) with (len ((p ++ d) ++ [ch "."]) + len f) in * by (lens; lia).
      exists n. split; [exact E|]. destruct HE as [->|(Ed & sg & e & r & -> & E2 & E3 & E4 & E5 & E6)]; auto. right.
      exists ((d ++ ch "." :: f) ++ c :: sg ++ e), r. split; [rewrite <- !app_assoc; cbn [app]; rewrite <- !app_assoc; reflexivity|].
      split; auto. split; [|rewrite E6; lens; lia]. exists (d ++ ch "." :: f), (c :: sg ++ e). split; auto. split; auto. apply exp_build; auto.
    + eexists; split; [reflexivity|]. destruct (is_delim_char c && (nonemp d || nonemp f)) eqn:E; auto. right.
      apply andb_true_iff in E as [E1 E2]. exists (d ++ ch "." :: f), (c :: z). split; [rewrite <- app_assoc; reflexivity|].
      split; [right; exists c, z; split; auto; apply is_delim_spec; auto|]. split; [|lens; lia].
      exists (d ++ ch "." :: f), []. rewrite app_nil_r. split; auto. split; auto. constructor.
  - destruct (isexp c) eqn:Ec; cbn [bind].
    + destruct (pow_part_any isexp optsign (p ++ d) y c (nonemp d)) as (n & E & HE); auto.
      { rewrite <- app_assoc. exact Hs. }
      { apply Forall_inv_tail in By; auto. }
      rewrite <- app_assoc in E. replace (len (p ++ d)) with (len p + len d) in * by (lens; lia).
      exists n. split; [exact E|]. destruct HE as [->|(Ed & sg & e & r & -> & E2 & E3 & E4 & E5 & E6)]; auto. right.
      exists (d ++ c :: sg ++ e), r. split; [rewrite <- !app_assoc; cbn [app]; rewrite <- !app_assoc; reflexivity|].
      split; auto. split; [|rewrite E6; lens; lia]. exists d, (c :: sg ++ e). split; auto. split; [constructor; auto; apply nonemp_spec; auto|]. apply exp_build; auto.
    + eexists; split; [reflexivity|]. destruct (is_delim_char c && nonemp d) eqn:E; auto. right.
      apply andb_true_iff in E as [E1 E2]. exists d, (c :: y). split; auto.
      split; [right; exists c, y; split; auto; apply is_delim_spec; auto|]. split; [|lens; lia].
      exists d, []. rewrite app_nil_r. split; auto. split; [constructor; auto; apply nonemp_spec; auto|]. constructor.
Qed.
End Real.

Lemma is_e_in c : is_e c = true <-> In c (s2z "eE").
Proof. unfold is_e, ch; cbn. lia. Qed.
Lemma is_p_in c : is_p c = true <-> In c (s2z "pP").
Proof. unfold is_p, ch; cbn. lia. Qed.
Lemma is_e_dec c : is_byte c -> is_e c = true -> is_dec_char c = false.
Proof. intros _ H. unfold is_e in H. assert (c = ch "e" \/ c = ch "E") as [-> | ->] by lia; reflexivity. Qed.
Lemma is_p_cls c : is_p c = true -> is_hex_char c = false /\ is_bin_char c = false /\ is_oct_char c = false /\ is_delim_char c = false /\ c <> ch ".".
Proof. intros H. unfold is_p in H. assert (c = ch "p" \/ c = ch "P") as [-> | ->] by lia; repeat split; discriminate. Qed.
Lemma is_e_delim c : is_e c = true -> is_delim_char c = false /\ c <> ch ".".
Proof. intros H. unfold is_e in H. assert (c = ch "e" \/ c = ch "E") as [-> | ->] by lia; repeat split; discriminate. Qed.

Lemma real_dec_hit (p u r : list Z) : small (p ++ u ++ r) -> bytes (p ++ u ++ r) -> ended r -> rnum 10 true (s2z "eE") u ->
  first_real_span_dec (p ++ u ++ r) (len p) = Ok (View 0 (len p + len u)).
Proof. intros. eapply real_hit; eauto using cls_dec, is_e_in, is_e_dec, is_e_delim; lia. Qed.
Lemma real_dec_any (p x : list Z) : small (p ++ x) -> bytes (p ++ x) ->
  exists n, first_real_span_dec (p ++ x) (len p) = Ok (View 0 n) /\
    (n = 0 \/ exists u r, x = u ++ r /\ ended r /\ rnum 10 true (s2z "eE") u /\ n = len p + len u).
Proof. intros. eapply real_any; eauto using cls_dec, is_e_in, is_e_dec, is_e_delim; lia. Qed.
Lemma real_p_hit b dig (p u r : list Z) : (b = 16 /\ dig = is_hex_char \/ b = 2 /\ dig = is_bin_char \/ b = 8 /\ dig = is_oct_char) ->
  small (p ++ u ++ r) -> bytes (p ++ u ++ r) -> ended r -> rnum b false (s2z "pP") u ->
  first_real_span_base (p ++ u ++ r) dig is_p false (len p) = Ok (View 0 (len p + len u)).
Proof.
  intros HB ? ? ? ?. assert (Q : cls b dig /\ b <= 36 /\ forall c, is_p c = true -> dig c = false).
  { destruct HB as [[-> ->]|[[-> ->]|[-> ->]]]; (split; [auto using cls_hex, cls_bin, cls_oct|split; [lia|intros c Hc; apply is_p_cls in Hc; tauto]]). }
  destruct Q as (Q1 & Q2 & Q3). eapply real_hit; eauto using is_p_in. intros c Hc. apply is_p_cls in Hc. tauto.
Qed.
Lemma real_p_any b dig (p x : list Z) : (b = 16 /\ dig = is_hex_char \/ b = 2 /\ dig = is_bin_char \/ b = 8 /\ dig = is_oct_char) ->
  small (p ++ x) -> bytes (p ++ x) ->
  exists n, first_real_span_base (p ++ x) dig is_p false (len p) = Ok (View 0 n) /\
    (n = 0 \/ exists u r, x = u ++ r /\ ended r /\ rnum b false (s2z "pP") u /\ n = len p + len u).
Proof.
  intros HB ? ?. assert (Q : cls b dig /\ b <= 36 /\ forall c, is_p c = true -> dig c = false).
  { destruct HB as [[-> ->]|[[-> ->]|[-> ->]]]; (split; [auto using cls_hex, cls_bin, cls_oct|split; [lia|intros c Hc; apply is_p_cls in Hc; tauto]]). }
  destruct Q as (Q1 & Q2 & Q3). eapply real_any; eauto using is_p_in. intros c Hc. apply is_p_cls in Hc. tauto.
Qed.
