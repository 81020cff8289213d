From Verif Require Import Base BaseLemmas ScanModel CharconvModel CharconvSpec SubstrModel SubstrSpec SubstrProofs SubstrProofs2 SubstrProofs3 SubstrProofs4 SpanNumModel SpanNumSpec.

Lemma ws_blank c : In c ws_chars <-> blank c. Proof. reflexivity. Qed.
Lemma is_delim_spec c : is_delim_char c = true <-> delim c.
Proof. unfold is_delim_char, delim. cbn. unfold ch; cbn. lia. Qed.
Lemma blank_delim c : blank c -> delim c.
Proof. unfold blank, delim. cbn. lia. Qed.

Lemma class_split (p : Z -> bool) (l : list Z) : exists d y, l = d ++ y /\ Forall (fun c => p c = true) d /\
  (y = [] \/ exists c y', y = c :: y' /\ p c = false).
Proof.
  induction l as [|c l (d & y & -> & Hd & Hy)].
  - exists [], []. auto.
  - destruct (p c) eqn:E.
    + exists (c :: d), y. auto.
    + exists [], (c :: d ++ y). split; auto. split; auto. right; eauto.
Qed.

Lemma vfirst_ok n k : 0 <= k <= n -> n < 2 ^ 63 -> vfirst n k = Ok (View 0 k).
Proof.
  intros. unfold vfirst, assert. rewrite npos_big. replace (k <=? n) with true by lia.
  replace (k =? 2 ^ 64 - 1) with false by lia. reflexivity.
Qed.
Lemma vfirst_npos n : n < 2 ^ 63 -> vfirst n npos = Ok (View 0 n).
Proof. intros. unfold vfirst, assert. rewrite Z.eqb_refl, orb_true_r. reflexivity. Qed.

(** splitting off the leading blanks and the first word *)
Lemma blank_dec c : {blank c} + {~ blank c}.
Proof. apply in_dec, Z.eq_dec. Qed.
Lemma word_split (s : list Z) : exists a w b, s = a ++ w ++ b /\ Forall blank a /\ Forall (fun c => ~ blank c) w /\
    (b = [] \/ exists c b', b = c :: b' /\ blank c) /\ (w = [] -> b = []).
Proof.
  destruct (class_split (fun c => mem c ws_chars) s) as (a & x & -> & Ha & Hx).
  destruct (class_split (fun c => negb (mem c ws_chars)) x) as (w & b & -> & Hw & Hb).
  exists a, w, b. split; auto. split.
  { eapply Forall_impl; [|apply Ha]. cbv beta; intros c H. apply mem_in in H. exact H. }
  split. { eapply Forall_impl; [|apply Hw]. cbv beta; intros c H B. apply mem_in in B. unfold ws_chars in H. rewrite B in H. discriminate. }
  split. { destruct Hb as [->|(c & b' & -> & H)]; auto. right. exists c, b'. split; auto.
    apply negb_false_iff, mem_in in H. exact H. }
  intros ->. destruct Hx as [H|(c & y & H & E)]; auto. cbn in H. subst b.
  destruct Hb as [H|(c' & b' & H & E')]; [discriminate|]. injection H as <- <-. rewrite E in E'. discriminate.
Qed.

Lemma first_in_app (P : Z -> Prop) (a : list Z) c r : Forall (fun x => ~ P x) a -> P c ->
  is_first (fun i => P (byte_at (a ++ c :: r) i)) 0 (len (a ++ c :: r)) (Some (len a)).
Proof.
  intros Ha Hc. pose proof (nonneg_len a). pose proof (nonneg_len r). split; [lens; lia|]. split.
  - rewrite byte_at_app2, Z.sub_diag by lia. exact Hc.
  - intros j Hj. rewrite byte_at_app1 by lia. apply (Forall_at _ a j Ha). lia.
Qed.
Lemma first_none (P : Z -> Prop) (a : list Z) : Forall (fun x => ~ P x) a ->
  is_first (fun i => P (byte_at a i)) 0 (len a) None.
Proof. intros Ha j Hj. apply (Forall_at _ a j Ha Hj). Qed.

Lemma fnes_ok (a w b : list Z) : small (a ++ w ++ b) -> Forall blank a -> Forall (fun c => ~ blank c) w ->
    (b = [] \/ exists c b', b = c :: b' /\ blank c) -> (w = [] -> b = []) ->
  first_non_empty_span (a ++ w ++ b) = Ok (if len w =? 0 then View 0 0 else View (len a) (len w)).
Proof.
  intros Hs Ha Hw Hb Hwb. nas. pose proof (nonneg_len a). pose proof (nonneg_len w). pose proof (nonneg_len b).
  set (s := a ++ w ++ b) in *. assert (Ls : len s = len a + len w + len b) by (unfold s; lens; lia).
  unfold first_non_empty_span.
  destruct (first_not_of_ok s ws_chars 0) as (o & E & Ho); [lia|]. rewrite E. cbn [bind].
  destruct w as [|c w].
  - specialize (Hwb eq_refl). subst b. unfold s in *. cbn [app] in *. rewrite app_nil_r in *.
    assert (o = None) as ->. { eapply is_first_unique; [apply Ho|]. intros j Hj.
      assert (B : blank (byte_at a j)) by (apply (Forall_at _ a j Ha); lia). intros X. apply X. exact B. }
    rewrite vfirst_ok by lia. reflexivity.
  - assert (o = Some (len a)) as ->.
    { eapply is_first_unique; [apply Ho|]. apply (first_in_app (fun x => ~ In x ws_chars)).
      - eapply Forall_impl; [|apply Ha]. cbn; intros x X Y. apply Y, X.
      - apply Forall_inv in Hw. exact Hw. }
    rewrite sub1_ok by lia. cbn [bind]. unfold on_sub.
    assert (C : contents s (View (len a) (len s - len a)) = (c :: w) ++ b) by (apply contents_tail; reflexivity).
    rewrite C. set (x := (c :: w) ++ b) in *. assert (Lx : len x = len (c :: w) + len b) by (unfold x; lens; lia).
    destruct (first_of_ok x ws_chars 0) as (q & Eq & Hq); [lia|]. rewrite Eq. cbn [bind].
    assert (Lcw : 1 <= len (c :: w)) by (rewrite len_cons; pose proof (nonneg_len w); lia).
    replace (len (c :: w) =? 0) with false by lia.
    destruct Hb as [->|(c' & b' & -> & B)].
    + assert (q = None) as ->.
      { eapply is_first_unique; [apply Hq|]. unfold x. rewrite app_nil_r. apply (first_none (fun y => In y ws_chars)). exact Hw. }
      rewrite vfirst_npos by lia. cbn [bind]. cbn [vo vl]. do 2 f_equal; [lia|]. rewrite Lx, len_nil; lia.
    + assert (q = Some (len (c :: w))) as ->.
      { eapply is_first_unique; [apply Hq|]. unfold x. apply (first_in_app (fun y => In y ws_chars)); auto. }
      rewrite vfirst_ok by lia. cbn [bind vo vl]. do 2 f_equal; lia.
Qed.

(** ** Digit classes *)
Definition cls (b : Z) (dig : Z -> bool) : Prop := forall c, is_byte c -> (dig c = true <-> digit_of b c).
Lemma cls_dec : cls 10 is_dec_char.
Proof.
  intros c Hc. unfold is_dec_char, digit_of, char_digit, schar, ch, is_byte in *; cbn. split.
  - intros H. replace ((48 <=? c) && (c <=? 57)) with true by (destruct (c <? 128) eqn:E; lia). eexists; split; [reflexivity|]. destruct (c <? 128) eqn:E; lia.
  - intros (d & H & Hd). destruct ((48 <=? c) && (c <=? 57)) eqn:E; [destruct (c <? 128) eqn:E2; lia|].
    destruct ((97 <=? c) && (c <=? 122)) eqn:E3; [injection H as <-; lia|].
    destruct ((65 <=? c) && (c <=? 90)) eqn:E4; [injection H as <-; lia|discriminate].
Qed.
Lemma cls_oct : cls 8 is_oct_char.
Proof.
  intros c Hc. unfold is_oct_char, digit_of, char_digit, schar, ch, is_byte in *; cbn. split.
  - intros H. replace ((48 <=? c) && (c <=? 57)) with true by (destruct (c <? 128) eqn:E; lia). eexists; split; [reflexivity|]. destruct (c <? 128) eqn:E; lia.
  - intros (d & H & Hd). destruct ((48 <=? c) && (c <=? 57)) eqn:E; [injection H as <-; destruct (c <? 128) eqn:E2; lia|].
    destruct ((97 <=? c) && (c <=? 122)) eqn:E3; [injection H as <-; lia|].
    destruct ((65 <=? c) && (c <=? 90)) eqn:E4; [injection H as <-; lia|discriminate].
Qed.
Lemma cls_bin : cls 2 is_bin_char.
Proof.
  intros c Hc. unfold is_bin_char, digit_of, char_digit, ch, is_byte in *; cbn. split.
  - intros H. replace ((48 <=? c) && (c <=? 57)) with true by lia. eexists; split; [reflexivity|]. lia.
  - intros (d & H & Hd). destruct ((48 <=? c) && (c <=? 57)) eqn:E; [injection H as <-; lia|].
    destruct ((97 <=? c) && (c <=? 122)) eqn:E3; [injection H as <-; lia|].
    destruct ((65 <=? c) && (c <=? 90)) eqn:E4; [injection H as <-; lia|discriminate].
Qed.
Lemma cls_hex : cls 16 is_hex_char.
Proof.
  intros c Hc. unfold is_hex_char, digit_of, char_digit, schar, ch, is_byte in *; cbn. split.
  - intros H. destruct ((48 <=? c) && (c <=? 57)) eqn:E; [eexists; split; [reflexivity|lia]|].
    destruct ((97 <=? c) && (c <=? 122)) eqn:E3; [eexists; split; [reflexivity|destruct (c <? 128) eqn:E2; lia]|].
    destruct ((65 <=? c) && (c <=? 90)) eqn:E4; [eexists; split; [reflexivity|destruct (c <? 128) eqn:E2; lia]|].
    destruct (c <? 128) eqn:E2; lia.
  - intros (d & H & Hd). destruct ((48 <=? c) && (c <=? 57)) eqn:E; [destruct (c <? 128) eqn:E2; lia|].
    destruct ((97 <=? c) && (c <=? 122)) eqn:E3; [injection H as <-; destruct (c <? 128) eqn:E2; lia|].
    destruct ((65 <=? c) && (c <=? 90)) eqn:E4; [injection H as <-; destruct (c <? 128) eqn:E2; lia|discriminate].
Qed.

Lemma digit_char_range b c : digit_of b c -> b <= 36 -> (48 <= c <= 57 \/ 97 <= c <= 122 \/ 65 <= c <= 90) .
Proof.
  intros (d & H & _) _. unfold char_digit in H.
  destruct ((48 <=? c) && (c <=? 57)) eqn:E; [lia|].
  destruct ((97 <=? c) && (c <=? 122)) eqn:E3; [lia|].
  destruct ((65 <=? c) && (c <=? 90)) eqn:E4; [lia|discriminate].
Qed.
Lemma digit_not_delim b c : b <= 36 -> digit_of b c -> ~ delim c.
Proof. intros Hb H D. pose proof (digit_char_range b c H Hb). unfold delim in D. cbn in D. lia. Qed.
Lemma delim_not_dig b dig c : cls b dig -> b <= 36 -> is_byte c -> delim c -> dig c = false.
Proof.
  intros K Hb Hc D. destruct (dig c) eqn:E; auto. apply K in E; auto. exfalso. eapply digit_not_delim; eauto.
Qed.

Lemma delim_byte c : delim c -> is_byte c.
Proof. unfold delim, is_byte. cbn. lia. Qed.
Lemma bytes_app a b : bytes (a ++ b) <-> bytes a /\ bytes b.
Proof. apply Forall_app. Qed.
Lemma bytes_at s i : bytes s -> 0 <= i < len s -> is_byte (byte_at s i).
Proof. intros H Hi. apply (Forall_at _ s i H Hi). Qed.
Lemma byte_at_mid (a : list Z) c r : byte_at (a ++ c :: r) (len a) = c.
Proof. rewrite byte_at_app2, Z.sub_diag by lia. reflexivity. Qed.
Lemma rd_mid (a : list Z) c r : rd (a ++ c :: r) (len a) = Ok c.
Proof.
  pose proof (nonneg_len a). pose proof (nonneg_len r).
  rewrite rd_ok by (lens; lia). rewrite byte_at_mid. reflexivity.
Qed.

Lemma digits_iff b dig l : cls b dig -> bytes l -> (Forall (fun c => dig c = true) l <-> Forall (digit_of b) l).
Proof.
  intros K Hl. induction l as [|c l IH]; [split; constructor|].
  apply Forall_cons_iff in Hl as [Hc Hl]. rewrite !Forall_cons_iff, IH, (K c Hc) by auto. reflexivity.
Qed.

(** the text: nonempty digit sequence *)
Lemma digit_text_iff b l : (exists v, digit_text b l v) <-> l <> [] /\ Forall (digit_of b) l.
Proof.
  unfold digit_text. split.
  - intros (v & Hn & ds & H & _). split; auto. clear Hn v. induction H as [|c d l ds (H1 & H2) H IH]; constructor; auto.
    exists d; auto.
  - intros (Hn & H). assert (exists ds, Forall2 (fun c d => char_digit c = Some d /\ d < b) l ds) as (ds & D).
    { clear Hn. induction H as [|c l (d & E) H (ds & IH)]; [exists []; constructor|]. exists (d :: ds). constructor; auto. }
    eexists. split; auto. exists ds. split; [exact D|reflexivity].
Qed.

(** ** integral spans *)
Lemma integral_loop_ok (p d y : list Z) dig : small (p ++ d ++ y) -> Forall (fun c => dig c = true) d ->
  (y = [] \/ exists c y', y = c :: y' /\ dig c = false) ->
  integral_loop (p ++ d ++ y) dig (len p) = Ok
    match y with
    | [] => None
    | c :: _ => Some (View 0 (if negb (len d =? 0) && is_delim_char c then len p + len d else 0))
    end.
Proof.
  intros Hs Hd Hy. nas. set (s := p ++ d ++ y) in *.
  pose proof (nonneg_len p). pose proof (nonneg_len d). pose proof (nonneg_len y).
  assert (Ls : len s = len p + len d + len y) by (unfold s; lens; lia).
  unfold integral_loop. set (F := fun i => _).
  assert (G : forall d2 d1, d = d1 ++ d2 ->
    for_up (Z.to_nat (len s - (len p + len d1))) (len p + len d1) F = Ok match y with
    | [] => None
    | c :: _ => Some (View 0 (if negb (len d =? 0) && is_delim_char c then len p + len d else 0))
    end).
  { induction d2 as [|c d2 IH]; intros d1 E.
    - rewrite app_nil_r in E. subst d1. destruct y as [|c y].
      + rewrite len_nil in *. replace (Z.to_nat (len s - (len p + len d))) with O by lia. reflexivity.
      + destruct Hy as [Hy|(c' & y' & Hy & Hc)]; [discriminate|]. injection Hy as <- <-.
        rewrite len_cons in *. pose proof (nonneg_len y).
        replace (Z.to_nat (len s - (len p + len d))) with (S (Z.to_nat (len y))) by lia. cbn [for_up]. unfold F at 1.
        assert (R : rd s (len p + len d) = Ok c).
        { unfold s. rewrite app_assoc. replace (len p + len d) with (len (p ++ d)) by (lens; lia). apply rd_mid. }
        rewrite R. cbn [bind]. rewrite Hc. cbn [negb].
        replace (len p <? len p + len d) with (negb (len d =? 0)) by lia.
        rewrite vfirst_ok; [reflexivity| |lia]. destruct (len d =? 0); cbn [negb andb]; [lia|]; destruct (is_delim_char c); lia.
    - assert (Ld : len d = len d1 + 1 + len d2) by (rewrite E; lens; lia). pose proof (nonneg_len d1). pose proof (nonneg_len d2).
      replace (Z.to_nat (len s - (len p + len d1))) with (S (Z.to_nat (len s - (len p + len (d1 ++ [c]))))) by (lens; lia).
      cbn [for_up]. unfold F at 1.
      assert (R : rd s (len p + len d1) = Ok c).
      { unfold s. rewrite E. rewrite <- (app_assoc d1), (app_assoc p). replace (len p + len d1) with (len (p ++ d1)) by (lens; lia). apply rd_mid. }
      rewrite R. cbn [bind]. rewrite E in Hd. apply Forall_app in Hd as [_ Hd]. apply Forall_inv in Hd. rewrite Hd.
      cbn [negb bind]. replace (len p + len d1 + 1) with (len p + len (d1 ++ [c])) by (lens; lia).
      apply IH. rewrite E, <- app_assoc. reflexivity. }
  specialize (G d [] eq_refl). rewrite len_nil, Z.add_0_r in G. exact G.
Qed.

Lemma integral_or_all_hit (p u r : list Z) b dig : small (p ++ u ++ r) -> cls b dig -> b <= 36 -> bytes (p ++ u ++ r) ->
  ended r -> u <> [] -> Forall (digit_of b) u ->
  integral_or_all (p ++ u ++ r) dig (len p) = Ok (View 0 (len p + len u)) /\
  integral_loop (p ++ u ++ r) dig (len p) = Ok (if len r =? 0 then None else Some (View 0 (len p + len u))).
Proof.
  intros Hs K Hb By He Hu H. apply bytes_app in By as [_ By]. apply bytes_app in By as [Bu Br].
  unfold integral_or_all. rewrite integral_loop_ok; auto.
  - destruct r as [|c r]; cbn [bind].
    + split; [|rewrite len_nil; reflexivity]. unfold full. do 2 f_equal. lens; lia.
    + destruct He as [He|(c' & r' & He & D)]; [discriminate|]. injection He as <- <-.
      apply is_delim_spec in D. rewrite D, andb_true_r.
      assert (len u <> 0). { intros X. apply Hu, len_0_nil, X. }
      pose proof (nonneg_len r).
      replace (len u =? 0) with false by lia. rewrite len_cons. replace (1 + len r =? 0) with false by lia. auto.
  - apply (digits_iff b); auto.
  - destruct He as [->|(c & r' & -> & D)]; auto. right. exists c, r'. split; auto.
    eapply delim_not_dig; eauto. apply delim_byte; auto.
Qed.

Lemma integral_or_all_any (p x : list Z) b dig : small (p ++ x) -> cls b dig -> b <= 36 -> bytes (p ++ x) -> x <> [] ->
  exists n, integral_or_all (p ++ x) dig (len p) = Ok (View 0 n) /\
    (n = 0 \/ exists u r, x = u ++ r /\ ended r /\ u <> [] /\ Forall (digit_of b) u /\ n = len p + len u).
Proof.
  intros Hs K Hb By Hx. destruct (class_split dig x) as (d & y & -> & Hd & Hy).
  pose proof By as By'. apply bytes_app in By as [_ By]. apply bytes_app in By as [Bd Br].
  unfold integral_or_all. rewrite integral_loop_ok; auto. cbn [bind].
  destruct y as [|c y].
  - eexists; split; [reflexivity|]. right. exists d, []. rewrite app_nil_r in *. split; auto. split; [left; auto|].
    split; auto. split; [apply (digits_iff b dig); auto|]. lens; lia.
  - eexists; split; [reflexivity|]. destruct (negb (len d =? 0) && is_delim_char c) eqn:E; auto. right.
    apply andb_true_iff in E as [E1 E2]. exists d, (c :: y). split; auto. split; [right; exists c, y; split; auto; apply is_delim_spec; auto|].
    split; [|split; [apply (digits_iff b dig); auto|auto]]. intros ->. rewrite len_nil in E1. discriminate.
Qed.

Definition is_uint (u : list Z) : Prop := exists v, unsigned_text u v.
Lemma is_uint_dec u : u <> [] -> Forall (digit_of 10) u -> is_uint u.
Proof. intros H1 H2. destruct (proj2 (digit_text_iff 10 u)) as (v & H); auto. exists v. apply ut_dec; auto. Qed.
Lemma is_uint_cases u : is_uint u -> (u <> [] /\ Forall (digit_of 10) u) \/
  exists p w, u = ch "0" :: p :: w /\ w <> [] /\
   ((p = ch "x" \/ p = ch "X") /\ Forall (digit_of 16) w \/ (p = ch "o" \/ p = ch "O") /\ Forall (digit_of 8) w \/
    (p = ch "b" \/ p = ch "B") /\ Forall (digit_of 2) w).
Proof.
  intros (v & H). destruct H as [s v H|p s v Hp H|p s v Hp H|p s v Hp H].
  - left. apply digit_text_iff. eauto.
  - right. exists p, s. split; auto. destruct (proj1 (digit_text_iff 16 s)) as (A & B); [eauto|]. auto.
  - right. exists p, s. split; auto. destruct (proj1 (digit_text_iff 8 s)) as (A & B); [eauto|]. auto.
  - right. exists p, s. split; auto. destruct (proj1 (digit_text_iff 2 s)) as (A & B); [eauto|]. auto.
Qed.
Lemma is_uint_pfx p w b : (p = ch "x" \/ p = ch "X") /\ b = 16 \/ (p = ch "o" \/ p = ch "O") /\ b = 8 \/ (p = ch "b" \/ p = ch "B") /\ b = 2 ->
  w <> [] -> Forall (digit_of b) w -> is_uint (ch "0" :: p :: w).
Proof.
  intros Hp Hn H. destruct (proj2 (digit_text_iff b w)) as (v & D); auto. exists v.
  destruct Hp as [[Hp ->]|[[Hp ->]|[Hp ->]]]; [apply ut_hex|apply ut_oct|apply ut_bin]; auto.
Qed.

Lemma letter_not_dec c : 57 < c -> ~ digit_of 10 c.
Proof.
  intros H (d & E & Hd). unfold char_digit in E. replace ((48 <=? c) && (c <=? 57)) with false in E by lia.
  destruct ((97 <=? c) && (c <=? 122)) eqn:E3; [injection E as <-; lia|].
  destruct ((65 <=? c) && (c <=? 90)) eqn:E4; [injection E as <-; lia|discriminate].
Qed.

Lemma integral_hit (p u r : list Z) : small (p ++ u ++ r) -> bytes (p ++ u ++ r) -> ended r -> is_uint u ->
  first_integral_span (p ++ u ++ r) (len p) = Ok (View 0 (len p + len u)).
Proof.
  intros Hs By He Hu. pose proof Hs as Hs'. nas. set (s := p ++ u ++ r) in *.
  pose proof (nonneg_len p). pose proof (nonneg_len u). pose proof (nonneg_len r).
  assert (Ls : len s = len p + len u + len r) by (unfold s; lens; lia).
  assert (Nu : 1 <= len u).
  { destruct u as [|c u]; [|rewrite len_cons; pose proof (nonneg_len u); lia].
    destruct (is_uint_cases _ Hu) as [[X _]|(q & w & X & _)]; [congruence|discriminate]. }
  unfold first_integral_span, assert. replace (0 <? len s) with true by lia.
  replace (len p =? len s) with false by lia. replace (len p <? len s) with true by lia.
  assert (D : u <> [] /\ Forall (digit_of 10) u -> integral_or_all s is_dec_char (len p) = Ok (View 0 (len p + len u)) /\
     integral_loop s is_dec_char (len p) = Ok (if len r =? 0 then None else Some (View 0 (len p + len u)))).
  { intros [N Dd]. eapply integral_or_all_hit; eauto; [apply cls_dec|lia]. }
  destruct (Z.leb_spec (len p + 3) (len s)).
  - destruct u as [|c0 u']; [rewrite len_nil in Nu; lia|].
    assert (R0 : rd s (len p) = Ok c0) by (unfold s; cbn [app]; apply rd_mid). rewrite R0. cbn [bind].
    assert (R1 : forall c1 x, s = p ++ c0 :: c1 :: x -> rd s (len p + 1) = Ok c1).
    { intros c1 x E. rewrite E. change (c0 :: c1 :: x) with ([c0] ++ c1 :: x). rewrite app_assoc.
      replace (len p + 1) with (len (p ++ [c0])) by (lens; lia). apply rd_mid. }
    destruct (is_uint_cases _ Hu) as [HD|(q & w & E & Nw & HC)].
    + destruct (D HD) as [D1 D2]. rewrite D1, D2. cbn [bind].
      destruct (negb (c0 =? ch "0")); [destruct (len r =? 0); reflexivity|].
      assert (exists c1 x, s = p ++ c0 :: c1 :: x /\ (c1 < 58 \/ delim c1)) as (c1 & x & E & Hc1).
      { unfold s. destruct u' as [|c1 u']; cbn [app].
        - destruct r as [|c1 r']; [exfalso; change (len [c0]) with 1 in *; change (len (@nil Z)) with 0 in *; lia|].
          destruct He as [He|(c' & r2 & He & Dl)]; [discriminate|]. injection He as <- <-. exists c1, r'. auto.
        - exists c1, (u' ++ r). split; auto. destruct HD as [_ HD]. apply Forall_inv_tail, Forall_inv in HD. left.
          destruct (Z.ltb_spec 57 c1); [|lia]. exfalso. eapply letter_not_dec; eauto. }
      rewrite (R1 _ _ E). cbn [bind]. clear -Hc1. unfold ch, delim in *; cbn in *.
      repeat match goal with |- context [?a =? ?b] => replace (a =? b) with false by lia end. reflexivity.
    + injection E as -> ->. replace (negb (ch "0" =? ch "0")) with false by reflexivity.
      rewrite (R1 q (w ++ r)) by reflexivity. cbn [bind].
      assert (G : forall b dig, cls b dig -> b <= 36 -> Forall (digit_of b) w -> integral_or_all s dig (len p + 2) = Ok (View 0 (len p + len (ch "0" :: q :: w)))).
      { intros b dig K Hb Fw. unfold s. change (p ++ (ch "0" :: q :: w) ++ r) with (p ++ [ch "0"; q] ++ w ++ r).
        rewrite app_assoc. replace (len p + 2) with (len (p ++ [ch "0"; q])) by (lens; lia).
        destruct (integral_or_all_hit (p ++ [ch "0"; q]) w r b dig) as [G _]; auto.
        - rewrite <- app_assoc. exact Hs'.
        - rewrite <- app_assoc. exact By.
        - rewrite G. do 2 f_equal. lens; lia. }
      unfold ch in *; cbn in HC.
      destruct HC as [[[->| ->] F]|[[[->| ->] F]|[[->| ->] F]]]; cbn [Z.eqb orb Pos.eqb]; cbn -[integral_or_all len];
        (eapply G; [| |exact F]; [first [apply cls_hex|apply cls_oct|apply cls_bin]|lia]).
  - (* short *)
    destruct (is_uint_cases _ Hu) as [HD|(q & w & E & Nw & HC)]; [apply D; auto|].
    subst u. destruct w; [congruence|]. exfalso. rewrite !len_cons in Ls. pose proof (nonneg_len w). lia.
Qed.

Lemma integral_any (p x : list Z) : small (p ++ x) -> bytes (p ++ x) -> 1 <= len (p ++ x) ->
  exists n, first_integral_span (p ++ x) (len p) = Ok (View 0 n) /\
    (n = 0 \/ exists u r, x = u ++ r /\ ended r /\ is_uint u /\ n = len p + len u).
Proof.
  intros Hs By Hn. pose proof Hs as Hs'. nas. set (s := p ++ x) in *.
  pose proof (nonneg_len p). pose proof (nonneg_len x).
  assert (Ls : len s = len p + len x) by (unfold s; lens; lia).
  unfold first_integral_span, assert. replace (0 <? len s) with true by lia.
  destruct (Z.eqb_spec (len p) (len s)).
  { exists 0. split; auto. apply vfirst_ok; lia. }
  replace (len p <? len s) with true by lia.
  assert (Nx : x <> []) by (intros ->; rewrite len_nil in *; lia).
  assert (D : exists n, integral_or_all s is_dec_char (len p) = Ok (View 0 n) /\
    (n = 0 \/ exists u r, x = u ++ r /\ ended r /\ is_uint u /\ n = len p + len u)).
  { destruct (integral_or_all_any p x 10 is_dec_char) as (k & E & HE); auto using cls_dec; [lia|].
    exists k. split; auto. destruct HE as [->|(u & r & E1 & E2 & E3 & E4 & E5)]; auto. right.
    exists u, r. repeat split; auto. apply is_uint_dec; auto. }
  destruct (Z.leb_spec (len p + 3) (len s)); [|exact D].
  destruct x as [|c0 [|c1 x]]; [congruence|rewrite len_cons, len_nil in Ls; lia|].
  assert (R0 : rd s (len p) = Ok c0) by (unfold s; apply rd_mid). rewrite R0. cbn [bind].
  assert (R1 : rd s (len p + 1) = Ok c1).
  { unfold s. change (c0 :: c1 :: x) with ([c0] ++ c1 :: x). rewrite app_assoc.
    replace (len p + 1) with (len (p ++ [c0])) by (lens; lia). apply rd_mid. }
  destruct (negb (c0 =? ch "0")) eqn:E0.
  - destruct D as (k & Dk & HD). unfold integral_or_all in *. destruct (integral_loop s is_dec_char (len p)) as [o| |] eqn:EL; [|discriminate|discriminate].
    cbn [bind] in *. destruct o as [v|]; exists k; auto.
  - rewrite R1. cbn [bind].
    assert (c0 = ch "0") as -> by lia.
    assert (G : forall b dig, cls b dig -> b <= 36 -> ((c1 = ch "x" \/ c1 = ch "X") /\ b = 16 \/ (c1 = ch "o" \/ c1 = ch "O") /\ b = 8 \/ (c1 = ch "b" \/ c1 = ch "B") /\ b = 2) ->
      exists n, integral_or_all s dig (len p + 2) = Ok (View 0 n) /\
      (n = 0 \/ exists u r, ch "0" :: c1 :: x = u ++ r /\ ended r /\ is_uint u /\ n = len p + len u)).
    { intros b dig K Hb Hc. destruct (integral_or_all_any (p ++ [ch "0"; c1]) x b dig) as (k & E & HE); auto.
      - rewrite <- app_assoc. exact Hs'.
      - rewrite <- app_assoc. exact By.
      - intros ->. rewrite !len_cons, len_nil in Ls. lia.
      - rewrite <- app_assoc in E. exists k.
        replace (len p + 2) with (len (p ++ [ch "0"; c1])) by (lens; lia). split; [exact E|].
        destruct HE as [->|(u & r & -> & E2 & E3 & E4 & E5)]; auto. right. exists (ch "0" :: c1 :: u), r. split; auto.
        split; auto. split; [eapply is_uint_pfx; eauto|]. rewrite E5. lens; lia. }
    destruct ((c1 =? ch "x") || (c1 =? ch "X")) eqn:E1; [apply (G 16); [apply cls_hex|lia|lia]|].
    destruct ((c1 =? ch "b") || (c1 =? ch "B")) eqn:E2; [apply (G 2); [apply cls_bin|lia|lia]|].
    destruct ((c1 =? ch "o") || (c1 =? ch "O")) eqn:E3; [apply (G 8); [apply cls_oct|lia|lia]|].
    exact D.
Qed.
