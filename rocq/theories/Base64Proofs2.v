(** Base64: the decoder. *)
From Verif Require Import Base BaseLemmas CharconvModel SubstrModel Base64Model Base64Spec SubstrProofs CharconvSpec Base64Proofs.

(** ** Validity *)
Definition text_char (c : Z) : Prop := c = ch "=" \/ alphabet c.

Lemma text_char_range c : text_char c -> 0 <= c < 128.
Proof. intros [->|(v & Hv & ->)]; [unfold ch; simpl; lia|]. apply alpha_range; lia. Qed.

Lemma schar_low c : 0 <= c < 128 -> schar c = c.
Proof. intros. unfold schar. destruct (Z.ltb_spec c 128); lia. Qed.

Lemma valid_loop_spec s : bytes s -> exists b, valid_loop s = Ok b /\ (b = true <-> Forall text_char s).
Proof.
  induction s as [|c r IH]; intros Hs.
  { exists true. split; [reflexivity|]. split; auto. }
  inversion Hs as [|? ? Hc Hr]; subst. destruct (IH Hr) as (b & E & Hb). cbn [valid_loop].
  destruct (Z.ltb_spec (schar c) 0) as [Hn|Hn].
  { exists false. split; [reflexivity|]. split; [discriminate|]. intros HF. inversion HF as [|? ? Ht _]; subst.
    apply text_char_range in Ht. rewrite schar_low in Hn by lia. lia. }
  assert (Hlow : 0 <= c < 128) by (unfold schar, is_byte in *; destruct (Z.ltb_spec c 128); lia).
  destruct (Z.eqb_spec c (ch "=")) as [->|Hne].
  { exists b. split; [auto|]. rewrite Hb. split; intros HF; [constructor; auto; left; auto|inversion HF; auto]. }
  rewrite schar_low by lia. destruct (table_ok c Hlow) as (x & Ex). rewrite Ex. cbn [bind].
  destruct (table_char c x Hlow Ex) as [->|[Hx Hcx]].
  - exists false. split; [reflexivity|]. split; [discriminate|]. intros HF. inversion HF as [|? ? Ht _]; subst.
    destruct Ht as [?|(v & Hv & ->)]; [contradiction|]. rewrite of_char in Ex by lia. injection Ex as ->. lia.
  - replace (x =? -1) with false by lia. exists b. split; [auto|]. rewrite Hb.
    split; intros HF; [constructor; auto; right; exists x; split; auto|inversion HF; auto].
Qed.

Theorem valid_spec s : bytes s ->
  exists b, base64_valid s = Ok b /\ (b = true <-> len s mod 4 = 0 /\ Forall text_char s).
Proof.
  intros Hs. destruct (valid_loop_spec s Hs) as (b & E & Hb). unfold base64_valid. rewrite land3.
  destruct (Z.eqb_spec (len s mod 4) 0) as [H4|H4]; cbn [negb].
  - exists b. split; [auto|]. tauto.
  - exists false. split; [reflexivity|]. split; [discriminate|tauto].
Qed.

Lemma valid_true s : len s mod 4 = 0 -> Forall text_char s -> base64_valid s = Ok true.
Proof.
  intros H4 HF. destruct (valid_spec s) as (b & E & Hb).
  { eapply Forall_impl; [|exact HF]. intros c Hc. apply text_char_range in Hc. unfold is_byte. lia. }
  rewrite E. f_equal. apply Hb. auto.
Qed.

Lemma stands_text c v : stands c v -> text_char c.
Proof. intros H. right. exists v. auto. Qed.
Lemma eq_text : text_char (ch "="). Proof. left. auto. Qed.

Lemma rfc_text_chars strict s d : rfc_text strict s d -> len s mod 4 = 0 /\ Forall text_char s.
Proof.
  induction 1 as [|a b va vb Ha Hb Hs|a b c va vb vc Ha Hb Hc Hs|a b c d va vb vc vd s r Ha Hb Hc Hd H [IH1 IH2]].
  - split; [reflexivity|constructor].
  - split; [reflexivity|]. repeat apply Forall_cons; try apply Forall_nil; eauto using stands_text, eq_text.
  - split; [reflexivity|]. repeat apply Forall_cons; try apply Forall_nil; eauto using stands_text, eq_text.
  - split; [rewrite !len_cons; lia|]. repeat apply Forall_cons; eauto using stands_text, eq_text.
Qed.

Lemma rfc_text_valid strict s d : rfc_text strict s d -> base64_valid s = Ok true.
Proof. intros H. apply rfc_text_chars in H. apply valid_true; tauto. Qed.

Lemma rfc_text_bytes strict s d : rfc_text strict s d -> bytes d.
Proof.
  unfold bytes.
  induction 1; unfold stands in *; repeat apply Forall_cons; auto; unfold is_byte; lia.
Qed.

(** ** Text against encoder *)
Lemma text_of_encode d : bytes d -> rfc_text true (rfc_encode d) d.
Proof.
  remember (length d) as n eqn:En. revert d En.
  induction n as [n IH] using lt_wf_ind. intros d En Hd.
  destruct d as [|x [|y [|z r]]].
  - constructor.
  - inversion Hd as [|? ? Hx _]; subst. unfold is_byte in *. cbn [rfc_encode].
    replace [x] with [x / 4 * 4 + x mod 4 * 16 / 16] by (f_equal; lia).
    replace (alpha ((x / 4 * 4 + x mod 4 * 16 / 16) / 4)) with (alpha (x / 4)) by (f_equal; lia).
    replace ((x / 4 * 4 + x mod 4 * 16 / 16) mod 4 * 16) with (x mod 4 * 16) by lia.
    apply rt_one; try (apply stands_alpha; lia). intros _. lia.
  - inversion Hd as [|? ? Hx Hd1]; subst. inversion Hd1 as [|? ? Hy _]; subst. unfold is_byte in *. cbn [rfc_encode].
    replace [x; y] with [x / 4 * 4 + (x mod 4 * 16 + y / 16) / 16; (x mod 4 * 16 + y / 16) mod 16 * 16 + y mod 16 * 4 / 4] at 1 by (f_equal; [lia|f_equal; lia]).
    apply rt_two; try (apply stands_alpha; lia). intros _. lia.
  - inversion Hd as [|? ? Hx Hd1]; subst. inversion Hd1 as [|? ? Hy Hd2]; subst. inversion Hd2 as [|? ? Hz Hr]; subst.
    unfold is_byte in *. cbn [rfc_encode].
    replace (x :: y :: z :: r) with
      ((x / 4 * 4 + (x mod 4 * 16 + y / 16) / 16) ::
       ((x mod 4 * 16 + y / 16) mod 16 * 16 + (y mod 16 * 4 + z / 64) / 4) ::
       ((y mod 16 * 4 + z / 64) mod 4 * 64 + z mod 64) :: r) by (repeat f_equal; lia).
    apply rt_three; try (apply stands_alpha; lia). apply (IH (length r)); auto. simpl. lia.
Qed.

Lemma encode_of_text s d : rfc_text true s d -> rfc_encode d = s.
Proof.
  induction 1 as [|a b va vb Ha Hb Hs|a b c va vb vc Ha Hb Hc Hs|a b c d va vb vc vd s r Ha Hb Hc Hd H IH].
  - reflexivity.
  - specialize (Hs eq_refl). destruct Ha as [Ha ->], Hb as [Hb ->]. cbn [rfc_encode].
    replace ((va * 4 + vb / 16) / 4) with va by lia.
    replace ((va * 4 + vb / 16) mod 4 * 16) with vb by lia. reflexivity.
  - specialize (Hs eq_refl). destruct Ha as [Ha ->], Hb as [Hb ->], Hc as [Hc ->]. cbn [rfc_encode].
    replace ((va * 4 + vb / 16) / 4) with va by lia.
    replace ((va * 4 + vb / 16) mod 4 * 16 + (vb mod 16 * 16 + vc / 4) / 16) with vb by lia.
    replace ((vb mod 16 * 16 + vc / 4) mod 16 * 4) with vc by lia. reflexivity.
  - destruct Ha as [Ha ->], Hb as [Hb ->], Hc as [Hc ->], Hd as [Hd ->]. cbn [rfc_encode]. rewrite IH.
    replace ((va * 4 + vb / 16) / 4) with va by lia.
    replace ((va * 4 + vb / 16) mod 4 * 16 + (vb mod 16 * 16 + vc / 4) / 16) with vb by lia.
    replace ((vb mod 16 * 16 + vc / 4) mod 16 * 4 + (vc mod 4 * 64 + vd) / 64) with vc by lia.
    replace ((vc mod 4 * 64 + vd) mod 64) with vd by lia. reflexivity.
Qed.

Lemma text_strict_weak s d : rfc_text true s d -> rfc_text false s d.
Proof.
  induction 1.
  - constructor.
  - eapply rt_one; eauto; discriminate.
  - eapply rt_two; eauto; discriminate.
  - eapply rt_three; eauto.
Qed.

(** ** The decoder on base64 texts *)
Lemma appval_ok dbg val c v sh : stands c v -> 0 <= sh <= 3 ->
  appval dbg val c sh = Ok (Z.lor val (v * 2 ^ (sh * 6))).
Proof.
  intros [Hv ->] Hs. pose proof (alpha_range v Hv) as [Hr _].
  unfold appval, dassert. rewrite schar_low by lia. rewrite u64_id by lia.
  replace (0 <=? alpha v) with true by lia. replace (alpha v <? 128) with true by lia. rewrite !orb_true_r.
  rewrite of_char by lia. cbn [bind]. rewrite (u32_id v) by lia.
  rewrite shl_u32; [reflexivity|lia|lia|].
  apply Z.le_lt_trans with (v * 2 ^ 18); [|lia]. apply Z.mul_le_mono_nonneg_l; [lia|]. apply Z.pow_le_mono_r; lia.
Qed.

Lemma unpack4 v0 v1 v2 v3 : 0 <= v0 < 64 -> 0 <= v1 < 64 -> 0 <= v2 < 64 -> 0 <= v3 < 64 ->
  Z.lor (Z.lor (Z.lor (Z.lor 0 (v3 * 2 ^ (0 * 6))) (v2 * 2 ^ (1 * 6))) (v1 * 2 ^ (2 * 6))) (v0 * 2 ^ (3 * 6))
  = v0 * 262144 + v1 * 4096 + v2 * 64 + v3.
Proof.
  intros. rewrite Z.lor_0_l. change (2 ^ (0 * 6)) with 1. rewrite Z.mul_1_r.
  change (1 * 6) with 6. change (2 * 6) with 12. change (3 * 6) with 18.
  rewrite (Z.lor_comm v3), lor_add by lia.
  rewrite (Z.lor_comm _ (v1 * _)), lor_add by lia.
  rewrite (Z.lor_comm _ (v0 * _)), lor_add by lia. lia.
Qed.

Lemma stands_not_eq c v : stands c v -> (c =? ch "=") = false.
Proof. intros [Hv ->]. apply alpha_range in Hv. lia. Qed.

Inductive pad_tail : list Z -> list Z -> Prop :=
| pt_nil : pad_tail [] []
| pt_one a b va vb : stands a va -> stands b vb -> pad_tail [a; b; ch "="; ch "="] [va * 4 + vb / 16]
| pt_two a b c va vb vc : stands a va -> stands b vb -> stands c vc ->
    pad_tail [a; b; c; ch "="] [va * 4 + vb / 16; vb mod 16 * 16 + vc / 4].

Lemma decode_loop_ok dbg strict m b s : vin b m -> forall rest d, rfc_text strict rest d ->
  forall pre fuel t, s = pre ++ rest -> (length rest <= fuel)%nat -> len t + len d < 2 ^ 64 ->
  exists f tl fd td, rest = f ++ tl /\ d = fd ++ td /\ pad_tail tl td /\
    decode_loop dbg fuel b s (len pre) (stored m b t, len t)
    = Ok (len pre + len f, (stored m b (t ++ fd), len (t ++ fd))).
Proof.
  intros Hb rest d H.
  induction H as [|x y vx vy Hx Hy Hs|x y z vx vy vz Hx Hy Hz Hs|x y z w vx vy vz vw r d Hx Hy Hz Hw H IH];
    intros pre fuel t Es Hf Ht; pose proof (len_nonneg pre); pose proof (len_nonneg t).
  - exists [], [], [], []. repeat (split; [reflexivity||constructor|]).
    rewrite !app_nil_r. subst s. rewrite app_nil_r. change (len (@nil Z)) with 0.
    destruct fuel; cbn [decode_loop]; rewrite Z.ltb_irrefl, Z.add_0_r; reflexivity.
  - exists [], [x; y; ch "="; ch "="], [], [vx * 4 + vy / 16]. repeat (split; [reflexivity||(constructor; auto)|]).
    rewrite app_nil_r. change (len (@nil Z)) with 0. rewrite Z.add_0_r.
    destruct fuel as [|fuel]; [simpl in Hf; lia|]. cbn [decode_loop].
    assert (El : len s = len pre + 4) by (subst s; rewrite len_app; reflexivity).
    replace (len pre <? len s) with true by lia.
    rewrite Es at 1. rewrite rd_at2 by lia. cbn [bind]. replace (ch "=" =? ch "=") with true by reflexivity. cbn [bind].
    unfold dassert. replace (len pre + 4 =? len s) with true by lia. rewrite orb_true_r. reflexivity.
  - exists [], [x; y; z; ch "="], [], [vx * 4 + vy / 16; vy mod 16 * 16 + vz / 4]. repeat (split; [reflexivity||(constructor; auto)|]).
    rewrite app_nil_r. change (len (@nil Z)) with 0. rewrite Z.add_0_r.
    destruct fuel as [|fuel]; [simpl in Hf; lia|]. cbn [decode_loop].
    assert (El : len s = len pre + 4) by (subst s; rewrite len_app; reflexivity).
    replace (len pre <? len s) with true by lia.
    rewrite Es. rewrite rd_at2, rd_at3 by lia. cbn [bind]. rewrite (stands_not_eq z vz) by auto.
    replace (ch "=" =? ch "=") with true by reflexivity. cbn [bind].
    rewrite <- Es.
    unfold dassert. replace (len pre + 4 =? len s) with true by lia. rewrite orb_true_r. reflexivity.
  - rewrite !len_cons in Ht. pose proof (len_nonneg d).
    set (b0 := vx * 4 + vy / 16) in *. set (b1 := vy mod 16 * 16 + vz / 4) in *. set (b2 := vz mod 4 * 64 + vw) in *.
    set (t' := ((t ++ [b0]) ++ [b1]) ++ [b2]).
    destruct (IH (pre ++ [x; y; z; w]) (fuel - 1)%nat t') as (f & tl & fd & td & E1 & E2 & E3 & E4).
    { subst s. rewrite <- app_assoc. reflexivity. } { simpl in Hf. lia. } { unfold t'. lens; lia. }
    exists (x :: y :: z :: w :: f), tl, (b0 :: b1 :: b2 :: fd), td.
    split; [rewrite E1; reflexivity|]. split; [rewrite E2; reflexivity|]. split; [auto|].
    destruct fuel as [|fuel]; [simpl in Hf; lia|]. cbn [decode_loop].
    replace (S fuel - 1)%nat with fuel in E4 by lia.
    assert (El : len s = len pre + 4 + len r) by (subst s; rewrite len_app, !len_cons; lia).
    pose proof (len_nonneg r). replace (len pre <? len s) with true by lia.
    rewrite Es. rewrite rd_at2, rd_at3, rd_at1, rd_at by lia. rewrite <- Es. cbn [bind].
    rewrite (stands_not_eq z vz), (stands_not_eq w vw) by auto. cbn [bind].
    rewrite (appval_ok dbg 0 w vw) by (auto; lia). cbn [bind].
    rewrite (appval_ok dbg _ z vz) by (auto; lia). cbn [bind].
    rewrite (appval_ok dbg _ y vy) by (auto; lia). cbn [bind].
    rewrite (appval_ok dbg _ x vx) by (auto; lia). cbn [bind].
    destruct Hx as [Hx _], Hy as [Hy _], Hz as [Hz _], Hw as [Hw _].
    rewrite unpack4 by lia. rewrite !byte_of_eq by lia.
    replace ((vx * 262144 + vy * 4096 + vz * 64 + vw) / 2 ^ 16 mod 256) with b0 by (unfold b0; lia).
    replace ((vx * 262144 + vy * 4096 + vz * 64 + vw) / 2 ^ 8 mod 256) with b1 by (unfold b1; lia).
    replace ((vx * 262144 + vy * 4096 + vz * 64 + vw) / 2 ^ 0 mod 256) with b2 by (unfold b2; lia).
    rewrite app_ok by (auto; lia). cbn [bind].
    rewrite app_ok by (auto; lens; lia). cbn [bind].
    rewrite app_ok by (auto; lens; lia). cbn [bind]. fold t'.
    rewrite len_app in E4. change (len [x; y; z; w]) with 4 in E4. rewrite E4.
    f_equal. assert (Et : t' ++ fd = t ++ b0 :: b1 :: b2 :: fd) by (unfold t'; rewrite <- !app_assoc; reflexivity).
    rewrite Et. f_equal. rewrite !len_cons. lia.
Qed.

Theorem decode_ok dbg strict m b s d : vin b m -> rfc_text strict s d -> len d < 2 ^ 64 ->
  base64_decode dbg s m b = Ok (stored m b d, len d).
Proof.
  intros Hb H Hd. unfold base64_decode.
  pose proof (rfc_text_valid _ _ _ H) as Hv. pose proof (rfc_text_chars _ _ _ H) as [H4 _].
  replace (if dbg then base64_valid s else Ok true) with (Ok true) by (destruct dbg; auto).
  cbn [bind]. unfold assert at 1. rewrite land3. rewrite H4. unfold assert at 1. change (0 =? 0) with true. cbn iota.
  destruct (decode_loop_ok dbg strict m b s Hb s d H [] (S (length s)) []) as (f & tl & fd & td & E1 & E2 & E3 & E4); auto.
  rewrite stored_nil in E4 by auto. change (len (@nil Z)) with 0 in E4. rewrite E4. cbn [bind app].
  rewrite Z.add_0_l. rewrite E1 at 1. rewrite len_app. rewrite E2, len_app in Hd.
  pose proof (len_nonneg fd).
  destruct E3 as [|x y vx vy Hx Hy|x y z vx vy vz Hx Hy Hz].
  - change (len (@nil Z)) with 0. replace (len f =? len f + 0) with true by lia.
    rewrite E2, app_nil_r. reflexivity.
  - change (len [_; _; _; _]) with 4. replace (len f =? len f + 4) with false by lia.
    rewrite E1. rewrite rd_at2 by lia. cbn [bind]. replace (ch "=" =? ch "=") with true by reflexivity.
    unfold dassert at 1. rewrite len_app. change (len [_; _; _; _]) with 4. rewrite Z.eqb_refl, orb_true_r.
    rewrite rd_at3, rd_at1, rd_at by lia. cbn [bind].
    replace (if dbg then Ok (ch "=" =? ch "=") else Ok true) with (Ok true) by (destruct dbg; reflexivity).
    cbn [bind]. unfold assert. 
    rewrite (appval_ok dbg 0 y vy) by (auto; lia). cbn [bind].
    rewrite (appval_ok dbg _ x vx) by (auto; lia). cbn [bind].
    destruct Hx as [Hx _], Hy as [Hy _].
    pose proof (unpack4 vx vy 0 0 Hx Hy ltac:(lia) ltac:(lia)) as U. rewrite !Z.mul_0_l, !Z.lor_0_l in U.
    rewrite Z.lor_0_l, U, byte_of_eq by lia.
    change (len [_]) with 1 in Hd.
    replace ((vx * 262144 + vy * 4096 + 0 + 0) / 2 ^ 16 mod 256) with (vx * 4 + vy / 16) by lia.
    rewrite app_ok by (auto; lia). rewrite E2. reflexivity.
  - change (len [_; _; _; _]) with 4. replace (len f =? len f + 4) with false by lia.
    rewrite E1. rewrite rd_at2 by lia. cbn [bind]. rewrite (stands_not_eq z vz) by auto.
    rewrite rd_at3 by lia. cbn [bind]. replace (ch "=" =? ch "=") with true by reflexivity.
    unfold dassert at 1. rewrite len_app. change (len [_; _; _; _]) with 4. rewrite Z.eqb_refl, orb_true_r.
    rewrite rd_at1, rd_at by lia. cbn [bind].
    rewrite (appval_ok dbg 0 z vz) by (auto; lia). cbn [bind].
    rewrite (appval_ok dbg _ y vy) by (auto; lia). cbn [bind].
    rewrite (appval_ok dbg _ x vx) by (auto; lia). cbn [bind].
    destruct Hx as [Hx _], Hy as [Hy _], Hz as [Hz _].
    pose proof (unpack4 vx vy vz 0 Hx Hy ltac:(lia) ltac:(lia)) as U. rewrite !Z.mul_0_l, !Z.lor_0_l in U.
    rewrite Z.lor_0_l, U, !byte_of_eq by lia.
    change (len [_; _]) with 2 in Hd.
    replace ((vx * 262144 + vy * 4096 + vz * 64 + 0) / 2 ^ 16 mod 256) with (vx * 4 + vy / 16) by lia.
    replace ((vx * 262144 + vy * 4096 + vz * 64 + 0) / 2 ^ 8 mod 256) with (vy mod 16 * 16 + vz / 4) by lia.
    rewrite app_ok by (auto; lia). cbn [bind]. rewrite app_ok by (auto; lens; lia).
    rewrite E2. rewrite <- app_assoc. reflexivity.
Qed.

(** ** Memory safety of the decoder on every text *)
Definition safe (m : list Z) (b : view) (r : res (list Z * Z)) : Prop :=
  match r with Ok (m', _) => same_outside m m' b | Err => True | Ub => False end.

Lemma same_outside_len m m' b : same_outside m m' b -> len m' = len m. Proof. intros [H _]; auto. Qed.

Lemma app_safe m m1 b pos c : vin b m -> same_outside m m1 b -> 0 <= pos ->
  exists m2, app_ b (m1, pos) c = Ok (m2, u64 (pos + 1)) /\ same_outside m m2 b.
Proof.
  intros (H1 & H2 & H3) [HL HS] Hp. unfold app_. destruct (Z.ltb_spec pos (vl b)).
  - rewrite wr_ok by lia. cbn [bind]. eexists. split; [reflexivity|]. split; [rewrite len_blit; change (len [c]) with 1; lia|].
    intros k Hk Ho. rewrite nth_blit by (change (len [c]) with 1; lia).
    change (len [c]) with 1. replace ((vo b + pos <=? k) && (k <? vo b + pos + 1)) with false by lia. apply HS; lia.
  - cbn [bind]. eexists. split; [reflexivity|]. split; auto.
Qed.
