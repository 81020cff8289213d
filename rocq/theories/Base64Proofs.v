(** Base64: tables, bit arithmetic and the encoder. *)
From Verif Require Import Base BaseLemmas CharconvModel SubstrModel Base64Model Base64Spec SubstrProofs CharconvSpec.

Lemma lor_add a b n : 0 <= n -> 0 <= b < 2 ^ n -> Z.lor (a * 2 ^ n) b = a * 2 ^ n + b.
Proof.
  intros Hn Hb.
  assert (Z.land (a * 2 ^ n) b = 0).
  { apply Z.bits_inj_iff; intros k; rewrite Z.land_spec, Z.bits_0.
    destruct (Z.ltb_spec k n).
    - rewrite Z.mul_pow2_bits_low by lia; reflexivity.
    - destruct (Z.eq_dec b 0) as [->|Hz]; [rewrite Z.bits_0; apply andb_false_r|].
      rewrite (Z.bits_above_log2 b k); [apply andb_false_r|lia|].
      apply Z.log2_lt_pow2; [lia|]. apply Z.lt_le_trans with (2 ^ n); [lia|apply Z.pow_le_mono_r; lia]. }
  rewrite Z.add_nocarry_lxor, Z.lxor_lor by assumption. reflexivity.
Qed.

Lemma land63 a : Z.land a 63 = a mod 64.
Proof. change 63 with (Z.ones 6). rewrite Z.land_ones by lia. reflexivity. Qed.
Lemma land255 a : Z.land a 255 = a mod 256.
Proof. change 255 with (Z.ones 8). rewrite Z.land_ones by lia. reflexivity. Qed.
Lemma land3 a : Z.land a 3 = a mod 4.
Proof. change 3 with (Z.ones 2). rewrite Z.land_ones by lia. reflexivity. Qed.

Lemma sextet_eq v k : 0 <= k -> sextet v k = v / 2 ^ k mod 64.
Proof. intros. unfold sextet. change (u32 (Z.shiftl 1 6) - 1) with 63. rewrite land63, Z.shiftr_div_pow2 by lia. reflexivity. Qed.
Lemma byte_of_eq v k : 0 <= k -> byte_of v k = v / 2 ^ k mod 256.
Proof. intros. unfold byte_of. rewrite land255, Z.shiftr_div_pow2 by lia. reflexivity. Qed.

Lemma shl_u32 d k : 0 <= k -> 0 <= d -> d * 2 ^ k < 2 ^ 32 -> u32 (Z.shiftl d k) = d * 2 ^ k.
Proof. intros. rewrite Z.shiftl_mul_pow2 by lia. apply u32_id. split; [|lia]. apply Z.mul_nonneg_nonneg; [lia|apply Z.pow_nonneg; lia]. Qed.

Lemma pack3 a b c : is_byte a -> is_byte b -> is_byte c ->
  Z.lor (Z.lor (u32 (Z.shiftl a 16)) (u32 (Z.shiftl b 8))) c = a * 65536 + b * 256 + c.
Proof.
  unfold is_byte; intros. rewrite !shl_u32 by lia.
  rewrite lor_add by lia. change (2 ^ 16) with (256 * 256). change (2 ^ 8) with 256.
  replace (a * (256 * 256) + b * 256) with ((a * 256 + b) * 2 ^ 8) by lia.
  rewrite lor_add by lia. lia.
Qed.
Lemma pack2 a b : is_byte a -> is_byte b ->
  Z.lor (u32 (Z.shiftl a 16)) (u32 (Z.shiftl b 8)) = a * 65536 + b * 256.
Proof. unfold is_byte; intros. rewrite !shl_u32 by lia. rewrite lor_add by lia. lia. Qed.

(** ** Tables *)
Definition all_below (n : nat) (p : Z -> bool) : bool := forallb p (map Z.of_nat (seq 0 n)).
Lemma all_below_spec n p : all_below n p = true -> forall v, 0 <= v < Z.of_nat n -> p v = true.
Proof.
  unfold all_below. rewrite forallb_forall. intros H v Hv. apply H. apply in_map_iff.
  exists (Z.to_nat v). split; [lia|]. apply in_seq. lia.
Qed.

Definition res_eqb (r : res Z) (v : Z) : bool := match r with Ok x => x =? v | _ => false end.
Lemma res_eqb_ok r v : res_eqb r v = true -> r = Ok v.
Proof. destruct r; simpl; try discriminate. intros H. f_equal. lia. Qed.

Lemma to_char v : 0 <= v < 64 -> rd sextet_to_char v = Ok (alpha v).
Proof.
  intros Hv. apply res_eqb_ok.
  apply (all_below_spec 64 (fun v => res_eqb (rd sextet_to_char v) (alpha v))); [reflexivity|lia].
Qed.
Lemma of_char v : 0 <= v < 64 -> rd char_to_sextet (alpha v) = Ok v.
Proof.
  intros Hv. apply res_eqb_ok.
  apply (all_below_spec 64 (fun v => res_eqb (rd char_to_sextet (alpha v)) v)); [reflexivity|lia].
Qed.
Lemma alpha_range v : 0 <= v < 64 -> 0 <= alpha v < 128 /\ alpha v <> ch "=".
Proof.
  intros Hv.
  assert ((0 <=? alpha v) && (alpha v <? 128) && negb (alpha v =? ch "=") = true); [|lia].
  apply (all_below_spec 64 (fun v => (0 <=? alpha v) && (alpha v <? 128) && negb (alpha v =? ch "="))); [reflexivity|lia].
Qed.
Lemma alpha_inj v w : 0 <= v < 64 -> 0 <= w < 64 -> alpha v = alpha w -> v = w.
Proof. intros Hv Hw E. pose proof (of_char v Hv) as A. pose proof (of_char w Hw) as B. rewrite E, B in A. congruence. Qed.
Lemma table_char c x : 0 <= c < 128 -> rd char_to_sextet c = Ok x -> x = -1 \/ (0 <= x < 64 /\ c = alpha x).
Proof.
  intros Hc E.
  assert (H : match rd char_to_sextet c with
              | Ok x => (x =? -1) || ((0 <=? x) && (x <? 64) && (c =? alpha x)) | _ => false end = true).
  { apply (all_below_spec 128 (fun c => match rd char_to_sextet c with
              | Ok x => (x =? -1) || ((0 <=? x) && (x <? 64) && (c =? alpha x)) | _ => false end)); [reflexivity|lia]. }
  rewrite E in H. lia.
Qed.
Lemma table_ok c : 0 <= c < 128 -> exists x, rd char_to_sextet c = Ok x.
Proof. intros. unfold rd. change (len char_to_sextet) with 128. replace ((0 <=? c) && (c <? 128)) with true by lia. eauto. Qed.

Lemma stands_fun c v w : stands c v -> stands c w -> v = w.
Proof. intros [H1 H2] [H3 H4]. apply alpha_inj; congruence. Qed.
Lemma stands_alpha v : 0 <= v < 64 -> stands (alpha v) v. Proof. split; auto. Qed.

(** ** The append primitive *)
Lemma stored_nil m b : vin b m -> stored m b [] = m.
Proof. intros (H & _). unfold stored. rewrite firstn_nil. apply blit_nil. lia. Qed.

Lemma len_stored m b t : vin b m -> len (stored m b t) = len m.
Proof.
  intros (H1 & H2 & H3). unfold stored. apply len_blit; [lia|]. rewrite len_firstn by lia. lia.
Qed.

Lemma app_ok m b t c : vin b m -> len t + 1 < 2 ^ 64 ->
  app_ b (stored m b t, len t) c = Ok (stored m b (t ++ [c]), len (t ++ [c])).
Proof.
  intros Hb Ht. pose proof (len_stored m b t Hb) as Hls. pose proof Hb as (H1 & H2 & H3).
  unfold app_. pose proof (len_nonneg t). rewrite len_app. change (len [c]) with 1.
  rewrite u64_id by lia.
  destruct (Z.ltb_spec (len t) (vl b)) as [Hl|Hl].
  - rewrite wr_ok by lia. cbn [bind]. f_equal. f_equal. unfold stored.
    rewrite !firstn_all2 by (rewrite ?app_length; unfold len in *; simpl; lia).
    apply blit_app; change (len [c]) with 1; lia.
  - cbn [bind]. f_equal. f_equal. unfold stored.
    rewrite firstn_app. replace (Z.to_nat (vl b) - length t)%nat with 0%nat by (unfold len in *; lia).
    rewrite firstn_O, app_nil_r. reflexivity.
Qed.

Lemma app_idx_ok dbg m b t v : vin b m -> len t + 1 < 2 ^ 64 -> 0 <= v < 64 ->
  app_idx dbg b (stored m b t, len t) v = Ok (stored m b (t ++ [alpha v]), len (t ++ [alpha v])).
Proof.
  intros Hb Ht Hv. unfold app_idx, dassert. replace (v <? 64) with true by lia. rewrite orb_true_r.
  rewrite to_char by lia. cbn [bind]. apply app_ok; auto.
Qed.

(** ** The encoder *)
Lemma rfc_len d : len (rfc_encode d) = 4 * ((len d + 2) / 3).
Proof.
  remember (length d) as n eqn:En. revert d En.
  induction n as [n IH] using lt_wf_ind. intros d En.
  destruct d as [|a [|b [|c r]]]; try reflexivity.
  cbn [rfc_encode]. rewrite !len_cons. rewrite (IH (length r)) by (subst; simpl; auto; lia). 
  pose proof (len_nonneg r). lia.
Qed.

Lemma rd_at (p : list Z) x r i : i = len p -> rd (p ++ x :: r) i = Ok x.
Proof.
  intros ->. unfold rd. pose proof (len_nonneg p). pose proof (len_nonneg r).
  rewrite len_app, len_cons. replace ((0 <=? len p) && _) with true by lia.
  rewrite to_nat_len, app_nth2, Nat.sub_diag by lia. reflexivity.
Qed.

Ltac rdat :=
  match goal with
  | |- context[rd (?p ++ ?x :: ?r) ?i] => rewrite (rd_at p x r i) by (lens; lia)
  end.

Lemma rd_at1 (p : list Z) x y r i : i = len p + 1 -> rd (p ++ x :: y :: r) i = Ok y.
Proof. intros. change (x :: y :: r) with ([x] ++ y :: r). rewrite app_assoc. apply rd_at. rewrite len_app. change (len [x]) with 1. lia. Qed.
Lemma rd_at2 (p : list Z) x y z r i : i = len p + 2 -> rd (p ++ x :: y :: z :: r) i = Ok z.
Proof. intros. change (x :: y :: z :: r) with ([x; y] ++ z :: r). rewrite app_assoc. apply rd_at. rewrite len_app. change (len [x; y]) with 2. lia. Qed.
Lemma rd_at3 (p : list Z) x y z w r i : i = len p + 3 -> rd (p ++ x :: y :: z :: w :: r) i = Ok w.
Proof. intros. change (x :: y :: z :: w :: r) with ([x; y; z] ++ w :: r). rewrite app_assoc. apply rd_at. rewrite len_app. change (len [x; y; z]) with 3. lia. Qed.

Lemma encode_loop_ok dbg m b data : vin b m -> forall n rest pre fuel t,
  length rest = n -> data = pre ++ rest -> bytes rest -> (length rest <= fuel)%nat ->
  len t + 4 * ((len rest + 2) / 3) < 2 ^ 64 ->
  exists f tl, rest = f ++ tl /\ len tl < 3 /\ rfc_encode rest = rfc_encode f ++ rfc_encode tl /\
    encode_loop dbg fuel b data (len pre) (len rest) (stored m b t, len t)
    = Ok (len pre + len f, len tl, (stored m b (t ++ rfc_encode f), len (t ++ rfc_encode f))).
Proof.
  intros Hb. induction n as [n IH] using lt_wf_ind.
  intros rest pre fuel t En Ed Hr Hf Ht.
  destruct rest as [|x [|y [|z r]]].
  1-3: exists []; eexists; split; [reflexivity|]; split; [reflexivity|]; split; [reflexivity|];
    destruct fuel; cbn [encode_loop];
    (replace (3 <=? _) with false by reflexivity); cbn [rfc_encode]; rewrite app_nil_r; f_equal; f_equal; f_equal; change (len (@nil Z)) with 0; lia.
  destruct fuel as [|fuel]; [simpl in Hf; lia|].
  inversion Hr as [|? ? Hx Hr1]; subst. inversion Hr1 as [|? ? Hy Hr2]; subst. inversion Hr2 as [|? ? Hz Hr3]; subst.
  set (t' := (((t ++ [alpha (x / 4)]) ++ [alpha (x mod 4 * 16 + y / 16)]) ++ [alpha (y mod 16 * 4 + z / 64)]) ++ [alpha (z mod 64)]).
  pose proof (len_nonneg t). pose proof (len_nonneg r). rewrite !len_cons in Ht.
  assert (Ht' : len t' = len t + 4) by (unfold t'; lens; lia).
  destruct (IH (length r) ltac:(simpl; lia) r (pre ++ [x; y; z]) fuel t') as (f & tl & E1 & E2 & E3 & E4); auto.
  { rewrite <- app_assoc. reflexivity. } { simpl in Hf. lia. } { lia. }
  exists (x :: y :: z :: f), tl. split; [rewrite E1; reflexivity|]. split; [auto|].
  split; [cbn [rfc_encode app]; rewrite E3; reflexivity|].
  cbn [encode_loop]. rewrite !len_cons.
  replace (3 <=? _) with true by lia.
  rewrite rd_at, rd_at1, rd_at2 by lia. cbn [bind].
  rewrite pack3 by auto. rewrite !sextet_eq by lia. unfold is_byte in *.
  replace ((x * 65536 + y * 256 + z) / 2 ^ 18 mod 64) with (x / 4) by lia.
  replace ((x * 65536 + y * 256 + z) / 2 ^ 12 mod 64) with (x mod 4 * 16 + y / 16) by lia.
  replace ((x * 65536 + y * 256 + z) / 2 ^ 6 mod 64) with (y mod 16 * 4 + z / 64) by lia.
  replace ((x * 65536 + y * 256 + z) / 2 ^ 0 mod 64) with (z mod 64) by lia.
  rewrite app_idx_ok by (auto; lia). cbn [bind].
  rewrite app_idx_ok by (auto; lens; lia). cbn [bind].
  rewrite app_idx_ok by (auto; lens; lia). cbn [bind].
  rewrite app_idx_ok by (auto; lens; lia). cbn [bind]. fold t'.
  rewrite len_app in E4. change (len [x; y; z]) with 3 in E4.
  replace (1 + (1 + (1 + len r)) - 3) with (len r) by lia.
  rewrite E4. f_equal. 
  assert (Et : t' ++ rfc_encode f = t ++ rfc_encode (x :: y :: z :: f)).
  { unfold t'. cbn [rfc_encode]. rewrite <- !app_assoc. reflexivity. }
  rewrite Et. f_equal. f_equal. lia.
Qed.

Theorem encode_ok dbg m b data : vin b m -> bytes data -> len data < 2 ^ 63 ->
  base64_encode dbg m b data = Ok (stored m b (rfc_encode data), 4 * ((len data + 2) / 3)).
Proof.
  intros Hb Hd Hl. pose proof (len_nonneg data). unfold base64_encode.
  destruct (encode_loop_ok dbg m b data Hb (length data) data [] (S (length data)) []) as (f & tl & E1 & E2 & E3 & E4); auto.
  { change (len (@nil Z)) with 0. lia. }
  rewrite stored_nil in E4 by auto. change (len (@nil Z)) with 0 in E4. rewrite E4. cbn [bind].
  unfold dassert at 1. replace (len tl <? 3) with true by lia. rewrite orb_true_r.
  rewrite <- rfc_len, E3. cbn [app]. rewrite !Z.add_0_l.
  pose proof (rfc_len data) as HL. rewrite E3, len_app in HL.
  pose proof (len_nonneg (rfc_encode f)).
  assert (Hbt : bytes tl) by (rewrite E1 in Hd; apply Forall_app in Hd; tauto).
  destruct tl as [|x [|y [|z r]]].
  - replace (len (@nil Z) =? 2) with false by reflexivity. replace (len (@nil Z) =? 1) with false by reflexivity.
    cbn [rfc_encode]. rewrite app_nil_r. reflexivity.
  - replace (len [x] =? 2) with false by reflexivity. replace (len [x] =? 1) with true by reflexivity.
    rewrite E1. rewrite rd_at by lia. cbn [bind].
    inversion Hbt as [|? ? Hx _]; subst x0 l. 
    rewrite shl_u32 by (unfold is_byte in *; lia). rewrite !sextet_eq by lia.
    unfold is_byte in *.
    replace (x * 2 ^ 16 / 2 ^ 18 mod 64) with (x / 4) by lia.
    replace (x * 2 ^ 16 / 2 ^ 12 mod 64) with (x mod 4 * 16) by lia.
    cbn [rfc_encode] in *. change (len [_; _; _; _]) with 4 in HL.
    rewrite app_idx_ok by (auto; lia). cbn [bind].
    rewrite app_idx_ok by (auto; lens; lia). cbn [bind].
    rewrite app_ok by (auto; lens; lia). cbn [bind].
    rewrite app_ok by (auto; lens; lia). rewrite <- !app_assoc. reflexivity.
  - replace (len [x; y] =? 2) with true by reflexivity.
    rewrite E1. rewrite rd_at, rd_at1 by lia. cbn [bind].
    inversion Hbt as [|? ? Hx Hbt1]; subst x0 l. inversion Hbt1 as [|? ? Hy _]; subst x0 l.
    rewrite pack2 by auto. rewrite !sextet_eq by lia. unfold is_byte in *.
    replace ((x * 65536 + y * 256) / 2 ^ 18 mod 64) with (x / 4) by lia.
    replace ((x * 65536 + y * 256) / 2 ^ 12 mod 64) with (x mod 4 * 16 + y / 16) by lia.
    replace ((x * 65536 + y * 256) / 2 ^ 6 mod 64) with (y mod 16 * 4) by lia.
    cbn [rfc_encode] in *. change (len [_; _; _; _]) with 4 in HL.
    rewrite app_idx_ok by (auto; lia). cbn [bind].
    rewrite app_idx_ok by (auto; lens; lia). cbn [bind].
    rewrite app_idx_ok by (auto; lens; lia). cbn [bind].
    rewrite app_ok by (auto; lens; lia). rewrite <- !app_assoc. reflexivity.
  - rewrite !len_cons in E2. pose proof (len_nonneg r). lia.
Qed.
