(** Proofs about reading numbers, round trips and overflow detection. *)
From Verif Require Import Base BaseLemmas ScanModel CharconvModel CharconvSpec CharconvProofs CharconvProofs2.

(** mathematical parser of digit sequences *)
Fixpoint parse (b : Z) (s : list Z) (a : Z) : option Z :=
  match s with
  | [] => Some a
  | c :: s' =>
      match char_digit c with
      | Some d => if d <? b then parse b s' (a * b + d) else None
      | None => None
      end
  end.
Definition parse1 (b : Z) (s : list Z) : option Z :=
  match s with [] => None | _ => parse b s 0 end.

Lemma char_digit_range c d : char_digit c = Some d -> 0 <= d /\ 48 <= c <= 122.
Proof.
  unfold char_digit.
  destruct ((48 <=? c) && (c <=? 57)) eqn:E1; [intros H; inversion H; lia|].
  destruct ((97 <=? c) && (c <=? 122)) eqn:E2; [intros H; inversion H; lia|].
  destruct ((65 <=? c) && (c <=? 90)) eqn:E3; [intros H; inversion H; lia|discriminate].
Qed.
Lemma char_digit_zero c : char_digit c = Some 0 <-> c = 48.
Proof.
  unfold char_digit. split; [|intros ->; reflexivity].
  destruct ((48 <=? c) && (c <=? 57)) eqn:E1; [intros H; inversion H; lia|].
  destruct ((97 <=? c) && (c <=? 122)) eqn:E2; [intros H; inversion H; lia|].
  destruct ((65 <=? c) && (c <=? 90)) eqn:E3; [intros H; inversion H; lia|discriminate].
Qed.

Lemma parse_spec b s a x :
  parse b s a = Some x <->
  exists ds, Forall2 (fun c d => char_digit c = Some d /\ d < b) s ds /\
             fold_left (fun a d => a * b + d) ds a = x.
Proof.
  revert a; induction s as [|c s IH]; intros a; cbn [parse].
  - split.
    + intros H; inversion H; subst. exists []. split; auto.
    + intros (ds & H & <-). inversion H; subst. reflexivity.
  - split.
    + destruct (char_digit c) as [d|] eqn:E; [|discriminate].
      destruct (Z.ltb_spec d b); [|discriminate]. intros H1. apply IH in H1 as (ds & H2 & <-).
      exists (d :: ds). split; auto.
    + intros (ds & H & <-). inversion H as [|? d ? ds' (Hd & Hb) Hr]; subst.
      rewrite Hd. destruct (Z.ltb_spec d b); [|lia]. apply IH. exists ds'. split; auto.
Qed.
Lemma parse1_spec b s x : parse1 b s = Some x <-> digit_text b s x.
Proof.
  unfold parse1, digit_text, positional. destruct s as [|c s].
  - split; [discriminate|intros [H _]; congruence].
  - rewrite parse_spec. split; [intros H; split; [discriminate|auto]|intros [_ H]; auto].
Qed.

Lemma schar_id c : 0 <= c < 128 -> schar c = c.
Proof. intros. unfold schar. replace (c <? 128) with true by lia. reflexivity. Qed.


Ltac chars := change (ch "0") with 48 in *; change (ch "9") with 57 in *; change (ch "7") with 55 in *;
  change (ch "a") with 97 in *; change (ch "f") with 102 in *; change (ch "A") with 65 in *;
  change (ch "F") with 70 in *; change (ch "1") with 49 in *; change (ch "x") with 120 in *;
  change (ch "X") with 88 in *; change (ch "b") with 98 in *; change (ch "B") with 66 in *;
  change (ch "o") with 111 in *; change (ch "O") with 79 in *; change (ch "-") with 45 in *;
  change (ch "+") with 43 in *; change (ch "3") with 51 in *.

Ltac chardig c :=
  unfold char_digit in *; 
  destruct ((48 <=? c) && (c <=? 57)) eqn:?; [|destruct ((97 <=? c) && (c <=? 122)) eqn:?;
   [|destruct ((65 <=? c) && (c <=? 90)) eqn:?]].

(** the four readers agree with [parse], modulo the type's width *)
Definition reader_ok (t : ity) (b : Z) (rd : list Z -> Z -> bool * Z) : Prop :=
  forall s a, bytes s ->
  match parse b s a with
  | Some x => rd s (wrap t a) = (true, wrap t x)
  | None => fst (rd s (wrap t a)) = false
  end.

Lemma read_dec_reader t : reader_ok t 10 (read_dec_loop t).
Proof.
  intros s. induction s as [|c s IH]; intros a Hs; cbn [parse read_dec_loop]; auto.
  inversion Hs as [|? ? Hc Hs']; subst. unfold is_byte in Hc. chars.
  assert (Hsc : (schar c <? 48) || (57 <? schar c) = negb ((48 <=? c) && (c <=? 57))).
  { unfold schar. destruct (Z.ltb_spec c 128); lia. }
  rewrite Hsc. clear Hsc. unfold char_digit.
  destruct ((48 <=? c) && (c <=? 57)) eqn:E1; cbn [negb].
  - replace (c - 48 <? 10) with true by lia. rewrite wrap_add_mul. apply IH; auto.
  - destruct ((97 <=? c) && (c <=? 122)) eqn:E2.
    { replace (c - 97 + 10 <? 10) with false by lia. reflexivity. }
    destruct ((65 <=? c) && (c <=? 90)) eqn:E3; [|reflexivity].
    replace (c - 65 + 10 <? 10) with false by lia. reflexivity.
Qed.

Lemma read_oct_reader t : reader_ok t 8 (read_oct_loop t).
Proof.
  intros s. induction s as [|c s IH]; intros a Hs; cbn [parse read_oct_loop]; auto.
  inversion Hs as [|? ? Hc Hs']; subst. unfold is_byte in Hc. chars.
  assert (Hsc : (schar c <? 48) || (55 <? schar c) = negb ((48 <=? c) && (c <=? 55))).
  { unfold schar. destruct (Z.ltb_spec c 128); lia. }
  rewrite Hsc. clear Hsc. unfold char_digit.
  destruct ((48 <=? c) && (c <=? 57)) eqn:E1.
  - destruct (Z.ltb_spec (c - 48) 8).
    + replace (negb ((48 <=? c) && (c <=? 55))) with false by lia.
      rewrite wrap_add_mul. apply IH; auto.
    + replace (negb ((48 <=? c) && (c <=? 55))) with true by lia. reflexivity.
  - replace (negb ((48 <=? c) && (c <=? 55))) with true by lia.
    destruct ((97 <=? c) && (c <=? 122)) eqn:E2.
    { replace (c - 97 + 10 <? 8) with false by lia. reflexivity. }
    destruct ((65 <=? c) && (c <=? 90)) eqn:E3; [|reflexivity].
    replace (c - 65 + 10 <? 8) with false by lia. reflexivity.
Qed.

Lemma hex_cv_ok c : is_byte c ->
  hex_cv c = match char_digit c with Some d => if d <? 16 then Some d else None | None => None end.
Proof.
  intros Hc. unfold is_byte in Hc. unfold hex_cv. chars. unfold char_digit, schar.
  destruct (Z.ltb_spec c 128).
  - destruct ((48 <=? c) && (c <=? 57)) eqn:E1.
    { replace (c - 48 <? 16) with true by lia. reflexivity. }
    destruct ((97 <=? c) && (c <=? 102)) eqn:E2.
    { replace ((97 <=? c) && (c <=? 122)) with true by lia.
      replace (c - 97 + 10 <? 16) with true by lia. f_equal. lia. }
    destruct ((97 <=? c) && (c <=? 122)) eqn:E3.
    { replace (c - 97 + 10 <? 16) with false by lia.
      replace ((65 <=? c) && (c <=? 70)) with false by lia. reflexivity. }
    destruct ((65 <=? c) && (c <=? 70)) eqn:E4.
    { replace ((65 <=? c) && (c <=? 90)) with true by lia.
      replace (c - 65 + 10 <? 16) with true by lia. f_equal. lia. }
    destruct ((65 <=? c) && (c <=? 90)) eqn:E5; auto.
    replace (c - 65 + 10 <? 16) with false by lia. reflexivity.
  - replace ((48 <=? c - 256) && (c - 256 <=? 57)) with false by lia.
    replace ((97 <=? c - 256) && (c - 256 <=? 102)) with false by lia.
    replace ((65 <=? c - 256) && (c - 256 <=? 70)) with false by lia.
    replace ((48 <=? c) && (c <=? 57)) with false by lia.
    replace ((97 <=? c) && (c <=? 122)) with false by lia.
    replace ((65 <=? c) && (c <=? 90)) with false by lia. reflexivity.
Qed.

Lemma read_hex_reader t : reader_ok t 16 (read_hex_loop t).
Proof.
  intros s. induction s as [|c s IH]; intros a Hs; cbn [parse read_hex_loop]; auto.
  inversion Hs as [|? ? Hc Hs']; subst. rewrite hex_cv_ok by auto.
  destruct (char_digit c) as [d|]; [|reflexivity].
  destruct (Z.ltb_spec d 16); [|reflexivity]. rewrite wrap_add_mul. apply IH; auto.
Qed.

Lemma wrap_even_lor t a : Z.lor (wrap t (2 * a)) 1 = wrap t (2 * a + 1).
Proof.
  assert (Hpow : 2 ^ bits (iw t) = 2 * 2 ^ (bits (iw t) - 1)) by apply pow2_bits.
  assert (Hp : 0 < 2 ^ (bits (iw t) - 1)) by (apply Z.pow_pos_nonneg; destruct (iw t); cbn; lia).
  assert (Hh : 2 ^ (bits (iw t) - 1) = 2 * 2 ^ (bits (iw t) - 2)).
  { rewrite <- Z.pow_succ_r by (destruct (iw t); cbn; lia). f_equal. lia. }
  set (N := 2 ^ bits (iw t)) in *. set (H := 2 ^ (bits (iw t) - 1)) in *.
  set (Q := 2 ^ (bits (iw t) - 2)) in *.
  assert (Hlor : forall x, Z.lor (2 * x) 1 = 2 * x + 1).
  { intros x. assert (HL : Z.land (2 * x) 1 = 0).
    { change 1 with (Z.ones 1). rewrite Z.land_ones by lia. change (2 ^ 1) with 2.
      rewrite Z.mul_comm. apply Z.mod_mul. lia. }
    rewrite <- Z.lxor_lor by auto. symmetry. apply Z.add_nocarry_lxor. auto. }
  unfold wrap. fold N H. 
  assert (E : (2 * a) mod N = 2 * (a mod H)).
  { rewrite Hpow. rewrite Z.mul_mod_distr_l by lia. reflexivity. }
  assert (E1 : (2 * a + 1) mod N = 2 * (a mod H) + 1).
  { rewrite Z.add_mod by lia. rewrite E. rewrite (Z.mod_small 1) by lia.
    pose proof (Z.mod_pos_bound a H Hp). apply Z.mod_small. lia. }
  rewrite E, E1. pose proof (Z.mod_pos_bound a H Hp).
  destruct (isgn t); cbn [andb]; auto.
  destruct (Z.leb_spec H (2 * (a mod H))), (Z.leb_spec H (2 * (a mod H) + 1)); try lia.
  - replace (2 * (a mod H) - N) with (2 * (a mod H - H)) by lia. rewrite Hlor. lia.
  - apply Hlor.
Qed.

Lemma read_bin_reader t : reader_ok t 2 (read_bin_loop t).
Proof.
  intros s. induction s as [|c s IH]; intros a Hs; cbn [parse read_bin_loop]; auto.
  inversion Hs as [|? ? Hc Hs']; subst. chars.
  assert (Hsh : wrap t (Z.shiftl (wrap t a) 1) = wrap t (2 * a)).
  { rewrite Z.shiftl_mul_pow2 by lia. change (2 ^ 1) with 2.
    pose proof (wrap_add_mul t a 2 0) as H. rewrite !Z.add_0_r in H. rewrite H. f_equal. lia. }
  cbv zeta. rewrite Hsh.
  destruct (Z.eqb_spec c 49) as [->|H49].
  - cbn [char_digit Z.leb Z.compare Pos.compare Pos.compare_cont andb].
    change (char_digit 49) with (Some 1). cbn [Z.ltb Z.compare Pos.compare Pos.compare_cont].
    rewrite wrap_even_lor. replace (2 * a + 1) with (a * 2 + 1) by lia. apply IH; auto.
  - destruct (Z.eqb_spec c 48) as [->|H48]; cbn [negb].
    + change (char_digit 48) with (Some 0). cbn [Z.ltb Z.compare].
      replace (2 * a) with (a * 2 + 0) by lia. apply IH; auto.
    + assert (Hn : match char_digit c with Some d => if d <? 2 then parse 2 s (a * 2 + d) else None | None => None end = None).
      { unfold char_digit.
        destruct ((48 <=? c) && (c <=? 57)) eqn:E1; [replace (c - 48 <? 2) with false by lia; auto|].
        destruct ((97 <=? c) && (c <=? 122)) eqn:E2; [replace (c - 97 + 10 <? 2) with false by lia; auto|].
        destruct ((65 <=? c) && (c <=? 90)) eqn:E3; [replace (c - 65 + 10 <? 2) with false by lia; auto|auto]. }
      rewrite Hn. reflexivity.
Qed.

(** readers started at zero, as called by atoi/atou, for a nonempty text *)
Definition read1_ok (t : ity) (b : Z) (rd : list Z -> bool * Z) : Prop :=
  forall s, bytes s -> s <> [] ->
  match parse1 b s with
  | Some x => nonempty s (rd s) = Ok (true, wrap t x)
  | None => exists v, nonempty s (rd s) = Ok (false, v)
  end.
Lemma wrap0 t : wrap t 0 = 0.
Proof. apply wrap_id. destruct t as [[] []]; cbv; intuition discriminate. Qed.
Lemma reader_read1 t b rd : reader_ok t b rd -> read1_ok t b (fun s => rd s 0).
Proof.
  intros H s Hs Hne. specialize (H s 0 Hs). rewrite wrap0 in H.
  unfold parse1. destruct s as [|c s]; [congruence|].
  unfold nonempty. replace (len (c :: s) =? 0) with false by (rewrite len_cons; pose proof (len_nonneg s); lia).
  destruct (parse b (c :: s) 0); [rewrite H; auto|].
  destruct (rd (c :: s) 0) as [o v]. cbn in H. subst o. eauto.
Qed.
Lemma read1_dec t : read1_ok t 10 (read_dec t).
Proof. apply (reader_read1 t 10 (read_dec_loop t)), read_dec_reader. Qed.
Lemma read1_hex t : read1_ok t 16 (read_hex t).
Proof. apply (reader_read1 t 16 (read_hex_loop t)), read_hex_reader. Qed.
Lemma read1_oct t : read1_ok t 8 (read_oct t).
Proof. apply (reader_read1 t 8 (read_oct_loop t)), read_oct_reader. Qed.
Lemma read1_bin t : read1_ok t 2 (read_bin t).
Proof. apply (reader_read1 t 2 (read_bin_loop t)), read_bin_reader. Qed.

(** decision procedure for the grammar *)
Definition is_xX p := (p =? 120) || (p =? 88).
Definition is_bB p := (p =? 98) || (p =? 66).
Definition is_oO p := (p =? 111) || (p =? 79).
Definition parse_u (s : list Z) : option Z :=
  match s with
  | c :: p :: r =>
      if c =? 48 then
        if is_xX p then parse1 16 r
        else if is_bB p then parse1 2 r
        else if is_oO p then parse1 8 r
        else parse1 10 s
      else parse1 10 s
  | _ => parse1 10 s
  end.
Definition parse_s (s : list Z) : option Z :=
  match s with
  | c :: r => if c =? 45 then option_map Z.opp (parse_u r) else parse_u s
  | [] => None
  end.

Lemma parse1_prefix_none p r : is_xX p || is_bB p || is_oO p = true -> parse1 10 (48 :: p :: r) = None.
Proof.
  unfold is_xX, is_bB, is_oO. intros H. cbn [parse1 parse]. change (char_digit 48) with (Some 0).
  cbn [Z.ltb Z.compare]. unfold char_digit.
  replace ((48 <=? p) && (p <=? 57)) with false by lia.
  destruct ((97 <=? p) && (p <=? 122)) eqn:E.
  - replace (p - 97 + 10 <? 10) with false by lia. reflexivity.
  - replace ((65 <=? p) && (p <=? 90)) with true by lia.
    replace (p - 65 + 10 <? 10) with false by lia. reflexivity.
Qed.

Lemma parse_u_spec s x : parse_u s = Some x <-> unsigned_text s x.
Proof.
  split.
  - unfold parse_u. destruct s as [|c [|p r]]; [discriminate|intros H; apply ut_dec, parse1_spec; auto|].
    destruct (Z.eqb_spec c 48) as [->|]; [|intros; apply ut_dec, parse1_spec; auto].
    unfold is_xX, is_bB, is_oO.
    destruct ((p =? 120) || (p =? 88)) eqn:E1.
    { intros H. apply ut_hex; [chars; lia|apply parse1_spec; auto]. }
    destruct ((p =? 98) || (p =? 66)) eqn:E2.
    { intros H. apply ut_bin; [chars; lia|apply parse1_spec; auto]. }
    destruct ((p =? 111) || (p =? 79)) eqn:E3.
    { intros H. apply ut_oct; [chars; lia|apply parse1_spec; auto]. }
    intros; apply ut_dec, parse1_spec; auto.
  - intros H. destruct H as [s v H|p s v Hp H|p s v Hp H|p s v Hp H]; apply parse1_spec in H; chars.
    + unfold parse_u. destruct s as [|c [|p r]]; auto.
      destruct (Z.eqb_spec c 48) as [->|]; auto.
      destruct (is_xX p || is_bB p || is_oO p) eqn:E.
      * rewrite parse1_prefix_none in H by auto. discriminate.
      * destruct (is_xX p), (is_bB p), (is_oO p); try discriminate. auto.
    + unfold parse_u, is_xX. cbn [Z.eqb Pos.eqb]. replace ((p =? 120) || (p =? 88)) with true by lia. auto.
    + unfold parse_u, is_xX, is_bB, is_oO. cbn [Z.eqb Pos.eqb].
      replace ((p =? 120) || (p =? 88)) with false by lia. replace ((p =? 98) || (p =? 66)) with false by lia.
      replace ((p =? 111) || (p =? 79)) with true by lia. auto.
    + unfold parse_u, is_xX, is_bB, is_oO. cbn [Z.eqb Pos.eqb].
      replace ((p =? 120) || (p =? 88)) with false by lia. replace ((p =? 98) || (p =? 66)) with true by lia. auto.
Qed.

Lemma parse_u_minus r : parse_u (45 :: r) = None.
Proof. destruct r; reflexivity. Qed.

Lemma parse_s_spec s x : parse_s s = Some x <-> signed_text s x.
Proof.
  split.
  - unfold parse_s. destruct s as [|c r]; [discriminate|]. destruct (Z.eqb_spec c 45) as [->|].
    + destruct (parse_u r) eqn:E; [|discriminate]. cbn. intros H; inversion H. apply st_neg, parse_u_spec; auto.
    + intros H. apply st_pos, parse_u_spec; auto.
  - intros H. destruct H as [s v H|s v H]; apply parse_u_spec in H.
    + unfold parse_s. destruct s as [|c r]; [discriminate|]. destruct (Z.eqb_spec c 45) as [->|]; auto.
      rewrite parse_u_minus in H. discriminate.
    + unfold parse_s. chars. cbn [Z.eqb Pos.eqb]. rewrite H. reflexivity.
Qed.

Definition parse_int (t : ity) (s : list Z) : option Z := if isgn t then parse_s s else parse_u s.
Lemma parse_int_spec t s x : parse_int t s = Some x <-> int_text t s x.
Proof. unfold parse_int, int_text. destruct (isgn t); [apply parse_s_spec|apply parse_u_spec]. Qed.

Lemma int_text_fun t s x y : int_text t s x -> int_text t s y -> x = y.
Proof. rewrite <- !parse_int_spec. congruence. Qed.

(** ** atou / atoi *)
Lemma rd0 c s : rd (c :: s) 0 = Ok c.
Proof. unfold rd. rewrite len_cons. pose proof (len_nonneg s). replace ((0 <=? 0) && (0 <? 1 + len s)) with true by lia. reflexivity. Qed.
Lemma rd1 c d s : rd (c :: d :: s) 1 = Ok d.
Proof. unfold rd. rewrite !len_cons. pose proof (len_nonneg s). replace ((0 <=? 1) && (1 <? 1 + (1 + len s))) with true by lia. reflexivity. Qed.
Lemma rd2 c d e s : rd (c :: d :: e :: s) 2 = Ok e.
Proof. unfold rd. rewrite !len_cons. pose proof (len_nonneg s). replace ((0 <=? 2) && (2 <? 1 + (1 + (1 + len s)))) with true by lia. reflexivity. Qed.
Lemma csub_ok s n : 0 <= n <= len s -> csub s n = Ok (skipn (Z.to_nat n) s).
Proof. intros. unfold csub. replace ((0 <=? n) && (n <=? len s)) with true by lia. reflexivity. Qed.
Lemma csub0 s : csub s 0 = Ok s. Proof. rewrite csub_ok; [reflexivity|pose proof (len_nonneg s); lia]. Qed.
Lemma csub1 c s : csub (c :: s) 1 = Ok s.
Proof. rewrite csub_ok; [reflexivity|rewrite len_cons; pose proof (len_nonneg s); lia]. Qed.
Lemma csub2 c d s : csub (c :: d :: s) 2 = Ok s.
Proof. rewrite csub_ok; [reflexivity|rewrite !len_cons; pose proof (len_nonneg s); lia]. Qed.
Lemma csub3 c d e s : csub (c :: d :: e :: s) 3 = Ok s.
Proof. rewrite csub_ok; [reflexivity|rewrite !len_cons; pose proof (len_nonneg s); lia]. Qed.

Definition outcome (t : ity) (o : option Z) (r : res (bool * Z)) : Prop :=
  match o with
  | Some x => r = Ok (true, wrap t x)
  | None => exists v, r = Ok (false, v)
  end.

Lemma read1_outcome t b rd s : read1_ok t b rd -> bytes s -> s <> [] ->
  outcome t (parse1 b s) (nonempty s (rd s)).
Proof. intros H Hs Hn. exact (H s Hs Hn). Qed.

Lemma prefixed_outcome t b rd s v0 n :
  read1_ok t b rd -> bytes s -> (n < n + len s) = (0 < len s) ->
  outcome t (parse1 b s) (if 0 <? len s then nonempty s (rd s) else Ok (false, v0)).
Proof.
  intros H Hs _. destruct s as [|c s].
  - cbn. eauto.
  - replace (0 <? len (c :: s)) with true by (rewrite len_cons; pose proof (len_nonneg s); lia).
    apply H; auto. discriminate.
Qed.

Lemma atou_outcome t s v0 : bytes s -> outcome t (parse_u s) (atou t s v0).
Proof.
  intros Hs. unfold atou. destruct s as [|c s].
  { cbn. eauto. }
  pose proof (len_nonneg s) as Hl0.
  replace (len (c :: s) =? 0) with false by (rewrite len_cons; lia).
  rewrite rd0, bind_ok. chars.
  destruct (Z.eqb_spec c 45) as [->|H45].
  { rewrite parse_u_minus. cbn. eauto. }
  destruct (Z.eqb_spec c 48) as [->|H48]; cbn [negb].
  - destruct s as [|p r].
    + cbn. rewrite wrap0. reflexivity.
    + pose proof (len_nonneg r). rewrite !len_cons.
      replace (1 <? 1 + (1 + len r)) with true by lia. rewrite rd1, bind_ok.
      replace (2 <? 1 + (1 + len r)) with (0 <? len r) by lia.
      rewrite csub2, !bind_ok. inversion Hs as [|? ? Hc Hs1]; subst. inversion Hs1 as [|? ? Hp Hr]; subst.
      unfold parse_u. cbn [Z.eqb Pos.eqb]. unfold is_xX, is_bB, is_oO.
      destruct ((p =? 120) || (p =? 88)); [apply (prefixed_outcome t 16 (read_hex t) r v0 0); auto using read1_hex|].
      destruct ((p =? 98) || (p =? 66)); [apply (prefixed_outcome t 2 (read_bin t) r v0 0); auto using read1_bin|].
      destruct ((p =? 111) || (p =? 79)); [apply (prefixed_outcome t 8 (read_oct t) r v0 0); auto using read1_oct|].
      apply (read1_dec t); auto. discriminate.
  - assert (E : parse_u (c :: s) = parse1 10 (c :: s)).
    { unfold parse_u. destruct s as [|p r]; auto. destruct (Z.eqb_spec c 48); [congruence|auto]. }
    rewrite E. apply (read1_dec t); auto. discriminate.
Qed.

Lemma parse1_zero s : s <> [] -> parse1 10 (48 :: s) = parse1 10 s.
Proof. destruct s; [congruence|]. intros _. reflexivity. Qed.

(** common part of atoi after the sign *)
Lemma atoi_body t s v0 start r :
  bytes s -> r <> [] -> bytes r -> len s = start + len r -> 0 <= start ->
  (forall k, 0 <= k -> csub s (start + k) = csub r k) -> (forall k, 0 <= k -> rd s (start + k) = rd r k) ->
  outcome t (parse_u r)
  (do c <- rd s start ;;
   if negb (c =? ch "0") then
       do x <- csub s start ;; nonempty x (read_dec t x)
     else if start + 1 <? len s then
       do pfx <- rd s (start + 1) ;;
       if (pfx =? ch "x") || (pfx =? ch "X") then
         if start + 2 <? len s then do x <- csub s (start + 2) ;; nonempty x (read_hex t x)
         else Ok (false, v0)
       else if (pfx =? ch "b") || (pfx =? ch "B") then
         if start + 2 <? len s then do x <- csub s (start + 2) ;; nonempty x (read_bin t x)
         else Ok (false, v0)
       else if (pfx =? ch "o") || (pfx =? ch "O") then
         if start + 2 <? len s then do x <- csub s (start + 2) ;; nonempty x (read_oct t x)
         else Ok (false, v0)
       else do x <- csub s (start + 1) ;; nonempty x (read_dec t x)
     else do x <- csub s start ;; nonempty x (read_dec t x)).
Proof.
  intros Hs Hne Hr Hlen Hst Hcs Hrd.
  pose proof (Hcs 0 ltac:(lia)) as Hc0. pose proof (Hrd 0 ltac:(lia)) as Hr0. rewrite Z.add_0_r in Hc0, Hr0.
  rewrite Hc0, Hr0, Hlen, (Hcs 1), (Hcs 2), (Hrd 1) by lia.
  destruct r as [|c r]; [congruence|]. pose proof (len_nonneg r).
  rewrite rd0, bind_ok, csub0, bind_ok, csub1, bind_ok, len_cons. chars.
  destruct (Z.eqb_spec c 48) as [->|H48]; cbn [negb].
  - destruct r as [|p r].
    + replace (start + 1 <? start + (1 + len [])) with false by (rewrite len_nil; lia).
      apply (read1_dec t); auto.
    + pose proof (len_nonneg r). rewrite !len_cons.
      replace (start + 1 <? start + (1 + (1 + len r))) with true by lia. rewrite rd1, bind_ok.
      replace (start + 2 <? start + (1 + (1 + len r))) with (0 <? len r) by lia.
      rewrite csub2, !bind_ok. inversion Hr as [|? ? Hc Hs1]; subst. inversion Hs1 as [|? ? Hp Hr']; subst.
      unfold parse_u. cbn [Z.eqb Pos.eqb]. unfold is_xX, is_bB, is_oO.
      destruct ((p =? 120) || (p =? 88)); [apply (prefixed_outcome t 16 (read_hex t) r v0 0); auto using read1_hex|].
      destruct ((p =? 98) || (p =? 66)); [apply (prefixed_outcome t 2 (read_bin t) r v0 0); auto using read1_bin|].
      destruct ((p =? 111) || (p =? 79)); [apply (prefixed_outcome t 8 (read_oct t) r v0 0); auto using read1_oct|].
      rewrite parse1_zero by discriminate. apply (read1_dec t); auto. discriminate.
  - assert (E : parse_u (c :: r) = parse1 10 (c :: r)).
    { unfold parse_u. destruct r as [|p r]; auto. destruct (Z.eqb_spec c 48); [congruence|auto]. }
    rewrite E. apply (read1_dec t); auto.
Qed.

Lemma wrap_mul_neg t x : wrap t (wrap t x * -1) = wrap t (- x).
Proof. pose proof (wrap_add_mul t x (-1) 0) as H. rewrite !Z.add_0_r in H. rewrite H. f_equal. lia. Qed.

Lemma atoi_outcome w s v0 :
  bytes s -> (forall r, s <> 43 :: r) -> outcome (Ity w true) (parse_s s) (atoi w s v0).
Proof.
  intros Hs Hplus. unfold atoi. set (t := Ity w true). destruct s as [|c s].
  { cbn. eauto. }
  pose proof (len_nonneg s) as Hl0.
  replace (len (c :: s) =? 0) with false by (rewrite len_cons; lia).
  rewrite rd0, bind_ok. chars.
  destruct (Z.eqb_spec c 43) as [->|H43]; [exfalso; apply (Hplus s); auto|].
  cbv zeta. unfold parse_s. destruct (Z.eqb_spec c 45) as [->|H45]; cbn [andb].
  - destruct s as [|d s'].
    { cbn. eauto. }
    replace (len (45 :: d :: s') =? 1) with false by (rewrite !len_cons; pose proof (len_nonneg s'); lia).
    inversion Hs as [|? ? Hc Hs1]; subst.
    pose proof (atoi_body t (45 :: d :: s') v0 1 (d :: s')
      Hs ltac:(discriminate) Hs1 ltac:(rewrite !len_cons; lia) ltac:(lia)) as HB.
    cbn [Z.eqb Pos.eqb] in HB.
    match type of HB with ?A -> ?B -> _ => assert (HA : A); [|assert (HB1 : B); [|specialize (HB HA HB1)]] end.
    { intros k Hk. unfold csub. rewrite (len_cons 45).
      replace ((0 <=? 1 + k) && (1 + k <=? 1 + len (d :: s'))) with ((0 <=? k) && (k <=? len (d :: s'))) by lia.
      replace (Z.to_nat (1 + k)) with (S (Z.to_nat k)) by lia. reflexivity. }
    { intros k Hk. unfold rd. rewrite (len_cons 45).
      replace ((0 <=? 1 + k) && (1 + k <? 1 + len (d :: s'))) with ((0 <=? k) && (k <? len (d :: s'))) by lia.
      replace (Z.to_nat (1 + k)) with (S (Z.to_nat k)) by lia. reflexivity. }
    unfold bind in HB at 1. rewrite rd1 in HB. rewrite rd1, bind_ok. chars.
    match goal with |- outcome _ _ (bind ?X _) => set (E := X) in * end.
    destruct (parse_u (d :: s')) as [x|]; cbn [outcome option_map] in *.
    + rewrite HB, bind_ok. rewrite wrap_mul_neg. reflexivity.
    + destruct HB as (v & HB). rewrite HB, bind_ok. eauto.
  - cbn [andb].
    pose proof (atoi_body t (c :: s) v0 0 (c :: s)
      Hs ltac:(discriminate) Hs ltac:(lia) ltac:(lia) ltac:(intros; f_equal; lia) ltac:(intros; f_equal; lia)) as HB.
    rewrite rd0, bind_ok in HB. rewrite rd0, bind_ok. chars.
    match goal with |- outcome _ _ (bind ?X _) => set (E := X) in * end.
    destruct (parse_u (c :: s)) as [x|]; cbn [outcome option_map] in *.
    + rewrite HB, bind_ok. rewrite Z.mul_1_r, wrap_wrap. reflexivity.
    + destruct HB as (v & HB). rewrite HB, bind_ok. eauto.
Qed.
