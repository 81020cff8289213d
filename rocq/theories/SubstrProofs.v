(** Proofs about the substr model. *)
From Verif Require Import Base BaseLemmas ScanModel SubstrModel SubstrSpec.

Lemma nonneg_len {A} (l : list A) : 0 <= len l. Proof. unfold len; lia. Qed.

(** ** Loops *)
Section loops.
  Context {A : Type} (f : Z -> res (option A)).
  Lemma for_up_first n i (P : Z -> Prop) (g : Z -> A) :
    (forall j, i <= j < i + Z.of_nat n -> (P j /\ f j = Ok (Some (g j))) \/ (~ P j /\ f j = Ok None)) ->
    exists o, for_up n i f = Ok (option_map g o) /\ is_first P i (i + Z.of_nat n) o.
  Proof.
    revert i; induction n as [|n IH]; intros i Hf; cbn [for_up].
    - exists None. split; auto. intros j Hj; lia.
    - destruct (Hf i ltac:(lia)) as [[HP E]|[HP E]]; rewrite E; cbn [bind].
      + exists (Some i). split; auto. repeat split; auto; lia.
      + destruct (IH (i + 1)) as (o & Eo & Ho). { intros j Hj; apply Hf; lia. }
        exists o. split; auto. destruct o as [k|]; cbn in *.
        * destruct Ho as (H1 & H2 & H3). repeat split; auto; try lia.
          intros j Hj. destruct (Z.eq_dec j i) as [->|]; auto. apply H3; lia.
        * intros j Hj. destruct (Z.eq_dec j i) as [->|]; auto. apply Ho; lia.
  Qed.
  Lemma for_down_last n (P : Z -> Prop) (g : Z -> A) :
    (forall j, 0 <= j < Z.of_nat n -> (P j /\ f j = Ok (Some (g j))) \/ (~ P j /\ f j = Ok None)) ->
    exists o, for_down n f = Ok (option_map g o) /\ is_last P (Z.of_nat n) o.
  Proof.
    induction n as [|n IH]; intros Hf; cbn [for_down].
    - exists None. split; auto. intros j Hj; lia.
    - destruct (Hf (Z.of_nat n) ltac:(lia)) as [[HP E]|[HP E]]; rewrite E; cbn [bind].
      + exists (Some (Z.of_nat n)). split; auto. repeat split; auto; try lia.
      + destruct IH as (o & Eo & Ho). { intros j Hj; apply Hf; lia. }
        exists o. split; auto. destruct o as [k|]; cbn in *.
        * destruct Ho as (H1 & H2 & H3). repeat split; auto; try lia.
          intros j Hj. destruct (Z.eq_dec j (Z.of_nat n)) as [->|]; auto. apply H3; lia.
        * intros j Hj. destruct (Z.eq_dec j (Z.of_nat n)) as [->|]; auto. apply Ho; lia.
  Qed.
End loops.

Lemma is_first_unique P lo hi o o' : is_first P lo hi o -> is_first P lo hi o' -> o = o'.
Proof.
  destruct o as [i|], o' as [j|]; cbn; intros H1 H2; auto.
  - destruct H1 as (? & ? & H1), H2 as (? & ? & H2). f_equal.
    destruct (Z.lt_trichotomy i j) as [|[|]]; auto.
    + destruct (H2 i); auto; lia.
    + destruct (H1 j); auto; lia.
  - destruct H1 as (? & ? & _). destruct (H2 i); auto.
  - destruct H2 as (? & ? & _). destruct (H1 j); auto.
Qed.
Lemma is_last_unique P hi o o' : is_last P hi o -> is_last P hi o' -> o = o'.
Proof.
  destruct o as [i|], o' as [j|]; cbn; intros H1 H2; auto.
  - destruct H1 as (? & ? & H1), H2 as (? & ? & H2). f_equal.
    destruct (Z.lt_trichotomy i j) as [|[|]]; auto.
    + destruct (H1 j); auto; lia.
    + destruct (H2 i); auto; lia.
  - destruct H1 as (? & ? & _). destruct (H2 i); auto.
  - destruct H2 as (? & ? & _). destruct (H1 j); auto.
Qed.
Lemma is_first_ext P Q lo hi o : (forall j, lo <= j < hi -> (P j <-> Q j)) -> is_first P lo hi o -> is_first Q lo hi o.
Proof.
  intros H. destruct o; cbn.
  - intros (H1 & H2 & H3). repeat split; auto; try lia. { apply H; auto. }
    intros j Hj HQ. apply (H3 j); auto. apply H; auto; lia.
  - intros H1 j Hj HQ. apply (H1 j); auto. apply H; auto.
Qed.
Lemma is_last_ext P Q hi o : (forall j, 0 <= j < hi -> (P j <-> Q j)) -> is_last P hi o -> is_last Q hi o.
Proof.
  intros H. destruct o; cbn.
  - intros (H1 & H2 & H3). repeat split; auto; try lia. { apply H; auto. }
    intros j Hj HQ. apply (H3 j); auto. apply H; auto; lia.
  - intros H1 j Hj HQ. apply (H1 j); auto. apply H; auto.
Qed.

Lemma rd_ok s i : 0 <= i < len s -> rd s i = Ok (byte_at s i).
Proof. intros H. unfold rd, byte_at. replace ((0 <=? i) && (i <? len s)) with true by lia. reflexivity. Qed.

Lemma at_ok s p j : 0 <= j < len s ->
  (p (byte_at s j) = true /\ at_ s p j = Ok (Some j)) \/ (~ p (byte_at s j) = true /\ at_ s p j = Ok None).
Proof.
  intros H. unfold at_. rewrite rd_ok by auto. cbn [bind].
  destruct (p (byte_at s j)); [left|right]; auto.
Qed.
Lemma option_map_id {A} (o : option A) : option_map (fun x => x) o = o.
Proof. destruct o; reflexivity. Qed.

Lemma fwd_from_ok s p st : 0 <= st <= len s ->
  exists o, fwd_from s p (Some st) = Ok o /\ is_first (fun i => p (byte_at s i) = true) st (len s) o.
Proof.
  intros H. cbn [fwd_from].
  destruct (for_up_first (at_ s p) (Z.to_nat (len s - st)) st (fun i => p (byte_at s i) = true) (fun x => x)) as (o & E & Ho).
  { intros j Hj. apply at_ok. lia. }
  exists o. rewrite option_map_id in E. split; auto.
  replace (st + Z.of_nat (Z.to_nat (len s - st))) with (len s) in Ho by lia. auto.
Qed.
Lemma bwd_from_ok s p st : 0 <= st <= len s ->
  exists o, bwd_from s p (Some st) = Ok o /\ is_last (fun i => p (byte_at s i) = true) st o.
Proof.
  intros H. unfold bwd_from.
  destruct (for_down_last (at_ s p) (Z.to_nat st) (fun i => p (byte_at s i) = true) (fun x => x)) as (o & E & Ho).
  { intros j Hj. apply at_ok. lia. }
  exists o. rewrite option_map_id in E. split; auto.
  replace (Z.of_nat (Z.to_nat st)) with st in Ho by lia. auto.
Qed.
Lemma bwd_from_npos s p : bwd_from s p None = bwd_from s p (Some (len s)).
Proof. reflexivity. Qed.

Lemma mem_in c cs : mem c cs = true <-> In c cs.
Proof.
  unfold mem. rewrite existsb_exists. split.
  - intros (x & H & E). apply Z.eqb_eq in E. subst; auto.
  - intros H. exists c. split; auto. apply Z.eqb_refl.
Qed.
Lemma mem_notin c cs : negb (mem c cs) = true <-> ~ In c cs.
Proof. rewrite <- mem_in. destruct (mem c cs); cbn; intuition congruence. Qed.

Lemma chk_ok s st : 0 <= st <= len s -> chk_start s (Some st) = true.
Proof. unfold chk_start. lia. Qed.

(** *** C20 statements *)
Lemma first_of_ok s cs st : 0 <= st <= len s ->
  exists o, first_of s cs (Some st) = Ok o /\ is_first (fun i => In (byte_at s i) cs) st (len s) o.
Proof.
  intros H. unfold first_of. rewrite chk_ok by auto. cbn [assert].
  destruct (fwd_from_ok s (fun x => mem x cs) st H) as (o & E & Ho). exists o; split; auto.
  eapply is_first_ext; [|exact Ho]. intros; cbn. apply mem_in.
Qed.
Lemma first_of_c_ok s c st : 0 <= st <= len s ->
  exists o, first_of_c s c (Some st) = Ok o /\ is_first (fun i => byte_at s i = c) st (len s) o.
Proof.
  intros H. unfold first_of_c. rewrite chk_ok by auto. cbn [assert].
  destruct (fwd_from_ok s (fun x => x =? c) st H) as (o & E & Ho). exists o; split; auto.
  eapply is_first_ext; [|exact Ho]. intros; cbn. apply Z.eqb_eq.
Qed.
Lemma first_not_of_ok s cs st : 0 <= st <= len s ->
  exists o, first_not_of s cs st = Ok o /\ is_first (fun i => ~ In (byte_at s i) cs) st (len s) o.
Proof.
  intros H. unfold first_not_of. rewrite chk_ok by auto. cbn [assert].
  destruct (fwd_from_ok s (fun x => negb (mem x cs)) st H) as (o & E & Ho). exists o; split; auto.
  eapply is_first_ext; [|exact Ho]. intros; cbn. apply mem_notin.
Qed.
Lemma first_not_of_c_ok s c st : 0 <= st <= len s ->
  exists o, first_not_of_c s c st = Ok o /\ is_first (fun i => byte_at s i <> c) st (len s) o.
Proof.
  intros H. unfold first_not_of_c. rewrite chk_ok by auto. cbn [assert].
  destruct (fwd_from_ok s (fun x => negb (x =? c)) st H) as (o & E & Ho). exists o; split; auto.
  eapply is_first_ext; [|exact Ho]. intros; cbn. lia.
Qed.
Lemma last_of_ok s cs st : 0 <= st <= len s ->
  exists o, last_of s cs (Some st) = Ok o /\ is_last (fun i => In (byte_at s i) cs) st o.
Proof.
  intros H. unfold last_of. rewrite chk_ok by auto. cbn [assert].
  destruct (bwd_from_ok s (fun x => mem x cs) st H) as (o & E & Ho). exists o; split; auto.
  eapply is_last_ext; [|exact Ho]. intros; cbn. apply mem_in.
Qed.
Lemma last_of_c_ok s c st : 0 <= st <= len s ->
  exists o, last_of_c s c (Some st) = Ok o /\ is_last (fun i => byte_at s i = c) st o.
Proof.
  intros H. unfold last_of_c. rewrite chk_ok by auto. cbn [assert].
  destruct (bwd_from_ok s (fun x => x =? c) st H) as (o & E & Ho). exists o; split; auto.
  eapply is_last_ext; [|exact Ho]. intros; cbn. apply Z.eqb_eq.
Qed.
Lemma last_not_of_ok s cs st : 0 <= st <= len s ->
  exists o, last_not_of s cs (Some st) = Ok o /\ is_last (fun i => ~ In (byte_at s i) cs) st o.
Proof.
  intros H. unfold last_not_of. rewrite chk_ok by auto. cbn [assert].
  destruct (bwd_from_ok s (fun x => negb (mem x cs)) st H) as (o & E & Ho). exists o; split; auto.
  eapply is_last_ext; [|exact Ho]. intros; cbn. apply mem_notin.
Qed.
Lemma last_not_of_c_ok s c st : 0 <= st <= len s ->
  exists o, last_not_of_c s c (Some st) = Ok o /\ is_last (fun i => byte_at s i <> c) st o.
Proof.
  intros H. unfold last_not_of_c. rewrite chk_ok by auto. cbn [assert].
  destruct (bwd_from_ok s (fun x => negb (x =? c)) st H) as (o & E & Ho). exists o; split; auto.
  eapply is_last_ext; [|exact Ho]. intros; cbn. lia.
Qed.

(** ** list facts: slices and positions *)
Lemma byte_at_app1 a b i : 0 <= i < len a -> byte_at (a ++ b) i = byte_at a i.
Proof. intros. unfold byte_at. apply app_nth1. unfold len in *; lia. Qed.
Lemma byte_at_app2 a b i : len a <= i -> byte_at (a ++ b) i = byte_at b (i - len a).
Proof.
  intros. unfold byte_at. rewrite app_nth2 by (unfold len in *; lia). f_equal. unfold len; lia.
Qed.
Lemma byte_at_cons0 c s : byte_at (c :: s) 0 = c. Proof. reflexivity. Qed.
Lemma byte_at_consS c s i : 0 < i -> byte_at (c :: s) i = byte_at s (i - 1).
Proof.
  intros. unfold byte_at. replace (Z.to_nat i) with (S (Z.to_nat (i - 1))) by lia. reflexivity.
Qed.
Lemma byte_at_in s i : 0 <= i < len s -> In (byte_at s i) s.
Proof. intros. apply nth_In. unfold len in *; lia. Qed.
Lemma in_byte_at s c : In c s -> exists i, 0 <= i < len s /\ byte_at s i = c.
Proof.
  intros H. apply (In_nth _ _ 0) in H as (n & Hn & E). exists (Z.of_nat n).
  unfold len, byte_at. split; [lia|]. rewrite Nat2Z.id; auto.
Qed.
Lemma split_at (s : list Z) i : 0 <= i <= len s -> exists a b, s = a ++ b /\ len a = i /\ len b = len s - i.
Proof.
  intros H. exists (firstn (Z.to_nat i) s), (skipn (Z.to_nat i) s).
  rewrite firstn_skipn. unfold len in *. rewrite firstn_length, skipn_length. repeat split; lia.
Qed.
Lemma split_elem s i : 0 <= i < len s -> exists a b, s = a ++ byte_at s i :: b /\ len a = i.
Proof.
  intros H. destruct (split_at s i ltac:(lia)) as (a & b & -> & La & Lb).
  destruct b as [|c b]; [rewrite len_nil in Lb; lia|]. exists a, b.
  rewrite byte_at_app2 by lia. replace (i - len a) with 0 by lia. auto.
Qed.
Lemma slice_app_mid (a b c : list Z) : slice (a ++ b ++ c) (len a) (len b) = b.
Proof.
  unfold slice, len. rewrite !Nat2Z.id, skipn_app, skipn_all, Nat.sub_diag. cbn.
  rewrite firstn_app, firstn_all, Nat.sub_diag. cbn. apply app_nil_r.
Qed.
Lemma slice_parts (s : list Z) i n : 0 <= i -> 0 <= n -> i + n <= len s ->
  exists a c, s = a ++ slice s i n ++ c /\ len a = i /\ len (slice s i n) = n.
Proof.
  intros Hi Hn H. destruct (split_at s i ltac:(lia)) as (a & b & E & La & Lb).
  destruct (split_at b n ltac:(lia)) as (b1 & c & E2 & Lb1 & Lc). subst b s.
  exists a, c. replace i with (len a) by lia. replace n with (len b1) by lia.
  rewrite slice_app_mid. auto.
Qed.
Lemma Forall_range (P : Z -> Prop) s : (forall j, 0 <= j < len s -> P (byte_at s j)) -> Forall P s.
Proof.
  intros H. apply Forall_forall. intros c Hc. apply in_byte_at in Hc as (i & Hi & <-). auto.
Qed.
Lemma Forall_at (P : Z -> Prop) s j : Forall P s -> 0 <= j < len s -> P (byte_at s j).
Proof. intros H Hj. rewrite Forall_forall in H. apply H, byte_at_in; auto. Qed.
