(** Proofs about type names, sizes, sequences and macros. *)
From Verif Require Import Base BaseLemmas TypesModel TypesSpec.
From Coq Require Import Lia.
Open Scope Z_scope.

(** ** type_name *)
Lemma slice_mid (a b c : list Z) : slice (a ++ b ++ c) (len a) (len b) = b.
Proof.
  unfold slice, len. rewrite !Nat2Z.id. rewrite skipn_app, skipn_all, Nat.sub_diag. cbn [skipn app].
  rewrite firstn_app, firstn_all, Nat.sub_diag, firstn_O, app_nil_r. reflexivity.
Qed.
Lemma rds_mid (a b c : list Z) n : n = len b -> rds (a ++ b ++ c) (len a) n = Ok b.
Proof.
  intros ->. pose proof (len_nonneg a). pose proof (len_nonneg b). pose proof (len_nonneg c). unfold rds. destruct (Z.leb_spec (len b) 0) as [E|E].
  - destruct b as [|x b]; [reflexivity|]. rewrite len_cons in E. pose proof (len_nonneg b). lia.
  - rewrite !len_app. replace ((0 <=? len a) && (len a + len b <=? len a + (len b + len c))) with true by lia. now rewrite slice_mid.
Qed.
Lemma rd_at (a r : list Z) c : rd (a ++ c :: r) (len a) = Ok c.
Proof.
  unfold rd. rewrite len_app, len_cons. pose proof (len_nonneg a). pose proof (len_nonneg r).
  replace ((0 <=? len a) && (len a <? len a + (1 + len r))) with true by lia. unfold len. rewrite Nat2Z.id, app_nth2, Nat.sub_diag by lia. reflexivity.
Qed.
Lemma all_at_true w : forall a r, all_at (a ++ w ++ r) (len a) w = Ok true.
Proof.
  induction w as [|c w IH]; intros a r; [reflexivity|]. cbn [all_at app]. rewrite rd_at. cbn [bind]. rewrite Z.eqb_refl.
  replace (a ++ c :: w ++ r) with ((a ++ [c]) ++ w ++ r) by now rewrite <- app_assoc. replace (len a + 1) with (len (a ++ [c])) by now rewrite len_app. apply IH.
Qed.
(** a text that ends with a character that is not in [w] is long enough for the comparison *)
Lemma all_at_false w : forall a s z, (forall r, s ++ [z] <> w ++ r) -> ~ In z w -> all_at (a ++ s ++ [z]) (len a) w = Ok false.
Proof.
  induction w as [|c w IH]; intros a s z N NI.
  - exfalso. exact (N (s ++ [z]) eq_refl).
  - cbn [all_at]. destruct s as [|x s].
    + cbn [app]. rewrite rd_at. cbn [bind]. destruct (Z.eqb_spec z c) as [->|]; [exfalso; apply NI; now left|reflexivity].
    + cbn [app]. rewrite rd_at. cbn [bind]. destruct (Z.eqb_spec x c) as [->|]; [|reflexivity].
      replace (a ++ c :: s ++ [z]) with ((a ++ [c]) ++ s ++ [z]) by now rewrite <- app_assoc. replace (len a + 1) with (len (a ++ [c])) by now rewrite len_app.
      apply IH; [|intros K; apply NI; now right]. intros r E. apply (N r). cbn [app]. now rewrite E.
Qed.
Lemma name_at (pre name suf : list Z) start end_ : start = len pre -> end_ = len suf -> len (pre ++ name ++ suf) < 2 ^ 64 ->
  rds (pre ++ name ++ suf) start (u64 (u64 (len (pre ++ name ++ suf) - start) - end_)) = Ok name.
Proof.
  intros -> -> L. rewrite !len_app in *. pose proof (len_nonneg pre). pose proof (len_nonneg name). pose proof (len_nonneg suf).
  rewrite (u64_id (_ + _ - _)) by lia. rewrite u64_id by lia. apply rds_mid. lia.
Qed.
Lemma plain_names c pre suf name : c <> Msvc -> tstart c = len pre -> tend c = len suf -> len (pre ++ name ++ suf) < 2 ^ 64 -> type_name c (pre ++ name ++ suf) = Ok name.
Proof. intros N S E L. unfold type_name. destruct c; try congruence; cbn [bind]; apply name_at; auto. Qed.
Definition msvc_pre : list Z := s2z "struct _c4t __cdecl _c4tn<".
Definition msvc_suf : list Z := s2z ">(void)".
(** the name with its end does not begin with a kind, if the name does not *)
Lemma kind_end k name r : In k kinds -> (name ++ msvc_suf) ++ [0] = k ++ r -> exists r', name = k ++ r'.
Proof.
  intros K. assert (ND : ~ In (ch ">") k) by (cbn in K; destruct K as [<-|[<-|[]]]; cbn; intros H; repeat (destruct H as [H|H]; [discriminate|]); exact H).
  clear K. revert k ND. induction name as [|c name IH]; intros k ND E.
  - destruct k as [|x k]; [now exists []|]. cbn [app] in E. injection E as <- E. exfalso. apply ND. now left.
  - destruct k as [|x k]; [now exists (c :: name)|]. cbn [app] in E. injection E as <- E. destruct (IH k) as [r' ->]; [intros H; apply ND; now right|exact E|]. now exists r'.
Qed.
Lemma msvc_false k name : In k kinds -> (forall r, name <> k ++ r) -> all_at ((msvc_pre ++ name ++ msvc_suf) ++ [0]) 26 k = Ok false.
Proof.
  intros K N. replace ((msvc_pre ++ name ++ msvc_suf) ++ [0]) with (msvc_pre ++ (name ++ msvc_suf) ++ [0]) by (rewrite <- !app_assoc; reflexivity).
  change 26 with (len msvc_pre). apply all_at_false.
  - intros r E. destruct (kind_end k name r K E) as [r' E']. exact (N r' E').
  - cbn in K. destruct K as [<-|[<-|[]]]; cbn; intros H; repeat (destruct H as [H|H]; [discriminate|]); exact H.
Qed.
Lemma msvc_true k name : all_at ((msvc_pre ++ (k ++ name) ++ msvc_suf) ++ [0]) 26 k = Ok true.
Proof.
  replace ((msvc_pre ++ (k ++ name) ++ msvc_suf) ++ [0]) with (msvc_pre ++ k ++ (name ++ msvc_suf ++ [0])) by (rewrite <- !app_assoc; reflexivity).
  change 26 with (len msvc_pre). apply all_at_true.
Qed.
Lemma msvc_len name : 33 <= len (msvc_pre ++ name ++ msvc_suf).
Proof. rewrite !len_app. change (len msvc_pre) with 26. change (len msvc_suf) with 7. pose proof (len_nonneg name). lia. Qed.
Lemma msvc_plain name : no_kind name -> len (msvc_pre ++ name ++ msvc_suf) < 2 ^ 64 -> type_name Msvc (msvc_pre ++ name ++ msvc_suf) = Ok name.
Proof.
  intros N L. pose proof (msvc_len name). unfold type_name. change (tstart Msvc) with 26.
  replace (6 <? len (msvc_pre ++ name ++ msvc_suf)) with true by lia. replace (7 <? len (msvc_pre ++ name ++ msvc_suf)) with true by lia.
  rewrite msvc_false by (try (now left); intros r; apply N; now left). cbn [bind].
  rewrite msvc_false by (try (right; now left); intros r; apply N; right; now left). cbn [bind]. apply name_at; auto.
Qed.
Lemma msvc_kind k name : In k kinds -> len (msvc_pre ++ (k ++ name) ++ msvc_suf) < 2 ^ 64 -> type_name Msvc (msvc_pre ++ (k ++ name) ++ msvc_suf) = Ok name.
Proof.
  intros K L. pose proof (msvc_len (k ++ name)). unfold type_name. change (tstart Msvc) with 26.
  replace (6 <? len (msvc_pre ++ (k ++ name) ++ msvc_suf)) with true by lia. replace (7 <? len (msvc_pre ++ (k ++ name) ++ msvc_suf)) with true by lia.
  assert (SH : msvc_pre ++ (k ++ name) ++ msvc_suf = (msvc_pre ++ k) ++ name ++ msvc_suf) by (rewrite <- !app_assoc; reflexivity).
  cbn in K. destruct K as [<-|[<-|[]]].
  - change [99; 108; 97; 115; 115; 32] with (s2z "class ") in *. rewrite msvc_true. cbn [bind]. rewrite SH in *. apply name_at; auto.
  - change [115; 116; 114; 117; 99; 116; 32] with (s2z "struct ") in *.
    rewrite msvc_false by (try (now left); intros r E; discriminate E). cbn [bind]. rewrite msvc_true. cbn [bind]. rewrite SH in *. apply name_at; auto.
Qed.

(** ** sizes *)
Lemma min_rem size mn : 0 <= size -> 0 <= mn -> let r := min_remainder size mn in 0 <= r /\ mn <= size + r /\ forall r', 0 <= r' -> mn <= size + r' -> r <= r'.
Proof. intros A B. unfold min_remainder. destruct (Z.ltb_spec size mn); cbn; repeat split; lia. Qed.
Lemma mult_rem size k : 0 <= size -> 0 < k -> let r := mult_remainder size k in 0 <= r < k /\ (size + r) mod k = 0 /\ forall r', 0 <= r' -> (size + r') mod k = 0 -> r <= r'.
Proof.
  intros A B. unfold mult_remainder. pose proof (Z.mod_pos_bound size k B). pose proof (Z.div_mod size k ltac:(lia)) as D.
  destruct (Z.eqb_spec (size mod k) 0) as [E|E]; cbn [negb]; cbv zeta.
  - repeat split; try lia. now rewrite Z.add_0_r.
  - split; [lia|]. split.
    + replace (size + (k - size mod k)) with ((size / k + 1) * k) by lia. apply Z.mod_mul. lia.
    + intros r' P M. destruct (Z.le_gt_cases (k - size mod k) r') as [|G]; [assumption|exfalso].
      assert ((size + r') mod k = size mod k + r').
      { symmetry. apply (Z.mod_unique _ _ (size / k)); [left; lia|lia]. }
      lia.
Qed.
Definition solid (t : layout) : Prop := 0 <= l_size t /\ l_dsize t = l_size t.
Lemma padded_solid t n : solid t -> 0 <= n -> solid (padded t n) /\ l_size (padded t n) = l_size t + n.
Proof. intros [S D] N. unfold padded, solid. destruct (Z.eqb_spec n 0); cbn [l_size l_dsize]; lia. Qed.

(** ** integer sequences *)
Lemma counts_iota n s : counts n s -> 0 <= n -> s = map Z.of_nat (seq 0 (Z.to_nat n)).
Proof.
  intros [L H] N. apply (nth_ext _ _ 0 0).
  - rewrite map_length, seq_length. unfold len in L. lia.
  - intros i I. unfold len in L. specialize (H (Z.of_nat i) ltac:(lia)). rewrite Nat2Z.id in H. rewrite H.
    rewrite (nth_indep _ 0 (Z.of_nat 0)) by (rewrite map_length, seq_length; lia). rewrite map_nth, seq_nth by lia. reflexivity.
Qed.
Lemma iota_counts n : 0 <= n -> counts n (map Z.of_nat (seq 0 (Z.to_nat n))).
Proof.
  intros N. split; [unfold len; rewrite map_length, seq_length; lia|]. intros i I.
  rewrite (nth_indep _ 0 (Z.of_nat 0)) by (rewrite map_length, seq_length; lia). rewrite map_nth, seq_nth by lia. lia.
Qed.
Lemma counts_app n k s t : counts n s -> 0 <= n -> len t = k -> (forall i, 0 <= i < k -> nth (Z.to_nat i) t 0 = n + i) -> counts (n + k) (s ++ t).
Proof.
  intros [L H] N LT T. split; [rewrite len_app; lia|]. intros i I. destruct (Z.lt_ge_cases i n) as [C|C].
  - rewrite app_nth1 by (unfold len in *; lia). now apply H.
  - rewrite app_nth2 by (unfold len in *; lia). replace (Z.to_nat i - length s)%nat with (Z.to_nat (i - n)) by (unfold len in *; lia). rewrite T by lia. lia.
Qed.
Lemma shifted n d s : counts n s -> forall i, 0 <= i < n -> nth (Z.to_nat i) (map (Z.add d) s) 0 = d + i.
Proof.
  intros [L H] i I. rewrite (nth_indep _ 0 (d + 0)) by (rewrite map_length; unfold len in L; lia). rewrite (map_nth (Z.add d)). now rewrite H.
Qed.
Lemma len_map_Z (f : Z -> Z) l : len (map f l) = len l. Proof. unfold len. now rewrite map_length. Qed.
Lemma parity_ok n : 0 <= n -> len (parity_extra n) = n mod 8 /\ forall i, 0 <= i < n mod 8 -> nth (Z.to_nat i) (parity_extra n) 0 = n - n mod 8 + i.
Proof.
  intros N. pose proof (Z.mod_pos_bound n 8 ltac:(lia)). unfold parity_extra.
  assert (K : n mod 8 = 0 \/ n mod 8 = 1 \/ n mod 8 = 2 \/ n mod 8 = 3 \/ n mod 8 = 4 \/ n mod 8 = 5 \/ n mod 8 = 6 \/ n mod 8 = 7) by lia.
  assert (D : forall i, 0 <= i < 7 -> i = 0 \/ i = 1 \/ i = 2 \/ i = 3 \/ i = 4 \/ i = 5 \/ i = 6) by (intros; lia).
  destruct K as [K|[K|[K|[K|[K|[K|[K|K]]]]]]]; rewrite K; (split; [reflexivity|]); intros i I;
    (destruct (D i ltac:(lia)) as [-> | [-> | [-> | [-> | [-> | [-> | -> ]]]]]]; try (exfalso; lia); match goal with |- context[Z.to_nat ?k] => let v := eval vm_compute in (Z.to_nat k) in change (Z.to_nat k) with v end; cbn [nth]; lia).
Qed.
Lemma repeat8_ok k s n : counts k s -> 0 <= k -> k = n / 8 -> 0 <= n -> counts n (repeat8 s (parity_extra n)).
Proof.
  intros C K E N. pose proof (Z.div_mod n 8 ltac:(lia)) as D. destruct (parity_ok n N) as [PL PN]. assert (L : len s = k) by (destruct C; assumption).
  unfold repeat8. cbv zeta. rewrite L. replace n with (k + k + k + k + k + k + k + k + n mod 8) at 1 by lia.
  rewrite !app_assoc. repeat (apply counts_app; [|lia|rewrite ?len_map_Z; assumption|]).
  - exact C.
  - now apply shifted.
  - intros i I. rewrite (shifted k) by auto. lia.
  - intros i I. rewrite (shifted k) by auto. lia.
  - intros i I. rewrite (shifted k) by auto. lia.
  - intros i I. rewrite (shifted k) by auto. lia.
  - intros i I. rewrite (shifted k) by auto. lia.
  - intros i I. rewrite (shifted k) by auto. lia.
  - intros i I. rewrite PN by auto. lia.
Qed.
Lemma make_small fuel n : 0 <= n < 8 -> make_seq (S fuel) n = Ok (map Z.of_nat (seq 0 (Z.to_nat n))).
Proof.
  intros H. assert (K : n = 0 \/ n = 1 \/ n = 2 \/ n = 3 \/ n = 4 \/ n = 5 \/ n = 6 \/ n = 7) by lia.
  repeat (destruct K as [->|K]; [reflexivity|]). subst n. reflexivity.
Qed.
Lemma make_big fuel n : 8 <= n -> make_seq (S fuel) n = do s <- make_seq fuel (n / 8) ;; Ok (repeat8 s (parity_extra n)).
Proof. intros H. destruct n as [|p|p]; try lia. do 3 (destruct p as [p|p|]; try lia; try reflexivity). Qed.
Theorem make_seq_ok : forall fuel n, 0 <= n -> n < 8 ^ Z.of_nat fuel -> exists s, make_seq (S fuel) n = Ok s /\ counts n s.
Proof.
  induction fuel as [|fuel IH]; intros n N F.
  - change (8 ^ Z.of_nat 0) with 1 in F. assert (n = 0) as -> by lia. exists []. split; [reflexivity|]. split; [reflexivity|]. intros i I. lia.
  - destruct (Z.lt_ge_cases n 8) as [C|C].
    + rewrite make_small by lia. eexists. split; [reflexivity|]. now apply iota_counts.
    + rewrite make_big by lia. destruct (IH (n / 8)) as [s [E C']].
      * apply Z.div_pos; lia.
      * apply Z.div_lt_upper_bound; [lia|]. replace (Z.of_nat (S fuel)) with (Z.succ (Z.of_nat fuel)) in F by lia. rewrite Z.pow_succ_r in F by lia. exact F.
      * rewrite E. cbn [bind]. eexists. split; [reflexivity|]. apply (repeat8_ok (n / 8)); auto. apply Z.div_pos; lia.
Qed.

(** ** macros *)
Lemma for_each_n_ok {A} (args : list A) : args <> [] -> for_each_n (length args) args = Ok (flat_map (fun x => [What x; Sep]) args).
Proof.
  induction args as [|x r IH]; intros N; [congruence|]. destruct r as [|y r]; [reflexivity|].
  specialize (IH ltac:(discriminate)). cbn [length] in *. cbn [for_each_n]. cbn [length for_each_n] in IH. rewrite IH. reflexivity.
Qed.
Lemma narg_ok {A} (args : list A) : (1 <= length args <= 32)%nat -> for_each_narg args = Some (PNum (length args)).
Proof.
  intros L. unfold for_each_narg, rseq_n. rewrite nth_error_app2 by (rewrite map_length; lia). rewrite map_length, nth_error_map.
  assert (E : nth_error (rev (seq 1 32)) (32 - length args) = Some (length args)).
  { remember (length args) as k eqn:K. clear K. do 33 (destruct k as [|k]; [try lia; reflexivity|]). lia. }
  now rewrite E.
Qed.
Lemma narg_many {A} (args : list A) : (33 <= length args)%nat -> exists x, for_each_narg args = Some (PArg x).
Proof.
  intros L. unfold for_each_narg. rewrite nth_error_app1 by (rewrite map_length; lia). rewrite nth_error_map.
  destruct (nth_error args 32) as [x|] eqn:E; [now exists x|]. apply nth_error_None in E. lia.
Qed.
