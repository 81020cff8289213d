(** From the checked paths to the statements. *)
From Verif Require Import Base PpModel PpText PpSpec PpProofs PpProofs2 PpProofs3.
From Coq Require Import String.
Open Scope string_scope.
Open Scope Z_scope.
Local Strategy opaque [depth tab resolve tabf sym check ends].

Lemma resolve_nil n e : forall e', resolve n [] e = Some e' -> e' = e.
Proof.
  revert e. induction n as [|n IH]; intros e e' H; [discriminate|]. destruct e as [z|x|x|f a|e|o a b]; cbn [resolve lookup] in H; try congruence.
  - destruct (resolve n [] e) as [c|] eqn:R; [|discriminate]. apply IH in R. congruence.
  - destruct (resolve n [] a) as [c|] eqn:R; [|discriminate]. destruct (resolve n [] b) as [c'|] eqn:R'; [|discriminate]. apply IH in R. apply IH in R'. congruence.
Qed.
Lemma value_n_nil n w e z : value_n n w [] e = Some z -> eval w e = Some z.
Proof. unfold value_n. destruct (resolve n [] e) as [c|] eqn:R; [|discriminate]. apply resolve_nil in R. congruence. Qed.
Lemma taken_holds w c : taken w [] c -> holds w (read c, true).
Proof.
  intros (z & E & N). rewrite value_is in E. apply value_n_nil in E. exists z. split; [exact E|]. apply negb_true_iff, Z.eqb_neq, N.
Qed.
Lemma not_value_n n w d e z : value_n n w d (ENot e) = Some z -> z <> 0 -> exists m, n = S m /\ value_n m w d e = Some 0.
Proof.
  destruct n as [|n]; [discriminate|]. unfold value_n. cbn [resolve]. destruct (resolve n d e) as [c|] eqn:R; [|discriminate]. cbn [eval].
  destruct (eval w c) as [v|] eqn:Q; [|discriminate]. intros E N. injection E as <-. exists n. split; [reflexivity|]. rewrite R, Q.
  destruct (v =? 0) eqn:V0; [|destruct (N eq_refl)]. apply Z.eqb_eq in V0. congruence.
Qed.
Lemma true_not w d e : true_in w d (ENot e) -> value w d e = Some 0.
Proof.
  intros (z & E & N). rewrite value_is in E |- *. revert E. generalize depth as n. intros n E.
  destruct (not_value_n _ _ _ _ _ E N) as (m & -> & Q). apply value_up, Q.
Qed.
Lemma without_in x l m : In x (without l m) <-> In x l /\ ~ In x m.
Proof.
  unfold without. rewrite filter_In. split; intros [A B]; (split; [exact A|]).
  - intros C. apply negb_true_iff in B. assert (memb x m = true) by (apply existsb_exists; exists x; split; [exact C|apply String.eqb_refl]). congruence.
  - apply negb_true_iff. destruct (memb x m) eqn:M; [|reflexivity]. apply memb_in in M. contradiction.
Qed.
Lemma new_fresh w t client : new w t client -> fresh w (without (names t) client).
Proof. intros H x I. apply without_in in I as [A B]. apply H; assumption. Qed.
Lemma new_fresh0 w t : new w t [] -> fresh w (names t).
Proof. intros H x I. apply H; [exact I|]. intros []. Qed.

Lemma meets_ok w fr ints i init l facts wrong :
  check fr ints i init (one_goals l ++ map read facts)%list (read wrong) = true -> NoDup l ->
  fresh w fr -> integers w ints -> holds_all w init -> meets w i [l] facts wrong.
Proof.
  intros C N F T H. unfold meets. destruct (check_ok _ _ _ _ _ _ C w F T H) as [(d & out & E & G & W)|(s & E & W)]; rewrite E.
  - split; [|split].
    + intros m [<-|[]]. apply one_ok; [|exact N]. intros g I. apply G, in_or_app. left. exact I.
    + intros c I. apply G, in_or_app. right. apply in_map, I.
    + apply true_not, W.
  - exact W.
Qed.
Lemma meets_ok0 w fr ints i init facts wrong :
  check fr ints i init (map read facts) (read wrong) = true ->
  fresh w fr -> integers w ints -> holds_all w init -> meets w i [] facts wrong.
Proof.
  intros C F T H. unfold meets. destruct (check_ok _ _ _ _ _ _ C w F T H) as [(d & out & E & G & W)|(s & E & W)]; rewrite E.
  - split; [|split].
    + intros m [].
    + intros c I. apply G, in_map, I.
    + apply true_not, W.
  - exact W.
Qed.
Lemma nil_holds w : holds_all w []. Proof. constructor. Qed.
Ltac nodup := repeat (constructor; [cbn; intuition discriminate|]); constructor.

Lemma platform_ok w : new w platform_hpp [] -> integers w platform_ints -> meets w (file platform_hpp) [platforms] platform_facts platform_wrong.
Proof. intros F T. eapply meets_ok; [exact platform_check|nodup|apply new_fresh0, F|exact T|apply nil_holds]. Qed.
Lemma compiler_ok w : new w compiler_hpp [] -> integers w compiler_ints -> meets w (file compiler_hpp) [["C4_MSVC"; "C4_GCC_LIKE"]] compiler_facts compiler_wrong.
Proof. intros F T. eapply meets_ok; [exact compiler_check|nodup|apply new_fresh0, F|exact T|apply nil_holds]. Qed.
Lemma language_ok w : new w language_cpp [] -> integers w language_ints -> taken w [] language_modern -> meets w (file language_cpp) [] language_facts language_wrong.
Proof. intros F T M. eapply meets_ok0; [exact language_check|apply new_fresh0, F|exact T|]. constructor; [apply taken_holds, M|constructor]. Qed.
Lemma exceptions_ok w : new w language_exceptions [] -> integers w ["_CPPUNWIND"] -> meets w (file language_exceptions) [] exceptions_facts "0".
Proof. intros F T. eapply meets_ok0; [exact exceptions_check|apply new_fresh0, F|exact T|apply nil_holds]. Qed.
Lemma charconv_ok w : new w charconv_hpp [] -> integers w charconv_ints -> meets w (file charconv_hpp) [] charconv_facts "0".
Proof. intros F T. eapply meets_ok0; [exact charconv_check|apply new_fresh0, F|exact T|apply nil_holds]. Qed.
Lemma bits_ok w : new w fast_float_bits [] -> integers w ["SIZE_MAX"] -> meets w (file fast_float_bits) [["FASTFLOAT_64BIT"; "FASTFLOAT_32BIT"]] bits_facts bits_wrong.
Proof. intros F T. eapply meets_ok; [exact ff_bits_check|nodup|apply new_fresh0, F|exact T|apply nil_holds]. Qed.
Lemma simd_ok w : new w fast_float_simd [] -> integers w ["_M_IX86_FP"] -> meets w (file fast_float_simd) [] simd_facts "0".
Proof. intros F T. eapply meets_ok0; [exact ff_simd_check|apply new_fresh0, F|exact T|apply nil_holds]. Qed.

(** ** cpu.hpp *)
Lemma truth_or n w d x y : truth n w d (EBin BOr x y) true -> truth (pred n) w d x true \/ truth (pred n) w d y true.
Proof.
  intros (z & E & B). destruct n as [|n]; [discriminate|]. unfold value_n in E. cbn [resolve pred] in *.
  destruct (resolve n d x) as [c|] eqn:R; [|discriminate]. destruct (resolve n d y) as [c'|] eqn:R'; [|discriminate]. cbn [eval] in E.
  destruct (eval w c) as [u|] eqn:U; [|discriminate]. destruct (eval w c') as [v|] eqn:W; [|discriminate]. injection E as <-.
  cbn [binval] in B. destruct (u =? 0) eqn:U0; [right; exists v|left; exists u]; unfold value_n.
  - rewrite R', W. split; [reflexivity|]. destruct (v =? 0); [discriminate B|reflexivity].
  - rewrite R, U, U0. auto.
Qed.
Lemma truth_nor n w d x y : truth n w d (ENot (EBin BOr x y)) true -> truth (pred (pred n)) w d x false /\ truth (pred (pred n)) w d y false.
Proof.
  intros (z & E & B). destruct n as [|n]; [discriminate|]. unfold value_n in E. cbn [resolve pred] in *.
  destruct n as [|n]; [discriminate|]. cbn [resolve pred] in *.
  destruct (resolve n d x) as [c|] eqn:R; [|discriminate]. destruct (resolve n d y) as [c'|] eqn:R'; [|discriminate]. cbn [eval] in E.
  destruct (eval w c) as [u|] eqn:U; [|discriminate]. destruct (eval w c') as [v|] eqn:W; [|discriminate]. injection E as <-.
  cbn [binval] in B. split; [exists u|exists v]; unfold value_n; rewrite ?R, ?R', ?U, ?W; (split; [reflexivity|]);
    destruct (u =? 0), (v =? 0); try discriminate B; reflexivity.
Qed.
Lemma truth_up n w d e b : (n <= depth)%nat -> truth n w d e b -> truth depth w d e b.
Proof.
  intros L (z & E & B). exists z. split; [|exact B]. revert L. generalize depth as k. intros k L. replace k with ((k - n) + n)%nat by lia.
  induction (k - n)%nat as [|j IH]; [exact E|]. apply value_up in IH. exact IH.
Qed.
Lemma truth_taken w d c : truth depth w d (read c) true -> taken w d c.
Proof. intros (z & E & B). exists z. rewrite value_is. split; [exact E|]. apply negb_true_iff, Z.eqb_neq in B. exact B. Qed.
Lemma truth_skipped w d c : truth depth w d (read c) false -> skipped w d c.
Proof. intros (z & E & B). unfold skipped. rewrite value_is, E. apply negb_false_iff, Z.eqb_eq in B. congruence. Qed.
Lemma true_truth w d e : true_in w d e -> truth depth w d e true.
Proof. intros (z & E & N). exists z. rewrite value_is in E. split; [exact E|]. apply negb_true_iff, Z.eqb_neq, N. Qed.
Lemma cpu_ok w : new w cpu_hpp [] -> integers w cpu_ints -> orders w -> cpu_end w.
Proof.
  intros F T [L B]. assert (H : exists l b, holds_all w (c_init l b)).
  { assert (HL : exists l, holds_all w (if l : bool then [(D "__ORDER_LITTLE_ENDIAN__", true); (eq "__ORDER_LITTLE_ENDIAN__" 1234, true)] else [(D "__ORDER_LITTLE_ENDIAN__", false)])).
    { destruct L as [L|L]; [exists false|exists true]; repeat (apply Forall_cons; [unfold holds; cbn; rewrite L; eexists; split; reflexivity|]); apply Forall_nil. }
    assert (HB : exists b, holds_all w (if b : bool then [(D "__ORDER_BIG_ENDIAN__", true); (eq "__ORDER_BIG_ENDIAN__" 4321, true)] else [(D "__ORDER_BIG_ENDIAN__", false)])).
    { destruct B as [B|B]; [exists false|exists true]; repeat (apply Forall_cons; [unfold holds; cbn; rewrite B; eexists; split; reflexivity|]); apply Forall_nil. }
    destruct HL as (l & HL), HB as (b & HB). exists l, b. apply Forall_app. split; assumption. }
  destruct H as (l & b & H). apply new_fresh0 in F.
  destruct (ends_ok _ _ _ _ _ (cpu_check l b) w F T H) as (c & Hc & P). unfold cpu_end.
  assert (Pk : forall d e, cpu_proves c d e = true -> true_in w d e) by (intros d e Q; eapply proves_ok; eauto).
  destruct (run w (file cpu_hpp)) as [d out|s| |x] eqn:R; try discriminate P; cbn [c_end] in P.
  - apply andb_true_iff in P as [P1 P2]. rewrite forallb_forall in P1.
    assert (G : forall g, In g c_goals -> true_in w d g) by (intros g I; apply Pk, P1, I). clear P1. apply Pk in P2.
    assert (AM := amo_ok w d cpus). assert (ND : NoDup cpus) by nodup.
    specialize (AM (fun g I => G g (in_or_app _ _ _ (or_introl I))) ND).
    split; [|split].
    + assert (O : true_in w d (EBin BOr (D "__EMSCRIPTEN__") (or_all (map D cpus)))) by (apply G, in_or_app; right; left; reflexivity).
      apply true_says in O. change (EBin BOr (D "__EMSCRIPTEN__") (or_all (map D cpus))) with (or_all (D "__EMSCRIPTEN__" :: map D cpus)) in O.
      apply says_or_all in O as (m & e & I & Lm & S).
      assert (DD : (exists p, In p cpus /\ on w d p) \/ forall x, In x cpus -> ~ on w d x).
      { clear. generalize cpus as l. intros l. induction l as [|a l IH]; [right; intros x []|].
        destruct (is_defined w d a) eqn:E; [left; exists a; split; [left; reflexivity|exact E]|].
        destruct IH as [(p & I & O)|N]; [left; exists p; split; [right; exact I|exact O]|right].
        intros x [<-|I]; [unfold on; congruence|apply N, I]. }
      destruct DD as [(p & Ip & Op)|N]; [left; exists p; split; [exact Ip|]; split; [exact Op|]; intros q Iq Oq; apply AM; assumption|].
      right. split; [|exact N]. destruct I as [<-|I].
      * cbn [says D] in S. unfold on in S. rewrite (frame w (file cpu_hpp) "__EMSCRIPTEN__" d out) in S; [|vm_compute; intuition discriminate|exact R].
        unfold given. destruct (base w "__EMSCRIPTEN__"); congruence.
      * apply in_map_iff in I as (p & <- & Ip). destruct (N p Ip). exact S.
    + intros k Ik. apply G, in_or_app. right. right. apply in_map, Ik.
    + apply true_truth, truth_or in P2 as [Q|Q]; [left|right]; apply truth_taken; (eapply truth_up; [|exact Q]); apply Nat.le_pred_l.
  - destruct ((s =? """unknown CPU architecture""")%string || (s =? """please define CPU architecture macros when compiling with swig""")%string) eqn:S1.
    + left. split.
      * apply orb_true_iff in S1 as [S1|S1]; apply String.eqb_eq in S1; subst s; [left|right; left]; reflexivity.
      * apply Pk, true_truth, truth_nor in P as [Q1 Q2].
        split; apply truth_skipped; (eapply truth_up; [|first [exact Q1|exact Q2]]);
          (eapply Nat.le_trans; [apply Nat.le_pred_l|apply Nat.le_pred_l]).
    + destruct ((s =? """unknown CPU architecture: ARM""")%string || (s =? """unknown endianness""")%string) eqn:S2; [|discriminate].
      right. split.
      * apply orb_true_iff in S2 as [S2|S2]; apply String.eqb_eq in S2; subst s; [left|right; left]; reflexivity.
      * apply Pk in P. exact P.
Qed.
