(** The properties C106-C109 and C121: type names, sizes, integer sequences and macros. *)
From Verif Require Import Base BaseLemmas TypesModel TypesSpec TypesProofs.
From Coq Require Import Lia.
Open Scope Z_scope.

(** ** C106: [type_name] returns exactly the name of the type, for every compiler *)
Theorem C106_type_name : forall name, len name < 2 ^ 63 ->
  type_name Clang (s2z "_c4t _c4tn() [T = " ++ name ++ s2z "]") = Ok name /\
  type_name Gcc7 (s2z "constexpr _c4t _c4tn() [with T = " ++ name ++ s2z "]") = Ok name /\
  type_name GccOld (s2z "_c4t _c4tn() [with T = " ++ name ++ s2z "]") = Ok name /\
  type_name Icc (s2z "_c4t _c4tn() [with T = " ++ name ++ s2z "]") = Ok name /\
  type_name MsvcClang (s2z "_c4t __cdecl _c4tn() [T = " ++ name ++ s2z "]") = Ok name /\
  type_name MsvcClang2022 (s2z "_c4t __cdecl _c4tn(void) [T = " ++ name ++ s2z "]") = Ok name.
Proof.
  intros name L. pose proof (len_nonneg name). assert (P : 2 ^ 64 = 2 * 2 ^ 63) by reflexivity.
  repeat split; (apply plain_names; [discriminate|reflexivity|reflexivity|]); rewrite !len_app;
    match goal with |- len ?a + (_ + len ?b) < _ => let x := eval vm_compute in (len a) in let y := eval vm_compute in (len b) in change (len a) with x; change (len b) with y end; lia.
Qed.
Print Assumptions C106_type_name.
Theorem C106_msvc : forall name, len name < 2 ^ 63 -> no_kind name ->
  type_name Msvc (s2z "struct _c4t __cdecl _c4tn<" ++ name ++ s2z ">(void)") = Ok name.
Proof.
  intros name L N. apply msvc_plain; [exact N|]. assert (P : 2 ^ 64 = 2 * 2 ^ 63) by reflexivity. rewrite !len_app.
  change (len msvc_pre) with 26. change (len msvc_suf) with 7. lia.
Qed.
Print Assumptions C106_msvc.
(** the kind of class that Visual Studio adds is removed, once *)
Theorem C106_msvc_kind : forall k name, len name < 2 ^ 63 -> In k kinds ->
  type_name Msvc (s2z "struct _c4t __cdecl _c4tn<" ++ (k ++ name) ++ s2z ">(void)") = Ok name.
Proof.
  intros k name L K. apply msvc_kind; [exact K|]. assert (P : 2 ^ 64 = 2 * 2 ^ 63) by reflexivity. rewrite !len_app.
  change (len msvc_pre) with 26. change (len msvc_suf) with 7. assert (len k <= 7) by (cbn in K; destruct K as [<-|[<-|[]]]; vm_compute; congruence). lia.
Qed.
Print Assumptions C106_msvc_kind.
(** but not that of an enumeration *)
Theorem C106_msvc_enum_refuted : exists name, name = s2z "color" /\
  type_name Msvc (s2z "struct _c4t __cdecl _c4tn<" ++ (s2z "enum " ++ name) ++ s2z ">(void)") = Ok (s2z "enum color").
Proof. eexists. split; [reflexivity|]. vm_compute. reflexivity. Qed.
Print Assumptions C106_msvc_enum_refuted.
Example C106_ex1 : type_name Clang (s2z "_c4t _c4tn() [T = std::vector<int>]") = Ok (s2z "std::vector<int>") /\
  type_name Gcc7 (s2z "constexpr _c4t _c4tn() [with T = c4::csubstr]") = Ok (s2z "c4::csubstr") /\
  type_name Msvc (s2z "struct _c4t __cdecl _c4tn<class classy>(void)") = Ok (s2z "classy") /\
  type_name Msvc (s2z "struct _c4t __cdecl _c4tn<str>(void)") = Ok (s2z "str").
Proof. vm_compute. auto. Qed.

(** ** C107: the sizes of padded types *)
Theorem C107_min_remainder : forall size mn, 0 <= size -> 0 <= mn ->
  0 <= min_remainder size mn /\ mn <= size + min_remainder size mn /\
  forall r, 0 <= r -> mn <= size + r -> min_remainder size mn <= r.
Proof. exact min_rem. Qed.
Print Assumptions C107_min_remainder.
Theorem C107_mult_remainder : forall size k, 0 <= size -> 0 < k ->
  0 <= mult_remainder size k < k /\ (k | size + mult_remainder size k) /\
  forall r, 0 <= r -> (k | size + r) -> mult_remainder size k <= r.
Proof.
  intros size k S K. destruct (mult_rem size k S K) as [A [B C]]. split; [exact A|]. split; [apply Z.mod_divide; [lia|exact B]|].
  intros r R D. apply C; [exact R|]. apply Z.mod_divide; [lia|exact D].
Qed.
Print Assumptions C107_mult_remainder.
(** the smallest size that is large enough, and the smallest multiple, for a type whose members
    fill its size *)
Theorem C107_min_sized : forall t mn, 0 <= l_size t -> l_dsize t = l_size t -> 0 <= mn ->
  l_size (min_sized t mn) = Z.max (l_size t) mn.
Proof.
  intros t mn S D M. unfold min_sized. destruct (min_rem (l_size t) mn S M) as [A [B C]].
  destruct (padded_solid t (min_remainder (l_size t) mn) (conj S D) A) as [_ ->].
  unfold min_remainder. destruct (Z.ltb_spec (l_size t) mn); lia.
Qed.
Print Assumptions C107_min_sized.
Theorem C107_min_mult_sized : forall t mn k, 0 <= l_size t -> l_dsize t = l_size t -> 0 <= mn -> 0 < k ->
  let n := l_size (min_mult_sized t mn k) in
  l_size t <= n /\ mn <= n /\ (k | n) /\ forall n', l_size t <= n' -> mn <= n' -> (k | n') -> n <= n'.
Proof.
  intros t mn k S D M K. unfold min_mult_sized, mult_sized.
  assert (E : l_size (min_sized t mn) = Z.max (l_size t) mn) by now apply C107_min_sized.
  destruct (min_rem (l_size t) mn S M) as [A _]. destruct (padded_solid t (min_remainder (l_size t) mn) (conj S D) A) as [[S1 D1] _]. fold (min_sized t mn) in S1, D1.
  destruct (C107_mult_remainder (l_size (min_sized t mn)) k S1 K) as [B [C F]].
  destruct (padded_solid (min_sized t mn) (mult_remainder (l_size (min_sized t mn)) k) (conj S1 D1) ltac:(lia)) as [_ ->]. cbv zeta.
  repeat split; try lia; [exact C|]. intros n' X Y Z. specialize (F (n' - l_size (min_sized t mn)) ltac:(lia)).
  replace (l_size (min_sized t mn) + (n' - l_size (min_sized t mn))) with n' in F by lia. specialize (F Z). lia.
Qed.
Print Assumptions C107_min_mult_sized.
Theorem C107_mult_sized : forall t k, 0 <= l_size t -> l_dsize t = l_size t -> 0 < k ->
  let n := l_size (mult_sized t k) in l_size t <= n /\ (k | n) /\ forall n', l_size t <= n' -> (k | n') -> n <= n'.
Proof.
  intros t k S D K. unfold mult_sized. destruct (C107_mult_remainder (l_size t) k S K) as [B [C F]].
  destruct (padded_solid t (mult_remainder (l_size t) k) (conj S D) ltac:(lia)) as [_ ->]. cbv zeta. repeat split; try lia; [exact C|].
  intros n' X Y. specialize (F (n' - l_size t) ltac:(lia)). replace (l_size t + (n' - l_size t)) with n' in F by lia. specialize (F Y). lia.
Qed.
Print Assumptions C107_mult_sized.
Theorem C107_ubuf : forall t, 0 <= l_size t -> l_dsize t = l_size t ->
  64 <= l_size (ubuf_sized t) /\ (16 | l_size (ubuf_sized t)) /\ l_size (ubuf_sized t) < Z.max (l_size t) 64 + 16.
Proof.
  intros t S D. destruct (C107_min_mult_sized t 64 16 S D ltac:(lia) ltac:(lia)) as [A [B [C M]]]. fold (ubuf_sized t) in *. repeat split; [exact B|exact C|].
  pose proof (Z.mod_pos_bound (- Z.max (l_size t) 64) 16 ltac:(lia)).
  assert (X : l_size (ubuf_sized t) <= Z.max (l_size t) 64 + (- Z.max (l_size t) 64) mod 16); [|lia].
  apply M; try lia. apply Z.mod_divide; [lia|]. rewrite Z.add_mod_idemp_r by lia. now rewrite Z.add_opp_diag_r.
Qed.
Print Assumptions C107_ubuf.
(** The requested sizes are missed for an empty class, and for a class with padding at its end
    that the derived class uses: the padding is computed from sizeof, but laid out from the end
    of the members *)
Theorem C107_empty_refuted :
  let empty := {| l_size := 1; l_dsize := 0 |} in
  let tail := {| l_size := 8; l_dsize := 5 |} in
  l_size (min_sized empty 16) = 15 /\ l_size (min_sized tail 16) = 13 /\
  l_size (mult_sized tail 16) = 13 /\ ~ (16 | l_size (mult_sized tail 16)).
Proof. cbv zeta. repeat split; try reflexivity. intros [q H]. change (13 = q * 16) in H. lia. Qed.
Print Assumptions C107_empty_refuted.
Example C107_ex1 :
  let t n := {| l_size := n; l_dsize := n |} in
  l_size (min_sized (t 4) 16) = 16 /\ l_size (mult_sized (t 24) 16) = 32 /\ l_size (min_mult_sized (t 1) 20 8) = 24 /\
  l_size (ubuf_sized (t 4)) = 64 /\ l_size (ubuf_sized (t 65)) = 80.
Proof. vm_compute. auto. Qed.

(** ** C108: [make_index_sequence<N>] is 0, 1, ..., N-1, for every N *)
Theorem C108_sequence : forall n fuel, 0 <= n -> n < 8 ^ Z.of_nat fuel ->
  exists s, make_seq (S fuel) n = Ok s /\ len s = n /\ forall i, 0 <= i < n -> nth (Z.to_nat i) s 0 = i.
Proof. intros n fuel N F. exact (make_seq_ok fuel n N F). Qed.
Print Assumptions C108_sequence.
(** at most 23 nested instantiations *)
Theorem C108_depth : forall n, 0 <= n < 2 ^ 64 -> make_seq 23 n = Ok (map Z.of_nat (seq 0 (Z.to_nat n))).
Proof.
  intros n [N L]. destruct (make_seq_ok 22 n N) as [s [E C]]; [|rewrite E; f_equal; now apply counts_iota].
  eapply Z.lt_le_trans; [exact L|]. vm_compute. congruence.
Qed.
Print Assumptions C108_depth.
Example C108_ex1 : make_seq 3 19 = Ok [0; 1; 2; 3; 4; 5; 6; 7; 8; 9; 10; 11; 12; 13; 14; 15; 16; 17; 18].
Proof. vm_compute. reflexivity. Qed.

(** ** C109: C4_FOR_EACH applies the macro to each of its 1 to 32 arguments, in order *)
Theorem C109_for_each : forall (A : Type) (args : list A), (1 <= length args <= 32)%nat ->
  for_each_sep args = Ok (flat_map (fun x => [What x; Sep]) args).
Proof.
  intros A args L. unfold for_each_sep. rewrite narg_ok by exact L. apply for_each_n_ok. intros ->. cbn in L. lia.
Qed.
Print Assumptions C109_for_each.
(** no macro is found for more *)
Theorem C109_too_many : forall (A : Type) (args : list A), (33 <= length args)%nat -> for_each_sep args = Err.
Proof. intros A args L. unfold for_each_sep. destruct (narg_many args L) as [x ->]. reflexivity. Qed.
Print Assumptions C109_too_many.
(** the separator is not only "between statements" (73), it also follows the last one *)
Theorem C109_between_refuted : forall (A : Type) (args : list A) t, for_each_sep args = Ok t -> exists u, t = u ++ [Sep].
Proof.
  intros A args t E. destruct (le_lt_dec 33 (length args)) as [M|M].
  - rewrite C109_too_many in E by exact M. discriminate.
  - destruct args as [|x r]; [discriminate E|]. rewrite C109_for_each in E by (cbn [length] in *; lia). injection E as <-.
    destruct (exists_last (l := x :: r)) as [u [y U]]; [discriminate|]. change (What x :: Sep :: flat_map (fun x => [What x; Sep]) r) with (flat_map (fun x => [What x; Sep]) (x :: r)).
    rewrite U, flat_map_app. exists (flat_map (fun x => [What x; Sep]) u ++ [What y]). now rewrite <- app_assoc.
Qed.
Print Assumptions C109_between_refuted.
(** versions compare as numbers the way versions do *)
Theorem C109_version : forall a b c d e f, 0 <= b < 100 -> 0 <= c < 100 -> 0 <= e < 100 -> 0 <= f < 100 ->
  (version_cat a b c < version_cat d e f <-> older (a, b, c) (d, e, f)).
Proof. intros a b c d e f B C E F. unfold version_cat, older. lia. Qed.
Print Assumptions C109_version.
Theorem C109_version_large_refuted : older (1, 2, 100) (1, 3, 0) /\ version_cat 1 2 100 = version_cat 1 3 0.
Proof. split; [cbn; lia|reflexivity]. Qed.
Print Assumptions C109_version_large_refuted.
Example C109_ex1 : for_each_sep [10; 20; 30] = Ok [What 10; Sep; What 20; Sep; What 30; Sep] /\ for_each_sep (repeat 0 33) = Err /\ version_cat 0 1 11 = 111.
Proof. vm_compute. auto. Qed.

(** ** C121: C4_DEFINE_HAS_TYPEDEF defines a trait that says whether a type has the member *)
(** it does, if no member is a reference type *)
Theorem C121_value_partial : forall name members, (forall n, ~ In (n, true) members) ->
  (t_value (define_has_typedef name) members = true <-> has_member members name).
Proof.
  intros name members NR. cbn [t_value define_has_typedef]. replace (expand (s2z "member_typedef") name trait_member) with name by reflexivity.
  set (e := existsb _ members). assert (H : e = true <-> has_member members name); [|destruct e; cbn; tauto].
  unfold e. rewrite existsb_exists. unfold has_member. split.
  - intros [[n r] [I X]]. cbn [fst snd] in X. destruct (list_eq_dec Z.eq_dec n name) as [->|]; [|discriminate]. now exists r.
  - intros [r I]. exists (name, r). split; [exact I|]. cbn [fst snd]. destruct (list_eq_dec Z.eq_dec name name); [|contradiction].
    destruct r; [exfalso; exact (NR name I)|reflexivity].
Qed.
Print Assumptions C121_value_partial.
(** a member that is a reference type is not found, as the members reference and const_reference of the
    containers *)
Theorem C121_reference_refuted : forall name members, has_member members name -> (forall r, In (name, r) members -> r = true) ->
  t_value (define_has_typedef name) members = false.
Proof.
  intros name members _ R. cbn [t_value define_has_typedef]. replace (expand (s2z "member_typedef") name trait_member) with name by reflexivity.
  set (e := existsb _ members). assert (H : e = false); [|now rewrite H].
  destruct e eqn:E; [|reflexivity]. unfold e in E. rewrite existsb_exists in E. destruct E as [[n r] [I X]]. cbn [fst snd] in X.
  destruct (list_eq_dec Z.eq_dec n name) as [->|]; [|discriminate]. rewrite (R r I) in X. discriminate.
Qed.
Print Assumptions C121_reference_refuted.
(** every trait has the same name, so the macro can be used once in a scope, and the name does not
    tell the member *)
Theorem C121_name_refuted : (forall a b, t_name (define_has_typedef a) = t_name (define_has_typedef b)) /\
  forall name, name <> s2z "stype" -> t_name (define_has_typedef name) <> s2z "has_" ++ name.
Proof.
  split; [reflexivity|]. intros name N E. apply N. cbn [t_name define_has_typedef] in E. change (s2z "has_" ++ s2z "stype" = s2z "has_" ++ name) in E.
  apply app_inv_head in E. now symmetry.
Qed.
Print Assumptions C121_name_refuted.
Example C121_ex1 : t_value (define_has_typedef (s2z "value_type")) [(s2z "size_type", false); (s2z "value_type", false)] = true /\
  t_value (define_has_typedef (s2z "pointer")) [(s2z "size_type", false); (s2z "value_type", false)] = false /\
  t_value (define_has_typedef (s2z "reference")) [(s2z "reference", true)] = false /\
  t_name (define_has_typedef (s2z "value_type")) = s2z "has_stype".
Proof. vm_compute. auto. Qed.
