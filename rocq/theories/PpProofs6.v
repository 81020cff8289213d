(** Worlds, and what the headers get wrong. *)
From Verif Require Import Base PpModel PpText PpSpec PpProofs PpProofs2 PpProofs3 PpProofs4 PpProofs5.
From Coq Require Import String.
Open Scope string_scope.
Open Scope Z_scope.

(** Worlds for the examples. *)
Definition gcc_linux : world := world_of [
  ("__x86_64__", PInt 1); ("__linux__", PInt 1); ("__unix__", PInt 1); ("__GNUC__", PInt 13); ("__GNUC_MINOR__", PInt 2); ("__GNUC_PATCHLEVEL__", PInt 0);
  ("__cplusplus", PInt 201703); ("__EXCEPTIONS", PInt 1); ("__cpp_exceptions", PInt 199711); ("__SSE2__", PInt 1); ("SIZE_MAX", PInt 18446744073709551615);
  ("__BYTE_ORDER__", PInt 1234); ("__ORDER_LITTLE_ENDIAN__", PInt 1234); ("__ORDER_BIG_ENDIAN__", PInt 4321); ("__ORDER_PDP_ENDIAN__", PInt 3412); ("__SIZEOF_POINTER__", PInt 8)].
Definition msvc_2022 : world := world_of [
  ("_WIN32", PInt 1); ("_WIN64", PInt 1); ("_M_X64", PInt 100); ("_M_AMD64", PInt 100); ("_MSC_VER", PInt 1930); ("_MSVC_LANG", PInt 202002); ("__cplusplus", PInt 199711); ("_CPPUNWIND", PInt 1)].
Definition clang_cl : world := world_of [
  ("_WIN32", PInt 1); ("_WIN64", PInt 1); ("_M_X64", PInt 100); ("_MSC_VER", PInt 1910); ("__clang__", PInt 1); ("__clang_major__", PInt 14); ("__clang_minor__", PInt 0); ("__clang_patchlevel__", PInt 0); ("__cplusplus", PInt 201703)].
Definition clang_macos : world := world_of [
  ("__APPLE__", PInt 1); ("TARGET_OS_MAC", PInt 1); ("TARGET_OS_IPHONE", PInt 0); ("__aarch64__", PInt 1); ("__ARM_ARCH", PInt 8); ("__clang__", PInt 1); ("__clang_major__", PInt 15); ("__GNUC__", PInt 4); ("__GNUC_MINOR__", PInt 2);
  ("__cplusplus", PInt 202002); ("__BYTE_ORDER__", PInt 1234); ("__ORDER_LITTLE_ENDIAN__", PInt 1234); ("__ORDER_BIG_ENDIAN__", PInt 4321)].
Definition ppc64le : world := world_of [
  ("__powerpc__", PInt 1); ("__powerpc64__", PInt 1); ("__ppc64__", PInt 1); ("__linux__", PInt 1); ("__BYTE_ORDER__", PInt 1234); ("__ORDER_LITTLE_ENDIAN__", PInt 1234); ("__ORDER_BIG_ENDIAN__", PInt 4321)].
Definition riscv_be : world := world_of [
  ("__riscv", PInt 1); ("__riscv_xlen", PInt 64); ("__BYTE_ORDER__", PInt 4321); ("__ORDER_LITTLE_ENDIAN__", PInt 1234); ("__ORDER_BIG_ENDIAN__", PInt 4321)].
Definition x32 : world := world_of [("__x86_64__", PInt 1); ("__ILP32__", PInt 1); ("__SIZEOF_POINTER__", PInt 4); ("__BYTE_ORDER__", PInt 1234); ("__ORDER_LITTLE_ENDIAN__", PInt 1234); ("__ORDER_BIG_ENDIAN__", PInt 4321)].

Definition newb (w : world) (t : string) (client : list string) : bool :=
  forallb (fun x => memb x client || match base w x with None => true | _ => false end) (defined_names (file t)).
Lemma newb_ok w t client : newb w t client = true -> new w t client.
Proof.
  unfold newb. intros H x I N. rewrite forallb_forall in H. specialize (H x I). apply orb_true_iff in H as [H|H].
  - apply memb_in in H. contradiction.
  - destruct (base w x); [discriminate|reflexivity].
Qed.
Lemma integers_ok w l : forallb (fun x => match base w x with Some PEmpty => false | _ => true end) l = true -> integers w l.
Proof. intros H x I E. rewrite forallb_forall in H. specialize (H x I). rewrite E in H. discriminate. Qed.
Definition taken_b (w : world) (d : defs) (c : string) : bool := match value w d (read c) with Some z => negb (z =? 0) | None => false end.
Lemma taken_b_ok w d c : taken_b w d c = true -> taken w d c.
Proof. unfold taken_b, taken, true_in. destruct (value w d (read c)) as [z|]; [|discriminate]. intros H. exists z. split; [reflexivity|]. apply negb_true_iff, Z.eqb_neq in H. exact H. Qed.
Lemma taken_b_no w d c : taken_b w d c = false -> ~ taken w d c.
Proof. unfold taken_b. intros H (z & E & N). rewrite E in H. apply negb_false_iff, Z.eqb_eq in H. contradiction. Qed.
(** the macros after a run *)
Definition after (w : world) (i : items) : defs := match run w i with Done d _ => d | _ => [] end.
Definition lines_after (w : world) (i : items) : list string := match run w i with Done _ out => out | _ => [] end.
Definition doneb (w : world) (i : items) : bool := match run w i with Done _ _ => true | _ => false end.
Lemma doneb_ok w i : doneb w i = true -> run w i = Done (after w i) (lines_after w i).
Proof. unfold doneb, after, lines_after. destruct (run w i); [reflexivity|discriminate..]. Qed.
Ltac new := apply newb_ok; vm_compute; reflexivity.
Ltac ints := apply integers_ok; vm_compute; reflexivity.
Ltac yes := apply taken_b_ok; vm_compute; reflexivity.
Ltac no := apply taken_b_no; vm_compute; reflexivity.
Ltac done := apply doneb_ok; vm_compute; reflexivity.
Ltac orders := split; first [left; reflexivity|right; reflexivity].

Lemma ppc64le_wrong : ~ (forall w d out, new w cpu_hpp [] -> integers w cpu_ints -> orders w -> given w "__BYTE_ORDER__" -> run w (file cpu_hpp) = Done d out ->
       taken w d "!(__BYTE_ORDER__ == __ORDER_LITTLE_ENDIAN__) || C4_LITTLE_ENDIAN").
Proof.
  intros H. refine (_ (H ppc64le (after ppc64le (file cpu_hpp)) (lines_after ppc64le (file cpu_hpp)) _ _ _ _ _)); [no|new|ints|orders|discriminate|done].
Qed.
Lemma riscv_wrong : ~ (forall w d out, new w cpu_hpp [] -> integers w cpu_ints -> orders w -> given w "__BYTE_ORDER__" -> run w (file cpu_hpp) = Done d out ->
       taken w d "__BYTE_ORDER__ == __ORDER_LITTLE_ENDIAN__ || !C4_LITTLE_ENDIAN").
Proof.
  intros H. refine (_ (H riscv_be (after riscv_be (file cpu_hpp)) (lines_after riscv_be (file cpu_hpp)) _ _ _ _ _)); [no|new|ints|orders|discriminate|done].
Qed.
Lemma x32_wrong : ~ (forall w d out, new w cpu_hpp [] -> integers w cpu_ints -> orders w -> given w "__SIZEOF_POINTER__" -> run w (file cpu_hpp) = Done d out ->
       taken w d "C4_WORDSIZE == __SIZEOF_POINTER__").
Proof.
  intros H. refine (_ (H x32 (after x32 (file cpu_hpp)) (lines_after x32 (file cpu_hpp)) _ _ _ _ _)); [no|new|ints|orders|discriminate|done].
Qed.
Lemma version_wrong w d out : new w preprocessor_hpp [] -> new w compiler_hpp [] -> integers w compiler_ints ->
  run w with_preprocessor = Done d out -> on w d "C4_GCC" -> value w d (read "C4_GCC_VERSION") = None.
Proof.
  intros F1 F2 T R O. assert (E : read "C4_GCC_VERSION" = EId "C4_GCC_VERSION") by (vm_compute; reflexivity). rewrite E.
  assert (I : In "C4_GCC" (defined_names (file compiler_hpp))) by (apply memb_in; vm_compute; reflexivity).
  exact (version_ok w d out F1 F2 T R O (F2 _ I (fun n => n))).
Qed.
Lemma old_wrong : exists w d out, new w language_cpp [] /\ integers w language_ints /\ run w (file language_cpp) = Done d out /\ ~ on w d "C4_CPP".
Proof.
  exists (world_of [("__cplusplus", PInt 100)]), (after (world_of [("__cplusplus", PInt 100)]) (file language_cpp)), (lines_after (world_of [("__cplusplus", PInt 100)]) (file language_cpp)).
  split; [new|]. split; [ints|]. split; [done|]. vm_compute. discriminate.
Qed.
Lemma assume_wrong : exists w d out m, new w language_assume assume_client /\ integers w ["C4_ASSUME_ALLOW_EVAL"; "__GNUC__"] /\
  run w (file language_assume) = Done d out /\ lookup d "C4_ASSUME" = Some (Some m) /\ balanced (mbody m) = false.
Proof.
  pose (w := world_of [("C4_ASSUME_ALLOW_EVAL", PInt 1); ("__GNUC__", PInt 9)]).
  exists w, (after w (file language_assume)), (lines_after w (file language_assume)). eexists.
  split; [new|]. split; [ints|]. split; [done|]. split; [vm_compute; reflexivity|]. vm_compute. reflexivity.
Qed.
Lemma constexpr_wrong : exists w d out, new w language_constexpr [] /\ integers w constexpr_ints /\ taken w [] "_MSVC_LANG >= 201402" /\
  run w (file language_constexpr) = Done d out /\ replacement d "C4_CONSTEXPR14" "".
Proof.
  exists msvc_2022, (after msvc_2022 (file language_constexpr)), (lines_after msvc_2022 (file language_constexpr)).
  split; [new|]. split; [ints|]. split; [yes|]. split; [done|]. apply body_is_ok. vm_compute. reflexivity.
Qed.
Lemma clang_cl_wrong : exists w d out, new w compiler_hpp [] /\ new w language_cpp [] /\ new w charconv_hpp [] /\ integers w compiler_ints /\
  run w (app_items (file compiler_hpp) (app_items (file language_cpp) (file charconv_hpp))) = Done d out /\ taken w [] "defined(_MSC_VER) && _MSC_VER < 1920" /\ taken w d "C4CORE_HAVE_STD_TOCHARS" /\ ~ on w d "C4_MSVC_VERSION_2019".
Proof.
  exists clang_cl, (after clang_cl (app_items (file compiler_hpp) (app_items (file language_cpp) (file charconv_hpp)))), (lines_after clang_cl (app_items (file compiler_hpp) (app_items (file language_cpp) (file charconv_hpp)))).
  split; [new|]. split; [new|]. split; [new|]. split; [ints|]. split; [done|]. split; [yes|]. split; [yes|]. vm_compute. discriminate.
Qed.
Lemma use_assert_wrong : exists w, new w error_hpp error_client /\ base w "C4_USE_ASSERT" = Some PEmpty /\ run w (file error_hpp) = Bad.
Proof. exists (world_of [("C4_USE_ASSERT", PEmpty)]). split; [new|]. split; [reflexivity|]. vm_compute. reflexivity. Qed.
Lemma enabled_nowhere : forall t, In t [platform_hpp; cpu_hpp; compiler_hpp; export_hpp; preprocessor_hpp; language_hpp; config_hpp] -> ~ In "C4_EXCEPTIONS_ENABLED" (defined_names (file t)).
Proof.
  assert (H : forallb (fun t => negb (memb "C4_EXCEPTIONS_ENABLED" (defined_names (file t)))) [platform_hpp; cpu_hpp; compiler_hpp; export_hpp; preprocessor_hpp; language_hpp; config_hpp] = true) by (vm_compute; reflexivity).
  rewrite forallb_forall in H. intros t I J. specialize (H t I). apply negb_true_iff in H.
  assert (memb "C4_EXCEPTIONS_ENABLED" (defined_names (file t)) = true) by (apply existsb_exists; exists "C4_EXCEPTIONS_ENABLED"; split; [exact J|reflexivity]). congruence.
Qed.
Lemma twice_wrong : exists w, new w fast_float_order [] /\ integers w order_ints /\ run w (file fast_float_order) = Redefined "FASTFLOAT_IS_BIG_ENDIAN".
Proof.
  exists (world_of [("__BYTE_ORDER__", PInt 4321)]). split; [new|]. split; [ints|]. vm_compute. reflexivity.
Qed.
Lemma gcc_linux_meets : new gcc_linux platform_hpp [] /\ new gcc_linux cpu_hpp [] /\ new gcc_linux compiler_hpp [] /\ integers gcc_linux (platform_ints ++ cpu_ints ++ compiler_ints ++ language_ints) /\ orders gcc_linux.
Proof. split; [new|]. split; [new|]. split; [new|]. split; [ints|orders]. Qed.
Lemma all_balanced : forall t x b, In t [platform_hpp; cpu_hpp; compiler_hpp; export_hpp; preprocessor_hpp; language_hpp; config_hpp; error_hpp; charconv_hpp] ->
  In (x, b) (replacements (file t)) ->
  In x ["_C4_BEGIN_NAMESPACE"; "_C4_END_NAMESPACE"; "C4_BEGIN_NAMESPACE"; "C4_END_NAMESPACE"; "C4_BEGIN_HIDDEN_NAMESPACE"; "C4_END_HIDDEN_NAMESPACE"; "C4_ASSUME"] \/ balanced b = true.
Proof.
  assert (H : forallb (fun t => forallb (fun q => memb (fst q) ["_C4_BEGIN_NAMESPACE"; "_C4_END_NAMESPACE"; "C4_BEGIN_NAMESPACE"; "C4_END_NAMESPACE"; "C4_BEGIN_HIDDEN_NAMESPACE"; "C4_END_HIDDEN_NAMESPACE"; "C4_ASSUME"] || balanced (snd q)) (replacements (file t)))
    [platform_hpp; cpu_hpp; compiler_hpp; export_hpp; preprocessor_hpp; language_hpp; config_hpp; error_hpp; charconv_hpp] = true) by (vm_compute; reflexivity).
  rewrite forallb_forall in H. intros t x b I J. specialize (H t I). rewrite forallb_forall in H. specialize (H (x, b) J). cbn [fst snd] in H.
  apply orb_true_iff in H as [H|H]; [left; apply memb_in, H|right; exact H].
Qed.
(** without C4_EXCEPTIONS_ENABLED *)
Definition n_init : list lit := [(D "_DOXYGEN_", false); (D "C4_EXCEPTIONS_ENABLED", false)].
Definition n_end (c : list lit) (o : outcome) : bool := match o with Done d _ => body_is d "C4_NOEXCEPT" "noexcept" | Error _ => true | _ => false end.
Lemma noexcept_check : ends e_fr error_ints (file error_hpp) n_init n_end = true.
Proof. vm_compute. reflexivity. Qed.
Local Strategy opaque [depth tab resolve tabf sym check ends exec run file names read].
Lemma noexcept_always : forall w d out, new w error_hpp error_client -> integers w error_ints -> base w "_DOXYGEN_" = None -> base w "C4_EXCEPTIONS_ENABLED" = None ->
    run w (file error_hpp) = Done d out -> replacement d "C4_NOEXCEPT" "noexcept".
Proof.
  intros w d out F T X B R. assert (F' := new_fresh _ _ _ F). change (fresh w e_fr) in F'. assert (H : holds_all w n_init).
  { apply Forall_cons; [|apply Forall_cons; [|apply Forall_nil]]; exists 0; cbn [fst D eval]; [rewrite X|rewrite B]; auto. }
  destruct (ends_ok _ _ _ _ _ noexcept_check w F' T H) as (c & Hc & P). rewrite R in P. cbn [n_end] in P. apply body_is_ok, P.
Qed.
