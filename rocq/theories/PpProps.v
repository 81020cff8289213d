(** The headers that detect the target, run through a preprocessor. *)
From Verif Require Import Base PpModel PpText PpSpec PpProofs2 PpProofs4 PpProofs5 PpProofs6.
From Coq Require Import String.
Open Scope string_scope.
Open Scope Z_scope.

(** what conditions say after a text *)
Definition tell (w : world) (i : items) (l : list string) : option (list (option Z)) :=
  match run w i with Done d _ => Some (map (fun c => value w d (read c)) l) | _ => None end.
Definition lists_ok (l : list string) : bool := forallb (fun c => match cond (lex c) with Some _ => true | None => false end) l.

(** ** C131: the configuration headers *)
(** platform.hpp: exactly one platform, the one of the compiler's macros; an error exactly where there
    is none *)
Theorem C131_platform : forall w, new w platform_hpp [] -> integers w platform_ints ->
  meets w (file platform_hpp) [platforms] platform_facts platform_wrong.
Proof. exact platform_ok. Qed.
(** cpu.hpp: exactly one processor, a word of 4 or 8 bytes, exactly one byte order *)
Theorem C131_cpu : forall w, new w cpu_hpp [] -> integers w cpu_ints -> orders w -> cpu_end w.
Proof. exact cpu_ok. Qed.
(** compiler.hpp *)
Theorem C131_compiler : forall w, new w compiler_hpp [] -> integers w compiler_ints ->
  meets w (file compiler_hpp) [["C4_MSVC"; "C4_GCC_LIKE"]] compiler_facts compiler_wrong.
Proof. exact compiler_ok. Qed.
(** language.hpp *)
Theorem C131_language : forall w, new w language_cpp [] -> integers w language_ints -> taken w [] language_modern ->
  meets w (file language_cpp) [] language_facts language_wrong.
Proof. exact language_ok. Qed.
Theorem C131_constexpr : forall w, new w language_constexpr [] -> integers w constexpr_ints -> constexpr_end w.
Proof. exact constexpr_ok. Qed.
Theorem C131_exceptions : forall w, new w language_exceptions [] -> integers w ["_CPPUNWIND"] ->
  meets w (file language_exceptions) [] exceptions_facts "0".
Proof. exact exceptions_ok. Qed.
Theorem C131_assume : forall w, new w language_assume assume_client -> integers w ["C4_ASSUME_ALLOW_EVAL"; "__GNUC__"] -> assume_end w.
Proof. exact assume_ok. Qed.
(** charconv.hpp: which converters there are, and that their headers are included *)
Theorem C131_charconv : forall w, new w charconv_hpp [] -> integers w charconv_ints -> meets w (file charconv_hpp) [] charconv_facts "0" /\ includes_end w.
Proof. intros w F T. exact (conj (charconv_ok w F T) (includes_ok w F T)). Qed.
(** memory_resource.cpp behind platform.hpp: one way to allocate, and its own way to free *)
Theorem C131_memory : forall w, new w platform_hpp [] -> new w memory_resource_cpp [] -> integers w platform_ints -> base w "C4_XBOX" = None -> memory_end w.
Proof. exact memory_end_ok. Qed.
(** error.hpp: assertions *)
Theorem C131_error : forall w, new w error_hpp error_client -> integers w error_ints -> base w "_DOXYGEN_" = None -> error_end w.
Proof. exact error_ok. Qed.
(** fast_float: word size, byte order, vector instructions *)
Theorem C131_fast_float : forall w, integers w ["SIZE_MAX"; "__BYTE_ORDER__"; "__ORDER_LITTLE_ENDIAN__"; "__ORDER_BIG_ENDIAN__"; "_M_IX86_FP"] ->
  (new w fast_float_bits [] -> meets w (file fast_float_bits) [["FASTFLOAT_64BIT"; "FASTFLOAT_32BIT"]] bits_facts bits_wrong) /\
  (new w fast_float_order [] -> order_end w) /\
  (new w fast_float_simd [] -> meets w (file fast_float_simd) [] simd_facts "0").
Proof.
  intros w T. split; [|split]; intros F; [apply bits_ok|apply order_ok|apply simd_ok]; try exact F; intros x I; apply T; cbn in I |- *; tauto.
Qed.
(** a macro that a text does not mention keeps its meaning *)
Theorem C131_frame : forall w i x d out, ~ In x (defined_names i) -> run w i = Done d out -> is_defined w d x = match base w x with Some _ => true | None => false end.
Proof. exact frame. Qed.
(** the replacements of all macros have balanced brackets, but for those that open or close a
    namespace, and C4_ASSUME *)
Theorem C131_balanced : forall t x b, In t [platform_hpp; cpu_hpp; compiler_hpp; export_hpp; preprocessor_hpp; language_hpp; config_hpp; error_hpp; charconv_hpp] ->
  In (x, b) (replacements (file t)) ->
  In x ["_C4_BEGIN_NAMESPACE"; "_C4_END_NAMESPACE"; "C4_BEGIN_NAMESPACE"; "C4_END_NAMESPACE"; "C4_BEGIN_HIDDEN_NAMESPACE"; "C4_END_HIDDEN_NAMESPACE"; "C4_ASSUME"] \/ balanced b = true.
Proof. exact all_balanced. Qed.

(** *** What the headers get wrong *)
(** the byte order of cpu.hpp is not the one of the target: little-endian PowerPC, big-endian RISC-V *)
Theorem C131_order_refuted :
  ~ (forall w d out, new w cpu_hpp [] -> integers w cpu_ints -> orders w -> given w "__BYTE_ORDER__" -> run w (file cpu_hpp) = Done d out ->
       taken w d "!(__BYTE_ORDER__ == __ORDER_LITTLE_ENDIAN__) || C4_LITTLE_ENDIAN") /\
  ~ (forall w d out, new w cpu_hpp [] -> integers w cpu_ints -> orders w -> given w "__BYTE_ORDER__" -> run w (file cpu_hpp) = Done d out ->
       taken w d "__BYTE_ORDER__ == __ORDER_LITTLE_ENDIAN__ || !C4_LITTLE_ENDIAN").
Proof. exact (conj ppc64le_wrong riscv_wrong). Qed.
(** nor is the word the size of a pointer: x32 *)
Theorem C131_wordsize_refuted :
  ~ (forall w d out, new w cpu_hpp [] -> integers w cpu_ints -> orders w -> given w "__SIZEOF_POINTER__" -> run w (file cpu_hpp) = Done d out ->
       taken w d "C4_WORDSIZE == __SIZEOF_POINTER__").
Proof. exact x32_wrong. Qed.
(** C4_GCC_VERSION cannot be used in a condition, whatever the compiler: the macro it is made of is
    defined nowhere *)
Theorem C131_version_refuted : forall w d out, new w preprocessor_hpp [] -> new w compiler_hpp [] -> integers w compiler_ints ->
  run w with_preprocessor = Done d out -> on w d "C4_GCC" -> value w d (read "C4_GCC_VERSION") = None.
Proof. exact version_wrong. Qed.
(** a client's C4_CPP turns every language on (#ifdef C4_CPP == 20) *)
Theorem C131_client_refuted : forall w, new w language_cpp ["C4_CPP"] -> integers w language_ints -> given w "C4_CPP" -> client_end w.
Proof. exact client_ok. Qed.
(** a language older than C++98 is not rejected; C4_CPP stays undefined *)
Theorem C131_old_refuted : exists w d out, new w language_cpp [] /\ integers w language_ints /\ run w (file language_cpp) = Done d out /\ ~ on w d "C4_CPP".
Proof. exact old_wrong. Qed.
(** where assumptions are evaluated, the replacement of C4_ASSUME is not balanced *)
Theorem C131_assume_refuted : exists w d out m, new w language_assume assume_client /\ integers w ["C4_ASSUME_ALLOW_EVAL"; "__GNUC__"] /\
  run w (file language_assume) = Done d out /\ lookup d "C4_ASSUME" = Some (Some m) /\ balanced (mbody m) = false.
Proof. exact assume_wrong. Qed.
(** MSVC with C++20 has no C4_CONSTEXPR14 *)
Theorem C131_constexpr_refuted : exists w d out, new w language_constexpr [] /\ integers w constexpr_ints /\ taken w [] "_MSVC_LANG >= 201402" /\
  run w (file language_constexpr) = Done d out /\ replacement d "C4_CONSTEXPR14" "".
Proof. exact constexpr_wrong. Qed.
(** clang with the macros of MSVC 2017: the test for MSVC 2019 always succeeds, as neither version
    is defined *)
Theorem C131_clang_cl_refuted : exists w d out, new w compiler_hpp [] /\ new w language_cpp [] /\ new w charconv_hpp [] /\ integers w compiler_ints /\
  run w (app_items (file compiler_hpp) (app_items (file language_cpp) (file charconv_hpp))) = Done d out /\ taken w [] "defined(_MSC_VER) && _MSC_VER < 1920" /\ taken w d "C4CORE_HAVE_STD_TOCHARS" /\ ~ on w d "C4_MSVC_VERSION_2019".
Proof. exact clang_cl_wrong. Qed.
(** an empty C4_USE_ASSERT, as the documentation has it, is ill-formed *)
Theorem C131_use_assert_refuted : exists w, new w error_hpp error_client /\ base w "C4_USE_ASSERT" = Some PEmpty /\ run w (file error_hpp) = Bad.
Proof. exact use_assert_wrong. Qed.
(** C4_EXCEPTIONS_ENABLED, which makes errors throw, is defined by no header: with exceptions, and
    with C4_ERROR_THROWS_EXCEPTION, C4_NOEXCEPT is noexcept unless the client defines it too *)
Theorem C131_noexcept_refuted :
  (forall t, In t [platform_hpp; cpu_hpp; compiler_hpp; export_hpp; preprocessor_hpp; language_hpp; config_hpp] -> ~ In "C4_EXCEPTIONS_ENABLED" (defined_names (file t))) /\
  forall w d out, new w error_hpp error_client -> integers w error_ints -> base w "_DOXYGEN_" = None -> base w "C4_EXCEPTIONS_ENABLED" = None ->
    run w (file error_hpp) = Done d out -> replacement d "C4_NOEXCEPT" "noexcept".
Proof. exact (conj enabled_nowhere noexcept_always). Qed.
(** two different values for a macro of fast_float, where the compiler says nothing of its byte order *)
Theorem C131_twice_refuted : exists w, new w fast_float_order [] /\ integers w order_ints /\ run w (file fast_float_order) = Redefined "FASTFLOAT_IS_BIG_ENDIAN".
Proof. exact twice_wrong. Qed.

Print Assumptions C131_platform.
Print Assumptions C131_cpu.
Print Assumptions C131_compiler.
Print Assumptions C131_language.
Print Assumptions C131_constexpr.
Print Assumptions C131_exceptions.
Print Assumptions C131_assume.
Print Assumptions C131_charconv.
Print Assumptions C131_memory.
Print Assumptions C131_error.
Print Assumptions C131_fast_float.
Print Assumptions C131_frame.
Print Assumptions C131_balanced.
Print Assumptions C131_order_refuted.
Print Assumptions C131_wordsize_refuted.
Print Assumptions C131_version_refuted.
Print Assumptions C131_client_refuted.
Print Assumptions C131_old_refuted.
Print Assumptions C131_assume_refuted.
Print Assumptions C131_constexpr_refuted.
Print Assumptions C131_clang_cl_refuted.
Print Assumptions C131_use_assert_refuted.
Print Assumptions C131_noexcept_refuted.
Print Assumptions C131_twice_refuted.

(** the conditions of the statements are conditions *)
Example C131_ex1 : forallb lists_ok [platform_facts; [platform_wrong]; cpu_facts; [cpu_arm; cpu_known]; compiler_facts; [compiler_wrong]; language_facts;
  [language_wrong; language_modern; assume_evaluates]; exceptions_facts; charconv_facts; bits_facts; [bits_wrong; order_twice; error_wrong]; order_facts; simd_facts;
  map snd error_choices; map fst error_places; map snd constexpr_choices] = true.
Proof. vm_compute. reflexivity. Qed.
(** the hypotheses hold of GCC on Linux, and what comes out *)
Example C131_ex2 : new gcc_linux platform_hpp [] /\ new gcc_linux cpu_hpp [] /\ new gcc_linux compiler_hpp [] /\ integers gcc_linux (platform_ints ++ cpu_ints ++ compiler_ints ++ language_ints) /\ orders gcc_linux.
Proof. exact gcc_linux_meets. Qed.
Example C131_ex3 : tell gcc_linux (file platform_hpp) ["defined(C4_LINUX)"; "defined(C4_UNIX)"; "defined(C4_POSIX)"; "defined(C4_WIN)"; "defined(C4_MACOS)"] = Some [Some 1; Some 1; Some 1; Some 0; Some 0].
Proof. vm_compute. reflexivity. Qed.
Example C131_ex4 : tell gcc_linux (file cpu_hpp) ["defined(C4_CPU_X86_64)"; "C4_WORDSIZE"; "C4_LITTLE_ENDIAN"; "C4_BIG_ENDIAN"; "defined(C4_CPU_ARM)"] = Some [Some 1; Some 8; Some 1; Some 0; Some 0].
Proof. vm_compute. reflexivity. Qed.
Example C131_ex5 : tell gcc_linux (file language_cpp) ["C4_CPP"; "defined(C4_CPP20)"; "defined(C4_CPP14)"] = Some [Some 17; Some 0; Some 1].
Proof. vm_compute. reflexivity. Qed.
Example C131_ex6 : tell msvc_2022 (app_items (file compiler_hpp) (file language_cpp)) ["defined(C4_MSVC)"; "C4_MSVC_VERSION"; "C4_CPP"; "C4_MSVC_VERSION >= C4_MSVC_VERSION_2019"] = Some [Some 1; Some 17; Some 20; Some 1].
Proof. vm_compute. reflexivity. Qed.
(** all of config.hpp with the headers it includes *)
Definition all_headers : items :=
  inline [("""c4/export.hpp""", file export_hpp); ("""c4/preprocessor.hpp""", file preprocessor_hpp); ("""c4/platform.hpp""", file platform_hpp); ("""c4/cpu.hpp""", file cpu_hpp);
          ("""c4/compiler.hpp""", file compiler_hpp); ("""c4/language.hpp""", inline [("""c4/preprocessor.hpp""", file preprocessor_hpp); ("""c4/compiler.hpp""", inline [("""c4/platform.hpp""", file platform_hpp)] (file compiler_hpp))] (file language_hpp))] (file config_hpp).
Example C131_ex7 : tell gcc_linux all_headers ["defined(C4_LINUX)"; "C4_WORDSIZE"; "defined(C4_GCC)"; "C4_CPP"; "defined(C4_EXCEPTIONS)"; "defined(C4_ERROR_SHOWS_FILELINE)"] = Some [Some 1; Some 8; Some 1; Some 17; Some 1; Some 1].
Proof. vm_compute. reflexivity. Qed.
Example C131_ex8 : tell msvc_2022 all_headers ["defined(C4_WIN64)"; "C4_WORDSIZE"; "defined(C4_MSVC)"; "C4_CPP"; "defined(C4_POSIX)"] = Some [Some 1; Some 8; Some 1; Some 20; Some 0].
Proof. vm_compute. reflexivity. Qed.
Example C131_ex9 : tell clang_macos all_headers ["defined(C4_MACOS)"; "defined(C4_CPU_ARM64)"; "defined(C4_CLANG)"; "defined(C4_GCC)"; "C4_CPP"; "defined(C4_POSIX)"; "C4_LITTLE_ENDIAN"] = Some [Some 1; Some 1; Some 1; Some 0; Some 20; Some 0; Some 1].
Proof. vm_compute. reflexivity. Qed.
(** an unknown processor; an unknown platform *)
Example C131_ex10 : run (world_of []) (file cpu_hpp) = Error """unknown CPU architecture""" /\ rejected (run (world_of []) (file platform_hpp)).
Proof. split; [vm_compute; reflexivity|]. eexists. vm_compute. reflexivity. Qed.
(** assertions follow NDEBUG unless they are asked for *)
Example C131_ex11 : tell (world_of [("NDEBUG", PEmpty)]) (file error_hpp) ["C4_USE_ASSERT"; "C4_USE_XASSERT"] = Some [Some 0; Some 0] /\
  tell (world_of []) (file error_hpp) ["C4_USE_ASSERT"; "C4_USE_XASSERT"] = Some [Some 1; Some 1] /\
  tell (world_of [("NDEBUG", PEmpty); ("C4_USE_XASSERT", PInt 1)]) (file error_hpp) ["C4_USE_ASSERT"; "C4_USE_XASSERT"] = Some [Some 0; Some 1].
Proof. repeat split; vm_compute; reflexivity. Qed.
Example C131_ex12 : tell gcc_linux (file fast_float_order) ["FASTFLOAT_IS_BIG_ENDIAN"] = Some [Some 0] /\ tell riscv_be (file fast_float_order) ["FASTFLOAT_IS_BIG_ENDIAN"] = Some [Some 1] /\
  tell gcc_linux (file fast_float_simd) ["defined(FASTFLOAT_SSE2)"; "defined(FASTFLOAT_NEON)"; "defined(FASTFLOAT_HAS_SIMD)"] = Some [Some 1; Some 0; Some 1] /\
  tell gcc_linux (file fast_float_bits) ["defined(FASTFLOAT_64BIT)"; "defined(FASTFLOAT_32BIT)"] = Some [Some 1; Some 0].
Proof. repeat split; vm_compute; reflexivity. Qed.
(** the preprocessor itself: nesting, undefined names are 0, a macro's replacement is an expression
    of its own, a redefinition, a bad condition that is not reached *)
Example C131_ex13 :
  tell (world_of []) (file ("#define A 2" ++ String nl "#if A > 1 && !B" ++ String nl "# define C A" ++ String nl "#else" ++ String nl "# error no" ++ String nl "#endif" ++ String nl "#undef A")) ["C"; "defined A"; "defined(C)"] = Some [Some 0; Some 0; Some 1] /\
  run (world_of []) (file ("#define A 2" ++ String nl "#define A 3")) = Redefined "A" /\
  run (world_of []) (file ("#define A 2" ++ String nl "#define A 2 // the same" ++ String nl "#if A == 2" ++ String nl "text /* a" ++ String nl "comment */" ++ String nl "#elif )" ++ String nl "#endif")) = Done [("A", Some (Mac false [TNum "2"])); ("A", Some (Mac false [TNum "2"]))] ["text  "] /\
  run (world_of []) (file ("#if )" ++ String nl "#endif")) = Bad /\ run (world_of []) (file "#else") = Bad.
Proof. repeat split; vm_compute; reflexivity. Qed.
