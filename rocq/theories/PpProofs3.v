(** The paths through the headers, checked one by one. *)
From Verif Require Import Base PpModel PpText PpSpec PpProofs PpProofs2.
From Coq Require Import String.
Open Scope string_scope.
Open Scope Z_scope.

Definition names (t : string) := defined_names (file t).
Definition without (l m : list string) := filter (fun x => negb (memb x m)) l.
Definition D := EDefined.
Definition V := EId.
Definition eq (x : string) (z : Z) := EBin BEq (EId x) (ENum z).

Lemma platform_check : check (names platform_hpp) platform_ints (file platform_hpp) [] (one_goals platforms ++ map read platform_facts)%list (read platform_wrong) = true.
Proof. vm_compute. reflexivity. Qed.

(** ** cpu.hpp *)
Definition c_init (l b : bool) : list lit :=
  ((if l then [(D "__ORDER_LITTLE_ENDIAN__", true); (eq "__ORDER_LITTLE_ENDIAN__" 1234, true)] else [(D "__ORDER_LITTLE_ENDIAN__", false)]) ++
   (if b then [(D "__ORDER_BIG_ENDIAN__", true); (eq "__ORDER_BIG_ENDIAN__" 4321, true)] else [(D "__ORDER_BIG_ENDIAN__", false)]))%list.
Definition c_goals : list expr := (amo cpus ++ EBin BOr (D "__EMSCRIPTEN__") (or_all (map D cpus)) :: map read cpu_facts)%list.
Definition cpu_proves := proves (names cpu_hpp) cpu_ints.
(** how it can end: an error only where no processor is known, or for ARM *)
Definition c_end (c : list lit) (o : outcome) : bool :=
  match o with
  | Done d _ => forallb (cpu_proves c d) c_goals && cpu_proves c [] (EBin BOr (read cpu_known) (read cpu_arm))
  | Error s =>
      if (s =? """unknown CPU architecture""")%string || (s =? """please define CPU architecture macros when compiling with swig""")%string
      then cpu_proves c [] (ENot (EBin BOr (read cpu_known) (read cpu_arm)))
      else if (s =? """unknown CPU architecture: ARM""")%string || (s =? """unknown endianness""")%string
      then cpu_proves c [] (read cpu_arm) else false
  | _ => false
  end.
Lemma cpu_check l b : ends (names cpu_hpp) cpu_ints (file cpu_hpp) (c_init l b) c_end = true.
Proof. destruct l, b; vm_compute; reflexivity. Qed.

(** ** compiler.hpp *)
Lemma compiler_check : check (names compiler_hpp) compiler_ints (file compiler_hpp) [] (one_goals ["C4_MSVC"; "C4_GCC_LIKE"] ++ map read compiler_facts)%list (read compiler_wrong) = true.
Proof. vm_compute. reflexivity. Qed.
(** the version of GCC cannot be used in a condition *)
Definition k_ver (c : list lit) (o : outcome) : bool :=
  match o with
  | Done d _ =>
      match lookup d "C4_GCC" with
      | Some (Some _) => match resolve depth d (EId "C4_GCC_VERSION") with None => true | _ => false end
      | _ => true
      end
  | _ => true
  end.
Lemma version_check : ends (names preprocessor_hpp ++ names compiler_hpp)%list compiler_ints with_preprocessor [] k_ver = true.
Proof. vm_compute. reflexivity. Qed.

(** ** language.hpp *)
Lemma language_check : check (names language_cpp) language_ints (file language_cpp) [(read language_modern, true)] (map read language_facts) (read language_wrong) = true.
Proof. vm_compute. reflexivity. Qed.
(** with C4_CPP from outside *)
Lemma language_client_check :
  check (without (names language_cpp) ["C4_CPP"]) language_ints (file language_cpp) [(D "C4_CPP", true)] (map D ["C4_CPP20"; "C4_CPP17"; "C4_CPP14"; "C4_CPP11"]) (ENum 0) = true.
Proof. vm_compute. reflexivity. Qed.
Lemma exceptions_check : check (names language_exceptions) ["_CPPUNWIND"] (file language_exceptions) [] (map read exceptions_facts) (ENum 0) = true.
Proof. vm_compute. reflexivity. Qed.
Definition a_end (c : list lit) (o : outcome) : bool :=
  match o with
  | Done d _ =>
      match lookup d "C4_ASSUME" with
      | Some (Some m) => mfn m && (balanced (mbody m) || proves [] ["C4_ASSUME_ALLOW_EVAL"; "__GNUC__"] c [] (read assume_evaluates))
      | _ => false
      end
  | _ => false
  end.
Lemma assume_check : ends (without (names language_assume) ["C4_ASSUME_ALLOW_EVAL"]) ["C4_ASSUME_ALLOW_EVAL"; "__GNUC__"] (file language_assume) [] a_end = true.
Proof. vm_compute. reflexivity. Qed.

(** ** charconv.hpp *)
Lemma charconv_check : check (names charconv_hpp) charconv_ints (file charconv_hpp) [] (map read charconv_facts) (ENum 0) = true.
Proof. vm_compute. reflexivity. Qed.
(** <charconv> is included where it is used, fast_float too *)
Definition h_end (c : list lit) (o : outcome) : bool :=
  match o with
  | Done d out =>
      let p := proves (names charconv_hpp) charconv_ints c d in
      (memb "#include <charconv>" out || p (read "!C4CORE_HAVE_STD_TOCHARS"))
      && p (if memb "#include ""c4/ext/fast_float.hpp""" out then read "C4CORE_HAVE_FAST_FLOAT" else read "!C4CORE_HAVE_FAST_FLOAT")
  | _ => false
  end.
Lemma charconv_includes : ends (names charconv_hpp) charconv_ints (file charconv_hpp) [] h_end = true.
Proof. vm_compute. reflexivity. Qed.

(** ** memory_resource.cpp *)
Definition m_fr := (names platform_hpp ++ names memory_resource_cpp)%list.
Definition m_end (c : list lit) (o : outcome) : bool :=
  match o with
  | Done d out => memory_ok (fun x => match lookup d x with Some (Some _) => true | _ => false end) out
      && (if memb no_defaults out then proves m_fr platform_ints c [] (D "C4_NO_ALLOC_DEFAULTS") else proves m_fr platform_ints c [] (ENot (D "C4_NO_ALLOC_DEFAULTS")))
  | Error _ => proves m_fr platform_ints c [] (read platform_wrong)
  | _ => false
  end.
Lemma memory_check : ends m_fr platform_ints memory_items [(D "C4_XBOX", false)] m_end = true.
Proof. vm_compute. reflexivity. Qed.

(** ** fast_float *)
Lemma ff_bits_check : check (names fast_float_bits) ["SIZE_MAX"] (file fast_float_bits) []
  (one_goals ["FASTFLOAT_64BIT"; "FASTFLOAT_32BIT"] ++ map read bits_facts)%list (read bits_wrong) = true.
Proof. vm_compute. reflexivity. Qed.
Definition o_end (c : list lit) (o : outcome) : bool :=
  match o with
  | Done d _ => forallb (proves (names fast_float_order) order_ints c d) (map read order_facts) && proves (names fast_float_order) order_ints c [] (ENot (read order_twice))
  | Redefined x => (x =? "FASTFLOAT_IS_BIG_ENDIAN")%string && proves (names fast_float_order) order_ints c [] (read order_twice)
  | _ => false
  end.
Lemma ff_order_check : ends (names fast_float_order) order_ints (file fast_float_order) [] o_end = true.
Proof. vm_compute. reflexivity. Qed.
Lemma ff_simd_check : check (names fast_float_simd) ["_M_IX86_FP"] (file fast_float_simd) [] (map read simd_facts) (ENum 0) = true.
Proof. vm_compute. reflexivity. Qed.
