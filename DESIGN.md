# Formal model of c4core: design

All development is in Coq 8.16.1 under `rocq/theories` (logical prefix `Verif`).
The source in `/repo` is only read as text. Nothing in it is executed.

## 1. Trusted base

* The Coq 8.16.1 kernel (including `vm_compute`, used for finite sweeps).
* Axioms: every property theorem is followed by `Print Assumptions`. The target
  is "Closed under the global context" for all of them. Any exception is listed
  in section 6.
* The reading of the C++ source into Gallina. Every definition in a `*Model.v`
  file carries a comment with the file and line range it transcribes.
* The meaning given below to C++ integers, buffers, assertions and undefined
  behaviour.

### 1.1 Conventions of the model

* **Characters** are `Z` values in `[0,256)` (the byte value). Where the code
  depends on `char` being signed (x86), the model says so (`schar`).
* **Strings** are `list Z`. A `csubstr` is modelled by its contents when only
  contents matter, and by an (offset, length) view into a parent when the result
  is a view and bounds matter.
* **Writable buffers** are `list Z` of length `buf.len` with arbitrary content.
  A write goes through `wr`, which yields `Ub` when the index is outside the
  buffer. So "never writes outside the buffer" is "the outcome is not `Ub`", and
  "bytes not addressed are unchanged" is a statement about the returned list.
* **Outcomes**: `res A := Ok a | Ub | Err`. `Ub` is undefined behaviour
  (out-of-bounds access, negative shift, ...). `Err` is the library error path
  (`C4_ERROR`, `C4_CHECK`, and `C4_ASSERT` when assertions are enabled).
  A theorem that says `= Ok x` therefore holds in builds with and without
  assertions, because no assertion fails and no undefined behaviour occurs.
  Where a finding is about a build with assertions off, the function takes a
  boolean `dbg`.
* **Integers**: a type is a pair (bits, signedness) in
  {8,16,32,64} x {signed,unsigned}. Values are `Z`. Every place where the C++
  arithmetic can leave the range is wrapped explicitly (`wrap t`). The reading
  loops (`read_dec` and friends) are marked in the source as intentionally
  overflowing (`C4_NO_UBSAN_IOVRFLW`). The model uses two's complement wrap
  there.
* **size_t** is 64 bits, wrap at 2^64 is explicit where it matters; `npos` is
  `None` or 2^64-1.
* **Loops** become structural recursion, folds, or recursion on explicit fuel
  with the out-of-fuel result a distinct value excluded by theorems.
* **Variadic templates** become recursion over the list of arguments.

### 1.2 Not modelled

The floating point text written by std::to_chars and snprintf (a parameter of `RealModel.v`);
the inside of std::from_chars (a parameter, `StdSpec.v` states the C++ standard); the value sscanf
assigns (the model has the text it converts); of fast_float only the configurations named at the heads of `FloatModel.v` and `Limb32Model.v`;
`windows.hpp`, `debugbreak`, the macros of language.hpp other than those of C132, the type traits of
types.hpp, std/tuple.hpp (disabled by its own #if), iostream, real threads, and the real address space beyond integers.
`wchar_t` instantiations of substr are not modelled separately.

## 2. File layout

| area | files |
|---|---|
| base definitions | `Base.v` |
| integers <-> text | `CharconvModel.v`, `CharconvSpec.v`, `CharconvProofs*.v`, `CharconvProps.v` |
| substr, null views | `SubstrModel.v`, `SubstrSpec.v`, `SubstrProofs*.v`, `SubstrProps.v`, `Null*.v` |
| number spans | `SpanNumModel.v`, ... |
| base64, utf8 | `Base64*.v` |
| std containers, blobs, character traits | `Interop*.v` |
| inplace_function | `Inplace*.v` |
| error handling | `Error*.v` |
| fast_float | `Float*.v`, `Limb32*.v`, `FfInt*.v`, `FfOpt*.v`, `FfWide*.v`, `FfCfg*.v` |
| real numbers in charconv | `Real*.v` |
| reading back real numbers | `Read*.v` |
| real numbers with sscanf, with std::from_chars | `Scanf*.v`, `Std*.v` |
| type names, sizes, sequences, macros, additions for GCC 4.8 | `Types*.v`, `Poly*.v` |
| configuration headers, run through a preprocessor | `Pp*.v` |
| replacement of macros in text; repetition, checks, errors | `Macro*.v` |
| format, dump | `Format*.v`, `Dump*.v` |
| memory utilities | `MemUtil*.v`, `Tight*.v` |
| memory resources, allocators, scopes | `MemRes*.v`, `Alloc*.v`, `Provider*.v`, `Hook*.v` |
| spans | `SpanModel.v`, `SpanSpec.v`, ..., `Span2*.v` |
| ctor/dtor | `Ctor*.v` |
| hash, rng, szconv, enum, bitmask | `Hash*.v` (with szconv), `Rng*.v`, `Enum*.v` |

`*Model.v` has definitions only. `*Spec.v` has the independent specification.
`*Props.v` has only the property theorems, each closed by `exact lemma`,
followed by `Print Assumptions` and an `Example` that instantiates the
hypotheses.

## 3. Per property: what is modelled and how it is proved

* **C01** Model the threshold trees; spec = length of the canonical numeral (`numeral b v`, defined by repeated division). Proof: bounds `b^(k-1) <= v < b^k` by case analysis on thresholds; loops for hex/oct by induction.
* **C02** Model the two-at-a-time decimal loop with the digit table, the nibble/bit loops, prefixes and the table path for the most negative value. Spec = `numeral`. Proof: loop invariant relating the unwritten high part and the written suffix; for all widths.
* **C03** Same model; outcome never `Ub`; returned size equals the spec length for every buffer length.
* **C04** Stated as a theorem for the unsigned writers; refuted for signed radix writers with a witness (the sign is stored before the size check).
* **C05** Model `write_num_digits` paths; spec = zero padding of `numeral`.
* **C06** The model carries the 32-bit truncation of the digit count explicitly. Expect a refutation by witness at num_digits >= 2^32, and the positive statement below 2^32.
* **C07** Compose the writing theorem with a reading theorem (value of a numeral, Horner).
* **C08** Model readers with wrap; spec = Horner value modulo 2^n and a character-class predicate; grammar as an inductive/boolean spec independent of the code.
* **C09** Model string comparisons against limit strings; spec = range test on the mathematical value; proof through order-isomorphism between equal-length digit strings and values.
* **C10** Compose 8 and 9.
* **C11** Bounds-checked reads in the model of `overflows`; refutation by witness "-", and positive theorem for all other strings.
* **C12** Model `atoi_first`/`atou_first` on top of the span functions of 31.
* **C13** Direct.
* **C14** Refutation by witness (" true"), with positive theorem on the exact set accepted.
* **C15** Model memcmp-based compare; spec = lexicographic order; order laws by induction.
* **C16** Model the int truncation of len-1; refutation with symbolic length 2^32+1 (wrong result) and 2^31 (undefined subtraction), and positive theorem for len < 2^31.
* **C17** Index loop modelled over positions; spec = least occurrence.
* **C18** Fuelled loop for the pattern version with spec count.
* **C19** The fuelled model runs out of any fuel on the empty pattern: refutation as `forall fuel, = OutOfFuel`.
* **C20** Loops over positions; spec = least/greatest index.
* **C21** From 20.
* **C22** Direct.
* **C23** Model the next_split state machine and the iterator; spec = `split_spec` by structural recursion; join law.
* **C24** Views with explicit size_t arithmetic; refutation for right_of(len), offs; positive for the rest.
* **C25** From 24.
* **C26** Model read/write loop into a bounded buffer; spec = structural replace; safety by the counting lemma.
* **C27** Model byte loops and memmove. The C library's toupper and tolower take an int that is an unsigned char or EOF; the code passes a char, so bytes 128 to 254 are undefined there.
* **C28** From 17/20.
* **C29** Scanner with depth counter; spec = balanced prefix.
* **C30** Refutation by witness for doubled escapes; positive for strings without doubled escapes.
* **C31** Model `_first_integral_span`; spec = regular language predicate.
* **C32** Compose 8 and 31; refutation for leading '+'.
* **C33** Model the four real scanners (one scanner with parameters: digit class, exponent letters, optional exponent sign); soundness and completeness for the literal grammar of `SpanNumSpec.v`.
* **C34** `Base64Model.v` transcribes the tables and both loops; `encode_ok` and
  `decode_ok` give the exact memory for any buffer; composed into the round trip.
* **C35** `Base64Spec.v`: the RFC 4648 text as a function and as a relation (strict
  or with free unused bits), by division; bit operations related by `lor_add`.
* **C36** Exact stored prefix; `decode_safe` for arbitrary texts. The functions take
  the flag `dbg` (assertions compiled in or not).
* **C37** Exact characterisation of `base64_valid`; refuted as an RFC validator by
  "====", "A=BC", "AA==AAAA".
* **C38** Canonical text = strict relation; encoder inverts it.
* **C39** Arithmetic on the four bands; independent value function as spec; the
  string version uses the `read_hex` model of C08.
* **C40** RFC 3629 grammar as an inductive predicate; surrogates refuted.
* **C41** `FormatModel.v`: a closed type of argument kinds, each sent to its `to_chars`
  overload; `arg_text` in `FormatSpec.v` gives the text of each kind. Exact memory
  when the text fits; for smaller buffers size, bounds and the leading arguments.
* **C42** `catsep` equals `cat` of the interleaved list, as an equation.
* **C43** `fmt_subst`: substitution at first occurrences as a relation; `format` equals
  `cat` of the pieces.
* **C44** Composes the writers with the prefix readers of C12.
* **C45** Fuel counts the passes of the retry loop; two always suffice.
* **C46** `dbg` parameter; refuted for all cases in the gap, proved outside it.
* **C47** Direct.
* **C76** Address of the buffer explicit, `std::align` modelled arithmetically.
* **C48** `DumpModel.v`: the calls of the callback are recorded as a list of chunks.
  `catsep_dump` and `format_dump` equal `cat_dump` of the interleaved arguments and of
  the pieces; `cat_dump` by induction.
* **C49** `fit_prefix` (texts before the first argument that does not fit) as spec.
* **C50** `drive` models the caller's loop; the invariant says how many items are done.
  `catsep_dump_resume` is flattened first. Refutations hold for all argument pairs of
  the failing shape, not only for one witness.
* **C51** Same invariant over the pieces of the format.
* **C52** `MemUtilModel.v`. lsb: every non-zero value is `(2q+1)*2^n`, so
  `v ^ (v-1)` is `n+1` ones. msb: one lemma per halving step, the result is `Z.log2`.
* **C53** Bits of the result by induction over the loop, for all types at once.
* **C54** Multiplication in the promoted type; signed overflow is undefined. This
  refutes the claim for `uint16_t`; all other cases are exact.
* **C55** `memcpy` with overlapping ranges is undefined; invariant of the doubling loop:
  `c` copies are in place, `c` at least doubles.
* **C56** Interval arithmetic over integer addresses.
* **C77** `land` with `2^k-1` is `mod`.
* **C57** `SpanModel.v`, the size type a parameter. Spec: each operation maps a window
  (offset, size) of the block to a window; induction over the sequence. The assertion of
  `subspan(first,num)` wraps, which refutes the unconditional claim.
* **C58** From the exact result of `subspan`.
* **C78** Elements read from memory; `lexlt` is the dictionary order.
* **C59** `MemResModel.v`: addresses are integers, state (base, size, pos), `std::align`
  arithmetically with wrap. A client keeps its live blocks; invariant over histories.
  A flag says whether `C4_ERROR` ends the call.
* **C60** Memory is a function from addresses; reallocation never touches it.
* **C61** Constructor and destructor see the base class (upstream), a complete object the
  linear resource itself; the trace of upstream events is the observable.
* **C62** The client's live blocks, without counters, are the specification; `ssize_t`
  arithmetic is undefined on overflow.
* **C63** `AllocModel.v`, witness. **C64** Stack invariant: inline exactly while the sum of
  sizes is at most N; events at the resource balance.
* **C65** Wrap of the product explicit.
* **C66** Programs: set calls, sequence, scopes, throw and try; destructors run on throw.
* **C79** `posix_memalign` is an input; memory is a list, `memcpy` undefined on overlap.
* **C80** Witnesses on `small_reallocate`; `small_allocate` has no alignment argument since
  the array branch ignores it.
* **C67** `CtorModel.v`: memory counted in elements. Trivial types: a list of values,
  `memcpy` undefined on overlap, `memmove` not. Pointwise characterisation of the result
  for every index. Sums in the checks are computed in the promoted size type.
* **C68** Non-trivial types: a list of cells (no object, object with value, object moved
  from) plus the list of objects overwritten without destruction. Moving an object to
  itself is taken to leave it moved from. Loop invariants give the whole result, so the
  refuted parts hold for all sizes, not just for a witness. **C81** The same model.
* **C69** `HashModel.v`: a loop reading memory, product in `size_t` stored in the result
  type; equal to a fold over the bytes. Each step is one to one in the state (odd prime,
  explicit inverse) and in the byte.
* **C70** `is_narrower` as written; the result for all pairs of types and all values.
* **C71** `EnumModel.v`: names are C strings without the terminator, offsets a pair;
  `strncmp` on a text that is not terminated is undefined behind its end. The specification
  says which texts call a symbol; lookup finds the first symbol called.
* **C72** The table is walked in reverse as written, with the buffer as memory and `memmove`.
  The specification: a sublist of the table whose values OR to the bits, joined by `|`.
  Underlying types are the eight integer types (not `char`, for which `uncat` reads one
  character). The stream is the text sent to it.
  Reading is specified by item lists (`item`, `bad_item` in `EnumSpec.v`): `C72_reads`, `C72_rejects`.
* **C73** `RngModel.v`: states are integers below 2^64. `x ^ (x >> k)` is inverted by
  repeating it, multiplications by explicit inverses. Shifts of `uint32_t` are undefined for
  amounts outside 0..31.
* **C82** xorshift is linear over two elements: the power 2^64-1 of its matrix is computed
  to be the identity, and for each prime q of 2^64-1 the matrix M of the power (2^64-1)/q
  satisfies (M+1)^(2^64-1) = 1, so only 0 is fixed. pcg: 2^k divides 1 + a + ... + a^(n-1)
  exactly if it divides n.
* **C74** First word by splitting; refutation for the length of the substr destination.
* **C75** From C07 and C12; the uninitialised local is an arbitrary input of the model.
* **C83-C87** `SubstrModel.v`, `SubstrModel2.v`: the rest of substr.hpp. The ends and
  selections by splitting the string; the extensions from the pop functions of C28; erase by
  range from C27 (`SubstrProofs6.erase_ok`); a quoted string is `SubstrSpec.quoted`.
* **C88** The mixed operators as written, from the order of C15.
* **C89** A std::string is the list of its characters; resize writes the terminator into
  the same storage, which matters for a view of the string itself.
* **C90** Induction on the arguments; `readable` says which lists can be told apart.
* **C91** Arithmetic; flowing off the end of a function with a result is `Ub`, and
  so is isspace of a negative char other than EOF.
* **C92** `InplaceModel.v`: an object has a table pointer and a storage that is raw or holds
  a closure of some type. Constructing over a closure, using one that is not there and losing
  one are `Ub`. The specification is a small step relation on variables; simulation.
* **C93** Programs are trees of settings and blocks; induction is not needed, as the saved
  values do not depend on the body.
* **C94** The text made by vsnprintf is an input; the buffer has uninitialised characters,
  reading which is `Ub`. Callbacks are arbitrary functions on the settings.
* **C95** The file content is an input; strstr and atoi are modelled on the buffer.
* **C96** `FloatModel.v` has fast_float for char, 64-bit limbs and 128-bit products;
  `FloatTable.v` the table of powers as in the source. `FloatSpec.v` says what a word of the
  format means and what correct rounding is, in rationals. The table is checked against exact
  powers by evaluation; that the truncated product suffices follows from a bound on the
  continued fraction of each power, also by evaluation (Mushtak and Lemire).
* **C97** The parser against an inductive grammar of decimal text; the fast path by exact
  integers (the floating point operations of the processor are IEEE 754, modelled by a
  rounding function on fractions that is proved correct); many digits by the error estimate of
  compute_error and the comparison of big integers. In another rounding mode of the processor
  the fast path is taken only if its product is exact.
* **C98** The comparison by exclusive or is shown to be the comparison of letters.
* **C99** The failures of the big integers, which the code ignores, are `Err` in the model and
  excluded by the bounds on the digits; no bound on the length of the text.
* **C100** `RealModel.v` has atof and atod of the builds with fast_float, on top of
  `FloatModel.v`. The number, infinity and NaN cases are C97 and C98; that a decimal text never
  takes the hexadecimal branch is by its grammar.
* **C101** scan_rhex with the arithmetic of IEEE 754 (`fadd`, `fmul`, `fdiv` round fractions
  to nearest). For the texts it reads correctly every operation is shown to be exact.
* **C102** With first_real_span of C33.
* **C103** The text of std::to_chars and snprintf is a parameter, and so is what std::to_chars
  leaves in a range that is too short. `writes` says what callers rely on.
* **C104** cat, catsep and format with each argument as its conversion; shown equal to the
  functions of `FormatModel.v` for its argument kinds. The loop of catrs grows the container at
  each round, so it ends.
* **C105** From C103, C100 and the uniqueness of the nearest number (C96).
* **C106** The name is cut out of the text of the signature, whose form per compiler is in the
  comments of type_name.hpp; the theorems quote these texts.
* **C107** A class is its size and the end of its members, the rule of the Itanium C++ ABI for
  where a derived class may begin. `Padded` is packed.
* **C108** The templates `__make`, `__parity` and `__repeat` as functions on lists; by induction
  on the depth.
* **C109** Macro arguments are a list, the expansion is a list of tokens. The count is the 33rd
  argument as in the source.
* **C110** For any conversion with the specification `writes` of C104; the cases of the size.
* **C111** `ReadModel.v`: a variable is a function that reads it, and its value. `reads g t v P`
  says that g reads the value v from any text t ++ rest with P rest. `C111_same` ties these
  functions to those of C44 and C90. Induction on the arguments.
* **C112** The operators are modelled as written (the operators with the string on the right
  call compare on the string and flip the sign); each is equal to the operator of C15.
* **C113** `TightModel.v` computes offsets and sizes by the rules of the Itanium C++ ABI (trusted:
  that the compiler follows them); a type is its size, data size, alignment, empty subobjects, and what its default
  constructor writes. Virtual functions and other ABIs are not modelled. The search for an offset
  is shown to end. The size of a struct is stated independently (`TightSpec.struct_size`).
* **C114** `ProviderModel.v`: a world of allocators and blocks and the events at the resources. The
  invariant is that each block's provider gives the resource it came from; counting then gives
  `accounted`. The copies of SmallAllocator are those of `AllocModel.v` at another address.
* **C115** The counters of C62; without overflow they are sums (`prun`); two runs side by side.
* **C116** Integer conversions by `Base.wrap`; the windows are those of C57 (`SpanSpec.stands`), szconv is
  that of C70. operator== from C++14 on is `SpanModel.span_eq` (C78); only the older branch uses same_span.
* **C117** `ScanfModel.v` has sscanf for the two conversions used, after ISO C 7.21.6.2 and
  7.22.1.3: a finite automaton, shown to accept exactly the grammar of `ScanfSpec.v` and to stop
  at the longest begin of a number. The format is built and parsed as text, cut off at 15
  characters. Reading outside the memory around the view is `Ub`.
* **C118** The result of std::from_chars is related to the text by `StdSpec.std_from_chars`, after
  C++17 [charconv.from.chars]. That there is such a result for every text of up to 2^28 - 400 characters is shown with fast_float
  (C97, C98); the longest number exists because the automaton of C117 decides what a number is.
* **C119** `CtorExcModel.v`: the functions of C81 with a predicate on the iterations that says which
  throws, and outcomes for an exception and for std::terminate. An assignment that throws is taken to
  change nothing; destructors do not throw. What is left behind follows from C81 applied to the part
  before the throw. **C120** `CtorCountModel.v`: memory in bytes and the product n * sizeof(U) in size_t.
* **C121** Macro replacement of identifiers and ##; a type is the list of its member typedefs.
* **C122** `Limb32Model.v` has what differs with FASTFLOAT_32BIT: the emulated product, the
  generic count of zeros, all operations of the big integer on 32-bit limbs (125 of them), the
  steps of 9 digits and of 5^13, the extra test for zero in the fast path. The operations are
  proved to compute the same integers (`Limb32Proofs1.v`), the same high bits
  (`Limb32Proofs2.v`) and to take the same digits (`Limb32Proofs3.v`); that the 32-bit vector
  suffices follows from the 64-bit one sufficing, 62 * 64 <= 125 * 32 (`Limb32Proofs4.v`).
* **C123** `FfIntModel.v` has fast_float's reading of integers for char, with its three tables.
  `FfIntSpec.v` says what the number at the start of a text is. The answer is computed for
  every text (`FfIntProofs.v`): the tables are checked entry by entry, the digits taken eight
  at a time by the lemmas of C96. **The overflow of 64 bits is not always noticed**: the test
  is sound for bases 2, 4 and 16 and for narrower types; for the others it is refuted.
* **C124** `FfOptModel.v` has parse_number_string and from_chars_advanced with the flags of
  chars_format and the decimal point; what follows (rounding, infinities) is FloatModel.v's.
  `FfOptSpec.v` has the grammar with options, and the one of RFC 8259. The proofs follow
  C97's; C124_general ties the two models together. The flag hex is not looked at by the
  code. A decimal point that is a digit, a sign or a letter of an exponent is excluded, since
  then a text can be read in two ways. The flag for Fortran without fixed and scientific is reduced
  to the same with fixed (`FfOptProofs5.v`).
* **C125** `PolyModel.v` has std::align with wrapping addresses and the traits of gcc-4.8.hpp; a
  class is the list of what its special member functions are (trivial, not trivial, deleted).
  That the built-in traits of GCC count a deleted member as trivial is part of the model.
* **C126** The choice of cref_uses_val, and whether copying an object into the parameter
  compiles. Scalars are one case; their sizes do not matter to the code.
* **C127** `NullModel.v` has views whose pointer may be null, over one memory. memcpy, memmove and
  memset are undefined for a null pointer even if there are no bytes, as the comments in the code
  say (C before C2y). A null pointer compares below the others, which the standard leaves
  unspecified. write_num_digits starts after the digits are written, mem_repeat is given for an
  empty pattern only, and replace_all and the searches are not repeated here: they make no such
  calls for empty strings.
* **C128** `FfWideModel.v` has the functions of fast_float that depend on the character type, for
  two and four bytes, the latter also with a sign, and the SSE2 and NEON code for char16_t, lane
  by lane. What does not depend on it is shared with `FloatModel.v`, `FfOptModel.v` and
  `FfIntModel.v`. `FfWideSpec.v` says when a text of bytes is the twin of a wide one. The proofs
  carry the answers of C123 and C124 over: the words of zeros and the lanes are exact for every
  value, the spans of digits are the same in both texts, and all other tests compare with ASCII
  characters or the decimal point. 64-bit limbs and little endian only.
* **C129** `HookModel.v` has the three function pointers, the functions that call through them,
  the library's own functions and the resource built on them. Blocks carry the functions they came
  from, and freeing a block of others is undefined. The functions of a client are assumed right.
  An address is the number of the allocation, so overlap does not occur (C60, C79 have it).
  `HookSpec.v` has the machine a program sees, a list of blocks of bytes, and what a proper program
  is; the proof is by an invariant over all programs. Two parts of the file do not compile and are
  not modelled: C4_NO_ALLOC_DEFAULTS names a type free_pfn that does not exist (line 24), and with
  C4_REDEFINE_CPPNEW the last operator uses a parameter that has no name (lines 335-338).
* **C130** `FfCfgModel.v` has the functions that the macros FASTFLOAT_ALLOWS_LEADING_PLUS and
  FASTFLOAT_SKIP_WHITE_SPACE change, with a flag for each, split at the sign; what follows the sign
  is transcribed again and proved equal to `FfOptModel.v`, `FloatModel.v` and `FfIntModel.v` where
  the flags are off. The proofs reduce to C98, C123 and C124. It also has byteswap and the memcpy of
  eight bytes for both byte orders; the word is the one that `FloatModel.v` computes with. The
  macros together with wide characters are modelled only in the skipping of white space.
* **C131** `PpModel.v` is a preprocessor: line splicing, comments, tokens, conditions with the
  precedence of their operators, nested groups, definitions and redefinitions, #undef, #error. The
  texts of the headers are in `PpText.v` as strings, copied from the sources without change (of
  language.hpp, error.hpp, charconv.hpp, memory_resource.cpp and fast_float_all.h the lines that
  are named there). A world says of every macro whether it is undefined, empty or an integer. The
  statements are themselves conditions, "as a client would write them behind #if", in `PpSpec.v`;
  they are read with the same parser (C131_ex1 shows that each is read, and C131_ex13 what the
  preprocessor does with small texts). `PpProofs.v` runs a text on all paths at once with the
  conditions of each path, and a tableau refutes paths and proves conditions at the ends; it is
  proved sound for all worlds, and `PpProofs3.v` to `PpProofs6.v` compute it for each text.
  Simplified: macros from outside are not expressions; in a condition the replacement of a macro is
  an expression of its own; the integers of conditions are unbounded; macros are not replaced in
  text lines, so what a text line means is not part of the claim (the lines of
  memory_resource.cpp are compared as they are). The headers are run one by one; together, as
  config.hpp includes them, only in the examples. That `free_pfn` of memory_resource.cpp is declared
  nowhere (with C4_NO_ALLOC_DEFAULTS) and that C4_FLATTEN is misspelled is not stated.
* **C132** `MacroModel.v` replaces macros in text: arguments, `#`, `##`, `__VA_ARGS__` with the
  extension for the comma before it, rescanning, and the rule that a macro is not replaced in its own
  replacement (Prosser's sets). The macros come from running the texts of preprocessor.hpp and of the
  parts of language.hpp and error.hpp in `MacroText.v` and `PpText.v` through the preprocessor of
  C131, in every world. `MacroSpec.v` has a grammar of statements (if, do-while(0), blocks,
  expressions) and what they do for every truth of the conditions; "one statement" means that the
  text and its semicolon are read as one statement whatever follows. The proofs expand the macros
  symbolically: arguments are arbitrary tokens that are no macros (`own`), balanced (`one_arg`,
  `bracketed`). C132_ex4 shows that the premises hold with and without NDEBUG. Simplified: tokens do
  not know white space, so a condition is shown without it; the headers are run one by one and
  their macros put together; no type, name or expression is checked, and that `handle_error` does not
  return is assumed here (C94 says what it does). Not stated: the variants of
  C4_NOT_IMPLEMENTED and C4_NEVER_REACH with a message, C4_WARNING, C4_ASSERT_DIFF_TYPE, C4_BEGIN_* and C4_END_*;
  C4_CAT and C4_QUOTE only by example. More than 32 arguments: C132_ex3.

## 4. Seeded-bug testing

In a scratch copy the model is edited as a realistic bug would and rebuilt; the
theorems that fail are recorded in `seeded/LOG.jsonl`. A theorem that survives
an edit that makes its English claim false is tightened.

## 5. Disagreements between code and documentation

Recorded as theorems named `*_refuted`, with a witness, and in MANIFEST.json.

## 6. Axioms

Reported per theorem by `Print Assumptions` in the `*Props.v` files; all are
"Closed under the global context". The standard library modules loaded bring the
module `Coq.ssr.ssrunder` into the environment, whose sealed constants
(`Under_rel.*`) a listing of all loaded axioms shows. No theorem depends on them.
