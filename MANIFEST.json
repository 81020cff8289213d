{
 "claims": [
  {
   "property": "C01",
   "status": "proved",
   "theorems": [
    "C01_digit_count",
    "C01_digits_is_numeral_length"
   ],
   "note": "msb is Z.log2 here; C52 ties it to the code"
  },
  {
   "property": "C02",
   "status": "proved",
   "theorems": [
    "C02_text_exists_unique",
    "C02_write_num",
    "C02_to_chars",
    "C02_to_chars_radix"
   ],
   "note": ""
  },
  {
   "property": "C03",
   "status": "proved",
   "theorems": [
    "C03_write_num_small",
    "C03_to_chars_small",
    "C03_to_chars_radix_small"
   ],
   "note": ""
  },
  {
   "property": "C04",
   "status": "partial",
   "theorems": [
    "C04_no_writes_unsigned_partial",
    "C04_signed_radix_writes_at_most_the_sign",
    "C04_no_writes_refuted",
    "C03_write_num_small",
    "C03_to_chars_small"
   ],
   "note": "false for signed writers with a radix: the sign is stored before the size check"
  },
  {
   "property": "C05",
   "status": "partial",
   "theorems": [
    "C05_write_num_digits",
    "C05_write_num_digits_small",
    "C05_to_chars_nd_partial",
    "C05_to_chars_nd_small_partial"
   ],
   "note": "itoa/utoa only for num_digits <= 2^32-4; beyond that see C06"
  },
  {
   "property": "C06",
   "status": "partial",
   "theorems": [
    "C06_reported_size_partial",
    "C06_reported_size_refuted",
    "C06_out_of_bounds_refuted"
   ],
   "note": "num_digits is truncated to 32 bits"
  },
  {
   "property": "C07",
   "status": "proved",
   "theorems": [
    "C07_roundtrip",
    "C07_roundtrip_radix",
    "C07_roundtrip_padded"
   ],
   "note": ""
  },
  {
   "property": "C08",
   "status": "proved",
   "theorems": [
    "C08_read_value",
    "C08_read_reject",
    "C08_from_chars_value",
    "C08_from_chars_reject",
    "C08_plus_is_an_assertion",
    "C08_value_unique",
    "C08_digits_empty"
   ],
   "note": "the empty string is an assertion in the readers"
  },
  {
   "property": "C09",
   "status": "proved",
   "theorems": [
    "C09_overflows_exact",
    "C09_unparsable_refuted",
    "C09_negative"
   ],
   "note": ""
  },
  {
   "property": "C10",
   "status": "proved",
   "theorems": [
    "C10_overflow_checked"
   ],
   "note": "signed: a lone '-' and a leading '+' are excluded (C11, C08)"
  },
  {
   "property": "C100",
   "status": "partial",
   "theorems": [
    "C100_decimal_partial",
    "C100_special",
    "C100_rejects",
    "C100_defined",
    "C100_plus_refuted",
    "C100_junk_refuted"
   ],
   "note": "decimal text shorter than 2^28 - 400, infinity, NaN, rejected text, no undefined behaviour. Refuted: a plus sign before a decimal number is rejected; text after the number is ignored"
  },
  {
   "property": "C101",
   "status": "partial",
   "theorems": [
    "C101_exact_partial",
    "C101_letters_refuted",
    "C101_power_refuted",
    "C101_uninit_refuted",
    "C101_empty_refuted"
   ],
   "note": "proved without letters and exponent when the digits fit the format and the variable is 0. Refuted: the letters a to f count 0 to 5; the exponent is a power of 16; the variable is not set to 0 first; a text without digits is accepted"
  },
  {
   "property": "C102",
   "status": "partial",
   "theorems": [
    "C102_decimal_partial",
    "C102_special",
    "C102_none",
    "C102_radix_refuted",
    "C102_plus_refuted"
   ],
   "note": "decimal numbers, infinity, NaN and words that are no literal. Refuted: binary and octal literals are read as 0; a plus sign is rejected"
  },
  {
   "property": "C103",
   "status": "partial",
   "theorems": [
    "C103_fits",
    "C103_small",
    "C103_small_hexa",
    "C103_retry",
    "C103_size_refuted",
    "C103_hexa_refuted",
    "C103_sign_refuted",
    "C103_format",
    "C103_format_refuted"
   ],
   "note": "text and safety for every buffer; with snprintf the size suffices; the format is valid from precision -1 on. Refuted: with std::to_chars the size is not the size needed; a hexadecimal number in a buffer shorter than 2 is undefined behaviour; the sign of a negative hexadecimal number is after 0x; a precision below -1 gives no format. What std::to_chars and snprintf write is a parameter"
  },
  {
   "property": "C104",
   "status": "partial",
   "theorems": [
    "C104_real",
    "C104_other",
    "C104_same",
    "C104_cat",
    "C104_catsep",
    "C104_format",
    "C104_container",
    "C104_append",
    "C104_size_refuted"
   ],
   "note": "the text, safety and termination for every mix of real and other non-aligned arguments. Refuted: the returned size is not the size needed"
  },
  {
   "property": "C105",
   "status": "partial",
   "theorems": [
    "C105_round_trip",
    "C105_special",
    "C105_hexa_refuted"
   ],
   "note": "decimal text, infinity and NaN, given that the written text determines the number (std::to_chars without a precision). Refuted in hexadecimal format"
  },
  {
   "property": "C106",
   "status": "proved",
   "theorems": [
    "C106_type_name",
    "C106_msvc",
    "C106_msvc_kind",
    "C106_msvc_enum_refuted"
   ],
   "note": "all seven signatures. The text of the signature is the one in the comments of type_name.hpp. Observation: the word enum is not removed with Visual Studio (C106_msvc_enum_refuted)"
  },
  {
   "property": "C107",
   "status": "proved",
   "theorems": [
    "C107_min_remainder",
    "C107_mult_remainder",
    "C107_min_sized",
    "C107_min_mult_sized",
    "C107_mult_sized",
    "C107_ubuf",
    "C107_empty_refuted"
   ],
   "note": "the remainders for all sizes; the sizes for types whose members fill their size. Refuted for empty classes and reused padding at the end (C107_empty_refuted)"
  },
  {
   "property": "C108",
   "status": "proved",
   "theorems": [
    "C108_sequence",
    "C108_depth"
   ],
   "note": "every N; the depth bound below 2^64"
  },
  {
   "property": "C109",
   "status": "proved",
   "theorems": [
    "C109_for_each",
    "C109_too_many",
    "C109_between_refuted",
    "C109_version",
    "C109_version_large_refuted"
   ],
   "note": "1 to 32 arguments, more is an error; the separator also follows the last statement, unlike the comment (C109_between_refuted); versions with minor and patch below 100"
  },
  {
   "property": "C11",
   "status": "partial",
   "theorems": [
    "C11_overflows_in_bounds_partial",
    "C11_overflows_in_bounds_refuted"
   ],
   "note": "false exactly for the string \"-\" and signed types"
  },
  {
   "property": "C110",
   "status": "proved",
   "theorems": [
    "C110_text",
    "C110_safe",
    "C110_small_refuted"
   ],
   "note": "any conversion that writes a text. The caller cannot tell from the view that the text did not fit (C110_small_refuted)"
  },
  {
   "property": "C111",
   "status": "proved",
   "theorems": [
    "C111_real",
    "C111_infinity",
    "C111_nan",
    "C111_int",
    "C111_char",
    "C111_same",
    "C111_uncat",
    "C111_uncatsep",
    "C111_unformat",
    "C111_cat_uncat",
    "C111_catsep_uncatsep",
    "C111_format_unformat",
    "C111_adjacent_refuted"
   ],
   "note": "decimal text of up to 2^28 - 400 characters, infinities and NaN (read as a NaN of the same sign) for real numbers, any width for integers, characters; refuted for adjacent numbers, as stated. Variables of type csubstr do not compile in uncat"
  },
  {
   "property": "C112",
   "status": "partial",
   "theorems": [
    "C112_array_left",
    "C112_char_right_partial",
    "C112_char_left_partial",
    "C112_long_refuted"
   ],
   "note": "array operands fully; with a character for len < 2^31; beyond, refuted as in C16"
  },
  {
   "property": "C113",
   "status": "partial",
   "theorems": [
    "C113_layout_partial",
    "C113_values_partial",
    "C113_writes_partial",
    "C113_size_partial",
    "C113_size_general",
    "C113_distinct_partial",
    "C113_alias_refuted",
    "C113_compiles_refuted",
    "C113_compiles",
    "C113_default_partial",
    "C113_default_refuted"
   ],
   "note": "layout by the Itanium ABI for all types that compile, values and writes; an empty class of size 1 takes no room unless the other type has a subobject of that class (C113_ex2); refuted: pairs of one scalar type or final class do not compile, the second of a pair of one class with a trivial constructor is not initialised, two objects of one empty class are one object"
  },
  {
   "property": "C114",
   "status": "partial",
   "theorems": [
    "C114_per_allocator",
    "C114_global_partial",
    "C114_global_refuted",
    "C114_rebound",
    "C114_resource",
    "C114_null",
    "C114_ignored_refuted",
    "C114_small_copy_refuted",
    "C114_small_heap_partial",
    "C114_small_convert_partial",
    "C114_small_convert_refuted",
    "C114_small_equal_refuted",
    "C114_small_rebind_partial",
    "C114_small_rebind_refuted",
    "C114_construct_partial",
    "C114_construct_refuted"
   ],
   "note": "proved for allocators that hold their resource; with the global resource as long as it does not change (refuted otherwise); refuted for copies of SmallAllocator, for its operator==, conversion in use and rebind, and for construct() of types that take a resource on either side"
  },
  {
   "property": "C115",
   "status": "partial",
   "theorems": [
    "C115_plus_minus",
    "C115_plus_comm",
    "C115_difference_partial",
    "C115_difference_max_partial",
    "C115_difference_max_refuted",
    "C115_sum_partial",
    "C115_sum_max_refuted"
   ],
   "note": "curr and total; the maximum is only bounded (refuted for equality) unless it is current at the start"
  },
  {
   "property": "C116",
   "status": "partial",
   "theorems": [
    "C116_byte_size_partial",
    "C116_byte_size_refuted",
    "C116_value_size",
    "C116_to_span",
    "C116_to_spanrs",
    "C116_elements",
    "C116_original_as",
    "C116_same_span",
    "C116_same_span_total_partial",
    "C116_same_span_error_refuted",
    "C116_same_span_refuted",
    "C116_eq11_partial",
    "C116_eq11_refuted"
   ],
   "note": "byte_size exact when it fits the size type (refuted otherwise); conversions and original proved; same_span right or an assertion, refuted without assertions; == before C++14 only for spans of one length that fits (refuted otherwise), from C++14 on it does not depend on the size types and is C78"
  },
  {
   "property": "C117",
   "status": "partial",
   "theorems": [
    "C117_scanner",
    "C117_format",
    "C117_read_partial",
    "C117_decimal",
    "C117_hex",
    "C117_special",
    "C117_after_refuted",
    "C117_blank",
    "C117_int_refuted",
    "C117_long_refuted",
    "C117_long_exists",
    "C117_first_partial",
    "C117_first_decimal",
    "C117_first_none",
    "C117_radix_refuted",
    "C117_builds_refuted"
   ],
   "note": "proved for texts shorter than 2^31 that do not begin with white space, against the grammar of strtod; the value is the conversion of the text read; refuted: a vertical tab or form feed makes sscanf read past the text, long texts overflow the int or the format buffer, the builds differ on \"+1.5\" and \"1e\""
  },
  {
   "property": "C118",
   "status": "partial",
   "theorems": [
    "C118_fast_float_partial",
    "C118_agree_partial",
    "C118_decimal",
    "C118_blank",
    "C118_hex_refuted",
    "C118_range_refuted",
    "C118_under_refuted",
    "C118_first",
    "C118_first_none",
    "C118_first_hex_refuted"
   ],
   "note": "all texts other than hexadecimal numbers, against the text of the C++ standard, if a number rounded to zero counts as out of range; decimal numbers of any length. Refuted: every hexadecimal number is accepted and read as zero; the variable is written if the number is out of range with fast_float only; libraries that accept numbers rounded to zero"
  },
  {
   "property": "C119",
   "status": "partial",
   "theorems": [
    "C119_quiet",
    "C119_quiet_assign_value",
    "C119_first_partial",
    "C119_construct_partial",
    "C119_copy_partial",
    "C119_copy_value_partial",
    "C119_leak_refuted",
    "C119_noexcept",
    "C119_terminate_construct_refuted",
    "C119_terminate_array_refuted",
    "C119_terminate_assign_refuted",
    "C119_terminate_move_refuted",
    "C119_make_room_refuted",
    "C119_make_room_near_refuted",
    "C119_make_room2_refuted"
   ],
   "note": "holds if the first construction throws, and if none does. Refuted for every other case: elements already constructed stay alive, the functions that are noexcept end the program, make_room leaves some elements moved. The theorems give the state left behind exactly"
  },
  {
   "property": "C12",
   "status": "partial",
   "theorems": [
    "C12_value",
    "C12_none",
    "C12_plus_refuted"
   ],
   "note": "value, consumed size and npos proved for every integer type and every string of bytes shorter than 2^63; a numeral with explicit '+' is recognised and then asserts (signed) or is reported npos (unsigned): refuted."
  },
  {
   "property": "C120",
   "status": "partial",
   "theorems": [
    "C120_construct_n",
    "C120_copy_n",
    "C120_mem_zero",
    "C120_one",
    "C120_negative_refuted",
    "C120_wrap_refuted"
   ],
   "note": "all counts that are not negative and whose size in bytes is below 2^64. Refuted for every negative count (of at most 2^63 bytes), which is undefined for bytewise types and does nothing for others, and for sizes that wrap"
  },
  {
   "property": "C121",
   "status": "partial",
   "theorems": [
    "C121_value_partial",
    "C121_reference_refuted",
    "C121_name_refuted"
   ],
   "note": "the value is right for types without members that are references. Refuted: members of reference type are not found; the struct is always named has_stype, so a second use clashes"
  },
  {
   "property": "C122",
   "status": "proved",
   "theorems": [
    "C122_same",
    "C122_total",
    "C122_rounds_partial",
    "C122_product",
    "C122_limb_product",
    "C122_zeros",
    "C122_zero_refuted"
   ],
   "note": "the two configurations give the same result on every text, without a bound; correct rounding follows with the bound of C97 on the length. The generic count of leading zeros gives 63 for zero, which no caller passes"
  },
  {
   "property": "C123",
   "status": "partial",
   "theorems": [
    "C123_reads",
    "C123_range_partial",
    "C123_wraps",
    "C123_range_refuted",
    "C123_rejects",
    "C123_total"
   ],
   "note": "everything holds but the report of overflow for the 64-bit types past 2^64: the test only compares the wrapped value with the smallest number of as many digits, which suffices in bases 2, 4 and 16 only. C123_range_refuted has a missed overflow for each of the other 32 bases, C123_wraps says what happens exactly; \"30000000000000000000\" is read as 11553255926290448384"
  },
  {
   "property": "C124",
   "status": "partial",
   "theorems": [
    "C124_rounds_partial",
    "C124_fortran_alone_refuted",
    "C124_rejects",
    "C124_special",
    "C124_total",
    "C124_general",
    "C124_json",
    "C124_json_longest_refuted",
    "C124_named_special",
    "C124_scientific",
    "C124_fortran"
   ],
   "note": "rounding has the bound on the length of C97 (2^28 - 400 characters), past which C97 refutes it. With json the longest number of the looser format is looked for and then checked, so a text that starts with a number of RFC 8259 may be refused: C124_json_longest_refuted has \"1.\". A whole text that is such a number is read (C124_json with C124_rounds_partial). The flag for Fortran without fixed and scientific refuses a number without an exponent before a sign or a d (C124_fortran_alone_refuted)"
  },
  {
   "property": "C125",
   "status": "partial",
   "theorems": [
    "C125_align",
    "C125_align_same",
    "C125_traits_partial",
    "C125_copyable_refuted"
   ],
   "note": "std::align proved, and equal to the one the other models use; the traits of single members never take a member that does something for a trivial one. Refuted: is_trivially_copyable holds of classes with a trivial destructor whose copy constructor or assignment does something"
  },
  {
   "property": "C126",
   "status": "partial",
   "theorems": [
    "C126_choice",
    "C126_scalar",
    "C126_compiles_partial",
    "C126_compiles_refuted"
   ],
   "note": "the choice is characterised exactly. Refuted: small classes that can only be moved are passed by value, and calls with an object do not compile"
  },
  {
   "property": "C127",
   "status": "partial",
   "theorems": [
    "C127_access",
    "C127_compare",
    "C127_compare_char",
    "C127_copy_from",
    "C127_fill_reverse",
    "C127_to_chars",
    "C127_from_chars",
    "C127_cat",
    "C127_null_buffer",
    "C127_parts",
    "C127_nullptr_refuted",
    "C127_is_super",
    "C127_is_super_refuted",
    "C127_erase",
    "C127_erase_refuted",
    "C127_raw_refuted",
    "C127_elements_refuted",
    "C127_arealloc_refuted",
    "C127_sub",
    "C127_left_right",
    "C127_zero",
    "C127_repeat",
    "C127_copy",
    "C127_rooms",
    "C127_arealloc"
   ],
   "note": "proved for access, comparison, copy_from, fill, reverse, to_chars and from_chars of strings, cat of strings, left_of and right_of, and for padded numbers and raw data written to a null buffer. Refuted: == nullptr and is_super tell a null view from an empty one; erase, raw data without an address, the bytewise element functions, mem_zero, mem_repeat and arealloc of nothing call memcpy, memmove or memset with a null pointer"
  },
  {
   "property": "C128",
   "status": "partial",
   "theorems": [
    "C128_rounds_partial",
    "C128_same",
    "C128_twin",
    "C128_rejects_partial",
    "C128_infinity_refuted",
    "C128_total",
    "C128_int_reads_partial",
    "C128_int_same_partial",
    "C128_int_refuted",
    "C128_simd",
    "C128_zeros"
   ],
   "note": "proved for all texts of numbers, and for all texts without a character above 255 whose lowest byte is a letter or a digit. Refuted for infinity, NaN and integers: the characters are cut to a byte, so U+0131 is the digit 1 and a text without any ASCII character can be an infinity. Floats are bounded in length as in C97"
  },
  {
   "property": "C129",
   "status": "partial",
   "theorems": [
    "C129_team_partial",
    "C129_granted",
    "C129_free",
    "C129_moves",
    "C129_unset",
    "C129_mixed_refuted",
    "C129_null_refuted",
    "C129_free_null",
    "C129_store"
   ],
   "note": "proved for programs that replace functions only while they hold no blocks, by functions that belong together (the reallocating one may stay the library's), when the allocation inside the library's reallocation does not return null. Refuted otherwise: one function replaced alone, functions replaced while a block is held, and a client's allocation that returns null inside the library's arealloc, are undefined behaviour; freeing is characterised exactly"
  },
  {
   "property": "C13",
   "status": "proved",
   "theorems": [
    "C13_bool_write",
    "C13_bool_read",
    "C13_bool_reject",
    "C13_bool_roundtrip",
    "C13_char_reject",
    "C13_char_roundtrip",
    "C13_char_no_room",
    "C13_string_write",
    "C13_string_roundtrip",
    "C13_string_no_room",
    "C13_bool_wraps_refuted",
    "C13_csubstr"
   ],
   "note": "bool texts are six words and int32 numerals; numbers outside int32 wrap (C13_bool_wraps_refuted documents it). Source assumed not to overlap the destination, as the code asserts."
  },
  {
   "property": "C130",
   "status": "partial",
   "theorems": [
    "C130_off",
    "C130_plus_rounds",
    "C130_plus",
    "C130_plus_rejects",
    "C130_plus_special",
    "C130_same_partial",
    "C130_minus_refuted",
    "C130_minus_plus_refuted",
    "C130_space",
    "C130_space_start_refuted",
    "C130_wide_space_refuted",
    "C130_int_plus",
    "C130_int",
    "C130_total_partial",
    "C130_int_total",
    "C130_byte_order",
    "C130_read8"
   ],
   "note": "numbers, infinities, NaNs and integers behind a plus sign, white space and the byte order are proved for all texts. Refuted: with the macro for the plus sign a minus sign alone makes fast_float read behind the end of the text, and \"-+inf\" and \"-+nan\" are read as negative; with the macro for white space the answer for a refused text is not its start; wide characters are taken for white space by their lowest byte"
  },
  {
   "property": "C131",
   "status": "partial",
   "theorems": [
    "C131_platform",
    "C131_cpu",
    "C131_compiler",
    "C131_language",
    "C131_constexpr",
    "C131_exceptions",
    "C131_assume",
    "C131_charconv",
    "C131_memory",
    "C131_error",
    "C131_fast_float",
    "C131_frame",
    "C131_balanced",
    "C131_order_refuted",
    "C131_wordsize_refuted",
    "C131_version_refuted",
    "C131_client_refuted",
    "C131_old_refuted",
    "C131_assume_refuted",
    "C131_constexpr_refuted",
    "C131_clang_cl_refuted",
    "C131_use_assert_refuted",
    "C131_noexcept_refuted",
    "C131_twice_refuted"
   ],
   "note": "proved for all definitions of the macros (undefined, empty or an integer; those compared must not be empty, and the names of the byte orders are undefined or 1234 and 4321). Refuted: the byte order is wrong for little-endian PowerPC and big-endian RISC-V; the word is not the size of a pointer on x32; C4_GCC_VERSION cannot be used in a condition; a client's C4_CPP turns every language on; a language before C++98 is not rejected; C4_ASSUME has unbalanced brackets where assumptions are evaluated; C4_CONSTEXPR14 is empty for MSVC with C++20; clang-cl always passes the test for MSVC 2019; an empty C4_USE_ASSERT is ill-formed; C4_EXCEPTIONS_ENABLED is defined by no header; fast_float gives a macro two values where the byte order is unknown"
  },
  {
   "property": "C132",
   "status": "partial",
   "theorems": [
    "C132_for_each",
    "C132_for_each_sep",
    "C132_between_refuted",
    "C132_comma_refuted",
    "C132_error",
    "C132_check",
    "C132_check_msg",
    "C132_format_refuted",
    "C132_assert",
    "C132_assert_msg",
    "C132_assert_no_msg_refuted",
    "C132_assert_comma_refuted",
    "C132_check_comma_refuted",
    "C132_assert_if_refuted",
    "C132_not_implemented",
    "C132_not_implemented_if",
    "C132_never_reach",
    "C132_same_type"
   ],
   "note": "proved for all arguments and configurations: repetition in order with the separator behind each; one statement, one evaluation and the error for C4_ERROR, C4_CHECK, C4_CHECK_MSG, C4_(X)ASSERT, C4_(X)ASSERT_MSG, C4_NOT_IMPLEMENTED, C4_NOT_IMPLEMENTED_IF, C4_NEVER_REACH; the text of C4_ASSERT_SAME_TYPE. Refuted: the separator is also behind the last; C4_COMMA does not force a comma as separator or in an assertion; C4_(X)ASSERT_MSG without a message and C4_(X)ASSERT with C4_COMMA are accepted only where assertions are not wanted; C4_CHECK rejects a comma that is not in parentheses; C4_(X)ASSERT_IF is not one statement; each per cent sign of a condition is one more in the format of C4_CHECK_MSG."
  },
  {
   "property": "C14",
   "status": "partial",
   "theorems": [
    "C14_first_bool_partial",
    "C14_blanks_refuted",
    "C14_first_bool_refuted"
   ],
   "note": "holds only for a word with nothing around it; refuted with \" true\" (the untrimmed text is converted)."
  },
  {
   "property": "C15",
   "status": "partial",
   "theorems": [
    "C15_compare_partial",
    "C15_operators",
    "C15_order_trans",
    "C15_order_irrefl",
    "C15_order_total",
    "C15_ascii",
    "C15_byte_order_refuted"
   ],
   "note": "compare and the six operators are a total order: lexicographic on signed char values (proved for all strings), equal to the byte order on ASCII; the byte-order reading is refuted for bytes >= 128."
  },
  {
   "property": "C16",
   "status": "partial",
   "theorems": [
    "C16_compare_char_partial",
    "C16_truncation_refuted",
    "C16_int_min_refuted"
   ],
   "note": "proved for len < 2^31; refuted for len = 2^32+1 (size difference truncated to int) and for a truncated size of INT_MIN, where the subtraction is undefined"
  },
  {
   "property": "C17",
   "status": "proved",
   "theorems": [
    "C17_find",
    "C17_find_char",
    "C17_find_npos",
    "C17_select",
    "C17_first_of_any"
   ],
   "note": "find/find(char)/select/first_of_any for all strings, patterns and starts; no out-of-range read (outcome Ok)."
  },
  {
   "property": "C18",
   "status": "proved",
   "theorems": [
    "C18_count_char",
    "C18_count",
    "C18_occurrences_unique"
   ],
   "note": "count(char) and count(non-empty pattern)."
  },
  {
   "property": "C19",
   "status": "partial",
   "theorems": [
    "C19_terminates_partial",
    "C19_empty_pattern_refuted"
   ],
   "note": "terminates for every non-empty pattern; with the empty pattern it never terminates (refuted)."
  },
  {
   "property": "C20",
   "status": "proved",
   "theorems": [
    "C20_first_of",
    "C20_first_of_char",
    "C20_first_not_of",
    "C20_first_not_of_char",
    "C20_last_of",
    "C20_last_of_char",
    "C20_last_not_of",
    "C20_last_not_of_char",
    "C20_last_default",
    "C20_first_npos"
   ],
   "note": "all eight searches; the case start = npos of forward searches is out of scope of the theorem."
  },
  {
   "property": "C21",
   "status": "proved",
   "theorems": [
    "C21_triml",
    "C21_trimr",
    "C21_trim",
    "C21_triml_char",
    "C21_trimr_char",
    "C21_trim_char",
    "C21_unique",
    "C21_left_unique",
    "C21_right_unique",
    "C21_idempotent",
    "C21_triml_idempotent",
    "C21_trimr_idempotent"
   ],
   "note": ""
  },
  {
   "property": "C22",
   "status": "proved",
   "theorems": [
    "C22_begins_with",
    "C22_ends_with",
    "C22_begins_with_num",
    "C22_stripl",
    "C22_stripr"
   ],
   "note": ""
  },
  {
   "property": "C23",
   "status": "proved",
   "theorems": [
    "C23_split",
    "C23_pieces_unique"
   ],
   "note": "split iteration and next_split loop, pieces are unique."
  },
  {
   "property": "C24",
   "status": "partial",
   "theorems": [
    "C24_sub",
    "C24_sub_num",
    "C24_range",
    "C24_first",
    "C24_last",
    "C24_left_of",
    "C24_left_of_include_partial",
    "C24_right_of_partial",
    "C24_right_of_include_partial",
    "C24_offs_partial",
    "C24_accepted",
    "C24_accepted_pos",
    "C24_left_of_include_refuted",
    "C24_right_of_refuted",
    "C24_offs_refuted"
   ],
   "note": "all operations proved inside with exact content and accepted in range; left_of(len,true), right_of(len) and offs(left=len-right+1) satisfy the assertion but escape (refuted)."
  },
  {
   "property": "C25",
   "status": "proved",
   "theorems": [
    "C25_pos",
    "C25_include_pos",
    "C25_subview",
    "C25_outside"
   ],
   "note": ""
  },
  {
   "property": "C26",
   "status": "proved",
   "theorems": [
    "C26_replace_all",
    "C26_replaced_unique",
    "C26_empty_pattern"
   ],
   "note": "for results whose size fits size_t; pos = npos excluded."
  },
  {
   "property": "C27",
   "status": "partial",
   "theorems": [
    "C27_toupper_partial",
    "C27_toupper_refuted",
    "C27_tolower_partial",
    "C27_tolower_refuted",
    "C27_fill",
    "C27_copy_from",
    "C27_reverse",
    "C27_reverse_sub",
    "C27_reverse_range",
    "C27_erase",
    "C27_replace_char",
    "C27_replace_set",
    "C27_replace_npos",
    "C27_mem"
   ],
   "note": "as list equations on the whole memory; sizes < 2^63; replace with pos = npos returns 0 (C27_replace_npos). toupper and tolower are undefined on bytes 128 to 254, which are passed to the C functions as negative int (refuted)"
  },
  {
   "property": "C28",
   "status": "proved",
   "theorems": [
    "C28_right_pair",
    "C28_left_pair",
    "C28_no_separator",
    "C28_right_skip",
    "C28_left_skip",
    "C28_skip_all_separators",
    "C28_basename_dirname",
    "C28_dirname_all_separators",
    "C28_every_path_decomposes"
   ],
   "note": "all pairs with and without skip_empty; extensions are the instances with '.'."
  },
  {
   "property": "C29",
   "status": "proved",
   "theorems": [
    "C29_pair_range",
    "C29_pair_range_none",
    "C29_nested",
    "C29_nested_cases",
    "C29_closing_unique"
   ],
   "note": "pair_range errors (asserts) when the opening char occurs again inside; equal open/close chars excluded."
  },
  {
   "property": "C30",
   "status": "partial",
   "theorems": [
    "C30_esc",
    "C30_none",
    "C30_quoted_partial",
    "C30_doubled_escape_refuted"
   ],
   "note": "escape by previous character proved; doubled escapes refuted."
  },
  {
   "property": "C31",
   "status": "proved",
   "theorems": [
    "C31_uint_span",
    "C31_int_span",
    "C31_whole"
   ],
   "note": "first_literal: found iff leading blanks, literal, delimiter/end."
  },
  {
   "property": "C32",
   "status": "partial",
   "theorems": [
    "C32_is_unsigned_integer",
    "C32_is_integer",
    "C32_agrees_partial",
    "C32_agrees_refuted"
   ],
   "note": "both predicates decide the literal grammar exactly; agreement with atoi/atou proved for texts not starting with '+', refuted for \"+5\"."
  },
  {
   "property": "C33",
   "status": "proved",
   "theorems": [
    "C33_real_span",
    "C33_is_real",
    "C33_is_number"
   ],
   "note": "all four bases, optional sign, inf/infinity/nan; completeness and soundness; also is_real and is_number."
  },
  {
   "property": "C34",
   "status": "proved",
   "theorems": [
    "C34_roundtrip"
   ],
   "note": "all byte sequences shorter than 2^63, any buffers large enough, with and without assertions."
  },
  {
   "property": "C35",
   "status": "proved",
   "theorems": [
    "C35_encode",
    "C35_text"
   ],
   "note": "text given by an independent RFC 4648 function and relation."
  },
  {
   "property": "C36",
   "status": "proved",
   "theorems": [
    "C36_encode",
    "C36_decode",
    "C36_decode_safe"
   ],
   "note": "exact stored prefix for small buffers; safety for arbitrary (malformed) input texts. Without assertions the decoder requires base64_valid (its documented precondition)."
  },
  {
   "property": "C37",
   "status": "partial",
   "theorems": [
    "C37_exact_partial",
    "C37_accepts",
    "C37_padding_refuted",
    "C37_middle_refuted"
   ],
   "note": "base64_valid characterised exactly; it accepts every RFC text but also '=' in any position: refuted with \"====\", \"A=BC\", \"AA==AAAA\"."
  },
  {
   "property": "C38",
   "status": "proved",
   "theorems": [
    "C38_roundtrip",
    "C38_injective"
   ],
   "note": "canonical texts: unused bits zero."
  },
  {
   "property": "C39",
   "status": "proved",
   "theorems": [
    "C39_encode",
    "C39_above",
    "C39_back",
    "C39_prefix_free",
    "C39_from_text",
    "C39_text_reject"
   ],
   "note": "bytes for every code point; inverse, prefix-free; the string version for hexadecimal texts of at most 8 digits without leading zero (other texts are assertion failures)."
  },
  {
   "property": "C40",
   "status": "partial",
   "theorems": [
    "C40_wellformed_partial",
    "C40_onto",
    "C40_surrogates_refuted"
   ],
   "note": "well-formed for all scalar values, and every well-formed sequence is produced; surrogates are encoded: refuted for all of them."
  },
  {
   "property": "C41",
   "status": "partial",
   "theorems": [
    "C41_text_unique",
    "C41_fits",
    "C41_any_partial",
    "C41_size_query",
    "C41_sub"
   ],
   "note": "all argument kinds when the text fits or the buffer is empty; any buffer for the non-aligned kinds. Aligned arguments in a too small non-empty buffer: false, see C46. Real arguments are in C104."
  },
  {
   "property": "C42",
   "status": "proved",
   "theorems": [
    "C42_catsep",
    "C42_text"
   ],
   "note": "catsep equals cat of the interleaved list for all inputs, including error outcomes."
  },
  {
   "property": "C43",
   "status": "partial",
   "theorems": [
    "C43_spec_exists_unique",
    "C43_fits",
    "C43_any_partial",
    "C43_pieces"
   ],
   "note": "as C41: aligned arguments in a too small non-empty buffer are excluded (C46)."
  },
  {
   "property": "C44",
   "status": "proved",
   "theorems": [
    "C44_uncatsep",
    "C44_unformat",
    "C44_word"
   ],
   "note": "integers of every type, radix and zero padding; a delimiter is a character after which the library ends a number (blank ] ) } , ; NUL). Literal text of the format is skipped by unformat, not compared."
  },
  {
   "property": "C45",
   "status": "partial",
   "theorems": [
    "C45_catrs_partial",
    "C45_catseprs_partial",
    "C45_formatrs_partial",
    "C45_catrs_append",
    "C45_catseprs_append",
    "C45_formatrs_append",
    "C45_aligned_refuted"
   ],
   "note": "exact text after at most one retry; the append variants for all argument kinds. With an aligned argument and a container between text and width: refuted (assertion, or write outside the container)."
  },
  {
   "property": "C46",
   "status": "partial",
   "theorems": [
    "C46_left_partial",
    "C46_right_partial",
    "C46_left_refuted",
    "C46_right_refuted",
    "C46_left_npos"
   ],
   "note": "return value and bounds for every buffer outside the gap; refuted for every text, width and buffer with text < buf.len < width (left), text < buf.len and padding > buf.len (right)."
  },
  {
   "property": "C47",
   "status": "proved",
   "theorems": [
    "C47_left",
    "C47_right"
   ],
   "note": "all argument kinds, nested alignment included."
  },
  {
   "property": "C48",
   "status": "proved",
   "theorems": [
    "C48_cat_dump",
    "C48_catsep_dump",
    "C48_format_dump",
    "C48_same_as_cat"
   ],
   "note": "all argument kinds; one chunk per argument (per non-empty piece for format_dump). Strings need no buffer space; the callback does not modify the buffer."
  },
  {
   "property": "C49",
   "status": "partial",
   "theorems": [
    "C49_cat_dump",
    "C49_catsep_dump",
    "C49_format_dump",
    "C49_second_call_partial",
    "C49_strings_refuted"
   ],
   "note": "exact prefix and returned size for any buffer (aligned arguments outside the gap of C46); the second call succeeds when it is not empty. Refuted for strings only with an empty buffer: the returned size is 0."
  },
  {
   "property": "C50",
   "status": "partial",
   "theorems": [
    "C50_catsep_values_partial",
    "C50_catsep_bufsize_partial",
    "C50_cat_call",
    "C50_cat_sorted_partial",
    "C50_cat_order_refuted",
    "C50_cat_empty_refuted",
    "C50_catsep_lost_refuted"
   ],
   "note": "catsep_dump_resume proved for any sequence of buffers without string arguments or separators and without empty texts; cat_dump_resume characterised exactly per call and proved when the needed sizes do not decrease. Refuted otherwise: repeated and reordered arguments (cat), lost arguments (catsep with a string separator, cat with an empty buffer)."
  },
  {
   "property": "C51",
   "status": "partial",
   "theorems": [
    "C51_values_partial",
    "C51_pieces",
    "C51_again_refuted",
    "C51_fewer_refuted",
    "C51_fewer_assert_refuted",
    "C51_lost_refuted"
   ],
   "note": "proved until the last piece is out, without string arguments or empty texts, formats with fewer placeholders included. Refuted after that: the tail is emitted again, an argument without placeholder is emitted, or assertion/undefined behaviour; string arguments lose the failed argument."
  },
  {
   "property": "C52",
   "status": "proved",
   "theorems": [
    "C52_lsb",
    "C52_msb",
    "C52_unique"
   ],
   "note": "intrinsics modelled by their documented meaning; fallbacks and the compile-time versions as written"
  },
  {
   "property": "C53",
   "status": "proved",
   "theorems": [
    "C53_mask",
    "C53_unique",
    "C53_beyond",
    "C53_mask11",
    "C53_mask11_narrow"
   ],
   "note": "signed types included; contiguous_mask11 of the sign bit of a narrow signed type does not compile"
  },
  {
   "property": "C54",
   "status": "partial",
   "theorems": [
    "C54_ipow_refuted",
    "C54_unsigned_partial",
    "C54_u16_partial",
    "C54_narrow",
    "C54_int",
    "C54_negative",
    "C54_overload",
    "C54_overload_conv"
   ],
   "note": "true for 8, 32 and 64 bit unsigned types, and for uint16_t bases up to 32768. Refuted for uint16_t: ipow(65535,2) overflows int. Signed types and negative exponents characterised too."
  },
  {
   "property": "C55",
   "status": "proved",
   "theorems": [
    "C55_repeat",
    "C55_overlap"
   ],
   "note": "destination and pattern in one memory smaller than 2^63 bytes. Forming the pointer begin+2*n past the end of the destination is not counted as undefined."
  },
  {
   "property": "C56",
   "status": "proved",
   "theorems": [
    "C56_iff",
    "C56_share",
    "C56_sym",
    "C56_empty",
    "C56_substr",
    "C56_is_super",
    "C56_is_super_empty",
    "C56_is_sub"
   ],
   "note": "addresses are integers that do not wrap. An empty range strictly inside the other one counts as overlapping."
  },
  {
   "property": "C57",
   "status": "partial",
   "theorems": [
    "C57_step",
    "C57_refused_partial",
    "C57_sequence_partial",
    "C57_narrow",
    "C57_size_capacity",
    "C57_original",
    "C57_subspan_wraps_refuted",
    "C57_resize_negative_refuted"
   ],
   "note": "any sequence, all three classes, every size type; legal operations are exactly the accepted ones if counts are not negative and first+num does not wrap (automatic for 8 and 16 bit unsigned). Refuted without: subspan(1, SIZE_MAX) and resize(-1) of a signed type pass the assertions."
  },
  {
   "property": "C58",
   "status": "proved",
   "theorems": [
    "C58_complements",
    "C58_is_subspan",
    "C58_left",
    "C58_right",
    "C58_outside"
   ],
   "note": "is_subspan is false for a null span"
  },
  {
   "property": "C59",
   "status": "partial",
   "theorems": [
    "C59_history_partial",
    "C59_allocate",
    "C59_allocate_zero",
    "C59_continue_refuted",
    "C59_realign_refuted",
    "C59_huge_refuted"
   ],
   "note": "all histories, arenas, sizes and alignments, thrown errors caught in between; a reallocation must not ask for more alignment than the block had nor for a size that wraps around the address space (both refuted), and errors must end the call (refuted otherwise: the block runs over the end)."
  },
  {
   "property": "C60",
   "status": "partial",
   "theorems": [
    "C60_preserved_iff_partial",
    "C60_in_place_partial",
    "C60_moved",
    "C60_refuted"
   ],
   "note": "preserved exactly when the block stays in place, which is characterised; refuted otherwise: a moved block is not copied"
  },
  {
   "property": "C61",
   "status": "partial",
   "theorems": [
    "C61_owned_partial",
    "C61_borrowed_partial",
    "C61_once",
    "C61_release_refuted",
    "C61_acquire_refuted",
    "C61_steal_refuted",
    "C61_empty"
   ],
   "note": "proved for lives without acquire/release calls in between and for borrowed memory; never freed twice. Refuted: release() on a complete object loses the memory, acquire(size) after it always fails, acquire(size) on borrowed memory makes the destructor free memory upstream never gave out (virtual dispatch reaches the linear resource itself)"
  },
  {
   "property": "C62",
   "status": "partial",
   "theorems": [
    "C62_counts_partial",
    "C62_throw_refuted"
   ],
   "note": "all histories with sums below 2^63; refuted if the underlying reallocation throws (already subtracted)"
  },
  {
   "property": "C63",
   "status": "partial",
   "theorems": [
    "C63_refuted"
   ],
   "note": "refuted: blocks given back out of order; see C64 for last-in-first-out"
  },
  {
   "property": "C64",
   "status": "partial",
   "theorems": [
    "C64_lifo_partial",
    "C64_zero_refuted",
    "C64_wrap_refuted"
   ],
   "note": "all last-in-first-out histories with blocks of at least one object and counts that do not wrap; both conditions are needed (refuted otherwise)"
  },
  {
   "property": "C65",
   "status": "partial",
   "theorems": [
    "C65_size_for_partial",
    "C65_allocate_partial",
    "C65_refuted"
   ],
   "note": "exact if and only if n*sizeof(T) < 2^64; refuted otherwise, less is requested"
  },
  {
   "property": "C66",
   "status": "partial",
   "theorems": [
    "C66_error_settings",
    "C66_memory_resource_partial",
    "C66_counts_of_refuted",
    "C66_enter",
    "C66_total"
   ],
   "note": "any nesting of scopes, set calls and exceptions; refuted for ScopedMemoryResourceCounts(m), which leaves m installed"
  },
  {
   "property": "C67",
   "status": "partial",
   "theorems": [
    "C67_make_room",
    "C67_make_room_pos",
    "C67_destroy_room",
    "C67_inverse",
    "C67_make_room2",
    "C67_destroy_room2",
    "C67_make_room_objects",
    "C67_inverse_objects",
    "C67_checks_small",
    "C67_room_wraps_refuted",
    "C67_room_overflows_refuted",
    "C67_end_refuted"
   ],
   "note": "all contents, sizes, positions and rooms whose total fits the size type; refuted: the check room + currsz <= bufsz wraps (unsigned, 32 or more bits) or overflows (signed), and the version with two buffers refuses room at the end of a non-empty source"
  },
  {
   "property": "C68",
   "status": "partial",
   "theorems": [
    "C68_make_room_partial",
    "C68_make_room2",
    "C68_destroy_room2",
    "C68_destroy_all",
    "C68_overwrites_refuted",
    "C68_no_room_refuted",
    "C68_destroys_nothing_refuted",
    "C68_destroy_room",
    "C68_destroy_nothing_refuted",
    "C68_make_room_pos_partial",
    "C68_make_room2_sz"
   ],
   "note": "proved for two buffers, for removing everything, and for making at least as much room as there are elements behind the position; refuted otherwise: with 0 < room < n objects are constructed over objects moved from, making no room constructs objects from themselves, and removing a part destroys nothing"
  },
  {
   "property": "C69",
   "status": "proved",
   "theorems": [
    "C69_hash_bytes",
    "C69_hash32",
    "C69_incremental",
    "C69_one_byte",
    "C69_one_byte_32",
    "C69_suffix",
    "C69_literal",
    "C69_literal_refuted"
   ],
   "note": "all strings and splits, 64- and 32-bit; that the overload for arrays hashes the terminator of a literal too is stated as refuted"
  },
  {
   "property": "C70",
   "status": "partial",
   "theorems": [
    "C70_partial",
    "C70_narrow",
    "C70_wide",
    "C70_same",
    "C70_negative_refuted",
    "C70_release_refuted"
   ],
   "note": "all 64 type pairs and all values that are nonnegative or go to a signed type; refuted: every negative value given to an unsigned type at least as wide is accepted and changed; nothing is checked without assertions"
  },
  {
   "property": "C71",
   "status": "partial",
   "theorems": [
    "C71_find",
    "C71_find_n",
    "C71_find_n_partial",
    "C71_prefix_refuted",
    "C71_empty_refuted",
    "C71_offset_refuted",
    "C71_round_trip",
    "C71_round_trip_offs",
    "C71_unique",
    "C71_round_trip_refuted",
    "C71_missing",
    "C71_unknown"
   ],
   "note": "find(name) exact; find(name,len) characterised exactly and shown to accept every beginning of a name (refuted), so exact only for texts that are not one; round trip for tables in which no text calls two symbols, which unique names do not ensure when offsets are set (refuted)"
  },
  {
   "property": "C72",
   "status": "partial",
   "theorems": [
    "C72_bm2str",
    "C72_complete",
    "C72_greedy_refuted",
    "C72_bm2stream",
    "C72_stream_refuted",
    "C72_round_trip_partial",
    "C72_reads",
    "C72_rejects",
    "C72_digit_refuted",
    "C72_prefix_refuted",
    "C72_blank_refuted",
    "C72_zero_refuted"
   ],
   "note": "bm2str exact for all tables, bits and buffers; refuted: may fail although names exist, bm2stream drops bits, str2bm refuses digits in names and takes a name for a longer one; round trip for names of letters, underscores and colons none of which begins another; reading: every list of items (names, decimal, hexadecimal) is read as the union of its items, and a first or later bad item is rejected"
  },
  {
   "property": "C73",
   "status": "partial",
   "theorems": [
    "C73_splitmix_bijection",
    "C73_splitmix_states",
    "C73_splitmix_mix",
    "C73_xorshift_bijection",
    "C73_pcg_bijection",
    "C73_splitmix_discard",
    "C73_xorshift_discard",
    "C73_pcg_discard",
    "C73_pcg_partial",
    "C73_pcg_refuted",
    "C73_pcg_default_refuted",
    "C73_device_seed_refuted",
    "C73_pcg_seed_partial",
    "C73_pcg_seed_refuted"
   ],
   "note": "everything but calling pcg in a state of at least 2^63, where the shift amount is negative (refuted: undefined, also for the default state), seeding included; seeds from a device merge"
  },
  {
   "property": "C74",
   "status": "partial",
   "theorems": [
    "C74_first_non_empty_span",
    "C74_first_csubstr",
    "C74_first_substr_partial",
    "C74_first_substr_refuted"
   ],
   "note": "word extraction proved; from_chars_first(substr) does not set the destination length: refuted."
  },
  {
   "property": "C75",
   "status": "partial",
   "theorems": [
    "C75_roundtrip",
    "C75_first_partial",
    "C75_first_refuted"
   ],
   "note": "round trip proved; from_chars_first(pointer) returns 1 always and stores an indeterminate value on failure: refuted."
  },
  {
   "property": "C76",
   "status": "partial",
   "theorems": [
    "C76_write",
    "C76_roundtrip",
    "C76_first_refuted"
   ],
   "note": "write and round trip proved; from_chars_first returns 1 instead of the consumed size: refuted."
  },
  {
   "property": "C77",
   "status": "proved",
   "theorems": [
    "C77_aligned"
   ],
   "note": ""
  },
  {
   "property": "C78",
   "status": "partial",
   "theorems": [
    "C78_eq",
    "C78_lt",
    "C78_others",
    "C78_order",
    "C78_eq11_partial",
    "C78_eq11_refuted",
    "C78_at",
    "C78_at_err",
    "C78_front_back",
    "C78_empty"
   ],
   "note": "C++14 and later proved; the C++11 branch of operator== is refuted for different sizes (prefixes compare equal, reads past the end)"
  },
  {
   "property": "C79",
   "status": "proved",
   "theorems": [
    "C79_alignment",
    "C79_aalloc",
    "C79_bad_alignment",
    "C79_arealloc",
    "C79_out_of_memory"
   ],
   "note": "posix_memalign is an input of the model (an address or out of memory)"
  },
  {
   "property": "C80",
   "status": "partial",
   "theorems": [
    "C80_reallocate_partial",
    "C80_moved_refuted",
    "C80_overlap_refuted",
    "C80_uncounted_refuted",
    "C80_leak_refuted",
    "C80_alignment_refuted"
   ],
   "note": "refuted: reallocate returns the start of the array whatever block is passed, does not keep the count, and the array ignores the alignment argument"
  },
  {
   "property": "C81",
   "status": "proved",
   "theorems": [
    "C81_construct_n",
    "C81_copy_construct_n",
    "C81_copy_construct_value",
    "C81_copy_assign_n",
    "C81_move_construct_n",
    "C81_move_assign_n",
    "C81_destroy_n",
    "C81_trivial_copy",
    "C81_trivial_construct",
    "C81_overlap_refuted",
    "C81_destroy_only"
   ],
   "note": "disjoint ranges; that the assertion dst != src lets overlapping ranges through is stated as refuted"
  },
  {
   "property": "C82",
   "status": "partial",
   "theorems": [
    "C82_xorshift_period",
    "C82_xorshift_nonzero",
    "C82_pcg_period",
    "C82_pcg_even_refuted",
    "C82_pcg_ctor_refuted",
    "C82_zero_refuted"
   ],
   "note": "xorshift by 64x64 matrices over two elements, pcg for odd increments; refuted for even increments, which the constructor from a seed always makes"
  },
  {
   "property": "C83",
   "status": "proved",
   "theorems": [
    "C83_begins_with_any",
    "C83_ends_with_any",
    "C83_ends_with_num",
    "C83_select_char"
   ],
   "note": "all strings, sets, counts and positions"
  },
  {
   "property": "C84",
   "status": "partial",
   "theorems": [
    "C84_unquoted_partial",
    "C84_escaped_backslash_refuted",
    "C84_inner_quote_refuted"
   ],
   "note": "what is returned is stated for every string; refuted as quoting: a text ending in an escaped backslash is not unquoted, and a text with inner quotes is"
  },
  {
   "property": "C85",
   "status": "partial",
   "theorems": [
    "C85_short",
    "C85_long",
    "C85_splits",
    "C85_no_dot_partial",
    "C85_no_dot_refuted",
    "C85_directory_refuted"
   ],
   "note": "every name with a dot, and the long form of those without; refuted: without a dot the short form takes the name for the extension, and dots in directories count"
  },
  {
   "property": "C86",
   "status": "partial",
   "theorems": [
    "C86_erase_range",
    "C86_erase_range_rejects",
    "C86_erase_sub",
    "C86_erase_sub_accepts",
    "C86_erase_wrap_refuted"
   ],
   "note": "erase_range and erase(sub) for all views; refuted for erase(pos,num), whose check wraps"
  },
  {
   "property": "C87",
   "status": "proved",
   "theorems": [
    "C87_from_cstr",
    "C87_from_array",
    "C87_from_ptrs"
   ],
   "note": "C strings, arrays, pointer pairs"
  },
  {
   "property": "C88",
   "status": "proved",
   "theorems": [
    "C88_view_left",
    "C88_std_left",
    "C88_vector_left"
   ],
   "note": "all 18 mixed operators for all strings"
  },
  {
   "property": "C89",
   "status": "partial",
   "theorems": [
    "C89_to_chars",
    "C89_to_chars_short",
    "C89_from_chars",
    "C89_from_self_partial",
    "C89_from_self_overlap",
    "C89_from_self_adjacent_refuted"
   ],
   "note": "to_chars, from_chars from elsewhere and from a view of the string itself beyond the new terminator; refuted: a view that begins at the new terminator loses its first character without any check failing"
  },
  {
   "property": "C90",
   "status": "partial",
   "theorems": [
    "C90_uncat_cat_partial",
    "C90_adjacent_refuted"
   ],
   "note": "characters, and integers followed by a delimiter or nothing; refuted for adjacent integers; real arguments in C111"
  },
  {
   "property": "C91",
   "status": "partial",
   "theorems": [
    "C91_blob",
    "C91_blob_misaligned",
    "C91_blob_wrap_refuted",
    "C91_cblob_make",
    "C91_cblob_assign_refuted",
    "C91_needed_char",
    "C91_needed_wchar",
    "C91_num_whitespace_partial",
    "C91_num_whitespace_refuted",
    "C91_isspace_partial",
    "C91_isspace_refuted"
   ],
   "note": "blobs, needed_chars for widths that are powers of 2; refuted: num_whitespace_chars of wchar_t, the assignment of a blob to a cblob (no return statement), sizes that wrap; isspace right for ASCII characters and undefined for the others"
  },
  {
   "property": "C92",
   "status": "partial",
   "theorems": [
    "C92_run_partial",
    "C92_misuse",
    "C92_no_overwrite",
    "C92_ctor_throws",
    "C92_copy_throws",
    "C92_assign_throws_refuted",
    "C92_swap_throws_refuted"
   ],
   "note": "all sequences of operations for closures whose copies and moves do not throw, and constructors that throw; refuted: after an assignment or swap that throws the object claims a closure it does not have; every other operation is undefined or does not compile (C92_misuse)"
  },
  {
   "property": "C93",
   "status": "proved",
   "theorems": [
    "C93_restores",
    "C93_sets"
   ],
   "note": "all settings, nestings and exits by exception"
  },
  {
   "property": "C94",
   "status": "partial",
   "theorems": [
    "C94_reports_partial",
    "C94_never_returns",
    "C94_silent",
    "C94_ending",
    "C94_defaults",
    "C94_log_text",
    "C94_throw_only_refuted",
    "C94_bad_format_refuted",
    "C94_warning"
   ],
   "note": "all flag combinations with logging or callback, all texts; refuted: with throwing alone the exception is made from uninitialised memory, and so is the log of a text that cannot be formatted; the ending by the bits of the flags, and the printed text"
  },
  {
   "property": "C95",
   "status": "partial",
   "theorems": [
    "C95_found_partial",
    "C95_none",
    "C95_again",
    "C95_full_buffer_refuted",
    "C95_name_refuted"
   ],
   "note": "every status text whose first occurrence of the key is the entry; refuted: a process name containing the key, and a full buffer without it (read past the buffer)"
  },
  {
   "property": "C96",
   "status": "proved",
   "theorems": [
    "C96_compute_float",
    "C96_unique"
   ],
   "note": "all mantissas and exponents, both types; the correctly rounded number is shown to be unique"
  },
  {
   "property": "C97",
   "status": "partial",
   "theorems": [
    "C97_rounds_partial",
    "C97_exact_partial",
    "C97_length_refuted",
    "C97_bound_refuted"
   ],
   "note": "all texts up to 2^28 - 400 characters; refuted beyond: the exponent is cut off at 2^28 before the digits are subtracted, so that a text of 2^28 + 13 characters for 10^2415919104 is read as 1"
  },
  {
   "property": "C98",
   "status": "proved",
   "theorems": [
    "C98_special",
    "C98_rejects",
    "C98_disjoint"
   ],
   "note": "all texts"
  },
  {
   "property": "C99",
   "status": "proved",
   "theorems": [
    "C99_total"
   ],
   "note": "all texts of any length"
  }
 ]
}
