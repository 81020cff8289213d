{"id": "C01", "title": "Digit counts are exact", "statement": "digits_dec(v), digits_hex(v), digits_oct(v) and digits_bin(v) return exactly the number of digits of the canonical (no leading zero; zero has one digit) numeral of v in base 10, 16, 8 and 2.", "quantifier": "every value of every unsigned and non-negative value of every signed 8/16/32/64-bit integer type", "why_tests_cant": "2^64 values; the decimal version is a hand-written threshold tree per width, where one wrong constant mis-sizes a narrow band of values only", "anchors": ["src/c4/charconv.hpp:digits_dec", "src/c4/charconv.hpp:digits_hex", "src/c4/charconv.hpp:digits_bin", "src/c4/charconv.hpp:digits_oct", "src/c4/charconv.hpp:detail::_digits_dec"]}
{"id": "C02", "title": "Integer writing produces the canonical numeral", "statement": "write_dec/write_hex/write_oct/write_bin and utoa/itoa in a sufficiently large buffer store exactly the canonical numeral of the value (sign, radix prefix and digits), return its exact length, and leave every byte after it unchanged.", "quantifier": "every value of every integer width and signedness, every radix in {2,8,10,16}, every buffer with len >= needed, every prior buffer content", "why_tests_cant": "the value space is 2^64 per type and the two-digits-at-a-time / table-driven loops have corner cases at digit-count boundaries and at the most negative value", "anchors": ["src/c4/charconv.hpp:write_dec", "src/c4/charconv.hpp:write_hex", "src/c4/charconv.hpp:write_oct", "src/c4/charconv.hpp:write_bin", "src/c4/charconv.hpp:itoa", "src/c4/charconv.hpp:utoa", "src/c4/charconv.hpp:xtoa", "src/c4/charconv.hpp:to_chars"]}
{"id": "C03", "title": "Undersized buffer: exact requirement, no out-of-bounds write", "statement": "When the buffer is too small, the integer writers return exactly the number of characters needed (the same number a large buffer would report as written), never store outside [0,len), and a second call with a buffer of the returned size succeeds.", "quantifier": "every integer value, type, radix and every buffer length smaller than needed (including null/zero-length)", "why_tests_cant": "needs every (value, radix, length) combination; an off-by-one shows only at one length for one digit count", "anchors": ["src/c4/charconv.hpp:itoa", "src/c4/charconv.hpp:utoa", "src/c4/charconv.hpp:write_dec", "src/c4/charconv.hpp:write_num_digits"]}
{"id": "C04", "title": "Undersized buffer: no writes occur", "statement": "As documented ('If the string is not large enough, returns the required size, and no writes occur'), the integer writers leave every byte of a too-small buffer unchanged.", "quantifier": "every integer value, type, radix and too-small buffer with arbitrary previous content", "why_tests_cant": "tests check the return value, not that all previous bytes survive for each of the sign/prefix/radix/length combinations", "anchors": ["src/c4/charconv.hpp:itoa", "src/c4/charconv.hpp:utoa"]}
{"id": "C05", "title": "Zero-padded writing", "statement": "write_dec/hex/oct/bin(buf,v,num_digits) and itoa/utoa(buf,v,radix,num_digits) in a large-enough buffer produce the sign and prefix followed by the numeral left-padded with zeros to exactly max(num_digits, digits(v)) digits, returning the exact length; with a smaller buffer they return that same length and do not write outside.", "quantifier": "every value, radix, num_digits and buffer length", "why_tests_cant": "two interacting unbounded parameters (value and num_digits) with separate code for the most negative value", "anchors": ["src/c4/charconv.hpp:write_num_digits", "src/c4/charconv.hpp:itoa", "src/c4/charconv.hpp:utoa"]}
{"id": "C06", "title": "Requested digit counts are honoured at any magnitude", "statement": "The size reported by itoa/utoa with a digit count equals sign + prefix + max(num_digits, digits) for every size_t num_digits for which that sum is representable.", "quantifier": "every size_t num_digits up to the representable limit", "why_tests_cant": "needs num_digits around 2^32 and 2^64, which no test allocates", "anchors": ["src/c4/charconv.hpp:itoa", "src/c4/charconv.hpp:utoa", "src/c4/charconv.hpp:detail::_itoadec2buf"]}
{"id": "C07", "title": "Integer round trip", "statement": "Reading back the text written for an integer yields the same integer: atoi(itoa(v,radix)) = v, atou(utoa(v,radix)) = v, from_chars(to_chars(v)) = v.", "quantifier": "every value of int8..int64 and uint8..uint64, every radix in {2,8,10,16} with its prefix, every zero padding", "why_tests_cant": "two 2^64-sized domains; the most negative values and the boundary between the signed and the unsigned digit loops are easily missed", "anchors": ["src/c4/charconv.hpp:itoa", "src/c4/charconv.hpp:atoi", "src/c4/charconv.hpp:utoa", "src/c4/charconv.hpp:atou", "src/c4/charconv.hpp:to_chars", "src/c4/charconv.hpp:from_chars"]}
{"id": "C08", "title": "Integer reading accepts exactly the numerals", "statement": "read_dec/hex/oct/bin succeed exactly on strings consisting only of digits of the base (the empty string yields zero and success), and the value stored is the numeral's value modulo 2^bits of the type; atou/atoi accept exactly the documented grammar (optional '-', optional 0x/0o/0b prefix, at least one digit) and nothing else.", "quantifier": "every byte string of any length, every integer type", "why_tests_cant": "the set of byte strings is infinite; rejection of near-miss strings (sign only, prefix only, mixed case prefixes) cannot be enumerated", "anchors": ["src/c4/charconv.hpp:read_dec", "src/c4/charconv.hpp:read_hex", "src/c4/charconv.hpp:read_oct", "src/c4/charconv.hpp:read_bin", "src/c4/charconv.hpp:atoi", "src/c4/charconv.hpp:atou"]}
{"id": "C09", "title": "Overflow detection is exact", "statement": "overflows<T>(s) returns true if and only if the integer denoted by the valid numeral s does not fit in T.", "quantifier": "every valid numeral in bases 2, 8, 10, 16, any sign, any case of prefix letter, any number of leading zeros, every 8/16/32/64-bit type", "why_tests_cant": "the implementation compares strings against per-width limit strings; the input length is unbounded and a single wrong limit or length table entry affects only a few strings", "anchors": ["src/c4/charconv.hpp:overflows", "src/c4/charconv.hpp:detail::charconv_digits"]}
{"id": "C10", "title": "Overflow-checked parsing is sound and complete", "statement": "from_chars with fmt::overflow_checked(v) succeeds exactly when the text is a valid integer whose mathematical value fits the target type, and then stores exactly that value.", "quantifier": "every byte string, every integer type", "why_tests_cant": "composition of two independent recognisers that must agree on every string of any length", "anchors": ["src/c4/format.hpp:overflow_checked", "src/c4/charconv.hpp:overflows", "src/c4/charconv.hpp:atoi", "src/c4/charconv.hpp:atou"]}
{"id": "C11", "title": "overflows<T> stays inside the string", "statement": "overflows<T>(s) reads no byte outside s.", "quantifier": "every byte string (including a lone sign), every integer type", "why_tests_cant": "an out-of-bounds read is silent in a test unless the allocation happens to be guarded", "anchors": ["src/c4/charconv.hpp:overflows"]}
{"id": "C12", "title": "Prefix parsers consume exactly the numeral", "statement": "atoi_first/atou_first/from_chars_first skip leading whitespace, parse the longest integer prefix delimited as documented, store its value and return the offset one past the last consumed character, or npos if there is none.", "quantifier": "every byte string, every integer type", "why_tests_cant": "the delimiter and sign rules interact; infinite input space", "anchors": ["src/c4/charconv.hpp:atoi_first", "src/c4/charconv.hpp:atou_first", "src/c4/charconv.hpp:from_chars_first", "src/c4/substr.hpp:first_int_span", "src/c4/substr.hpp:first_uint_span"]}
{"id": "C13", "title": "Bool, char and string conversions", "statement": "to_chars/from_chars of bool, char and (c)substr round trip: the text written for a value is read back as the value; a string copy never writes more than min(buf.len, str.len) bytes and always returns the full length.", "quantifier": "every bool, every char, every pair of buffer and string", "why_tests_cant": "buffer/string length pairs are unbounded", "anchors": ["src/c4/charconv.hpp:to_chars", "src/c4/charconv.hpp:from_chars", "src/c4/charconv.hpp:from_chars_first"]}
{"id": "C14", "title": "from_chars_first for bool agrees with from_chars", "statement": "from_chars_first(s,bool*) skips surrounding whitespace like the other from_chars_first overloads: whenever the first non-blank word of s is a valid bool, it stores that bool and returns the offset after the word.", "quantifier": "every string with leading/trailing whitespace around a bool token", "why_tests_cant": "infinitely many whitespace/suffix combinations", "anchors": ["src/c4/charconv.hpp:from_chars_first"]}
{"id": "C15", "title": "compare is a total order consistent with equality", "statement": "csubstr::compare and the derived ==,!=,<,<=,>,>= form a total order: compare(a,b)=0 iff same bytes, antisymmetric, transitive, and equal to lexicographic order on bytes with the shorter prefix first.", "quantifier": "every pair/triple of byte strings", "why_tests_cant": "order laws quantify over pairs and triples of arbitrary strings", "anchors": ["src/c4/substr.hpp:compare"]}
{"id": "C16", "title": "compare with a single char agrees with compare of a one-char string", "statement": "csubstr::compare(char c) gives the same sign as comparing with the one-character string c.", "quantifier": "every string (of any size_t length) and every char", "why_tests_cant": "the length-to-int conversion differs only for strings of 2^31 bytes or more", "anchors": ["src/c4/substr.hpp:compare(C)"]}
{"id": "C17", "title": "find returns the first occurrence", "statement": "s.find(p, start) returns the smallest index i >= start such that p occurs in s at i, and npos exactly when there is none; it reads no byte outside either string.", "quantifier": "every haystack, needle and start position", "why_tests_cant": "string pairs are infinite; overlap/self-prefix patterns and end-of-string bounds are classic off-by-one spots", "anchors": ["src/c4/substr.hpp:find", "src/c4/substr.hpp:first_of", "src/c4/substr.hpp:select"]}
{"id": "C18", "title": "count counts the non-overlapping occurrences", "statement": "s.count(c) is the number of bytes equal to c from the start position; s.count(str) is the number of non-overlapping occurrences found left to right, for a non-empty str.", "quantifier": "every string, char, non-empty pattern, start", "why_tests_cant": "infinite input space", "anchors": ["src/c4/substr.hpp:count"]}
{"id": "C19", "title": "count terminates", "statement": "s.count(str) terminates for every str, including the empty pattern.", "quantifier": "every string and pattern", "why_tests_cant": "non-termination cannot be observed by a finite test", "anchors": ["src/c4/substr.hpp:count"]}
{"id": "C20", "title": "first_of/last_of/first_not_of/last_not_of", "statement": "The character-class searches return the smallest/largest index (in the half open range delimited by start) whose byte is / is not in the class, npos exactly when there is none.", "quantifier": "every string, every character class, every start index", "why_tests_cant": "infinite input space; the backward loops over size_t wrap around at zero", "anchors": ["src/c4/substr.hpp:first_of", "src/c4/substr.hpp:last_of", "src/c4/substr.hpp:first_not_of", "src/c4/substr.hpp:last_not_of"]}
{"id": "C21", "title": "Trimming removes exactly the outer class characters", "statement": "triml/trimr/trim(class) return the unique maximal-inner substring that neither starts (nor ends) with a class character; the removed parts consist of class characters only; trimming is idempotent; the result is a view inside the original.", "quantifier": "every string and class", "why_tests_cant": "all-blank and empty strings, all classes", "anchors": ["src/c4/substr.hpp:triml", "src/c4/substr.hpp:trimr", "src/c4/substr.hpp:trim"]}
{"id": "C22", "title": "Stripping a pattern", "statement": "stripl/stripr(pattern) remove one occurrence of the pattern when the string begins/ends with it, otherwise return the string unchanged.", "quantifier": "every string and pattern", "why_tests_cant": "infinite input space", "anchors": ["src/c4/substr.hpp:stripl", "src/c4/substr.hpp:stripr", "src/c4/substr.hpp:begins_with", "src/c4/substr.hpp:ends_with"]}
{"id": "C23", "title": "Splitting and joining are inverse", "statement": "Iterating split(sep) (or calling next_split repeatedly) yields exactly the maximal separator-free pieces in order, and joining the pieces with sep gives back the original string; the iteration terminates.", "quantifier": "every string and separator, including leading, trailing and repeated separators and the empty string", "why_tests_cant": "quantifies over all strings; trailing-separator handling is where split implementations disagree", "anchors": ["src/c4/substr.hpp:split", "src/c4/substr.hpp:next_split", "src/c4/substr.hpp:split_proxy"]}
{"id": "C24", "title": "Sub-selection stays inside the parent", "statement": "sub/range/first/last/offs and left_of/right_of called with arguments that satisfy their documented (asserted) preconditions return a view lying inside the parent string, with exactly the documented contents.", "quantifier": "every string length and every argument accepted by the assertions", "why_tests_cant": "size_t wrap-around on unusual but accepted arguments", "anchors": ["src/c4/substr.hpp:sub", "src/c4/substr.hpp:range", "src/c4/substr.hpp:first", "src/c4/substr.hpp:last", "src/c4/substr.hpp:offs", "src/c4/substr.hpp:left_of", "src/c4/substr.hpp:right_of"]}
{"id": "C25", "title": "left_of and right_of partition the string", "statement": "s.left_of(pos) ++ s[pos] ++ s.right_of(pos) = s (and the variants including pos), and for views, s.left_of(sub) ++ sub ++ s.right_of(sub) = s.", "quantifier": "every string, every pos < len, every subview", "why_tests_cant": "infinite input space", "anchors": ["src/c4/substr.hpp:left_of", "src/c4/substr.hpp:right_of"]}
{"id": "C26", "title": "replace_all replaces every non-overlapping occurrence", "statement": "replace_all(dst, pattern, repl, pos) returns the size of the string obtained by replacing left to right every non-overlapping occurrence at or after pos, writes exactly that string if dst is large enough, and never writes outside dst.", "quantifier": "every source, pattern, replacement, pos, and destination length", "why_tests_cant": "the write loop has no explicit per-step bound; safety depends on a global counting argument", "anchors": ["src/c4/substr.hpp:replace_all", "src/c4/substr.hpp:count"]}
{"id": "C27", "title": "In-place edits", "statement": "erase, reverse, reverse_sub/range, fill, copy_from, toupper/tolower, replace(char) act as the corresponding list operations on the addressed range and leave all other bytes unchanged.", "quantifier": "every string and every in-range position/length", "why_tests_cant": "infinite input space; overlapping memmove directions", "anchors": ["src/c4/substr.hpp:erase", "src/c4/substr.hpp:reverse", "src/c4/substr.hpp:reverse_sub", "src/c4/substr.hpp:fill", "src/c4/substr.hpp:copy_from", "src/c4/substr.hpp:replace", "src/c4/substr.hpp:toupper"]}
{"id": "C28", "title": "Path and separator popping recombine", "statement": "pop_left/pop_right/gpop_left/gpop_right, basename/dirname and extshort/extlong/name_wo_ext return views that recombine (with the separator) to the input, as documented, for every string.", "quantifier": "every string and separator, with and without skip_empty", "why_tests_cant": "infinite input space", "anchors": ["src/c4/substr.hpp:pop_left", "src/c4/substr.hpp:pop_right", "src/c4/substr.hpp:gpop_left", "src/c4/substr.hpp:gpop_right", "src/c4/substr.hpp:basename", "src/c4/substr.hpp:dirname", "src/c4/substr.hpp:extshort", "src/c4/substr.hpp:name_wo_extshort"]}
{"id": "C29", "title": "Bracketed ranges", "statement": "pair_range(o,c) returns the substring from the first o to the first following c; pair_range_nested returns the substring from the first o to its balanced closing c; both empty when there is none.", "quantifier": "every string and pair of distinct delimiters", "why_tests_cant": "nesting depth is unbounded", "anchors": ["src/c4/substr.hpp:pair_range", "src/c4/substr.hpp:pair_range_nested"]}
{"id": "C30", "title": "Escaped quotes", "statement": "pair_range_esc(q, e) returns the range from the first q to the next q that is not escaped by e, for strings in which e itself may be escaped by doubling.", "quantifier": "every string", "why_tests_cant": "runs of escape characters of every length", "anchors": ["src/c4/substr.hpp:pair_range_esc"]}
{"id": "C31", "title": "Number spans are prefixes in the documented language", "statement": "first_int_span/first_uint_span return either an empty view or a prefix of the left-trimmed string that is a valid integer literal followed by the end of string or a delimiter, and return the whole string when the string is such a literal.", "quantifier": "every byte string", "why_tests_cant": "infinite input space with five sub-languages", "anchors": ["src/c4/substr.hpp:first_int_span", "src/c4/substr.hpp:first_uint_span", "src/c4/substr.hpp:_first_integral_span"]}
{"id": "C32", "title": "is_integer agrees with the parser", "statement": "If s.is_unsigned_integer() (resp. is_integer()) then atou(s) (resp. atoi(s)) succeeds on the trimmed s, and conversely.", "quantifier": "every byte string", "why_tests_cant": "two independently written recognisers; agreement must hold on infinitely many strings", "anchors": ["src/c4/substr.hpp:is_integer", "src/c4/substr.hpp:is_unsigned_integer", "src/c4/charconv.hpp:atoi", "src/c4/charconv.hpp:atou"]}
{"id": "C33", "title": "Real number spans", "statement": "first_real_span returns an empty view or a prefix of the left-trimmed string; every valid decimal floating point literal (sign, digits, optional fraction, optional exponent, inf/nan words) followed by end/delimiter is returned in full.", "quantifier": "every byte string", "why_tests_cant": "infinite input space; four base-specific scanners", "anchors": ["src/c4/substr.hpp:first_real_span", "src/c4/substr.hpp:_first_real_span_dec", "src/c4/substr.hpp:_first_real_span_hex"]}
{"id": "C34", "title": "Base64 round trip", "statement": "base64_decode(base64_encode(data)) = data, with exact reported sizes on both sides.", "quantifier": "every byte string of any length (all three remainders modulo 3)", "why_tests_cant": "infinite input space; table-driven with three tail cases", "anchors": ["src/c4/base64.cpp:base64_encode", "src/c4/base64.cpp:base64_decode"]}
{"id": "C35", "title": "Base64 encoding is RFC 4648", "statement": "base64_encode yields exactly the RFC 4648 text: 4*ceil(n/3) characters, standard alphabet, correct '=' padding; the result passes base64_valid.", "quantifier": "every byte string", "why_tests_cant": "per-character table plus bit shuffling over all inputs", "anchors": ["src/c4/base64.cpp:base64_encode", "src/c4/base64.cpp:base64_valid"]}
{"id": "C36", "title": "Base64 buffer discipline", "statement": "base64_encode and base64_decode never store outside the output buffer and always return the size required for the full result, even when the buffer is smaller.", "quantifier": "every input and every output buffer length", "why_tests_cant": "each of the three stores per quantum has its own bounds check; a slip needs one particular length", "anchors": ["src/c4/base64.cpp:base64_encode", "src/c4/base64.cpp:base64_decode"]}
{"id": "C37", "title": "Base64 validity", "statement": "base64_valid(s) holds exactly for the strings base64_decode can decode faithfully (the RFC 4648 texts: length multiple of four, alphabet characters, '=' only as the last one or two characters).", "quantifier": "every byte string", "why_tests_cant": "rejection must be checked on an infinite set of malformed strings", "anchors": ["src/c4/base64.cpp:base64_valid", "src/c4/base64.cpp:base64_decode"]}
{"id": "C38", "title": "Base64 decode/encode on canonical text", "statement": "Encoding the decoded bytes of a canonical base64 text gives the text back (decode is injective on canonical texts).", "quantifier": "every canonical base64 string", "why_tests_cant": "infinite input space", "anchors": ["src/c4/base64.cpp:base64_decode", "src/c4/base64.cpp:base64_encode"]}
{"id": "C39", "title": "UTF-8 encoding is correct", "statement": "decode_code_point writes the UTF-8 encoding (RFC 3629) of the code point and returns its length (1..4), zero for values above 0x10ffff; the encoding is injective and decodes back to the code point.", "quantifier": "every 32-bit code", "why_tests_cant": "2^32 inputs with four bands and boundary values", "anchors": ["src/c4/utf.cpp:decode_code_point"]}
{"id": "C40", "title": "UTF-8 encoder rejects surrogates", "statement": "decode_code_point returns 0 for code points that are not Unicode scalar values (the surrogates 0xD800..0xDFFF), so its output is always well-formed UTF-8.", "quantifier": "every 32-bit code", "why_tests_cant": "needs the exact band of 2048 codes", "anchors": ["src/c4/utf.cpp:decode_code_point"]}
{"id": "C41", "title": "cat concatenates", "statement": "cat(buf, args...) writes the concatenation of the to_chars text of each argument when it fits, always returns the total length required, and never writes outside the buffer; bytes after the result are unchanged.", "quantifier": "every argument list and every buffer length", "why_tests_cant": "any number of arguments; the boundary can fall inside any argument", "anchors": ["src/c4/format.hpp:cat"]}
{"id": "C42", "title": "catsep inserts the separator between consecutive arguments", "statement": "catsep(buf, sep, args...) behaves as cat of the arguments interleaved with sep (no leading or trailing separator).", "quantifier": "every separator, argument list, buffer length", "why_tests_cant": "as above", "anchors": ["src/c4/format.hpp:catsep", "src/c4/format.hpp:detail::catsep_more"]}
{"id": "C43", "title": "format substitutes placeholders in order", "statement": "format(buf, fmt, args...) writes fmt with the i-th {} replaced by the i-th argument's text; surplus placeholders are kept and surplus arguments are ignored; the return value is the full required length for every buffer length; no write outside the buffer.", "quantifier": "every format string, argument list, buffer length", "why_tests_cant": "format strings are arbitrary; placeholder count may differ from argument count", "anchors": ["src/c4/format.hpp:format"]}
{"id": "C44", "title": "uncatsep/unformat invert catsep/format", "statement": "Reading back with uncatsep/unformat the text produced by catsep/format from integers recovers the integers when the separators/literals delimit them.", "quantifier": "every integer tuple and delimiter", "why_tests_cant": "tuple and value space unbounded", "anchors": ["src/c4/format.hpp:uncatsep", "src/c4/format.hpp:unformat", "src/c4/format.hpp:uncat"]}
{"id": "C45", "title": "catrs grows until it fits", "statement": "catrs/catseprs/formatrs leave in the growable container exactly the full text, whatever its initial size, after at most one retry, and the append variants preserve the previous content.", "quantifier": "every argument list and initial container size", "why_tests_cant": "requires reasoning about two calls with different buffers", "anchors": ["src/c4/format.hpp:catrs", "src/c4/format.hpp:catrs_append", "src/c4/format.hpp:catseprs", "src/c4/format.hpp:formatrs", "src/c4/format.hpp:formatrs_append"]}
{"id": "C46", "title": "Aligned output stays inside the buffer", "statement": "to_chars of fmt::left/fmt::right(value, width, pad) returns max(width, text length), writes the value padded to that width if it fits and never writes outside the buffer.", "quantifier": "every value text length, width, pad and buffer length", "why_tests_cant": "three independent lengths; the failing region is text < buf.len < width", "anchors": ["src/c4/format.hpp:to_chars(substr, fmt::left_)", "src/c4/format.hpp:to_chars(substr, fmt::right_)"]}
{"id": "C47", "title": "Aligned output when it fits", "statement": "When buf.len >= width the text of fmt::left/right is the value padded on the right/left with exactly width - len pad characters, the rest of the buffer unchanged.", "quantifier": "every value text, width, pad, buffer with len >= max(width, text length)", "why_tests_cant": "three unbounded lengths", "anchors": ["src/c4/format.hpp:to_chars(substr, fmt::left_)", "src/c4/format.hpp:to_chars(substr, fmt::right_)"]}
{"id": "C48", "title": "Dumping equals concatenating", "statement": "cat_dump/catsep_dump/format_dump with a buffer at least as large as the largest single argument text emits through the dump callback, in order, chunks whose concatenation equals the cat/catsep/format result, and returns the largest size needed by any single argument.", "quantifier": "every argument list and every large-enough non-empty buffer", "why_tests_cant": "argument lists of any length and any mixture of strings and values", "anchors": ["src/c4/dump.hpp:cat_dump", "src/c4/dump.hpp:catsep_dump", "src/c4/dump.hpp:format_dump"]}
{"id": "C49", "title": "Dumping with a small buffer emits a prefix", "statement": "With a buffer that is too small, cat_dump/catsep_dump/format_dump emit only a prefix of the full text consisting of whole arguments and return a size that, used for a second call, succeeds.", "quantifier": "every argument list and buffer length", "why_tests_cant": "the failing argument can be anywhere", "anchors": ["src/c4/dump.hpp:cat_dump", "src/c4/dump.hpp:catsep_dump", "src/c4/dump.hpp:format_dump"]}
{"id": "C50", "title": "Resumable dumping emits each argument exactly once, in order", "statement": "Calling cat_dump_resume/catsep_dump_resume repeatedly with growing buffers, passing back the returned state, emits every argument exactly once and in order.", "quantifier": "every argument list and every sequence of buffer sizes ending with a sufficient one", "why_tests_cant": "histories of calls of any length", "anchors": ["src/c4/dump.hpp:cat_dump_resume", "src/c4/dump.hpp:catsep_dump_resume", "src/c4/dump.hpp:DumpResults"]}
{"id": "C51", "title": "Resumable format dumping handles formats with few placeholders", "statement": "format_dump_resume, resumed after a partial success, emits exactly the remaining pieces of the format for every format string, including those with fewer placeholders than arguments.", "quantifier": "every format string, argument list, and sequence of buffer sizes", "why_tests_cant": "as above", "anchors": ["src/c4/dump.hpp:format_dump_resume"]}
{"id": "C52", "title": "lsb/msb give the extreme set bits", "statement": "lsb(v)/msb(v) (and the portable fallbacks, and the compile-time lsb11/msb11) return the index of the lowest/highest set bit of every non-zero v.", "quantifier": "every non-zero value of every width", "why_tests_cant": "2^64 values", "anchors": ["src/c4/memory_util.hpp:lsb", "src/c4/memory_util.hpp:msb", "src/c4/memory_util.hpp:lsb11", "src/c4/memory_util.hpp:msb11", "src/c4/memory_util.hpp:detail::_lsb", "src/c4/memory_util.hpp:detail::_msb"]}
{"id": "C53", "title": "contiguous_mask", "statement": "contiguous_mask(first,last) has exactly the bits i with first <= i < last set.", "quantifier": "every first <= last <= bits and every integer type", "why_tests_cant": "needs all pairs for all widths, including full-width shifts", "anchors": ["src/c4/memory_util.hpp:contiguous_mask", "src/c4/memory_util.hpp:contiguous_mask11"]}
{"id": "C54", "title": "ipow is exponentiation", "statement": "ipow(base, e) equals base^e modulo 2^bits for every unsigned type and exponent, and the compile-time-base overloads agree with it.", "quantifier": "every base, exponent >= 0, integer type", "why_tests_cant": "infinite pairs", "anchors": ["src/c4/memory_util.hpp:ipow"]}
{"id": "C55", "title": "mem_repeat tiles the destination", "statement": "mem_repeat(dest, pattern, psz, n) fills exactly n*psz bytes of dest with n copies of the pattern and touches nothing else.", "quantifier": "every pattern and repetition count", "why_tests_cant": "doubling loop with a tail; every n", "anchors": ["src/c4/memory_util.cpp:mem_repeat"]}
{"id": "C56", "title": "mem_overlaps is interval intersection", "statement": "mem_overlaps(a,b,sa,sb) is true exactly when the half-open byte ranges [a,a+sa) and [b,b+sb) (both non-empty) share a byte; it is symmetric.", "quantifier": "every pair of ranges that do not wrap the address space", "why_tests_cant": "all pairs of ranges including adjacency and empties", "anchors": ["src/c4/memory_util.hpp:mem_overlaps", "src/c4/substr.hpp:overlaps", "src/c4/substr.hpp:is_super"]}
{"id": "C57", "title": "span operations preserve the range invariant", "statement": "Any sequence of accepted subspan/range/first/last/resize/ltrim/rtrim operations on span/spanrs/spanrsl yields a view inside the original memory, size <= capacity, and spanrsl::original() always recovers the original block.", "quantifier": "every sequence of operations with accepted arguments, any initial block", "why_tests_cant": "unbounded operation sequences", "anchors": ["src/c4/span.hpp:span", "src/c4/span.hpp:spanrs", "src/c4/span.hpp:spanrsl", "src/c4/span.hpp:subspan", "src/c4/span.hpp:original"]}
{"id": "C58", "title": "span complements", "statement": "For a subspan ss of s: compll(ss) ++ ss ++ complr(ss) = s, is_subspan(ss) holds.", "quantifier": "every span and subspan", "why_tests_cant": "all pairs", "anchors": ["src/c4/span.hpp:compll", "src/c4/span.hpp:complr", "src/c4/span.hpp:is_subspan"]}
{"id": "C59", "title": "Linear memory resource hands out disjoint, aligned, in-range blocks", "statement": "Every block returned by MemoryResourceLinear lies inside the arena, is aligned as requested, and is disjoint from every other live block, over any history of allocate/deallocate/reallocate calls; a request that does not fit is reported as an error, never as a block.", "quantifier": "every history of requests with arbitrary sizes and power-of-two alignments, any arena base address and size", "why_tests_cant": "histories and address alignments are unbounded", "anchors": ["src/c4/memory_resource.cpp:MemoryResourceLinear::do_allocate", "src/c4/memory_resource.cpp:MemoryResourceLinear::do_reallocate", "src/c4/memory_resource.cpp:MemoryResourceLinear::do_deallocate"]}
{"id": "C60", "title": "Reallocation preserves contents", "statement": "reallocate(ptr, oldsz, newsz) of MemoryResourceLinear returns a block whose first min(oldsz,newsz) bytes equal the old block's bytes.", "quantifier": "every history and every content", "why_tests_cant": "only visible when the block is not the most recent one and is inspected afterwards", "anchors": ["src/c4/memory_resource.cpp:MemoryResourceLinear::do_reallocate"]}
{"id": "C61", "title": "Arena ownership is released exactly once", "statement": "A MemoryResourceLinear that owns its memory returns it to the upstream resource exactly once, either at release() or at destruction, and acquire(size) after release() obtains new memory from upstream.", "quantifier": "every history of acquire/release/destroy", "why_tests_cant": "depends on dynamic dispatch in different object phases; needs histories", "anchors": ["src/c4/memory_resource.cpp:_MemoryResourceSingleChunk::acquire", "src/c4/memory_resource.cpp:_MemoryResourceSingleChunk::release", "src/c4/memory_resource.hpp:_MemoryResourceSingleChunk"]}
{"id": "C62", "title": "Allocation counters are exact", "statement": "After any history of matched operations, MemoryResourceCounts reports the number and total bytes of live blocks (curr), of all blocks ever obtained (total) and the historical maxima (max).", "quantifier": "every history of allocate/deallocate/reallocate", "why_tests_cant": "unbounded histories", "anchors": ["src/c4/memory_resource.hpp:AllocationCounts", "src/c4/memory_resource.hpp:MemoryResourceCounts"]}
{"id": "C63", "title": "Small allocator hands out disjoint blocks", "statement": "Blocks returned by SmallAllocator::allocate that have not been deallocated never overlap, for every order of deallocation.", "quantifier": "every history of allocate/deallocate", "why_tests_cant": "needs particular non-LIFO interleavings", "anchors": ["src/c4/allocator.hpp:SmallAllocator::allocate", "src/c4/allocator.hpp:SmallAllocator::deallocate"]}
{"id": "C64", "title": "Small allocator is safe under LIFO use", "statement": "Under last-in-first-out deallocation, live SmallAllocator blocks are pairwise disjoint, lie inside the inline array or come from the resource, and every resource block is returned exactly once.", "quantifier": "every LIFO history", "why_tests_cant": "unbounded histories", "anchors": ["src/c4/allocator.hpp:SmallAllocator"]}
{"id": "C65", "title": "Allocator requests the full size", "statement": "Allocator<T>::allocate(n) requests n*sizeof(T) bytes from the resource for every n, never less.", "quantifier": "every n and sizeof(T)", "why_tests_cant": "needs n near 2^64/sizeof(T)", "anchors": ["src/c4/allocator.hpp:Allocator::allocate", "src/c4/allocator.hpp:detail::size_for"]}
{"id": "C66", "title": "Scoped settings are restored", "statement": "After any properly nested sequence of scopes of ScopedErrorSettings / ScopedMemoryResource / ScopedMemoryResourceCounts, the global setting equals its value before the sequence.", "quantifier": "every properly nested (and interleaved with set_* calls) history", "why_tests_cant": "unbounded nesting", "anchors": ["src/c4/error.hpp:ScopedErrorSettings", "src/c4/memory_resource.hpp:ScopedMemoryResource", "src/c4/memory_resource.hpp:ScopedMemoryResourceCounts"]}
{"id": "C67", "title": "make_room / destroy_room shift values", "statement": "make_room moves the elements right of the gap unchanged (old values readable at the shifted positions, everything before the gap unchanged), and destroy_room is its inverse.", "quantifier": "every buffer content, size, position, room, with and without overlap", "why_tests_cant": "overlap direction matters only for room < size", "anchors": ["src/c4/ctor_dtor.hpp:make_room", "src/c4/ctor_dtor.hpp:destroy_room"]}
{"id": "C68", "title": "make_room / destroy_room respect object lifetimes", "statement": "For non-trivial element types make_room and destroy_room construct only in storage without a live object and leave no moved-from object undestroyed.", "quantifier": "every size/room/pos", "why_tests_cant": "lifetime errors are invisible to value-based tests", "anchors": ["src/c4/ctor_dtor.hpp:make_room", "src/c4/ctor_dtor.hpp:destroy_room"]}
{"id": "C69", "title": "FNV-1a hashing", "statement": "hash_bytes computes 64-bit FNV-1a, incremental updates equal one-shot hashing, and two equal-length inputs differing in exactly one byte never collide.", "quantifier": "every byte string, every split point", "why_tests_cant": "collision freedom over infinitely many pairs", "anchors": ["src/c4/hash.hpp:basic_fnv1a", "src/c4/hash.hpp:hash_bytes"]}
{"id": "C70", "title": "szconv preserves accepted values", "statement": "szconv<Out>(v) returns a value numerically equal to v whenever its assertions pass.", "quantifier": "every pair of integer types, every value", "why_tests_cant": "64 type pairs with full ranges", "anchors": ["src/c4/szconv.hpp:szconv", "src/c4/szconv.hpp:is_narrower_size"]}
{"id": "C71", "title": "Enum symbol lookup by name", "statement": "esyms<E>().find(name,len)/find(name) return a symbol whose full name or name without class/prefix offset equals the given text, for any symbol table; str2e(e2str(v)) = v for tables with unique names and values.", "quantifier": "every symbol table, offset configuration and query text", "why_tests_cant": "prefix-related names are only found in particular tables", "anchors": ["src/c4/enum.hpp:EnumSymbols::find", "src/c4/enum.hpp:Sym::cmp", "src/c4/enum.hpp:str2e", "src/c4/enum.hpp:e2str"]}
{"id": "C72", "title": "Bitmask to string and back", "statement": "bm2str(bits) writes a list of symbol names whose values OR to bits (or fails), reports the exact size, and str2bm of that text gives bits back.", "quantifier": "every symbol table (identifier names), every bits value", "why_tests_cant": "tables and masks are unbounded", "anchors": ["src/c4/bitmask.hpp:bm2str", "src/c4/bitmask.hpp:str2bm", "src/c4/bitmask.hpp:bm2stream"]}
{"id": "C73", "title": "Random generators are well defined", "statement": "The generators' state updates are bijections (no two seeds merge), splitmix visits 2^64 distinct states, discard(n) equals n calls, and calling a generator never has undefined behaviour.", "quantifier": "every 64-bit state", "why_tests_cant": "2^64 states", "anchors": ["src/c4/ext/rng/rng.hpp:splitmix", "src/c4/ext/rng/rng.hpp:xorshift", "src/c4/ext/rng/rng.hpp:pcg"]}
{"id": "C74", "title": "Extraction of the first word", "statement": "first_non_empty_span and from_chars_first(csubstr) yield the maximal blank-free run after the leading blanks; from_chars_first(substr) copies that word, leaves the destination view denoting exactly it, and never writes outside the destination.", "quantifier": "every string, every destination", "why_tests_cant": "word boundaries and destination sizes are unbounded", "anchors": ["src/c4/substr.hpp:first_non_empty_span", "src/c4/charconv.hpp:from_chars_first"]}
{"id": "C75", "title": "Pointer conversions", "statement": "to_chars/from_chars of a pointer round trip; from_chars_first of a pointer returns the number of characters read, or npos leaving the pointer unchanged when there is no number.", "quantifier": "every pointer value, every buffer, every string", "why_tests_cant": "2^64 pointers and infinitely many strings; the failure path reads an uninitialised local", "anchors": ["src/c4/charconv.hpp:to_chars", "src/c4/charconv.hpp:from_chars", "src/c4/charconv.hpp:from_chars_first"]}
{"id": "C76", "title": "Raw binary data round trips", "statement": "to_chars(buf, raw(data, alignment)) stores the bytes at the first aligned address of the buffer and returns padding plus size, or stores nothing and returns a sufficient size; from_chars(buf, raw(...)) on the same buffer recovers the bytes; from_chars_first returns the number of bytes consumed.", "quantifier": "every byte sequence, alignment, buffer address and length", "why_tests_cant": "alignment of the buffer address varies with the allocator; padding bytes are invisible to a test that reads back with the same address", "anchors": ["src/c4/format.cpp:18", "src/c4/format.cpp:39", "src/c4/format.hpp:479"]}
{"id": "C77", "title": "is_aligned is divisibility", "statement": "is_aligned(ptr, alignment) is true exactly when the address is a multiple of the alignment, for alignments that are powers of two.", "quantifier": "every address and every power-of-two alignment", "why_tests_cant": "2^64 addresses", "anchors": ["src/c4/memory_util.hpp:is_aligned"]}
{"id": "C78", "title": "span comparison and element access", "statement": "operator== on spans holds exactly when the element sequences are equal, the ordering operators are the lexicographic order (a strict total order), and operator[], front() and back() return the elements, failing their assertion exactly out of range.", "quantifier": "every pair of spans over any memory, any element values", "why_tests_cant": "all pairs of sequences, including prefixes and overlapping spans", "anchors": ["src/c4/span.hpp:operator==", "src/c4/span.hpp:operator<", "src/c4/span.hpp:front", "src/c4/span.hpp:back"]}
{"id": "C79", "title": "malloc-based resource: alignment and contents", "statement": "aalloc passes posix_memalign only alignments it accepts (a power of two, a multiple of the pointer size, at least the requested one) and reports any other; arealloc returns a block whose first min(oldsz,newsz) bytes are the old ones and writes nothing else, even if the ranges overlap.", "quantifier": "every size, alignment, address and content, every outcome of posix_memalign", "why_tests_cant": "all contents and overlaps; the failing allocation", "anchors": ["src/c4/memory_resource.cpp:aalloc_impl", "src/c4/memory_resource.cpp:arealloc_impl"]}
{"id": "C80", "title": "SmallAllocator reallocation and alignment", "statement": "SmallAllocator::reallocate returns a block that does not overlap other live blocks and keeps the count of objects in step, and allocate(n, alignment) returns a block with that alignment.", "quantifier": "every state, sizes and alignments", "why_tests_cant": "needs several live blocks and a later allocation", "anchors": ["src/c4/allocator.hpp:SmallAllocator::reallocate", "src/c4/allocator.hpp:SmallAllocator::allocate"]}
{"id": "C81", "title": "construct, copy, move and destroy n objects", "statement": "construct_n, copy_construct_n, copy_assign_n, move_construct_n, move_assign_n and destroy_n construct only where there is no object, read, assign and destroy only objects, produce the values of the source in order, and change nothing outside the two ranges.", "quantifier": "every content, disjoint ranges and size; trivial and non-trivial element types", "why_tests_cant": "all contents and positions; constructing over an object is invisible to value-based tests", "anchors": ["src/c4/ctor_dtor.hpp:construct_n", "src/c4/ctor_dtor.hpp:copy_construct_n", "src/c4/ctor_dtor.hpp:copy_assign_n", "src/c4/ctor_dtor.hpp:move_construct_n", "src/c4/ctor_dtor.hpp:move_assign_n", "src/c4/ctor_dtor.hpp:destroy_n"]}
{"id": "C82", "title": "Periods of the random generators", "statement": "From every nonzero seed xorshift runs through all 2^64-1 nonzero states before repeating; pcg runs through all 2^64 states.", "quantifier": "every 64-bit seed and increment", "why_tests_cant": "2^64 states", "anchors": ["src/c4/ext/rng/rng.hpp:xorshift", "src/c4/ext/rng/rng.hpp:pcg"]}
{"id": "C83", "title": "Queries on the ends of a view, selection of a character", "statement": "begins_with_any and ends_with_any hold exactly if the first (last) character is one of the given ones; ends_with(c,num) exactly if the last num characters are c; select(c,pos) is the first occurrence at or after pos, or a null view.", "quantifier": "every string, character set, count and position", "why_tests_cant": "all strings including empty and short ones", "anchors": ["src/c4/substr.hpp:begins_with_any", "src/c4/substr.hpp:ends_with_any", "src/c4/substr.hpp:ends_with", "src/c4/substr.hpp:select"]}
{"id": "C84", "title": "unquoted", "statement": "unquoted() removes the quotes of a quoted string and returns any other string as it is.", "quantifier": "every string", "why_tests_cant": "escapes at the end of the text; text with inner quotes", "anchors": ["src/c4/substr.hpp:unquoted"]}
{"id": "C85", "title": "File name extensions", "statement": "extshort/name_wo_extshort split a file name at its last dot, extlong/name_wo_extlong at its first; a name without a dot has no extension.", "quantifier": "every file name", "why_tests_cant": "all positions and numbers of dots", "anchors": ["src/c4/substr.hpp:extshort", "src/c4/substr.hpp:extlong", "src/c4/substr.hpp:name_wo_extshort", "src/c4/substr.hpp:name_wo_extlong"]}
{"id": "C86", "title": "erase by range and by sub-view", "statement": "erase_range(first,last) and erase(sub) remove exactly the given characters, close the gap, touch nothing outside the view and reject a range or view that is not inside.", "quantifier": "every memory, view, range and sub-view", "why_tests_cant": "all positions; rejection needs invalid arguments", "anchors": ["src/c4/substr.hpp:erase_range", "src/c4/substr.hpp:erase"]}
{"id": "C87", "title": "Views from arrays, pointers and C strings", "statement": "A view made from a C string is the text before the first zero byte; from an array of N characters it is the first N-1; from two pointers it is what lies between.", "quantifier": "every content", "why_tests_cant": "contents with inner zero bytes", "anchors": ["src/c4/substr.hpp:basic_substring", "src/c4/substr.hpp:to_csubstr"]}
{"id": "C88", "title": "Comparisons with std containers", "statement": "Comparing a view with a std::string, std::string_view or std::vector<char>, on either side, gives the order of the characters (as signed char), and the six operators agree.", "quantifier": "every pair of strings", "why_tests_cant": "36 operators over all pairs; mirrored operators are easily swapped", "anchors": ["src/c4/std/string.hpp:operator<", "src/c4/std/vector.hpp:operator<", "src/c4/std/string_view.hpp:operator<"]}
{"id": "C89", "title": "Conversion to and from std containers", "statement": "to_chars of a std container writes its characters up to the end of the buffer and returns its size; from_chars makes the container equal to the view, also for a view of the string itself that does not overlap the destination.", "quantifier": "every content, buffer and view", "why_tests_cant": "views of the string's own storage at every offset", "anchors": ["src/c4/std/string.hpp:to_chars", "src/c4/std/string.hpp:from_chars", "src/c4/std/vector.hpp:from_chars"]}
{"id": "C90", "title": "uncat inverts cat", "statement": "Reading with uncat what cat wrote gives the values back and consumes the whole text.", "quantifier": "every list of arguments", "why_tests_cant": "all argument lists and values", "anchors": ["src/c4/format.hpp:uncat", "src/c4/format.hpp:cat"]}
{"id": "C91", "title": "Blobs and character traits", "statement": "A blob of n objects has n times their size and can be converted and assigned to a constant blob; num_needed_chars is the least number of characters holding the bytes; num_whitespace_chars is the number of whitespace characters; a misaligned pointer is reported; isspace tells exactly the whitespace characters.", "quantifier": "every size, count and character width", "why_tests_cant": "widths of wchar_t differ by platform; sizes near 2^64", "anchors": ["src/c4/blob.hpp:blob_", "src/c4/char_traits.hpp:needed_chars", "src/c4/char_traits.hpp:char_traits", "src/c4/char_traits.hpp:isspace"]}
{"id": "C92", "title": "inplace_function lifetimes", "statement": "Under every sequence of construction, copy, move, assignment, reset, swap, call and destruction an inplace_function behaves as a variable holding nothing or a closure: no closure is used before construction or after destruction, none is leaked, self-assignment and self-swap are harmless, calling an empty one throws.", "quantifier": "every sequence of operations, closure types and states, also throwing ones", "why_tests_cant": "all interleavings; exceptions at every point", "anchors": ["src/c4/ext/sg14/inplace_function.h:inplace_function", "src/c4/ext/sg14/inplace_function.h:swap", "src/c4/ext/sg14/inplace_function.h:operator="]}
{"id": "C93", "title": "ScopedErrorSettings", "statement": "ScopedErrorSettings applies the given flags and/or callback and its destructor restores both, for every nesting and also when the block is left by an exception.", "quantifier": "every settings and every nested program", "why_tests_cant": "all nestings", "anchors": ["src/c4/error.hpp:ScopedErrorSettings", "src/c4/error.cpp:set_error_flags", "src/c4/error.cpp:set_error_callback"]}
{"id": "C94", "title": "handle_error", "statement": "handle_error logs and gives to the callback the formatted message cut to the buffer, with its exact length and a terminator, as the flags say, throws or aborts, and never returns; handle_warning logs the message.", "quantifier": "every flags, callback behaviour and message of any length", "why_tests_cant": "a test cannot continue after abort; all flag combinations and lengths", "anchors": ["src/c4/error.cpp:handle_error", "src/c4/error.cpp:handle_warning"]}
{"id": "C95", "title": "is_debugger_attached", "statement": "is_debugger_attached is true exactly if the TracerPid entry of the status file is a number other than 0, and later calls give the same answer.", "quantifier": "every content of the status file", "why_tests_cant": "the content of /proc/self/status is not under the control of a test", "anchors": ["src/c4/error.cpp:is_debugger_attached"]}
{"id": "C96", "title": "Eisel-Lemire rounding", "statement": "compute_float returns the binary number nearest to w*10^q, ties to even, with zero and infinity where the format ends; for float and double.", "quantifier": "every w below 2^64 and every integer q", "why_tests_cant": "2^64 times 650 inputs; correctness rests on number theory about the 651 table entries", "anchors": ["src/c4/ext/fast_float_all.h:compute_float", "src/c4/ext/fast_float_all.h:compute_product_approximation", "src/c4/ext/fast_float_all.h:powers_template"]}
{"id": "C97", "title": "text to float", "statement": "from_chars reads the longest decimal number at the begin of the text and stores the binary number nearest to it, ties to even, whatever the number of digits; out of range is reported exactly for infinity and for zero from a number that is not zero.", "quantifier": "every text, both types, both rounding modes", "why_tests_cant": "the inputs near the middle of two numbers are rare and of any length", "anchors": ["src/c4/ext/fast_float_all.h:from_chars", "src/c4/ext/fast_float_all.h:parse_number_string", "src/c4/ext/fast_float_all.h:digit_comp", "src/c4/ext/fast_float_all.h:parse_mantissa", "src/c4/ext/fast_float_all.h:compute_error", "src/c4/ext/fast_float_all.h:from_chars_advanced"]}
{"id": "C98", "title": "infinity, NaN and rejected text", "statement": "from_chars reads inf, infinity, nan and nan(...) with a sign and in either case, the longest one, and leaves the value alone and points at the begin for every other text that does not begin with a number.", "quantifier": "every text", "why_tests_cant": "all texts", "anchors": ["src/c4/ext/fast_float_all.h:parse_infnan", "src/c4/ext/fast_float_all.h:fastfloat_strncasecmp", "src/c4/ext/fast_float_all.h:from_chars"]}
{"id": "C99", "title": "from_chars is total", "statement": "from_chars reads only inside the text, the big integers never overflow, and the returned position is inside the text.", "quantifier": "every text of any length", "why_tests_cant": "texts of any length", "anchors": ["src/c4/ext/fast_float_all.h:from_chars", "src/c4/ext/fast_float_all.h:bigint", "src/c4/ext/fast_float_all.h:stackvec"]}
{"id": "C100", "title": "atof and atod", "statement": "atof and atod store the number nearest to a decimal text and return true except on overflow and underflow; they read infinity and NaN; they reject any other text and leave the variable alone; a sign is accepted; the whole text must be the number.", "quantifier": "every text, both types", "why_tests_cant": "all texts", "anchors": ["src/c4/charconv.hpp:atof", "src/c4/charconv.hpp:atod"]}
{"id": "C101", "title": "hexadecimal floats", "statement": "atof and atod store the number nearest to a hexadecimal floating point text as in C: letters are digits 10 to 15, the exponent is a power of two, at least one digit is needed, the previous value of the variable does not matter.", "quantifier": "every text of the grammar", "why_tests_cant": "the tests use few texts, with digits 0 to 9 and a zero variable", "anchors": ["src/c4/charconv.hpp:scan_rhex", "src/c4/charconv.hpp:atof", "src/c4/charconv.hpp:atod", "src/c4/memory_util.hpp:ipow"]}
{"id": "C102", "title": "atof_first and atod_first", "statement": "atof_first and atod_first skip blanks, read the literal that ends at a delimiter, store its value and return the position after it; otherwise they return npos and leave the variable alone.", "quantifier": "every text", "why_tests_cant": "all texts", "anchors": ["src/c4/charconv.hpp:atof_first", "src/c4/charconv.hpp:atod_first"]}
{"id": "C103", "title": "ftoa and dtoa", "statement": "ftoa and dtoa write the text of the number, are safe for every buffer also an empty one, return the size needed, and pass a valid format to snprintf.", "quantifier": "every text of a number, every buffer, every precision", "why_tests_cant": "every buffer length for every number; the undefined behaviour is in pointer arithmetic", "anchors": ["src/c4/charconv.hpp:rtoa", "src/c4/charconv.hpp:print_one", "src/c4/charconv.hpp:get_real_format_str", "src/c4/charconv.hpp:ftoa", "src/c4/charconv.hpp:dtoa"]}
{"id": "C104", "title": "cat of real numbers", "statement": "cat, catsep and format write the concatenation when it fits, never write outside the buffer, and catrs, catseprs and formatrs terminate with exactly the text in the container, for any mix of real numbers and other arguments.", "quantifier": "all argument lists, all buffers, all containers", "why_tests_cant": "the sizes returned for real numbers are not exact, so the loop has no fixed number of rounds", "anchors": ["src/c4/format.hpp:cat", "src/c4/format.hpp:catsep", "src/c4/format.hpp:format", "src/c4/format.hpp:catrs", "src/c4/format.hpp:catseprs", "src/c4/format.hpp:formatrs"]}
{"id": "C105", "title": "round trip of real numbers", "statement": "A number written by ftoa or dtoa and read by atof or atod is the same number.", "quantifier": "every finite number, infinity, NaN", "why_tests_cant": "2^64 numbers", "anchors": ["src/c4/charconv.hpp:dtoa", "src/c4/charconv.hpp:atod", "src/c4/charconv.hpp:rtoa"]}
{"id": "C106", "title": "type_name", "statement": "type_name returns exactly the name of the type, for the text that each compiler gives for the signature; with Visual Studio the words class and struct are removed; no character outside the signature is read.", "quantifier": "every type name, all seven signatures", "why_tests_cant": "each build runs one compiler, and the tests use five types", "anchors": ["src/c4/type_name.hpp:type_name"]}
{"id": "C107", "title": "sizes of padded types", "statement": "min_remainder and mult_remainder are the least padding; MinSized, MultSized, MinMultSized and UbufSized have the least size that is large enough and a multiple of the unit, for types whose members fill their size; it fails for empty classes and classes with reusable padding at the end.", "quantifier": "every size, minimum and unit", "why_tests_cant": "the tests check a few sizes and never a class with padding at its end", "anchors": ["src/c4/types.hpp:min_remainder", "src/c4/types.hpp:mult_remainder", "src/c4/types.hpp:Padded", "src/c4/types.hpp:MinSized", "src/c4/types.hpp:MultSized", "src/c4/types.hpp:MinMultSized", "src/c4/types.hpp:UbufSized"]}
{"id": "C108", "title": "make_integer_sequence", "statement": "make_integer_sequence<T,N> is the sequence 0, 1, ..., N-1 and needs at most 23 nested instantiations.", "quantifier": "every N", "why_tests_cant": "all N; the tests do not instantiate large ones", "anchors": ["src/c4/types.hpp:make_integer_sequence", "src/c4/types.hpp:make_index_sequence"]}
{"id": "C109", "title": "C4_FOR_EACH and C4_VERSION_CAT", "statement": "C4_FOR_EACH and C4_FOR_EACH_SEP apply the macro to each of 1 to 32 arguments in order with the separator after each, and more arguments do not compile; C4_VERSION_CAT orders versions correctly when minor and patch are below 100.", "quantifier": "all argument lists, all versions", "why_tests_cant": "the tests use few arguments", "anchors": ["src/c4/preprocessor.hpp:C4_FOR_EACH", "src/c4/preprocessor.hpp:C4_FOR_EACH_SEP", "src/c4/preprocessor.hpp:C4_VERSION_CAT"]}
{"id": "C110", "title": "to_chars_sub", "statement": "to_chars_sub returns the view of exactly the text that the conversion wrote, which begins at the buffer, and writes nothing outside the buffer; if the text does not fit, the returned view is the whole buffer.", "quantifier": "every conversion that writes a text, every buffer below 2^63", "why_tests_cant": "the tests use buffers that are large enough and look only at the returned view", "anchors": ["src/c4/charconv.hpp:to_chars_sub"]}
{"id": "C111", "title": "real numbers are read back by uncat, uncatsep and unformat", "statement": "uncat, uncatsep and unformat read the values that cat, catsep and format wrote, for any mix of real numbers, integers and characters in which each number is followed by a delimiter or nothing; it fails for adjacent numbers.", "quantifier": "every list of values, every format, every buffer with one more character than the text", "why_tests_cant": "the tests read back a few lists of integers and real numbers", "anchors": ["src/c4/format.hpp:uncat", "src/c4/format.hpp:uncatsep", "src/c4/format.hpp:unformat", "src/c4/charconv.hpp:from_chars_first"]}
{"id": "C112", "title": "comparison operators with characters and with the string on the right", "statement": "The comparison operators with a character on either side and with a character array on the left agree with the order of C15 applied to the operands in the order written.", "quantifier": "all strings and characters; strings shorter than 2^31 with a character", "why_tests_cant": "the tests compare a few strings; none is long", "anchors": ["src/c4/substr.hpp:operator== (const char (&s)[N], basic_substring const)", "src/c4/substr.hpp:operator<  (C const c, basic_substring const)", "src/c4/substr.hpp:compare"]}
{"id": "C113", "title": "tight_pair", "statement": "A tight_pair holds the two values it was made of, writing one leaves the other, it is never larger than a struct of the two, and an empty class takes no room in it; default construction value-initialises both.", "quantifier": "every pair of types, every value", "why_tests_cant": "the tests check the sizes of some pairs of character arrays and empty classes and read no values", "anchors": ["src/c4/memory_util.hpp:tight_pair", "src/c4/memory_util.hpp:tpc_which_case"]}
{"id": "C114", "title": "memory goes back to the resource it came from", "statement": "Whatever allocators are made, copied, rebound and assigned and however the global resource changes, memory that is given back through an allocator equal to the one it came from goes to the resource it came from, and no resource gets back an address more often than it handed it out.", "quantifier": "every sequence of operations on any number of allocators", "why_tests_cant": "no test changes the global resource while an allocator holds memory, and the container tests of the small allocators are commented out as failing", "anchors": ["src/c4/allocator.hpp:MemRes", "src/c4/allocator.hpp:MemResGlobal", "src/c4/allocator.hpp:Allocator", "src/c4/allocator.hpp:SmallAllocator", "src/c4/allocator.hpp:_AllocatorUtil"]}
{"id": "C115", "title": "arithmetic on allocation counts", "statement": "The difference of the counts after and before a part of a program is the counts of that part, and the sum of the counts of two resources is the counts of both together.", "quantifier": "every history of allocations and deallocations without overflow", "why_tests_cant": "the tests check the differences after a few allocations of one resource, and no sum", "anchors": ["src/c4/memory_resource.hpp:AllocationCounts"]}
{"id": "C116", "title": "sizes in bytes and conversions of spans", "statement": "byte_size is the number of elements times their size; converted spans and original() are the same window of the same block; same_span and == of spans with different size types are true exactly for the same span and for equal elements.", "quantifier": "every size type, element size, span", "why_tests_cant": "no test calls byte_size, value_size, same_span or original for another span type, or compares spans of different size types", "anchors": ["src/c4/span.hpp:byte_size", "src/c4/span.hpp:same_span", "src/c4/span.hpp:original", "src/c4/span.hpp:operator span"]}
{"id": "C117", "title": "reading real numbers with sscanf", "statement": "In builds with neither fast_float nor std::from_chars, atof and atod read the longest number at the begin of the text, succeed exactly if there is one, and do not read the memory after the text, which need not be terminated; atof_first and atod_first do so for the first word.", "quantifier": "every text, every memory around it, every length", "why_tests_cant": "the tests run the default build with fast_float and use terminated strings", "anchors": ["src/c4/charconv.hpp:scan_one", "src/c4/charconv.hpp:atof", "src/c4/charconv.hpp:atod", "src/c4/charconv.hpp:atof_first", "src/c4/charconv.hpp:atod_first"]}
{"id": "C118", "title": "std::from_chars builds", "statement": "atof, atod, atof_first and atod_first accept the same texts and give the same numbers in builds with std::from_chars as in those with fast_float.", "quantifier": "every text up to 2^28-400 characters, every result that the C++ standard allows", "why_tests_cant": "one build has only one of them; the tests run the default build", "anchors": ["src/c4/charconv.hpp:atof", "src/c4/charconv.hpp:atod", "src/c4/charconv.hpp:atof_first", "src/c4/charconv.hpp:atod_first"]}
{"id": "C119", "title": "Elements that throw", "statement": "If a constructor or assignment of one of the elements throws, construct_n, copy_construct_n, copy_assign_n, move_construct_n, move_assign_n and make_room let the exception through and leave everything as it was.", "quantifier": "every memory, range, element that throws, build setting", "why_tests_cant": "the test types do not throw", "anchors": ["src/c4/ctor_dtor.hpp:construct_n", "src/c4/ctor_dtor.hpp:copy_construct_n", "src/c4/ctor_dtor.hpp:copy_assign_n", "src/c4/ctor_dtor.hpp:move_construct_n", "src/c4/ctor_dtor.hpp:move_assign_n", "src/c4/ctor_dtor.hpp:make_room"]}
{"id": "C120", "title": "Counts of bytewise element types", "statement": "construct_n, the copying and moving functions and mem_zero handle exactly the given number of elements, and none if it is negative, for types handled bytewise as for others.", "quantifier": "every memory, range, count of any integer type, element size", "why_tests_cant": "negative counts and sizes near 2^64 are not tested", "anchors": ["src/c4/ctor_dtor.hpp:construct_n", "src/c4/ctor_dtor.hpp:copy_construct_n", "src/c4/memory_util.hpp:mem_zero"]}
{"id": "C121", "title": "C4_DEFINE_HAS_TYPEDEF", "statement": "C4_DEFINE_HAS_TYPEDEF(name) defines a trait has_<name> whose value says whether a type has a member typedef of that name.", "quantifier": "every name, every type", "why_tests_cant": "the macro is not used anywhere", "anchors": ["src/c4/types.hpp:C4_DEFINE_HAS_TYPEDEF"]}
{"id": "C122", "title": "fast_float on 32-bit platforms", "statement": "On a platform without 64-bit limbs and 128-bit products (FASTFLOAT_32BIT) fast_float::from_chars gives the same number, position and error as on a 64-bit platform; the emulated product of two 64-bit numbers and the count of leading zeros without a builtin are right.", "quantifier": "every text of bytes, float and double, both rounding modes; every pair of 64-bit numbers; every nonzero 64-bit number", "why_tests_cant": "a test runs on one platform, and the slow path depends on hundreds of digits", "anchors": ["src/c4/ext/fast_float_all.h:umul128_generic", "src/c4/ext/fast_float_all.h:leading_zeroes_generic", "src/c4/ext/fast_float_all.h:uint32_hi64", "src/c4/ext/fast_float_all.h:scalar_mul", "src/c4/ext/fast_float_all.h:parse_mantissa"]}
{"id": "C123", "title": "fast_float reading integers", "statement": "fast_float::from_chars(first, last, value, base) reads the number at the start of the text, up to the last digit, if it is a value of the type, reports result_out_of_range if it is not, and invalid_argument, pointing at the start and storing nothing, if there is no number, a minus sign before an unsigned one, or the base is not from 2 to 36.", "quantifier": "every text of bytes, the eight integer types, every base", "why_tests_cant": "the texts that overflow 64 bits unnoticed are few among all texts, and tests try the limits of the type and not what lies further", "anchors": ["src/c4/ext/fast_float_all.h:parse_int_string", "src/c4/ext/fast_float_all.h:int_luts", "src/c4/ext/fast_float_all.h:from_chars"]}
{"id": "C124", "title": "fast_float formats and decimal point", "statement": "fast_float::from_chars_advanced with parse_options reads the longest number of the chosen format and decimal point at the start of the text, rounded to nearest even; json reads the numbers of RFC 8259, scientific wants an exponent, fixed has none, fortran also has d, D or a bare sign; anything else is invalid_argument, pointing at the start, and infinities and NaNs are refused exactly with no_infnan; general is from_chars without options.", "quantifier": "every text of bytes, float and double, every combination of the format flags, every decimal point that is not a digit, a sign or a letter of an exponent", "why_tests_cant": "the formats multiply the texts to be tried, and c4core itself only uses general", "anchors": ["src/c4/ext/fast_float_all.h:parse_number_string", "src/c4/ext/fast_float_all.h:from_chars_advanced", "src/c4/ext/fast_float_all.h:chars_format"]}
{"id": "C125", "title": "additions for GCC 4.8", "statement": "The std::align that c4core adds for GCC 4.8 returns the first address at which the size fits and leaves everything unchanged if there is none, and the added type traits hold exactly of the classes the standard says, so that only objects that may be copied byte by byte are.", "quantifier": "all alignments that are powers of two, sizes and buffers; all classes by their six special member functions", "why_tests_cant": "GCC 4.8 is rarely among the compilers tested, and a wrong trait compiles and only shows with an unusual class", "anchors": ["src/c4/gcc-4.8.hpp:align", "src/c4/gcc-4.8.hpp:is_trivially_copyable"]}
{"id": "C126", "title": "fastcref", "statement": "fastcref<T> is T for scalars and for classes of at most the size of size_t whose objects may be copied byte by byte, and T const& otherwise, and a function with such a parameter can be called with every object.", "quantifier": "all classes by their special member functions, size and layout, before and from C++20", "why_tests_cant": "the types for which it fails do not compile, so no test has them", "anchors": ["src/c4/types.hpp:cref_uses_val", "src/c4/types.hpp:fastcref"]}
{"id": "C127", "title": "null views", "statement": "A null view behaves like an empty one in every operation, and no function of the C library is given a null pointer.", "quantifier": "all memories, all views that are null and empty or inside the memory, all positions and arguments, with and without assertions", "why_tests_cant": "memcpy with a null pointer and no bytes does nothing visible on most machines, but lets the compiler drop checks elsewhere", "anchors": ["src/c4/substr.hpp:compare", "src/c4/substr.hpp:erase", "src/c4/charconv.hpp:to_chars", "src/c4/format.cpp:to_chars", "src/c4/memory_resource.cpp:arealloc_impl"]}
{"id": "C128", "title": "fast_float with other character types", "statement": "A text of char16_t, char32_t or wchar_t is read as the same text of char is, and a character that is not ASCII is never taken for a letter or a digit.", "quantifier": "all texts of these types, both float formats, all options, all integer types and bases, with SSE2, NEON or neither", "why_tests_cant": "there are 65536 or 2^32 values per character, the paths depend on the instruction set, and the wrong characters are ones nobody writes by accident", "anchors": ["src/c4/ext/fast_float_all.h:simd_parse_if_eight_digits_unrolled", "src/c4/ext/fast_float_all.h:fastfloat_strncasecmp", "src/c4/ext/fast_float_all.h:ch_to_digit", "src/c4/ext/fast_float_all.h:skip_zeros"]}
{"id": "C129", "title": "replaceable allocation functions", "statement": "With functions put in place by set_aalloc, set_afree and set_arealloc, every block goes back to the functions it came from, and reallocation keeps its contents, whatever is in place.", "quantifier": "all programs that allocate, reallocate, free, write and replace functions in any order, directly or through MemoryResourceMalloc, all sizes and answers of the system, with and without assertions", "why_tests_cant": "the wrong combinations of functions and the failing allocations inside a reallocation are never set up in the tests", "anchors": ["src/c4/memory_resource.cpp:set_aalloc", "src/c4/memory_resource.cpp:aalloc", "src/c4/memory_resource.cpp:arealloc_impl", "src/c4/memory_resource.hpp:MemoryResourceMalloc"]}
{"id": "C130", "title": "fast_float with its macros", "statement": "With FASTFLOAT_ALLOWS_LEADING_PLUS the numbers, infinities and NaNs without a minus sign are read alike behind a plus sign, and the texts without one as before; with FASTFLOAT_SKIP_WHITE_SPACE exactly the white space in front is skipped; on machines of either byte order eight characters are read as the same word.", "quantifier": "all texts, formats, options, types, bases and both byte orders", "why_tests_cant": "the macros are off in the build and the tests run on little-endian machines", "anchors": ["src/c4/ext/fast_float_all.h:parse_number_string", "src/c4/ext/fast_float_all.h:parse_int_string", "src/c4/ext/fast_float_all.h:parse_infnan", "src/c4/ext/fast_float_all.h:from_chars_advanced", "src/c4/ext/fast_float_all.h:byteswap", "src/c4/ext/fast_float_all.h:read8_to_u64"]}
{"id": "C131", "title": "the configuration headers", "statement": "Whatever macros the compiler, the command line and other headers define: platform.hpp, cpu.hpp, compiler.hpp and language.hpp define exactly one platform, processor, word size, byte order, kind of compiler and language that agree with these macros, or stop with #error where there is none; charconv.hpp includes the converters it declares to have; memory_resource.cpp has one way to allocate and the matching way to free; assertions are on exactly when asked for, or by default without NDEBUG; fast_float finds the word size, the byte order and the vector instructions.", "quantifier": "all definitions of the macros that these texts do not define themselves", "why_tests_cant": "each build is one set of macros; the texts distinguish thousands", "anchors": ["src/c4/platform.hpp", "src/c4/cpu.hpp", "src/c4/compiler.hpp", "src/c4/language.hpp", "src/c4/config.hpp", "src/c4/error.hpp", "src/c4/charconv.hpp", "src/c4/memory_resource.cpp:1-104", "src/c4/ext/fast_float_all.h:148-230"]}
{"id": "C132", "title": "macros for repetition, checks and errors", "statement": "C4_FOR_EACH and C4_FOR_EACH_SEP write what they repeat once for every argument, in order, with the separator between; C4_ERROR, C4_CHECK, C4_CHECK_MSG, C4_ASSERT, C4_XASSERT with their variants, C4_NOT_IMPLEMENTED, C4_NOT_IMPLEMENTED_IF and C4_NEVER_REACH become exactly one statement, so that they can stand between if and else; a check evaluates its condition once, handles an error that shows the condition exactly when it is false, and does nothing else; an assertion is that check where assertions are wanted and nothing where not, and accepts the same arguments in both cases; the message of the client is the format.", "quantifier": "all arguments that are balanced and no macros themselves (1 to 32 for the repetitions), all values of the conditions, all definitions of the macros that the headers ask for", "why_tests_cant": "a macro is tested with a few arguments, by one compiler, in one configuration; whether what it becomes is one statement shows only where somebody writes an else", "anchors": ["src/c4/preprocessor.hpp", "src/c4/error.hpp:36-360", "src/c4/language.hpp:213-327"]}
