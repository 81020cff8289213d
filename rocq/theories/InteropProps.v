(** Properties C88-C91: comparisons and conversions with std containers, reading back
    concatenated arguments, blobs and character traits. *)
From Verif Require Import Base BaseLemmas CharconvModel CharconvSpec SubstrModel SubstrSpec SpanNumSpec MemUtilModel FormatModel FormatSpec InteropModel InteropSpec InteropProofs.

(** ** C88: a view and a std::string, std::string_view or std::vector<char> compare as their characters do, on either side *)
Theorem C88_view_left s t : bytes s -> bytes t ->
  ok_iff (ss_eq s t) (s = t) /\ ok_iff (ss_ne s t) (s <> t) /\
  ok_iff (ss_lt s t) (lex schar_lt s t) /\ ok_iff (ss_gt s t) (lex schar_lt t s) /\
  ok_iff (ss_le s t) (lex schar_lt s t \/ s = t) /\ ok_iff (ss_ge s t) (lex schar_lt t s \/ s = t).
Proof. intros Hs Ht. exact (proj1 (mixed_ok s t Hs Ht)). Qed.
Print Assumptions C88_view_left.
Theorem C88_std_left s t : bytes s -> bytes t ->
  ok_iff (st_eq s t) (s = t) /\ ok_iff (st_ne s t) (s <> t) /\
  ok_iff (st_lt s t) (lex schar_lt s t) /\ ok_iff (st_gt s t) (lex schar_lt t s) /\
  ok_iff (st_le s t) (lex schar_lt s t \/ s = t) /\ ok_iff (st_ge s t) (lex schar_lt t s \/ s = t).
Proof. intros Hs Ht. exact (proj1 (proj2 (mixed_ok s t Hs Ht))). Qed.
Print Assumptions C88_std_left.
Theorem C88_vector_left s t : bytes s -> bytes t ->
  ok_iff (vec_eq s t) (s = t) /\ ok_iff (vec_ne s t) (s <> t) /\
  ok_iff (vec_lt s t) (lex schar_lt s t) /\ ok_iff (vec_gt s t) (lex schar_lt t s) /\
  ok_iff (vec_le s t) (lex schar_lt s t \/ s = t) /\ ok_iff (vec_ge s t) (lex schar_lt t s \/ s = t).
Proof. intros Hs Ht. exact (proj2 (proj2 (mixed_ok s t Hs Ht))). Qed.
Print Assumptions C88_vector_left.
Example C88_ex1 : ss_lt (s2z "abc") (s2z "abd") = Ok true /\ st_lt (s2z "abc") (s2z "abd") = Ok true /\ vec_lt (s2z "abc") (s2z "abd") = Ok true.
Proof. repeat split; reflexivity. Qed.
Example C88_ex2 : st_gt (s2z "abc") (s2z "ab") = Ok true /\ st_le (s2z "abc") (s2z "ab") = Ok false /\ ss_ge (s2z "") (s2z "") = Ok true.
Proof. repeat split; reflexivity. Qed.
Example C88_ex3 : st_lt [200] [100] = Ok true /\ vec_ne [200] [100] = Ok true.
Proof. repeat split; reflexivity. Qed.

(** ** C89: writing a std container into a buffer and reading one from a view *)
Theorem C89_to_chars m b s : vin b m -> len s <= vl b -> to_chars_std m b s = Ok (blit m (vo b) s, len s).
Proof. exact (to_chars_std_ok m b s). Qed.
Print Assumptions C89_to_chars.
Theorem C89_to_chars_short m b s : vin b m -> vl b < len s ->
  to_chars_std m b s = Ok (blit m (vo b) (firstn (Z.to_nat (vl b)) s), len s).
Proof. exact (to_chars_std_short m b s). Qed.
Print Assumptions C89_to_chars_short.
Theorem C89_from_chars src s : from_chars_std src s = Ok (true, src).
Proof. exact (from_chars_std_ok src s). Qed.
Print Assumptions C89_from_chars.
(** a view of the string itself, beyond the place of the new terminator. What is
    missing: the views before it *)
Theorem C89_from_self_partial dbg s v : len s < 2 ^ 62 -> vin v s -> vl v < vo v ->
  from_chars_self dbg v s = Ok (true, contents s v).
Proof. exact (self_far dbg s v). Qed.
Print Assumptions C89_from_self_partial.
(** an overlapping view is refused in a debug build *)
Theorem C89_from_self_overlap s v : vin v s -> 0 < vl v -> vo v < vl v -> from_chars_self true v s = Err.
Proof. exact (self_dbg s v). Qed.
Print Assumptions C89_from_self_overlap.
(** if the view begins where the new terminator goes, the check passes but the first
    character is lost *)
Theorem C89_from_self_adjacent_refuted dbg s v : len s < 2 ^ 62 -> vin v s -> vl v = vo v -> 0 < vl v ->
  from_chars_self dbg v s = Ok (true, 0 :: skipn 1 (contents s v)).
Proof. exact (self_adjacent dbg s v). Qed.
Print Assumptions C89_from_self_adjacent_refuted.
Example C89_ex1 : to_chars_std (repeat 0 5) (View 1 3) (s2z "abcd") = Ok ([0; ch "a"; ch "b"; ch "c"; 0], 4).
Proof. reflexivity. Qed.
Example C89_ex2 : from_chars_std (s2z "xyz") (s2z "abcdefg") = Ok (true, s2z "xyz") /\ from_chars_std (s2z "xyz") [] = Ok (true, s2z "xyz").
Proof. split; reflexivity. Qed.
Example C89_ex3 : from_chars_self true (View 3 2) (s2z "abcdef") = Ok (true, s2z "de").
Proof. reflexivity. Qed.
Example C89_ex4 : from_chars_self true (View 2 2) (s2z "abcd") = Ok (true, [0; ch "d"]).
Proof. reflexivity. Qed.
Example C89_ex5 : from_chars_self false (View 1 2) (s2z "abcd") = Ub.
Proof. reflexivity. Qed.

(** ** C90: uncat reads back what cat wrote *)
(** for arguments that can be told apart. What is missing: the other arguments, for
    which it is false, and floating point ones, which are in C111 *)
Theorem C90_uncat_cat_partial dbg m b al xs ys ts : readable al xs ys -> Forall2 arg_text al ts ->
  vin b m -> vl b < 2 ^ 63 -> len (concat ts) <= vl b ->
  exists m' n, cat dbg m b al = Ok (m', n) /\
    let s := contents m' (View (vo b) n) in uncat s (full s) xs = Ok (Some n, ys).
Proof. exact (cat_uncat dbg m b al xs ys ts). Qed.
Print Assumptions C90_uncat_cat_partial.
(** integers next to each other are not told apart *)
Theorem C90_adjacent_refuted :
  exists m' n, cat true (repeat 0 8) (full (repeat 0 8)) [AInt i32 1; AInt i32 2] = Ok (m', n) /\
    let s := contents m' (View 0 n) in uncat s (full s) [SInt i32 0; SInt i32 0] = Ok (None, [SInt i32 12; SInt i32 0]).
Proof. eexists _, _. split; reflexivity. Qed.
Print Assumptions C90_adjacent_refuted.
Example C90_ex1 : uncat (s2z "12,-7]") (full (s2z "12,-7]")) [SInt i32 0; SChar 0; SInt i32 0; SChar 0] =
  Ok (Some 6, [SInt i32 12; SChar (ch ","); SInt i32 (-7); SChar (ch "]")]).
Proof. reflexivity. Qed.
Example C90_ex2 : readable [AInt i32 12; AChar (ch ","); AInt u8t 200] [SInt i32 0; SChar 0; SInt u8t 0]
  [SInt i32 12; SChar (ch ","); SInt u8t 200].
Proof.
  apply rd_int; [left; reflexivity|right; exists (ch ","), [AInt u8t 200]; split; [reflexivity|vm_compute; tauto]|].
  apply rd_char; [split; [discriminate|reflexivity]|]. apply rd_int; [left; reflexivity|left; reflexivity|apply rd_nil].
Qed.

(** ** C91: blobs and the sizes of character types *)
Theorem C91_blob dbg addr sz e n : 0 <= sz -> 0 <= n -> sz * n < 2 ^ 64 -> 0 <= addr -> 0 <= e < 64 -> (2 ^ e | addr) ->
  blob_ptr dbg addr sz (2 ^ e) n = Ok (Blob addr (sz * n)) /\ blob_arr addr sz n = Blob addr (sz * n) /\ blob_var addr sz = Blob addr sz /\ blob_void addr n = Blob addr n.
Proof. exact (blob_ok dbg addr sz e n). Qed.
Print Assumptions C91_blob.
(** a misaligned pointer is reported exactly if assertions are on *)
Theorem C91_blob_misaligned addr sz e n : 0 <= addr -> 0 <= e < 64 -> ~ (2 ^ e | addr) ->
  blob_ptr true addr sz (2 ^ e) n = Err /\ blob_ptr false addr sz (2 ^ e) n = Ok (blob_arr addr sz n).
Proof. exact (blob_misaligned addr sz e n). Qed.
Print Assumptions C91_blob_misaligned.
(** a count whose bytes do not fit: the blob is too short *)
Theorem C91_blob_wrap_refuted : blob_ptr true 4096 4 4 (2 ^ 62 + 1) = Ok (Blob 4096 4).
Proof. reflexivity. Qed.
Print Assumptions C91_blob_wrap_refuted.
(** a blob can be turned into a cblob, but not be assigned to one *)
Theorem C91_cblob_make b : cblob_make b = b.
Proof. exact (cblob_make_ok b). Qed.
Print Assumptions C91_cblob_make.
Theorem C91_cblob_assign_refuted dst b : cblob_assign dst b = Ub.
Proof. reflexivity. Qed.
Print Assumptions C91_cblob_assign_refuted.
Theorem C91_needed_char n : 0 <= n -> least_units 1 n (needed_chars_char n).
Proof. exact (needed_char_ok n). Qed.
Print Assumptions C91_needed_char.
(** for a character type whose size is a power of 2 *)
Theorem C91_needed_wchar e n : 0 <= e -> 0 <= n -> least_units (2 ^ e) n (needed_chars_wchar (2 ^ e) n).
Proof. exact (needed_ok e n). Qed.
Print Assumptions C91_needed_wchar.
(** the number of whitespace characters is right for char and wrong for every wider type *)
Theorem C91_num_whitespace_partial : num_whitespace_chars 1 = len whitespace_chars.
Proof. reflexivity. Qed.
Print Assumptions C91_num_whitespace_partial.
Theorem C91_num_whitespace_refuted w : 1 < w -> len whitespace_chars < num_whitespace_chars w.
Proof. exact (num_whitespace_wide w). Qed.
Print Assumptions C91_num_whitespace_refuted.
(** isspace tells the whitespace characters, but is undefined for the characters 128 to 254 *)
Theorem C91_isspace_partial c : is_byte c -> c < 128 \/ c = 255 -> exists b, isspace c = Ok b /\ (b = true <-> In c whitespace_chars).
Proof. exact (isspace_ok c). Qed.
Print Assumptions C91_isspace_partial.
Theorem C91_isspace_refuted c : 128 <= c < 255 -> isspace c = Ub.
Proof. exact (isspace_ub c). Qed.
Print Assumptions C91_isspace_refuted.
Example C91_ex1 : needed_chars_wchar 4 9 = 3 /\ needed_chars_wchar 4 8 = 2 /\ needed_chars_wchar 2 9 = 5 /\ needed_chars_wchar 4 0 = 0.
Proof. repeat split; reflexivity. Qed.
Example C91_ex2 : num_whitespace_chars 4 = 27 /\ len whitespace_chars = 6.
Proof. split; reflexivity. Qed.
Example C91_ex3 : blob_arr 100 8 3 = Blob 100 24 /\ blob_ptr true 104 12 8 3 = Ok (Blob 104 36) /\ blob_ptr true 100 12 8 3 = Err.
Proof. repeat split; reflexivity. Qed.
Example C91_ex4 : isspace (ch " ") = Ok true /\ isspace 11 = Ok true /\ isspace (ch "a") = Ok false /\ isspace 0 = Ok false /\ isspace 160 = Ub.
Proof. repeat split; reflexivity. Qed.
