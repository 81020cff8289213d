(** Property theorems for the string view (C15-C30). *)
From Verif Require Import Base BaseLemmas ScanModel CharconvSpec SubstrModel SubstrSpec SubstrProofs SubstrProofs2 SubstrProofs3 SubstrProofs4 SubstrProofs5 SubstrProofs6 SubstrProofs7 SubstrProofs8.

(** ** C15: compare is a total order *)
Theorem C15_compare_partial : forall s t, bytes s -> bytes t ->
  exists c, compare s t = Ok c /\ (c < 0 <-> lex schar_lt s t) /\ (c = 0 <-> s = t) /\ (c > 0 <-> lex schar_lt t s).
Proof. exact compare_spec. Qed.
Print Assumptions C15_compare_partial.
Theorem C15_operators : forall s t, bytes s -> bytes t ->
  (exists b, op_eq s t = Ok b /\ (b = true <-> s = t)) /\
  (exists b, op_ne s t = Ok b /\ (b = true <-> s <> t)) /\
  (exists b, op_lt s t = Ok b /\ (b = true <-> lex schar_lt s t)) /\
  (exists b, op_gt s t = Ok b /\ (b = true <-> lex schar_lt t s)) /\
  (exists b, op_le s t = Ok b /\ (b = true <-> lex schar_lt s t \/ s = t)) /\
  (exists b, op_ge s t = Ok b /\ (b = true <-> lex schar_lt t s \/ s = t)).
Proof. exact ops_spec. Qed.
Print Assumptions C15_operators.
Theorem C15_order_trans : forall a b c, lex schar_lt a b -> lex schar_lt b c -> lex schar_lt a c.
Proof. exact (fun a b c => lex_trans schar_lt a b c schar_lt_trans). Qed.
Print Assumptions C15_order_trans.
Theorem C15_order_irrefl : forall s, ~ lex schar_lt s s.
Proof. exact (fun s => lex_irrefl schar_lt s schar_lt_irrefl). Qed.
Print Assumptions C15_order_irrefl.
Theorem C15_order_total : forall s t, bytes s -> bytes t -> lex schar_lt s t \/ s = t \/ lex schar_lt t s.
Proof. exact lex_total. Qed.
Print Assumptions C15_order_total.
(** on ASCII it is the order of bytes *)
Theorem C15_ascii : forall s t, Forall (fun c => 0 <= c < 128) s -> Forall (fun c => 0 <= c < 128) t ->
  (lex schar_lt s t <-> lex byte_lt s t).
Proof. exact lex_ascii. Qed.
Print Assumptions C15_ascii.
(** in general it is not: bytes above 127 are below every ASCII byte *)
Theorem C15_byte_order_refuted : exists s t, bytes s /\ bytes t /\ lex byte_lt s t /\ compare s t = Ok 1.
Proof.
  exists [97], [200]. repeat split; try (repeat constructor; lia).
Qed.
Print Assumptions C15_byte_order_refuted.
Example C15_ex1 : compare (s2z "foo") (s2z "foobar") = Ok (-1). Proof. reflexivity. Qed.
Example C15_ex2 : compare (s2z "fop") (s2z "foobar") = Ok 1. Proof. reflexivity. Qed.
Example C15_ex3 : op_le (s2z "abc") (s2z "abc") = Ok true. Proof. reflexivity. Qed.

(** ** C16: compare with a char *)
Theorem C16_compare_char_partial : forall s c, bytes s -> is_byte c -> len s < 2 ^ 31 ->
  exists z k, compare s [c] = Ok k /\ compare_char s c = Ok z /\ Z.sgn z = k.
Proof. exact compare_char_sgn. Qed.
Print Assumptions C16_compare_char_partial.
Theorem C16_truncation_refuted : forall c, exists s, compare_char s c = Ok 0 /\ s <> [c].
Proof.
  intros c. exists (repeat c (Z.to_nat (2 ^ 32 + 1))). split; [apply compare_char_trunc|].
  intros E. apply (f_equal len) in E. rewrite len_repeat in E. change (len [c]) with 1 in E. lia.
Qed.
Print Assumptions C16_truncation_refuted.
(** 2^31 equal characters: the subtraction in int overflows *)
Theorem C16_int_min_refuted : forall c, exists s, compare_char s c = Ub.
Proof. intros c. exists (repeat c (Z.to_nat (2 ^ 31))). apply compare_char_intmin. Qed.
Print Assumptions C16_int_min_refuted.
Example C16_ex1 : compare_char (s2z "ba") (ch "b") = Ok 1 /\ compare (s2z "ba") (s2z "b") = Ok 1.
Proof. split; reflexivity. Qed.
Example C16_ex2 : compare_char [] (ch "b") = Ok (-1) /\ compare_char (s2z "b") (ch "b") = Ok 0.
Proof. split; reflexivity. Qed.

(** ** C17: find *)
Theorem C17_find : forall s pat st, 0 <= st <= len s ->
  exists o, find s pat (Some st) = Ok o /\ is_first (occurs s pat) st (len s + 1) o.
Proof. exact find_ok. Qed.
Print Assumptions C17_find.
Theorem C17_find_char : forall s c st, 0 <= st <= len s ->
  exists o, find_c s c (Some st) = Ok o /\ is_first (occurs s [c]) st (len s + 1) o.
Proof. exact find_c_ok. Qed.
Print Assumptions C17_find_char.
Theorem C17_find_npos : forall s pat, find s pat None = Ok None.
Proof. exact find_none. Qed.
Print Assumptions C17_find_npos.
Theorem C17_select : forall s pat st, small s -> 0 <= st <= len s ->
  exists o, select s pat (Some st) = Ok o /\
  match o with
  | Some v => vin v s /\ contents s v = pat /\ is_first (occurs s pat) st (len s + 1) (Some (vo v))
  | None => forall j, st <= j <= len s -> ~ occurs s pat j
  end.
Proof. exact select_ok. Qed.
Print Assumptions C17_select.
Theorem C17_first_of_any : forall s pats,
  exists o, first_of_any s pats = Ok o /\
  match o with
  | Some (w, i) => 0 <= i < len s /\ exists k p, w = Z.of_nat k /\ nth_error pats k = Some p /\ occurs s p i /\
      (forall k' p', (k' < k)%nat -> nth_error pats k' = Some p' -> ~ occurs s p' i) /\
      (forall i' p', 0 <= i' < i -> In p' pats -> ~ occurs s p' i')
  | None => forall i p, 0 <= i < len s -> In p pats -> ~ occurs s p i
  end.
Proof. exact first_of_any_ok. Qed.
Print Assumptions C17_first_of_any.
Example C17_ex1 : find (s2z "aabaab") (s2z "aab") (Some 1) = Ok (Some 3). Proof. reflexivity. Qed.
Example C17_ex2 : find (s2z "aabaab") (s2z "aab") (Some 4) = Ok None. Proof. reflexivity. Qed.
Example C17_ex3 : find (s2z "abc") [] (Some 3) = Ok (Some 3). Proof. reflexivity. Qed.
Example C17_ex4 : first_of_any (s2z "xx bb aa") [s2z "aa"; s2z "bb"] = Ok (Some (1, 3)). Proof. reflexivity. Qed.

(** ** C18: count *)
Theorem C18_count_char : forall s c pos fuel, 0 <= pos <= len s -> len s <= Z.of_nat fuel ->
  count_c fuel s c pos = Ok (Some (Z.of_nat (count_occ Z.eq_dec (skipn (Z.to_nat pos) s) c))).
Proof. exact count_c_occ. Qed.
Print Assumptions C18_count_char.
Theorem C18_count : forall s pat pos, pat <> [] -> 0 <= pos <= len s ->
  exists n, occurrences pat (skipn (Z.to_nat pos) s) n /\
    forall fuel, len s <= Z.of_nat fuel -> count fuel s pat pos = Ok (Some n).
Proof. exact count_ok. Qed.
Print Assumptions C18_count.
Theorem C18_occurrences_unique : forall pat s n m, pat <> [] -> occurrences pat s n -> occurrences pat s m -> n = m.
Proof. exact occurrences_fun. Qed.
Print Assumptions C18_occurrences_unique.
Example C18_ex1 : count 9 (s2z "aaaaa") (s2z "aa") 0 = Ok (Some 2). Proof. reflexivity. Qed.
Example C18_ex2 : count_c 9 (s2z "a.b.c.") (ch ".") 2 = Ok (Some 2). Proof. reflexivity. Qed.

(** ** C19: count terminates for a non-empty pattern only *)
Theorem C19_terminates_partial : forall s pat pos, pat <> [] -> 0 <= pos <= len s ->
  exists fuel n, count fuel s pat pos = Ok (Some n).
Proof.
  intros s pat pos Hp Hpos. destruct (count_ok s pat pos Hp Hpos) as (n & _ & H).
  exists (Z.to_nat (len s)), n. apply H. pose proof (nonneg_len s). lia.
Qed.
Print Assumptions C19_terminates_partial.
Theorem C19_empty_pattern_refuted : forall s pos, 0 <= pos <= len s -> forall fuel, count fuel s [] pos = Ok None.
Proof. exact count_empty_diverges. Qed.
Print Assumptions C19_empty_pattern_refuted.
Example C19_ex : count 1000 (s2z "foo") [] 0 = Ok None. Proof. apply count_empty_diverges. cbn; lia. Qed.

(** ** C20: first_of / last_of / first_not_of / last_not_of *)
Theorem C20_first_of : forall s cs st, 0 <= st <= len s ->
  exists o, first_of s cs (Some st) = Ok o /\ is_first (fun i => In (byte_at s i) cs) st (len s) o.
Proof. exact first_of_ok. Qed.
Print Assumptions C20_first_of.
Theorem C20_first_of_char : forall s c st, 0 <= st <= len s ->
  exists o, first_of_c s c (Some st) = Ok o /\ is_first (fun i => byte_at s i = c) st (len s) o.
Proof. exact first_of_c_ok. Qed.
Print Assumptions C20_first_of_char.
Theorem C20_first_not_of : forall s cs st, 0 <= st <= len s ->
  exists o, first_not_of s cs st = Ok o /\ is_first (fun i => ~ In (byte_at s i) cs) st (len s) o.
Proof. exact first_not_of_ok. Qed.
Print Assumptions C20_first_not_of.
Theorem C20_first_not_of_char : forall s c st, 0 <= st <= len s ->
  exists o, first_not_of_c s c st = Ok o /\ is_first (fun i => byte_at s i <> c) st (len s) o.
Proof. exact first_not_of_c_ok. Qed.
Print Assumptions C20_first_not_of_char.
Theorem C20_last_of : forall s cs st, 0 <= st <= len s ->
  exists o, last_of s cs (Some st) = Ok o /\ is_last (fun i => In (byte_at s i) cs) st o.
Proof. exact last_of_ok. Qed.
Print Assumptions C20_last_of.
Theorem C20_last_of_char : forall s c st, 0 <= st <= len s ->
  exists o, last_of_c s c (Some st) = Ok o /\ is_last (fun i => byte_at s i = c) st o.
Proof. exact last_of_c_ok. Qed.
Print Assumptions C20_last_of_char.
Theorem C20_last_not_of : forall s cs st, 0 <= st <= len s ->
  exists o, last_not_of s cs (Some st) = Ok o /\ is_last (fun i => ~ In (byte_at s i) cs) st o.
Proof. exact last_not_of_ok. Qed.
Print Assumptions C20_last_not_of.
Theorem C20_last_not_of_char : forall s c st, 0 <= st <= len s ->
  exists o, last_not_of_c s c (Some st) = Ok o /\ is_last (fun i => byte_at s i <> c) st o.
Proof. exact last_not_of_c_ok. Qed.
Print Assumptions C20_last_not_of_char.
(** without a start argument the backward searches cover the whole string *)
Theorem C20_last_default : forall s c, last_of_c s c None = last_of_c s c (Some (len s)) /\
  last_not_of_c s c None = last_not_of_c s c (Some (len s)).
Proof. exact (fun s c => conj (last_of_npos s c) (last_not_of_npos s c)). Qed.
Print Assumptions C20_last_default.
Example C20_ex1 : first_of (s2z "hello world") (s2z "ow") (Some 5) = Ok (Some 6). Proof. reflexivity. Qed.
Example C20_ex2 : last_of (s2z "hello world") (s2z "ow") (Some 7) = Ok (Some 6). Proof. reflexivity. Qed.
Example C20_ex3 : last_not_of (s2z "abc  ") (s2z " ") None = Ok (Some 2). Proof. reflexivity. Qed.

(** from npos on there is nothing *)
Theorem C20_first_npos : forall s cs c, first_of s cs None = Ok None /\ first_of_c s c None = Ok None.
Proof. intros s cs c. split; reflexivity. Qed.
Print Assumptions C20_first_npos.
Example C20_ex_npos : first_of (s2z "abc") (s2z "ab") None = Ok None /\ first_of (s2z "abc") (s2z "ab") (Some 0) = Ok (Some 0). Proof. split; reflexivity. Qed.

(** ** C21: trimming *)
Theorem C21_triml : forall s cs, small s ->
  exists v, triml s cs = Ok v /\ vin v s /\ trimmed_left (fun c => In c cs) s (contents s v).
Proof. exact triml_ok. Qed.
Print Assumptions C21_triml.
Theorem C21_trimr : forall s cs, small s ->
  exists v, trimr s cs = Ok v /\ vin v s /\ trimmed_right (fun c => In c cs) s (contents s v).
Proof. exact trimr_ok. Qed.
Print Assumptions C21_trimr.
Theorem C21_trim : forall s cs, small s ->
  exists v, trim s cs = Ok v /\ vin v s /\ trimmed (fun c => In c cs) s (contents s v).
Proof. exact trim_ok. Qed.
Print Assumptions C21_trim.
Theorem C21_triml_char : forall s c, small s ->
  exists v, triml_c s c = Ok v /\ vin v s /\ trimmed_left (fun x => x = c) s (contents s v).
Proof. exact triml_c_ok. Qed.
Print Assumptions C21_triml_char.
Theorem C21_trimr_char : forall s c, small s ->
  exists v, trimr_c s c = Ok v /\ vin v s /\ trimmed_right (fun x => x = c) s (contents s v).
Proof. exact trimr_c_ok. Qed.
Print Assumptions C21_trimr_char.
Theorem C21_trim_char : forall s c, small s ->
  exists v, trim_c s c = Ok v /\ vin v s /\ trimmed (fun x => x = c) s (contents s v).
Proof. exact trim_c_ok. Qed.
Print Assumptions C21_trim_char.
Theorem C21_unique : forall P s r r', trimmed P s r -> trimmed P s r' -> r = r'.
Proof. exact trimmed_unique. Qed.
Print Assumptions C21_unique.
Theorem C21_left_unique : forall P s r r', trimmed_left P s r -> trimmed_left P s r' -> r = r'.
Proof. exact trimmed_left_unique. Qed.
Print Assumptions C21_left_unique.
Theorem C21_right_unique : forall P s r r', trimmed_right P s r -> trimmed_right P s r' -> r = r'.
Proof. exact trimmed_right_unique. Qed.
Print Assumptions C21_right_unique.
Theorem C21_idempotent : forall s cs v w, small s -> trim s cs = Ok v -> trim (contents s v) cs = Ok w ->
  contents (contents s v) w = contents s v.
Proof. exact trim_idem. Qed.
Print Assumptions C21_idempotent.
Theorem C21_triml_idempotent : forall s cs v w, small s -> triml s cs = Ok v -> triml (contents s v) cs = Ok w ->
  contents (contents s v) w = contents s v.
Proof. exact triml_idem. Qed.
Print Assumptions C21_triml_idempotent.
Theorem C21_trimr_idempotent : forall s cs v w, small s -> trimr s cs = Ok v -> trimr (contents s v) cs = Ok w ->
  contents (contents s v) w = contents s v.
Proof. exact trimr_idem. Qed.
Print Assumptions C21_trimr_idempotent.
Example C21_ex1 : trim (s2z " .a b. ") (s2z ". ") = Ok (View 2 3). Proof. reflexivity. Qed.
Example C21_ex2 : trim (s2z "    ") (s2z " ") = Ok (View 0 0). Proof. reflexivity. Qed.

(** ** C22: begins_with, ends_with and stripping *)
Theorem C22_begins_with : forall s pat, exists b, begins_with s pat = Ok b /\ (b = true <-> exists r, s = pat ++ r).
Proof. exact begins_with_ok. Qed.
Print Assumptions C22_begins_with.
Theorem C22_ends_with : forall s pat, exists b, ends_with s pat = Ok b /\ (b = true <-> exists r, s = r ++ pat).
Proof. exact ends_with_ok. Qed.
Print Assumptions C22_ends_with.
Theorem C22_begins_with_num : forall s c num, 0 <= num ->
  exists b, begins_with_n s c num = Ok b /\ (b = true <-> exists r, s = repeat c (Z.to_nat num) ++ r).
Proof. exact begins_with_n_ok. Qed.
Print Assumptions C22_begins_with_num.
Theorem C22_stripl : forall s pat, small s -> exists v, stripl s pat = Ok v /\ vin v s /\
  (forall r, s = pat ++ r -> contents s v = r) /\ ((forall r, s <> pat ++ r) -> contents s v = s).
Proof. exact stripl_ok. Qed.
Print Assumptions C22_stripl.
Theorem C22_stripr : forall s pat, small s -> exists v, stripr s pat = Ok v /\ vin v s /\
  (forall r, s = r ++ pat -> contents s v = r) /\ ((forall r, s <> r ++ pat) -> contents s v = s).
Proof. exact stripr_ok. Qed.
Print Assumptions C22_stripr.
Example C22_ex1 : stripl (s2z "foofoobar") (s2z "foo") = Ok (View 3 6). Proof. reflexivity. Qed.
Example C22_ex2 : stripr (s2z "barfoo") (s2z "foo") = Ok (View 0 3) /\ stripr (s2z "barfo") (s2z "foo") = Ok (View 0 5).
Proof. split; reflexivity. Qed.

(** ** C23: splitting and joining *)
Theorem C23_split : forall s sep start, 0 <= start < len s \/ len s = 0 /\ start = 0 ->
  exists vs, split s sep start = Ok vs /\ split_while (Z.to_nat (len s) + 3) s sep start = Ok vs /\
    Forall (fun v => vin v s) vs /\ Forall (fun v => ~ In sep (contents s v)) vs /\
    join [sep] (map (contents s) vs) = skipn (Z.to_nat start) s /\ (vs = [] <-> s = []).
Proof. exact split_ok. Qed.
Print Assumptions C23_split.
Theorem C23_pieces_unique : forall sep l l', l <> [] -> l' <> [] ->
  Forall (fun x => ~ In sep x) l -> Forall (fun x => ~ In sep x) l' -> join [sep] l = join [sep] l' -> l = l'.
Proof. exact join_inj. Qed.
Print Assumptions C23_pieces_unique.
Example C23_ex1 : split (s2z ":a::b:") (ch ":") 0 = Ok [View 0 0; View 1 1; View 3 0; View 4 1; View 6 0]. Proof. reflexivity. Qed.
Example C23_ex2 : split [] (ch ":") 0 = Ok []. Proof. reflexivity. Qed.
Example C23_ex3 : split (s2z ":") (ch ":") 0 = Ok [View 0 0; View 1 0]. Proof. reflexivity. Qed.

(** ** C24: sub-selection *)
Theorem C24_sub : forall s first v, small s -> 0 <= first < 2 ^ 64 -> sub1 (len s) first = Ok v ->
  vin v s /\ contents s v = skipn (Z.to_nat first) s.
Proof. exact sub1_in. Qed.
Print Assumptions C24_sub.
Theorem C24_sub_num : forall s first num v, small s -> 0 <= first < 2 ^ 64 -> 0 <= num < 2 ^ 64 -> sub2 (len s) first num = Ok v ->
  vin v s /\ contents s v = firstn (Z.to_nat (if num =? npos then len s - first else num)) (skipn (Z.to_nat first) s).
Proof. exact sub2_in. Qed.
Print Assumptions C24_sub_num.
Theorem C24_range : forall s first last v, small s -> 0 <= first < 2 ^ 64 -> 0 <= last < 2 ^ 64 -> range (len s) first last = Ok v ->
  let l := if last =? npos then len s else last in
  vin v s /\ contents s v = firstn (Z.to_nat (l - first)) (skipn (Z.to_nat first) s).
Proof. exact range_in. Qed.
Print Assumptions C24_range.
Theorem C24_first : forall s num v, small s -> 0 <= num < 2 ^ 64 -> vfirst (len s) num = Ok v ->
  vin v s /\ contents s v = firstn (Z.to_nat num) s.
Proof. exact first_in. Qed.
Print Assumptions C24_first.
Theorem C24_last : forall s num v, small s -> 0 <= num < 2 ^ 64 -> vlast (len s) num = Ok v ->
  vin v s /\ contents s v = skipn (Z.to_nat (len s - num)) s.
Proof. exact last_in. Qed.
Print Assumptions C24_last.
Theorem C24_left_of : forall s pos v, small s -> 0 <= pos < 2 ^ 64 -> left_of (len s) pos = Ok v ->
  vin v s /\ contents s v = firstn (Z.to_nat pos) s.
Proof. exact left_of_in. Qed.
Print Assumptions C24_left_of.
Theorem C24_left_of_include_partial : forall s pos inc v, small s -> 0 <= pos < len s -> left_of_inc (len s) pos inc = Ok v ->
  vin v s /\ contents s v = firstn (Z.to_nat (if inc then pos + 1 else pos)) s.
Proof. exact left_of_inc_in. Qed.
Print Assumptions C24_left_of_include_partial.
Theorem C24_right_of_partial : forall s pos v, small s -> 0 <= pos < len s -> right_of (len s) pos = Ok v ->
  vin v s /\ contents s v = skipn (Z.to_nat (pos + 1)) s.
Proof. exact right_of_in. Qed.
Print Assumptions C24_right_of_partial.
Theorem C24_right_of_include_partial : forall s pos inc v, small s -> 0 <= pos < len s -> right_of_inc (len s) pos inc = Ok v ->
  vin v s /\ contents s v = skipn (Z.to_nat (if inc then pos else pos + 1)) s.
Proof. exact right_of_inc_in. Qed.
Print Assumptions C24_right_of_include_partial.
Theorem C24_offs_partial : forall s l r v, small s -> 0 <= l -> 0 <= r -> l + r <= len s -> offs (len s) l r = Ok v ->
  vin v s /\ contents s v = firstn (Z.to_nat (len s - r - l)) (skipn (Z.to_nat l) s).
Proof. exact offs_in. Qed.
Print Assumptions C24_offs_partial.
(** in-range arguments are accepted *)
Theorem C24_accepted : forall s first num, small s -> 0 <= first -> 0 <= num -> first + num <= len s ->
  sub1 (len s) first = Ok (View first (len s - first)) /\
  sub2 (len s) first num = Ok (View first num) /\
  range (len s) first (first + num) = Ok (View first num) /\
  vfirst (len s) num = Ok (View 0 num) /\
  vlast (len s) num = Ok (View (len s - num) num) /\
  offs (len s) first num = Ok (View first (len s - num - first)) /\
  left_of (len s) first = Ok (View 0 first).
Proof.
  unfold small. intros s first num Hs H1 H2 H3. rewrite sub1_ok, sub2_ok, range_ok by lia.
  unfold vfirst, vlast, offs, left_of, assert. rewrite npos_big. rewrite !u64_id by lia.
  replace (first + num - first) with num by lia.
  replace (num <=? len s) with true by lia. replace (num =? 2 ^ 64 - 1) with false by lia.
  replace (first <=? len s) with true by lia. replace (first =? 2 ^ 64 - 1) with false by lia.
  replace (first <=? len s - num + 1) with true by lia. cbn [orb]. repeat split.
Qed.
Print Assumptions C24_accepted.
Theorem C24_accepted_pos : forall s pos (inc : bool), small s -> 0 <= pos < len s ->
  right_of (len s) pos = Ok (View (pos + 1) (len s - pos - 1)) /\
  left_of_inc (len s) pos inc = Ok (View 0 (if inc then pos + 1 else pos)) /\
  right_of_inc (len s) pos inc = Ok (if inc then View pos (len s - pos) else View (pos + 1) (len s - pos - 1)).
Proof.
  unfold small. intros s pos inc Hs H. unfold right_of, left_of_inc, right_of_inc, assert. rewrite npos_big.
  replace (pos <=? len s) with true by lia. replace (pos =? 2 ^ 64 - 1) with false by lia. cbn [orb].
  destruct inc; rewrite !u64_id by lia; rewrite ?Z.add_0_r; repeat split; do 2 f_equal; lia.
Qed.
Print Assumptions C24_accepted_pos.
(** the asserted precondition pos <= len lets the view escape the string *)
Theorem C24_left_of_include_refuted : exists s pos v, small s /\ 0 <= pos <= len s /\ left_of_inc (len s) pos true = Ok v /\ ~ vin v s.
Proof.
  exists (s2z "abc"), 3, (View 0 4). split; [unfold small; cbn; lia|]. split; [cbn; lia|]. split; [reflexivity|]. unfold vin. cbn. lia.
Qed.
Print Assumptions C24_left_of_include_refuted.
Theorem C24_right_of_refuted : exists s pos v, small s /\ 0 <= pos <= len s /\ right_of (len s) pos = Ok v /\ ~ vin v s.
Proof.
  exists (s2z "abc"), 3, (View 4 (2 ^ 64 - 1)). split; [unfold small; cbn; lia|]. split; [cbn; lia|]. split; [reflexivity|]. unfold vin. cbn. lia.
Qed.
Print Assumptions C24_right_of_refuted.
Theorem C24_offs_refuted : exists s l r v, small s /\ 0 <= l /\ 0 <= r /\ offs (len s) l r = Ok v /\ ~ vin v s.
Proof.
  exists (s2z "abc"), 2, 2, (View 2 (2 ^ 64 - 1)). split; [unfold small; cbn; lia|]. repeat (split; [cbn; try lia; reflexivity|]). unfold vin. cbn. lia.
Qed.
Print Assumptions C24_offs_refuted.
Example C24_ex1 : range 10 2 7 = Ok (View 2 5) /\ sub2 10 7 4 = Err /\ sub2 10 7 npos = Ok (View 7 3). Proof. repeat split. Qed.
Example C24_ex2 : vlast 10 3 = Ok (View 7 3) /\ offs 10 2 3 = Ok (View 2 5). Proof. repeat split. Qed.

(** ** C25: left_of and right_of partition the string *)
Theorem C25_pos : forall s pos a b, small s -> 0 <= pos < len s ->
  left_of (len s) pos = Ok a -> right_of (len s) pos = Ok b ->
  contents s a ++ [byte_at s pos] ++ contents s b = s.
Proof. exact left_right_pos. Qed.
Print Assumptions C25_pos.
Theorem C25_include_pos : forall s pos (inc : bool) a b, small s -> 0 <= pos < len s ->
  left_of_inc (len s) pos inc = Ok a -> right_of_inc (len s) pos (negb inc) = Ok b ->
  contents s a ++ contents s b = s.
Proof. exact left_right_inc. Qed.
Print Assumptions C25_include_pos.
Theorem C25_subview : forall s v, small s -> vin v s -> exists a b,
  left_of_v (len s) (Some v) = Ok a /\ right_of_v (len s) (Some v) = Ok b /\
  vin a s /\ vin b s /\ contents s a ++ contents s v ++ contents s b = s.
Proof. exact left_right_v. Qed.
Print Assumptions C25_subview.
Example C25_ex : left_of_v 7 (Some (View 2 3)) = Ok (View 0 2) /\ right_of_v 7 (Some (View 2 3)) = Ok (View 5 2).
Proof. split; reflexivity. Qed.

(** a view that is not empty and not inside: an assertion fails *)
Theorem C25_outside : forall (s : list Z) v, 0 < vl v -> ~ vin v s -> left_of_v (len s) (Some v) = Err /\ right_of_v (len s) (Some v) = Err.
Proof.
  intros s v L N. assert (E : is_super_v (len s) v || (vl v =? 0) = false).
  { replace (vl v =? 0) with false by lia. rewrite orb_false_r. unfold is_super_v. destruct (0 <? len s); [|replace (vl v =? 0) with false by lia; reflexivity].
    destruct (_ && _) eqn:R; [|reflexivity]. exfalso. apply N. unfold vin. lia. }
  unfold left_of_v, right_of_v, assert. rewrite E. split; reflexivity.
Qed.
Print Assumptions C25_outside.
Example C25_ex_outside : left_of_v (len (s2z "abcd")) (Some (View 3 2)) = Err /\ left_of_v (len (s2z "abcd")) (Some (View 3 1)) = Ok (View 0 3). Proof. split; reflexivity. Qed.

(** ** C26: replace_all *)
Theorem C26_replace_all : forall s pat repl pos d dv, pat <> [] -> 0 <= pos <= len s -> vin dv d ->
  exists o, replaced pat repl (skipn (Z.to_nat pos) s) o /\
  (pos + len o < 2 ^ 64 ->
   exists d', replace_all s d dv pat repl pos = Ok (d', pos + len o) /\ same_outside d d' dv /\
     (pos + len o <= vl dv ->
      contents d' (View (vo dv) (pos + len o)) = firstn (Z.to_nat pos) s ++ o)).
Proof. exact replace_all_ok. Qed.
Print Assumptions C26_replace_all.
Theorem C26_replaced_unique : forall pat repl s n m, pat <> [] -> replaced pat repl s n -> replaced pat repl s m -> n = m.
Proof. exact replaced_fun. Qed.
Print Assumptions C26_replaced_unique.
Example C26_ex1 : replace_all (s2z "0aa0aa1") (repeat 35 12) (View 1 10) (s2z "0a") (s2z "BCD") 1
  = Ok (s2z "#0aaBCDa1###", 8).
Proof. reflexivity. Qed.
Example C26_ex2 : replace_all (s2z "aaa") (repeat 35 3) (View 1 1) (s2z "a") (s2z "xy") 0 = Ok (repeat 35 3, 6).
Proof. reflexivity. Qed.

(** nothing cannot be replaced *)
Theorem C26_empty_pattern : forall s d dv repl pos, replace_all s d dv [] repl pos = Err.
Proof. reflexivity. Qed.
Print Assumptions C26_empty_pattern.

(** ** C27: in-place edits. The memory is [a ++ text ++ b], the view covers the text. *)
(** ::toupper and ::tolower are defined on ASCII and on the byte 255 (EOF) only *)
Theorem C27_toupper_partial : forall a c b, (forall x, In x c -> is_byte x /\ (x < 128 \/ x = 255)) ->
  toupper (a ++ c ++ b) (View (len a) (len c)) = Ok (a ++ map upper c ++ b).
Proof. exact toupper_ok. Qed.
Print Assumptions C27_toupper_partial.
Theorem C27_toupper_refuted : forall a d e b x, (forall y, In y d -> is_byte y /\ (y < 128 \/ y = 255)) -> 128 <= x < 255 ->
  toupper (a ++ (d ++ x :: e) ++ b) (View (len a) (len (d ++ x :: e))) = Ub.
Proof. exact toupper_ub. Qed.
Print Assumptions C27_toupper_refuted.
Theorem C27_tolower_partial : forall a c b, (forall x, In x c -> is_byte x /\ (x < 128 \/ x = 255)) ->
  tolower (a ++ c ++ b) (View (len a) (len c)) = Ok (a ++ map lower c ++ b).
Proof. exact tolower_ok. Qed.
Print Assumptions C27_tolower_partial.
Theorem C27_tolower_refuted : forall a d e b x, (forall y, In y d -> is_byte y /\ (y < 128 \/ y = 255)) -> 128 <= x < 255 ->
  tolower (a ++ (d ++ x :: e) ++ b) (View (len a) (len (d ++ x :: e))) = Ub.
Proof. exact tolower_ub. Qed.
Print Assumptions C27_tolower_refuted.
Theorem C27_fill : forall a c b x, fill (a ++ c ++ b) (View (len a) (len c)) x = Ok (a ++ repeat x (length c) ++ b).
Proof. exact fill_ok. Qed.
Print Assumptions C27_fill.
Theorem C27_copy_from : forall a p old q b that num, len (p ++ old ++ q) < 2 ^ 63 -> 0 <= num <= npos ->
  len old = Z.min (len that) (if num =? npos then len (old ++ q) else num) -> len p + len old <= len (p ++ old ++ q) ->
  copy_from (a ++ (p ++ old ++ q) ++ b) (View (len a) (len (p ++ old ++ q))) that (len p) num =
  Ok (a ++ (p ++ firstn (length old) that ++ q) ++ b).
Proof. exact copy_from_ok. Qed.
Print Assumptions C27_copy_from.
Theorem C27_reverse : forall a c b, reverse (a ++ c ++ b) (View (len a) (len c)) = Ok (a ++ rev c ++ b).
Proof. exact reverse_ok. Qed.
Print Assumptions C27_reverse.
Theorem C27_reverse_sub : forall a p c q b, len (p ++ c ++ q) < 2 ^ 63 ->
  reverse_sub (a ++ (p ++ c ++ q) ++ b) (View (len a) (len (p ++ c ++ q))) (len p) (len c) = Ok (a ++ (p ++ rev c ++ q) ++ b).
Proof. exact reverse_sub_ok. Qed.
Print Assumptions C27_reverse_sub.
Theorem C27_reverse_range : forall a p c q b, len (p ++ c ++ q) < 2 ^ 63 ->
  reverse_range (a ++ (p ++ c ++ q) ++ b) (View (len a) (len (p ++ c ++ q))) (len p) (len p + len c) = Ok (a ++ (p ++ rev c ++ q) ++ b).
Proof. exact reverse_range_ok. Qed.
Print Assumptions C27_reverse_range.
Theorem C27_erase : forall a p c q b, len (p ++ c ++ q) < 2 ^ 63 ->
  exists rest, len rest = len c /\
  erase (a ++ (p ++ c ++ q) ++ b) (View (len a) (len (p ++ c ++ q))) (len p) (len c) =
  Ok (a ++ ((p ++ q) ++ rest) ++ b, View (len a) (len (p ++ q))).
Proof. exact erase_ok. Qed.
Print Assumptions C27_erase.
Theorem C27_replace_char : forall a p c b x y, len (p ++ c) < npos ->
  replace_c (a ++ (p ++ c) ++ b) (View (len a) (len (p ++ c))) x y (len p) =
  Ok (a ++ (p ++ map (fun z => if z =? x then y else z) c) ++ b, Z.of_nat (length (filter (fun z => z =? x) c))).
Proof. exact replace_c_ok. Qed.
Print Assumptions C27_replace_char.
Theorem C27_replace_set : forall a p c b cs y, len (p ++ c) < npos ->
  replace (a ++ (p ++ c) ++ b) (View (len a) (len (p ++ c))) cs y (len p) =
  Ok (a ++ (p ++ map (fun z => if mem z cs then y else z) c) ++ b, Z.of_nat (length (filter (fun z => mem z cs) c))).
Proof. exact replace_set_ok. Qed.
Print Assumptions C27_replace_set.
(** started at npos nothing is replaced *)
Theorem C27_replace_npos : forall m v x cs y, replace_c m v x y npos = Ok (m, 0) /\ replace m v cs y npos = Ok (m, 0).
Proof. intros. split; reflexivity. Qed.
Print Assumptions C27_replace_npos.
Theorem C27_mem : forall c cs, mem c cs = true <-> In c cs.
Proof. exact mem_in. Qed.
Print Assumptions C27_mem.
Example C27_ex1 : toupper (s2z "ab-Cd") (View 1 3) = Ok (s2z "aB-Cd"). Proof. reflexivity. Qed.
Example C27_ex6 : tolower (s2z "AbC" ++ [255; 195; 132]) (View 0 4) = Ok (s2z "abc" ++ [255; 195; 132])
  /\ tolower (s2z "AbC" ++ [255; 195; 132]) (View 0 5) = Ub. Proof. split; reflexivity. Qed.
Example C27_ex2 : reverse_sub (s2z "0123456789") (View 1 8) 2 5 = Ok (s2z "0127654389"). Proof. reflexivity. Qed.
Example C27_ex3 : erase (s2z "0123456789") (View 1 8) 2 3 = Ok (s2z "0126786789", View 1 5). Proof. reflexivity. Qed.
Example C27_ex4 : copy_from (s2z "0123456789") (View 1 8) (s2z "abc") 6 npos = Ok (s2z "0123456ab9"). Proof. reflexivity. Qed.
Example C27_ex5 : replace (s2z "a.b-c.d") (View 0 7) (s2z ".-") (ch "_") 2 = Ok (s2z "a.b_c_d", 2). Proof. reflexivity. Qed.

(** ** C28: popping *)
Theorem C28_right_pair : forall l r c, small (l ++ c :: r) -> ~ In c r ->
  exists v w, pop_right (l ++ c :: r) c false = Ok (Some v) /\ gpop_left (l ++ c :: r) c false = Ok w /\
    contents (l ++ c :: r) v = r /\ contents (l ++ c :: r) w = l.
Proof.
  intros l r c Hs H. destruct (pop_right_sep l r c Hs H) as (v & E1 & _ & E2 & _).
  destruct (gpop_left_sep l r c Hs H) as (w & E3 & _ & E4). exists v, w. auto.
Qed.
Print Assumptions C28_right_pair.
Theorem C28_left_pair : forall l r c, small (l ++ c :: r) -> ~ In c l ->
  exists v w, pop_left (l ++ c :: r) c false = Ok (Some v) /\ gpop_right (l ++ c :: r) c false = Ok w /\
    contents (l ++ c :: r) v = l /\ contents (l ++ c :: r) w = r.
Proof.
  intros l r c Hs H. destruct (pop_left_sep l r c Hs H) as (v & E1 & V1 & V2).
  destruct (gpop_right_sep l r c Hs H) as (w & E3 & _ & E4). exists v, w. repeat split; auto.
  destruct v as [v1 v2]. cbn in V1, V2. subst. apply (contents_head _ _ (c :: r)). reflexivity.
Qed.
Print Assumptions C28_left_pair.
Theorem C28_no_separator : forall s c skip, small s -> ~ In c s ->
  exists o v o' v', pop_right s c skip = Ok o /\ gpop_left s c skip = Ok v /\
    pop_left s c skip = Ok o' /\ gpop_right s c skip = Ok v' /\
    ocontents s o = s /\ contents s v = [] /\ ocontents s o' = s /\ contents s v' = [].
Proof.
  intros s c skip Hs H. destruct (pop_right_nosep s c skip H) as (o & E1 & C1 & _).
  destruct (gpop_left_nosep s c skip Hs H) as (v & E2 & _ & C2).
  destruct (pop_left_nosep s c skip Hs H) as (o' & E3 & C3 & _).
  destruct (gpop_right_nosep s c skip Hs H) as (v' & E4 & _ & C4). exists o, v, o', v'. auto 10.
Qed.
Print Assumptions C28_no_separator.
(** with skip_empty: [w] is the last non-empty piece, [t] the trailing separators *)
Theorem C28_right_skip : forall l w t c, small (l ++ w ++ t) -> ends_sep c l -> w <> [] -> ~ In c w -> Forall (fun x => x = c) t ->
  exists v, pop_right (l ++ w ++ t) c true = Ok (Some (View (len l) (len (w ++ t)))) /\
  gpop_left (l ++ w ++ t) c true = Ok v /\ vin v (l ++ w ++ t) /\
  trimmed_right (fun x => x = c) l (contents (l ++ w ++ t) v).
Proof.
  intros l w t c Hs Hl Hw Hn Ht. destruct (gpop_left_skip l w t c Hs Hl Hw Hn Ht) as (v & H). exists v.
  split; auto. apply pop_right_skip; auto.
Qed.
Print Assumptions C28_right_skip.
Theorem C28_left_skip : forall t w r c, small (t ++ w ++ r) -> begins_sep c r -> w <> [] -> ~ In c w -> Forall (fun x => x = c) t ->
  exists v, pop_left (t ++ w ++ r) c true = Ok (Some (View 0 (len t + len w))) /\
  gpop_right (t ++ w ++ r) c true = Ok v /\ vin v (t ++ w ++ r) /\
  trimmed_left (fun x => x = c) r (contents (t ++ w ++ r) v).
Proof.
  intros t w r c Hs Hr Hw Hn Ht. destruct (gpop_right_skip t w r c Hs Hr Hw Hn Ht) as (v & H). exists v.
  split; auto. apply pop_left_skip; auto.
Qed.
Print Assumptions C28_left_skip.
Theorem C28_skip_all_separators : forall t c, small t -> t <> [] -> Forall (fun x => x = c) t ->
  pop_right t c true = Ok (Some (View 0 0)) /\ pop_left t c true = Ok (Some (View 0 0)).
Proof. exact (fun t c H1 H2 H3 => conj (pop_right_all t c H1 H2 H3) (pop_left_all t c H1 H2 H3)). Qed.
Print Assumptions C28_skip_all_separators.
(** dirname ++ basename ++ trailing separators is the whole string *)
Theorem C28_basename_dirname : forall l w t c, small (l ++ w ++ t) -> ends_sep c l -> w <> [] -> ~ In c w -> Forall (fun x => x = c) t ->
  basename (l ++ w ++ t) c = Ok (Some (View (len l) (len w))) /\ dirname (l ++ w ++ t) c = Ok (View 0 (len l)).
Proof. exact (fun l w t c H1 H2 H3 H4 H5 => conj (basename_ok l w t c H1 H2 H3 H4 H5) (dirname_ok l w t c H1 H2 H3 H4 H5)). Qed.
Print Assumptions C28_basename_dirname.
Theorem C28_dirname_all_separators : forall t c, small t -> Forall (fun x => x = c) t -> dirname t c = Ok (full t).
Proof. exact dirname_all. Qed.
Print Assumptions C28_dirname_all_separators.
Theorem C28_every_path_decomposes : forall s c, Forall (fun x => x = c) s \/
  exists l w t, s = l ++ w ++ t /\ ends_sep c l /\ w <> [] /\ ~ In c w /\ Forall (fun x => x = c) t.
Proof. exact path_cases. Qed.
Print Assumptions C28_every_path_decomposes.
Example C28_ex1 : basename (s2z "/a/bc//") (ch "/") = Ok (Some (View 3 2)) /\ dirname (s2z "/a/bc//") (ch "/") = Ok (View 0 3).
Proof. split; reflexivity. Qed.
Example C28_ex2 : extshort (s2z "a.tar.gz") = Ok (Some (View 6 2)) /\ extlong (s2z "a.tar.gz") = Ok (View 2 6) /\
  name_wo_extshort (s2z "a.tar.gz") = Ok (View 0 5) /\ name_wo_extlong (s2z "a.tar.gz") = Ok (Some (View 0 1)).
Proof. repeat split. Qed.

(** ** C29: bracketed ranges *)
Theorem C29_pair_range : forall a m t o c, small (a ++ o :: m ++ c :: t) -> o <> c -> ~ In o a -> ~ In c m ->
  pair_range (a ++ o :: m ++ c :: t) o c =
    if in_dec Z.eq_dec o m then Err else Ok (Some (View (len a) (len m + 2))).
Proof. exact pair_range_some. Qed.
Print Assumptions C29_pair_range.
Theorem C29_pair_range_none : forall s o c, (forall a m, s = a ++ o :: m -> ~ In o a -> ~ In c m) -> pair_range s o c = Ok None.
Proof. exact pair_range_none. Qed.
Print Assumptions C29_pair_range_none.
Theorem C29_nested : forall a m t o c, small (a ++ o :: m ++ c :: t) -> o <> c -> ~ In o a -> closes o c m ->
  pair_range_nested (a ++ o :: m ++ c :: t) o c = Ok (Some (View (len a) (len m + 2))).
Proof. exact pair_range_nested_some. Qed.
Print Assumptions C29_nested.
Theorem C29_nested_cases : forall s o c, small s -> o <> c ->
  (exists a m t, s = a ++ o :: m ++ c :: t /\ ~ In o a /\ closes o c m /\ pair_range_nested s o c = Ok (Some (View (len a) (len m + 2)))) \/
  ((forall a m t, s = a ++ o :: m ++ c :: t -> ~ In o a -> ~ closes o c m) /\ pair_range_nested s o c = Ok None).
Proof. exact pair_range_nested_cases. Qed.
Print Assumptions C29_nested_cases.
Theorem C29_closing_unique : forall o c m m' t t', o <> c -> closes o c m -> closes o c m' ->
  m ++ c :: t = m' ++ c :: t' -> m = m' /\ t = t'.
Proof. exact closes_unique. Qed.
Print Assumptions C29_closing_unique.
Example C29_ex1 : pair_range_nested (s2z "x{a{b}c}d}") (ch "{") (ch "}") = Ok (Some (View 1 7)). Proof. reflexivity. Qed.
Example C29_ex2 : pair_range (s2z "x{ab}c}") (ch "{") (ch "}") = Ok (Some (View 1 4)) /\ pair_range (s2z "x{a{b}") (ch "{") (ch "}") = Err.
Proof. split; reflexivity. Qed.
Example C29_ex3 : pair_range_nested (s2z "x{a{b}c") (ch "{") (ch "}") = Ok None. Proof. reflexivity. Qed.

(** ** C30: escaped quotes *)
Theorem C30_esc : forall a m t q esc, small (a ++ q :: m ++ q :: t) -> ~ In q a ->
  ~ ends_in esc (q :: m) -> (forall m1 m2, m = m1 ++ q :: m2 -> ends_in esc (q :: m1)) ->
  pair_range_esc (a ++ q :: m ++ q :: t) q esc = Ok (Some (View (len a) (len m + 2))).
Proof. exact pair_range_esc_some. Qed.
Print Assumptions C30_esc.
Theorem C30_none : forall s q esc, small s ->
  (forall a m t, s = a ++ q :: m ++ q :: t -> ~ In q a -> ends_in esc (q :: m)) ->
  pair_range_esc s q esc = Ok None.
Proof. exact pair_range_esc_none. Qed.
Print Assumptions C30_none.
Theorem C30_quoted_partial : forall a m t q esc, small (a ++ q :: m ++ q :: t) -> ~ In q a -> q <> esc ->
  quoted q esc m -> (forall x y, m <> x ++ esc :: esc :: y) ->
  pair_range_esc (a ++ q :: m ++ q :: t) q esc = Ok (Some (View (len a) (len m + 2))).
Proof. exact pair_range_esc_quoted. Qed.
Print Assumptions C30_quoted_partial.
(** an escaped escape before the closing quote hides the quote *)
Theorem C30_doubled_escape_refuted : exists m, quoted 34 92 m /\ pair_range_esc (34 :: m ++ [34]) 34 92 = Ok None.
Proof. exists [97; 92; 92]. split; [|reflexivity]. apply q_chr; try lia. apply q_esc. constructor. Qed.
Print Assumptions C30_doubled_escape_refuted.
Example C30_ex : pair_range_esc (s2z "ab'c\'d'e'") (ch "'") (ch "\") = Ok (Some (View 2 6)). Proof. reflexivity. Qed.

(** ** C112: comparison operators with characters and with the string on the right *)
Theorem C112_array_left : forall t s, bytes s -> bytes t ->
  (exists b, arr_eq t s = Ok b /\ (b = true <-> t = s)) /\
  (exists b, arr_ne t s = Ok b /\ (b = true <-> t <> s)) /\
  (exists b, arr_lt t s = Ok b /\ (b = true <-> lex schar_lt t s)) /\
  (exists b, arr_gt t s = Ok b /\ (b = true <-> lex schar_lt s t)) /\
  (exists b, arr_le t s = Ok b /\ (b = true <-> lex schar_lt t s \/ t = s)) /\
  (exists b, arr_ge t s = Ok b /\ (b = true <-> lex schar_lt s t \/ t = s)).
Proof. intros t s Hs Ht. destruct (arr_ops t s Hs Ht) as (-> & -> & -> & -> & -> & ->). apply ops_spec; auto. Qed.
Print Assumptions C112_array_left.
(** with a char, for strings shorter than 2^31 *)
Theorem C112_char_right_partial : forall s c, bytes s -> is_byte c -> len s < 2 ^ 31 ->
  (exists b, op_eq_c s c = Ok b /\ (b = true <-> s = [c])) /\
  (exists b, op_ne_c s c = Ok b /\ (b = true <-> s <> [c])) /\
  (exists b, op_lt_c s c = Ok b /\ (b = true <-> lex schar_lt s [c])) /\
  (exists b, op_gt_c s c = Ok b /\ (b = true <-> lex schar_lt [c] s)) /\
  (exists b, op_le_c s c = Ok b /\ (b = true <-> lex schar_lt s [c] \/ s = [c])) /\
  (exists b, op_ge_c s c = Ok b /\ (b = true <-> lex schar_lt [c] s \/ s = [c])).
Proof.
  intros s c Hs Hc Hl. destruct (char_ops s c Hs Hc Hl) as (-> & -> & -> & -> & -> & ->).
  apply ops_spec; auto. repeat constructor; apply Hc.
Qed.
Print Assumptions C112_char_right_partial.
Theorem C112_char_left_partial : forall c s, bytes s -> is_byte c -> len s < 2 ^ 31 ->
  (exists b, c_eq c s = Ok b /\ (b = true <-> [c] = s)) /\
  (exists b, c_ne c s = Ok b /\ (b = true <-> [c] <> s)) /\
  (exists b, c_lt c s = Ok b /\ (b = true <-> lex schar_lt [c] s)) /\
  (exists b, c_gt c s = Ok b /\ (b = true <-> lex schar_lt s [c])) /\
  (exists b, c_le c s = Ok b /\ (b = true <-> lex schar_lt [c] s \/ [c] = s)) /\
  (exists b, c_ge c s = Ok b /\ (b = true <-> lex schar_lt s [c] \/ [c] = s)).
Proof.
  intros c s Hs Hc Hl. destruct (left_char_ops c s Hs Hc Hl) as (-> & -> & -> & -> & -> & ->).
  apply ops_spec; auto. repeat constructor; apply Hc.
Qed.
Print Assumptions C112_char_left_partial.
(** beyond, equality with a char holds of a long string, and the comparison can be undefined *)
Theorem C112_long_refuted : forall c, (exists s, s <> [c] /\ op_eq_c s c = Ok true /\ c_eq c s = Ok true) /\ (exists s, op_eq_c s c = Ub).
Proof.
  intros c. split.
  - destruct (C16_truncation_refuted c) as (s & E & N). exists s. unfold op_eq_c, c_eq. rewrite E. auto.
  - destruct (C16_int_min_refuted c) as (s & E). exists s. unfold op_eq_c. rewrite E. reflexivity.
Qed.
Print Assumptions C112_long_refuted.
Example C112_ex1 : c_lt (ch "a") (s2z "ab") = Ok true /\ arr_ge (s2z "b") (s2z "abc") = Ok true /\ op_le_c (s2z "ab") (ch "a") = Ok false
  /\ c_gt (ch "a") [] = Ok true. Proof. repeat split; reflexivity. Qed.
