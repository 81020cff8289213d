(** Property theorems for the string view, continued (C83-C87). *)
From Verif Require Import Base BaseLemmas SubstrModel SubstrModel2 SubstrSpec SubstrProofs SubstrProofs7 SubstrProofs9.

(** ** C83: queries on the ends, and selection of a character *)
Theorem C83_begins_with_any : forall s cs, exists b, begins_with_any s cs = Ok b /\ (b = true <-> exists c r, s = c :: r /\ In c cs).
Proof. exact begins_with_any_ok. Qed.
Print Assumptions C83_begins_with_any.
Theorem C83_ends_with_any : forall s cs, exists b, ends_with_any s cs = Ok b /\ (b = true <-> exists c r, s = r ++ [c] /\ In c cs).
Proof. exact ends_with_any_ok. Qed.
Print Assumptions C83_ends_with_any.
Theorem C83_ends_with_num : forall s c num, 0 <= num ->
  exists b, ends_with_n s c num = Ok b /\ (b = true <-> exists r, s = r ++ repeat c (Z.to_nat num)).
Proof. exact ends_with_n_ok. Qed.
Print Assumptions C83_ends_with_num.
Theorem C83_select_char : forall s c st, small s -> 0 <= st <= len s ->
  exists o, select_c s c (Some st) = Ok o /\
  match o with
  | Some v => vl v = 1 /\ contents s v = [c] /\ is_first (fun i => byte_at s i = c) st (len s) (Some (vo v))
  | None => forall j, st <= j < len s -> byte_at s j <> c
  end.
Proof. exact select_c_ok. Qed.
Print Assumptions C83_select_char.
Example C83_ex1 : begins_with_any (s2z "-12") (s2z "+-") = Ok true /\ begins_with_any [] (s2z "+-") = Ok false /\
  begins_with_any (s2z "a-") (s2z "+-") = Ok false.
Proof. repeat split. Qed.
Example C83_ex2 : ends_with_any (s2z "12;") (s2z ",;") = Ok true /\ ends_with_any (s2z ";1") (s2z ",;") = Ok false. Proof. split; reflexivity. Qed.
Example C83_ex3 : ends_with_n (s2z "abb") (ch "b") 2 = Ok true /\ ends_with_n (s2z "abb") (ch "b") 3 = Ok false /\
  ends_with_n (s2z "bb") (ch "b") 3 = Ok false /\ ends_with_n (s2z "a") (ch "b") 0 = Ok true.
Proof. repeat split. Qed.
Example C83_ex4 : select_c (s2z "a,b,c") (ch ",") (Some 2) = Ok (Some (View 3 1)) /\ select_c (s2z "abc") (ch ",") (Some 0) = Ok None.
Proof. split; reflexivity. Qed.

(** ** C84: unquoted removes the quotes of a quoted string *)
(** for every string: the pair of quotes is removed exactly when the text between
    does not end in a backslash, and anything else is returned as it is *)
Theorem C84_unquoted_partial : forall s, small s -> exists v, unquoted s = Ok v /\ vin v s /\
  (forall q m, (q = ch "'" \/ q = 34) -> s = q :: m ++ [q] -> ~ ends_in (ch "\") m -> contents s v = m) /\
  ((forall q m, (q = ch "'" \/ q = 34) -> s = q :: m ++ [q] -> ends_in (ch "\") m) -> contents s v = s).
Proof. exact unquoted_cases. Qed.
Print Assumptions C84_unquoted_partial.
(** a correctly quoted string may end in an escaped backslash: it is not unquoted *)
Theorem C84_escaped_backslash_refuted : exists m, quoted 34 (ch "\") m /\ unquoted (34 :: m ++ [34]) = Ok (full (34 :: m ++ [34])).
Proof. exists [97; 92; 92]. split; [|reflexivity]. apply q_chr; [discriminate..|]. apply q_esc, q_nil. Qed.
Print Assumptions C84_escaped_backslash_refuted.
(** conversely quotes are removed from a text whose quotes do not match each other *)
Theorem C84_inner_quote_refuted : exists m v, ~ quoted 34 (ch "\") m /\ unquoted (34 :: m ++ [34]) = Ok v /\ contents (34 :: m ++ [34]) v = m.
Proof.
  exists [97; 34; 98], (View 1 3). split; [|split; reflexivity]. intros H. 
  inversion H as [|x r H1 H2 H3 E|]; subst. inversion H3; subst. congruence.
Qed.
Print Assumptions C84_inner_quote_refuted.
Example C84_ex1 : unquoted (34 :: s2z "ab" ++ [34]) = Ok (View 1 2) /\ unquoted (s2z "'ab'") = Ok (View 1 2) /\
  unquoted (s2z "''") = Ok (View 1 0) /\ unquoted (s2z "'") = Ok (View 0 1) /\ unquoted (s2z "'ab") = Ok (View 0 3) /\
  unquoted (39 :: s2z "ab" ++ [34]) = Ok (View 0 4) /\ unquoted (s2z "'ab\'") = Ok (View 0 5).
Proof. repeat split. Qed.

(** ** C85: file name extensions *)
(** a name with a dot splits at the last (short) and at the first (long) dot *)
Theorem C85_short : forall l r, small (l ++ ch "." :: r) -> ~ In (ch ".") r ->
  exists v w, extshort (l ++ ch "." :: r) = Ok (Some v) /\ name_wo_extshort (l ++ ch "." :: r) = Ok w /\
    contents (l ++ ch "." :: r) v = r /\ contents (l ++ ch "." :: r) w = l.
Proof.
  intros l r Hs H. destruct (pop_right_sep l r _ Hs H) as (v & E1 & _ & E2 & _).
  destruct (gpop_left_sep l r _ Hs H) as (w & E3 & _ & E4). exists v, w. auto.
Qed.
Print Assumptions C85_short.
Theorem C85_long : forall l r, small (l ++ ch "." :: r) -> ~ In (ch ".") l ->
  exists v w, name_wo_extlong (l ++ ch "." :: r) = Ok (Some v) /\ extlong (l ++ ch "." :: r) = Ok w /\
    contents (l ++ ch "." :: r) v = l /\ contents (l ++ ch "." :: r) w = r.
Proof.
  intros l r Hs H. destruct (pop_left_sep l r _ Hs H) as (v & E1 & V1 & V2).
  destruct (gpop_right_sep l r _ Hs H) as (w & E3 & _ & E4). exists v, w. repeat split; auto.
  destruct v as [v1 v2]. cbn in V1, V2. subst. apply (SubstrProofs4.contents_head _ _ (ch "." :: r)). reflexivity.
Qed.
Print Assumptions C85_long.
(** every name with a dot splits in both ways *)
Theorem C85_splits : forall s, In (ch ".") s ->
  (exists l r, s = l ++ ch "." :: r /\ ~ In (ch ".") r) /\ (exists l r, s = l ++ ch "." :: r /\ ~ In (ch ".") l).
Proof. exact (dot_splits (ch ".")). Qed.
Print Assumptions C85_splits.
(** a name without a dot: the long form gives the name and no extension *)
Theorem C85_no_dot_partial : forall s, small s -> ~ In (ch ".") s ->
  exists o w, name_wo_extlong s = Ok o /\ extlong s = Ok w /\ ocontents s o = s /\ contents s w = [].
Proof.
  intros s Hs H. destruct (pop_left_nosep s _ false Hs H) as (o' & E3 & C3 & _).
  destruct (gpop_right_nosep s _ false Hs H) as (v' & E4 & _ & C4). exists o', v'. auto 10.
Qed.
Print Assumptions C85_no_dot_partial.
(** but in the short form the whole name is taken for the extension, for every
    name without a dot *)
Theorem C85_no_dot_refuted : forall s, small s -> ~ In (ch ".") s ->
  exists o w, extshort s = Ok o /\ name_wo_extshort s = Ok w /\ ocontents s o = s /\ contents s w = [].
Proof.
  intros s Hs H. destruct (pop_right_nosep s _ false H) as (o & E1 & C1 & _).
  destruct (gpop_left_nosep s _ false Hs H) as (v & E2 & _ & C2). exists o, v. auto.
Qed.
Print Assumptions C85_no_dot_refuted.
(** directories are not taken apart: a dot in a directory name is used *)
Theorem C85_directory_refuted : exists s v, extlong s = Ok v /\ In (ch "/") (contents s v).
Proof. exists (s2z "a.d/f.txt"), (View 2 7). split; [reflexivity|]. vm_compute. auto. Qed.
Print Assumptions C85_directory_refuted.
Example C85_ex1 : extshort (s2z "a.tar.gz") = Ok (Some (View 6 2)) /\ name_wo_extshort (s2z "a.tar.gz") = Ok (View 0 5) /\
  extlong (s2z "a.tar.gz") = Ok (View 2 6) /\ name_wo_extlong (s2z "a.tar.gz") = Ok (Some (View 0 1)).
Proof. repeat split. Qed.
Example C85_ex2 : extshort (s2z "name") = Ok (Some (View 0 4)) /\ name_wo_extshort (s2z "name") = Ok (View 0 0). Proof. split; reflexivity. Qed.

(** ** C86: erase by range and by sub-view *)
Theorem C86_erase_range : forall a p c q b, len (p ++ c ++ q) < 2 ^ 63 ->
  exists rest, len rest = len c /\
  erase_range (a ++ (p ++ c ++ q) ++ b) (View (len a) (len (p ++ c ++ q))) (len p) (len (p ++ c)) =
  Ok (a ++ ((p ++ q) ++ rest) ++ b, View (len a) (len (p ++ q))).
Proof. exact erase_range_ok. Qed.
Print Assumptions C86_erase_range.
Theorem C86_erase_range_rejects : forall m v first last, vl v < 2 ^ 63 -> 0 <= first < 2 ^ 64 -> 0 <= last < 2 ^ 64 ->
  last < first \/ vl v < last -> erase_range m v first last = Err.
Proof. exact erase_range_bad. Qed.
Print Assumptions C86_erase_range_rejects.
Theorem C86_erase_sub : forall a p c q b, len (a ++ p ++ c ++ q ++ b) < 2 ^ 63 ->
  exists rest, len rest = len c /\
  erase_sub (a ++ (p ++ c ++ q) ++ b) (View (len a) (len (p ++ c ++ q))) (View (len (a ++ p)) (len c)) =
  Ok (a ++ ((p ++ q) ++ rest) ++ b, View (len a) (len (p ++ q))).
Proof. exact erase_sub_ok. Qed.
Print Assumptions C86_erase_sub.
(** a view accepted by erase(sub) is a piece of the text *)
Theorem C86_erase_sub_accepts : forall m v w r, vin v m -> 0 <= vl w -> erase_sub m v w = Ok r ->
  exists p q, contents m v = p ++ contents m w ++ q /\ len p = vo w - vo v.
Proof.
  intros m v w r Hv Hw E. apply is_super_subview; auto. unfold erase_sub, assert in E. destruct (is_super v w); [auto|discriminate].
Qed.
Print Assumptions C86_erase_sub_accepts.
(** erase(pos, num) has no such protection: its check [pos+num <= len] wraps, so a
    position far outside is accepted and memory outside the view is touched *)
Theorem C86_erase_wrap_refuted : forall a c b, 0 < len c -> len (a ++ c ++ b) < 2 ^ 63 ->
  exists pos num, len c < pos < 2 ^ 64 /\ 0 < num < 2 ^ 64 /\ erase (a ++ c ++ b) (View (len a) (len c)) pos num = Ub.
Proof. exact erase_wrap. Qed.
Print Assumptions C86_erase_wrap_refuted.
Example C86_ex1 : erase_range (s2z "0123456789") (View 0 10) 3 5 = Ok (s2z "0125678989", View 0 8). Proof. reflexivity. Qed.
Example C86_ex2 : erase_sub (s2z "0123456789") (View 2 6) (View 3 2) = Ok (s2z "0125676789", View 2 4) /\
  erase_sub (s2z "0123456789") (View 2 6) (View 1 2) = Err /\ erase_range (s2z "0123456789") (View 2 6) 3 7 = Err.
Proof. repeat split. Qed.

(** ** C87: views made from arrays, pointers and C strings *)
(** the view of a C string is the text before the first zero *)
Theorem C87_from_cstr : forall a s b : list Z, len (a ++ s ++ 0 :: b) < 2 ^ 64 -> ~ In 0 s ->
  from_cstr (a ++ s ++ 0 :: b) (len a) = Ok (View (len a) (len s)).
Proof. exact from_cstr_ok. Qed.
Print Assumptions C87_from_cstr.
(** that of an array is all but its last element, whatever it is: the text of a
    literal, but for an array that is not terminated the last character is lost *)
Theorem C87_from_array : forall (s : list Z) (z : Z), len s < 2 ^ 63 -> contents (s ++ [z]) (from_array (s ++ [z])) = s.
Proof. exact from_array_ok. Qed.
Print Assumptions C87_from_array.
Theorem C87_from_ptrs : forall a s b : list Z, len (a ++ s ++ b) < 2 ^ 64 ->
  exists v, from_ptrs (len a) (len (a ++ s)) = Ok v /\ contents (a ++ s ++ b) v = s.
Proof. exact from_ptrs_ok. Qed.
Print Assumptions C87_from_ptrs.
Example C87_ex1 : from_cstr (s2z "ab" ++ [0; 7]) 0 = Ok (View 0 2) /\ from_cstr (s2z "ab") 0 = Ub /\ from_ptrs 3 2 = Err.
Proof. repeat split. Qed.
