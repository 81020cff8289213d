(** C71, C72: enum symbols and bitmasks. *)
From Verif Require Import Base SubstrModel SubstrSpec MemUtilModel EnumModel EnumSpec EnumProofs EnumProofs2 EnumProofs3.

(** ** C71: lookup *)
(** With a C string: the first symbol called by that text. *)
Theorem C71_find : forall o tab s, offs_ok o tab ->
  exists r, find_z o tab s = Ok r /\ first_such (fun p => is_name o (sname p) s) tab r.
Proof. exact find_z_ok. Qed.
(** With a number of characters the beginning of a name is enough: *)
Theorem C71_find_n : forall o tab s, offs_ok o tab -> cstring s ->
  exists r, find_n o tab s = Ok r /\ first_such (fun p => is_prefix s (sname p) \/ is_name o (sname p) s) tab r.
Proof. exact find_n_ok. Qed.
(** so it is exact only if the text is not the beginning of a longer name. *)
Theorem C71_find_n_partial : forall o tab s, offs_ok o tab -> cstring s ->
  (forall p, In p tab -> is_prefix s (sname p) -> s = sname p) ->
  exists r, find_n o tab s = Ok r /\ first_such (fun p => is_name o (sname p) s) tab r.
Proof. exact find_n_exact. Qed.
Theorem C71_prefix_refuted : exists tab s p, NoDup (map sname tab) /\ find_n (Offs 0 0) tab s = Ok (Some p) /\
  sname p <> s /\ exists q, In q tab /\ sname q = s.
Proof.
  exists [Sym 1 (s2z "FOOBAR"); Sym 2 (s2z "FOO")], (s2z "FOO"), (Sym 1 (s2z "FOOBAR")).
  split. { cbn. constructor; [|constructor; [|constructor]]; cbn; [|tauto]. intros [H|[]]. discriminate. }
  split; [reflexivity|]. split; [discriminate|]. exists (Sym 2 (s2z "FOO")). split; [right; left; reflexivity|reflexivity].
Qed.
(** The empty text finds the first symbol of any table. *)
Theorem C71_empty_refuted : forall o p tab, find_n o (p :: tab) [] = Ok (Some p).
Proof. intros o p tab. cbn. unfold cmp_n. cbn. destruct (sname p); reflexivity. Qed.
(** An offset behind the end of a name reads behind the string. *)
Theorem C71_offset_refuted : forall o p tab s, len (sname p) < o_cls o -> sname p <> s -> find_z o (p :: tab) s = Ub.
Proof.
  intros o p tab s L N. pose proof (BaseLemmas.len_nonneg (sname p)). unfold find_z. cbn [find_by]. unfold cmp_z.
  destruct (strcmp_eq (sname p) s) eqn:E; [apply strcmp_eq_ok in E; congruence|]. cbn [cmp_offs eoffs].
  replace (0 <? o_cls o) with true by lia. unfold cskip. replace ((0 <=? o_cls o) && (o_cls o <=? len (sname p))) with false by lia. reflexivity.
Qed.
(** Values survive the trip through their name, with or without class or prefix, if no text
    calls two symbols of different value. *)
Theorem C71_round_trip : forall o tab v, offs_ok o tab -> unambiguous o tab -> (exists p, In p tab /\ sval p = v) ->
  exists s, e2str tab v = Ok s /\ str2e o tab s = Ok v.
Proof. exact e2str_str2e. Qed.
Theorem C71_round_trip_offs : forall o tab v w, offs_ok o tab -> unambiguous o tab -> (exists p, In p tab /\ sval p = v) ->
  exists s, e2stroffs o tab v w = Ok s /\ str2e o tab s = Ok v.
Proof. exact e2stroffs_str2e. Qed.
(** Without offsets it is enough that the names are unique. *)
Theorem C71_unique : forall tab, NoDup (map sname tab) -> unambiguous (Offs 0 0) tab.
Proof. exact unique_unambiguous. Qed.
(** With offsets it is not. *)
Theorem C71_round_trip_refuted : exists o tab v s, offs_ok o tab /\ NoDup (map sname tab) /\ NoDup (map sval tab) /\
  (exists p, In p tab /\ sval p = v) /\ e2str tab v = Ok s /\ exists v', str2e o tab s = Ok v' /\ v' <> v.
Proof.
  exists (Offs 0 2), [Sym 1 (s2z "X_FOO"); Sym 2 (s2z "FOO")], 2, (s2z "FOO").
  split. { split; [cbn; lia|]. split; [cbn; lia|]. intros p [<-|[<-|[]]]; vm_compute; split; reflexivity. }
  split. { cbn. constructor; [|constructor; [|constructor]]; cbn; [|tauto]. intros [H|[]]. discriminate. }
  split. { cbn. constructor; [|constructor; [|constructor]]; cbn; [|tauto]. intros [H|[]]. discriminate. }
  split. { eexists. split; [right; left; reflexivity|reflexivity]. }
  split; [reflexivity|]. exists 1. split; [reflexivity|lia].
Qed.
(** A value or a text that is not in the table fails. *)
Theorem C71_missing : forall tab v, (forall p, In p tab -> sval p <> v) -> e2str tab v = Err.
Proof.
  intros tab v H. unfold e2str. destruct (find_v tab v) as [p|] eqn:E; [|reflexivity]. apply find_v_some in E. destruct E as [I V]. destruct (H p I V).
Qed.
Theorem C71_unknown : forall o tab s, offs_ok o tab -> (forall p, In p tab -> ~ is_name o (sname p) s) -> str2e o tab s = Err.
Proof.
  intros o tab s O H. destruct (find_z_ok o tab s O) as [r [E F]]. unfold str2e. rewrite E. cbn [bind].
  destruct r as [p|]; [|reflexivity]. apply first_in in F. destruct F as [I N]. destruct (H p I N).
Qed.
Print Assumptions C71_find.
Print Assumptions C71_find_n.
Print Assumptions C71_find_n_partial.
Print Assumptions C71_prefix_refuted.
Print Assumptions C71_empty_refuted.
Print Assumptions C71_offset_refuted.
Print Assumptions C71_round_trip.
Print Assumptions C71_round_trip_offs.
Print Assumptions C71_unique.
Print Assumptions C71_round_trip_refuted.
Print Assumptions C71_missing.
Print Assumptions C71_unknown.
Definition ex_tab := [Sym 0 (s2z "E::P_NONE"); Sym 1 (s2z "E::P_A"); Sym 2 (s2z "E::P_B"); Sym 3 (s2z "E::P_AB"); Sym 4 (s2z "E::P_C")].
Definition ex_o := Offs 3 5.
Example C71_ex1 : str2e ex_o ex_tab (s2z "E::P_B") = Ok 2 /\ str2e ex_o ex_tab (s2z "P_B") = Ok 2 /\
  str2e ex_o ex_tab (s2z "B") = Ok 2 /\ str2e ex_o ex_tab (s2z "::P_B") = Err.
Proof. repeat split; reflexivity. Qed.
Example C71_ex2 : e2stroffs ex_o ex_tab 3 OCls = Ok (s2z "P_AB") /\ e2stroffs ex_o ex_tab 3 OPfx = Ok (s2z "AB") /\ e2str ex_tab 9 = Err.
Proof. repeat split; reflexivity. Qed.
(** the tail is compared exactly, the name only as far as the text goes *)
Example C71_ex3 : find_n ex_o ex_tab (s2z "AB") = Ok (Some (Sym 3 (s2z "E::P_AB"))) /\
  find_n ex_o ex_tab (s2z "E::P_A") = Ok (Some (Sym 1 (s2z "E::P_A"))) /\
  find_n ex_o ex_tab (s2z "E::P") = Ok (Some (Sym 0 (s2z "E::P_NONE"))) /\ find_n ex_o ex_tab (s2z "P") = Ok None.
Proof. repeat split; reflexivity. Qed.
Example C71_ex4 : offs_ok ex_o ex_tab.
Proof.
  split; [cbn; lia|]. split; [cbn; lia|]. intros p [<-|[<-|[<-|[<-|[<-|[]]]]]]; vm_compute; split; reflexivity.
Qed.

(** ** C72: bitmasks *)
(** bm2str writes names of the table, in its order, whose values make up the bits, reports the
    size with the terminator, the same with and without a buffer, and writes nothing behind
    it; or it fails, with any buffer. *)
Theorem C72_bm2str : forall t o w tab bits, offs_ok o tab -> Forall (fun p => in_range t (sval p)) tab -> in_range t bits ->
  text_bound tab + 1 < 2 ^ 64 ->
  (exists s, names_bits o w tab bits s /\ forall str,
     bm2str t o tab bits str w = if room str (len s + 1) then Ok (len s + 1, written str (s ++ [0])) else Err)
  \/ (bits <> 0 /\ forall str, bm2str t o tab bits str w = Err).
Proof. exact bm2str_spec. Qed.
(** It does not fail if there is a symbol for each single bit. *)
Theorem C72_complete : forall t o w tab bits, offs_ok o tab -> Forall (fun p => in_range t (sval p)) tab -> in_range t bits ->
  text_bound tab + 1 < 2 ^ 64 ->
  (forall i, 0 <= i -> Z.testbit bits i = true -> exists p, In p tab /\ sval p = 2 ^ i) ->
  exists s, names_bits o w tab bits s /\ bm2str t o tab bits None w = Ok (len s + 1, None).
Proof. exact bm2str_complete. Qed.
(** It may fail although names for the bits exist. *)
Theorem C72_greedy_refuted : exists tab bits s, names_bits (Offs 0 0) ONone tab bits s /\
  bm2str u32t (Offs 0 0) tab bits None ONone = Err.
Proof.
  exists [Sym 3 (s2z "A"); Sym 6 (s2z "B")], 7, (s2z "A|B"). split; [|reflexivity].
  exists [Sym 3 (s2z "A"); Sym 6 (s2z "B")]. split; [apply sub_take, sub_take, sub_nil|].
  split; [apply Forall_cons; [cbn; lia|apply Forall_cons; [cbn; lia|apply Forall_nil]]|]. split; reflexivity.
Qed.
(** The stream gets the names in the reverse order, if bm2str can write them; *)
Theorem C72_bm2stream : forall t o w tab bits, offs_ok o tab -> Forall (fun p => in_range t (sval p)) tab -> in_range t bits ->
  (exists n str, bm2str t o tab bits None w = Ok (n, str)) -> text_bound tab + 1 < 2 ^ 64 ->
  exists s, bm2stream t o tab bits w = Ok s /\ names_bits o w (rev tab) bits s.
Proof. exact bm2stream_spec. Qed.
(** if not, the bits without a name are dropped without notice. *)
Theorem C72_stream_refuted : exists tab bits bits' s, bm2stream u32t (Offs 0 0) tab bits ONone = Ok s /\
  names_bits (Offs 0 0) ONone tab bits' s /\ bits' <> bits /\ bm2str u32t (Offs 0 0) tab bits None ONone = Err.
Proof.
  exists [Sym 1 (s2z "A")], 5, 1, (s2z "A"). split; [reflexivity|]. split; [|split; [lia|reflexivity]].
  exists [Sym 1 (s2z "A")]. split; [apply sub_take, sub_nil|].
  split; [apply Forall_cons; [cbn; lia|apply Forall_nil]|]. split; reflexivity.
Qed.
(** Reading the text of bm2str and of bm2stream gives the bits, for names of letters,
    underscores and colons none of which is the beginning of another. *)
Theorem C72_round_trip_partial : forall t o w tab bits s, offs_ok o tab -> distinct_names o w tab ->
  (forall p, In p tab -> word (short o w p)) -> Forall (fun p => in_range t (sval p)) tab ->
  names_bits o w tab bits s \/ names_bits o w (rev tab) bits s -> str2bm t o tab s = Ok bits.
Proof.
  intros t o w tab bits s O D W R [N|N].
  - apply (round_trip t o w tab tab); auto.
  - apply (round_trip t o w tab (rev tab)); auto. intros p. rewrite <- in_rev. auto.
Qed.
(** Reading a list of items, names or numbers, gives the OR of their values. *)
Theorem C72_reads : forall t o tab ss vs, offs_ok o tab -> Forall2 (item t o tab) ss vs -> Forall small ss ->
  Forall (fun v => in_range t v) vs -> ss <> [] -> str2bm t o tab (join ss) = Ok (fold_left Z.lor vs 0).
Proof. intros t o tab ss vs O H S R N. exact (items_ok t o tab ss vs O H S R N 0 None (in_range0 t)). Qed.
(** An unknown name or an empty item anywhere is refused. *)
Theorem C72_rejects : forall t o tab ss vs s rest, offs_ok o tab -> Forall2 (item t o tab) ss vs -> Forall small ss -> bad_item o tab s ->
  ss ++ rest <> [] \/ s <> [] -> str2bm t o tab (join (ss ++ s :: rest)) = Err.
Proof. intros t o tab ss vs s rest O H S B N. apply (bad_later t o tab ss vs s rest O H S B 0 None). tauto. Qed.
(** A digit in a name is refused. *)
Theorem C72_digit_refuted : exists tab bits s, names_bits (Offs 0 0) ONone tab bits s /\ distinct_names (Offs 0 0) ONone tab /\
  bm2str u32t (Offs 0 0) tab bits None ONone = Ok (len s + 1, None) /\ str2bm u32t (Offs 0 0) tab s = Err.
Proof.
  exists [Sym 1 (s2z "FOO1")], 1, (s2z "FOO1"). split.
  { exists [Sym 1 (s2z "FOO1")]. split; [apply sub_take, sub_nil|].
    split; [apply Forall_cons; [cbn; lia|apply Forall_nil]|]. split; reflexivity. }
  split; [|split; reflexivity]. intros p q [<-|[]] [<-|[]] _. reflexivity.
Qed.
(** A name at the beginning of another is taken for the other. *)
Theorem C72_prefix_refuted : exists tab bits s, names_bits (Offs 0 0) ONone tab bits s /\ NoDup (map sname tab) /\
  (forall p, In p tab -> word (sname p)) /\
  bm2str u32t (Offs 0 0) tab bits None ONone = Ok (len s + 1, None) /\ exists b, str2bm u32t (Offs 0 0) tab s = Ok b /\ b <> bits.
Proof.
  exists [Sym 1 (s2z "FOO_BAR"); Sym 2 (s2z "FOO")], 2, (s2z "FOO"). split.
  { exists [Sym 2 (s2z "FOO")]. split; [apply sub_skip, sub_take, sub_nil|].
    split; [apply Forall_cons; [cbn; lia|apply Forall_nil]|]. split; reflexivity. }
  split. { cbn. constructor; [|constructor; [|constructor]]; cbn; [|tauto]. intros [H|[]]. discriminate. }
  split. { intros p [<-|[<-|[]]]; eexists; eexists; (split; [reflexivity|]); (split; [unfold letter; cbn; lia|]); repeat (apply Forall_cons; [left; unfold letter; cbn; lia|]); apply Forall_nil. }
  split; [reflexivity|]. exists 1. split; [reflexivity|lia].
Qed.
(** Blanks are allowed by the parser but become part of the names. *)
Theorem C72_blank_refuted : exists tab, str2bm u32t (Offs 0 0) tab (s2z "A|B") = Ok 3 /\
  str2bm u32t (Offs 0 0) tab (s2z "A | B") = Err /\ str2bm u32t (Offs 0 0) tab (s2z "A| B") = Ok 3.
Proof. exists [Sym 1 (s2z "A"); Sym 2 (s2z "B")]. repeat split; reflexivity. Qed.
(** With several symbols for zero, bm2str writes the first and bm2stream the last. *)
Theorem C72_zero_refuted : exists tab, bm2stream u32t (Offs 0 0) tab 0 ONone = Ok (s2z "BB") /\
  bm2str u32t (Offs 0 0) tab 0 (Some [1; 1; 1; 1]) ONone = Ok (2, Some [ch "A"; 0; 1; 1]).
Proof. exists [Sym 0 (s2z "A"); Sym 0 (s2z "BB")]. split; reflexivity. Qed.
Print Assumptions C72_bm2str.
Print Assumptions C72_complete.
Print Assumptions C72_greedy_refuted.
Print Assumptions C72_bm2stream.
Print Assumptions C72_stream_refuted.
Print Assumptions C72_round_trip_partial.
Print Assumptions C72_reads.
Print Assumptions C72_rejects.
Print Assumptions C72_digit_refuted.
Print Assumptions C72_prefix_refuted.
Print Assumptions C72_blank_refuted.
Print Assumptions C72_zero_refuted.
Example C72_ex1 : bm2str u8t ex_o ex_tab 7 (Some (repeat 9 8)) OPfx = Ok (5, Some (s2z "AB|C" ++ [0; 9; 9; 9])) /\
  bm2str u8t ex_o ex_tab 7 None OPfx = Ok (5, None) /\ bm2str u8t ex_o ex_tab 7 (Some (repeat 9 4)) OPfx = Err /\
  bm2stream u8t ex_o ex_tab 7 OPfx = Ok (s2z "C|AB").
Proof. repeat split; reflexivity. Qed.
Example C72_ex2 : bm2str u8t ex_o ex_tab 0 None OCls = Ok (7, None) /\ bm2str u8t ex_o ex_tab 8 None OCls = Err.
Proof. split; reflexivity. Qed.
Example C72_ex3 : str2bm u8t ex_o ex_tab (s2z "E::P_C|B|4|0x10") = Ok 22.
Proof. reflexivity. Qed.
Example C72_ex4 : str2bm u8t ex_o ex_tab (s2z "A|") = Err /\ str2bm u8t ex_o ex_tab (s2z "0xab") = Err /\ str2bm u8t ex_o ex_tab [] = Ok 0.
Proof. repeat split; reflexivity. Qed.
Example C72_ex5 : bm2str i8 (Offs 0 0) [Sym (-128) (s2z "HI"); Sym 1 (s2z "LO")] (-127) None ONone = Ok (6, None) /\
  str2bm i8 (Offs 0 0) [Sym (-128) (s2z "HI"); Sym 1 (s2z "LO")] (s2z "HI|LO") = Ok (-127).
Proof. split; reflexivity. Qed.
Example C72_ex6 : Forall2 (item u8t ex_o ex_tab) [s2z "B"; s2z "4"; s2z "0x10"] [2; 4; 16] /\ bad_item ex_o ex_tab (s2z "Q") /\
  str2bm u8t ex_o ex_tab (s2z "B|4|0x10|Q") = Err /\ str2bm u8t ex_o ex_tab (s2z "B||4") = Err.
Proof.
  assert (forall c, letter c -> word [c]) as W by (intros c L; exists c, []; split; [reflexivity|split; [exact L|apply Forall_nil]]).
  split; [|split; [|split; reflexivity]].
  - apply Forall2_cons; [|apply Forall2_cons; [|apply Forall2_cons; [|apply Forall2_nil]]].
    + assert (word (s2z "B")) as WB by (apply W; unfold letter; cbn; lia).
      change 2 with (sval (Sym 2 (s2z "E::P_B"))). apply it_name; [exact WB|].
      destruct (find_n_ok ex_o ex_tab (s2z "B") C71_ex4 (word_cstring _ WB)) as [r [E F]]. vm_compute in E. inversion E; subst. exact F.
    + apply it_dec; [split; [discriminate|exists [4]; split; [repeat constructor; vm_compute; intuition congruence|reflexivity]]| |vm_compute; intuition congruence].
      apply Forall_cons; [split; vm_compute; congruence|apply Forall_nil].
    + apply (it_hex _ _ _ (ch "x") (s2z "10")); [left; reflexivity|split; [discriminate|exists [1; 0]; split; [repeat constructor; vm_compute; intuition congruence|reflexivity]]| |vm_compute; intuition congruence].
      apply Forall_cons; [split; vm_compute; congruence|]. apply Forall_cons; [split; vm_compute; congruence|apply Forall_nil].
  - assert (word (s2z "Q")) as WQ by (apply W; unfold letter; cbn; lia). apply bad_name; [exact WQ|].
    destruct (find_n_ok ex_o ex_tab (s2z "Q") C71_ex4 (word_cstring _ WQ)) as [r [E F]]. vm_compute in E. inversion E; subst. exact F.
Qed.
