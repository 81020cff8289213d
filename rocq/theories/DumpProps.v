(** Properties C48-C51: dumping through a callback. *)
From Coq Require Import Sorted.
From Verif Require Import Base BaseLemmas CharconvModel CharconvSpec CharconvProofs5 SubstrModel SubstrSpec SpanNumModel SpanNumSpec Base64Model Base64Spec FormatModel FormatSpec FormatProofs FormatProofs2 FormatProofs3 FormatProofs4 DumpModel DumpSpec DumpProofs DumpProofs2 DumpProofs3 DumpProofs4.

(** ** C48: a sufficient buffer: the chunks are the texts, in order *)
(** all argument kinds, one chunk per argument *)
Theorem C48_cat_dump : forall dbg al ts m b, Forall2 arg_text al ts -> vin b m -> 0 < vl b < 2 ^ 64 -> enough_for (vl b) al ts ->
  exists m' n, cat_dump dbg m b al = Ok (m', ts, n) /\ same_outside m m' b /\ largest n (sizes al ts).
Proof. intros. apply cat_dump_fits; auto; [lia|]. apply all_fit; auto. lia. Qed.
Print Assumptions C48_cat_dump.
Theorem C48_catsep_dump : forall dbg sep st al ts m b, arg_text sep st -> Forall2 arg_text al ts -> vin b m -> 0 < vl b < 2 ^ 64 ->
  vsize sep st <= vl b -> enough_for (vl b) al ts ->
  exists m' n, catsep_dump dbg m b sep al = Ok (m', intersperse st ts, n) /\ same_outside m m' b /\
    largest n (sizes (intersperse sep al) (intersperse st ts)).
Proof.
  intros dbg sep st al ts m b Ts T V B Es E. rewrite catsep_dump_eq. apply cat_dump_fits; auto; try lia; [apply intersperse_text; auto|].
  apply all_fit; [lia|]. apply intersperse_Forall2; auto.
Qed.
Print Assumptions C48_catsep_dump.
(** the chunks are the pieces of the format, empty literals left out; joined they are the
    text that [format] writes. An argument without placeholder is not needed. *)
Theorem C48_format_dump : forall dbg f ts out al m b, fmt_subst f ts out -> Forall2 arg_text al ts -> small f -> vin b m -> 0 < vl b < 2 ^ 64 ->
  enough_for (vl b) al ts ->
  exists m' ps pts n, fmt_chunks f al ps /\ Forall2 arg_text ps pts /\ concat pts = out /\
    format_dump dbg m b f al = Ok (m', pts, n) /\ same_outside m m' b /\ largest n (sizes ps pts).
Proof.
  intros dbg f ts out al m b S T L V B E. destruct (chunks_of f ts out S al T) as (ps & pts & H1 & H2 & H3 & H4).
  destruct (cat_dump_fits dbg ps pts H2 m b) as (m' & n & G1 & G2 & G3); auto; try lia.
  { apply all_fit; [lia|]. apply H4; auto. intros s. cbn. lia. }
  exists m', ps, pts, n. repeat (split; auto). rewrite <- G1. apply format_dump_eq; auto. lia.
Qed.
Print Assumptions C48_format_dump.
(** agreement with [cat]: same text *)
Theorem C48_same_as_cat : forall dbg al ts m b m2 b2, Forall2 arg_text al ts -> vin b m -> 0 < vl b < 2 ^ 64 -> enough_for (vl b) al ts ->
  vin b2 m2 -> vl b2 < 2 ^ 64 -> len (concat ts) <= vl b2 ->
  exists m' tr n m2' n2, cat_dump dbg m b al = Ok (m', tr, n) /\ cat dbg m2 b2 al = Ok (m2', n2) /\
    concat tr = contents m2' (View (vo b2) n2).
Proof.
  intros dbg al ts m b m2 b2 T V B E V2 B2 L. destruct (C48_cat_dump dbg al ts m b) as (m' & n & H & _); auto.
  exists m', ts, n, (blit m2 (vo b2) (concat ts)), (len (concat ts)). split; auto. split; [apply cat_fits; auto|].
  symmetry. apply slice_blit; destruct V2 as (? & ? & ?); lia.
Qed.
Print Assumptions C48_same_as_cat.
Example C48_ex1 : cat_dump true (repeat 0 6) (View 1 4) [AStr (s2z "a string longer than the buffer "); AInt i32 (-12); AChar (ch "x"); ABoolAlpha true] =
  Ok ([0; 116; 114; 117; 101; 0], [s2z "a string longer than the buffer "; s2z "-12"; s2z "x"; s2z "true"], 4).
Proof. reflexivity. Qed.
Example C48_ex2 : catsep_dump true (repeat 0 3) (View 0 3) (AStr (s2z ", ")) [AInt i32 10; ACstr (s2z "abc"); AInt i64 7] =
  Ok (s2z "7bc", [s2z "10"; s2z ", "; s2z "abc"; s2z ", "; s2z "7"], 3).
Proof. reflexivity. Qed.
Example C48_ex3 : format_dump true (repeat 0 3) (View 0 3) (s2z "{}={}; {}") [AStr (s2z "key"); AInt i32 123] =
  Ok (s2z "123", [s2z "key"; s2z "="; s2z "123"; s2z "; {}"], 3).
Proof. reflexivity. Qed.

(** ** C49: a buffer that is too small *)
(** exactly the texts before the first argument that does not fit are emitted (as text:
    empty chunks may follow), and the returned size is the largest of all *)
Theorem C49_cat_dump : forall dbg al ts m b, Forall2 arg_text al ts -> vin b m -> vl b < 2 ^ 64 -> Forall (safe_in (vl b)) al ->
  exists m' tr n ts1, cat_dump dbg m b al = Ok (m', tr, n) /\ same_outside m m' b /\ fit_prefix (vl b) al ts ts1 /\
    concat tr = concat ts1 /\ largest n (sizes al ts).
Proof. intros. apply cat_dump_any; auto. Qed.
Print Assumptions C49_cat_dump.
Theorem C49_catsep_dump : forall dbg sep st al ts m b, arg_text sep st -> Forall2 arg_text al ts -> vin b m -> vl b < 2 ^ 64 ->
  safe_in (vl b) sep -> Forall (safe_in (vl b)) al ->
  exists m' tr n ts1, catsep_dump dbg m b sep al = Ok (m', tr, n) /\ same_outside m m' b /\
    fit_prefix (vl b) (intersperse sep al) (intersperse st ts) ts1 /\ concat tr = concat ts1 /\
    largest n (sizes (intersperse sep al) (intersperse st ts)).
Proof. intros. rewrite catsep_dump_eq. apply cat_dump_any; auto; [apply intersperse_text|apply intersperse_Forall]; auto. Qed.
Print Assumptions C49_catsep_dump.
Theorem C49_format_dump : forall dbg f ts out al m b, fmt_subst f ts out -> Forall2 arg_text al ts -> small f -> vin b m -> vl b < 2 ^ 64 ->
  Forall (safe_in (vl b)) al ->
  exists m' ps pts tr n ts1, fmt_chunks f al ps /\ Forall2 arg_text ps pts /\ concat pts = out /\
    format_dump dbg m b f al = Ok (m', tr, n) /\ same_outside m m' b /\
    fit_prefix (vl b) ps pts ts1 /\ concat tr = concat ts1 /\ largest n (sizes ps pts).
Proof.
  intros dbg f ts out al m b S T L V B SF. destruct (chunks_of f ts out S al T) as (ps & pts & H1 & H2 & H3 & H4).
  assert (SP : Forall (safe_in (vl b)) ps).
  { assert (X : Forall2 (fun a _ => safe_in (vl b) a) ps pts).
    { apply H4; [|intros; apply simple_safe; exact I]. clear - SF T. induction T; constructor; inversion SF; subst; auto. }
    clear - X. induction X; constructor; auto. }
  destruct (cat_dump_any dbg ps pts H2 m b) as (m' & tr & n & ts1 & G1 & G2 & G3 & G4 & G5); auto.
  exists m', ps, pts, tr, n, ts1. repeat (split; auto). rewrite <- G1. apply format_dump_eq; auto. destruct V as (? & ? & ?); lia.
Qed.
Print Assumptions C49_format_dump.
(** a second call with a non-empty buffer of at least the returned size emits everything *)
Theorem C49_second_call_partial : forall dbg al ts m b m' tr n m2 b2, Forall2 arg_text al ts -> vin b m -> vl b < 2 ^ 64 -> Forall (safe_in (vl b)) al ->
  cat_dump dbg m b al = Ok (m', tr, n) -> vin b2 m2 -> n <= vl b2 -> 0 < vl b2 < 2 ^ 64 ->
  exists m3 n2, cat_dump dbg m2 b2 al = Ok (m3, ts, n2).
Proof.
  intros dbg al ts m b m' tr n m2 b2 T V B SF E V2 L2 B2.
  destruct (cat_dump_any dbg al ts T m b) as (m0 & tr0 & n0 & ts1 & G1 & G2 & G3 & G4 & G5); auto. rewrite G1 in E. inversion E; subst.
  destruct (C48_cat_dump dbg al ts m2 b2) as (m3 & n2 & H & _); auto; [|exists m3, n2; auto].
  eapply enough_mono; [exact L2|]. apply largest_enough; auto.
Qed.
Print Assumptions C49_second_call_partial.
(** with strings only and an empty buffer the returned size is 0, and a second call of
    that size emits nothing either *)
Theorem C49_strings_refuted : forall dbg ss m b, vl b = 0 -> cat_dump dbg m b (map AStr ss) = Ok (m, [], 0).
Proof.
  intros dbg ss m b Z0. induction ss as [|s ss IH]; [reflexivity|]. cbn [map cat_dump dump]. rewrite Z0. cbn [bind].
  replace (shrink b 0) with b by (unfold shrink; rewrite Z0; reflexivity). replace (0 <? 0) with false by reflexivity. rewrite IH. reflexivity.
Qed.
Print Assumptions C49_strings_refuted.
Example C49_ex1 : cat_dump true (repeat 0 2) (View 0 2) [AStr (s2z "n="); AInt i32 12; AInt i32 12345; AInt i32 7; AStr (s2z "end")] =
  Ok (repeat 49 1 ++ [50], [s2z "n="; s2z "12"], 5).
Proof. reflexivity. Qed.
Example C49_ex2 : cat_dump true [] (View 0 0) [AStr (s2z "text")] = Ok ([], [], 0).
Proof. reflexivity. Qed.
Example C49_ex3 : format_dump true (repeat 0 2) (View 0 2) (s2z "{}={}; {}") [AStr (s2z "key"); AInt i32 123] = 
  Ok ([0; 0], [s2z "key"; s2z "="], 3).
Proof. reflexivity. Qed.

(** ** C50: cat_dump_resume and catsep_dump_resume *)
(** catsep_dump_resume, no string arguments or separators, no empty texts: over any
    sequence of buffers what has been emitted is a prefix of arguments and separators, in
    order, each once; a buffer large enough for every single one completes it.
    Missing: strings, see the refutation below *)
Theorem C50_catsep_values_partial : forall dbg sep st al ts m bs, arg_text sep st -> Forall2 arg_text al ts -> solid sep st -> Forall2 solid al ts ->
  simple sep -> Forall simple al -> al <> [] -> len al < 2 ^ 63 ->
  Forall (fun b => vin b m /\ vl b < 2 ^ 64) bs ->
  exists m' tr r' k, drive (fun r m b => catsep_dump_resume dbg r m b sep al) (2 * len al - 2) dres0 m bs = Ok (m', tr, r') /\
    0 <= k <= 2 * len al - 1 /\ tr = firstn (Z.to_nat k) (intersperse st ts) /\ lastok r' = u64 (k - 1) /\
    (Exists (fun b => enough_for (vl b) (intersperse sep al) (intersperse st ts)) bs -> k = 2 * len al - 1).
Proof. exact catsep_drive. Qed.
Print Assumptions C50_catsep_values_partial.
(** the reported buffer size is enough for a second call *)
Theorem C50_catsep_bufsize_partial : forall dbg sep st al ts m b1, arg_text sep st -> Forall2 arg_text al ts -> solid sep st -> Forall2 solid al ts ->
  simple sep -> Forall simple al -> len al < 2 ^ 63 -> vin b1 m -> vl b1 < 2 ^ 64 ->
  exists m1 tr1 r1, catsep_dump_resume dbg dres0 m b1 sep al = Ok (m1, tr1, r1) /\
    forall b2, vin b2 m1 -> vl b2 < 2 ^ 64 -> bufsize r1 <= vl b2 ->
    exists m2 tr2 r2, catsep_dump_resume dbg r1 m1 b2 sep al = Ok (m2, tr2, r2) /\ tr1 ++ tr2 = intersperse st ts.
Proof. exact catsep_twice. Qed.
Print Assumptions C50_catsep_bufsize_partial.
(** cat_dump_resume, exactly: a call in the state "[k] arguments done" emits all the
    remaining arguments that fit, also those behind one that does not; only the ones
    before that one count as done *)
Theorem C50_cat_call : forall dbg al ts, Forall2 arg_text al ts -> Forall simple al -> len al < 2 ^ 64 - 1 ->
  forall k r m b, vin b m -> 0 < vl b < 2 ^ 64 -> lastok r = u64 (k - 1) -> 0 <= k <= len al -> bufsize r <= vl b ->
  exists m' tr ts1 bs, cat_dump_resume dbg r m b al = Ok (m', tr, DRes bs (u64 (k + len ts1 - 1))) /\ same_outside m m' b /\
    fit_some (vl b) (skipn (Z.to_nat k) al) (skipn (Z.to_nat k) ts) tr /\
    fit_prefix (vl b) (skipn (Z.to_nat k) al) (skipn (Z.to_nat k) ts) ts1 /\
    enough_for bs (skipn (Z.to_nat k) al) (skipn (Z.to_nat k) ts) /\
    (forall M, bufsize r <= M -> enough_for M al ts -> bs <= M).
Proof. exact cat_call. Qed.
Print Assumptions C50_cat_call.
(** so every argument is emitted once and in order when the needed space does not
    decrease from one argument to the next (strings need none) *)
Theorem C50_cat_sorted_partial : forall dbg al ts m bs, Forall2 arg_text al ts -> StronglySorted Z.le (sizes al ts) -> Forall simple al -> al <> [] -> len al < 2 ^ 64 - 1 ->
  Forall (fun b => vin b m /\ 0 < vl b < 2 ^ 64) bs ->
  exists m' tr r' k, drive (fun r m b => cat_dump_resume dbg r m b al) (len ts - 1) dres0 m bs = Ok (m', tr, r') /\
    0 <= k <= len ts /\ tr = firstn (Z.to_nat k) ts /\ lastok r' = u64 (k - 1) /\
    (Exists (fun b => enough_for (vl b) al ts) bs -> k = len ts).
Proof. exact cat_drive. Qed.
Print Assumptions C50_cat_sorted_partial.
(** otherwise: an argument that does not fit, followed by one that does. The second is
    emitted by the first call, and again, after the first argument, by the second call *)
Theorem C50_cat_order_refuted : forall dbg a1 t1 a2 t2 m b b2, arg_text a1 t1 -> arg_text a2 t2 -> simple a1 -> simple a2 ->
  vin b m -> 0 < vl b < vsize a1 t1 -> vsize a2 t2 <= vl b -> vin b2 m -> vsize a1 t1 <= vl b2 < 2 ^ 64 ->
  exists m' r', drive (fun r m b => cat_dump_resume dbg r m b [a1; a2]) 1 dres0 m [b; b2] = Ok (m', [t2; t1; t2], r') /\ lastok r' = 1.
Proof.
  intros dbg a1 t1 a2 t2 m b b2 T1 T2 S1 S2 V B L2 V2 B2.
  destruct (cat_call dbg [a1; a2] [t1; t2]) with (k := 0) (r := dres0) (m := m) (b := b) as (m1 & tr & ts1 & bs & H1 & H2 & H3 & H4 & H5 & H6);
    try solve [repeat constructor; auto | cbn; lia | reflexivity | auto].
  change (skipn (Z.to_nat 0) [a1; a2]) with [a1; a2] in *. change (skipn (Z.to_nat 0) [t1; t2]) with [t1; t2] in *.
  assert (ts1 = []). { inversion H4; subst; auto. match goal with X : fits _ _ _ |- _ => rewrite fits_size in X; lia end. } subst ts1.
  assert (tr = [t2]).
  { inversion H3 as [|? ? ? ? ? F1 X|? ? ? ? ? F1 X]; subst; [|rewrite fits_size in F1; lia].
    inversion X as [|? ? ? ? ? F2 Y|? ? ? ? ? F2 Y]; subst; [rewrite fits_size in F2; lia|]. inversion Y; subst. auto. } subst tr.
  assert (BS : bs <= vl b2). { apply H6; [cbn; lia|]. repeat constructor; lia. }
  cbn [drive]. rewrite H1. cbn [bind]. change (u64 (0 + len (@nil (list Z)) - 1)) with noarg in *. unfold success_until at 1. cbn [lastok]. rewrite Z.eqb_refl.
  destruct (cat_call dbg [a1; a2] [t1; t2]) with (k := 0) (r := DRes bs noarg) (m := m1) (b := b2) as (m2 & tr & ts1 & bs2 & G1 & G2 & G3 & G4 & G5 & G6);
    try solve [repeat constructor; auto | cbn; lia | reflexivity | auto | eapply outside_vin; eauto | lia].
  change (skipn (Z.to_nat 0) [a1; a2]) with [a1; a2] in *. change (skipn (Z.to_nat 0) [t1; t2]) with [t1; t2] in *.
  assert (FA : Forall2 (fits (vl b2)) [a1; a2] [t1; t2]) by (repeat constructor; apply fits_size; lia).
  assert (ts1 = [t1; t2]) by (eapply prefix_all; eauto). subst ts1.
  assert (tr = [t1; t2]).
  { inversion FA as [|? ? ? ? Q1 Q2]; subst. inversion Q2 as [|? ? ? ? Q3 _]; subst.
    inversion G3 as [|? ? ? ? ? F1 X|? ? ? ? ? F1 X]; subst; [contradiction|].
    inversion X as [|? ? ? ? ? F2 Y|? ? ? ? ? F2 Y]; subst; [contradiction|]. inversion Y; subst. auto. } subst tr.
  rewrite G1. cbn [bind]. change (u64 (0 + len [t1; t2] - 1)) with 1 in *. unfold success_until. cbn [lastok]. change (1 =? noarg) with false. cbn [bind].
  exists m2, (DRes bs2 1). split; reflexivity.
Qed.
Print Assumptions C50_cat_order_refuted.
(** a string with an empty buffer counts as done without having been emitted *)
Theorem C50_cat_empty_refuted : forall dbg s m b, vl b = 0 ->
  cat_dump_resume dbg dres0 m b [AStr s] = Ok (m, [], DRes 0 0) /\
  forall b2, 0 <= vl b2 -> cat_dump_resume dbg (DRes 0 0) m b2 [AStr s] = Ok (m, [], DRes 0 0).
Proof.
  intros dbg s m b Z0. split.
  - unfold cat_dump_resume. cbn [bufsize dres0]. rewrite Z0. cbn. rewrite Z0. reflexivity.
  - intros b2 B. unfold cat_dump_resume. cbn [bufsize]. replace (vl b2 <? 0) with false by lia. reflexivity.
Qed.
Print Assumptions C50_cat_empty_refuted.
(** catsep_dump_resume with a string separator: an argument that does not fit is lost,
    because the separator after it counts as done *)
Theorem C50_catsep_lost_refuted : forall dbg a1 t1 a2 t2 sep m b b2, arg_text a1 t1 -> arg_text a2 t2 -> simple a1 -> simple a2 ->
  vin b m -> vl b < vsize a1 t1 -> 0 < vsize a2 t2 -> vin b2 m -> vl b2 < 2 ^ 64 -> vsize a1 t1 <= vl b2 -> vsize a2 t2 <= vl b2 ->
  exists m' r', drive (fun r m b => catsep_dump_resume dbg r m b (AStr sep) [a1; a2]) 2 dres0 m [b; b2] = Ok (m', [t2], r') /\ lastok r' = 2.
Proof.
  intros dbg a1 t1 a2 t2 sep m b b2 T1 T2 S1 S2 V L1 L2 V2 B2 E1 E2. cbn [drive]. unfold catsep_dump_resume. cbn [catsep_dump_resume_].
  destruct (step_small dbg 0 dres0 m b a1 t1) as (m1 & -> & O1); auto; [lia|apply simple_safe; auto|]. cbn [bind bufsize lastok dres0].
  change (0 + 1) with 1. change (0 + 2) with 2.
  assert (catsep_dump_resume1 dbg 1 (DRes (Z.max (vsize a1 t1) 0) noarg) m1 (zero b) (AStr sep) = Ok (m1, zero b, [], DRes (Z.max (vsize a1 t1) 0) 1)) as ->.
  { unfold catsep_dump_resume1. cbn [write_arg lastok dump zero vl bind bufsize]. change (noarg =? noarg) with true. cbn [orb].
    change (0 <=? 0) with true. change (0 <? 0) with false. rewrite zmax_max. replace (Z.max 0 (Z.max (vsize a1 t1) 0)) with (Z.max (vsize a1 t1) 0) by lia. reflexivity. }
  cbn [bind]. destruct (step_small dbg 2 (DRes (Z.max (vsize a1 t1) 0) 1) m1 (zero b) a2 t2) as (m2 & -> & O2);
    auto; try (cbn [zero vl]; lia); [apply vin_zero; eapply outside_vin; eauto|apply simple_safe; auto|]. cbn [bind app bufsize lastok].
  unfold success_until at 1. cbn [lastok]. change (1 =? noarg) with false. change (2 <=? 1) with false. cbn [bind].
  rewrite step_skip by reflexivity. cbn [bind]. rewrite step_skip by reflexivity. cbn [bind].
  destruct (step_fits dbg 2 (DRes (Z.max (vsize a2 t2) (Z.max (vsize a1 t1) 0)) 1) m2 b2 a2 t2) as (m3 & -> & O3); auto.
  { eapply outside_vin; [eauto|]. eapply outside_vin; eauto. } { apply fits_size; lia. }
  cbn [bind app]. unfold success_until. cbn [lastok]. change (2 =? noarg) with false. change (2 <=? 2) with true. cbv iota.
  exists m3. eexists. split; reflexivity.
Qed.
Print Assumptions C50_catsep_lost_refuted.
Definition mem8 : list Z := repeat 0 8.
Example C50_ex1 : exists m r, drive (fun r m b => catsep_dump_resume true r m b (AChar (ch ",")) [AInt i32 1; AInt i32 23; AInt i32 456]) 4 dres0 mem8
  [View 0 0; View 0 1; View 3 2; View 3 2; View 0 5] = Ok (m, map s2z ["1"; ","; "23"; ","; "456"]%string, r).
Proof. eexists. eexists. reflexivity. Qed.
Example C50_ex2 : exists m r, drive (fun r m b => cat_dump_resume true r m b [AInt i32 12345; AChar (ch "x")]) 1 dres0 mem8
  [View 0 2; View 0 5] = Ok (m, map s2z ["x"; "12345"; "x"]%string, r).
Proof. eexists. eexists. reflexivity. Qed.
Example C50_ex3 : exists m r, drive (fun r m b => catsep_dump_resume true r m b (AStr (s2z ", ")) [AInt i32 12345; AInt i32 7]) 2 dres0 mem8
  [View 0 2; View 0 5] = Ok (m, map s2z ["7"]%string, r).
Proof. eexists. eexists. reflexivity. Qed.
Example C50_ex4 : exists m r, drive (fun r m b => cat_dump_resume true r m b [AStr (s2z "n = "); AInt i32 12; AInt i32 345]) 2 dres0 mem8
  [View 0 1; View 0 2; View 0 5] = Ok (m, map s2z ["n = "; "12"; "345"]%string, r).
Proof. eexists. eexists. reflexivity. Qed.

(** ** C51: format_dump_resume *)
(** no string arguments, no empty texts: until the last piece is out (as many pieces as
    placeholders with an argument, twice, plus one), what has been emitted over any
    sequence of buffers is a prefix of the pieces, in order, each once, and a sufficient
    buffer completes it; formats with fewer placeholders than arguments included *)
Theorem C51_values_partial : forall dbg f al ps ts pts m bs, fmt_pieces f al ps -> small f -> Forall2 arg_text al ts -> Forall2 solid al ts -> Forall2 arg_text ps pts ->
  Forall simple al -> len ps < 2 ^ 64 - 1 -> Forall (fun b => vin b m /\ vl b < 2 ^ 64) bs ->
  exists m' tr r' k, drive (fun r m b => format_dump_resume dbg r m b f al) (len ps - 1) dres0 m bs = Ok (m', tr, r') /\
    0 <= k <= len ps /\ tr = firstn (Z.to_nat k) pts /\ lastok r' = u64 (k - 1) /\
    (Exists (fun b => 0 < vl b /\ enough_for (vl b) ps pts) bs -> k = len ps).
Proof. exact fmt_drive. Qed.
Print Assumptions C51_values_partial.
(** the pieces exist for every format and joined are the text [format] writes *)
Theorem C51_pieces : forall f ts out al, fmt_subst f ts out -> Forall2 arg_text al ts ->
  exists ps pts, fmt_pieces f al ps /\ Forall2 arg_text ps pts /\ concat pts = out.
Proof. intros f ts out al H. apply pieces_subst. exact H. Qed.
Print Assumptions C51_pieces.
(** a call after the last piece: the text behind the last placeholder comes again *)
Theorem C51_again_refuted : forall dbg f r m b, 0 < vl b ->
  format_dump_resume dbg r m b f [] = Ok (m, [f], DRes (bufsize r) 0).
Proof. intros dbg f r m b B. unfold format_dump_resume. cbn [format_dump_resume_]. replace (0 <? vl b) with true by lia. reflexivity. Qed.
Print Assumptions C51_again_refuted.
(** fewer placeholders than arguments: [lastok] stays below twice the number of
    arguments, and resuming drops one character of the format and emits an argument that
    has no placeholder; with an empty format it is an assertion failure or undefined *)
Theorem C51_fewer_refuted : forall dbg c a t m b, arg_text a t -> fits (vl b) a t -> vin b m -> 0 < vl b < 2 ^ 64 ->
  format_dump_resume dbg dres0 m b [c] [a] = Ok (m, [[c]], DRes 0 0) /\
  exists m', format_dump_resume dbg (DRes 0 0) m b [c] [a] = Ok (m', [t; []], DRes (vsize a t) 2).
Proof.
  intros dbg c a t m b T F V B.
  assert (N : find [c] (s2z "{}") (Some 0) = Ok None) by reflexivity.
  split.
  - unfold format_dump_resume. cbn [format_dump_resume_]. rewrite N. cbn [bind]. replace (0 <? vl b) with true by lia. reflexivity.
  - unfold format_dump_resume. cbn [format_dump_resume_]. rewrite N. cbn [bind]. change (write_arg (DRes 0 0) 0) with false. cbn [andb bind].
    change (u64 (npos + 2)) with 1. unfold sub_d, dassert. change (1 <=? len [c]) with true. rewrite orb_true_r. cbn [bind].
    change (len [c] <? vo (View 1 (u64 (len [c] - 1))) + vl (View 1 (u64 (len [c] - 1)))) with false. cbv iota.
    destruct (step_fits dbg (0 + 1) (DRes 0 0) m b a t) as (m' & -> & O); auto; [lia|]. cbn [bind format_dump_resume_].
    replace (0 <? vl b) with true by lia. cbn [bind app bufsize]. exists m'. pose proof (vsize_nonneg a t). rewrite Z.max_l by lia. reflexivity.
Qed.
Print Assumptions C51_fewer_refuted.
Theorem C51_fewer_assert_refuted : forall a b m, format_dump_resume true (DRes 0 0) m b [] [a] = Err /\ format_dump_resume false (DRes 0 0) m b [] [a] = Ub.
Proof. split; reflexivity. Qed.
Print Assumptions C51_fewer_assert_refuted.
(** with a string argument behind one that does not fit, the latter is lost *)
Theorem C51_lost_refuted : exists b b2 m, vin b m /\ vin b2 m /\ exists m' r',
  drive (fun r m b => format_dump_resume true r m b (s2z "<{}{}>") [AInt i32 12345; AStr (s2z "s")]) 4 dres0 m [b; b2] =
    Ok (m', map s2z ["<"; ">"]%string, r') /\ lastok r' = 4.
Proof.
  exists (View 0 2), (View 0 5), (repeat 0 5). split; [unfold vin; cbn; lia|]. split; [unfold vin; cbn; lia|].
  eexists. eexists. split; reflexivity.
Qed.
Print Assumptions C51_lost_refuted.
Example C51_ex1 : exists m r, drive (fun r m b => format_dump_resume true r m b (s2z "<{},{}>") [AInt i32 12; AInt i32 345; AInt i32 6]) 4 dres0 mem8
  [View 0 0; View 0 1; View 3 2; View 3 2; View 0 5; View 0 8] = Ok (m, map s2z ["<"; "12"; ","; "345"; ">"]%string, r).
Proof. eexists. eexists. reflexivity. Qed.
Example C51_ex2 : exists m r, drive (fun r m b => format_dump_resume true r m b (s2z "<>") [AInt i32 12]) 2 dres0 mem8
  [View 0 2; View 0 2] = Ok (m, map s2z ["<>"; "12"; ">"]%string, r).
Proof. eexists. eexists. reflexivity. Qed.
