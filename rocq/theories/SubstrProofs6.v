(** In-place edits and bracketed ranges. *)
From Verif Require Import Base BaseLemmas ScanModel CharconvSpec SubstrModel SubstrSpec SubstrProofs SubstrProofs2 SubstrProofs3 SubstrProofs4 SubstrProofs5.

(** ** reading and writing in a decomposed memory *)
Lemma rd_mid (a b : list Z) x : rd (a ++ x :: b) (len a) = Ok x.
Proof.
  pose proof (nonneg_len a). pose proof (nonneg_len b). rewrite rd_ok by (rewrite len_app, len_cons; lia).
  rewrite byte_at_app2, Z.sub_diag by lia. reflexivity.
Qed.
Lemma wr_mid (a b : list Z) x c : wr (a ++ x :: b) (len a) c = Ok (a ++ c :: b).
Proof.
  pose proof (nonneg_len a). pose proof (nonneg_len b). unfold wr.
  replace ((0 <=? len a) && (len a <? len (a ++ x :: b))) with true by (rewrite len_app, len_cons; lia).
  rewrite upd_app_r by (unfold len; lia). replace (Z.to_nat (len a) - length a)%nat with 0%nat by (unfold len; lia). reflexivity.
Qed.
Lemma blit_mid (a x y b : list Z) : len x = len y -> blit (a ++ x ++ b) (len a) y = a ++ y ++ b.
Proof.
  intros H. unfold blit. assert (length x = length y) by (unfold len in H; lia). rewrite to_nat_len.
  rewrite firstn_app, firstn_all, Nat.sub_diag. cbn [firstn]. rewrite app_nil_r. do 2 f_equal.
  rewrite app_assoc, skipn_app, app_length. replace (length a + length y - (length a + length x))%nat with 0%nat by lia.
  rewrite skipn_all2 by (rewrite app_length; lia). reflexivity.
Qed.
Lemma wrs_mid (a x y b : list Z) : len x = len y -> wrs (a ++ x ++ b) (len a) y = Ok (a ++ y ++ b).
Proof.
  intros H. pose proof (nonneg_len a). pose proof (nonneg_len b). rewrite wrs_ok; try lia; [rewrite blit_mid; auto|rewrite !len_app; lia].
Qed.
Lemma rds_mid (a x b : list Z) : rds (a ++ x ++ b) (len a) (len x) = Ok x.
Proof.
  pose proof (nonneg_len a). pose proof (nonneg_len b). pose proof (nonneg_len x). unfold rds. destruct (Z.leb_spec (len x) 0).
  - rewrite (len_0_nil x) by lia. reflexivity.
  - replace ((0 <=? len a) && (len a + len x <=? len (a ++ x ++ b))) with true by (rewrite !len_app; lia).
    rewrite slice_app_mid. reflexivity.
Qed.

(** ** toupper, tolower, fill *)
Lemma map_loop_ok f g (a b : list Z) v : forall todo done, vo v = len a -> vl v = len done + len todo -> (forall x, In x todo -> g x = Ok (f x)) ->
  map_loop (length todo) (len done) g (a ++ done ++ todo ++ b) v = Ok (a ++ done ++ map f todo ++ b).
Proof.
  induction todo as [|x todo IH]; intros done Hvo Hvl Hg; [reflexivity|]. cbn [length map_loop map].
  rewrite len_cons in Hvl. pose proof (nonneg_len done). pose proof (nonneg_len todo).
  unfold rdv, wrv. replace ((0 <=? len done) && (len done <? vl v)) with true by lia.
  replace (vo v + len done) with (len (a ++ done)) by (rewrite len_app; lia).
  rewrite app_assoc. cbn [app]. rewrite rd_mid. cbn [bind]. rewrite (Hg x) by (left; auto). cbn [bind]. rewrite wr_mid. cbn [bind].
  specialize (IH (done ++ [f x])). rewrite len_app in IH. change (len [f x]) with 1 in IH.
  rewrite <- !app_assoc in *. cbn [app] in *. rewrite IH; [|lia|lia|intros y Hy; apply Hg; right; auto]. rewrite <- ?app_assoc. reflexivity.
Qed.
Lemma map_all_ok f g (a c b : list Z) : (forall x, In x c -> g x = Ok (f x)) ->
  map_loop (Z.to_nat (vl (View (len a) (len c)))) 0 g (a ++ c ++ b) (View (len a) (len c)) = Ok (a ++ map f c ++ b).
Proof. intros H. cbn [vl]. rewrite to_nat_len. apply (map_loop_ok f g a b (View (len a) (len c)) c []); auto. Qed.
Lemma ctype_arg_ok x : is_byte x -> x < 128 \/ x = 255 -> ctype_arg x = true.
Proof. unfold is_byte, ctype_arg, schar. intros H1 H2. destruct (Z.ltb_spec x 128); lia. Qed.
Lemma toupper_ok (a c b : list Z) : (forall x, In x c -> is_byte x /\ (x < 128 \/ x = 255)) ->
  toupper (a ++ c ++ b) (View (len a) (len c)) = Ok (a ++ map upper c ++ b).
Proof. intros H. apply map_all_ok. intros x Hx. unfold toupper1. rewrite ctype_arg_ok by apply H, Hx. reflexivity. Qed.
Lemma tolower_ok (a c b : list Z) : (forall x, In x c -> is_byte x /\ (x < 128 \/ x = 255)) ->
  tolower (a ++ c ++ b) (View (len a) (len c)) = Ok (a ++ map lower c ++ b).
Proof. intros H. apply map_all_ok. intros x Hx. unfold tolower1. rewrite ctype_arg_ok by apply H, Hx. reflexivity. Qed.
(** a character beyond that is undefined, after any number of good ones *)
Lemma map_loop_ub g h (a d b : list Z) x v n : (forall y, In y d -> g y = Ok (h y)) -> g x = Ub -> vo v = len a -> len d < vl v ->
  forall done, map_loop (S (length d + n)) (len done) g (a ++ done ++ d ++ x :: b) (View (vo v) (len done + vl v)) = Ub.
Proof.
  revert v. induction d as [|y d IH]; intros v Hd Hx Hvo Hvl done; pose proof (nonneg_len done); cbn [length Nat.add map_loop];
    unfold rdv, wrv; cbn [vl vo]; [change (len (@nil Z)) with 0 in Hvl|rewrite len_cons in Hvl; pose proof (nonneg_len d)];
    (replace ((0 <=? len done) && (len done <? len done + vl v)) with true by lia);
    replace (vo v + len done) with (len (a ++ done)) by (rewrite len_app; lia); rewrite app_assoc; cbn [app]; rewrite rd_mid; cbn [bind].
  - rewrite Hx. reflexivity.
  - rewrite (Hd y) by (left; auto). cbn [bind]. rewrite wr_mid. cbn [bind].
    specialize (IH (View (vo v) (vl v - 1)) (fun z Hz => Hd z (or_intror Hz)) Hx Hvo). cbn [vo vl] in IH.
    specialize (IH ltac:(lia) (done ++ [h y])). rewrite len_app in IH. change (len [h y]) with 1 in IH.
    replace (len done + 1 + (vl v - 1)) with (len done + vl v) in IH by lia.
    rewrite <- !app_assoc in *. cbn [app] in *. exact IH.
Qed.
Lemma upper_lower_ub g h (a d e b : list Z) x : (forall y, ctype_arg y = true -> g y = Ok (h y)) -> (forall y, ctype_arg y = false -> g y = Ub) ->
  (forall y, In y d -> is_byte y /\ (y < 128 \/ y = 255)) -> 128 <= x < 255 ->
  map_loop (Z.to_nat (len (d ++ x :: e))) 0 g (a ++ (d ++ x :: e) ++ b) (View (len a) (len (d ++ x :: e))) = Ub.
Proof.
  intros G1 G2 Hd Hx. rewrite to_nat_len, app_length. cbn [length]. rewrite Nat.add_succ_r.
  pose proof (nonneg_len e). pose proof (nonneg_len d).
  rewrite <- app_assoc. cbn [app].
  apply (map_loop_ub g h a d (e ++ b) x (View (len a) (len (d ++ x :: e))) (length e)) with (done := []); auto.
  - intros y Hy. apply G1. apply ctype_arg_ok; apply Hd, Hy.
  - apply G2. unfold ctype_arg, schar. destruct (Z.ltb_spec x 128); lia.
  - cbn [vl]. rewrite len_app, len_cons. lia.
Qed.
Lemma toupper_ub (a d e b : list Z) x : (forall y, In y d -> is_byte y /\ (y < 128 \/ y = 255)) -> 128 <= x < 255 ->
  toupper (a ++ (d ++ x :: e) ++ b) (View (len a) (len (d ++ x :: e))) = Ub.
Proof. intros. apply (upper_lower_ub toupper1 upper); auto; intros y Hy; unfold toupper1; rewrite Hy; reflexivity. Qed.
Lemma tolower_ub (a d e b : list Z) x : (forall y, In y d -> is_byte y /\ (y < 128 \/ y = 255)) -> 128 <= x < 255 ->
  tolower (a ++ (d ++ x :: e) ++ b) (View (len a) (len (d ++ x :: e))) = Ub.
Proof. intros. apply (upper_lower_ub tolower1 lower); auto; intros y Hy; unfold tolower1; rewrite Hy; reflexivity. Qed.
Lemma fill_ok (a c b : list Z) x : fill (a ++ c ++ b) (View (len a) (len c)) x = Ok (a ++ repeat x (length c) ++ b).
Proof.
  unfold fill. rewrite (map_all_ok (fun _ => x)) by auto. do 3 f_equal. induction c; cbn; f_equal; auto.
Qed.

(** ** copy_from *)
Lemma copy_from_ok (a p old q b that : list Z) num : len (p ++ old ++ q) < 2 ^ 63 -> 0 <= num <= npos ->
  len old = Z.min (len that) (if num =? npos then len (old ++ q) else num) -> len p + len old <= len (p ++ old ++ q) ->
  copy_from (a ++ (p ++ old ++ q) ++ b) (View (len a) (len (p ++ old ++ q))) that (len p) num =
  Ok (a ++ (p ++ firstn (length old) that ++ q) ++ b).
Proof.
  rewrite npos_big. intros Hs Hn Ho _. rewrite !len_app in *. pose proof (nonneg_len p). pose proof (nonneg_len q). pose proof (nonneg_len old).
  unfold copy_from. rewrite npos_big. cbn [vl vo]. unfold assert.
  replace (len p <=? len p + (len old + len q)) with true by lia.
  rewrite (u64_id (len p + (len old + len q) - len p)) by lia.
  set (n1 := if num =? 2 ^ 64 - 1 then len p + (len old + len q) - len p else num).
  assert (N1 : len old = Z.min (len that) n1).
  { unfold n1. rewrite Ho at 1. destruct (num =? 2 ^ 64 - 1); lia. }
  assert (N2 : (if n1 <? len that then n1 else len that) = len old) by (destruct (Z.ltb_spec n1 (len that)); lia).
  rewrite N2. rewrite u64_id by lia. replace (len p + len old <=? len p + (len old + len q)) with true by lia.
  destruct (Z.eqb_spec (len old) 0) as [E|E].
  - rewrite (len_0_nil old) by auto. reflexivity.
  - assert (Hd : that = firstn (length old) that ++ skipn (length old) that) by (symmetry; apply firstn_skipn).
    assert (Hl : len (firstn (length old) that) = len old).
    { unfold len. rewrite firstn_length. unfold len in *. lia. }
    pose proof (rds_mid [] (firstn (length old) that) (skipn (length old) that)) as R. cbn [app] in R.
    rewrite <- Hd, Hl in R. change (len (@nil Z)) with 0 in R. rewrite R. cbn [bind].
    replace (len a + len p) with (len (a ++ p)) by apply len_app.
    replace (a ++ (p ++ old ++ q) ++ b) with ((a ++ p) ++ old ++ (q ++ b)) by (rewrite <- !app_assoc; reflexivity).
    rewrite wrs_mid by auto. rewrite <- !app_assoc. reflexivity.
Qed.

(** ** reverse *)
Lemma snoc_cases {A} (l : list A) : l = [] \/ exists x, l = [x] \/ exists m y, l = x :: m ++ [y].
Proof.
  destruct l as [|x l]; auto. right. exists x. destruct l as [|z l]; auto. right.
  destruct (exists_last (l := z :: l)) as (m & y & E); [discriminate|]. exists m, y. rewrite E. reflexivity.
Qed.
Lemma do_reverse_ok : forall fuel (a l b : list Z), (length l <= fuel)%nat ->
  do_reverse fuel (a ++ l ++ b) (len a) (len a + len l - 1) = Ok (a ++ rev l ++ b).
Proof.
  induction fuel as [|fuel IH]; intros a l b Hl.
  - destruct l; [|cbn in Hl; lia]. cbn [do_reverse]. replace (len a + len (@nil Z) - 1 <=? len a) with true by (cbn; lia). reflexivity.
  - destruct (snoc_cases l) as [->|(x & [->|(m & y & ->)])].
    + cbn [do_reverse]. replace (len a + len (@nil Z) - 1 <=? len a) with true by (cbn; lia). reflexivity.
    + cbn [do_reverse]. replace (len a + len [x] - 1 <=? len a) with true by (cbn; lia). reflexivity.
    + cbn [do_reverse]. pose proof (nonneg_len m). rewrite len_cons, len_app. change (len [y]) with 1.
      replace (len a + (1 + (len m + 1)) - 1 <=? len a) with false by lia.
      assert (EL : len a + (1 + (len m + 1)) - 1 = len (a ++ x :: m)) by (rewrite len_app, len_cons; lia).
      rewrite EL.
      replace (a ++ (x :: m ++ [y]) ++ b) with ((a ++ x :: m) ++ y :: b) by (rewrite <- !app_assoc; cbn [app]; rewrite <- app_assoc; reflexivity).
      rewrite rd_mid. cbn [bind].
      replace ((a ++ x :: m) ++ y :: b) with (a ++ x :: m ++ y :: b) at 1 by (rewrite <- !app_assoc; reflexivity).
      rewrite rd_mid. cbn [bind]. rewrite wr_mid. cbn [bind].
      replace ((a ++ x :: m) ++ x :: b) with (a ++ x :: m ++ x :: b) by (rewrite <- !app_assoc; reflexivity).
      rewrite wr_mid. cbn [bind]. specialize (IH (a ++ [y]) m (x :: b)).
      rewrite len_app in IH. change (len [y]) with 1 in IH.
      replace (len (a ++ x :: m) - 1) with (len a + 1 + len m - 1) by lia.
      rewrite <- !app_assoc in IH. cbn [app] in IH. rewrite IH.
      * cbn [rev]. rewrite rev_app_distr. cbn [rev app]. rewrite <- app_assoc. reflexivity.
      * cbn [length] in Hl. rewrite app_length in Hl. cbn in Hl. lia.
Qed.
Lemma reverse_ok (a c b : list Z) : reverse (a ++ c ++ b) (View (len a) (len c)) = Ok (a ++ rev c ++ b).
Proof.
  unfold reverse. cbn [vl vo]. destruct (Z.eqb_spec (len c) 0) as [E|E].
  - apply len_0_nil in E. subst. reflexivity.
  - rewrite to_nat_len. apply do_reverse_ok. lia.
Qed.
Lemma reverse_sub_ok (a p c q b : list Z) : len (p ++ c ++ q) < 2 ^ 63 ->
  reverse_sub (a ++ (p ++ c ++ q) ++ b) (View (len a) (len (p ++ c ++ q))) (len p) (len c) = Ok (a ++ (p ++ rev c ++ q) ++ b).
Proof.
  intros Hs. rewrite !len_app in *. pose proof (nonneg_len p). pose proof (nonneg_len q). pose proof (nonneg_len c).
  unfold reverse_sub, assert. cbn [vl vo]. rewrite u64_id by lia.
  replace (len p <=? len p + (len c + len q)) with true by lia. replace (len p + len c <=? len p + (len c + len q)) with true by lia.
  destruct (Z.eqb_spec (len c) 0) as [E|E].
  - apply len_0_nil in E. subst. reflexivity.
  - rewrite to_nat_len.
    replace (a ++ (p ++ c ++ q) ++ b) with ((a ++ p) ++ c ++ (q ++ b)) by (rewrite <- !app_assoc; reflexivity).
    replace (len a + len p) with (len (a ++ p)) by apply len_app. rewrite do_reverse_ok by lia. rewrite <- !app_assoc. reflexivity.
Qed.
Lemma reverse_range_ok (a p c q b : list Z) : len (p ++ c ++ q) < 2 ^ 63 ->
  reverse_range (a ++ (p ++ c ++ q) ++ b) (View (len a) (len (p ++ c ++ q))) (len p) (len p + len c) = Ok (a ++ (p ++ rev c ++ q) ++ b).
Proof.
  intros Hs. rewrite !len_app in *. pose proof (nonneg_len p). pose proof (nonneg_len q). pose proof (nonneg_len c).
  unfold reverse_range, assert. cbn [vl vo].
  replace (len p <=? len p + (len c + len q)) with true by lia. replace (len p + len c <=? len p + (len c + len q)) with true by lia.
  destruct (Z.eqb_spec (len p) (len p + len c)) as [E|E].
  - rewrite (len_0_nil c) by lia. reflexivity.
  - replace (len p + len c - len p) with (len c) by lia. rewrite to_nat_len.
    replace (a ++ (p ++ c ++ q) ++ b) with ((a ++ p) ++ c ++ (q ++ b)) by (rewrite <- !app_assoc; reflexivity).
    replace (len a + (len p + len c) - 1) with (len (a ++ p) + len c - 1) by (rewrite len_app; lia).
    replace (len a + len p) with (len (a ++ p)) by apply len_app. rewrite do_reverse_ok by lia. rewrite <- !app_assoc. reflexivity.
Qed.

(** ** erase: the tail of the view is moved down; the bytes that follow the new
    end keep their old value *)
Lemma erase_ok (a p c q b : list Z) : len (p ++ c ++ q) < 2 ^ 63 ->
  exists rest, len rest = len c /\
  erase (a ++ (p ++ c ++ q) ++ b) (View (len a) (len (p ++ c ++ q))) (len p) (len c) =
  Ok (a ++ ((p ++ q) ++ rest) ++ b, View (len a) (len (p ++ q))).
Proof.
  intros Hs. exists (skipn (length q) (c ++ q)). split.
  { unfold len. rewrite skipn_length, app_length. lia. }
  rewrite !len_app in *. pose proof (nonneg_len p). pose proof (nonneg_len q). pose proof (nonneg_len c).
  unfold erase, assert. cbn [vl vo]. rewrite !u64_id by lia.
  replace (len p + len c <=? len p + (len c + len q)) with true by lia.
  replace (len p + (len c + len q) - len p - len c) with (len q) by lia.
  replace (len a + len p + len c) with (len (a ++ p ++ c)) by (rewrite !len_app; lia).
  replace (a ++ (p ++ c ++ q) ++ b) with ((a ++ p ++ c) ++ q ++ b) at 1 by (rewrite <- !app_assoc; reflexivity).
  rewrite rds_mid. cbn [bind].
  replace (len a + len p) with (len (a ++ p)) by apply len_app.
  replace (a ++ (p ++ c ++ q) ++ b) with ((a ++ p) ++ firstn (length q) (c ++ q) ++ (skipn (length q) (c ++ q) ++ b)).
  2:{ rewrite (app_assoc (firstn _ _)), firstn_skipn, <- !app_assoc. reflexivity. }
  rewrite wrs_mid. 2:{ unfold len. rewrite firstn_length, app_length. lia. }
  cbn [bind]. replace (len p + (len c + len q) - len c) with (len p + len q) by lia. rewrite <- !app_assoc. reflexivity.
Qed.

(** ** replace *)
Lemma replace_loop_ok (p : Z -> bool) repl (a b : list Z) : forall fuel done todo did,
  (length todo < fuel)%nat ->
  replace_loop fuel p repl (a ++ (done ++ todo) ++ b) (View (len a) (len (done ++ todo))) (len done) did =
  Ok (a ++ (done ++ map (fun x => if p x then repl else x) todo) ++ b, did + Z.of_nat (length (filter p todo))).
Proof.
  induction fuel as [|fuel IH]; intros done todo did Hf; [lia|]. cbn [replace_loop].
  rewrite (contents_app _ a (done ++ todo) b) by reflexivity.
  pose proof (nonneg_len done). pose proof (nonneg_len todo).
  rewrite chk_ok by (rewrite len_app; lia). cbn [assert].
  destruct (fwd_from_ok (done ++ todo) p (len done)) as (o & E & Ho); [rewrite len_app; lia|]. rewrite E. cbn [bind].
  assert (G : forall g, (forall x, In x g -> p x = false) -> map (fun x => if p x then repl else x) g = g /\ filter p g = []).
  { induction g as [|x g IHg]; intros Hg; auto. destruct IHg as [E1 E2]. { intros y Hy. apply Hg. right; auto. }
    cbn. rewrite (Hg x) by (left; auto). rewrite E1, E2. auto. }
  destruct o as [q|]; cbn in Ho.
  - destruct Ho as (Hq & Hpq & Hmin). rewrite len_app in Hq.
    destruct (split_elem todo (q - len done)) as (g & r & Et & Lg); [lia|].
    assert (Eb : byte_at (done ++ todo) q = byte_at todo (q - len done)) by (apply byte_at_app2; lia).
    set (x := byte_at todo (q - len done)) in *.
    destruct (G g) as [G1 G2].
    { intros y Hy. apply in_byte_at in Hy. destruct Hy as (j & Hj & Ej).
      destruct (p y) eqn:Ep; auto. destruct (Hmin (len done + j)); [lia|].
      rewrite byte_at_app2 by lia. replace (len done + j - len done) with j by lia.
      rewrite Et, byte_at_app1 by lia. rewrite Ej. auto. }
    unfold wrv. cbn [vl vo]. replace ((0 <=? q) && (q <? len (done ++ todo))) with true by (rewrite len_app; lia).
    replace (a ++ (done ++ todo) ++ b) with ((a ++ done ++ g) ++ x :: (r ++ b)) by (rewrite Et, <- !app_assoc; reflexivity).
    replace (len a + q) with (len (a ++ done ++ g)) by (rewrite !len_app; lia).
    rewrite wr_mid. cbn [bind].
    specialize (IH (done ++ g ++ [repl]) r (did + 1)).
    replace (len (done ++ g ++ [repl])) with (q + 1) in IH by (rewrite !len_app; change (len [repl]) with 1; lia).
    replace (len ((done ++ g ++ [repl]) ++ r)) with (len (done ++ todo)) in IH
      by (rewrite Et, !len_app, len_cons; change (len [repl]) with 1; lia).
    replace ((a ++ done ++ g) ++ repl :: r ++ b) with (a ++ ((done ++ g ++ [repl]) ++ r) ++ b) by (rewrite <- !app_assoc; reflexivity).
    rewrite IH.
    2:{ apply (f_equal (@length Z)) in Et. rewrite app_length in Et. cbn [length] in Et. lia. }
    rewrite Et. rewrite map_app, filter_app, G1, G2. cbn [map filter app]. rewrite Eb in Hpq. rewrite Hpq. cbn [length].
    f_equal. f_equal; [rewrite <- !app_assoc; reflexivity|lia].
  - destruct (G todo) as [G1 G2].
    { intros y Hy. apply in_byte_at in Hy. destruct Hy as (j & Hj & Ej).
      destruct (p y) eqn:Ep; auto. destruct (Ho (len done + j)); [rewrite len_app; lia|].
      rewrite byte_at_app2 by lia. replace (len done + j - len done) with j by lia. rewrite Ej. auto. }
    rewrite G1, G2. cbn [length]. rewrite Z.add_0_r. reflexivity.
Qed.
Lemma replace_c_ok (a p c b : list Z) x y : len (p ++ c) < npos ->
  replace_c (a ++ (p ++ c) ++ b) (View (len a) (len (p ++ c))) x y (len p) =
  Ok (a ++ (p ++ map (fun z => if z =? x then y else z) c) ++ b, Z.of_nat (length (filter (fun z => z =? x) c))).
Proof.
  intros Hl. unfold replace_c. cbn [vl]. pose proof (nonneg_len c). rewrite len_app in Hl. replace (len p =? npos) with false by lia. replace (len p <=? len (p ++ c)) with true by (rewrite len_app; lia).
  cbn [assert]. rewrite replace_loop_ok; [reflexivity|]. rewrite to_nat_len, app_length. lia.
Qed.
Lemma replace_set_ok (a p c b cs : list Z) y : len (p ++ c) < npos ->
  replace (a ++ (p ++ c) ++ b) (View (len a) (len (p ++ c))) cs y (len p) =
  Ok (a ++ (p ++ map (fun z => if mem z cs then y else z) c) ++ b, Z.of_nat (length (filter (fun z => mem z cs) c))).
Proof.
  intros Hl. unfold replace. cbn [vl]. pose proof (nonneg_len c). rewrite len_app in Hl. replace (len p =? npos) with false by lia. replace (len p <=? len (p ++ c)) with true by (rewrite len_app; lia).
  cbn [assert]. rewrite replace_loop_ok; [reflexivity|]. rewrite to_nat_len, app_length. lia.
Qed.
