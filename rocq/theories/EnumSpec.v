(** Specification of enum symbols and bitmasks. *)
From Verif Require Import Base CharconvSpec EnumModel.

(** the texts by which a symbol may be called: its name, and its name without the class or
    the prefix *)
Definition is_name (o : offs) (name s : list Z) : Prop :=
  s = name \/ exists k, (k = o_cls o \/ k = o_pfx o) /\ 0 < k /\ s = skipn (Z.to_nat k) name.
Definition is_prefix (s name : list Z) : Prop := exists r, name = s ++ r.
(** the first symbol with a property *)
Definition first_such (P : sym -> Prop) (tab : list sym) (r : option sym) : Prop :=
  match r with
  | Some p => exists l1 l2, tab = l1 ++ p :: l2 /\ P p /\ forall q, In q l1 -> ~ P q
  | None => forall q, In q tab -> ~ P q
  end.
(** offsets stay inside all names *)
Definition offs_ok (o : offs) (tab : list sym) : Prop :=
  0 <= o_cls o /\ 0 <= o_pfx o /\ forall p, In p tab -> o_cls o < len (sname p) /\ o_pfx o < len (sname p).
(** no text calls two symbols of different value *)
Definition unambiguous (o : offs) (tab : list sym) : Prop :=
  forall p q s, In p tab -> In q tab -> is_name o (sname p) s -> is_name o (sname q) s -> sval p = sval q.
Definition cstring (s : list Z) : Prop := Forall (fun c => c <> 0) s.

(** ** Bitmasks *)
(** how much of a name is not written: nothing, the class, or the prefix if there is one *)
Definition hidden (o : offs) (w : otype) : Z :=
  match w with ONone => 0 | OCls => o_cls o | OPfx => if 0 <? o_pfx o then o_pfx o else o_cls o end.
(** the name as it is written *)
Definition short (o : offs) (w : otype) (p : sym) : list Z := skipn (Z.to_nat (hidden o w)) (sname p).
Fixpoint join (l : list (list Z)) : list Z :=
  match l with [] => [] | [x] => x | x :: r => x ++ ch "|" :: join r end.
Definition ors (l : list sym) : Z := fold_right (fun p v => Z.lor (sval p) v) 0 l.
(** some of the elements, in the same order *)
Inductive sublist {A} : list A -> list A -> Prop :=
| sub_nil : sublist [] []
| sub_skip x l l' : sublist l l' -> sublist l (x :: l')
| sub_take x l l' : sublist l l' -> sublist (x :: l) (x :: l').
(** the texts that stand for [bits] *)
Definition names_bits (o : offs) (w : otype) (tab : list sym) (bits : Z) (s : list Z) : Prop :=
  if bits =? 0 then
    match List.find (fun p => sval p =? 0) tab with Some p => s = short o w p | None => s = [ch "0"] end
  else exists sel, sublist sel tab /\ Forall (fun p => sval p <> 0) sel /\ ors sel = bits /\ s = join (map (short o w) sel).
Definition text_bound (tab : list sym) : Z := fold_right (fun p v => len (sname p) + 1 + v) 0 tab.
(** names that can be read back: letters, underscores and colons, a letter or underscore first *)
Definition letter (c : Z) : Prop := ch "a" <= c <= ch "z" \/ ch "A" <= c <= ch "Z" \/ c = ch "_".
Definition word (s : list Z) : Prop := exists c r, s = c :: r /\ letter c /\ Forall (fun c => letter c \/ c = ch ":") r.
(** the items of a text to read and their values: a name or the beginning of one, a decimal
    number, a hexadecimal number without letters *)
Inductive item (t : ity) (o : offs) (tab : list sym) : list Z -> Z -> Prop :=
| it_name s p : word s -> first_such (fun q => is_prefix s (sname q) \/ is_name o (sname q) s) tab (Some p) -> item t o tab s (sval p)
| it_dec s v : digit_text 10 s v -> Forall (fun c => ch "0" <= c <= ch "9") s -> in_range t v -> item t o tab s v
| it_hex x s v : x = ch "x" \/ x = ch "X" -> digit_text 16 s v -> Forall (fun c => ch "0" <= c <= ch "9") s -> in_range t v ->
    item t o tab (ch "0" :: x :: s) v.
(** not an item: nothing at all, or a word that is not the beginning of any name *)
Inductive bad_item (o : offs) (tab : list sym) : list Z -> Prop :=
| bad_empty : bad_item o tab []
| bad_name s : word s -> first_such (fun q => is_prefix s (sname q) \/ is_name o (sname q) s) tab None -> bad_item o tab s.
(** a written name is not the beginning of the name of another symbol, nor calls one *)
Definition distinct_names (o : offs) (w : otype) (tab : list sym) : Prop :=
  forall p q, In p tab -> In q tab ->
  is_prefix (short o w p) (sname q) \/ is_name o (sname q) (short o w p) -> sval q = sval p.
(** the buffer after a text was written to its beginning; [None] is the null buffer, which
    only asks for the size *)
Definition room (str : option (list Z)) (n : Z) : bool := match str with None => true | Some m => n <=? len m end.
Definition written (str : option (list Z)) (s : list Z) : option (list Z) :=
  match str with None => None | Some m => Some (s ++ skipn (length s) m) end.
