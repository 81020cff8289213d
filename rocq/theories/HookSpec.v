(** What a program sees of allocation functions: a list of blocks of bytes. No model of the library. *)
From Verif Require Import Base HookModel.

Definition cells := list (option Z).
Definition resized (b : cells) (n : Z) : cells :=
  firstn (Z.to_nat n) b ++ repeat None (Z.to_nat n - length b).
(** [spec ls o ls']: [o] may lead from the blocks [ls] to [ls']; a request may fail *)
Inductive spec : list cells -> op -> list cells -> Prop :=
| s_seta : forall ls f, spec ls (OSetA f) ls
| s_setf : forall ls f, spec ls (OSetF f) ls
| s_setr : forall ls f, spec ls (OSetR f) ls
| s_alloc : forall ls mr sz al, spec ls (OAlloc mr sz al) (ls ++ [repeat None (Z.to_nat sz)])
| s_alloc_fail : forall ls mr sz al, spec ls (OAlloc mr sz al) ls
| s_free : forall l b r, spec (l ++ b :: r) (OFree (length l)) (l ++ r)
| s_realloc : forall l b r mr n al, spec (l ++ b :: r) (ORealloc mr (length l) n al) (l ++ resized b n :: r)
| s_realloc_fail : forall l b r mr n al, spec (l ++ b :: r) (ORealloc mr (length l) n al) (l ++ b :: r)
| s_write : forall l x c y r v, spec (l ++ (x ++ c :: y) :: r) (OWrite (length l) (len x) v) (l ++ (x ++ Some v :: y) :: r).
Inductive specs : list cells -> list op -> list cells -> Prop :=
| ss_nil : forall ls, specs ls [] ls
| ss_cons : forall ls o ls1 os ls2, spec ls o ls1 -> specs ls1 os ls2 -> specs ls (o :: os) ls2.

(** the functions in place belong together: those that allocate and free are of [k], the one that
    reallocates too or is the library's *)
Definition team (h : hooks) (k : fn) : Prop :=
  ha h = Some k /\ hf h = Some k /\ (hr h = Some Lib \/ hr h = Some k).
(** failures come back as the library can bear them: it is its own functions that fail, or the
    reallocation is theirs that allocate, or nothing fails *)
Definition bears (stop : bool) (h : hooks) (k : fn) (answers : list answer) : Prop :=
  hr h = Some k /\ k <> Lib \/ k = Lib /\ stop = true \/ Forall (eq Got) answers.
Definition pow2 (al : Z) : Prop := exists n, 0 <= n < 64 /\ al = 2 ^ n.
(** what a program does with the blocks whose sizes are [ns], functions [h] in place: functions are
    only replaced while there are no blocks *)
Definition proper (stop : bool) (h : hooks) (ns : list Z) (answers : list answer) (o : op) : Prop :=
  match o with
  | OSetA _ | OSetF _ | OSetR _ => ns = []
  | OAlloc _ sz al => (exists k, team h k) /\ 0 <= sz /\ pow2 al
  | OFree i => (i < length ns)%nat
  | ORealloc _ i n al => (i < length ns)%nat /\ 0 < n /\ pow2 al /\ (exists k, team h k /\ bears stop h k answers)
  | OWrite i off _ => exists n, nth_error ns i = Some n /\ 0 <= off < n
  end.
(** every step of a program is proper; the sizes and functions are those of the program as run *)
Fixpoint proper_run (dbg stop : bool) (s : state) (os : list op) : Prop :=
  match os with
  | [] => True
  | o :: os => proper stop (sh s) (map snd (sp s)) (wans (sw s)) o /\
               match step dbg stop s o with Ok s => proper_run dbg stop s os | _ => True end
  end.
(** the blocks not given back *)
Definition alive (w : heap) : nat := length (filter (fun b => match b with Some _ => true | None => false end) w).
(** the contents of the blocks a program holds *)
Definition held (s : state) (ls : list cells) : Prop :=
  Forall2 (fun p l => exists f, nth_error (wheap (sw s)) (fst p) = Some (Some (Blk f l)) /\ snd p = len l) (sp s) ls.
