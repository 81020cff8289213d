(** Model of uncat, uncatsep and unformat of src/c4/format.hpp for variables of any type with a
    from_chars_first; the variables of `FormatModel.v` and real numbers are examples. *)
From Verif Require Import Base CharconvModel SubstrModel SpanNumModel FormatModel FloatModel RealModel.

(** from_chars_first(text, &v): the returned size (None is npos) and the variable, given the
    text and the variable before *)
Definition reader := list Z -> Z -> res (option Z * Z).
(** a variable: how it is read, and its value *)
Definition var : Type := reader * Z.

(** uncat: format.hpp 621-644 *)
Fixpoint uncatw (s : list Z) (b : view) (xs : list var) : res (option Z * list Z) :=
  match xs with
  | [] => Ok (Some 0, [])
  | (g, v) :: more =>
      do '(o, v) <- g (contents s b) v ;;
      match o with
      | None => Ok (None, v :: map snd more)
      | Some out =>
          do '(n, vs) <- uncatw s (radvance s b out) more ;;
          Ok (match n with None => None | Some n => Some (u64 (out + n)) end, v :: vs)
      end
  end.

(** detail::uncatsep_more and uncatsep: 681-705, 766-776; [sep] is read before each variable but
    the first *)
Fixpoint uncatsepw_more (s : list Z) (b : view) (sep : var) (xs : list var) : res (option Z * Z * list Z) :=
  match xs with
  | [] => Ok (Some 0, snd sep, [])
  | (g, v) :: more =>
      do '(o1, sv) <- fst sep (contents s b) (snd sep) ;;
      match o1 with
      | None => Ok (None, sv, v :: map snd more)
      | Some r1 =>
          let b := radvance s b r1 in
          do '(o2, v) <- g (contents s b) v ;;
          match o2 with
          | None => Ok (None, sv, v :: map snd more)
          | Some r2 =>
              do '(o3, sv, vs) <- uncatsepw_more s (radvance s b r2) (fst sep, sv) more ;;
              Ok (match o3 with None => None | Some r3 => Some (u64 (u64 (r1 + r2) + r3)) end, sv, v :: vs)
          end
      end
  end.
Definition uncatsepw (s : list Z) (b : view) (sep : var) (x : var) (more : list var) : res (option Z * Z * list Z) :=
  do '(o, v) <- fst x (contents s b) (snd x) ;;
  match o with
  | None => Ok (None, snd sep, v :: map snd more)
  | Some num =>
      do '(o2, sv, vs) <- uncatsepw_more s (radvance s b num) sep more ;;
      Ok (match o2 with None => None | Some r => Some (u64 (num + r)) end, sv, v :: vs)
  end.

(** unformat: 852-880 *)
Fixpoint unformatw (s : list Z) (b : view) (fmt : list Z) (xs : list var) : res (option Z * list Z) :=
  match xs with
  | [] => Ok (Some (len fmt), [])
  | (g, v) :: more =>
      do pos <- find fmt (s2z "{}") (Some 0) ;;
      match pos with
      | None => Ok (Some (len fmt), v :: map snd more)
      | Some pos =>
          let b := radvance s b pos in
          do '(o, v) <- g (contents s b) v ;;
          match o with
          | None => Ok (None, v :: map snd more)
          | Some num =>
              do rest <- sub1 (len fmt) (pos + 2) ;;
              do '(o2, vs) <- unformatw s (radvance s b num) (contents fmt rest) more ;;
              Ok (match o2 with None => None | Some n => Some (u64 (u64 (pos + num) + n)) end, v :: vs)
          end
      end
  end.

(** the readers of a boolean (as 0 and 1) and of a character *)
Definition read_bool : reader := fun s v => do '(o, x) <- from_chars_first_bool s (negb (v =? 0)) ;; Ok (o, if x : bool then 1 else 0).
(** the reader and the value of a variable of `FormatModel.v` that is not a csubstr *)
Definition var_of (x : slot) : option var :=
  match x with
  | SInt t v => Some (ato_first t, v)
  | SBool b => Some (read_bool, if b : bool then 1 else 0)
  | SChar c => Some (from_chars_first_char, c)
  | SWord _ => None
  end.
