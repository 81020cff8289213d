(** fast_float with the options of from_chars_advanced, src/c4/ext/fast_float_all.h: the formats
    of numbers and the decimal point. FloatModel.v has the format [general] and '.'. *)
From Verif Require Import Base FloatTable FloatModel.
Open Scope Z_scope.

(** parse_options_t: 129-139. The bits of chars_format, 105-120, are [o_sci] (scientific),
    [o_fixed], [o_noinf] (no_infnan), [o_json] (FASTFLOAT_JSONFMT) and [o_fortran]
    (FASTFLOAT_FORTRANFMT); hex is never looked at. *)
Record popts := Opts { o_sci : bool; o_fixed : bool; o_noinf : bool; o_json : bool; o_fortran : bool; o_dot : Z }.
Definition scientific := Opts true false false false false (ch ".").
Definition fixed := Opts false true false false false (ch ".").
Definition json := Opts true true true true false (ch ".").
Definition json_or_infnan := Opts true true false true false (ch ".").
Definition fortran := Opts true true false false true (ch ".").
Definition general := Opts true true false false false (ch ".").

(** the loop 1288-1291 *)
Fixpoint leading_loop_o (dot : Z) (p : list Z) (count : Z) : Z :=
  match p with
  | c :: r => if c =? ch "0" then leading_loop_o dot r (count - 1) else if c =? dot then leading_loop_o dot r count else count
  | [] => count
  end.
(** the exponent part 1234-1273: the position behind it and the number, or [None] for the
    returns 1255 and 1272 *)
Definition parse_exponent_o (o : popts) (p : list Z) : option (list Z * Z) :=
  let none := if o_sci o && negb (o_fixed o) then None else Some (p, 0) in
  match p with
  | c :: r =>
      let e := (ch "e" =? c) || (ch "E" =? c) in
      let d := (ch "d" =? c) || (ch "D" =? c) in
      if (o_sci o && e) || (o_fortran o && ((ch "+" =? c) || (ch "-" =? c) || d)) then
        let r := if e || d then r else p in
        let '(r, neg) := match r with
          | c :: r' => if ch "-" =? c then (r', true) else if ch "+" =? c then (r', false) else (r, false)
          | [] => (r, false) end in
        let bad := if negb (o_fixed o) then None else Some (p, 0) in
        match r with
        | c :: _ => if is_integer c then let '(r, n) := exp_loop r 0 in Some (r, if neg then - n else n) else bad
        | [] => bad
        end
      else none
  | [] => none
  end.
(** parse_number_string: 1156-1324; [None] if the result is not valid *)
Definition parse_number_string_o (o : popts) (s : list Z) : res (option pns) :=
  match s with
  | [] => Ub
  | c :: r =>
      let negative := c =? ch "-" in
      let p := if negative then r else s in
      if negative && match p with
                     | [] => true
                     | c :: _ => if o_json o then negb (is_integer c) else negb (is_integer c) && negb (c =? o_dot o)
                     end then Ok None
      else
        let start_digits := p in
        let '(p, i) := digit_loop p 0 in
        let integer := between start_digits p in
        let digit_count := len integer in
        if o_json o && ((digit_count =? 0) || (match start_digits with c :: _ => c =? ch "0" | [] => false end && (1 <? digit_count)))
        then Ok None else
        let '(p, i, fraction) :=
          match p with
          | c :: before =>
              if c =? o_dot o then
                let '(p, i) := loop_parse_if_eight_digits before i in
                let '(p, i) := digit_loop p i in
                (p, i, Some (between before p))
              else (p, i, None)
          | [] => (p, i, None)
          end in
        let exponent := match fraction with Some x => - len x | None => 0 end in
        let digit_count := digit_count - exponent in
        if (if o_json o then match fraction with Some _ => exponent =? 0 | None => false end else digit_count =? 0) then Ok None
        else
          match parse_exponent_o o p with
          | None => Ok None
          | Some (p, exp_number) =>
            let exponent := exponent + exp_number in
            if 19 <? digit_count then
              if 19 <? leading_loop_o (o_dot o) start_digits digit_count then
                let '(rest, i) := nineteen_loop integer 0 in
                if 1000000000000000000 <=? i then
                  Ok (Some (Pns (len rest + exp_number) i p negative true integer fraction))
                else
                  let frac := match fraction with Some x => x | None => [] end in
                  let '(rest, i) := nineteen_loop frac i in
                  Ok (Some (Pns (len rest - len frac + exp_number) i p negative true integer fraction))
              else Ok (Some (Pns exponent i p negative false integer fraction))
            else Ok (Some (Pns exponent i p negative false integer fraction))
          end
  end.
(** from_chars_advanced(first, last, value, options): 3621-3653 *)
Definition from_chars_opt (rn : bool) (f : fmt) (o : popts) (s : list Z) : res ffres :=
  match s with
  | [] => Ok (FFRes [] EInvalid None)
  | _ =>
      do n <- parse_number_string_o o s ;;
      match n with
      | None => if o_noinf o then Ok (FFRes s EInvalid None) else parse_infnan f s
      | Some n => from_pns rn f n
      end
  end.
