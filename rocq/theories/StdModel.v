(** Model of atof and atod of src/c4/charconv.hpp in the builds that read with std::from_chars
    (C++17 with C4CORE_NO_FAST_FLOAT: 66-91). The result of std::from_chars is a parameter; what
    the C++ standard says about it is `StdSpec.std_from_chars`. *)
From Verif Require Import Base ScanModel SubstrModel SpanNumModel Base64Model FloatModel.

(** std::from_chars(first, last, value): the text from the returned pointer on, ec, and the value if
    it is written *)
Record std_res := StdRes { sr_rest : list Z; sr_ec : errc; sr_value : option Z }.
(** ** atof: 2111-2114, 2132-2134; atod: 2172-2175, 2193-2195. The result and the final [*v] *)
Definition atof_std (dbg : bool) (r : std_res) (s : list Z) (w0 : Z) : res (bool * Z) :=
  dassert dbg (0 <? len s)
    (do t <- triml s (s2z " " ++ [13; 9; 10]) ;;
     dassert dbg (vl t =? len s)
       (Ok (match sr_ec r with EOk => true | _ => false end, match sr_value r with Some w => w | None => w0 end))).
(** ** atof_first: 2149-2157; atod_first: 2210-2218. The returned size ([None] is npos) and the
    final [*v] *)
Definition atof_first_std (dbg : bool) (fc : list Z -> std_res) (s : list Z) (w0 : Z) : res (option Z * Z) :=
  do trimmed <- first_real_span s ;;
  if vl trimmed =? 0 then Ok (None, w0) else
  do '(ok, w) <- atof_std dbg (fc (contents s trimmed)) (contents s trimmed) w0 ;;
  Ok (if ok then Some (vo trimmed + vl trimmed) else None, w).
