(** Specification of base64 (RFC 4648, section 4) and of UTF-8 (RFC 3629),
    independent of the model. *)
From Verif Require Import Base.

(** ** Base64 *)

(** the standard alphabet: A-Z, a-z, 0-9, '+', '/' *)
Definition alpha (v : Z) : Z :=
  if v <? 26 then ch "A" + v
  else if v <? 52 then ch "a" + (v - 26)
  else if v <? 62 then ch "0" + (v - 52)
  else if v =? 62 then ch "+" else ch "/".

(** the character [c] stands for the 6-bit value [v] *)
Definition stands (c v : Z) : Prop := 0 <= v < 64 /\ c = alpha v.
Definition alphabet (c : Z) : Prop := exists v, stands c v.

(** the text of a byte sequence: each group of 24 bits gives four characters; a
    final group of 8 or 16 bits is completed with zero bits and padded *)
Fixpoint rfc_encode (d : list Z) : list Z :=
  match d with
  | a :: b :: c :: r =>
      alpha (a / 4) :: alpha (a mod 4 * 16 + b / 16) :: alpha (b mod 16 * 4 + c / 64) ::
      alpha (c mod 64) :: rfc_encode r
  | [a; b] => [alpha (a / 4); alpha (a mod 4 * 16 + b / 16); alpha (b mod 16 * 4); ch "="]
  | [a] => [alpha (a / 4); alpha (a mod 4 * 16); ch "="; ch "="]
  | [] => []
  end.

(** [rfc_text strict s d]: [s] is a base64 text of the bytes [d]. With [strict]
    the unused bits of the last character must be zero (canonical text, RFC 4648
    section 3.5). *)
Inductive rfc_text (strict : bool) : list Z -> list Z -> Prop :=
| rt_nil : rfc_text strict [] []
| rt_one a b va vb :
    stands a va -> stands b vb -> (strict = true -> vb mod 16 = 0) ->
    rfc_text strict [a; b; ch "="; ch "="] [va * 4 + vb / 16]
| rt_two a b c va vb vc :
    stands a va -> stands b vb -> stands c vc -> (strict = true -> vc mod 4 = 0) ->
    rfc_text strict [a; b; c; ch "="] [va * 4 + vb / 16; vb mod 16 * 16 + vc / 4]
| rt_three a b c d va vb vc vd s r :
    stands a va -> stands b vb -> stands c vc -> stands d vd -> rfc_text strict s r ->
    rfc_text strict (a :: b :: c :: d :: s)
      ((va * 4 + vb / 16) :: (vb mod 16 * 16 + vc / 4) :: (vc mod 4 * 64 + vd) :: r).

(** the memory after storing as much of [t] as fits into the view *)
Definition stored (m : list Z) (b : view) (t : list Z) : list Z :=
  blit m (vo b) (firstn (Z.to_nat (vl b)) t).

(** ** UTF-8 *)

(** the byte sequence of a code point: RFC 3629 section 3 *)
Definition utf8 (c : Z) : list Z :=
  if c <? 128 then [c]
  else if c <? 2048 then [192 + c / 64; 128 + c mod 64]
  else if c <? 65536 then [224 + c / 4096; 128 + c / 64 mod 64; 128 + c mod 64]
  else [240 + c / 262144; 128 + c / 4096 mod 64; 128 + c / 64 mod 64; 128 + c mod 64].

(** reading the bits back *)
Definition utf8_value (s : list Z) : option Z :=
  match s with
  | [a] => Some a
  | [a; b] => Some (a mod 32 * 64 + b mod 64)
  | [a; b; c] => Some (a mod 16 * 4096 + b mod 64 * 64 + c mod 64)
  | [a; b; c; d] => Some (a mod 8 * 262144 + b mod 64 * 4096 + c mod 64 * 64 + d mod 64)
  | _ => None
  end.

(** well-formed byte sequences: RFC 3629 section 4 (UTF8-1 .. UTF8-4) *)
Definition tail_byte (x : Z) : Prop := 128 <= x <= 191.
Inductive wf_utf8 : list Z -> Prop :=
| wf_1 a : 0 <= a <= 127 -> wf_utf8 [a]
| wf_2 a b : 194 <= a <= 223 -> tail_byte b -> wf_utf8 [a; b]
| wf_3_e0 b c : 160 <= b <= 191 -> tail_byte c -> wf_utf8 [224; b; c]
| wf_3 a b c : 225 <= a <= 236 \/ 238 <= a <= 239 -> tail_byte b -> tail_byte c -> wf_utf8 [a; b; c]
| wf_3_ed b c : 128 <= b <= 159 -> tail_byte c -> wf_utf8 [237; b; c]
| wf_4_f0 b c d : 144 <= b <= 191 -> tail_byte c -> tail_byte d -> wf_utf8 [240; b; c; d]
| wf_4 a b c d : 241 <= a <= 243 -> tail_byte b -> tail_byte c -> tail_byte d -> wf_utf8 [a; b; c; d]
| wf_4_f4 b c d : 128 <= b <= 143 -> tail_byte c -> tail_byte d -> wf_utf8 [244; b; c; d].

(** Unicode scalar values *)
Definition scalar (c : Z) : Prop := 0 <= c <= 1114111 /\ ~ (55296 <= c <= 57343).
