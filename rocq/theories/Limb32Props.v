(** Property C122: fast_float on platforms of 32 bits. *)
From Verif Require Import Base BaseLemmas FloatTable FloatModel FloatSpec Limb32Model.
From Verif Require Import FloatProofs1 FloatProofs2 FloatProofs17 FloatProps Limb32Proofs1 Limb32Proofs2 Limb32Proofs4.
From Coq Require Import Lia.
Open Scope Z_scope.

(** ** C122: text gives the same number where 64-bit limbs and 128-bit products are emulated *)
Theorem C122_same rn f mb eb s : format f mb eb -> bytes s -> from_chars_float_32 rn f s = from_chars_float rn f s.
Proof. intros H. destruct (format_fok f mb eb H) as [F ->]. exact (from_chars_same rn f eb s F). Qed.
Print Assumptions C122_same.
(** neither a bound on the text nor a capacity is exceeded *)
Theorem C122_total rn f mb eb s : format f mb eb -> bytes s -> exists r k, from_chars_float_32 rn f s = Ok r /\ s = k ++ r_rest r.
Proof.
  intros H B. rewrite (C122_same rn f mb eb s H B). destruct (format_fok f mb eb H) as [F ->]. exact (from_chars_total rn f eb s F B).
Qed.
Print Assumptions C122_total.
Theorem C122_rounds_partial rn f mb eb t rest neg m e : format f mb eb -> bytes (t ++ rest) ->
  decimal_text t neg m e -> longest t rest -> len t + 400 <= 2 ^ 28 ->
  exists w ec, from_chars_float_32 rn f (t ++ rest) = Ok (FFRes rest ec (Some w)) /\ nearest mb eb neg (decimal m e) w /\
  (b_infinite mb eb w \/ 0 < m /\ b_zero mb eb w -> ec = ERange) /\
  (~ b_infinite mb eb w -> ~ (0 < m /\ b_zero mb eb w) -> ec = EOk).
Proof. intros H B. rewrite (C122_same rn f mb eb _ H B). now apply C97_rounds_partial. Qed.
Print Assumptions C122_rounds_partial.
(** the product of two 64-bit numbers *)
Theorem C122_product a b : 0 <= a < 2 ^ 64 -> 0 <= b < 2 ^ 64 ->
  let '(high, low) := umul128_generic a b in 0 <= low < 2 ^ 64 /\ 0 <= high < 2 ^ 64 /\ high * 2 ^ 64 + low = a * b.
Proof.
  intros A B. rewrite umul128_generic_ok by assumption. unfold full_multiplication. assert (H : 0 <= a * b < 2 ^ 64 * 2 ^ 64) by nia.
  assert (D := Z.div_mod (a * b) (2 ^ 64) ltac:(lia)). assert (M := Z.mod_pos_bound (a * b) (2 ^ 64) ltac:(lia)). unfold u64.
  split; [exact M|]. split; [|lia]. split; [apply Z.div_pos; lia|apply Z.div_lt_upper_bound; lia].
Qed.
Print Assumptions C122_product.
(** and of two limbs with a carry *)
Theorem C122_limb_product x y c : 0 <= x < 2 ^ 64 -> 0 <= y < 2 ^ 64 -> 0 <= c < 2 ^ 64 ->
  let '(carry, z) := scalar_mul_generic x y c in 0 <= z < 2 ^ 64 /\ 0 <= carry < 2 ^ 64 /\ carry * 2 ^ 64 + z = x * y + c.
Proof.
  intros X Y C. rewrite scalar_mul_generic_ok by assumption. assert (H : 0 <= x * y + c < 2 ^ 64 * 2 ^ 64) by nia.
  assert (D := Z.div_mod (x * y + c) (2 ^ 64) ltac:(lia)). assert (M := Z.mod_pos_bound (x * y + c) (2 ^ 64) ltac:(lia)). unfold u64.
  split; [exact M|]. split; [|lia]. split; [apply Z.div_pos; lia|apply Z.div_lt_upper_bound; lia].
Qed.
Print Assumptions C122_limb_product.
(** the zeros before the first bit: after them the highest bit is set *)
Theorem C122_zeros n : 0 < n < 2 ^ 64 -> let z := leading_zeroes_generic n in 0 <= z <= 63 /\ 2 ^ 63 <= n * 2 ^ z < 2 ^ 64.
Proof. intros H. cbv zeta. rewrite leading_zeroes_generic_ok by exact H. exact (FloatProofs6.lz_spec n H). Qed.
Print Assumptions C122_zeros.
(** zero has 64 of them; it is not asked *)
Theorem C122_zero_refuted : leading_zeroes_generic 0 = 63.
Proof. reflexivity. Qed.
Print Assumptions C122_zero_refuted.
Example C122_ex1 : from_chars_float_32 true f64 (s2z "3.14,") = Ok (FFRes (s2z ",") EOk (Some 0x40091EB851EB851F)) /\
  from_chars_float_32 false f32 (s2z "-314e-2e") = Ok (FFRes (s2z "e") EOk (Some 0xC048F5C3)) /\
  from_chars_float_32 false f64 (s2z "-0e5") = Ok (FFRes [] EOk (Some 0x8000000000000000)).
Proof. repeat split; vm_compute; reflexivity. Qed.
(** many digits: the 32-bit limbs *)
Example C122_ex2 : from_chars_float_32 true f64 (s2z "9007199254740993.00000000000000000000000000000001") = Ok (FFRes [] EOk (Some 0x4340000000000001)) /\
  from_chars_float_32 true f64 (s2z "9007199254740993.00000000000000000000000000000000") = Ok (FFRes [] EOk (Some 0x4340000000000000)) /\
  from_chars_float_32 true f64 (s2z "2.47032822920623272088284396434110686182529901307162382212792841250337753635104375932649918180817996189898282347722858865463328355177969898199387398005390939063150356595155702263922908583924491051844359318028499365361525003193704576782492193656236698636584807570015857692699037063119282795585513329278343384093519780155312465972635795746227664652728272200563740064854999770965994704540208281662262378573934507363390079677619305775067401763246736009689513405355374585166611342237666786041621596804619144672918403005300575308490487653917113865916462395249126236538818796362393732804238910186723484976682350898633885879256283027559956575244555072551893136908362547791869486679949683240497058210285131854513962138377228261454376934125320985913276672363281250000000000000000000000000000001e-324") = Ok (FFRes [] EOk (Some 1)).
Proof. repeat split; vm_compute; reflexivity. Qed.
Example C122_ex3 : umul128_generic 0xffffffffffffffff 0xfffffffffffffffe = (0xfffffffffffffffd, 2) /\
  scalar_mul_generic 0xffffffffffffffff 0xffffffffffffffff 0xffffffffffffffff = (0xffffffffffffffff, 0) /\
  leading_zeroes_generic 0x00010000 = 47 /\ leading_zeroes_generic 1 = 63.
Proof. repeat split; vm_compute; reflexivity. Qed.
