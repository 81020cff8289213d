(** C73, C82: the random generators. *)
From Verif Require Import Base SubstrModel MemUtilModel RngModel RngSpec RngProofs RngProofs2 RngPeriod.

(** ** C73: the generators are well defined *)
Theorem C73_splitmix_bijection : bijection (fun s => fst (splitmix_next s)).
Proof. exact splitmix_bij. Qed.
Theorem C73_splitmix_states : forall s, state64 s -> full_cycle (fun s => fst (splitmix_next s)) s.
Proof. exact splitmix_cycle. Qed.
(** The 64 bits of which 32 are returned are different for different states. *)
Theorem C73_splitmix_mix : bijection splitmix_mix.
Proof. exact splitmix_mix_bij. Qed.
Theorem C73_xorshift_bijection : bijection (fun s => fst (xorshift_next s)).
Proof. exact xorshift_bij. Qed.
Theorem C73_pcg_bijection : forall inc, bijection (pcg_step inc).
Proof. exact pcg_bij. Qed.
Theorem C73_splitmix_discard : forall n s, splitmix_discard n s = calls (fun s => fst (splitmix_next s)) n s.
Proof. exact splitmix_discard_ok. Qed.
Theorem C73_xorshift_discard : forall n s, xorshift_discard n s = calls (fun s => fst (xorshift_next s)) n s.
Proof. exact xorshift_discard_ok. Qed.
Theorem C73_pcg_discard : forall n inc s q, pcg_discard n inc s = Ok q -> q = calls (pcg_step inc) n s.
Proof. exact pcg_discard_ok. Qed.
(** pcg in the lower half of the states: a rotation to the right by the upper bits. *)
Theorem C73_pcg_partial : forall inc s, 0 <= s < 2 ^ 63 ->
  exists y, pcg_next inc s = Ok (pcg_step inc s, y) /\ rotated (Z.lxor (s / 2 ^ 18) s / 2 ^ 27 mod 2 ^ 32) (s / 2 ^ 59) y.
Proof. exact pcg_ok. Qed.
(** In the upper half the amount is negative: undefined. The default state is one of them. *)
Theorem C73_pcg_refuted : forall inc s, 2 ^ 63 <= s < 2 ^ 64 -> pcg_next inc s = Ub.
Proof. exact pcg_ub. Qed.
Theorem C73_pcg_default_refuted : pcg_next 0xda3e39cb94b95bdb 0x853c49e6748fea9b = Ub.
Proof. reflexivity. Qed.
(** Seeding from a device: the two numbers overlap in one bit, so different ones merge. *)
Theorem C73_device_seed_refuted : exists a b a' b', 0 <= a < 2 ^ 32 /\ 0 <= b < 2 ^ 32 /\ 0 <= a' < 2 ^ 32 /\ 0 <= b' < 2 ^ 32 /\
  (a, b) <> (a', b') /\ device_seed a b = device_seed a' b'.
Proof. exists 1, 0, 0, (2 ^ 31). repeat split; try lia; try reflexivity. discriminate. Qed.
(** pcg::seed from the two 64-bit numbers: the increment is odd, so that the period is full
    (C82_pcg_period), if the state before the second call is in the lower half *)
Theorem C73_pcg_seed_partial : forall s0 s1, 0 <= s0 < 2 ^ 64 -> 0 <= s1 < 2 ^ 64 -> (2 * s1 + 1 + s0) mod 2 ^ 64 < 2 ^ 63 ->
  exists s, pcg_seed s0 s1 = Ok (s, (2 * s1 + 1) mod 2 ^ 64) /\ Z.odd ((2 * s1 + 1) mod 2 ^ 64) = true /\
    s = (((2 * s1 + 1 + s0) mod 2 ^ 64) * 6364136223846793005 + (2 * s1 + 1)) mod 2 ^ 64.
Proof. exact pcg_seed_ok. Qed.
Print Assumptions C73_pcg_seed_partial.
Theorem C73_pcg_seed_refuted : forall s0 s1, 0 <= s0 < 2 ^ 64 -> 0 <= s1 < 2 ^ 64 -> 2 ^ 63 <= (2 * s1 + 1 + s0) mod 2 ^ 64 -> pcg_seed s0 s1 = Ub.
Proof. exact pcg_seed_ub. Qed.
Print Assumptions C73_pcg_seed_refuted.
Print Assumptions C73_splitmix_bijection.
Print Assumptions C73_splitmix_states.
Print Assumptions C73_splitmix_mix.
Print Assumptions C73_xorshift_bijection.
Print Assumptions C73_pcg_bijection.
Print Assumptions C73_splitmix_discard.
Print Assumptions C73_xorshift_discard.
Print Assumptions C73_pcg_discard.
Print Assumptions C73_pcg_partial.
Print Assumptions C73_pcg_refuted.
Print Assumptions C73_pcg_default_refuted.
Print Assumptions C73_device_seed_refuted.
(** splitmix seeded with 1: first 64-bit output of the published algorithm 0x910a2dec89025cc1 *)
Example C73_ex1 : splitmix_mix (fst (splitmix_next 1)) = 0x910a2dec89025cc1.
Proof. reflexivity. Qed.
Example C73_ex2 : splitmix_next 1 = (11400714819323198486, Z.shiftr 0x910a2dec89025cc1 31 mod 2 ^ 32).
Proof. reflexivity. Qed.
Example C73_ex3 : xorshift_next 1 = (2147491841, 0xd989bcac).
Proof. reflexivity. Qed.
Example C73_ex4 : pcg_next 1 (2 ^ 60 + 987654321987) = Ok (8225738968356664264, 2147493679).
Proof. reflexivity. Qed.
Example C73_ex6 : pcg_seed 1000 77 = Ok ((1155 * 6364136223846793005 + 155) mod 2 ^ 64, 155) /\ pcg_seed 0 (2 ^ 62) = Ub.
Proof. split; vm_compute; reflexivity. Qed.
Example C73_ex5 : splitmix_discard 3 5 = (5 + 3 * 0x9E3779B97F4A7C15) mod 2 ^ 64.
Proof. reflexivity. Qed.

(** ** C82: periods *)
(** From every seed but 0 xorshift runs through 2^64 - 1 different states, that is all but 0. *)
Theorem C82_xorshift_period : forall s, state64 s -> s <> 0 ->
  (forall i j : nat, Z.of_nat i < 2 ^ 64 - 1 -> Z.of_nat j < 2 ^ 64 - 1 -> calls xorshift_step i s = calls xorshift_step j s -> i = j) /\
  (forall n : nat, Z.of_nat n = 2 ^ 64 - 1 -> calls xorshift_step n s = s).
Proof. exact xorshift_cycle. Qed.
Theorem C82_xorshift_nonzero : forall s, state64 s -> s <> 0 -> xorshift_step s <> 0.
Proof. exact xorshift_nonzero. Qed.
(** pcg with an odd increment runs through all 2^64 states. *)
Theorem C82_pcg_period : forall inc s, Z.odd inc = true -> state64 s -> full_cycle (pcg_step inc) s.
Proof. exact pcg_cycle. Qed.
(** An even increment keeps the lowest bit, and the constructor from a seed makes it even,
    so such a generator misses at least half of the states. *)
Theorem C82_pcg_even_refuted : forall inc n s, Z.odd inc = false -> state64 s -> Z.odd (calls (pcg_step inc) n s) = Z.odd s.
Proof. exact pcg_parity. Qed.
Theorem C82_pcg_ctor_refuted : forall s, Z.odd (snd (pcg_ctor s)) = false.
Proof.
  intros s. unfold pcg_ctor. cbn [snd]. rewrite u64_mod, <- Z.bit0_odd, Z.mod_pow2_bits_low, Z.bit0_odd, Z.shiftl_mul_pow2 by lia.
  rewrite Z.odd_mul. apply andb_false_r.
Qed.
(** The seed 0 gives only zeros, for xorshift and for pcg. *)
Theorem C82_zero_refuted : xorshift_next 0 = (0, 0) /\ pcg_next (snd (pcg_ctor 0)) (fst (pcg_ctor 0)) = Ok (0, 0).
Proof. split; reflexivity. Qed.
Print Assumptions C82_xorshift_period.
Print Assumptions C82_xorshift_nonzero.
Print Assumptions C82_pcg_period.
Print Assumptions C82_pcg_even_refuted.
Print Assumptions C82_pcg_ctor_refuted.
Print Assumptions C82_zero_refuted.
Example C82_ex1 : calls xorshift_step 4 1 <> 1 /\ calls xorshift_step 4 1 = xorshift_discard 4 1.
Proof. split; [vm_compute; discriminate|reflexivity]. Qed.
Example C82_ex2 : pcg_ctor 5 = (5, 10) /\ Z.odd (calls (pcg_step 10) 7 5) = true.
Proof. split; reflexivity. Qed.
