(** Model of src/c4/ext/rng/rng.hpp: the generators splitmix, xorshift and pcg.
    States are 64-bit unsigned integers; a call returns the new state and the result. *)
From Verif Require Import Base SubstrModel MemUtilModel.

(** seed(std::random_device&): 41-44, 94-97; [a], [b] are the two numbers drawn *)
Definition device_seed (a b : Z) : Z := Z.lor (u64 (Z.shiftl a 31)) b.

(** splitmix::operator(): 46-52 *)
Definition splitmix_gamma : Z := 0x9E3779B97F4A7C15.
Definition splitmix_mix (z : Z) : Z :=
  let z := u64 (Z.lxor z (Z.shiftr z 30) * 0xBF58476D1CE4E5B9) in
  let z := u64 (Z.lxor z (Z.shiftr z 27) * 0x94D049BB133111EB) in
  Z.lxor z (Z.shiftr z 31).
Definition splitmix_next (s : Z) : Z * Z :=
  let s := u64 (s + splitmix_gamma) in (s, u32 (Z.shiftr (splitmix_mix s) 31)).

(** xorshift::operator(): 99-106 *)
Definition xorshift_step (s : Z) : Z :=
  let s := Z.lxor s (Z.shiftr s 11) in
  let s := Z.lxor s (u64 (Z.shiftl s 31)) in
  Z.lxor s (Z.shiftr s 18).
Definition xorshift_next (s : Z) : Z * Z :=
  let result := u64 (s * 0xd989bcacc137dcd5) in (xorshift_step s, u32 (Z.shiftr result 32)).

(** shifts of uint32_t: undefined for amounts outside 0..31 *)
Definition shr32 (x k : Z) : res Z := if (0 <=? k) && (k <? 32) then Ok (Z.shiftr x k) else Ub.
Definition shl32 (x k : Z) : res Z := if (0 <=? k) && (k <? 32) then Ok (u32 (Z.shiftl x k)) else Ub.
(** pcg::operator(): 164-172. The cast to int64_t makes the shift arithmetic *)
Definition pcg_mul : Z := 6364136223846793005.
Definition pcg_step (inc s : Z) : Z := u64 (u64 (s * pcg_mul) + inc).
Definition pcg_next (inc s : Z) : res (Z * Z) :=
  let xorshifted := u32 (Z.shiftr (Z.lxor (Z.shiftr s 18) s) 27) in
  let rot := Z.shiftr (wrap i64 s) 59 in
  do a <- shr32 xorshifted rot ;;
  do b <- shl32 xorshifted (Z.land (u64 (- rot)) 31) ;;
  Ok (pcg_step inc s, Z.lor a b).
(** pcg(uint64_t): 145: state and increment *)
Definition pcg_ctor (s : Z) : Z * Z := (s, u64 (Z.shiftl s 1)).
(** pcg::seed(std::random_device&): 152-162: state and increment *)
Definition pcg_seed (s0 s1 : Z) : res (Z * Z) :=
  let inc := Z.lor (u64 (Z.shiftl s1 1)) 1 in
  do '(s, _) <- pcg_next inc 0 ;;
  do '(s, _) <- pcg_next inc (u64 (s + s0)) ;; Ok (s, inc).

(** discard(n): 54-58, 108-112, 174-178 *)
Fixpoint splitmix_discard (n : nat) (s : Z) : Z := match n with O => s | S n => splitmix_discard n (fst (splitmix_next s)) end.
Fixpoint xorshift_discard (n : nat) (s : Z) : Z := match n with O => s | S n => xorshift_discard n (fst (xorshift_next s)) end.
Fixpoint pcg_discard (n : nat) (inc s : Z) : res Z :=
  match n with O => Ok s | S n => do '(s, _) <- pcg_next inc s ;; pcg_discard n inc s end.
