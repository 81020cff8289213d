(** Model of src/c4/hash.hpp and src/c4/szconv.hpp. *)
From Verif Require Import Base SubstrModel MemUtilModel.

(** ** hash.hpp *)
(** acc = (acc ^ size_t(c)) * Prime: computed in size_t, stored in ResultT: 45-46 *)
Definition fnv_step (rt : ity) (prime acc c : Z) : Z := wrap rt (u64 (Z.lxor acc c * prime)).
(** update: 39-49 *)
Fixpoint fnv_loop (rt : ity) (prime : Z) (m : list Z) (p : Z) (k : nat) (acc : Z) : res Z :=
  match k with
  | O => Ok acc
  | S k => do c <- rd m p ;; fnv_loop rt prime m (p + 1) k (fnv_step rt prime acc c)
  end.
Definition fnv_update (rt : ity) (prime state : Z) (m : list Z) (data size : Z) : res Z :=
  fnv_loop rt prime m data (Z.to_nat size) state.
(** fnv1a_32, fnv1a_64: 58-59 *)
Definition basis32 : Z := 2166136261.
Definition prime32 : Z := 16777619.
Definition basis64 : Z := 14695981039346656037.
Definition prime64 : Z := 1099511628211.
(** hash_bytes: 74-79 (64-bit size_t) *)
Definition hash_bytes (m : list Z) (data size : Z) : res Z := fnv_update u64t prime64 basis64 m data size.
(** hash_bytes of a char array of N elements: 84-90 *)
Definition hash_array (str : list Z) : res Z := fnv_update u64t prime64 basis64 str 0 (len str).
(** with 32-bit results *)
Definition hash32 (m : list Z) (data size : Z) : res Z := fnv_update u32t prime32 basis32 m data size.

(** ** szconv.hpp *)
(** sizeof *)
Definition size_of (t : ity) : Z := match iw t with W8 => 1 | W16 => 2 | W32 => 4 | W64 => 8 end.
(** is_narrower_size: 16-38 *)
Definition is_narrower (out inp : ity) : bool :=
  if Bool.eqb (isgn out) (isgn inp) then size_of out <? size_of inp
  else (size_of out <? size_of inp) || ((size_of out =? size_of inp) && (isgn out && negb (isgn inp))).
(** szconv: 41-62. [dbg]: C4_XASSERT is on *)
Definition szconv (dbg : bool) (out inp : ity) (sz : Z) : res Z :=
  if negb (is_narrower out inp) then Ok (wrap out sz)
  else if dbg && negb (0 <=? sz) then Err
  else if dbg && negb (wrap inp sz <=? wrap inp (imax out)) then Err
  else Ok (wrap out sz).
