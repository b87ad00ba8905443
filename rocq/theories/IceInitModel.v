(** Freezing temperatures of new super-droplets. *)
From Coq Require Import Reals Arith Bool.
From Verif Require Import Base ThermoModel CondPassModel.
Local Open Scope R_scope.

(** ice_nucleation.hpp:19-44: T_freeze_CDF_inv for mineral particles.  For [u] = 0 the code returns plus infinity; here [ln 0] is a
    number, so that theorems need 0 < u. *)
Definition T_freeze_CDF_inv (rd2_insol u : R) : R :=
  let A := 4 * PI * rd2_insol in
  if Rltb (1 / 10 ^ 20) A then 27315 / 100 + (8934 / 1000 - ln (- ln (1 - u) / A)) / (517 / 1000) else 23515 / 100.

(** urand.hpp:64-70, 128-137 (generate_n): the first [n] elements of the vector become random numbers *)
Definition rand_u01 (draw : nat -> R) (n : nat) (v : nat -> R) : nat -> R := fun i => if (i <? n)%nat then draw i else v i.

(** particles_impl_init_T_freeze.ipp:16-31; [v] is what the temporary vector contained.  The ranges of both iterators start at n_part_old
    and end with the ends of vectors. *)
Definition init_T_freeze (draw : nat -> R) (n_part_old n_part_to_init : nat) (rd2_insol v T_freeze : nat -> R) : nat -> R :=
  let u01 := rand_u01 draw n_part_to_init v in
  fun i => if (n_part_old <=? i)%nat then T_freeze_CDF_inv (rd2_insol i) (u01 i) else T_freeze i.
