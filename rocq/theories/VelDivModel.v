(** Diagnostic of the divergence of velocity: diag_vel_div (src/particles_diag.ipp:17-28, 499-561).
    Courant numbers in library arrays are filled by sync_in (E2lModel); face numbers are those of init_grid (SpaceModel). *)
From Coq Require Import List Arith ZArith Reals Bool.
From Verif Require Import Base SpaceModel CondPassModel DiagModel E2lModel.
Import ListNotations.
Local Open Scope R_scope.

(** add_div (17-28); the member named dx gets the time step *)
Definition add_div (dt div l r : R) : R := div + (r - l) / dt.
(** one transform over cells (519-557): [a] is a Courant number array, [l] and [r] the vectors of faces; counting iterators start at halo_x *)
Definition div_pass (dt : R) (ncell h : nat) (a : Z -> R) (l r : nat -> nat) (m : nat -> R) : nat -> R :=
  fun c => if (c <? ncell)%nat then add_div dt (m c) (a (Z.of_nat (l (h + c)%nat))) (a (Z.of_nat (r (h + c)%nat))) else m c.
(** diag_vel_div (499-561); [dt] is opts_init.dt.  Fall through of cases: 3 runs y, z, x; 2 runs z, x; 1 runs x *)
Definition diag_vel_div (g : geom) (dt : R) (cx cy cz : Z -> R) (st : dst) : dst :=
  let nyn := Z.to_nat (ny g) in let nzn := Z.to_nat (nz g) in let D := n_dims g in
  let h := Z.to_nat (halo_x g) in let nc := Z.to_nat (lib_size g a_cell) in
  if (D =? 0)%nat then st
  else
    let m0 := fun _ : nat => 0 in
    let my := if (D =? 3)%nat then div_pass dt nc h cy (fre_ix nyn nzn) (hnd_ix nyn nzn) m0 else m0 in
    let mz := if (2 <=? D)%nat then div_pass dt nc h cz (blw_ix D nyn nzn) (abv_ix D nyn nzn) my else my in
    let mx := div_pass dt nc h cx lft_ix (rgt_ix D nyn nzn) mz in
    mk_dst (g_P st) (g_E st) (g_sel st) (fun k => k) mx (g_cnum st) nc.
