(** The tables of collision efficiencies that the library comes with, by kernel. *)
From Coq Require Import List NArith Reals.
From Verif Require Import Base KernelModel EffHall EffHallDavis EffVohlDavis EffHallPinskySc EffHallPinsky1000 EffHallPinskyCb.
Import ListNotations.
Local Open Scope R_scope.

(** the numbers in millionths *)
Definition shipped_millionths (k : kernel_name) : list N :=
  (* particles_impl_init_kernel.ipp:69, 90, 110, 130, 150, 170, 192, 217: which table is read for which kernel *)
  match k with
  | Hall | OnishiHall => eff_Hall
  | HallDavis | OnishiHallDavis => eff_HallDavis
  | VohlDavis => eff_VohlDavis
  | HallPinskySc => eff_HallPinskySc
  | HallPinsky1000 => eff_HallPinsky1000
  | HallPinskyCb => eff_HallPinskyCb
  | Golovin | Geometric | Long => []
  end.
(** as real numbers (literals are not rounded to real_t here) *)
Definition shipped (k : kernel_name) : list R := map (fun n => N2R n / 1000000) (shipped_millionths k).
