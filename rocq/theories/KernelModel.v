(** * Collision kernels
    Models src/detail/{kernels,kernel_utils,kernel_interpolation,kernel_onishi_nograv,wang_collision_enhancement}.hpp and the
    choice of the kernel in src/impl/initialization/particles_impl_init_kernel.ipp.
    Simplifications: real arithmetic, except for one assignment whose rounding is a parameter; the values of the tables of
    efficiencies are a parameter (a list). An access outside of an array gives [None] (undefined behaviour), and so does the
    square root of a negative number and a division by zero in the turbulent kernel (not a number). *)
From Coq Require Import List Arith NArith ZArith Reals Bool.
From Verif Require Import Base ThermoModel.
Import ListNotations.
Open Scope R_scope.

(** the members of tpl_calc_wrap that kernels use (tpl_calc_wrapper.hpp:15-27): multiplicities, squared radii, fall speeds; and of
    the cell: density, viscosity, dissipation rate *)
Record ksd := { k_n : N; k_rw2 : R; k_vt : R }.
Record kair := { k_rhod : R; k_eta : R; k_diss : R }.

(** std::max of two multiplicities, converted to real_t *)
Definition max_n (a b : ksd) : R := N2R (N.max (k_n a) (k_n b)).

(** kernel_golovin::calc, kernels.hpp:50-78 *)
Definition golovin (p : R) (a b : ksd) : R :=
  PI * 4 / 3 * p * max_n a b * (k_rw2 a * sqrt (k_rw2 a) + k_rw2 b * sqrt (k_rw2 b)).

(** kernel_geometric::calc, kernels.hpp:96-123 *)
Definition geometric (a b : ksd) : R :=
  PI * max_n a b * Rabs (k_vt a - k_vt b) * (k_rw2 a + k_rw2 b + 2 * sqrt (k_rw2 a * k_rw2 b)).

(** kernel_geometric_with_multiplier::calc, kernels.hpp:138-141 *)
Definition geometric_with_multiplier (p : R) (a b : ksd) : R := geometric a b * p.

(** kernel_long::calc, kernels.hpp:154-175 *)
Definition long (a b : ksd) : R :=
  let res := geometric a b in
  let r_L := cmax (sqrt (k_rw2 a)) (sqrt (k_rw2 b)) in
  if Rltb r_L (50 / 1000000) then
    let r_s := cmin (sqrt (k_rw2 a)) (sqrt (k_rw2 b)) in
    if Rleb r_s (3 / 1000000) then 0
    else res * (450000000 * r_L * r_L * (1 - 3 / 1000000 / r_s))
  else res.

(** kernel_index, kernel_utils.hpp:10-18 *)
Definition kernel_index (x : nat) : nat := if Nat.leb x 100 then x else (100 + (x - 100) / 10)%nat.
(** kernel_vector_index, kernel_utils.hpp:21-29 *)
Definition kernel_vector_index (i j n_user : nat) : nat :=
  if Nat.leb j i then (i * (i + 1) / 2 + j + n_user)%nat else (j * (j + 1) / 2 + i + n_user)%nat.

(** largest radius in micrometres, the same in all of kernel_definitions/*.hpp *)
Definition r_max : R := 1100.

Section Interpolation.
  (** rounding to real_t in lines 13 and 15 *)
  Variable rnd : R -> R.
  (** kernel_parameters: those of the user, then the table *)
  Variables (n_user : nat) (params : list R).

  (** kernel_interpolation.hpp:12-15 *)
  Definition limited (r : R) : R := if Rleb r_max r then rnd (r_max - 1 / 1000000) else r.
  (** kernel_interpolation.hpp:20-42: left node, distance to the next one *)
  Definition left_node (r : R) : nat :=
    if Rleb 100 r then (N.to_nat (truncN (r / 10)) * 10)%nat else N.to_nat (truncN r).
  Definition node_dist (r : R) : nat := if Rleb 100 r then 10%nat else 1%nat.
  Definition at_node (x y : nat) : option R := nth_error params (kernel_vector_index (kernel_index x) (kernel_index y) n_user).

  (** interpolated_efficiency, kernel_interpolation.hpp:8-68 *)
  Definition interpolated_efficiency (r1 r2 : R) : option R :=
    let r1 := limited (r1 * 1000000) in let r2 := limited (r2 * 1000000) in
    let dx := node_dist r1 in let dy := node_dist r2 in
    let x0 := left_node r1 in let y0 := left_node r2 in
    let x1 := (x0 + dx)%nat in let y1 := (y0 + dy)%nat in
    let w0 := r1 - INR x0 in let w1 := INR x1 - r1 in
    let w2 := r2 - INR y0 in let w3 := INR y1 - r2 in
    match at_node x0 y0, at_node x1 y0, at_node x0 y1, at_node x1 y1 with
    | Some p0, Some p1, Some p2, Some p3 =>
      Some ((p0 * w1 * w3 + p1 * w0 * w3 + p2 * w1 * w2 + p3 * w0 * w2) / INR dx / INR dy)
    | _, _, _, _ => None
    end.

  (** kernel_geometric_with_efficiencies::calc, kernels.hpp:189-201 *)
  Definition geometric_with_efficiencies (a b : ksd) : option R :=
    match interpolated_efficiency (sqrt (k_rw2 a)) (sqrt (k_rw2 b)) with
    | Some e => Some (e * geometric a b)
    | None => None
    end.
End Interpolation.

(** wang_collision_enhancement.hpp:14-41 *)
Definition wang_R0 : list R :=
  [10 / 1000000; 20 / 1000000; 30 / 1000000; 40 / 1000000; 50 / 1000000; 60 / 1000000; 100 / 1000000].
Definition wang_rat : list R := [0; 1/10; 2/10; 3/10; 4/10; 5/10; 6/10; 7/10; 8/10; 9/10; 1].
Definition wang_eta : list (list (list R)) :=
  [[[1.74; 1.74; 1.773; 1.49; 1.207; 1.207; 1.0]; [4.976; 4.976; 3.593; 2.519; 1.445; 1.445; 1.0]];
   [[1.46; 1.46; 1.421; 1.245; 1.069; 1.069; 1.0]; [2.984; 2.984; 2.181; 1.691; 1.201; 1.201; 1.0]];
   [[1.32; 1.32; 1.245; 1.123; 1.000; 1.000; 1.0]; [1.988; 1.988; 1.475; 1.313; 1.150; 1.150; 1.0]];
   [[1.250; 1.250; 1.148; 1.087; 1.025; 1.025; 1.0]; [1.490; 1.490; 1.187; 1.156; 1.126; 1.126; 1.0]];
   [[1.186; 1.186; 1.066; 1.060; 1.056; 1.056; 1.0]; [1.249; 1.249; 1.088; 1.090; 1.092; 1.092; 1.0]];
   [[1.045; 1.045; 1.000; 1.014; 1.028; 1.028; 1.0]; [1.139; 1.139; 1.130; 1.091; 1.051; 1.051; 1.0]];
   [[1.070; 1.070; 1.030; 1.038; 1.046; 1.046; 1.0]; [1.220; 1.220; 1.190; 1.138; 1.086; 1.086; 1.0]];
   [[1.000; 1.000; 1.054; 1.042; 1.029; 1.029; 1.0]; [1.325; 1.325; 1.267; 1.165; 1.063; 1.063; 1.0]];
   [[1.223; 1.223; 1.117; 1.069; 1.021; 1.021; 1.0]; [1.716; 1.716; 1.345; 1.223; 1.100; 1.100; 1.0]];
   [[1.570; 1.570; 1.244; 1.166; 1.088; 1.088; 1.0]; [3.788; 3.788; 1.501; 1.311; 1.120; 1.120; 1.0]];
   [[20.3; 20.3; 14.6; 8.61; 2.60; 2.60; 1.0]; [36.52; 36.52; 19.16; 22.80; 26.0; 26.0; 1.0]]].
Definition eta_at (rat eps R0 : nat) : option R :=
  match nth_error wang_eta rat with
  | Some l => match nth_error l eps with Some l => nth_error l R0 | None => None end
  | None => None
  end.
(** the loops in lines 56-61: the first index not below [i] whose entry is greater than [x], or the length *)
Fixpoint first_greater (l : list R) (x : R) : nat :=
  match l with [] => 0%nat | y :: r => if Rltb x y then 0%nat else S (first_greater r x) end.

(** operator(), wang_collision_enhancement.hpp:44-84 *)
Definition wang (r1 r2 eps : R) : option R :=
  let '(R', r) := if Rltb r2 r1 then (r1, r2) else (r2, r1) in
  if Rltb (100 / 1000000) R' then Some 1
  else
    let n_eps := if Rleb eps (25 / 1000) then 0%nat else 1%nat in
    let n_R0 := first_greater wang_R0 R' in
    let ratio := r / R' in
    let n_rat := S (first_greater (tl wang_rat) ratio) in
    if Nat.eqb n_R0 0 then eta_at n_rat n_eps n_R0
    else
      match nth_error wang_R0 (n_R0 - 1), nth_error wang_R0 n_R0, nth_error wang_rat (n_rat - 1), nth_error wang_rat n_rat,
            eta_at (n_rat - 1) n_eps (n_R0 - 1), eta_at (n_rat - 1) n_eps n_R0, eta_at n_rat n_eps (n_R0 - 1), eta_at n_rat n_eps n_R0 with
      | Some Ra, Some Rb, Some qa, Some qb, Some e00, Some e01, Some e10, Some e11 =>
        let w0 := R' - Ra in let w1 := Rb - R' in let w2 := ratio - qa in let w3 := qb - ratio in
        Some ((e00 * w1 * w3 + e01 * w0 * w3 + e10 * w1 * w2 + e11 * w0 * w2) / (Rb - Ra) / (qb - qa))
      | _, _, _, _, _, _, _, _ => None
      end.

(** square root and division with their exceptions *)
Definition osqrt (x : R) : option R := if Rltb x 0 then None else Some (sqrt x).
Definition odiv (x y : R) : option R := if Reqb y 0 then None else Some (x / y).
Definition obind {A B} (x : option A) (f : A -> option B) : option B := match x with Some a => f a | None => None end.
Notation "'do' x <- a ; b" := (obind a (fun x => b)) (at level 200, x name, a at level 100, b at level 200).

(** The exponent in line 66 of kernel_onishi_nograv.hpp is real_t(1/4): an integer quotient *)
Definition leta_exponent : R := IZR (Z.quot 1 4).

(** kernel_onishi_nograv, kernel_onishi_nograv.hpp:30-153, with the exponent of line 66 as a parameter.  Of the square roots and
    quotients those whose argument or denominator is not obviously positive for positive arguments are checked. *)
Definition onishi_nograv_with (exponent r1 r2 Re_l eps dnu ratio_den : R) : option R :=
  if Rltb eps (1 / 10000000000) then Some 0 else
  let urms := sqrt (Re_l / sqrt (15 / dnu / eps)) in
  let CR := r1 + r2 in
  let taup1 := ratio_den * 4 * r1 * r1 / 18 / dnu in
  let taup2 := ratio_den * 4 * r2 * r2 / 18 / dnu in
  let leta := cpow (dnu * dnu * dnu / eps) exponent in
  let tauk := leta * leta / dnu in
  let Te := Re_l * tauk / sqrt 15 in
  let theta1 := 2.5 * taup1 / Te in
  let theta2 := 2.5 * taup2 / Te in
  let phi := cmax (theta2 / theta1) (theta1 / theta2) in
  let cw := 1 + 0.6 * exp (- cpow (phi - 1) 1.5) in
  let gamma := 0.183 * urms * urms / (dnu * dnu / leta / leta) in
  let gamma := phi * gamma in
  let WrS2 := dnu * dnu * CR * CR / (leta * leta * leta * leta) / 15 in
  do q <- odiv (urms * urms * gamma) (gamma - 1);
  let WrA2 := q * ((theta1 + theta2) - 4 * theta1 * theta2 / (theta1 + theta2) *
                     sqrt ((1 + theta1 + theta2) / (1 + theta1) / (1 + theta2)))
                * (1 / (1 + theta1) / (1 + theta2) - 1 / (1 + gamma * theta1) / (1 + gamma * theta2)) in
  let WrA2 := cw * WrA2 in
  let WrA2 := WrA2 / 3 in
  do Wr <- osqrt (2 / PI * (WrA2 + WrS2));
  let A1 := 110 in let A2 := 0.38 in let A3 := 0.16 in
  let alpha := log10 (0.26 * sqrt Re_l) / log10 2 in
  let alpha := cmax alpha (1 / 10 ^ 20) in
  let CA := 0.06 * cpow Re_l 0.30 in
  let CB := 0.4 in
  let StA := cpow (A2 / A1 * Re_l) 0.25 in
  let hlpr := cbrt (A2 / A3) in
  let StB := hlpr * hlpr * cbrt Re_l in
  let St1 := taup1 / tauk in
  let St2 := taup2 / tauk in
  let '(y11, y21) := if Rleb St2 StA then (A1 * St1 * St1, 0) else (0, A2 * Re_l / (St1 * St1)) in
  let y31 := A3 * sqrt (Re_l / St1) in
  let '(y12, y22) := if Rleb St1 StA then (A1 * St2 * St2, 0) else (0, A2 * Re_l / (St2 * St2)) in
  let y32 := A3 * sqrt (Re_l / St2) in
  let za1 := 0.5 * (1 - tanh ((log10 St1 - log10 StA) / CA)) in
  let zb1 := 0.5 * (1 + tanh ((log10 St1 - log10 StB) / CB)) in
  let za2 := 0.5 * (1 - tanh ((log10 St2 - log10 StA) / CA)) in
  let zb2 := 0.5 * (1 + tanh ((log10 St2 - log10 StB) / CB)) in
  let gR1 := y11 * cpow za1 alpha + y21 * cpow (1 - za1) alpha + y31 * zb1 + 1 in
  let gR2 := y12 * cpow za2 alpha + y22 * cpow (1 - za2) alpha + y32 * zb2 + 1 in
  let xai := cmax (taup2 / taup1) (taup1 / taup2) in
  let RG12 := 2.6 * exp (- xai) + 0.205 * exp (- (0.0206 * xai)) * 0.5 * (1 + tanh (xai - 3)) in
  do s1 <- osqrt (gR1 - 1);
  do s2 <- osqrt (gR2 - 1);
  let gR := 1 + RG12 * s1 * s2 in
  Some (2 * PI * CR * CR * Wr * gR).
Definition onishi_nograv : R -> R -> R -> R -> R -> R -> option R := onishi_nograv_with leta_exponent.

(** kernel_onishi::calc, kernels.hpp:222-249; one parameter of the user: the Reynolds number *)
Definition onishi (rnd : R -> R) (params : list R) (air : kair) (a b : ksd) : option R :=
  let rwa := sqrt (k_rw2 a) in let rwb := sqrt (k_rw2 b) in
  do Re <- nth_error params 0;
  do nograv <- onishi_nograv rwa rwb Re (k_diss air) (k_eta air / k_rhod air) (rho_w / k_rhod air);
  let geo := geometric a b in
  do e <- interpolated_efficiency rnd 1 params rwa rwb;
  do w <- wang rwa rwb Re;
  Some (e * w * sqrt (geo * geo + nograv * nograv)).

(** init_kernel, particles_impl_init_kernel.ipp:5-247: which kernel is used and with which parameters; [None]: an exception.
    [table]: the efficiencies of that kernel. *)
Inductive kernel_name := Golovin | Geometric | Long | Hall | HallDavis | VohlDavis | HallPinskySc | HallPinsky1000 | HallPinskyCb | OnishiHall | OnishiHallDavis.
Inductive kernel_used :=
  UsesGolovin (p : R) | UsesGeometric | UsesMultiplier (p : R) | UsesLong | UsesTable (params : list R) | UsesOnishi (params : list R).
Definition init_kernel (k : kernel_name) (turb_coal_switch : bool) (user : list R) (table : kernel_name -> list R) : option kernel_used :=
  match k with
  | Golovin => match user with [p] => Some (UsesGolovin p) | _ => None end
  | Geometric => match user with [] => Some UsesGeometric | [p] => Some (UsesMultiplier p) | _ => None end
  | Long => match user with [] => Some UsesLong | _ => None end
  | Hall | HallDavis | VohlDavis | HallPinskySc | HallPinsky1000 | HallPinskyCb =>
    match user with [] => Some (UsesTable (table k)) | _ => None end
  | OnishiHall | OnishiHallDavis =>
    match user with [_] => if turb_coal_switch then Some (UsesOnishi (user ++ table k)) else None | _ => None end
  end.
(** p_kernel->calc *)
Definition calc (rnd : R -> R) (u : kernel_used) (air : kair) (a b : ksd) : option R :=
  match u with
  | UsesGolovin p => Some (golovin p a b)
  | UsesGeometric => Some (geometric a b)
  | UsesMultiplier p => Some (geometric_with_multiplier p a b)
  | UsesLong => Some (long a b)
  | UsesTable params => geometric_with_efficiencies rnd 0 params a b
  | UsesOnishi params => onishi rnd params air a b
  end.
