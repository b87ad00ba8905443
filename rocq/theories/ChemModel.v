(** * Aqueous chemistry in super-droplets
    src/impl/chemistry/*.ipp, include/libcloudph++/common/{chem,molar_mass,dissoc,henry,react}.hpp,
    src/impl/initialization/particles_impl_init_chem.ipp, the chemistry loop of src/particles_step.ipp:269-308.
    Arithmetic is that of the real numbers.  The debug-build assertions, messages and nancheck are not modelled. *)
From Coq Require Import List Arith NArith ZArith Reals Bool.
From Verif Require Import Base ThermoModel TomsModel MomsModel InitModel.
Import ListNotations.
Local Open Scope R_scope.

(** chem.hpp:9-21: enum chem_species_t *)
Definition HNO3 : nat := 0.
Definition NH3 : nat := 1.
Definition CO2 : nat := 2.
Definition SO2 : nat := 3.
Definition H2O2 : nat := 4.
Definition O3 : nat := 5.
Definition S_VI : nat := 6.
Definition Hp : nat := 7. (* H *)
Definition chem_gas_n : nat := 6.
Definition chem_rhs_beg : nat := 3.
Definition chem_rhs_fin : nat := 7.
Definition chem_all : nat := 8.

(** molar_mass.hpp:16-48 (kg/mol); M_H is in ThermoModel *)
Definition M_SO2 : R := 64 / 1000.
Definition M_H2O2 : R := 34 / 1000.
Definition M_O3 : R := 48 / 1000.
Definition M_NH3 : R := 17 / 1000.
Definition M_HNO3 : R := 63 / 1000.
Definition M_CO2 : R := 44 / 1000.
Definition M_SO2_H2O : R := 82 / 1000.
Definition M_NH3_H2O : R := 35 / 1000.
Definition M_NH4 : R := 18 / 1000.
Definition M_CO2_H2O : R := 62 / 1000.
Definition M_H2SO4 : R := 98 / 1000.
Definition M_HSO4 : R := 97 / 1000.

(** dissoc.hpp:20-48 (mol/m3; K_H2O in mol2/m6; K) *)
Definition K_H2O : R := 1 / 100000000.
Definition K_SO2 : R := 13.
Definition K_HSO3 : R := 66 / 1000000.
Definition K_HSO4 : R := 12.
Definition K_CO2 : R := 43 / 100000.
Definition K_HCO3 : R := 468 / 10000000000.
Definition K_NH3 : R := 17 / 1000.
Definition K_HNO3 : R := 15400.
Definition dKR_CO2 : R := -1000.
Definition dKR_HCO3 : R := -1760.
Definition dKR_SO2 : R := 1960.
Definition dKR_HSO3 : R := 1500.
Definition dKR_NH3 : R := -450.
Definition dKR_HNO3 : R := 8700.
Definition dKR_HSO4 : R := 2720.
(** dissoc.hpp:50-59 *)
Definition K_temp (T K dKR : R) : R := K * exp (dKR * (1 / T - 1 / 298)).
Definition Kt_CO2 (T : R) := K_temp T K_CO2 dKR_CO2.
Definition Kt_HCO3 (T : R) := K_temp T K_HCO3 dKR_HCO3.
Definition Kt_SO2 (T : R) := K_temp T K_SO2 dKR_SO2.
Definition Kt_HSO3 (T : R) := K_temp T K_HSO3 dKR_HSO3.
Definition Kt_NH3 (T : R) := K_temp T K_NH3 dKR_NH3.
Definition Kt_HNO3 (T : R) := K_temp T K_HNO3 dKR_HNO3.
Definition Kt_HSO4 (T : R) := K_temp T K_HSO4 dKR_HSO4.

(** henry.hpp:29-65, in the order of the arrays of chem_henry.ipp:264-316 *)
Definition H_ (g : nat) : R :=
  match g with
  | 0 => 21 / 10 * 100000 * 1000 / p_stp | 1 => 62 * 1000 / p_stp | 2 => 34 / 10 / 100 * 1000 / p_stp
  | 3 => 123 / 100 * 1000 / p_stp | 4 => 74500 * 1000 / p_stp | _ => 113 / 100 / 100 * 1000 / p_stp
  end.
Definition dHR_ (g : nat) : R :=
  match g with 0 => 8700 | 1 => 4100 | 2 => 2440 | 3 => 3150 | 4 => 7300 | _ => 2540 end.
Definition M_gas_ (g : nat) : R :=
  match g with 0 => M_HNO3 | 1 => M_NH3 | 2 => M_CO2 | 3 => M_SO2 | 4 => M_H2O2 | _ => M_O3 end.
Definition M_aq_ (g : nat) : R :=
  match g with 0 => M_HNO3 | 1 => M_NH3_H2O | 2 => M_CO2_H2O | 3 => M_SO2_H2O | 4 => M_H2O2 | _ => M_O3 end.
Definition D_ (g : nat) : R :=
  match g with
  | 0 => 6525 / 10000 / 10000 | 1 => 1978 / 10000 / 10000 | 2 => 1381 / 10000 / 10000
  | 3 => 1089 / 10000 / 10000 | 4 => 8700 / 10000 / 10000 | _ => 1444 / 10000 / 10000
  end.
Definition ac_ (g : nat) : R :=
  match g with 0 => 5 / 100 | 1 => 5 / 100 | 2 => 5 / 100 | 3 => 35 / 1000 | 4 => 18 / 1000 | _ => 53 / 100000 end.
(** henry.hpp:70-92 *)
Definition molec_vel (T M : R) : R := sqrt (8 / PI * (kaBoNA * T / M)).
(** henry.hpp:96-114 *)
Definition mass_trans (rw2 D acc T M : R) : R := 1 / (rw2 / 3 / D + 4 / 3 / acc * sqrt rw2 / molec_vel T M).
(** henry.hpp:117-125 *)
Definition H_temp (T H dHR : R) : R := H * exp (dHR * (1 / T - 1 / 298)).

(** react.hpp:33-67 *)
Definition R_S_H2O2_k : R := 75.
Definition R_S_H2O2_K : R := 13 / 1000.
Definition R_S_O3_k0 : R := 24.
Definition R_S_O3_k1 : R := 370.
Definition R_S_O3_k2 : R := 1500000.
Definition dER_H2O2_k : R := -4430.
Definition dER_O3_k0 : R := 0.
Definition dER_O3_k1 : R := -5530.
Definition dER_O3_k2 : R := -5280.
Definition R_temp (T R0 dER : R) : R := R0 * exp (dER * (1 / T - 1 / 298)).

(** State: super-droplets (n_part, ijk, n, rw2, rd3, masses of chemicals by species), trace gases by species
    and cell (ambient_chem, sstp_tmp_chem_0 to _5), fields by cell. *)
Record chst := mk_chst {
  h_np : nat; h_ijk : nat -> nat; h_n : nat -> N; h_rw2 : nat -> R; h_rd3 : nat -> R;
  h_m : nat -> nat -> R;
  h_amb : nat -> nat -> R; h_tmp : nat -> nat -> R;
  h_rhod : nat -> R; h_dv : nat -> R; h_T : nat -> R }.
Definition set_m (s : chst) (m : nat -> nat -> R) : chst :=
  mk_chst (h_np s) (h_ijk s) (h_n s) (h_rw2 s) (h_rd3 s) m (h_amb s) (h_tmp s) (h_rhod s) (h_dv s) (h_T s).
Definition set_rd3 (s : chst) (r : nat -> R) : chst :=
  mk_chst (h_np s) (h_ijk s) (h_n s) (h_rw2 s) r (h_m s) (h_amb s) (h_tmp s) (h_rhod s) (h_dv s) (h_T s).
Definition set_amb (s : chst) (a : nat -> nat -> R) : chst :=
  mk_chst (h_np s) (h_ijk s) (h_n s) (h_rw2 s) (h_rd3 s) (h_m s) a (h_tmp s) (h_rhod s) (h_dv s) (h_T s).
Definition set_tmp (s : chst) (a : nat -> nat -> R) : chst :=
  mk_chst (h_np s) (h_ijk s) (h_n s) (h_rw2 s) (h_rd3 s) (h_m s) (h_amb s) a (h_rhod s) (h_dv s) (h_T s).
(** temperature of the cell of super-droplet i: permutation iterator over T with ijk *)
Definition T_of (s : chst) (i : nat) : R := h_T s (h_ijk s i).

(** chem_ante.ipp:15-32, 67-86: volume of droplets; 34-57: cleanup *)
Definition chem_vol (rw2 : R) : R := 4 / 3 * PI * cpow rw2 (3 / 2).
Definition chem_vol_ante (s : chst) : nat -> R := fun i => chem_vol (h_rw2 s i).
Definition cleanup (x : R) : R := if Rleb 0 x then x else 0.
Definition chem_cleanup (s : chst) : chst :=
  set_m s (fun k i => if (k <? chem_all)%nat then cleanup (h_m s k i) else h_m s k i).

(** chem_strength.ipp:14-66: droplets dilute enough *)
Definition ionic_strength (mSIV mCIV mNV mNIII mSVI mH V T : R) : R :=
  let cSIV := mSIV / M_SO2_H2O / V in
  let cCIV := mCIV / M_CO2_H2O / V in
  let cNV := mNV / M_HNO3 / V in
  let cNIII := mNIII / M_NH3_H2O / V in
  let cSVI := mSVI / M_H2SO4 / V in
  let cH := mH / M_H / V in
  1 / 2 * (
    cH +
    K_H2O / cH +
    cH * cSVI / (cH + Kt_HSO4 T) +
    4 * Kt_HSO4 T * cSVI / (cH + Kt_HSO4 T) +
    Kt_CO2 T * cH * cCIV / (cH * cH + Kt_CO2 T * cH + Kt_CO2 T * Kt_HCO3 T) +
    4 * Kt_CO2 T * Kt_HCO3 T * cCIV / (cH * cH + Kt_CO2 T * cH + Kt_CO2 T * Kt_HCO3 T) +
    Kt_SO2 T * cH * cSIV / (cH * cH + Kt_SO2 T * cH + Kt_SO2 T * Kt_HSO3 T) +
    4 * Kt_SO2 T * Kt_HSO3 T * cSIV / (cH * cH + Kt_SO2 T * cH + Kt_SO2 T * Kt_HSO3 T) +
    Kt_HNO3 T * cNV / (cH + Kt_HNO3 T) +
    Kt_NH3 T * cH * cNIII / (K_H2O + Kt_NH3 T * cH)).
(** In C++ a droplet without H+ has an infinite ionic strength (division by zero) and is not flagged;
    the first test stands for that. *)
Definition set_chem_flag (mSIV mCIV mNV mNIII mSVI mH V T : R) : bool :=
  if Reqb mH 0 then false
  else Rltb (ionic_strength mSIV mCIV mNV mNIII mSVI mH V T) (2 / 100 * 1000).
(** chem_strength.ipp:69-108 *)
Definition chem_flag_ante (s : chst) (V : nat -> R) : nat -> bool := fun i =>
  set_chem_flag (h_m s SO2 i) (h_m s CO2 i) (h_m s HNO3 i) (h_m s NH3 i) (h_m s S_VI i) (h_m s Hp i) (V i) (T_of s i).

(** chem_henry.ipp:108-190: Henry coefficient corrected for temperature and pH *)
Definition Henry_eff (g : nat) (T cH : R) : R :=
  match g with
  | 3 => H_temp T (H_ 3) (dHR_ 3) * (1 + Kt_SO2 T / cH + Kt_SO2 T * Kt_HSO3 T / cH / cH)
  | 2 => H_temp T (H_ 2) (dHR_ 2) * (1 + Kt_CO2 T / cH + Kt_CO2 T * Kt_HCO3 T / cH / cH)
  | 0 => H_temp T (H_ 0) (dHR_ 0) * (1 + Kt_HNO3 T / cH)
  | 1 => H_temp T (H_ 1) (dHR_ 1) * (1 + Kt_NH3 T / K_H2O * cH)
  | g => H_temp T (H_ g) (dHR_ g)
  end.
(** chem_henry.ipp:91-239: chem_Henry_fun; c: mass mixing ratio of the gas *)
Definition chem_Henry_fun (g : nat) (dt V T c m_old rw2 rhod mH : R) : R :=
  let cH := mH / M_H / V in
  let k := mass_trans rw2 (D_ g) (ac_ g) T (M_gas_ g) in
  (m_old + dt * V * k * c * rhod * (M_aq_ g / M_gas_ g)) / (1 + dt * k / Henry_eff g T cH / kaBoNA / T).
(** chem_henry.ipp:28-62: ambient_chem_calculator *)
Definition ambient_chem_calculator (M_aq M_gas m_new m_old rhod dv c : R) : R :=
  let new_c := c - (m_new - m_old) / M_aq * M_gas / dv / rhod in
  if Rltb 0 new_c then new_c else new_c * 0.
(** chem_henry.ipp:340-356, 384-405: mass of species k in the droplets of the occupied cells; chem_summator 18-26 *)
Definition chem_mass (sijk sid : list nat) (s : chst) (m : nat -> R) : list (nat * R) :=
  run_sums sijk (map (fun id => N2R (h_n s id) * m id) sid).
(** chem_henry.ipp:408-419 *)
Definition chem_apply (g : nat) (s : chst) (mass_old mass_new : list (nat * R)) (amb : nat -> R) : nat -> R :=
  fold_left (fun acc on =>
      let k := fst (snd on) in
      upd acc k (ambient_chem_calculator (M_aq_ g) (M_gas_ g) (snd (snd on)) (snd (fst on)) (h_rhod s k) (h_dv s k) (acc k)))
    (combine mass_old mass_new) amb.
(** chem_henry.ipp:338-425: one gas *)
Definition chem_henry_gas (dt : R) (V : nat -> R) (flag : nat -> bool) (sijk sid : list nat) (s : chst) (g : nat) : chst :=
  let mass_old := chem_mass sijk sid s (h_m s g) in
  let mg := fun i => if flag i
    then chem_Henry_fun g dt (V i) (T_of s i) (h_amb s g (h_ijk s i)) (h_m s g i) (h_rw2 s i) (h_rhod s (h_ijk s i)) (h_m s Hp i)
    else h_m s g i in
  let mass_new := chem_mass sijk sid s mg in
  set_amb (set_m s (upd (h_m s) g mg)) (upd (h_amb s) g (chem_apply g s mass_old mass_new (h_amb s g))).
(** chem_henry.ipp:243-426; [sijk], [sid]: the result of hskpng_sort (330) *)
Definition chem_henry (dt : R) (V : nat -> R) (flag : nat -> bool) (sijk sid : list nat) (s : chst) : chst :=
  fold_left (chem_henry_gas dt V flag sijk sid) (seq 0 chem_gas_n) s.

(** chem_dissoc.ipp:18-99: chem_minfun *)
Definition chem_minfun (mSIV mCIV mNV mNIII mSVI V T mH : R) : R :=
  let cH := mH / M_H / V in
  - mH + M_H * (
    K_H2O * M_H * (V * V) / mH
    + mSIV / M_SO2_H2O * Kt_SO2 T / cH / (1 + Kt_SO2 T / cH + Kt_SO2 T * Kt_HSO3 T / cH / cH)
    + 2 * mSIV / M_SO2_H2O * Kt_SO2 T * Kt_HSO3 T / cH / cH / (1 + Kt_SO2 T / cH + Kt_SO2 T * Kt_HSO3 T / cH / cH)
    + cH * mSVI / M_H2SO4 / (cH + Kt_HSO4 T)
    + 2 * Kt_HSO4 T * mSVI / M_H2SO4 / (cH + Kt_HSO4 T)
    + mCIV / M_CO2_H2O * Kt_CO2 T / cH / (1 + Kt_CO2 T / cH + Kt_CO2 T * Kt_HCO3 T / cH / cH)
    + 2 * mCIV / M_CO2_H2O * Kt_CO2 T * Kt_HCO3 T / cH / cH / (1 + Kt_CO2 T / cH + Kt_CO2 T * Kt_HCO3 T / cH / cH)
    + mNV / M_HNO3 * Kt_HNO3 T / cH / (1 + Kt_HNO3 T / cH)
    - mNIII / M_NH3_H2O * Kt_NH3 T / K_H2O * cH / (1 + Kt_NH3 T / K_H2O * cH)).
(** chem_dissoc.ipp:101-140: chem_electroneutral: eps_tolerance<float>(32), at most 100 evaluations.
    [fps]: numeric limits of float; the conversion of the end points to float in the tolerance test is not modelled. *)
Definition m_H_lft (V : R) : R := 1 / 100000 * V * M_H.
Definition m_H_rht (V : R) : R := 10000 * V * M_H.
Definition chem_electroneutral (fp fps : fptype) (mSIV mCIV mNV mNIII mSVI V T : R) : option R :=
  match toms748_solve_ends fp (chem_minfun mSIV mCIV mNV mNIII mSVI V T) (m_H_lft V) (m_H_rht V) (eps_tolerance fps 32) 100 with
  | Some (r, _, _) => Some r
  | None => None (* out of fuel: does not happen, see ChemDissoc *)
  end.
(** chem_dissoc.ipp:142-195 *)
Definition chem_dissoc (fp fps : fptype) (V : nat -> R) (flag : nat -> bool) (s : chst) : chst :=
  set_m s (upd (h_m s) Hp (fun i =>
    if flag i then
      match chem_electroneutral fp fps (h_m s SO2 i) (h_m s CO2 i) (h_m s HNO3 i) (h_m s NH3 i) (h_m s S_VI i) (V i) (T_of s i) with
      | Some r => r | None => h_m s Hp i
      end
    else h_m s Hp i)).

(** chem_react.ipp:49-92: rates of the two reactions (mol/s) in a droplet *)
Definition S_IV_den (T cH : R) : R := 1 + Kt_SO2 T / cH + Kt_SO2 T * Kt_HSO3 T / cH / cH.
Definition O3_rate (dt V T mSIV mO3 mH : R) : R :=
  let cH := mH / M_H / V in
  let r := V * mO3 / M_O3 / V * mSIV / M_SO2_H2O / V / S_IV_den T cH
           * (R_temp T R_S_O3_k0 dER_O3_k0 + R_temp T R_S_O3_k1 dER_O3_k1 * Kt_SO2 T / cH
              + R_temp T R_S_O3_k2 dER_O3_k2 * Kt_SO2 T * Kt_HSO3 T / cH / cH) in
  let r := if Rltb (r * dt) (mO3 / M_O3) then r else mO3 / M_O3 / dt in
  if Rltb (r * dt) (mSIV / M_SO2_H2O) then r else mSIV / M_SO2_H2O / dt.
Definition H2O2_rate (dt V T mSIV mH2O2 mO3 mH : R) : R :=
  let cH := mH / M_H / V in
  let o := O3_rate dt V T mSIV mO3 mH in
  let r := V * R_temp T R_S_H2O2_k dER_H2O2_k * Kt_SO2 T * mH2O2 / M_H2O2 / V * mSIV / M_SO2_H2O / V
           / S_IV_den T cH / (1 + R_S_H2O2_K * cH) in
  let r := if Rltb (r * dt) (mH2O2 / M_H2O2) then r else mH2O2 / M_H2O2 / dt in
  if Rltb (r * dt) (mSIV / M_SO2_H2O - o * dt) then r else mSIV / M_SO2_H2O / dt - o.
(** chem_react.ipp:94-116 *)
Definition chem_rhs_helper (k : nat) (dt V T mSIV mH2O2 mO3 mH : R) : R :=
  let o := O3_rate dt V T mSIV mO3 mH in
  let h := H2O2_rate dt V T mSIV mH2O2 mO3 mH in
  match k with
  | 3 => - (M_SO2_H2O * (o + h))
  | 6 => M_H2SO4 * (o + h)
  | 4 => - (M_H2O2 * h)
  | 5 => - (M_O3 * o)
  | _ => 0
  end.
(** chem_react.ipp:147-218: right-hand side for all droplets; psi: species SO2 ... S_VI *)
Definition chem_rhs (dt : R) (V : nat -> R) (T : nat -> R) (mH : nat -> R) (flag : nat -> bool)
           (psi : nat -> nat -> R) : nat -> nat -> R := fun k i =>
  if flag i then chem_rhs_helper k dt (V i) (T i) (psi SO2 i) (psi H2O2 i) (psi O3 i) (mH i) else 0.
(** boost::numeric::odeint::runge_kutta4::do_step (particles_impl.ipp:188-196): the classical scheme *)
Definition rk4 (f : (nat -> nat -> R) -> nat -> nat -> R) (dt : R) (x : nat -> nat -> R) : nat -> nat -> R :=
  let k1 := f x in
  let k2 := f (fun k i => x k i + dt * (1 / 2) * k1 k i) in
  let k3 := f (fun k i => x k i + dt * (1 / 2) * k2 k i) in
  let k4 := f (fun k i => x k i + dt * k3 k i) in
  fun k i => x k i + dt * (1 / 6) * k1 k i + dt * (1 / 3) * k2 k i + dt * (1 / 3) * k3 k i + dt * (1 / 6) * k4 k i.
(** chem_react.ipp:221-255 *)
Definition chem_new_rd3 (chem_rho m_old m_new rd3 : R) : R := rd3 + 3 / 4 / PI / chem_rho * (m_new - m_old).
(** chem_react.ipp:258-326; the other species are not part of the vector given to the stepper *)
Definition chem_react (dt chem_rho : R) (V : nat -> R) (flag : nat -> bool) (s : chst) : chst :=
  let m := rk4 (chem_rhs dt V (T_of s) (h_m s Hp) flag) dt (h_m s) in
  let m := fun k => if ((chem_rhs_beg <=? k) && (k <? chem_rhs_fin))%nat then m k else h_m s k in
  set_rd3 (set_m s m) (fun i => if flag i then chem_new_rd3 chem_rho (h_m s S_VI i) (m S_VI i) (h_rd3 s i) else h_rd3 s i).

(** sstp_chem.ipp:54-101; [sstp]: current number of substeps *)
Definition sstp_step_chem (allow var_rho : bool) (sstp : nat) (step : nat) (s : chst) : chst :=
  if negb allow then s else
  fold_left (fun s ix =>
      let d := fun c => h_amb s ix c - h_tmp s ix c in
      if (step =? 0)%nat then
        let s := set_tmp s (upd (h_tmp s) ix d) in
        set_amb s (upd (h_amb s) ix (fun c => h_amb s ix c - (INR sstp - 1) * h_tmp s ix c / INR sstp))
      else set_amb s (upd (h_amb s) ix (fun c => h_amb s ix c + h_tmp s ix c / INR sstp)))
    (seq 0 (if var_rho then 6 else 6 - 1)) s.
(** sstp_chem.ipp:14-32 *)
Definition sstp_save_chem (allow : bool) (s : chst) : chst :=
  if negb allow then s else set_tmp s (fun g => if (g <? 6)%nat then h_amb s g else h_tmp s g).

(** options: opts_init.chem_switch, opts_init.chem_rho, opts.chem_dsl, chem_dsc, chem_rct, allow_sstp_chem (opts_init.sstp_chem > 1),
    var_rho, the current dt and sstp_chem, floating-point formats of the root finder and its tolerance *)
Record chopts := {
  ho_switch : bool; ho_rho : R; ho_dsl : bool; ho_dsc : bool; ho_rct : bool;
  ho_allow : bool; ho_var_rho : bool; ho_dt : R; ho_sstp : nat; ho_fp : fptype; ho_fps : fptype }.
(** particles_step.ipp:276-306: one substep of chemistry; None: exception (chem_ante.ipp:70) *)
Definition chem_substep (o : chopts) (sijk sid : list nat) (step : nat) (s : chst) : option chst :=
  if negb (ho_switch o) then None else
  let V := chem_vol_ante s in
  let flag := chem_flag_ante s V in
  let dt := ho_dt o / INR (ho_sstp o) in
  let s := if ho_dsl o then
      chem_cleanup (chem_henry dt V flag sijk sid (sstp_step_chem (ho_allow o) (ho_var_rho o) (ho_sstp o) step s))
    else s in
  let s := if ho_dsc o then chem_cleanup (chem_dissoc (ho_fp o) (ho_fps o) V flag s) else s in
  let s := if ho_rct o then chem_cleanup (chem_react dt (ho_rho o) V flag s) else s in
  Some s.
(** particles_step.ipp:272-308; [sorts]: outcome of the sort in each substep *)
Fixpoint chem_loop (o : chopts) (sorts : nat -> list nat * list nat) (step left : nat) (s : chst) : option chst :=
  match left with
  | O => Some s
  | S l => match chem_substep o (fst (sorts step)) (snd (sorts step)) step s with
           | None => None
           | Some s' => chem_loop o sorts (S step) l s'
           end
  end.
Definition chem_step (o : chopts) (sorts : nat -> list nat * list nat) (s : chst) : option chst :=
  if ho_dsl o || ho_dsc o || ho_rct o then chem_loop o sorts 0 (ho_sstp o) s else Some s.

(** particles_impl_init_chem.ipp:34-132, 177-223: initial composition, ammonium bisulfate *)
Definition chem_init (chem_rho rd3 : R) (k : nat) : R :=
  let m := 4 / 3 * PI * chem_rho * rd3 in
  match k with
  | 1 => m * (M_NH3_H2O / (M_NH4 + M_HSO4))
  | 7 => m * (M_H / (M_NH4 + M_HSO4))
  | 6 => m * (M_H2SO4 / (M_NH4 + M_HSO4))
  | _ => 0
  end.
