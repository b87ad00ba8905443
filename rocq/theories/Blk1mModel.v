(** Single-moment bulk scheme: include/libcloudph++/blk_1m/*.hpp.
    Containers are lists of grid cells (all containers of one call have the same length, as the
    code's zip requires).  Floating-point numbers are reals; [assert]s are not executed (NDEBUG);
    the theorems show separately that the asserted bounds hold. *)
From Coq Require Import Reals List ZArith Bool.
From Verif Require Import Base ThermoModel.
Import ListNotations.
Local Open Scope R_scope.

(** blk_1m/options.hpp:16-46 *)
Record opts := {
  o_cond : bool; o_cevp : bool; o_revp : bool; o_conv : bool; o_accr : bool; o_sedi : bool;
  o_homA1 : bool; o_homA2 : bool; o_hetA : bool; o_hetB : bool; o_depA : bool; o_depB : bool;
  o_rimA : bool; o_rimB : bool; o_melA : bool; o_melB : bool;
  o_r_c0 : R; o_k_acnv : R; o_r_eps : R;
  o_adj_nwtrph : bool; o_nwtrph_iters : nat; o_th_dry : bool; o_const_p : bool }.

(** values of the state arrays in one grid cell *)
Record cell := { rhod : R; pres : R; th : R; rv : R; rc : R; rr : R; ria : R; rib : R }.
(** values of the tendency arrays in one grid cell *)
Record dots := { dth : R; drv : R; drc : R; drr : R; dria : R; drib : R }.

(** result of a call: normal return, an exception leaving the arrays as given, or (for the RK4
    adjustment only) no termination within the given number of loop iterations *)
Inductive outcome (A : Type) := Ok (a : A) | Throw (a : A) | NoEnd.
Arguments Ok {A}. Arguments Throw {A}. Arguments NoEnd {A}.

(** the range-for over the zipped containers: cells are processed in order; an exception leaves
    the remaining cells as they were *)
Fixpoint for_cells {A} (f : A -> outcome A) (l : list A) : outcome (list A) :=
  match l with
  | [] => Ok []
  | c :: r =>
    match f c with
    | Throw c' => Throw (c' :: r)
    | NoEnd => NoEnd
    | Ok c' =>
      match for_cells f r with
      | Ok r' => Ok (c' :: r') | Throw r' => Throw (c' :: r') | NoEnd => NoEnd
      end
    end
  end.

(** *** Saturation adjustment, adj_cellwise.hpp *)

(** adj_cellwise.hpp:126-138: temperature and pressure; None models the exception *)
Definition Tp (o : opts) (rhod pres th rv : R) : option (R * R) :=
  if negb (o_const_p o) && o_th_dry o
  then let T := dry_T th rhod in Some (T, dry_p rhod rv T)
  else if o_const_p o && negb (o_th_dry o)
  then Some (th * exner pres, pres)
  else None.

Record nwt := { n_drc : R; n_rv : R; n_th : R; n_T : R; n_p : R }.
(** adj_cellwise.hpp:146-167: one Newton-Raphson iteration *)
Definition nwt_iter (o : opts) (rhod ex th rv L0 : R) (s : nwt) : nwt :=
  let pvs := p_vs (n_T s) in
  let L := l_v (n_T s) in
  let coeff := L * L0 / (c_pd * R_v) / (n_T s * n_T s) / (1 - pvs / n_p s) in
  let rvs := r_vs (n_T s) (n_p s) in
  let drc := n_drc s + (n_rv s - rvs) / (1 + coeff * rvs) in
  let rv_tmp := rv - drc in
  let th_tmp := th + n_th s / n_T s * L0 / c_pd * drc in
  let T_tmp := if o_th_dry o then dry_T th_tmp rhod else th_tmp * ex in
  let p := if negb (o_const_p o) then dry_p rhod rv_tmp T_tmp else n_p s in
  {| n_drc := drc; n_rv := rv_tmp; n_th := th_tmp; n_T := T_tmp; n_p := p |}.
Fixpoint nwt_iters (k : nat) (o : opts) (rhod ex th rv L0 : R) (s : nwt) : nwt :=
  match k with O => s | S j => nwt_iters j o rhod ex th rv L0 (nwt_iter o rhod ex th rv L0 s) end.

Definition set_adj (c : cell) (th' rv' rc' rr' : R) : cell :=
  {| rhod := rhod c; pres := pres c; th := th'; rv := rv'; rc := rc'; rr := rr';
     ria := ria c; rib := rib c |}.

(** adj_cellwise.hpp:104-181: the loop body of adj_cellwise_nwtrph *)
Definition nwt_cell (o : opts) (c : cell) : outcome cell :=
  match Tp o (rhod c) (pres c) (th c) (rv c) with
  | None => Throw c
  | Some (T, p) =>
    let L0 := l_v T in
    let s := nwt_iters (o_nwtrph_iters o) o (rhod c) (exner (pres c)) (th c) (rv c) L0
               {| n_drc := 0; n_rv := rv c; n_th := th c; n_T := T; n_p := p |} in
    let d := cmin (rv c) (cmax (- rc c) (n_drc s)) in
    Ok (set_adj c (th c + th c / T * L0 / c_pd * d) (rv c - d) (rc c + d) (rr c))
  end.
(** adj_cellwise.hpp:90-182 *)
Definition adj_cellwise_nwtrph (o : opts) (l : list cell) : outcome (list cell) :=
  if negb (o_cond o) then Ok l else for_cells (nwt_cell o) l.

(** adj_cellwise.hpp:20-87: the functor F; its data members after the last evaluation *)
Record fun_state := { f_r : R; f_rs : R; f_T : R; f_p : R }.
(** adj_cellwise.hpp:54-73: update().  With an ambiguous choice of flags the code throws; that is
    decided once, in [rk4_cell], so here the first branch stands for th_dry and the second for
    const_p. *)
Definition f_update (o : opts) (rhod p th rv : R) : fun_state :=
  if negb (o_const_p o) && o_th_dry o
  then let T := dry_T th rhod in let p' := dry_p rhod rv T in
       {| f_r := rv; f_rs := r_vs T p'; f_T := T; f_p := p' |}
  else let T := th * exner p in
       {| f_r := rv; f_rs := r_vs T p; f_T := T; f_p := p |}.

(** boost odeint runge_kutta4::do_step as used in adj_cellwise.hpp:280-286: the classical
    four-stage scheme; F's members keep the values of the fourth evaluation.  Returns the new th
    and those members.  (boost is outside the repository; its do_step is modelled by the textbook
    scheme it documents.) *)
Definition rk4_do_step (o : opts) (rhod : R) (p th rv h : R) : R * fun_state :=
  let F1 := f_update o rhod p th rv in
  let k1 := d_th_d_rv (f_T F1) th in
  let th2 := th + h / 2 * k1 in
  let F2 := f_update o rhod (f_p F1) th2 (rv + h / 2) in
  let k2 := d_th_d_rv (f_T F2) th2 in
  let th3 := th + h / 2 * k2 in
  let F3 := f_update o rhod (f_p F2) th3 (rv + h / 2) in
  let k3 := d_th_d_rv (f_T F3) th3 in
  let th4 := th + h * k3 in
  let F4 := f_update o rhod (f_p F3) th4 (rv + h) in
  let k4 := d_th_d_rv (f_T F4) th4 in
  (th + h * (k1 / 6 + k2 / 3 + k3 / 3 + k4 / 6), F4).

(** std::copysign(x, s) *)
Definition copysign (x s : R) : R := if Rle_dec 0 s then Rabs x else - Rabs x.

(** adj_cellwise.hpp:222-226, 245-253: variables of the RK4 loop *)
Record rk := { k_th : R; k_rv : R; k_rc : R; k_rr : R; k_drr_max : R; k_F : fun_state }.

(** adj_cellwise.hpp:256-267: the loop condition *)
Definition rk4_cond (o : opts) (s : rk) : bool :=
  let ve := k_rv s - f_rs (k_F s) in
  Rltb (o_r_eps o) ve ||
  (o_cevp o && Rltb ve (- o_r_eps o) &&
   (Rltb 0 (k_rc s) || (o_revp o && Rltb 0 (k_rr s) && Rltb 0 (k_drr_max s)))).

(** adj_cellwise.hpp:268-309: the loop body; the boolean tells whether the loop is left by the
    break of line 307.  [incloud] is assigned in the condition whenever the body is entered with a
    negative vapour excess (r_eps > 0). *)
Definition rk4_body (o : opts) (rhod : R) (s : rk) : bool * rk :=
  let ve := k_rv s - f_rs (k_F s) in
  let incloud := Rltb 0 (k_rc s) in
  let h0 := - copysign (cmin (o_r_eps o / 2) (ve / 2)) ve in
  let h := if Rltb ve 0
           then if incloud then cmin (k_rc s) h0 else cmin (k_drr_max s) (cmin (k_rr s) h0)
           else h0 in
  let r := rk4_do_step o rhod (f_p (k_F s)) (k_th s) (k_rv s) h in
  if Rltb 0 ve || incloud
  then (false, {| k_th := fst r; k_rv := k_rv s + h; k_rc := k_rc s - h; k_rr := k_rr s;
                  k_drr_max := k_drr_max s; k_F := snd r |})
  else (Reqb (k_drr_max s - h) 0,
        {| k_th := fst r; k_rv := k_rv s + h; k_rc := k_rc s; k_rr := k_rr s - h;
           k_drr_max := k_drr_max s - h; k_F := snd r |}).

(** adj_cellwise.hpp:256-309: the loop, run for at most [fuel] iterations *)
Fixpoint rk4_loop (fuel : nat) (o : opts) (rhod : R) (s : rk) : option rk :=
  if negb (rk4_cond o s) then Some s
  else match fuel with
       | O => None
       | S k => let (brk, s') := rk4_body o rhod s in
                if brk then Some s' else rk4_loop k o rhod s'
       end.

(** formulae.hpp:44-72 *)
Definition evaporation_rate (rv rvs rr rhod p : R) : R :=
  (1 - rv / rvs) / rhod
  * (16 / 10 + 1249 / 10 * cpow (1 / 1000 * rhod * rr) (2046 / 10000))
  * cpow (1 / 1000 * rhod * rr) (525 / 1000)
  / (540 + 255000 * (1 / p / rvs)).

(** adj_cellwise.hpp:236-252: initialisation of F and of the Kessler limit *)
Definition rk4_init (o : opts) (dt : R) (c : cell) : rk :=
  let p := if o_const_p o then pres c else 0 in
  let F := f_update o (rhod c) p (th c) (rv c) in
  {| k_th := th c; k_rv := rv c; k_rc := rc c; k_rr := rr c;
     k_drr_max := if Rltb (f_r F) (f_rs F) && Rltb 0 (rr c) && o_revp o
                  then dt * evaporation_rate (f_r F) (f_rs F) (rr c) (rhod c) (f_p F) else 0;
     k_F := F |}.

(** adj_cellwise.hpp:216-318: the loop body of adj_cellwise_rk4 *)
Definition rk4_cell (fuel : nat) (o : opts) (dt : R) (c : cell) : outcome cell :=
  if eqb (o_const_p o) (o_th_dry o) then Throw c
  else match rk4_loop fuel o (rhod c) (rk4_init o dt c) with
       | None => NoEnd
       | Some s => Ok (set_adj c (k_th s) (k_rv s) (k_rc s) (k_rr s))
       end.
(** adj_cellwise.hpp:187-319 *)
Definition adj_cellwise_rk4 (fuel : nat) (o : opts) (dt : R) (l : list cell) : outcome (list cell) :=
  if negb (o_cond o) then Ok l else for_cells (rk4_cell fuel o dt) l.

(** adj_cellwise.hpp:323-340 *)
Definition adj_cellwise (fuel : nat) (o : opts) (dt : R) (l : list cell) : outcome (list cell) :=
  if o_adj_nwtrph o then adj_cellwise_nwtrph o l else adj_cellwise_rk4 fuel o dt l.

(** *** Tendencies, rhs_cellwise.hpp *)

(** formulae.hpp:23-30 *)
Definition autoconversion_rate (rc rc_thresh k : R) : R := k * cmax 0 (rc - rc_thresh).
(** formulae.hpp:34-42 *)
Definition collection_rate (rc rr : R) : R := 22 / 10 * rc * cpow rr (875 / 1000).

Definition add_dots (d : dots) (a b c e f g : R) : dots :=
  {| dth := dth d + a; drv := drv d + b; drc := drc d + c; drr := drr d + e;
     dria := dria d + f; drib := drib d + g |}.

(** rhs_cellwise.hpp:17-61: loop body of rhs_cellwise_hlpr *)
Definition hlpr_cell (o : opts) (x : cell * dots) : cell * dots :=
  let c := fst x in
  let f := (if o_conv o then autoconversion_rate (rc c) (o_r_c0 o) (o_k_acnv o) else 0)
         + (if o_accr o then collection_rate (rc c) (rr c) else 0) in
  (c, add_dots (snd x) 0 0 (- f) f 0 0).
(** rhs_cellwise.hpp:63-75 *)
Definition rhs_cellwise (o : opts) (l : list (cell * dots)) : outcome (list (cell * dots)) :=
  for_cells (fun x => Ok (hlpr_cell o x)) l.

(** rhs_cellwise.hpp:97-155: second loop of rhs_cellwise_revap *)
Definition revap_cell (o : opts) (dt : R) (x : cell * dots) : outcome (cell * dots) :=
  let c := fst x in
  match Tp o (rhod c) (pres c) (th c) (rv c) with
  | None => Throw x
  | Some (T, p) =>
    let f0 := evaporation_rate (rv c) (r_vs T p) (rr c) (rhod c) p * dt in
    let f := cmin (rr c / dt) f0 in
    Ok (c, add_dots (snd x) (d_th_d_rv T (th c) * f) f 0 (- f) 0 0)
  end.
(** rhs_cellwise.hpp:77-156 *)
Definition rhs_cellwise_revap (o : opts) (dt : R) (l : list (cell * dots))
  : outcome (list (cell * dots)) :=
  match for_cells (fun x => Ok (hlpr_cell o x)) l with
  | Ok l' => for_cells (revap_cell o dt) l'
  | z => z
  end.

(** *** Ice formulae, formulae.hpp *)

(** machine epsilon added by the code to denominators (std::numeric_limits<double>) *)
Definition feps : R := / 4503599627370496.

(** formulae.hpp:98-106: slope of the rain size distribution *)
Definition lambda_rain (rr rhod : R) : R := cpow (PI * rho_w * 10000000 / (rhod * rr)) (25 / 100).
(** formulae.hpp:168, 173-184: graupel density, slope of the ice B size distribution *)
Definition rho_ib : R := 400.
Definition lambda_ice_b (rib rhod : R) : R :=
  cpow (PI * rho_ib * 4000000 / (rhod * rib + feps)) (25 / 100).

(** formulae.hpp:119-123, 152-157: small/large ice A water content *)
Definition IWC (ria rhod : R) : R := cmax (/ 1000000000) (rhod * ria).
Definition IWCS (ria rhod : R) : R :=
  let w := IWC ria rhod in
  cmax (/ 1000000000) (cmin (cmin (1 / 1000) w) (252 / 1000000 * cpow (w / (1 / 1000)) (837 / 1000))).
Definition IWCL (ria rhod : R) : R := cmax (/ 1000000000) (IWC ria rhod - IWCS ria rhod).

(** formulae.hpp:110-141: mean mass of an ice A particle *)
Definition mass_a (ria T rhod : R) : R :=
  let tempc := T - 27316 / 100 in
  let s := IWCS ria rhod in
  let l := IWCL ria rhod in
  let alpha := cmax 1000 (4990 - 49400 * log10 (s / (1 / 1000))) in
  let m_as := 628 / 100 * rho_i / cpow alpha 3 in
  let ami := 520 / 100 + 13 / 10000 * tempc in
  let bmi := 26 / 1000 - 12 / 10000 * tempc in
  let asi := 47 / 100 + 21 / 10000 * tempc in
  let bsi := 18 / 1000 - 21 / 100000 * tempc in
  let alorat := log10 (l / (1 / 1000)) in
  let miu := cmax (46 / 10) (cmin (54 / 10) (ami + bmi * alorat)) in
  let sig := cmax 0 (cmin (5 / 10) (asi + bsi * alorat)) in
  let m_al := 524 / 100 * / 10 ^ 19 * rho_i * exp (3 * miu + 45 / 10 * (sig * sig)) in
  let delta := s / (s + l) in
  cmax (/ 10 ^ 18) (delta * m_as + (1 - delta) * m_al).

(** formulae.hpp:146-166: mean fall speed of ice A *)
Definition velocity_iceA (ria rhod : R) : R :=
  let s := IWCS ria rhod in
  let l := IWCL ria rhod in
  let v_as := 1 / 10 in
  let v_al := 9 / 10 + 1 / 10 * log10 (1000 * l) in
  let delta := s / (s + l) in
  (delta * v_as + (1 - delta) * v_al) * cpow (1 / rhod) (5 / 10).

(** formulae.hpp:188-198: mean mass of an ice B particle *)
Definition mass_b (rib rhod : R) : R :=
  cmax (/ 10 ^ 18) (PI * rho_ib / (6 * cpow (lambda_ice_b rib rhod) 3)).
(** formulae.hpp:202-212: mean fall speed of ice B *)
Definition velocity_iceB (rib rhod : R) : R :=
  312 / 10 * cpow (lambda_ice_b rib rhod) (- (37 / 100)) * cpow rhod (- (5 / 10)).

(** formulae.hpp:218-229, 244-254: Koenig's tables *)
Definition alpha_list : list R :=
  [0; 7939 / 10 ^ 11; 7841 / 10 ^ 10; 3369 / 10 ^ 9; 4336 / 10 ^ 9; 5285 / 10 ^ 9; 3728 / 10 ^ 9;
   1852 / 10 ^ 9; 2991 / 10 ^ 10; 4248 / 10 ^ 10; 7434 / 10 ^ 10; 1812 / 10 ^ 9; 4394 / 10 ^ 9;
   9145 / 10 ^ 9; 1725 / 10 ^ 8; 3348 / 10 ^ 8; 1725 / 10 ^ 8; 9175 / 10 ^ 9; 4412 / 10 ^ 9;
   2252 / 10 ^ 9; 9115 / 10 ^ 10; 4876 / 10 ^ 10; 3473 / 10 ^ 10; 4758 / 10 ^ 10; 6306 / 10 ^ 10;
   8573 / 10 ^ 10; 7868 / 10 ^ 10; 7192 / 10 ^ 10; 6515 / 10 ^ 10; 5956 / 10 ^ 10; 533 / 10 ^ 9;
   4834 / 10 ^ 10].
Definition beta_list : list R :=
  [0; 4006 / 10000; 4831 / 10000; 5320 / 10000; 5307 / 10000; 5319 / 10000; 5249 / 10000;
   4888 / 10000; 3894 / 10000; 4047 / 10000; 4318 / 10000; 4771 / 10000; 5183 / 10000;
   5463 / 10000; 5651 / 10000; 5813 / 10000; 5655 / 10000; 5478 / 10000; 5203 / 10000;
   4906 / 10000; 4447 / 10000; 4126 / 10000; 3960 / 10000; 4149 / 10000; 4320 / 10000;
   4506 / 10000; 4483 / 10000; 4460 / 10000; 4433 / 10000; 4413 / 10000; 4382 / 10000;
   4361 / 10000].
(** formulae.hpp:230-235, 255-260: the clamped temperature and the two indices read *)
Definition ttcoe (T : R) : R := cmin 0 (cmax (-31) (T - 27316 / 100)).
Definition index1 (T : R) : nat := Z.to_nat (Int_part (- ttcoe T)).
Definition index2 (T : R) : nat := S (index1 T).
(** formulae.hpp:216-238, 242-263: the interpolation.  [oob] stands for whatever is found in
    memory behind the end of the table. *)
Definition coeff (tab : list R) (oob T : R) : R :=
  let del := - ttcoe T - INR (index1 T) in
  (1 - del) * nth (index1 T) tab oob + del * nth (index2 T) tab oob.

(** formulae.hpp:266-284 *)
Definition hom_A_nucleation_1 (rv rvs rvsi T dt : R) : R :=
  let beta := if Rltb (21316 / 100) T then 1 / 10 + 9 / 10 * (T - 21316 / 100) / 20 else 1 / 10 in
  let rv_adj := beta * rvs + (1 - beta) * rvsi in
  if Rltb T (23316 / 100) then (1 - exp (- dt / dt)) * cmax 0 (rv - rv_adj) else 0.
(** formulae.hpp:288-299 *)
Definition hom_A_nucleation_2 (rc T dt : R) : R :=
  if Rltb T (23316 / 100) then (1 - exp (- dt / dt)) * rc else 0.
(** formulae.hpp:303-326 *)
Definition het_A_nucleation (ria rc T rhod dt : R) : R :=
  if Reqb rc 0 || Rltb (27316 / 100) T then 0
  else
    let N_in := cmin 100000 (1 / 100 * exp (6 / 10 * (27316 / 100 - T))) in
    (1 - exp (- dt / dt)) * cmin rc (cmax 0 (N_in * mass_a ria T rhod / rhod - ria)).
(** formulae.hpp:343-359: collision rate of rain with ice A, per unit mass of ice particle *)
Definition N_ra (rr ria T rhod : R) : R :=
  let lam := lambda_rain rr rhod in
  let v_r := 251 * cpow (lam * rhod) (- (5 / 10)) in
  let R_r := 5 / 10 / lam in
  10000000 / lam * Rabs (v_r - velocity_iceA ria rhod) * PI * R_r * R_r * ria / mass_a ria T rhod.
(** formulae.hpp:330-362 *)
Definition het_B_nucleation_1 (rr ria T rhod : R) : R :=
  if Reqb ria 0 || Reqb rr 0 || Rltb (27316 / 100) T then 0
  else N_ra rr ria T rhod * (PI * rho_w / (6 * cpow (lambda_rain rr rhod) 3)).
(** formulae.hpp:366-395 *)
Definition het_B_nucleation_2 (rr ria T rhod : R) : R :=
  if Reqb ria 0 || Reqb rr 0 || Rltb (27316 / 100) T then 0
  else N_ra rr ria T rhod * mass_a ria T rhod.
(** formulae.hpp:399-426 *)
Definition melting_A (ria T rhod dt : R) : R :=
  if Reqb ria 0 || Rltb T (27316 / 100) then 0
  else
    let m_a := mass_a ria T rhod in
    let D_a := cpow (m_a / (25 / 1000)) (5 / 10) in
    let Re := D_a * velocity_iceA ria rhod * rhod / visc T in
    let F_a := cmax 1 (78 / 100 + 27 / 100 * cpow Re (5 / 10)) in
    let dma := 9 / 10 ^ 7 * D_a / 2 * F_a * cmax 0 (T - 27316 / 100) in
    cmin (ria / dt) (dma * ria / m_a).
(** formulae.hpp:430-459 *)
Definition melting_B (rib T rhod dt : R) : R :=
  if Reqb rib 0 || Rltb T (27316 / 100) then 0
  else
    let m_b := mass_b rib rhod in
    let D_b := 1 / lambda_ice_b rib rhod in
    let Re := D_b * velocity_iceB rib rhod * rhod / visc T in
    let F_b := cmax 1 (78 / 100 + 27 / 100 * cpow Re (5 / 10)) in
    let dmb := 9 / 10 ^ 7 * D_b / 2 * F_b * cmax 0 (T - 27316 / 100) in
    cmin (rib / dt) (dmb * rib / m_b).
(** formulae.hpp:478-482, 512-516: growth rate of one particle in regime AE *)
Definition dm_AE (oob rv rvs rvsi T m : R) : R :=
  1 / 1000 * (rv - rvsi) / (rvs - rvsi + feps) * coeff alpha_list oob T
  * cpow (m * 1000) (coeff beta_list oob T).
(** formulae.hpp:464-487, 543-566 *)
Definition deposition (oob ri m rv rvs rvsi T : R) : R :=
  if Reqb ri 0 || Rltb (27316 / 100) T then 0 else ri / m * dm_AE oob rv rvs rvsi T m.
Definition deposition_A (oob ria rv rvs rvsi T rhod : R) : R :=
  deposition oob ria (mass_a ria T rhod) rv rvs rvsi T.
Definition deposition_B (oob rib rv rvs rvsi T rhod : R) : R :=
  deposition oob rib (mass_b rib rhod) rv rvs rvsi T.
(** formulae.hpp:510-538, 585-613: riming rate for mean particle mass m *)
Definition riming (oob ri m rc rv rvs rvsi T rhod : R) : R :=
  let alpha := coeff alpha_list oob T in
  let beta := coeff beta_list oob T in
  let AE := dm_AE oob rv rvs rvsi T m in
  let tan_theta := 1 + 1 / 10 * ln (rhod * rc * 1000) in
  let gamma := alpha * cpow (5 / 10 ^ 8) beta in
  let BC := 1 / 1000 * gamma * cpow (m / (5 / 10 ^ 11)) tan_theta in
  let dzeta := gamma * cpow 2000 tan_theta in
  let xi := ln (rc * rhod * 10 ^ 9 / dzeta) / ln 10000 in
  let CD := 1 / 1000 * dzeta * cpow (m * 10 ^ 7) xi in
  (if Rltb (5 / 10 ^ 11) m && Rleb m (1 / 10 ^ 7) then cmax 0 (BC - AE) * ri / m else 0)
  + (if Rltb (1 / 10 ^ 7) m then cmax 0 (CD - AE) * ri / m else 0).
(** formulae.hpp:492-539 *)
Definition riming_A (oob ria rc rv rvs rvsi T rhod : R) : R :=
  if Reqb ria 0 || Reqb rc 0 || Rltb (27316 / 100) T then 0
  else riming oob ria (mass_a ria T rhod) rc rv rvs rvsi T rhod.
(** formulae.hpp:570-616 (no test of rc here) *)
Definition riming_B (oob rib rc rv rvs rvsi T rhod : R) : R :=
  if Reqb rib 0 || Rltb (27316 / 100) T then 0
  else riming oob rib (mass_b rib rhod) rc rv rvs rvsi T rhod.
(** formulae.hpp:620-651 *)
Definition riming_B_1 (oob rib rc rr rv rvs rvsi T rhod : R) : R :=
  rc / (rc + rr + / 10 ^ 10) * riming_B oob rib rc rv rvs rvsi T rhod.
Definition riming_B_2 (oob rib rc rr rv rvs rvsi T rhod : R) : R :=
  (1 - rc / (rc + rr + / 10 ^ 10)) * riming_B oob rib rc rv rvs rvsi T rhod.

(** the eight conversions of rhs_cellwise_ice *)
Record fluxes := { rv_ria : R; rv_rib : R; rc_ria : R; rc_rib : R; rr_rib : R; ria_rib : R;
                   ria_rr : R; rib_rr : R }.
Definition when (b : bool) (x : R) : R := if b then x else 0.

(** rhs_cellwise.hpp:238-411: rates and their limits *)
Definition ice_fluxes (o : opts) (oob dt : R) (c : cell) (T p : R) : fluxes :=
  let rvs := r_vs T p in
  let rvsi := r_vsi T p in
  {| rv_ria := cmin (rv c / dt)
       (when (o_homA1 o) (hom_A_nucleation_1 (rv c) rvs rvsi T dt)
        + when (o_depA o) (deposition_A oob (ria c) (rv c) rvs rvsi T (rhod c)));
     rv_rib := cmin (rv c / dt)
       (when (o_depB o) (deposition_B oob (rib c) (rv c) rvs rvsi T (rhod c)));
     rc_ria := cmin (rc c / dt)
       (when (o_hetA o) (het_A_nucleation (ria c) (rc c) T (rhod c) dt)
        + when (o_homA2 o) (hom_A_nucleation_2 (rc c) T dt)
        + when (o_rimA o) (riming_A oob (ria c) (rc c) (rv c) rvs rvsi T (rhod c)));
     rc_rib := cmin (rc c / dt)
       (when (o_rimB o) (riming_B_1 oob (rib c) (rc c) (rr c) (rv c) rvs rvsi T (rhod c)));
     rr_rib := cmin (rr c / dt)
       (when (o_hetB o) (het_B_nucleation_1 (rr c) (ria c) T (rhod c))
        + when (o_rimB o) (riming_B_2 oob (rib c) (rc c) (rr c) (rv c) rvs rvsi T (rhod c)));
     ria_rib := cmin (ria c / dt)
       (when (o_hetB o) (het_B_nucleation_2 (rr c) (ria c) T (rhod c)));
     ria_rr := cmin (ria c / dt) (when (o_melA o) (melting_A (ria c) T (rhod c) dt));
     rib_rr := cmin (rib c / dt) (when (o_melB o) (melting_B (rib c) T (rhod c) dt)) |}.

(** rhs_cellwise.hpp:184-423: the loop body of rhs_cellwise_ice *)
Definition ice_cell (o : opts) (oob dt : R) (x : cell * dots) : outcome (cell * dots) :=
  let c := fst x in
  match Tp o (rhod c) (pres c) (th c) (rv c) with
  | None => Throw x
  | Some (T, p) =>
    let f := ice_fluxes o oob dt c T p in
    Ok (c, add_dots (snd x)
      (th c / T * l_s T / c_pd * (rv_ria f + rv_rib f)
       + th c / T * l_f T / c_pd * (rc_ria f + rc_rib f + rr_rib f - rib_rr f - ria_rr f))
      (- rv_ria f - rv_rib f)
      (- rc_ria f - rc_rib f)
      (ria_rr f - rr_rib f + rib_rr f)
      (rc_ria f + rv_ria f - ria_rib f - ria_rr f)
      (rr_rib f + ria_rib f + rv_rib f + rc_rib f - rib_rr f))
  end.
(** rhs_cellwise.hpp:158-424 *)
Definition rhs_cellwise_ice (o : opts) (oob dt : R) (l : list (cell * dots))
  : outcome (list (cell * dots)) :=
  match (if o_adj_nwtrph o then rhs_cellwise_revap o dt l else rhs_cellwise o l) with
  | Ok l' => for_cells (ice_cell o oob dt) l'
  | z => z
  end.

(** *** Sedimentation, rhs_columnwise.hpp.  A column is given by its number of levels n >= 1 and
    functions of the level (0 is the lowest). *)

(** formulae.hpp:80-94 *)
Definition v_term (rr rhod rhod_0 : R) : R :=
  3634 / 100 * (cpow (rhod * rr * (1 / 1000)) (1346 / 10000) * sqrt (rhod_0 / rhod)).

(** rhs_columnwise.hpp:46-78: the loop from the top.  State: the tendencies, the inflow from above
    and the cell above ([None] before the first iteration).  [v k] is the fall speed at level k. *)
Record colst := { c_dot : nat -> R; c_in : R; c_above : option nat }.
Definition col_body (rhod r v : nat -> R) (dz : R) (below : nat) (s : colst) : colst :=
  match c_above s with
  | None => {| c_dot := c_dot s; c_in := c_in s; c_above := Some below |}
  | Some k =>
    let out := - (1 / 2) * (rhod below * v below + rhod k * v k) * r k / dz in
    {| c_dot := upd (c_dot s) k (c_dot s k - (c_in s - out) / rhod k);
       c_in := out; c_above := Some below |}
  end.
Fixpoint col_loop (rhod r v : nat -> R) (dz : R) (m : nat) (s : colst) : colst :=
  match m with O => s | S j => col_loop rhod r v dz j (col_body rhod r v dz j s) end.
(** rhs_columnwise.hpp:38-90 (and 111-189): all of it, for a given fall speed profile.  For an
    empty column (undefined behaviour in the code) the model returns 0. *)
Definition column (sedi : bool) (n : nat) (rhod r v : nat -> R) (dz : R) (dot : nat -> R)
  : R * (nat -> R) :=
  if negb sedi then (0, dot)
  else
    let s := col_loop rhod r v dz n {| c_dot := dot; c_in := 0; c_above := None |} in
    match c_above s with
    | None => (0, dot)
    | Some k =>
      let out := - (rhod k * v k) * r k / dz in
      (out, upd (c_dot s) k (c_dot s k - (c_in s - out) / rhod k))
    end.
(** rhs_columnwise.hpp:22-90 *)
Definition rhs_columnwise (o : opts) (n : nat) (dot rhod rr : nat -> R) (dz : R) :=
  column (o_sedi o) n rhod rr (fun k => v_term (rr k) (rhod k) (rhod 0%nat)) dz dot.
(** rhs_columnwise.hpp:94-189 *)
Inductive ice_t := iceA | iceB.
Definition rhs_columnwise_ice (o : opts) (n : nat) (dot rhod ri : nat -> R) (dz : R) (t : ice_t) :=
  column (o_sedi o) n rhod ri
    (fun k => match t with iceA => velocity_iceA (ri k) (rhod k)
                         | iceB => velocity_iceB (ri k) (rhod k) end) dz dot.
