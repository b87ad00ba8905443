(** C87: what condensation makes of a missing critical radius and of a missing memory of the air. *)
From Coq Require Import List Arith NArith ZArith Lia Reals Lra Bool.
From Verif Require Import Base BaseProofs ThermoModel CondModel CondPassModel.
Import ListNotations.
Local Open Scope R_scope.

(** the outcome of the search for the number of substeps, before activation is considered *)
Definition searched (o : copts) lD lK (P : parts) (S d : tmps) (i : nat) : adres :=
  ad_search o lD lK P d i (o_sstp o + 1) 1
    (mk_adres (mk_ast (t_rv S i) (t_th S i) (t_rh S i) (if o_const_p o then t_p S i else 0) (if o_turb o then p_ssp P i else 0) (p_rw2 P i) 0)
       (o_sstp o) (o_sstp o =? 1)%nat 0 0).
(** the wet radius (squared) before condensation, and extrapolated to its end *)
Definition size_before (r : adres) : R := a_rw2 (r_a r).
Definition size_after (r : adres) : R := a_rw2 (r_a r) + INR (r_sstp r) * r_drw2 r.

(** One that knows its critical radius gets the activation substeps when it crosses it. *)
Theorem C87_activation_substeps :
  forall o lD lK dv P S d i, (1 < o_act o)%nat ->
    let r := searched o lD lK P S d i in
    (size_before r < p_rc2 P i < size_after r \/ size_after r < p_rc2 P i < size_before r) ->
    snd (ad_particle o lD lK dv P S d i) = o_act o.
Proof.
  intros o lD lK dv P S d i Ha r Hr. unfold ad_particle. cbn [snd].
  change (ad_search o lD lK P d i (o_sstp o + 1) 1 _) with r. unfold ad_choose.
  change (a_rw2 (r_a r)) with (size_before r). change (size_before r + INR (r_sstp r) * r_drw2 r) with (size_after r).
  apply Nat.ltb_lt in Ha. rewrite Ha. cbn [andb].
  assert (E : Rltb (size_before r) (p_rc2 P i) && Rltb (p_rc2 P i) (size_after r) || Rltb (p_rc2 P i) (size_before r) && Rltb (size_after r) (p_rc2 P i) = true).
  { apply orb_true_iff. destruct Hr as [[H1 H2]|[H1 H2]]; [left|right]; apply andb_true_iff; split; apply Rltb_true; assumption. }
  rewrite E. reflexivity.
Qed.
Print Assumptions C87_activation_substeps.

(** One with -1 in its place never does, whatever happens to it in the timestep (a squared radius does not change by 1 m2). *)
Theorem C87_no_activation_substeps :
  forall o lD lK dv P S d i, p_rc2 P i = -1 ->
    let r := searched o lD lK P S d i in
    0 <= size_before r -> -1 <= size_after r ->
    snd (ad_particle o lD lK dv P S d i) = r_sstp r.
Proof.
  intros o lD lK dv P S d i Hc r H1 H2. unfold ad_particle. cbn [snd].
  change (ad_search o lD lK P d i (o_sstp o + 1) 1 _) with r. unfold ad_choose.
  change (a_rw2 (r_a r)) with (size_before r). change (size_before r + INR (r_sstp r) * r_drw2 r) with (size_after r).
  rewrite Hc. rewrite (proj2 (Rltb_false (size_before r) (-1))) by lra. rewrite (proj2 (Rltb_false (size_after r) (-1))) by lra.
  cbn [andb]. rewrite andb_false_r. cbn [orb]. rewrite andb_false_r. destruct (r_done r); reflexivity.
Qed.
Print Assumptions C87_no_activation_substeps.

(** The first of n substeps takes place in air made of the remembered one and one n-th of its change since then. *)
Theorem C87_first_substep :
  forall o st i, (0 < o_sstp o)%nat ->
    let n := INR (o_sstp o) in let S := s_S st in let E := s_E st in let c := p_ijk (s_P st) i in
    let A := apply_noncond o (deltas o st) S in
    t_rv A i = t_rv S i + (e_rv E c - t_rv S i) / n /\ t_th A i = t_th S i + (e_th E c - t_th S i) / n /\
    t_rh A i = t_rh S i + (e_rhod E c - t_rh S i) / n.
Proof. intros o st i Hn. cbn. repeat split. Qed.
Print Assumptions C87_first_substep.

(** If it remembers the air of its cell and the air has not changed, this is the air in the cell; with zeros in its memory
    it is air of 1/n of the humidity, temperature and density (n = 2 and 300 K: 150 K). *)
Theorem C87_first_substep_remembered :
  forall o st i, (0 < o_sstp o)%nat ->
    let S := s_S st in let E := s_E st in let c := p_ijk (s_P st) i in let A := apply_noncond o (deltas o st) S in
    t_rv S i = e_rv E c -> t_th S i = e_th E c -> t_rh S i = e_rhod E c ->
    t_rv A i = e_rv E c /\ t_th A i = e_th E c /\ t_rh A i = e_rhod E c.
Proof.
  intros o st i Hn S E c A H1 H2 H3. destruct (C87_first_substep o st i Hn) as (K1 & K2 & K3).
  fold S E c A in K1, K2, K3. rewrite K1, K2, K3, H1, H2, H3.
  assert (0 < INR (o_sstp o)) by (now apply lt_0_INR). repeat split; field; lra.
Qed.
Print Assumptions C87_first_substep_remembered.

Theorem C87_first_substep_of_new_refuted :
  forall o st i, (0 < o_sstp o)%nat ->
    let n := INR (o_sstp o) in let S := s_S st in let E := s_E st in let c := p_ijk (s_P st) i in let A := apply_noncond o (deltas o st) S in
    t_rv S i = 0 -> t_th S i = 0 -> t_rh S i = 0 ->
    t_rv A i = e_rv E c / n /\ t_th A i = e_th E c / n /\ t_rh A i = e_rhod E c / n.
Proof.
  intros o st i Hn n S E c A H1 H2 H3. destruct (C87_first_substep o st i Hn) as (K1 & K2 & K3).
  fold n S E c A in K1, K2, K3. rewrite K1, K2, K3, H1, H2, H3.
  assert (0 < n) by (now apply lt_0_INR). repeat split; field; lra.
Qed.
Print Assumptions C87_first_substep_of_new_refuted.

(** the same in adaptive substepping: the local copy of the air, after a fraction m of the change has been applied *)
Theorem C87_adaptive_substep_of_new_refuted :
  forall o st i m a, a_rv a = t_rv (s_S st) i -> a_th a = t_th (s_S st) i -> a_rh a = t_rh (s_S st) i ->
    t_rv (s_S st) i = 0 -> t_th (s_S st) i = 0 -> t_rh (s_S st) i = 0 ->
    let E := s_E st in let c := p_ijk (s_P st) i in
    let b := ad_apply o (deltas o st) (p_dssp (s_P st) i) i m a in
    a_rv b = e_rv E c * m /\ a_th b = e_th E c * m /\ a_rh b = e_rhod E c * m.
Proof.
  intros o st i m a E1 E2 E3 H1 H2 H3 E c b. unfold b, ad_apply, deltas. cbn [a_rv a_th a_rh t_rv t_th t_rh].
  unfold noncond_delta. rewrite E1, E2, E3, H1, H2, H3. fold E c. repeat split; ring.
Qed.
Print Assumptions C87_adaptive_substep_of_new_refuted.

(** 300 K and two substeps *)
Theorem C87_new_instance :
  exists o st, (o_sstp o = 2)%nat /\ e_th (s_E st) (p_ijk (s_P st) 0) = 300 /\
    t_th (apply_noncond o (deltas o st) (s_S st)) 0 = 150 /\ t_rh (apply_noncond o (deltas o st) (s_S st)) 0 = 1 / 2.
Proof.
  exists {| o_parcel := false; o_th_dry := true; o_const_p := false; o_ice := false; o_exact := true; o_mix := true; o_adaptive := false;
    o_RH := pv_cc; o_adapt_eps := 0; o_adapt_max := 0; o_turb := false; o_RH_max := 1; o_var_rho := false; o_dt := 1; o_sstp := 2; o_act := 1;
    o_k := {| k_niter := 20; k_mlt := 2; k_bits := 8; k_fp := {| TomsModel.fmax := 1; TomsModel.fmin := 1; TomsModel.feps := 1 |} |} |}.
  exists (mk_cst (mk_parts 1 (fun _ => 0%nat) (fun _ => 1%N) (fun _ => 1) (fun _ => 1) (fun _ => 1) (fun _ => 1) (fun _ => 0) (fun _ => 0) (fun _ => 0) (fun _ => 0) (fun _ => 0) (fun _ => 1))
    (mk_cells 1 (fun _ => 1/100) (fun _ => 300) (fun _ => 1) (fun _ => 100000) (fun _ => 300) (fun _ => 1) (fun _ => 1) (fun _ => 1) (fun _ => 1))
    (mk_tmps (fun _ => 0) (fun _ => 0) (fun _ => 0) (fun _ => 0))).
  cbn -[INR]. change (INR 2) with 2. unfold noncond_delta. cbn. repeat split; lra.
Qed.
Print Assumptions C87_new_instance.
