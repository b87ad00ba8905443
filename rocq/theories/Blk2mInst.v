(** * Cells that meet the hypotheses of C62 and C63 *)
From Coq Require Import List Arith NArith ZArith Reals Bool Lia Lra Psatz.
From Verif Require Import Base BaseProofs ThermoModel ThermoProofs CondModel InitModel Blk2mModel Blk2mProps Blk2mProps2 Blk2mCases Blk2mFall.
Import ListNotations.
Open Scope R_scope.

Definition only (acti cond acnv accr : bool) : opts2 :=
  {| b_acti := acti; b_cond := cond; b_acnv := acnv; b_accr := accr; b_sedi := true; b_RH_max := 44; b_A := 1350; b_b := 247 / 100; b_c := - (179 / 100);
     b_modes := [ {| md_rd := 4 / 100000000; md_sd := 14 / 10; md_N := 60000000; md_b := 55 / 100 |} ]; b_th_dry := false; b_const_p := true |}.
(** supersaturated by one percent *)
Definition cell1 : cell2 := cell0 (101 / 100 * r_vs T_tri 100000).

Lemma only_call g e num_eps a b c d : rhs_cellwise2 g e num_eps (only a b c d) 20 [(cell1, no_dots)] = (true, [(cell1, dots_of g e num_eps (only a b c d) 20 cell1 T_tri 100000 no_dots)]).
Proof.
  cbn [rhs_cellwise2]. replace (Tp (only a b c d) cell1) with (Some (T_tri, 100000)); [reflexivity|]. unfold Tp, cell1. cbn [b_const_p b_th_dry only negb andb th pres cell0]. rewrite exner_1000, Rmult_1_r. reflexivity.
Qed.
Theorem C63_instance :
  exists g, gamma_like g /\ good_cell cell1 /\ consistent cell1 /\ cloudy (1 / 1000000) cell1 /\ rainy (1 / 1000000) cell1 /\
    (forall a b c d, air (only a b c d) cell1 T_tri 100000) /\ p_vs T_tri < 100000 /\ r_vs T_tri 100000 < rv cell1 /\
    (exists d', rhs_cellwise2 g (fun _ => 1) (1 / 1000000) (only false true false false) 20 [(cell1, no_dots)] = (true, [(cell1, d')]) /\ 0 < drc d' /\ drr d' = 0) /\
    (exists d', rhs_cellwise2 g (fun _ => 1) (1 / 1000000) (only false false true false) 20 [(cell1, no_dots)] = (true, [(cell1, d')]) /\ 0 < drr d' /\ drc d' = - drr d') /\
    (exists d', rhs_cellwise2 g (fun _ => 1) (1 / 1000000) (only true false false false) 20 [(cell1, no_dots)] = (true, [(cell1, d')]) /\ dnc d' = 0).
Proof.
  destruct gamma_exists as (g & Hg). exists g. split; [exact Hg|]. assert (S := r_vs_pos T_tri 100000 p_vs_tri_lt). set (s := r_vs T_tri 100000) in *.
  assert (Hc : good_cell cell1) by (apply good_0; fold s; lra). split; [exact Hc|].
  assert (CO : consistent cell1) by (unfold consistent, cell1; cbn [rc rr cell0]; split; left; lra). split; [exact CO|].
  assert (CL : cloudy (1 / 1000000) cell1) by (unfold cloudy, cell1; cbn [rc nc cell0]; split; lra). split; [exact CL|].
  split; [unfold rainy, cell1; cbn [rr nr cell0]; split; lra|].
  assert (AI : forall a b c d, air (only a b c d) cell1 T_tri 100000).
  { intros. right. cbn [b_th_dry b_const_p only]. repeat split. unfold cell1. cbn [th cell0]. rewrite exner_1000. ring. }
  split; [exact AI|]. split; [exact p_vs_tri_lt|]. assert (SS : s < rv cell1) by (unfold cell1; cbn [rv cell0]; fold s; lra). split; [exact SS|].
  assert (one : forall a b c d, cell_of [(cell1, no_dots)] [(cell1, dots_of g (fun _ => 1) (1 / 1000000) (only a b c d) 20 cell1 T_tri 100000 no_dots)] 0 cell1 no_dots
     (dots_of g (fun _ => 1) (1 / 1000000) (only a b c d) 20 cell1 T_tri 100000 no_dots)) by (intros; split; reflexivity).
  split; [|split].
  - eexists. split; [apply only_call|]. set (d' := dots_of _ _ _ _ _ _ _ _ _).
    destruct (C63_condensation g (fun _ => 1) (1 / 1000000) (only false true false false) 20 _ _ 0 cell1 no_dots d' T_tri 100000 ltac:(lra) ltac:(lra) ltac:(repeat split) Hg (only_call _ _ _ _ _ _ _) (one _ _ _ _) Hc CO (AI _ _ _ _) T_tri_pos p_vs_tri_lt) as (_ & A & _ & _ & _ & B & _).
    unfold change in A, B. cbn [drc drr no_dots] in A, B. split.
    + destruct (A CL) as (r & (mu & la & L1 & L2 & L3 & L4) & E). rewrite Rminus_0_r in E. rewrite E.
      assert (DP : 0 < dispersion (rhod cell1 * nc cell1)) by (unfold dispersion, cell1; cbn [rhod nc cell0]; lra).
      assert (MU : 0 < mu + 1). { rewrite L2. assert (0 < 1 / dispersion (rhod cell1 * nc cell1) ^ 2); [|lra]. apply Rdiv_lt_0_compat; [lra|now apply pow_lt]. }
      assert (RP : 0 < r) by (rewrite L4; apply Rdiv_lt_0_compat; [now apply Rdiv_lt_0_compat|lra]).
      assert (LF : 1 <= latent_factor T_tri 100000 cell1) by (rewrite <- latent_eq by (try apply T_tri_pos; lra); apply psychro_ge; [exact p_vs_tri_lt|lra]).
      eapply Rlt_le_trans; [|apply Rmax_l]. apply Rdiv_lt_0_compat; [|lra]. fold s. assert (P := PI_RGT_0). apply Rmult_lt_0_compat; [lra|]. apply Rmult_lt_0_compat; [|exact RP]. unfold cell1. cbn [rhod nc cell0]. lra.
    + specialize (B (Rlt_le _ _ SS)). lra.
  - eexists. split; [apply only_call|]. set (d' := dots_of _ _ _ _ _ _ _ _ _).
    destruct (C63_autoconversion g (fun _ => 1) (1 / 1000000) (only false false true false) 20 _ _ 0 cell1 no_dots d' ltac:(lra) ltac:(lra) ltac:(repeat split) Hg (only_call _ _ _ _ _ _ _) (one _ _ _ _) Hc CO) as (_ & _ & A & _).
    destruct (A CL) as (rate & Er & E1 & E2 & _). unfold change in E1, E2. cbn [drc drr no_dots] in E1, E2. split; [|lra].
    assert (0 < rate); [|lra]. rewrite Er. apply Rmin_glb_lt; [|unfold cell1; cbn [rc cell0]; lra]. unfold kk_autoconversion. cbn [b_A only].
    apply Rmult_lt_0_compat; [apply Rmult_lt_0_compat; [lra|apply exp_pos]|apply exp_pos].
  - eexists. split; [apply only_call|]. set (d' := dots_of _ _ _ _ _ _ _ _ _).
    assert (HE : erfc_like (fun _ => 1)) by (intros x; lra).
    assert (HM : Forall good_mode (b_modes (only true false false false))) by (cbn [b_modes only]; repeat constructor; cbn [md_rd md_sd md_N]; lra).
    assert (HK : 0 < kelvin_A T_tri) by (unfold kelvin_A, sg_surf, T_tri, rho_w; assert (Q := R_v_pos); apply Rdiv_lt_0_compat; [|lra]; apply Rdiv_lt_0_compat; [|lra]; apply Rdiv_lt_0_compat; lra).
    destruct (C63_activation g (fun _ => 1) (1 / 1000000) (only true false false false) 20 _ _ 0 cell1 no_dots d' T_tri 100000 ltac:(lra) ltac:(lra) ltac:(repeat split) HE HM
      (only_call g (fun _ => 1) (1 / 1000000) true false false false) (one true false false false) Hc CO (AI _ _ _ _) HK) as (A & B & _).
    unfold change in B. cbn [dnc no_dots] in B. rewrite Rminus_0_r in B. rewrite B. destruct (Rlt_dec _ _); [|reflexivity]. destruct A as (_ & A).
      rewrite Rmax_left; [unfold Rdiv; ring|]. unfold lsumR in A. cbn [map fold_right b_modes only md_N] in A. unfold cell1 at 2. cbn [nc cell0].
      assert (RS : 1 <= rho_stp) by (unfold rho_stp, p_stp, T_stp, R_d, kaBoNA, M_d; lra).
      assert (X : (60000000 + 0) / rho_stp <= 60000000). { apply (Rmult_le_reg_r rho_stp); [lra|]. unfold Rdiv. rewrite Rmult_assoc, Rinv_l by lra. lra. }
      unfold activated, lsumR in *. cbn [b_modes only] in *. lra.
Qed.
Print Assumptions C63_instance.

(** a saturated cell: cloud water stays non-negative with all processes on *)
Theorem C62_instance :
  exists g d', gamma_like g /\ rhs_cellwise2 g (fun _ => 1) (1 / 1000000) opts0 20 [(cell0 (r_vs T_tri 100000), no_dots)] = (true, [(cell0 (r_vs T_tri 100000), d')]) /\
    0 <= after 20 (1 / 1000) (drc d') /\ 0 <= after 20 100000000 (dnc d') /\ 0 <= after 20 (1 / 100) (drr d').
Proof.
  destruct gamma_exists as (g & Hg). exists g. eexists. split; [exact Hg|]. split; [apply call_0|]. set (d' := dots_of _ _ _ _ _ _ _ _ _).
  assert (S := r_vs_pos T_tri 100000 p_vs_tri_lt).
  destruct (C62_nonnegative_partial g (fun _ => 1) (1 / 1000000) opts0 20 _ _ 0 (cell0 (r_vs T_tri 100000)) d' ltac:(lra) ltac:(lra) ltac:(cbn [b_A opts0]; lra) (call_0 g (fun _ => 1) (1 / 1000000) (r_vs T_tri 100000))) as (A & _ & B & _ & _ & C).
  - split; reflexivity.
  - apply good_0. lra.
  - split; [|split; [exact B|exact A]]. apply C; [exact Hg|]. intros T p [(F & _)|(_ & _ & E1 & E2)]; [discriminate F|]. cbn [pres th cell0] in E1, E2. subst p. rewrite exner_1000, Rmult_1_r in E1. subst T.
    split; [apply p_vs_tri_lt|]. cbn [rv cell0]. lra.
Qed.
Print Assumptions C62_instance.
