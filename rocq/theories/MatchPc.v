(** * C57 with the predictor-corrector advection scheme
    The predictor-corrector scheme works in coordinates shifted by halo_size = 2 cells (src/impl/particles_impl.ipp:361,
    src/impl/advection/particles_impl_adve.ipp:196-199), in which it finds the cells of super-droplets (lines 199 and 253); positions are shifted back
    afterwards (lines 304-305) but cells are not found again before the source (src/particles_step.ipp:425-459). *)
From Coq Require Import List Arith NArith ZArith Reals Bool Lia Lra Permutation.
From Verif Require ThermoModel ThermoProofs.
From Verif Require Import Base BaseProofs SpaceModel SpaceProofs GridProps InitModel InitProofs InitProps SrcProps MatchModel MatchProps.
Import ListNotations.
Open Scope R_scope.

(** the super-droplet as the source sees it, if the air does not move *)
Definition seen (o : icfg) (p : osd) : osd :=
  {| q_cell := q_cell p + 2 * (ic_nz o * (if Nat.eqb (ic_dims o) 3 then ic_ny o else 1)); q_rd3 := q_rd3 p; q_n := q_n p |}.

Definition three : icfg :=
  {| ic_dims := 2; ic_nx := 3; ic_ny := 0; ic_nz := 1; ic_dx := 1; ic_dy := 1; ic_dz := 1;
     ic_x0 := 0; ic_x1 := 3; ic_y0 := 0; ic_y1 := 1; ic_z0 := 0; ic_z1 := 1;
     ic_sd_conc := 1; ic_const_multi := 0; ic_indep := true; ic_factor := []; ic_n_cell := 3;
     ic_rhod := fun _ => 1; ic_dv := fun _ => 1; ic_bin := 1 / 10000 |}.
Definition all3 : box := {| s_x0 := 0; s_x1 := 3; s_y0 := 0; s_y1 := 1; s_z0 := 0; s_z1 := 1 |}.
Lemma three_set_up : set_up three.
Proof. unfold set_up, three. cbn. repeat split; intros; try lra; (tauto || discriminate || (exfalso; assumption)). Qed.
Lemma three_in_source c : (c < 3)%nat -> in_source three all3 c = true.
Proof.
  intros H. replace c with (ravel 2 0 1 c 0 0) by (cbn; lia).
  apply (C56_cells three all3 c 0 0); [now left|cbn; lra|cbn; lra|cbn; lra| |unfold valid_cell; cbn; lia| ].
  - unfold sensible_box, all3. cbn. lra.
  - unfold cell_in_region, centre_within, all3, three. cbn. destruct c as [|[|[|c]]]; [| | |lia]; cbn; repeat split; try lra; discriminate.
Qed.
Lemma three_amount c r : amount three (flat (6 / 10)) 1 1 c r = 300%N.
Proof.
  unfold amount. rewrite n_sd_conc_alt. unfold s_mult, analysis_multiplier, scale. cbn [three ic_dims ic_dv ic_dx ic_dy ic_dz ic_indep ic_factor Nat.eqb flat di_min di_max di_f].
  replace (exp (-17) / exp (-18)) with (exp 1) by (unfold Rdiv; rewrite <- exp_Ropp, <- exp_plus; f_equal; lra). rewrite ln_exp.
  change (N.of_nat 1) with 1%N. unfold N2R at 1. cbn [Z.of_N].
  replace (1 / 1 * 1 * (1 * 1 * 1) * (1 * 1) * (1 / (1 * 1 * 1)) * 300 + 5 / 10) with (N2R 300 + 5 / 10) by (unfold N2R; cbn [Z.of_N]; lra).
  apply truncN_N2R_half.
Qed.

(** Three columns of air at rest, each to get 300 particles; one super-droplet, in the first column. It is seen in the third one: the particles
    meant for that column are added to it, and the first column, seen as empty, gets new ones as well. In any domain
    super-droplets of the last two columns are seen beyond the last cell, and the number of super-droplets to create is read there, outside of its vector. *)
Theorem C57_predictor_corrector_refuted :
  let D := flat (6 / 10) in let pop := [one_at 0 (-17.5)] in let pop' := map (seen three) pop in
  set_up three /\ smooth_distribution D (fun x => 300 * x) 0 /\ sorted_order pop' [0]%nat /\ told_apart three all3 D 1 pop' /\
  (forall c, (c < 3)%nat -> in_source three all3 c = true /\ requested three c 300 = 300) /\
  (forall d u, uniform_draws d -> 0 <= u 0%nat < 1 ->
    let n := n_after three all3 D 1 1 u pop' [0]%nat in
    let g := new_sds three all3 D 1 1 d pop' [0]%nat in
    added_to_old pop n 0 + particles (in_cell 0 g) = 600 /\
    added_to_old pop n 1 + particles (in_cell 1 g) = 300 /\
    added_to_old pop n 2 + particles (in_cell 2 g) = 0) /\
  (forall o p, ic_n_cell o = (ic_nx o * (ic_nz o * (if Nat.eqb (ic_dims o) 3 then ic_ny o else 1)))%nat ->
     ((ic_nx o - 2) * (ic_nz o * (if Nat.eqb (ic_dims o) 3 then ic_ny o else 1)) <= q_cell p)%nat -> (ic_n_cell o <= q_cell (seen o p))%nat).
Proof.
  intros D pop pop'. assert (HD : 0 < di_min D < di_max D) by (destruct (flat_smooth (6 / 10)) as (Q & _); apply Q).
  split; [apply three_set_up|]. split; [apply flat_smooth|]. split.
  { split; [apply Permutation_refl|]. intros i j Hij. cbn [length pop' map pop] in Hij. assert (i = 0%nat) by lia. assert (j = 0%nat) by lia. subst. right. split; [reflexivity|lra]. }
  split. { intros p q x [<-|[]] [<-|[]] _ _ H. lia. }
  split. { intros c Hc. split; [now apply three_in_source|]. unfold requested, three. cbn. lra. }
  split.
  2: { intros o p -> H. unfold seen. cbn [q_cell]. nia. }
  intros d u Hd Hu n g.
  assert (Hpop : forall p, In p pop' -> 0 < q_rd3 p /\ (q_cell p < ic_n_cell three)%nat).
  { intros p [<-|[]]; cbn; split; try lia; apply exp_pos. }
  assert (Hb : bin_of three all3 D 1 pop' 0 = Some 0%nat).
  { apply (bin_spec three all3 D 1 pop' HD ltac:(lia) Hpop); [cbn; lia|]. split.
    - apply three_in_source. cbn; lia.
    - unfold in_bin, old_log, di_range, D, flat. cbn [di_min di_max]. rewrite !ln_exp.
      change (q_rd3 (old pop' 0)) with (exp (3 * -17.5)).
      rewrite ln_exp. split; [lia|]. cbn [INR]. lra. }
  assert (Em : forall c x, have_match three all3 D 1 pop' [0]%nat c (Some x) = Nat.eqb 0 x && Nat.eqb 2 c).
  { intros c x. unfold have_match, matched_bins, tmp_bin_no. cbn [flat_map]. rewrite !Hb. cbn [app unique_by_key fst Nat.eqb existsb snd].
    change (q_cell (old pop' 0)) with 2%nat. now rewrite orb_false_r. }
  assert (Ech : chosen three all3 D 1 u pop' [0]%nat = [0%nat]).
  { unfold chosen. cbn [map]. rewrite !Hb. cbn [reduce_by_key opt_eqb Nat.eqb with_ptr in_bins filter fst choose].
    replace (truncN (u 0%nat * INR 1)) with 0%N by (symmetry; apply truncN_unique; unfold N2R; cbn [Z.of_N INR]; cbn; lra). reflexivity. }
  assert (En : n 0%nat = 1300%N).
  { unfold n, n_after. rewrite Ech. cbn [fold_left]. unfold upd. cbn [Nat.eqb]. rewrite three_amount. reflexivity. }
  destruct (new_in_cell three all3 D 1 1 d pop' [0]%nat HD ltac:(lia) Hd 0 ltac:(cbn; lia) ltac:(apply three_in_source; lia)) as (A0 & B0).
  destruct (new_in_cell three all3 D 1 1 d pop' [0]%nat HD ltac:(lia) Hd 1 ltac:(cbn; lia) ltac:(apply three_in_source; lia)) as (A1 & B1).
  destruct (new_in_cell three all3 D 1 1 d pop' [0]%nat HD ltac:(lia) Hd 2 ltac:(cbn; lia) ltac:(apply three_in_source; lia)) as (A2 & B2).
  cbn [seq filter] in A0, A1, A2. rewrite Em in A0, A1, A2. cbn [Nat.eqb andb negb map] in A0, A1, A2. rewrite A0 in B0. rewrite A1 in B1. rewrite A2 in B2. cbn [map] in B0, B1, B2. fold g in B0, B1, B2.
  unfold particles. rewrite B0, B1, B2. rewrite !three_amount. unfold added_to_old. cbn [length pop sumR].
  rewrite !En. cbn [Nat.eqb old nth pop one_at q_cell q_n lsumN fold_right]. unfold N2R. cbn [Z.of_N N.add]. lra.
Qed.
Print Assumptions C57_predictor_corrector_refuted.
