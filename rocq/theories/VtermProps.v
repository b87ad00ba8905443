(** C40 (sedimentation, subsidence) and C41 (fall speeds are up to date when used) *)
From Coq Require Import List Arith NArith ZArith Lia Reals Lra Permutation Bool.
From Verif Require Import Base BaseProofs HskpngModel HskpngProofs HskpngProps CoalModel CoalProofs CoalPairProofs CoalPassProofs CoalProps
  SpaceModel SpaceProofs SpaceProps GridProps MotionModel MotionProps MotionProps2.
Import ListNotations.
Local Open Scope R_scope.

(** ** C40 *)
(** the same step with sedimentation and subsidence off *)
Definition without_fall (m : mopts) : mopts := mk_mopts (m_adve m) (m_turb m) false false.

(** Sedimentation lowers a super-droplet by dt times its fall speed, subsidence by dt times the rate at its level;
    nothing else differs from the step without them. *)
Theorem C40_sedimentation_and_subsidence :
  forall o cx cy cz s m dt w_LS up vp wp vt p,
    let q := move o cx cy cz s (without_fall m) dt w_LS up vp wp vt p in
    let r := move o cx cy cz s m dt w_LS up vp wp vt p in
    px r = px q /\ py r = py q /\
    pz r = pz q - (if m_sedi m then dt * vt else 0) - (if m_subs m then dt * w_LS (pk r) else 0) /\
    (pijk r, pi r, pj r, pk r) = (pijk q, pi q, pj q, pk q).
Proof.
  intros o cx cy cz s m dt w_LS up vp wp vt p q r. unfold q, r, move, without_fall. cbn [m_adve m_turb m_sedi m_subs].
  set (p1 := if m_adve m then _ else p). set (p2 := if m_turb m then _ else p1).
  destruct (m_sedi m), (m_subs m); cbn; repeat split; ring.
Qed.
Print Assumptions C40_sedimentation_and_subsidence.

(** Turbulent advection displaces by the turbulent velocity times dt in the simulated dimensions, and nothing else differs
    from the step without it (in particular, sedimentation and subsidence are the same). *)
Definition without_turb (m : mopts) : mopts := mk_mopts (m_adve m) false (m_sedi m) (m_subs m).
Theorem C40_turbulent_displacement :
  forall o cx cy cz s m dt w_LS up vp wp vt p,
    let q := move o cx cy cz s (without_turb m) dt w_LS up vp wp vt p in
    let r := move o cx cy cz s m dt w_LS up vp wp vt p in
    (m_turb m = false -> r = q) /\
    (m_turb m = true ->
      px r = px q + (match a_dims o with O => 0 | _ => up * dt end) /\
      py r = py q + (match a_dims o with S (S (S _)) => vp * dt | _ => 0 end) /\
      pz r = pz q + (match a_dims o with S (S _) => wp * dt | _ => 0 end) /\
      (pijk r, pi r, pj r, pk r) = (pijk q, pi q, pj q, pk q)).
Proof.
  intros o cx cy cz s m dt w_LS up vp wp vt p q r. unfold q, r, move, without_turb. cbn [m_adve m_turb m_sedi m_subs].
  set (p1 := if m_adve m then _ else p). clearbody p1.
  split; intros H; rewrite H; [reflexivity|].
  destruct (a_dims o) as [|[|[|d]]], (m_sedi m), (m_subs m); cbn; repeat split; ring.
Qed.
Print Assumptions C40_turbulent_displacement.

(** The level at which the subsidence rate is taken: without advection, and with the Euler and implicit schemes, it is the
    level of the position at the beginning of the step; with predictor-corrector it is the level of the position
    after the predictor. (Of the position as of the last update of cell numbers, in any case.) *)
Theorem C40_level :
  forall o f cx cy cz s m dt w_LS up vp wp vt x y z i j k c0 i0 j0 k0,
    setup o -> stored o f cx cy cz -> inside o x y z -> in_cell o i j k x y z ->
    let r := move o cx cy cz s m dt w_LS up vp wp vt (re_index o (mk_part x y z c0 i0 j0 k0)) in
    (m_adve m = false \/ s = Euler \/ s = Implicit -> pk r = k) /\
    (m_adve m = true -> s = PredCorr -> a_cfg o = PredCorr -> bounded o f ->
     forall ym zm i' j' k',
       (a_dims o = 3%nat -> wrapped (a_y0 o) (a_y1 o) (y + dY o f i j k y) ym) -> moved_back o (z + dZ o f i j k z) zm ->
       in_cell o i' j' k' (x + dX o f i j k x) ym zm -> pk r = k').
Proof.
  intros o f cx cy cz s m dt w_LS up vp wp vt x y z i j k c0 i0 j0 k0 S ST IN CE r.
  assert (E : pk r = pk (if m_adve m then adve o cx cy cz s (re_index o (mk_part x y z c0 i0 j0 k0)) else re_index o (mk_part x y z c0 i0 j0 k0))).
  { unfold r, move. set (p1 := if m_adve m then _ else _). destruct (m_turb m), (m_sedi m), (m_subs m); reflexivity. }
  split.
  - intros H. rewrite E. destruct (m_adve m) eqn:EA.
    + destruct H as [H|[-> | ->]]; [discriminate| |].
      * apply (C17_euler o f cx cy cz x y z i j k S ST IN CE).
      * apply (C17_implicit o f cx cy cz x y z i j k S ST IN CE).
    + unfold re_index. cbn [pk]. apply cell_coord_nat; [apply (su_dz _ S)|apply CE].
  - intros EA -> CF B ym zm i' j' k' W M CE'. rewrite E, EA.
    exact (proj2 (proj2 (proj2 (C17_pred_corr o f cx cy cz x y z i j k S CF ST B IN CE _ _ _ _ ym zm i' j' k' W M CE')))).
Qed.
Print Assumptions C40_level.

(** C40 read strictly ("the rate of its cell") is false with the predictor-corrector scheme: a super-droplet that starts and ends
    the advection in level 0 can be lowered with the rate of level 1, where only the predictor took it. *)
Definition lev_o : aopts := mk_aopts 2 2 0 2 1 1 1 0 0 0 2 PredCorr.
Definition lev_f : flow := mk_flow (fun _ _ _ => 1) (fun _ _ _ => 0)
  (fun i _ k => if Z.even i then 1 / 10 else if (k =? 1)%nat then - (1 / 2) else - (1 / 2)).
Definition lev_cx (c : nat) : R := 1.
Definition lev_cz (c : nat) : R := fw lev_f (Z.of_nat (c / 3) - 2) 0 1.
Theorem C40_subsidence_level_refuted :
  exists o f cx cy cz dt w_LS x y z c0 i0 j0 k0,
    setup o /\ stored o f cx cy cz /\ inside o x y z /\ bounded o f /\ courant_le_1 f /\
    let q := move o cx cy cz PredCorr (mk_mopts true false false false) dt w_LS 0 0 0 0 (re_index o (mk_part x y z c0 i0 j0 k0)) in
    let r := move o cx cy cz PredCorr (mk_mopts true false false true) dt w_LS 0 0 0 0 (re_index o (mk_part x y z c0 i0 j0 k0)) in
    in_span (a_dz o) 0 z /\ in_span (a_dz o) 0 (pz q) /\ in_span (a_dz o) 0 (pz r) /\
    pz r = pz q - dt * w_LS 1%nat /\ pz r <> pz q - dt * w_LS 0%nat.
Proof.
  exists lev_o, lev_f, lev_cx, (fun _ => 0), lev_cz, 1, (fun k => if (k =? 1)%nat then 1 / 10 else 0),
    (1 / 2), 0, (95 / 100), 0%nat, 0%nat, 0%nat, 0%nat.
  assert (S : setup lev_o).
  { constructor; cbn; auto; try lra; try lia; intros; discriminate. }
  assert (ST : stored lev_o lev_f lev_cx (fun _ => 0) lev_cz).
  { unfold stored. cbn [lev_o a_cfg a_dims a_ny a_nz a_nx halo_size]. change (Z.of_nat 2) with 2%Z. intros i j k H1 H2 H3.
    set (I := Z.to_nat (i + 2)). repeat split; intros.
    unfold lev_cz. replace ((I * 1 + j) * (2 + 1) + k)%nat with (I * 3 + k)%nat by lia.
    rewrite Nat.div_add_l, Nat.div_small by lia. replace (Z.of_nat (I + 0) - 2)%Z with i by lia. cbn [lev_f fw].
    destruct (Z.even i); [reflexivity|]. destruct (k =? 1)%nat; reflexivity. }
  assert (IN : inside lev_o (1 / 2) 0 (95 / 100)).
  { unfold inside. cbn. repeat split; try lra; intros; discriminate. }
  assert (CE : in_cell lev_o 0 0 0 (1 / 2) 0 (95 / 100)).
  { unfold in_cell, spanZ, in_span. cbn. repeat split; lra. }
  assert (CO : courant_le_1 lev_f).
  { intros i j k. cbn. destruct (Z.even i), (k =? 1)%nat; repeat split; unfold Rabs; destruct Rcase_abs; lra. }
  assert (B : bounded lev_o lev_f).
  { split; [intros; apply Rle_trans with 1; [apply CO|lra]|]. cbn. intros; discriminate. }
  split; [exact S|]. split; [exact ST|]. split; [exact IN|]. split; [exact B|]. split; [exact CO|].
  cbv zeta.
  assert (EX : dX lev_o lev_f 0 0 0 (1 / 2) = 1) by (unfold dX, lin; cbn; field).
  assert (EZ : dZ lev_o lev_f 0 0 0 (95 / 100) = 1 / 10) by (unfold dZ, lin; cbn; field).
  assert (M : moved_back lev_o (95 / 100 + dZ lev_o lev_f 0 0 0 (95 / 100)) (105 / 100)).
  { rewrite EZ. unfold moved_back. cbn. repeat split; intros; lra. }
  assert (CE' : in_cell lev_o 1 0 1 (1 / 2 + dX lev_o lev_f 0 0 0 (1 / 2)) 0 (105 / 100)).
  { rewrite EX. unfold in_cell, spanZ, in_span. cbn. repeat split; lra. }
  assert (W : a_dims lev_o = 3%nat -> wrapped (a_y0 lev_o) (a_y1 lev_o) (0 + dY lev_o lev_f 0 0 0 0) 0) by (cbn; intros; discriminate).
  set (p0 := re_index lev_o (mk_part (1 / 2) 0 (95 / 100) 0 0 0 0)).
  destruct (C17_pred_corr lev_o lev_f lev_cx (fun _ => 0) lev_cz (1 / 2) 0 (95 / 100) 0 0 0 S eq_refl ST B IN CE
     (pijk p0) (pi p0) (pj p0) (pk p0) 0 (105 / 100) 1%Z 0%nat 1%nat W M CE') as (_ & _ & HZ & HK).
  assert (EZ' : dZ lev_o lev_f 1 0 1 (105 / 100) = - (1 / 2)) by (unfold dZ, lin; cbn; field).
  rewrite EZ' in HZ.
  unfold move. cbn [m_adve m_turb m_sedi m_subs].
  change (adve lev_o lev_cx (fun _ => 0) lev_cz PredCorr p0) with
    (adve lev_o lev_cx (fun _ => 0) lev_cz PredCorr (mk_part (1 / 2) 0 (95 / 100) (pijk p0) (pi p0) (pj p0) (pk p0))).
  set (q := adve _ _ _ _ _ _) in *. clearbody q.
  assert (HZ' : pz q = 75 / 100) by (rewrite HZ; field).
  unfold subs. cbn [pz with_pos]. rewrite HZ', HK. unfold in_span. cbn. repeat split; lra.
Qed.
Print Assumptions C40_subsidence_level_refuted.

(** ** C41 *)
Section C41.
  Variable eq : vt_eq.
  Variable ice_switch : bool.
  Variables beard76 khvorostyanov_s khvorostyanov_n : nat -> R -> R.
  Variable beard77_fact : nat -> R -> R.
  Variable beard77_v0 : R -> R.
  Variable vt_0 : nat -> R.
  Variables ln_r_min ln_r_max : R.
  Variable n_bin : nat.
  Variable ratio : R.
  Variable ijk : list nat.       (* cell of each super-droplet *)
  Variable ice_a : nat -> R.

  Notation vliq := (vt_liquid eq beard76 khvorostyanov_s khvorostyanov_n beard77_fact beard77_v0 vt_0 ln_r_min ln_r_max n_bin).
  Notation cell := (fun id => nth id ijk 0%nat).
  Notation all := (hskpng_vterm_all eq ice_switch beard76 khvorostyanov_s khvorostyanov_n beard77_fact beard77_v0 vt_0
                     ln_r_min ln_r_max n_bin ratio cell ice_a).
  Notation inv := (hskpng_vterm_invalid eq ice_switch beard76 khvorostyanov_s khvorostyanov_n beard77_fact beard77_v0 vt_0
                     ln_r_min ln_r_max n_bin ratio cell ice_a).

  (** the fall speed of a super-droplet corresponds to its present size (and cell); for ice particles, those with no
      liquid when ice is switched on, to the ice formula *)
  Definition current (id : nat) (s : sd) : Prop :=
    (0 < rw2 s -> vt s = vliq (cell id) (rw2 s)) /\
    (ice_switch = true -> rw2 s = 0 -> vt s = beard76 (cell id) (ice_a id) * ratio).
  Definition same_but_vt (s s' : sd) : Prop :=
    n s' = n s /\ rw2 s' = rw2 s /\ rd3 s' = rd3 s /\ kpa s' = kpa s /\ chem s' = chem s /\ ict s' = ict s /\ rc2 s' = rc2 s /\ pos s' = pos s.

  (** C41: recomputing everything makes all fall speeds current and changes nothing else; recomputing the invalid ones does so
      for those, and leaves the others alone. *)
  Theorem C41_recomputation :
    forall sds id,
      (current id (all sds id) /\ same_but_vt (sds id) (all sds id)) /\
      (vt (sds id) = -1 -> current id (inv sds id) /\ same_but_vt (sds id) (inv sds id)) /\
      (vt (sds id) <> -1 -> inv sds id = sds id).
  Proof.
    intros sds id. unfold all, inv, hskpng_vterm_all, hskpng_vterm_invalid, vterm_all_ice, vterm_all_liq, vterm_invalid_ice, vterm_invalid_liq,
      current, same_but_vt, vt_ice. set (s := sds id). clearbody s.
    unfold Rltb, Reqb, invalid. cbv beta. split; [|split].
    - destruct (Rlt_dec 0 (rw2 s)) as [H|H]; destruct ice_switch; cbn [set_vt rw2 vt n rd3 kpa chem ict rc2 pos].
      + destruct (Req_EM_T (rw2 s) 0) as [H'|H']; [exfalso; lra|]. cbn [set_vt rw2 vt n rd3 kpa chem ict rc2 pos].
        repeat split; auto; intros; lra.
      + repeat split; auto. discriminate.
      + destruct (Req_EM_T (rw2 s) 0) as [H'|H']; cbn [set_vt rw2 vt n rd3 kpa chem ict rc2 pos]; repeat split; auto; intros; lra.
      + repeat split; auto; intros; [lra|discriminate].
    - intros E. rewrite E. destruct (Req_EM_T (-1) (-1)) as [_|H]; [|exfalso; lra]. cbn [andb].
      destruct (Rlt_dec 0 (rw2 s)) as [H|H].
      + cbn [set_vt rw2 vt]. destruct ice_switch.
        * destruct (Req_EM_T (rw2 s) 0) as [H'|H']; [exfalso; lra|]. rewrite andb_false_r.
          cbn [set_vt rw2 vt n rd3 kpa chem ict rc2 pos]. repeat split; auto; intros; lra.
        * cbn [set_vt rw2 vt n rd3 kpa chem ict rc2 pos]. repeat split; auto; intros; try lra; discriminate.
      + destruct ice_switch.
        * rewrite E. destruct (Req_EM_T (-1) (-1)) as [_|H1]; [|exfalso; lra]. cbn [andb].
          destruct (Req_EM_T (rw2 s) 0) as [H'|H']; cbn [set_vt rw2 vt n rd3 kpa chem ict rc2 pos]; repeat split; auto; intros; lra.
        * repeat split; auto; intros; try lra; discriminate.
    - intros E. destruct (Req_EM_T (vt s) (-1)) as [H|_]; [contradiction|]. cbn [andb].
      destruct ice_switch; [|reflexivity]. destruct (Req_EM_T (vt s) (-1)) as [H|_]; [contradiction|]. reflexivity.
  Qed.

  (** one call of coal: any kernel, random numbers, order of execution, admissible sorting *)
  Definition pass (k : nat) (sds sds' : nat -> sd) : Prop :=
    exists kernel dt dv o n_cell gn gr sorted_id sorted_ijk sched u01 st,
      sort_helper true ijk sorted_ijk sorted_id /\ pass_inputs kernel dt dv n_cell ijk sched sds /\
      coal kernel dt dv o n_cell gn gr sorted_id sorted_ijk (length ijk) sched u01 sds = Some st /\
      sds' = arr st.
  Notation loop := (coal_loop eq ice_switch beard76 khvorostyanov_s khvorostyanov_n beard77_fact beard77_v0 vt_0
                     ln_r_min ln_r_max n_bin ratio cell ice_a pass).
  Notation run := (vterm_and_coal eq ice_switch beard76 khvorostyanov_s khvorostyanov_n beard77_fact beard77_v0 vt_0
                     ln_r_min ln_r_max n_bin ratio cell ice_a pass).

  (** the populations that enter the passes of a loop which started with [sds] at pass [k] *)
  Inductive enters (sstp : nat) : nat -> (nat -> sd) -> nat -> (nat -> sd) -> Prop :=
  | enters_here k sds : (k < sstp)%nat -> enters sstp k sds k sds
  | enters_later k sds sds1 k' sds' : (S k < sstp)%nat -> pass k sds sds1 ->
      enters sstp (S k) (inv sds1) k' sds' -> enters sstp k sds k' sds'.

  Lemma pass_effect k sds sds' : pass k sds sds' ->
    forall id, (rw2 (sds' id) = rw2 (sds id) /\ vt (sds' id) = vt (sds id)) \/ vt (sds' id) = -1.
  Proof.
    intros (kernel & dt & dv & o & n_cell & gn & gr & sid_ & sijk_ & sched & u01 & st & Hs & Hi & Hr & ->) id.
    destruct (C01_pairs_disjoint_same_cell_others_untouched kernel dt dv o n_cell gn gr ijk sid_ sijk_ sched u01 sds Hs Hi)
      as (st' & prs & Hr' & HL & HP & HO).
    rewrite Hr in Hr'. injection Hr' as <-.
    destruct (in_dec Nat.eq_dec id (flat_map (fun t => [snd (fst t); snd t]) prs)) as [Hin|Hin];
      [|left; rewrite (HO id Hin); auto].
    apply in_flat_map in Hin. destruct Hin as (((r & i) & j) & Hin & Hid). cbn [fst snd] in Hid.
    specialize (HP r i j Hin).
    destruct HP as (c1 & _ & [(_ & E1 & E2)|[(_ & _ & M)|(_ & _ & M)]]).
    - left. destruct Hid as [<-|[<-|[]]]; [rewrite E1|rewrite E2]; auto.
    - destruct Hid as [<-|[<-|[]]]; [left; split; apply (mg_X _ _ _ _ _ _ M)|right; apply (mg_vt _ _ _ _ _ _ M)].
    - destruct Hid as [<-|[<-|[]]]; [right; apply (mg_vt _ _ _ _ _ _ M)|left; split; apply (mg_X _ _ _ _ _ _ M)].
  Qed.

  Lemma current_same id s s' : rw2 s' = rw2 s -> vt s' = vt s -> current id s -> current id s'.
  Proof. unfold current. intros -> ->. auto. Qed.
  Lemma current_inv sds id : current id (sds id) \/ vt (sds id) = -1 -> current id (inv sds id).
  Proof.
    intros H. destruct (C41_recomputation sds id) as (_ & H1 & H2).
    destruct (Req_EM_T (vt (sds id)) (-1)) as [E|E]; [now apply H1|]. rewrite (H2 E). destruct H as [H|H]; [exact H|contradiction].
  Qed.

  Lemma enters_current sstp k sds k' sds' : enters sstp k sds k' sds' ->
    (forall id, current id (sds id)) -> forall id, current id (sds' id).
  Proof.
    induction 1 as [k sds Hk|k sds sds1 k' sds' Hk Hp He IH]; intros HC; [exact HC|].
    apply IH. intros id. apply current_inv.
    destruct (pass_effect k sds sds1 Hp id) as [(E1 & E2)|E]; [left|right; exact E].
    apply (current_same id (sds id)); auto.
  Qed.

  (** C41, collisions: in a step with coalescence, whatever the number of coalescence substeps and the other processes, the collisions
      start from the population of the beginning of the step with all fall speeds recomputed, and at the beginning of every
      substep the fall speed of every super-droplet is current. *)
  Theorem C41_collisions :
    forall sstp sedi_on cond_on sds sds', run sstp true sedi_on cond_on sds sds' ->
    exists sds0, loop sstp 0 sds0 sds' /\ (forall id, same_but_vt (sds id) (sds0 id)) /\
      forall k sds_k, enters sstp 0 sds0 k sds_k -> forall id, current id (sds_k id).
  Proof.
    intros sstp sedi_on cond_on sds sds' H. unfold vterm_and_coal in H. rewrite orb_true_r in H. cbn [orb] in H.
    exists (all sds). split; [exact H|]. split; [intros id; apply C41_recomputation|].
    intros k sds_k He. apply (enters_current sstp 0 (all sds) k sds_k He).
    intros id. apply C41_recomputation.
  Qed.

  Lemma loop_end sstp k sds sds' : loop sstp k sds sds' -> (forall id, current id (sds id)) ->
    forall id, current id (sds' id) \/ vt (sds' id) = -1.
  Proof.
    induction 1 as [sds|step sds sds1 sds2 Hk Hp Hl IH]; intros HC; [auto|].
    destruct (Nat.eqb_spec (step + 1) sstp) as [E|E].
    - replace (S step) with sstp in Hl by lia. intros id.
      inversion Hl; subst; [|lia].
      destruct (pass_effect step sds sds2 Hp id) as [(E1 & E2)|E1]; [left|right; exact E1].
      apply (current_same id (sds id)); auto.
    - apply IH. intros id. apply current_inv.
      destruct (pass_effect step sds sds1 Hp id) as [(E1 & E2)|E1]; [left|right; exact E1].
      apply (current_same id (sds id)); auto.
  Qed.

  (** C41, sedimentation (partial): in a step with sedimentation, coalescence or condensation and without collisions the fall speeds used are
      current; with collisions each is current or the mark for an invalid one, -1. *)
  Theorem C41_sedimentation_partial :
    forall sstp coal_on sedi_on cond_on sds sds', run sstp coal_on sedi_on cond_on sds sds' ->
      coal_on = true \/ sedi_on = true \/ cond_on = true ->
      (coal_on = false -> forall id, current id (sds' id)) /\
      (forall id, current id (sds' id) \/ vt (sds' id) = -1).
  Proof.
    intros sstp coal_on sedi_on cond_on sds sds' H Hon. unfold vterm_and_coal in H.
    replace (sedi_on || coal_on || cond_on) with true in H
      by (destruct coal_on, sedi_on, cond_on; try reflexivity; intuition discriminate).
    assert (HA : forall id, current id (all sds id)) by (intros; apply C41_recomputation).
    destruct coal_on.
    - split; [discriminate|]. exact (loop_end sstp 0 (all sds) sds' H HA).
    - subst sds'. split; [intros _; exact HA|auto].
  Qed.
End C41.
Print Assumptions C41_recomputation.

(** The table of sea-level fall speeds is read within its bounds, at the entry whose range of ln(r) contains the droplet, or
    the nearest one. *)
Theorem C41_table :
  forall ln_r_min ln_r_max n_bin w, ln_r_min < ln_r_max -> (0 < n_bin)%nat -> 0 < w ->
    let b := get_vt0_bin ln_r_min ln_r_max n_bin w in
    let lnr := ln (sqrt w) in
    let d := (ln_r_max - ln_r_min) / INR n_bin in
    (b < n_bin)%nat /\
    (ln_r_min <= lnr < ln_r_max -> ln_r_min + INR b * d <= lnr < ln_r_min + (INR b + 1) * d) /\
    (lnr < ln_r_min -> b = 0%nat) /\ (ln_r_max <= lnr -> b = (n_bin - 1)%nat).
Proof.
  intros lo hi nb w Hlt Hn Hw b lnr d.
  assert (HnR : 0 < INR nb) by (apply lt_0_INR; lia).
  assert (Hd : 0 < d) by (unfold d; apply Rdiv_lt_0_compat; lra).
  assert (Hnd : INR nb * d = hi - lo) by (unfold d; field; lra).
  assert (El : / 2 * ln w = lnr).
  { unfold lnr. rewrite <- (sqrt_sqrt w) at 1 by lra. rewrite ln_mult by (apply sqrt_lt_R0; lra). lra. }
  unfold b, get_vt0_bin. rewrite El. cbv zeta. fold d.
  destruct (Rleb lnr lo) eqn:E1; [apply Rleb_true in E1|apply Rleb_false in E1].
  { split; [lia|]. split; [|split; [reflexivity|intros; lra]]. cbn [INR]. intros H. split; [lra|].
    rewrite Rplus_0_l, Rmult_1_l. lra. }
  destruct (Rleb hi lnr) eqn:E2; [apply Rleb_true in E2|apply Rleb_false in E2].
  { split; [lia|]. split; [intros; lra|]. split; [intros; lra|reflexivity]. }
  assert (Hq : 0 <= (lnr - lo) / d) by (apply Rmult_le_pos; [lra|left; apply Rinv_0_lt_compat; exact Hd]).
  destruct (truncZ_nonneg _ Hq) as [[H1 H2] H3]. set (t := truncZ ((lnr - lo) / d)) in *.
  assert (Hqd : (lnr - lo) / d * d = lnr - lo) by (field; lra).
  set (q := (lnr - lo) / d) in *. clearbody q.
  assert (Ht : INR (Z.to_nat t) = IZR t) by (rewrite INR_IZR_INZ, Z2Nat.id by exact H3; reflexivity).
  rewrite Ht. split; [|split; [|split; intros; lra]].
  - apply INR_lt. rewrite Ht. apply (Rmult_lt_reg_r d); [exact Hd|]. rewrite Hnd. nra.
  - intros _. split; nra.
Qed.
Print Assumptions C41_table.
Print Assumptions C41_collisions.
Print Assumptions C41_sedimentation_partial.

(** C41 is false at sedimentation: fall speeds of droplets that have just coalesced in the last substep are not
    recomputed, and the mark -1 is used as if it were a fall speed: the droplet is raised by dt times 1 m/s. *)
Theorem C41_sedimentation_refuted :
  exists sds sds' : nat -> sd,
    vterm_and_coal Beard76 false (fun _ r => r) (fun _ _ => 0) (fun _ _ => 0) (fun _ _ => 0) (fun _ => 0) (fun _ => 0) 0 0 0 1
      (fun id => nth id [0; 0]%nat 0%nat) (fun _ => 0) (pass [0; 0]%nat) 1 true true true sds sds' /\
    (* super-droplet 1 has grown, its fall speed should be positive, but ... *)
    0 < rw2 (sds' 1%nat) /\
    (forall dt x y z, pz (sedi dt (vt (sds' 1%nat)) (mk_part x y z 0 0 0 0)) = z + dt * 1).
Proof.
  set (all := hskpng_vterm_all Beard76 false (fun _ r => r) (fun _ _ => 0) (fun _ _ => 0) (fun _ _ => 0) (fun _ => 0) (fun _ => 0) 0 0 0 1
      (fun id => nth id [0; 0]%nat 0%nat) (fun _ => 0) ex_sds).
  assert (HS : forall id, same_but_vt (ex_sds id) (all id)).
  { intros id. apply (C41_recomputation Beard76 false (fun _ r => r) (fun _ _ => 0) (fun _ _ => 0) (fun _ _ => 0) (fun _ => 0) (fun _ => 0) 0 0 0 1
      [0; 0]%nat (fun _ => 0) ex_sds id). }
  assert (HI : pass_inputs (fun _ _ _ => 3) 1 (fun _ => 1) 1 [0;0]%nat (fun _ => [0%nat]) all).
  { destruct ex_inputs as [A1 A2 A3 A4 A5 A6 A7 A8]. constructor; auto.
    - intros i Hi. destruct (HS i) as (-> & _). auto.
    - intros i Hi. destruct (HS i) as (_ & -> & _). auto. }
  destruct (C01_pairs_disjoint_same_cell_others_untouched (fun _ _ _ => 3) 1 (fun _ => 1) ex_opts 1
     (fun _ => 0%nat) (fun _ => 0) [0;0]%nat [0;1]%nat [0;0]%nat (fun _ => [0%nat]) (fun _ => 1/2) all
     ex_sort HI) as (st & prs & Hrun & (ND & _ & HV & HL) & HP & _).
  exists ex_sds, (arr st).
  assert (HN : n (all 0%nat) = 5%N /\ n (all 1%nat) = 2%N) by (split; [rewrite (proj1 (HS 0%nat))|rewrite (proj1 (HS 1%nat))]; reflexivity).
  assert (HW : rw2 (all 0%nat) = 4 /\ rw2 (all 1%nat) = 9).
  { split; [rewrite (proj1 (proj2 (HS 0%nat)))|rewrite (proj1 (proj2 (HS 1%nat)))]; reflexivity. }
  assert (HPP : forall p, collisions 3 (1 / 2) p -> p = 3%N).
  { intros p (f & Hf & ->). assert (f = 3%N).
    { assert (N2R f < N2R 4) by (unfold N2R at 2; cbn; lra). assert (N2R 2 < N2R f) by (unfold N2R at 1; cbn; lra).
      unfold N2R in *. apply lt_IZR in H. apply lt_IZR in H0. lia. }
    subst f. destruct (Rlt_dec (1 / 2) (3 - N2R 3)); [exfalso; unfold N2R in *; cbn in *; lra|reflexivity]. }
  assert (HPr : forall A B, pair_probability (fun _ _ _ => 3) 1 (fun _ => 1) 2 0 A B = 3).
  { intros. unfold pair_probability. cbn. field. }
  (* exactly one pair, made of 0 and 1 *)
  assert (HM : exists c, vt (arr st 1%nat) = -1 /\ 0 <= rw2 (arr st 1%nat) /\
     sqrt (rw2 (arr st 1%nat)) ^ 3 = N2R c * sqrt 4 ^ 3 + sqrt 9 ^ 3).
  { specialize (HL 0%nat). cbn in HL.
    destruct prs as [|((r & i) & j) prs]; [cbn in HL; discriminate|].
    destruct (HV r i j ltac:(left; reflexivity)) as (V1 & V2 & _). cbn [length] in V1, V2.
    cbn [flat_map fst snd app] in ND.
    assert (i <> j). { inversion ND as [|? ? HN' _]; subst. intros ->. apply HN'. left. reflexivity. }
    specialize (HP r i j ltac:(left; reflexivity)).
    assert (Hij : (i = 0 /\ j = 1)%nat \/ (i = 1 /\ j = 0)%nat) by lia.
    destruct Hij as [(-> & ->)|(-> & ->)].
    - cbn [nth] in HP. replace (count_occ Nat.eq_dec [0%nat; 0%nat] 0%nat) with 2%nat in HP by reflexivity. rewrite HPr in HP. destruct HP as (c1 & Hc & H').
      apply HPP in Hc. subst c1. destruct HN as (N0 & N1). rewrite N0, N1 in H'. destruct HW as (W0 & W1).
      destruct H' as [(X & _)|[(_ & _ & M)|(_ & X & _)]]; [discriminate| |lia].
      eexists. split; [apply (mg_vt _ _ _ _ _ _ M)|]. split; [apply (mg_rw_pos _ _ _ _ _ _ M)|].
      rewrite <- W0, <- W1. apply (mg_rw _ _ _ _ _ _ M).
    - cbn [nth] in HP. replace (count_occ Nat.eq_dec [0%nat; 0%nat] 0%nat) with 2%nat in HP by reflexivity. rewrite HPr in HP. destruct HP as (c1 & Hc & H').
      apply HPP in Hc. subst c1. destruct HN as (N0 & N1). rewrite N0, N1 in H'. destruct HW as (W0 & W1).
      destruct H' as [(X & _)|[(_ & X & _)|(_ & _ & M)]]; [discriminate|lia|].
      eexists. split; [apply (mg_vt _ _ _ _ _ _ M)|]. split; [apply (mg_rw_pos _ _ _ _ _ _ M)|].
      rewrite <- W0, <- W1. apply (mg_rw _ _ _ _ _ _ M). }
  destruct HM as (c & E1 & E2 & E3).
  split; [|split].
  - unfold vterm_and_coal. cbn [orb]. fold all.
    apply (loop_step _ _ _ _ _ _ _ _ _ _ _ _ _ _ _ _ 0 all (arr st) (arr st)); [lia| |].
    + exists (fun _ _ _ => 3), 1, (fun _ => 1), ex_opts, 1%nat, (fun _ => 0%nat), (fun _ => 0), [0;1]%nat, [0;0]%nat,
        (fun _ => [0%nat]), (fun _ => 1/2), st. split; [exact ex_sort|]. split; [exact HI|]. split; [exact Hrun|reflexivity].
    + cbn [Nat.add Nat.eqb]. apply loop_done.
  - destruct (Req_dec (rw2 (arr st 1%nat)) 0) as [Z|Z]; [|lra]. exfalso.
    rewrite Z, sqrt_0 in E3. pose proof (N2R_nonneg c).
    replace (sqrt 4) with 2 in E3 by (replace 4 with (2 * 2) by ring; rewrite sqrt_square; lra).
    replace (sqrt 9) with 3 in E3 by (replace 9 with (3 * 3) by ring; rewrite sqrt_square; lra).
    cbn in E3. lra.
  - intros dt x y z. rewrite E1. unfold sedi. cbn. ring.
Qed.
Print Assumptions C41_sedimentation_refuted.
