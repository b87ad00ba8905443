(** C24: freezing and melting. *)
From Coq Require Import List Arith NArith ZArith Lia Reals Lra Bool.
From Verif Require Import Base BaseProofs HskpngModel ThermoModel ThermoProofs TomsModel CondModel MomsModel MomsProofs
  KoehlerProps CondPassModel CondPassProofs CondPassProps.
Import ListNotations.
Local Open Scope R_scope.

(** ** specification *)
(** mass of a drop of squared radius [w]; mass of a spheroid with equatorial radius [a], polar radius [c] and density [rho] *)
Definition drop_mass (w : R) : R := 4 / 3 * PI * 1000 * sqrt w ^ 3.
Definition spheroid_mass (a c rho : R) : R := 4 / 3 * PI * a * a * c * rho.
(** a particle (squared wet radius, a, c, density of ice) that is liquid and has no ice, or is ice and has no liquid *)
Definition is_liquid (x : iatt) : Prop := let '(w, a, c, rho) := x in 0 <= w /\ a = 0 /\ c = 0 /\ rho = 0.
Definition is_ice (x : iatt) : Prop := let '(w, a, c, rho) := x in w = 0 /\ 0 < a /\ 0 < c /\ rho = 910.
Definition one_phase (x : iatt) : Prop := is_liquid x \/ is_ice x.
Definition water_of (x : iatt) : R := let '(w, a, c, rho) := x in drop_mass w + spheroid_mass a c rho.

(** latent heat of fusion [J/kg] *)
Definition fusion_heat (T : R) : R := 334000 + (4218 - 2114) * (T - 273.16).

(** a history of a population: freezing and melting, condensation and deposition, and any other process, which may only move, remove
    or copy super-droplets or add new ones without ice; ambient conditions and options change in any way in between.
    (With ice, per-particle substeps and collisions are refused when the model is created: C42.) *)
Inductive ice_history : parts -> Prop :=
| ih_start P : (forall i, is_liquid (ice_attr P i)) -> ice_history P
| ih_freeze P o io g sijk sid E S : ice_history P -> ice_history (s_P (ice_nucl_melt o io g sijk sid (mk_cst P E S)))
| ih_grow P o allow g sijk sid E S st' : o_exact o = false -> ice_history P ->
    cond_part o allow g sijk sid (mk_cst P E S) st' -> ice_history (s_P st')
| ih_other P P' : ice_history P -> (forall i, (exists j, ice_attr P' i = ice_attr P j) \/ is_liquid (ice_attr P' i)) -> ice_history P'.

(** ** one particle *)
Lemma cpow_half x : 0 <= x -> cpow x (1 / 2) = sqrt x.
Proof.
  intros H. unfold cpow. destruct (Rlt_dec 0 x) as [Hx|Hx].
  - replace (1 / 2) with (/ 2) by lra. apply Rpower_sqrt, Hx.
  - assert (x = 0) by lra. subst. rewrite sqrt_0. destruct (Req_EM_T (1 / 2) 0); lra.
Qed.
Lemma third_cubed x : 0 < x -> cpow x (1 / 3) ^ 3 = x.
Proof.
  intros H. unfold cpow. destruct (Rlt_dec 0 x) as [_|]; [|lra].
  rewrite <- Rpower_pow by apply exp_pos. rewrite Rpower_mult. replace (1 / 3 * INR 3) with 1 by (cbn; lra). apply Rpower_1, H.
Qed.
Lemma third_pos x : 0 < x -> 0 < cpow x (1 / 3).
Proof. intros H. unfold cpow. destruct (Rlt_dec 0 x) as [_|]; [|lra]. apply exp_pos. Qed.

Lemma freeze_facts x : is_liquid x -> 0 < fst (fst (fst x)) ->
  is_ice (freeze x) /\ water_of (freeze x) = water_of x /\ (let '(_, a, c, _) := freeze x in a = c).
Proof.
  destruct x as [[[w a] c] rho]. cbn [fst]. intros (_ & -> & -> & ->) Hw. unfold freeze, is_ice, water_of.
  rewrite cpow_half by lra. assert (H0 : 0 < rho_w / rho_i) by (unfold rho_w, rho_i; lra).
  pose proof (third_pos _ H0) as Hp. pose proof (third_cubed _ H0) as H3. pose proof (sqrt_lt_R0 w Hw) as Hs.
  split; [|split; [|reflexivity]].
  - repeat split; try (apply Rmult_lt_0_compat; assumption).
  - unfold drop_mass, spheroid_mass. rewrite sqrt_0.
    replace (4 / 3 * PI * (sqrt w * cpow (rho_w / rho_i) (1 / 3)) * (sqrt w * cpow (rho_w / rho_i) (1 / 3)) *
      (sqrt w * cpow (rho_w / rho_i) (1 / 3)) * rho_i)
      with (4 / 3 * PI * sqrt w ^ 3 * rho_i * cpow (rho_w / rho_i) (1 / 3) ^ 3) by ring.
    rewrite H3. unfold rho_w, rho_i. field.
Qed.

Lemma melt_radius a c : 0 < a -> 0 < c ->
  sqrt (cpow (rho_i / rho_w * c) (2 / 3) * cpow a (4 / 3)) ^ 3 = rho_i / rho_w * c * (a * a).
Proof.
  intros Ha Hc. assert (H0 : 0 < rho_i / rho_w * c) by (apply Rmult_lt_0_compat; [unfold rho_i, rho_w; lra|exact Hc]).
  unfold cpow. destruct (Rlt_dec 0 (rho_i / rho_w * c)) as [_|]; [|lra]. destruct (Rlt_dec 0 a) as [_|]; [|lra].
  set (y := rho_i / rho_w * c) in *. clearbody y.
  rewrite sqrt_mult by (apply Rlt_le, exp_pos). rewrite Rpow_mult_distr.
  rewrite <- !Rpower_sqrt by apply exp_pos. rewrite !Rpower_mult.
  rewrite <- !Rpower_pow by apply exp_pos. rewrite !Rpower_mult.
  replace (2 / 3 * / 2 * INR 3) with 1 by (cbn; lra). replace (4 / 3 * / 2 * INR 3) with (1 + 1) by (cbn; lra).
  rewrite Rpower_plus, !Rpower_1 by assumption. reflexivity.
Qed.
Lemma melt_facts x : is_ice x -> forall T, 273.15 < T -> is_liquid (melt T x) /\ water_of (melt T x) = water_of x.
Proof.
  destruct x as [[[w a] c] rho]. intros (-> & Ha & Hc & ->) T HT. unfold melt.
  replace (Rltb 0 (a * c)) with true by (symmetry; apply Rltb_true, Rmult_lt_0_compat; assumption).
  replace (Rltb (27315 / 100) T) with true by (symmetry; apply Rltb_true; lra). cbn [andb].
  split.
  - cbn [is_liquid]. repeat split. apply Rmult_le_pos; unfold cpow.
    + destruct (Rlt_dec _ _); [apply Rlt_le, exp_pos|destruct (Req_EM_T _ _); lra].
    + destruct (Rlt_dec _ _); [apply Rlt_le, exp_pos|destruct (Req_EM_T _ _); lra].
  - unfold water_of, drop_mass. rewrite melt_radius by assumption. unfold spheroid_mass. rewrite sqrt_0. unfold rho_i, rho_w. field.
Qed.
Lemma melt_not x T : is_liquid x \/ T <= 273.15 -> melt T x = x.
Proof.
  destruct x as [[[w a] c] rho]. intros H. unfold melt. destruct H as [(_ & -> & _)|H].
  - replace (Rltb 0 (0 * c)) with false by (symmetry; apply Rltb_false; lra). reflexivity.
  - replace (Rltb (27315 / 100) T) with false by (symmetry; apply Rltb_false; lra). rewrite andb_false_r. reflexivity.
Qed.

(** C24 for one particle, singular freezing: it freezes at or below its freezing temperature in saturated air, ice melts above 0 C *)
Theorem C24_singular Tf T RH x : one_phase x ->
  let x' := singular_freeze Tf T RH x in
  (is_liquid x -> 0 < fst (fst (fst x)) -> T <= Tf -> 1 <= RH -> is_ice x' /\ water_of x' = water_of x) /\
  (Tf < T \/ RH < 1 \/ fst (fst (fst x)) = 0 -> x' = x).
Proof.
  intros Hx. destruct x as [[[w a] c] rho]. intros x'. cbn [fst]. split.
  - intros Hl Hw HT HR. unfold x', singular_freeze.
    replace (Rltb 0 w) with true by (symmetry; apply Rltb_true, Hw). replace (Rleb T Tf) with true by (symmetry; apply Rleb_true, HT).
    replace (Rleb 1 RH) with true by (symmetry; apply Rleb_true, HR). cbn [andb].
    destruct (freeze_facts _ Hl Hw) as (A & B & _). split; assumption.
  - intros H. unfold x', singular_freeze. destruct H as [H|[H|H]].
    + replace (Rleb T Tf) with false by (symmetry; apply Rleb_false, H). rewrite andb_false_r. reflexivity.
    + replace (Rleb 1 RH) with false by (symmetry; apply Rleb_false, H). rewrite andb_false_r. reflexivity.
    + subst w. replace (Rltb 0 0) with false by (symmetry; apply Rltb_false; lra). reflexivity.
Qed.
(** C24 for one particle, time-dependent freezing: it freezes if the random number is below the probability of freezing *)
Theorem C24_time_dependent ins u T dt x : one_phase x ->
  let x' := time_dep_freeze ins u T dt x in
  (is_liquid x -> 0 < fst (fst (fst x)) -> u < p_freeze ins (fst (fst (fst x))) T dt -> is_ice x' /\ water_of x' = water_of x) /\
  (p_freeze ins (fst (fst (fst x))) T dt <= u \/ fst (fst (fst x)) = 0 -> x' = x).
Proof.
  intros Hx. destruct x as [[[w a] c] rho]. intros x'. cbn [fst]. split.
  - intros Hl Hw HT. unfold x', time_dep_freeze.
    replace (Rltb 0 w) with true by (symmetry; apply Rltb_true, Hw). replace (Rltb u _) with true by (symmetry; apply Rltb_true, HT).
    cbn [andb]. destruct (freeze_facts _ Hl Hw) as (A & B & _). split; assumption.
  - intros H. unfold x', time_dep_freeze. destruct H as [H|H].
    + replace (Rltb u _) with false by (symmetry; apply Rltb_false, H). rewrite andb_false_r. reflexivity.
    + subst w. replace (Rltb 0 0) with false by (symmetry; apply Rltb_false; lra). reflexivity.
Qed.
(** C24 for one particle: ice melts above 0 C and only there *)
Theorem C24_melt T x : one_phase x ->
  (is_ice x -> 273.15 < T -> is_liquid (melt T x) /\ water_of (melt T x) = water_of x) /\
  (is_liquid x \/ T <= 273.15 -> melt T x = x).
Proof. intros _. split; [intros H HT; exact (melt_facts x H T HT)|apply melt_not]. Qed.

Lemma one_step o io P E i : one_phase (ice_attr P i) ->
  one_phase (nucl_melt_one o io P E i) /\ water_of (nucl_melt_one o io P E i) = water_of (ice_attr P i).
Proof.
  intros H. unfold nucl_melt_one. cbv zeta. set (T := e_T E (p_ijk P i)). set (x := ice_attr P i) in *.
  set (y := if i_time_dep io then _ else _).
  assert (Hy : one_phase y /\ water_of y = water_of x).
  { unfold y. destruct (i_time_dep io).
    - destruct (C24_time_dependent (i_rd2_insol io i) (i_u01 io i) T (o_dt o) x H) as [A B].
      destruct H as [H|H].
      + destruct (Rlt_dec (i_u01 io i) (p_freeze (i_rd2_insol io i) (fst (fst (fst x))) T (o_dt o))) as [L|L].
        * destruct (Rlt_dec 0 (fst (fst (fst x)))) as [W|W].
          -- destruct (A H W L). split; [right; assumption|assumption].
          -- rewrite B; [split; [left; exact H|reflexivity]|]. right. destruct x as [[[w a] c] rho]. cbn [fst] in *. destruct H. lra.
        * rewrite B by (left; lra). split; [left; exact H|reflexivity].
      + rewrite B; [split; [right; exact H|reflexivity]|]. right. destruct x as [[[w a] c] rho]. apply H.
    - destruct (C24_singular (i_T_freeze io i) T (e_RH E (p_ijk P i)) x H) as [A B].
      destruct H as [H|H].
      + destruct (Rle_dec T (i_T_freeze io i)) as [L|L]; [destruct (Rle_dec 1 (e_RH E (p_ijk P i))) as [L'|L']|].
        * destruct (Rlt_dec 0 (fst (fst (fst x)))) as [W|W].
          -- destruct (A H W L L'). split; [right; assumption|assumption].
          -- rewrite B; [split; [left; exact H|reflexivity]|]. right; right. destruct x as [[[w a] c] rho]. cbn [fst] in *. destruct H. lra.
        * rewrite B by (right; left; lra). split; [left; exact H|reflexivity].
        * rewrite B by (left; lra). split; [left; exact H|reflexivity].
      + rewrite B; [split; [right; exact H|reflexivity]|]. right; right. destruct x as [[[w a] c] rho]. apply H. }
  destruct Hy as [Hy Hw]. rewrite <- Hw. clearbody y. destruct (C24_melt T y Hy) as [A B].
  destruct Hy as [Hy|Hy].
  - rewrite B by (left; exact Hy). split; [left; exact Hy|reflexivity].
  - destruct (Rlt_dec 273.15 T) as [L|L].
    + destruct (A Hy L). split; [left; assumption|assumption].
    + rewrite B by (right; lra). split; [right; exact Hy|reflexivity].
Qed.

(** ** the pass over all particles *)
Lemma nucl_attr o io g sijk sid st i : ice_attr (s_P (ice_nucl_melt o io g sijk sid st)) i = nucl_melt_one o io (s_P st) (s_E st) i.
Proof.
  unfold ice_nucl_melt, ice_attr. cbn [s_P set_ice set_rw2 p_rw2 p_ia p_ic p_irho].
  destruct (nucl_melt_one o io (s_P st) (s_E st) i) as [[[w a] c] rho]. reflexivity.
Qed.

Lemma liq_mom_content o sijk sid P E d c :
  sorted_pop (p_np P) (p_ijk P) sijk sid -> (c < e_nc E)%nat -> (forall i, one_phase (ice_attr P i)) ->
  scatter Rplus (liq_mom3 o sijk sid P E) d c = d c + Wet o P E c.
Proof.
  intros Hs Hc Hp. unfold liq_mom3. rewrite (scatter_moms _ _ _ _ Hs).
  assert (Hw : Wet o P E c = per_air (negb (o_parcel o)) (e_dv E) (e_rhod E) c
    (cellsum (p_np P) (p_ijk P) (fun i => moment_counter (3 / 2) (eq0_filter (n_real P i) (p_ia P i)) (p_rw2 P i)) c)).
  { unfold Wet. f_equal. apply cellsum_ext. intros i _ _. specialize (Hp i). unfold ice_attr in Hp. unfold eq0_filter.
    destruct Hp as [(H1 & H2 & _)|(H1 & H2 & _)].
    - rewrite H2. replace (Reqb 0 0) with true by (symmetry; apply Reqb_true; reflexivity). reflexivity.
    - replace (Reqb (p_ia P i) 0) with false by (symmetry; apply Reqb_false; lra).
      rewrite H1, !moment_32 by lra. rewrite sqrt_0. ring. }
  rewrite Hw. destruct (occupied_dec _ _ _ _ Hs c) as [H|H].
  - reflexivity.
  - rewrite cellsum_empty by exact H. rewrite per_air_0. ring.
Qed.
Lemma liq_mom_save o sijk sid P E g c :
  sorted_pop (p_np P) (p_ijk P) sijk sid -> (forall i, (i < p_np P)%nat -> (p_ijk P i < e_nc E)%nat) -> (c < e_nc E)%nat ->
  (forall i, one_phase (ice_attr P i)) ->
  scatter neg_store (liq_mom3 o sijk sid P E) (blank (e_nc E) (liq_mom3 o sijk sid P E) g) c = - Wet o P E c.
Proof.
  intros Hs Hb Hc Hp. pose proof (liq_mom_content o sijk sid P E (fun _ => 0) c Hs Hc Hp) as H.
  unfold liq_mom3 at 1. unfold liq_mom3 in H. rewrite (scatter_moms _ _ _ _ Hs) in *.
  destruct (occupied_dec _ _ _ _ Hs c) as [Ho|Ho].
  - unfold neg_store. lra.
  - rewrite Wet_empty by exact Ho. replace (- 0) with 0 by ring. unfold blank.
    destruct (Nat.eqb_spec (length (liq_mom3 o sijk sid P E)) (e_nc E)) as [El|]; [|reflexivity].
    exfalso. apply Ho. unfold liq_mom3 in El. exact (moms_length _ _ _ _ Hs _ _ _ _ _ _ _ Hb El c Hc).
Qed.

Lemma one_phase_rw2 x : one_phase x -> 0 <= fst (fst (fst x)).
Proof. destruct x as [[[w a] c] rho]. intros [(H & _)|(-> & _)]; cbn [fst]; lra. Qed.

(** C24, the pass: the mass of water (liquid and ice) of every super-droplet and of every cell is conserved; vapour does not change; the
    potential temperature of a cell grows by the factor that corresponds to the latent heat of fusion of the mass frozen *)
Theorem C24_pass o io g sijk sid st :
  pop_ok o sijk sid st -> o_ice o = true -> (forall i, one_phase (ice_attr (s_P st) i)) ->
  let st' := ice_nucl_melt o io g sijk sid st in
  (forall i, one_phase (ice_attr (s_P st') i) /\ water_of (ice_attr (s_P st') i) = water_of (ice_attr (s_P st) i)) /\
  (forall i, p_n (s_P st') i = p_n (s_P st) i) /\
  (forall c, (c < e_nc (s_E st))%nat ->
     total_water o st' c = total_water o st c /\ e_rv (s_E st') c = e_rv (s_E st) c /\
     e_th (s_E st') c = e_th (s_E st) c *
       (1 + fusion_heat (e_T (s_E st) c) * (q_liq o (s_P st) (s_E st) c - q_liq o (s_P st') (s_E st') c) / (1005 * e_T (s_E st) c)) /\
     ((forall i, (i < p_np (s_P st))%nat -> p_ijk (s_P st) i <> c) -> e_th (s_E st') c = e_th (s_E st) c)).
Proof.
  intros (Hs & Hb & Hr & Hpos) Hi Hp st'. set (P := s_P st) in *. set (E := s_E st) in *. set (P' := s_P st') in *. set (E' := s_E st').
  assert (Hone : forall i, one_phase (ice_attr P' i) /\ water_of (ice_attr P' i) = water_of (ice_attr P i)).
  { intros i. unfold P', st'. rewrite nucl_attr. apply one_step, Hp. }
  assert (Hp' : forall i, one_phase (ice_attr P' i)) by (intros i; apply Hone).
  assert (Hr' : forall i, 0 <= p_rw2 P' i) by (intros i; exact (one_phase_rw2 _ (Hp' i))).
  split; [exact Hone|]. split; [reflexivity|]. intros c Hc. destruct (Hpos c Hc) as [Hrho Hdv].
  assert (HE : e_rhod E' = e_rhod E /\ e_dv E' = e_dv E /\ e_nc E' = e_nc E) by (repeat split; reflexivity).
  destruct HE as (Er & Ed & En).
  assert (Hth : e_th E' c = e_th E c * (1 + fusion_heat (e_T E c) * (q_liq o P E c - q_liq o P' E' c) / (1005 * e_T E c))).
  { replace (fusion_heat (e_T E c)) with (l_f (e_T E c)) by (unfold fusion_heat, l_f, lf_tri, c_pw, c_pi, T_tri; lra).
    replace 1005 with c_pd by reflexivity. assert (X : e_th E' c = e_th E c + (- Wet o P E c + Wet o P' E c) * drop_mlt * d_th_d_rw_freeze (e_T E c) (e_th E c)).
    { unfold E', st', ice_nucl_melt. cbn [s_E set_rvth e_th]. fold P E.
      change (set_ice (set_rw2 P _) _ _ _) with P'. rewrite (liq_mom_content o sijk sid P' E _ c Hs Hc Hp').
      rewrite (liq_mom_save o sijk sid P E g c Hs Hb Hc Hp). reflexivity. }
    rewrite X. assert (Q : q_liq o P' E' c = drop_mlt * Wet o P' E c).
    { unfold q_liq. rewrite Er, Ed. exact (Wet_q o P' E c Hr' Hrho Hdv). }
    rewrite Q, (Wet_q o P E c Hr Hrho Hdv). unfold d_th_d_rw_freeze. unfold Rdiv. rewrite Rinv_mult. ring. }
  repeat split.
  - unfold total_water, q_liq, q_ice. rewrite Hi. fold P E P' E'. rewrite Er, Ed.
    assert (Hm : liq_in P' c + ice_in P' c = liq_in P c + ice_in P c).
    { unfold liq_in, ice_in. rewrite <- !cellsum_plus. apply cellsum_ext. intros i _ _. change (p_n P' i) with (p_n P i).
      destruct (Hone i) as [H1 H2].
      assert (W : forall Q, one_phase (ice_attr Q i) ->
        N2R (p_n P i) * (4 / 3 * PI * 1000 * sqrt (p_rw2 Q i) ^ 3) +
        (if Rlt_dec 0 (p_ia Q i) then N2R (p_n P i) * (4 / 3 * PI * p_irho Q i * p_ia Q i * p_ia Q i * p_ic Q i) else 0)
        = N2R (p_n P i) * water_of (ice_attr Q i)).
      { intros Q HQ. unfold water_of, ice_attr, drop_mass, spheroid_mass.
        destruct (Rlt_dec 0 (p_ia Q i)) as [L|L]; [ring|].
        destruct HQ as [(_ & A & B & _)|(_ & A & _)]; [rewrite A, B; ring|contradiction]. }
      rewrite W by exact H1. rewrite W by apply Hp. rewrite H2. reflexivity. }
    change (e_rv E' c) with (e_rv E c). unfold Rdiv. rewrite !Rplus_assoc, <- !Rmult_plus_distr_r, Hm. reflexivity.
  - exact Hth.
  - intros He. rewrite Hth. assert (Hno : ~ occupied (p_np P) (p_ijk P) c) by (intros (i & A & B); exact (He i A B)).
    unfold q_liq, liq_in. change (p_np P') with (p_np P). change (p_ijk P') with (p_ijk P). rewrite !cellsum_empty by exact Hno.
    unfold Rdiv. ring.
Qed.

(** ** histories *)
Lemma grow_one k e dt w : 0 <= w -> 0 <= advance_rw2 k true e dt w /\ (w = 0 -> advance_rw2 k true e dt w = 0).
Proof.
  intros H. split; [apply advance_nonneg, H|]. intros ->. unfold advance_rw2, advance_rw2_rate.
  replace (Rleb 0 0) with true by (symmetry; apply Rleb_true; lra). reflexivity.
Qed.
Lemma dep_one e dt a c : (a = 0 -> c = 0 -> advance_ice_ac e dt (a, c) = (0, 0)) /\
  (0 < a -> 0 < c -> 0 < fst (advance_ice_ac e dt (a, c)) /\ 0 < snd (advance_ice_ac e dt (a, c))).
Proof.
  unfold advance_ice_ac. split.
  - intros -> ->. replace (Rleb 0 0) with true by (symmetry; apply Rleb_true; lra). reflexivity.
  - intros Ha Hc. replace (Rleb a 0) with false by (symmetry; apply Rleb_false, Ha).
    replace (Rleb c 0) with false by (symmetry; apply Rleb_false, Hc). cbn [orb fst snd].
    rewrite !cmax_Rmax. split; (eapply Rlt_le_trans; [|apply Rmax_r]); lra.
Qed.
Lemma substep_phase o g lD lK sijk sid k l i : one_phase (ice_attr (s_P (l_st l)) i) ->
  one_phase (ice_attr (s_P (l_st (percell_substep o g lD lK sijk sid k l))) i).
Proof.
  intros H. unfold percell_substep. cbn [l_st s_P].
  destruct (sstp_percell_frame o k (l_st l)) as (F & _). set (st1 := sstp_percell_step o k (l_st l)) in *.
  set (P1 := apply_sgs_supersat o (s_P st1)). set (E1 := hskpng_Tpr o (s_E st1)).
  assert (H1 : one_phase (ice_attr P1 i)).
  { unfold P1, apply_sgs_supersat. rewrite F. destruct (o_turb o); exact H. }
  clearbody P1 E1. set (P2 := grow_liq o lD lK P1 E1).
  assert (H2 : one_phase (ice_attr P2 i)).
  { unfold P2, grow_liq, ice_attr. cbv zeta. cbn [set_rw2 p_rw2 p_ia p_ic p_irho].
    match goal with |- one_phase (advance_rw2 ?k true ?e ?dt ?w, _, _, _) => pose proof (grow_one k e dt w) as G end.
    unfold ice_attr in H1. destruct H1 as [(A & B)|(A & B)].
    - left. split; [apply G, A|exact B].
    - right. split; [apply G; [lra|exact A]|exact B]. }
  clearbody P2. destruct (o_ice o); [|exact H2]. unfold grow_ice, ice_attr. cbv zeta. cbn [set_ice p_rw2 p_ia p_ic p_irho].
  match goal with |- one_phase (_, fst (advance_ice_ac ?e ?dt (?a, ?c)), _, _) => pose proof (dep_one e dt a c) as [G1 G2] end.
  unfold ice_attr in H2. destruct H2 as [(A & B & C & D)|(A & B & C & D)].
  - left. rewrite (G1 B C). repeat split; assumption.
  - right. destruct (G2 B C). repeat split; assumption.
Qed.
Lemma loop_phase o g lD lK sijk sid k l i : one_phase (ice_attr (s_P (l_st l)) i) ->
  one_phase (ice_attr (s_P (l_st (percell_loop o g lD lK sijk sid k l))) i).
Proof. intros H. induction k as [|k IH]; [exact H|]. cbn [percell_loop]. apply substep_phase, IH. Qed.

(** C24, histories: in every history every super-droplet is entirely liquid or entirely ice *)
Theorem C24_exclusive P : ice_history P -> forall i, one_phase (ice_attr P i).
Proof.
  induction 1 as [P H|P o io g sijk sid E S H IH|P o allow g sijk sid E S st' Ho H IH Hc|P P' H IH Ho]; intros i.
  - left. apply H.
  - rewrite nucl_attr. apply one_step, IH.
  - remember (mk_cst P E S) as st eqn:Est. destruct Hc as [st U|st P1 S1 U|st P1 S1 rv' th' U].
    + unfold sstp_save. subst st. destruct allow; cbn [s_P]; apply loop_phase, IH.
    + unfold use_perparticle in U. rewrite Ho in U. discriminate.
    + unfold use_perparticle in U. rewrite Ho in U. discriminate.
  - destruct (Ho i) as [(j & ->)|L]; [apply IH|left; exact L].
Qed.
(** so that in a cell, or anywhere, no super-droplet has liquid water and ice at a time *)
Theorem C24_never_both P : ice_history P -> forall i, p_rw2 P i = 0 \/ (p_ia P i = 0 /\ p_ic P i = 0).
Proof. intros H i. destruct (C24_exclusive P H i) as [(_ & A & B & _)|(A & _)]; [right; split; assumption|left; exact A]. Qed.

(** a drop of 10 micrometres freezes at -20 C in saturated air and then melts at +5 C; its radius is then as before *)
Theorem C24_instance :
  let x := (1 / 10 ^ 10, 0, 0, 0) in
  is_liquid x /\ is_ice (singular_freeze 258.15 253.15 1.01 x) /\
  is_liquid (melt 278.15 (singular_freeze 258.15 253.15 1.01 x)) /\
  water_of (melt 278.15 (singular_freeze 258.15 253.15 1.01 x)) = water_of x /\ 0 < water_of x.
Proof.
  intros x. assert (L : is_liquid x) by (cbn; repeat split; lra).
  destruct (C24_singular 258.15 253.15 1.01 x (or_introl L)) as [A _]. destruct (A L) as [A1 A2]; [cbn; lra|lra|lra|].
  destruct (C24_melt 278.15 _ (or_intror A1)) as [B _]. destruct (B A1) as [B1 B2]; [lra|].
  split; [exact L|]. split; [exact A1|]. split; [exact B1|]. split; [rewrite B2; exact A2|].
  unfold x, water_of, drop_mass, spheroid_mass. pose proof PI_RGT_0 as Hpi.
  assert (0 < sqrt (1 / 10 ^ 10) ^ 3) by (apply pow_lt, sqrt_lt_R0; lra). nra.
Qed.

Print Assumptions C24_singular.
Print Assumptions C24_time_dependent.
Print Assumptions C24_melt.
Print Assumptions C24_pass.
Print Assumptions C24_exclusive.
Print Assumptions C24_never_both.
Print Assumptions C24_instance.
