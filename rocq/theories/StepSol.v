(** C93: soluble material and hygroscopicity over whole runs. *)
From Coq Require Import List Arith NArith ZArith Lia Reals Lra Psatz Permutation Sorted Bool.
From Verif Require Import Base BaseProofs HskpngModel HskpngProofs MomsModel MomsProofs CoalModel CoalProofs CoalPairProofs CoalPassProofs CoalProps
  SpaceModel SpaceProofs SpaceProps GridProps RcycModel RcycProofs RcycProps ThermoModel CondModel CondProps CondPassModel CondPassProofs CondPassProps
  CondPassProps2 CondPassProps3 CondPassProps4 FreezeProps StepModel StepProps.
Import ListNotations.
Local Open Scope R_scope.

(** ** specification *)
(** hygroscopicity times dry volume of one droplet of a super-droplet, and the total over all droplets *)
Definition of_one (W : world) (i : nat) : R := p_kpa (w_P W) i * (4 / 3 * PI * p_rd3 (w_P W) i).
Definition soluble (W : world) : R := sumR (p_np (w_P W)) (fun i => N2R (p_n (w_P W) i) * of_one W i).
(** what sources brought in a step: new super-droplets, and droplets added to existing ones *)
Definition brought (s : step_states) : R :=
  let n := p_np (w_P (at_moved s)) in
  sumR (p_np (w_P (at_added s))) (fun i =>
    (N2R (p_n (w_P (at_added s)) i) - (if (i <? n)%nat then N2R (p_n (w_P (at_moved s)) i) else 0)) * of_one (at_added s) i).
(** what left the domain in a step, through open sides, the top or the bottom *)
Definition is_out (F : setup) (W : world) (i : nat) : bool :=
  negb (f_parcel F) && (left_sideways (f_b F) (bsd_of W i) || left_top (f_b F) (bsd_of W i) || left_bottom (f_b F) (bsd_of W i)).
Definition carried_out (F : setup) (s : step_states) : R :=
  let W := at_added s in sumR (p_np (w_P W)) (fun i => if is_out F W i then N2R (p_n (w_P W) i) * of_one W i else 0).
(** aerosol with hygroscopicities within bounds *)
Definition aerosol_at (lo hi : R) (W : world) (i : nat) : Prop := 0 < p_rd3 (w_P W) i /\ lo <= p_kpa (w_P W) i <= hi.
Definition aerosol_ok (lo hi : R) (W : world) : Prop := forall i, (i < p_np (w_P W))%nat -> aerosol_at lo hi W i.
Definition sources_ok (lo hi : R) (s : step_states) : Prop :=
  forall i, (p_np (w_P (at_moved s)) <= i < p_np (w_P (at_added s)))%nat -> aerosol_at lo hi (at_added s) i.
(** collisions mix hygroscopicities when more than one kind of aerosol is given at the start *)
Definition mixed (F : setup) : Prop := (1 < n_dry_distros (f_co F) + n_dry_sizes (f_co F))%nat.

(** ** what does not change *)
Definition same_aero (W W' : world) : Prop :=
  p_np (w_P W') = p_np (w_P W) /\ p_n (w_P W') = p_n (w_P W) /\ p_rd3 (w_P W') = p_rd3 (w_P W) /\ p_kpa (w_P W') = p_kpa (w_P W).
Lemma same_soluble W W' : same_aero W W' -> soluble W' = soluble W.
Proof. intros (A & B & C & D). unfold soluble, of_one. rewrite A, B, C, D. reflexivity. Qed.
Lemma same_aerosol lo hi W W' : same_aero W W' -> aerosol_ok lo hi W -> aerosol_ok lo hi W'.
Proof. intros (A & B & C & D) H i Hi. unfold aerosol_at. rewrite C, D. apply H. rewrite <- A. exact Hi. Qed.

Lemma after_kpa o g lD lK sijk sid k l : p_kpa (s_P (l_st (percell_loop o g lD lK sijk sid k l))) = p_kpa (s_P (l_st l)).
Proof.
  induction k as [|k IH]; [reflexivity|]. cbn [percell_loop]. rewrite <- IH. set (L := percell_loop _ _ _ _ _ _ _ _).
  unfold percell_substep. cbn [l_st s_P]. destruct (sstp_percell_frame o k (l_st L)) as (F & _).
  unfold apply_sgs_supersat. rewrite F. destruct (o_ice o), (o_turb o); reflexivity.
Qed.
Lemma pafter_kpa o lD lK dv sijk sid d k PS : p_kpa (fst (perparticle_loop o lD lK dv sijk sid d k PS)) = p_kpa (fst PS).
Proof.
  induction k as [|k IH]; [reflexivity|]. cbn [perparticle_loop]. rewrite <- IH. destruct (perparticle_loop _ _ _ _ _ _ _ k _) as [P S].
  unfold perparticle_substep, apply_sgs_supersat. destruct (o_turb o); reflexivity.
Qed.
Lemma cond_kpa o allow g sijk sid st st' : cond_part o allow g sijk sid st st' -> p_kpa (s_P st') = p_kpa (s_P st).
Proof.
  intros H. destruct (use_perparticle o) eqn:U.
  - assert (Q : forall st P S, (P, S) = (if o_adaptive o
                 then adaptive_pass o (mfp_D (s_E st)) (mfp_K (s_E st)) (e_dv (s_E st)) (deltas o st) (s_P st, s_S st)
                 else perparticle_loop o (mfp_D (s_E st)) (mfp_K (s_E st)) (e_dv (s_E st)) sijk sid (deltas o st) (o_sstp o) (s_P st, s_S st)) ->
               p_kpa P = p_kpa (s_P st)).
    { clear st H st'. intros st P S HPS. destruct (o_adaptive o).
      - unfold adaptive_pass in HPS. injection HPS as -> _. reflexivity.
      - pose proof (pafter_kpa o (mfp_D (s_E st)) (mfp_K (s_E st)) (e_dv (s_E st)) sijk sid (deltas o st) (o_sstp o) (s_P st, s_S st)) as F6.
        rewrite <- HPS in F6. exact F6. }
    destruct H as [st Hu'|st P S Hu' Hm' lD lK HPS drw dice|st P S rv' th' Hu' Hm' lD lK HPS U1 U2]; [congruence| |];
      rewrite (proj1 (sstp_save_PE _ _ _)); cbn [s_P]; apply (Q st P S HPS).
  - rewrite (cond_part_percell _ _ _ _ _ _ _ U H). rewrite (proj1 (sstp_save_PE _ _ _)). unfold after. rewrite after_kpa. reflexivity.
Qed.

Section Parts.
Variable F : setup.
Hypothesis HF : setup_ok F.
Variables lo hi : R.
Hypothesis Hlo : 0 <= lo.

Lemma nucl_same so W W' : nucl F so W W' -> same_aero W W'.
Proof.
  intros H. unfold nucl in H. destruct (f_ice F && so_nucl so) eqn:E; [|subst W'; repeat split].
  destruct H as (g & sijk & sid & _ & ->). repeat split.
Qed.
Lemma cond_same so W W' : cond so W W' -> (1 <= o_sstp (so_c so))%nat -> state_ok F W -> same_aero W W'.
Proof.
  intros H Hs (O1 & O2 & O3 & O4 & O5 & O6). unfold cond in H. destruct (so_cond so); [|subst W'; repeat split].
  destruct H as (g & sijk & sid & st' & Hsort & HC & ->). pose proof (cond_kpa _ _ _ _ _ _ _ HC) as K.
  destruct (cond_frame _ _ _ _ _ _ _ HC Hs (fun i => proj1 (O5 i))) as ((S1 & S2 & S3) & F1 & _).
  unfold same_aero. cbn [with_cst w_P cst_of s_P] in *. auto.
Qed.

(** collisions *)
Lemma pass_inputs_of kernel dt sched W :
  let ijk := map (p_ijk (w_P W)) (seq 0 (p_np (w_P W))) in
  (forall c a b, 0 <= kernel c a b) -> 0 <= dt -> (forall k, Permutation (sched k) (seq 0 (length ijk - 1))) -> (0 < length ijk)%nat ->
  state_ok F W -> pass_inputs kernel dt (e_dv (w_E W)) (e_nc (w_E W)) ijk sched (sd_of W).
Proof.
  intros ijk Hk Hdt Hsch NE (O1 & O2 & O3 & O4 & O5 & O6).
  assert (IN : forall c, In c ijk -> (c < e_nc (w_E W))%nat).
  { intros c Hi. unfold ijk in Hi. apply in_map_iff in Hi. destruct Hi as (i & <- & Hi). apply in_seq in Hi. apply O4. lia. }
  constructor; auto.
  - intros c Hi. apply O3, IN, Hi.
  - intros i Hi. apply O5.
  - intros i Hi. apply O5.
Qed.
Definition saero (s : sd) : Prop := 0 < CoalModel.rd3 s /\ lo <= CoalModel.kpa s <= hi.
Lemma merged_aero o c X Y X' Y' : merged o c X Y X' Y' -> saero X -> saero Y -> saero X' /\ saero Y'.
Proof.
  intros M (X1 & X2 & X3) (Y1 & Y2 & Y3). pose proof (mg_X _ _ _ _ _ _ M) as (_ & E1 & _ & E2 & _). unfold saero. rewrite E1, E2.
  split; [auto|]. pose proof (N2R_nonneg c) as Hc. pose proof (mg_rd3 _ _ _ _ _ _ M) as E3.
  assert (Q : 0 <= N2R c * CoalModel.rd3 X) by (apply Rmult_le_pos; lra). split; [lra|].
  pose proof (mg_kpa _ _ _ _ _ _ M) as Hm. destruct (Nat.ltb_spec 1 (n_dry_distros o + n_dry_sizes o)) as [Hl|_]; [|rewrite Hm; auto].
  destruct (merged_kappa o c X Y X' Y' M Hl ltac:(lra) Y1 ltac:(lra) ltac:(lra)) as (_ & K1 & K2).
  split.
  - apply Rle_trans with (2 := K1). apply Rmin_glb; assumption.
  - apply Rle_trans with (1 := K2). apply Rmax_lub; assumption.
Qed.
Lemma coal_pass_sol W W' : coal_pass F W W' -> state_ok F W -> aerosol_ok lo hi W ->
  aerosol_ok lo hi W' /\ (mixed F -> soluble W' = soluble W).
Proof.
  intros (kernel & dt & gn & gr & sijk & sid & sched & u01 & st & v & H) HW HA. cbv zeta in H.
  destruct H as (Hk & Hdt & Hsch & Hsort & Hc & ->). pose proof HW as (O1 & O2 & O3 & O4 & O5 & O6).
  set (P := w_P W) in *. set (E := w_E W) in *. set (ijk := map (p_ijk P) (seq 0 (p_np P))) in *.
  assert (L : length ijk = p_np P) by (unfold ijk; rewrite map_length, seq_length; reflexivity).
  assert (NE : (0 < length ijk)%nat) by (destruct (length ijk); [discriminate Hc|lia]).
  pose proof (pass_inputs_of kernel dt sched W Hk Hdt Hsch NE HW) as PIN. fold P E ijk in PIN.
  split.
  - destruct (coal_pass_pairs kernel dt (e_dv E) (f_co F) (e_nc E) gn gr ijk sid sijk sched u01 (sd_of W) Hsort PIN) as (st2 & E2 & HL & HP & HO).
    rewrite Hc in E2. injection E2 as <-. destruct HL as (_ & _ & HB & _).
    assert (SA : forall i, (i < p_np P)%nat -> saero (sd_of W i)) by (intros i Hi; exact (HA i Hi)).
    assert (RS : forall i, (i < p_np P)%nat -> saero (arr st i)).
    { intros i Hi. set (prs := pairs (e_nc E) gn ijk sid sijk) in *.
      destruct (in_dec Nat.eq_dec i (flat_map (fun t => [snd (fst t); snd t]) prs)) as [I|I]; [|rewrite HO by exact I; apply SA, Hi].
      apply in_flat_map in I. destruct I as ([[r a] b] & Hrab & I). cbn [fst snd] in I. destruct (HB r a b Hrab) as (B1 & B2 & _). rewrite L in B1, B2.
      destruct (HP r a b Hrab) as (c1 & _ & [(_ & EA & EB)|[(_ & _ & M)|(_ & _ & M)]]).
      - destruct I as [<-|[<-|[]]]; [rewrite EA|rewrite EB]; apply SA; assumption.
      - destruct (merged_aero _ _ _ _ _ _ M (SA a B1) (SA b B2)). destruct I as [<-|[<-|[]]]; assumption.
      - destruct (merged_aero _ _ _ _ _ _ M (SA b B2) (SA a B1)). destruct I as [<-|[<-|[]]]; assumption. }
    intros i Hi. exact (RS i Hi).
  - intros HM. pose proof (C03_conservation kernel dt (e_dv E) (f_co F) (e_nc E) gn gr ijk sid sijk sched u01 (sd_of W) st Hsort PIN Hc) as C.
    assert (T : sumR (p_np P) (fun i => N2R (CoalModel.n (arr st i)) * (CoalModel.kpa (arr st i) * CoalModel.rd3 (arr st i))) =
                sumR (p_np P) (fun i => N2R (CoalModel.n (sd_of W i)) * (CoalModel.kpa (sd_of W i) * CoalModel.rd3 (sd_of W i)))).
    { set (w := fun s => N2R (CoalModel.n s) * (CoalModel.kpa s * CoalModel.rd3 s)).
      change (sumR (p_np P) (fun i => w (arr st i)) = sumR (p_np P) (fun i => w (sd_of W i))).
      rewrite <- (cell_total_sum (p_ijk P) (p_np P) (e_nc E) w (arr st) O4), <- (cell_total_sum (p_ijk P) (p_np P) (e_nc E) w (sd_of W) O4).
      apply sumR_ext. intros c _. destruct (C c) as (_ & _ & _ & C4 & _). apply C4; [exact HM|]. intros i Hi. rewrite L in Hi. apply (HA i Hi). }
    unfold soluble, of_one. cbn [with_P with_sds w_P set_vt p_np p_n p_rd3 p_kpa]. fold P.
    rewrite (sumR_ext (p_np P) (fun i => N2R (CoalModel.n (arr st i)) * (CoalModel.kpa (arr st i) * (4 / 3 * PI * CoalModel.rd3 (arr st i))))
      (fun i => 4 / 3 * PI * (N2R (CoalModel.n (arr st i)) * (CoalModel.kpa (arr st i) * CoalModel.rd3 (arr st i))))) by (intros; ring).
    rewrite sumR_scal, T, <- sumR_scal. apply sumR_ext. intros i _. unfold sd_of. cbn [CoalModel.n CoalModel.kpa CoalModel.rd3]. fold P. ring.
Qed.
Lemma coalescence_sol so W W' : coalescence F so W W' -> (f_ice F = true -> so_coal so = false) -> state_ok F W -> aerosol_ok lo hi W ->
  aerosol_ok lo hi W' /\ ((so_coal so = true -> mixed F) -> soluble W' = soluble W).
Proof.
  intros H Hi HW HA. unfold coalescence in H. destruct (so_coal so) eqn:E; [|subst W'; auto].
  assert (EF : f_ice F = false) by (destruct (f_ice F); [discriminate (Hi eq_refl)|reflexivity]). destruct H as (V & rc2 & H & ->).
  assert (K : forall k W V, coal_passes F k W V -> state_ok F W -> aerosol_ok lo hi W -> aerosol_ok lo hi V /\ (mixed F -> soluble V = soluble W)).
  { clear - EF HF Hlo. induction k as [|k IH]; intros W V H HW HA; cbn in H; [subst V; auto|]. destruct H as (U & H1 & H2).
    destruct (coal_pass_sol W U H1 HW HA) as [A1 A2].
    destruct (IH U V H2 (proj1 (proj1 (coal_pass_part F W U H1 EF HW))) A1) as [B1 B2]. split; [exact B1|]. intros M. rewrite (B2 M). apply A2, M. }
  destruct (K _ _ _ H HW HA) as [K1 K2]. split; [exact K1|]. intros M. exact (K2 (M eq_refl)).
Qed.

(** sources, walls, recycling *)
Lemma sources_sol s : sources F (at_moved s) (at_added s) -> sources_ok lo hi s -> aerosol_ok lo hi (at_moved s) ->
  aerosol_ok lo hi (at_added s) /\ soluble (at_added s) = soluble (at_moved s) + brought s.
Proof.
  set (W := at_moved s). set (V := at_added s). intros H HS HA. unfold sources in H. cbv zeta in H.
  destruct H as ((H1 & H1') & HE & HP & HO & HN & HK). split.
  - intros i Hi. destruct (Nat.lt_ge_cases i (p_np (w_P W))) as [Hl|Hl]; [|apply HS; split; assumption].
    destruct (HO i Hl) as (_ & _ & R & _). unfold aerosol_at. rewrite R, (HK i Hl). apply HA, Hl.
  - unfold soluble at 2. rewrite <- (sum_cut (p_np (w_P V)) (p_np (w_P W))) by exact H1. unfold brought. fold V W.
    rewrite <- sumR_plus. unfold soluble. apply sumR_ext. intros i Hi. destruct (Nat.ltb_spec i (p_np (w_P W))) as [Hl|Hl]; [|ring].
    destruct (HO i Hl) as (_ & _ & R & _). unfold of_one. rewrite R, (HK i Hl). ring.
Qed.
Lemma walls_sol s : aerosol_ok lo hi (at_added s) ->
  let W := at_added s in aerosol_ok lo hi (walls F W) /\ soluble (walls F W) + carried_out F s = soluble W.
Proof.
  intros HA W. split; [exact HA|]. fold W in HA. pose proof HF as (_ & _ & _ & _ & _ & _ & _ & _ & _ & G10 & _).
  set (P := w_P W) in *. set (l := map (bsd_of W) (seq 0 (p_np P))). set (o := f_b F) in *.
  assert (LL : length l = p_np P) by (unfold l; rewrite map_length, seq_length; reflexivity).
  assert (NL : forall i d, (i < p_np P)%nat -> nth i l d = bsd_of W i).
  { intros i d Hi. unfold l. rewrite (nth_indep _ d (bsd_of W 0%nat)) by (rewrite map_length, seq_length; exact Hi).
    rewrite map_nth, seq_nth by exact Hi. reflexivity. }
  unfold carried_out. fold W P. unfold soluble at 2. unfold soluble. unfold walls at 1. cbn [w_P set_mult p_np]. fold P. rewrite <- sumR_plus.
  apply sumR_ext. intros i Hi. change (of_one (walls F W) i) with (of_one W i). unfold walls. cbn [w_P set_mult p_n]. fold P l o. unfold is_out. fold o.
  destruct (f_parcel F) eqn:EP.
  - unfold f_parcel in EP. fold o in EP. unfold bcnd. rewrite EP. cbn [fst negb andb]. rewrite NL by exact Hi. cbn [bsd_of b_n]. fold P. ring.
  - assert (E0 : n_dims o <> 0%nat) by (intros E; unfold f_parcel in EP; fold o in EP; rewrite E in EP; discriminate).
    destruct (proj2 (C09_exactly_those_outside_are_removed o l (w_pud W) (bsd_of W i) E0 (proj2 G10)) i ltac:(lia)) as [Q _].
    rewrite NL in Q by exact Hi. rewrite Q. change (b_n (bsd_of W i)) with (p_n P i). cbn [negb andb].
    destruct (_ || _); [change (N2R 0) with 0|]; ring.
Qed.
Lemma tidy_sol so V W' : tidy F so V W' -> loose F V ->
  (so_rcyc so = true -> pure_const_multi (f_co F) = true \/ has_one (pop_of V) \/ (2 * number_of_zeros (pop_of V) <= p_np (w_P V))%nat) ->
  aerosol_ok lo hi V -> aerosol_ok lo hi W' /\ soluble W' = soluble V.
Proof.
  intros (gar & garn & tmp & sid & sched & p' & Hsort & Hsch & Hc & ->) (O1 & O2 & O3 & O5 & O6) Hd HA.
  set (p := pop_of V) in *.
  assert (RI : rcyc_inputs (f_max F) p tmp sid sched) by (split; [exact O1|split; [exact Hsort|exact Hsch]]).
  assert (NZ : forall k, (k < np p')%nat -> mult p' k <> 0%N).
  { apply (proj2 (C06_no_zero_left_iff_partial _ _ _ _ _ _ _ _ _ _ _ _ RI Hc)). destruct (so_rcyc so); [|auto].
    destruct (Hd eq_refl) as [A|[A|A]]; auto. }
  destruct (origin _ _ _ _ _ _ _ _ _ _ _ _ RI Hc) as [NP OR].
  assert (V14 : (14 <= n_vec F)%nat) by (unfold n_vec; destruct (f_exact F); lia).
  split.
  - intros k Hk. unfold with_pop in Hk. cbn [w_P p_np] in Hk. destruct (OR k Hk (NZ k Hk)) as (j & J1 & J2 & J3 & J4).
    assert (AT : forall v, (v < 14)%nat -> vec p' v k = vec_of V v j).
    { intros v Hv. rewrite <- (nth_attrs (n_vec F) p' k v) by lia. rewrite J4, nth_attrs by lia. reflexivity. }
    unfold aerosol_at, with_pop. cbn [w_P p_rd3 p_kpa]. destruct (Nat.ltb_spec k (np p')) as [_|L]; [|lia]. rewrite !AT by lia. exact (HA j J1).
  - destruct (C05_totals_conserved gar garn (f_max F) (n_vec F) 0 (pure_const_multi (f_co F)) tmp sid sched (so_rcyc so) p
        (fun l => nth 2 l 0 * (4 / 3 * PI * nth 0 l 0)) RI) as (p2 & E & T). rewrite Hc in E. injection E as <-. unfold total in T. unfold soluble.
    transitivity (sumR (np p') (fun i => N2R (mult p' i) * (nth 2 (attrs (n_vec F) 0 p' i) 0 * (4 / 3 * PI * nth 0 (attrs (n_vec F) 0 p' i) 0)))).
    + unfold with_pop, of_one. cbn [w_P p_np p_n p_rd3 p_kpa]. apply sumR_ext. intros i Hi. destruct (Nat.ltb_spec i (np p')); [|lia].
      rewrite !nth_attrs by lia. reflexivity.
    + rewrite T. unfold p, pop_of. cbn [np mult]. apply sumR_ext. intros i Hi. rewrite !nth_attrs by lia. reflexivity.
Qed.

Lemma step_sol so s : step F so s -> step_ok F (so, s) -> sources_ok lo hi s -> state_ok F (at_start s) -> aerosol_ok lo hi (at_start s) ->
  aerosol_ok lo hi (at_end s) /\
  ((so_coal so = true -> mixed F) -> soluble (at_end s) + carried_out F s = soluble (at_start s) + brought s).
Proof.
  intros (W2 & W3 & W4 & W5 & H1 & H2 & H3 & H4 & H5 & H6 & H7 & H8) (K1 & K2 & K3 & K4 & K5 & K6 & K7) HS HW HA. cbn [fst snd] in *.
  destruct (sync_part F so _ _ H1 HW) as (A1 & A2 & A3 & _).
  assert (SA1 : same_aero (at_start s) (at_synced s)) by (unfold same_aero; rewrite A2; auto).
  destruct (nucl_part F so _ _ H2 K1 K2 A1) as ((B1 & B2 & B3 & B4) & B5 & B6 & B7 & B8 & B9).
  pose proof (nucl_same so _ _ H2) as SA2.
  assert (AC : accurate so W2).
  { intros Hc. destruct (K6 Hc) as [Q|[Q|(Q1 & Q2 & Q3 & Q4)]]; [left; exact Q|right; left; exact Q|right; right].
    split; [exact Q1|]. split; [exact Q2|]. split; [exact Q3|]. intros i Hi. rewrite B7, B8, B9. apply Q4. rewrite <- B6. exact Hi. }
  destruct (cond_step F HF so _ _ H3 K1 K2 K3 K4 AC B1) as ((D1 & _) & _).
  pose proof (cond_same so _ _ H3 K4 B1) as SA3.
  destruct (prepare_part F so _ _ H4 K1 D1) as ((E1 & _) & _).
  assert (SA4 : same_aero W3 W4) by (destruct H4 as (v & ->); repeat split).
  pose proof (same_aerosol lo hi _ _ SA4 (same_aerosol lo hi _ _ SA3 (same_aerosol lo hi _ _ SA2 (same_aerosol lo hi _ _ SA1 HA)))) as HA4.
  destruct (coalescence_part F so _ _ H5 K5 E1) as ((G1 & _) & _).
  destruct (coalescence_sol so _ _ H5 K5 E1 HA4) as (G2 & G3).
  destruct (motion_part F _ _ H6 G1) as (I1 & I2 & _).
  assert (SA6 : same_aero W5 (at_moved s)) by (destruct H6 as (a & b & x & y & z & _ & E); rewrite E; repeat split).
  destruct (sources_part F s H7 I1 I2) as (J1 & J2 & _).
  destruct (sources_sol s H7 HS (same_aerosol lo hi _ _ SA6 G2)) as (J3 & J4).
  destruct (walls_part F HF s J1 J2) as (L1 & _ & _ & _ & _ & _ & _).
  destruct (walls_sol s J3) as (L2 & L3).
  destruct (tidy_sol so _ _ H8 L1 K7 L2) as (M1 & M2). split; [exact M1|]. intros HM. specialize (G3 HM).
  pose proof (same_soluble _ _ SA1). pose proof (same_soluble _ _ SA2). pose proof (same_soluble _ _ SA3). pose proof (same_soluble _ _ SA4).
  pose proof (same_soluble _ _ SA6). lra.
Qed.
End Parts.

(** C93, hygroscopicity: whatever happens in a run, with or without mixing of hygroscopicities in collisions, the hygroscopicity of every
    super-droplet stays within the range of those at the start and in sources, and its aerosol never vanishes *)
Theorem C93_range F lo hi W l W' : setup_ok F -> run F W l W' -> state_ok F W -> Forall (step_ok F) l -> 0 <= lo ->
  Forall (fun t => sources_ok lo hi (snd t)) l -> aerosol_ok lo hi W -> aerosol_ok lo hi W'.
Proof.
  intros HF H. induction H as [W|so s l W' Hs Hr IH]; intros HW HO Hlo HS HA; [exact HA|].
  inversion HO as [|? ? HO1 HO2]; subst. inversion HS as [|? ? HS1 HS2]; subst.
  destruct (step_part F HF so s Hs HO1 HW) as (A1 & _). apply (IH A1 HO2 Hlo HS2).
  apply (step_sol F HF lo hi Hlo so s Hs HO1 HS1 HW HA).
Qed.
(** C93, soluble material: with mixing, or without collisions *)
Theorem C93_soluble_partial F lo hi W l W' : setup_ok F -> run F W l W' -> state_ok F W -> Forall (step_ok F) l -> 0 <= lo ->
  Forall (fun t => sources_ok lo hi (snd t)) l -> aerosol_ok lo hi W ->
  mixed F \/ Forall (fun t => so_coal (fst t) = false) l ->
  soluble W' + over (carried_out F) l = soluble W + over brought l.
Proof.
  intros HF H. induction H as [W|so s l W' Hs Hr IH]; intros HW HO Hlo HS HA HM; [unfold over; cbn; lra|].
  inversion HO as [|? ? HO1 HO2]; subst. inversion HS as [|? ? HS1 HS2]; subst.
  destruct (step_part F HF so s Hs HO1 HW) as (A1 & _). destruct (step_sol F HF lo hi Hlo so s Hs HO1 HS1 HW HA) as (B1 & B2).
  assert (B3 : soluble (at_end s) + carried_out F s = soluble (at_start s) + brought s).
  { apply B2. intros E. destruct HM as [M|M]; [exact M|]. inversion M as [|? ? M1 M2]; subst. cbn in M1. congruence. }
  assert (IH' : soluble W' + over (carried_out F) l = soluble (at_end s) + over brought l).
  { apply (IH A1 HO2 Hlo HS2 B1). destruct HM as [M|M]; [left; exact M|right]. inversion M; assumption. }
  assert (OV : forall f, over f ((so, s) :: l) = f s + over f l) by (intros f; reflexivity). rewrite !OV. lra.
Qed.
(** C93, one hygroscopicity: also without mixing *)
Theorem C93_uniform F kappa W l W' : setup_ok F -> run F W l W' -> state_ok F W -> Forall (step_ok F) l -> 0 <= kappa ->
  Forall (fun t => sources_ok kappa kappa (snd t)) l -> aerosol_ok kappa kappa W ->
  (forall i, (i < p_np (w_P W'))%nat -> p_kpa (w_P W') i = kappa) /\
  soluble W' + kappa * (p_dry_vol (w_pud W') - p_dry_vol (w_pud W)) + kappa * over (escaped F dry) l = soluble W + kappa * over (added dry) l.
Proof.
  intros HF Hr HW HO Hk HS HA. pose proof (C93_range F kappa kappa W l W' HF Hr HW HO Hk HS HA) as HA'.
  assert (S : forall V, aerosol_ok kappa kappa V -> soluble V = kappa * amount dry V).
  { intros V HV. unfold soluble, amount. rewrite <- sumR_scal. apply sumR_ext. intros i Hi. destruct (HV i Hi) as (_ & K).
    unfold of_one, dry, bsd_of. cbn [b_rd3]. replace (p_kpa (w_P V) i) with kappa by lra. ring. }
  split; [intros i Hi; destruct (HA' i Hi) as (_ & K); lra|]. rewrite (S W' HA'), (S W HA).
  pose proof (C81_dry_aerosol F W l W' HF Hr HW HO) as D.
  replace (amount dry W') with (amount dry W + p_dry_vol (w_pud W) + over (added dry) l - p_dry_vol (w_pud W') - over (escaped F dry) l) by lra. ring.
Qed.

(** ** without mixing and with several hygroscopicities the total is not conserved: a run that starts with one kind of aerosol, to which a
    source adds another; then the two super-droplets collide *)
Lemma sorted_unique (l1 : list nat) : forall l2, StronglySorted lt l1 -> StronglySorted lt l2 -> (forall x, In x l1 <-> In x l2) -> l1 = l2.
Proof.
  induction l1 as [|a l1 IH]; intros [|b l2] H1 H2 HI; [reflexivity| | |].
  - exfalso. apply (proj2 (HI b)). left; reflexivity.
  - exfalso. apply (proj1 (HI a)). left; reflexivity.
  - inversion H1 as [|? ? S1 F1]; subst. inversion H2 as [|? ? S2 F2]; subst. rewrite Forall_forall in F1, F2.
    assert (E : a = b).
    { destruct (proj1 (HI a) (or_introl eq_refl)) as [E|I1]; [symmetry; exact E|].
      destruct (proj2 (HI b) (or_introl eq_refl)) as [E|I2]; [exact E|]. specialize (F1 b I2). specialize (F2 a I1). lia. }
    subst b. f_equal. apply IH; auto. intros x. split; intros Hx.
    + destruct (proj1 (HI x) (or_intror Hx)) as [E|I]; [subst x; specialize (F1 a Hx); lia|exact I].
    + destruct (proj2 (HI x) (or_intror Hx)) as [E|I]; [subst x; specialize (F2 a Hx); lia|exact I].
Qed.
Lemma all_survive nvec nchem q p' : survivors nvec nchem q p' -> (forall i, (i < np q)%nat -> mult q i <> 0%N) ->
  np p' = np q /\ forall k, (k < np q)%nat -> mult p' k = mult q k /\ attrs nvec nchem p' k = attrs nvec nchem q k.
Proof.
  intros (keep & K1 & K2 & K3 & K4) H.
  assert (E : keep = seq 0 (np q)).
  { apply sorted_unique; [exact K1|apply seq_StronglySorted|]. intros x. rewrite K2, in_seq. split; [lia|]. intros Hx. split; [lia|apply H; lia]. }
  rewrite E, seq_length in K3. split; [exact K3|]. intros k Hk. destruct (K4 k ltac:(lia)) as [A B]. rewrite E, seq_nth in A, B by exact Hk. auto.
Qed.

Definition sx_b : bopts := mk_bopts 0 0 1 0 1 0 1 false false false false false false false.
Definition sx_F (kinds : nat) : setup := mk_setup sx_b 0 0 0 1 1 1 false false (CoalModel.mk_copts false kinds 0 1 false false false) 10.
Definition sx_c : CondPassModel.copts :=
  {| o_parcel := true; o_th_dry := false; o_const_p := true; o_ice := false; o_exact := false; o_mix := true; o_adaptive := false;
     o_RH := pv_cc; o_adapt_eps := 1 / 10000; o_adapt_max := 4; o_turb := false; o_RH_max := 44; o_var_rho := false; o_dt := 1;
     o_sstp := 1; o_act := 1; o_k := cfg_double |}.
Definition sx_so (coll : bool) : sopts :=
  mk_sopts sx_c true {| i_time_dep := false; i_T_freeze := fun _ => 260; i_rd2_insol := fun _ => 0; i_u01 := fun _ => 0 |} false false coll 1 false.
Definition sx_W : world :=
  mk_world (mk_parts 1 (fun _ => 0%nat) (fun _ => 5%N) (fun _ => 4) (fun _ => 1) (fun _ => 1) (fun _ => 0)
              (fun _ => 0) (fun _ => 0) (fun _ => 0) (fun _ => 0) (fun _ => 0) (fun _ => 1))
    (mk_cells 1 (fun _ => 1 / 1000) (fun _ => 300) (fun _ => 1) (fun _ => 100000) (fun _ => 300) (fun _ => 1) (fun _ => 1) (fun _ => 1) (fun _ => 1))
    (mk_tmps (fun _ => 0) (fun _ => 0) (fun _ => 0) (fun _ => 0)) (fun _ => 0) (fun _ => 0) (fun _ => 0) (fun _ => 0) (mk_puddle 0 0 0 0 0 0 (fun _ => 0)).
Lemma sx_setup_ok k : setup_ok (sx_F k).
Proof. unfold setup_ok, sx_F, sx_b, grid_dims. cbn. repeat split; try lra; try lia; try discriminate; right; lia. Qed.
Lemma sx_state_ok k : state_ok (sx_F k) sx_W.
Proof.
  unfold state_ok, sx_F, sx_W, n_cell, m1. cbn. split; [lia|]. split; [reflexivity|]. split; [intros; lra|]. split; [intros; lia|]. split.
  - intros i. split; [lra|]. split; [lra|reflexivity].
  - discriminate.
Qed.
(** multiplicity, dry volume and hygroscopicity of the first super-droplets *)
Definition sx_pop (W : world) (n : nat -> N) (rd3 kpa : nat -> R) (m : nat) : Prop :=
  p_np (w_P W) = m /\ (forall i, (i < m)%nat -> p_n (w_P W) i = n i /\ p_rd3 (w_P W) i = rd3 i /\ p_kpa (w_P W) i = kpa i /\ p_ijk (w_P W) i = 0%nat) /\
  e_rhod (w_E W) 0%nat = 1 /\ e_nc (w_E W) = 1%nat.
Lemma sx_pop_ext W n rd3 kpa n' rd3' kpa' m : sx_pop W n rd3 kpa m -> (forall i, (i < m)%nat -> n i = n' i /\ rd3 i = rd3' i /\ kpa i = kpa' i) ->
  sx_pop W n' rd3' kpa' m.
Proof.
  intros (A & B & C) H. split; [exact A|]. split; [|exact C]. intros i Hi. destruct (B i Hi) as (B1 & B2 & B3 & B4). destruct (H i Hi) as (H1 & H2 & H3).
  rewrite B1, B2, B3, B4. auto.
Qed.

(** the end of a step *)
Lemma sx_tail k coll V n rd3 kpa m : (m = 1 \/ m = 2)%nat -> loose (sx_F k) V ->
  p_np (w_P V) = m -> (forall i, (i < m)%nat -> p_n (w_P V) i = n i /\ p_rd3 (w_P V) i = rd3 i /\ p_kpa (w_P V) i = kpa i) ->
  (forall i, (i < m)%nat -> n i <> 0%N) -> e_rhod (w_E V) 0%nat = 1 ->
  exists W', tidy (sx_F k) (sx_so coll) V W' /\ sx_pop W' n rd3 kpa m.
Proof.
  intros Hm HL HN HA Hz Hdv. set (p := pop_of V).
  assert (ST : exists tmp sid, sort_by_key_result (map (fun i => N.to_nat (p_n (w_P V) i)) (seq 0 (p_np (w_P V)))) (seq 0 (p_np (w_P V))) tmp sid).
  { rewrite HN. destruct Hm as [E|E]; rewrite E; cbn [seq map].
    - exists [N.to_nat (p_n (w_P V) 0%nat)], [0%nat]. split; [reflexivity|]. split; [reflexivity|]. split; [reflexivity|repeat constructor].
    - set (a := N.to_nat (p_n (w_P V) 0%nat)). set (b := N.to_nat (p_n (w_P V) 1%nat)). destruct (le_lt_dec a b) as [L|L].
      + exists [a; b], [0; 1]%nat. split; [reflexivity|]. split; [reflexivity|]. split; [reflexivity|].
        repeat constructor; exact L.
      + exists [b; a], [1; 0]%nat. split; [reflexivity|]. split; [reflexivity|]. split; [apply perm_swap|].
        repeat constructor; lia. }
  destruct ST as (tmp & sid & ST). pose proof HL as (L1 & L2 & _).
  destruct (remove_n0_survivors (fun _ => 0) (fun _ => 0%N) (f_max (sx_F k)) (n_vec (sx_F k)) 0 p L1) as (p' & EP & HS & _).
  destruct (all_survive _ _ _ _ HS) as (Q1 & Q2).
  { intros i Hi. change (p_n (w_P V) i <> 0%N). change (i < p_np (w_P V))%nat in Hi. rewrite HN in Hi. destruct (HA i Hi) as (-> & _). apply Hz, Hi. }
  change (np p) with (p_np (w_P V)) in Q1, Q2. rewrite HN in Q1, Q2.
  exists (with_pop (sx_F k) V p'). split.
  { exists (fun _ => 0), (fun _ => 0%N), tmp, sid, (fun l m => seq 0 m), p'. split; [exact ST|]. split; [intros; apply Permutation_refl|].
    split; [exact EP|reflexivity]. }
  unfold sx_pop, with_pop. cbn [w_P p_np p_n p_rd3 p_kpa p_ijk w_E]. rewrite Q1. split; [reflexivity|]. split; [|split; [exact Hdv|exact L2]].
  intros i Hi. destruct (Nat.ltb_spec i m); [|lia]. destruct (Q2 i Hi) as (Q3 & Q4). destruct (HA i Hi) as (A1 & A2 & A3).
  assert (AT : forall v, (v < 14)%nat -> vec p' v i = vec_of V v i).
  { intros v Hv. rewrite <- (nth_attrs (n_vec (sx_F k)) p' i v) by (cbn; lia). rewrite Q4, nth_attrs by (cbn; lia). reflexivity. }
  rewrite !AT by lia. split; [rewrite Q3; exact A1|]. split; [exact A2|]. split; [exact A3|reflexivity].
Qed.
Lemma sx_walls k V : p_n (w_P (walls (sx_F k) V)) 0%nat = p_n (w_P (walls (sx_F k) V)) 0%nat /\
  forall i, (i < p_np (w_P V))%nat -> p_n (w_P (walls (sx_F k) V)) i = p_n (w_P V) i.
Proof.
  split; [reflexivity|]. intros i Hi. unfold walls. cbn [w_P set_mult p_n]. unfold bcnd. cbn [sx_F f_b sx_b n_dims Nat.eqb fst].
  rewrite (nth_indep _ _ (bsd_of V 0%nat)) by (rewrite map_length, seq_length; exact Hi). rewrite map_nth, seq_nth by exact Hi. reflexivity.
Qed.
Lemma sx_ok k coll s : step_ok (sx_F k) (sx_so coll, s).
Proof.
  unfold step_ok. cbn [fst snd]. split; [reflexivity|]. split; [reflexivity|]. split; [reflexivity|]. split; [cbn; lia|]. split; [discriminate|].
  split; [|discriminate]. intros E. discriminate E.
Qed.

(** step 1: a source *)
Definition sx_n (i : nat) : N := if (i =? 0)%nat then 5%N else 2%N.
Definition sx_kpa (i : nat) : R := if (i =? 0)%nat then 1 else 0.
Lemma sx_step1 k : exists s, at_start s = sx_W /\ step (sx_F k) (sx_so false) s /\
  sx_pop (at_end s) sx_n (fun _ => 1) sx_kpa 2 /\ sources_ok 0 1 s /\ brought s = 0 /\ carried_out (sx_F k) s = 0 /\
  p_np (w_P (at_moved s)) = 1%nat /\ p_np (w_P (at_added s)) = 2%nat.
Proof.
  pose proof (sx_setup_ok k) as HF. pose proof (sx_state_ok k) as HW. set (so := sx_so false).
  set (E0 := w_E sx_W). set (W1 := with_E sx_W E0).
  assert (H1 : sync_in so sx_W W1).
  { exists (fun _ => 1 / 1000), (fun _ => 300), (fun _ => 1). split; [reflexivity|]. split; [intros; lra|]. reflexivity. }
  destruct (sync_part (sx_F k) so _ W1 H1 HW) as (A1 & _).
  set (W4 := with_P (with_E W1 (hskpng_Tpr (so_c so) (w_E W1))) (set_vt (w_P W1) (fun _ => 0))).
  assert (H4 : prepare so W1 W4) by (exists (fun _ => 0); reflexivity).
  destruct (prepare_part (sx_F k) so W1 W4 H4 eq_refl A1) as ((D1 & _) & _).
  set (W7 := with_pos (with_P W4 (set_turb (w_P W4) (fun _ => 0) (fun _ => 0))) (fun _ => 1 / 2) (fun _ => 0) (fun _ => 0)).
  assert (H6 : motion (sx_F k) W4 W7).
  { exists (fun _ => 0), (fun _ => 0), (fun _ => 1 / 2), (fun _ => 0), (fun _ => 0). split; [|reflexivity].
    intros i _. unfold near, sx_F, sx_b. cbn. lra. }
  destruct (motion_part (sx_F k) W4 W7 H6 D1) as (I1 & I2 & _).
  set (P8 := mk_parts 2 (fun _ => 0%nat) sx_n (fun _ => 4) (fun _ => 1) sx_kpa (fun _ => 0) (fun _ => 0) (fun _ => 0) (fun _ => 0) (fun _ => 0) (fun _ => 0) (fun _ => 1)).
  set (W8 := mk_world P8 (w_E W7) (w_S W7) (w_x W7) (w_y W7) (w_z W7) (w_ict W7) (w_pud W7)).
  assert (H7 : sources (sx_F k) W7 W8).
  { unfold sources. cbv zeta. cbn [W8 w_P P8 p_np w_E w_pud p_n p_rw2 p_rd3 p_ia p_ic p_irho w_x w_y w_z p_kpa].
    split; [cbn; lia|]. split; [reflexivity|]. split; [reflexivity|]. split; [|split]; intros i Hi.
    - assert (i = 0%nat) as -> by (cbn in Hi; lia). repeat split; try reflexivity; cbn; lia.
    - split; [unfold sx_n; destruct (i =? 0)%nat; reflexivity|]. repeat split; try reflexivity; try lra; unfold sx_F, sx_b; cbn; lra.
    - assert (i = 0%nat) as -> by (cbn in Hi; lia). reflexivity. }
  set (s0 := mk_ss sx_W W1 W7 W8 W8).
  destruct (sources_part (sx_F k) s0 H7 I1 I2) as (J1 & J2 & _).
  destruct (walls_part (sx_F k) HF s0 J1 J2) as (K1 & _). cbn [s0 at_added] in K1.
  destruct (sx_tail k false (walls (sx_F k) W8) sx_n (fun _ => 1) sx_kpa 2 (or_intror eq_refl) K1 eq_refl) as (W9 & H8 & H9).
  { intros i Hi. split; [apply (proj2 (sx_walls k W8)); exact Hi|]. split; reflexivity. }
  { intros i _. unfold sx_n. destruct (i =? 0)%nat; discriminate. }
  { reflexivity. }
  exists (mk_ss sx_W W1 W7 W8 W9). cbn [at_start at_end]. split; [reflexivity|]. split; [|split; [exact H9|split; [|split]]].
  - exists W1, W1, W4, W4. cbn [at_start at_synced at_moved at_added at_end]. split; [exact H1|]. split; [reflexivity|]. split; [reflexivity|].
    split; [exact H4|]. split; [reflexivity|]. split; [exact H6|]. split; [exact H7|exact H8].
  - intros i Hi. unfold aerosol_at. cbn [at_added W8 w_P P8 p_rd3 p_kpa]. unfold sx_kpa. destruct (i =? 0)%nat; lra.
  - unfold brought. cbn [at_added at_moved W8 w_P P8 p_np p_n sumR]. unfold of_one. cbn [w_P P8 p_kpa p_rd3 p_np W7 with_pos with_P set_turb W4 W1 with_E set_vt sx_W p_n].
    unfold sx_kpa, sx_n. cbn. lra.
  - split; [unfold carried_out, is_out, f_parcel; cbn [sx_F f_b sx_b n_dims Nat.eqb negb andb at_added W8 w_P P8 p_np sumR]; lra|]. split; reflexivity.
Qed.

(** step 2: a collision *)
Lemma sx_coal k sds st : CoalModel.n (sds 0%nat) = 5%N -> CoalModel.n (sds 1%nat) = 2%N ->
  CoalModel.rd3 (sds 0%nat) = 1 -> CoalModel.rd3 (sds 1%nat) = 1 -> CoalModel.kpa (sds 0%nat) = 1 -> CoalModel.kpa (sds 1%nat) = 0 ->
  forall dv, dv 0%nat = 1 ->
  coal (fun _ _ _ => 3) 1 dv (f_co (sx_F k)) 1 (fun _ => 0%nat) (fun _ => 0) [0;1]%nat [0;0]%nat 2 (fun _ => [0%nat]) (fun _ => 1 / 2) sds = Some st ->
  (CoalModel.n (arr st 0%nat) = 1%N /\ CoalModel.rd3 (arr st 0%nat) = 1 /\ CoalModel.kpa (arr st 0%nat) = 1) /\
  (CoalModel.n (arr st 1%nat) = 2%N /\ CoalModel.rd3 (arr st 1%nat) = 3 /\ CoalModel.kpa (arr st 1%nat) = if (1 <? k)%nat then 2 / 3 else 0).
Proof.
  intros N0 N1 R0 R1 K0 K1 dv Hdv Hrun.
  assert (Hpr : prob (fun (_ : nat) (_ _ : sd) => 3) 1 dv 1 (fun _ : nat => 0) [0%nat; 0%nat] 0 (sds 0%nat) (sds 1%nat) = 3).
  { unfold prob, scl, counts, count_n. cbn. unfold upd. cbn. unfold scale_factor. cbn. rewrite Hdv. lra. }
  assert (Ht : truncN 3 = 3%N) by (apply truncN_unique; unfold N2R; cbn; lra).
  assert (Hl : Rltb (1/2) (3 - N2R 3) = false) by (apply Rltb_false; unfold N2R; cbn; lra).
  assert (CP : collider_pair (fun _ _ _ => 3) 1 dv (f_co (sx_F k)) 1 (fun _ => 0) [0;0]%nat 0 (sds 0%nat) (sds 1%nat) (1 / 2) =
    (fst (collide 2 (sds 0%nat) (sds 1%nat)), snd (collide 2 (sds 0%nat) (sds 1%nat)), 2, na_ge_nb, false)).
  { unfold collider_pair. rewrite Hpr, Ht, Hl, N0, N1. cbn. unfold N2R. cbn. reflexivity. }
  set (X := fst (collide 2 (sds 0%nat) (sds 1%nat))) in *. set (Y := snd (collide 2 (sds 0%nat) (sds 1%nat))) in *.
  assert (XN : CoalModel.n X = 1%N /\ CoalModel.rd3 X = 1 /\ CoalModel.kpa X = 1).
  { unfold X, collide. cbn [fst CoalModel.n CoalModel.rd3 CoalModel.kpa]. rewrite N0, N1. repeat split; assumption. }
  assert (YN : CoalModel.n Y = 2%N /\ CoalModel.rd3 Y = 3 /\ CoalModel.kpa Y = 0).
  { unfold Y, collide. cbn [snd CoalModel.n CoalModel.rd3 CoalModel.kpa]. rewrite R0, R1. repeat split; try assumption. unfold N2R. cbn. lra. }
  clearbody X Y.
  assert (CS : collider_step (fun _ _ _ => 3) 1 dv (f_co (sx_F k)) 1 (fun _ => 0%nat) (fun _ => 0) [0;1]%nat [0;0]%nat (CoalModel.mk_cst sds (fun _ => 1 / 2) false) 0 =
    CoalModel.mk_cst (upd (upd sds 0%nat X) 1%nat Y) (upd (upd (fun _ => 1 / 2) 1%nat na_ge_nb) 0%nat 2) false).
  { unfold collider_step. cbn [CoalModel.sid nth arr col]. change (sijk [0%nat; 0%nat] 0) with 0%nat. change (sijk [0%nat; 0%nat] 1) with 0%nat.
    rewrite CP. reflexivity. }
  unfold coal in Hrun. cbn [fold_left] in Hrun. rewrite CS in Hrun. cbn [arr col inc] in Hrun.
  unfold follow_ups, mix_kappa_on in Hrun. cbn [f_co sx_F chem_switch n_dry_distros n_dry_sizes diag_incloud_time act_sstp app] in Hrun.
  rewrite Nat.add_0_r in Hrun. destruct (1 <? k)%nat; cbn [app fold_left fst snd] in Hrun; injection Hrun as <-; cbn [arr].
  - unfold follow_step. cbn [CoalModel.sid nth]. unfold upd. cbn [Nat.eqb]. unfold weighted_summator.
    replace (Rleb 2 0) with false by (symmetry; apply Rleb_false; lra). replace (Reqb na_ge_nb na_ge_nb) with true by (symmetry; apply Reqb_true; reflexivity).
    cbn [Nat.eqb]. split; [exact XN|]. cbn [CoalModel.n CoalModel.rd3 CoalModel.kpa set_kpa]. destruct XN as (_ & X2 & X3), YN as (Y1 & Y2 & Y3).
    split; [exact Y1|]. split; [exact Y2|]. rewrite X2, X3, Y2, Y3.
    replace (truncN 2) with 2%N by (symmetry; apply truncN_unique; unfold N2R; cbn; lra). change (N.to_nat 2) with 2%nat. cbn [mix]. field.
  - unfold upd. cbn [Nat.eqb]. auto.
Qed.

(** the air stays; the pass is the only collision of the step *)
Lemma sx_step2 k W : state_ok (sx_F k) W -> sx_pop W sx_n (fun _ => 1) sx_kpa 2 -> exists s, at_start s = W /\ step (sx_F k) (sx_so true) s /\
  sx_pop (at_end s) (fun i => if (i =? 0)%nat then 1%N else 2%N) (fun i => if (i =? 0)%nat then 1 else 3)
     (fun i => if (i =? 0)%nat then 1 else if (1 <? k)%nat then 2 / 3 else 0) 2 /\ sources_ok 0 1 s /\ brought s = 0 /\ carried_out (sx_F k) s = 0.
Proof.
  intros HW (N1 & NA & NR & NC). pose proof (sx_setup_ok k) as HF. set (so := sx_so true).
  set (W1 := with_E W (w_E W)).
  assert (H1 : sync_in so W W1).
  { exists (e_rv (w_E W)), (e_th (w_E W)), (e_rhod (w_E W)). split; [reflexivity|]. split; [intros c Hc; apply HW, Hc|].
    unfold W1. f_equal. destruct (w_E W); reflexivity. }
  destruct (sync_part (sx_F k) so _ W1 H1 HW) as (A1 & _).
  set (W4 := with_P (with_E W1 (hskpng_Tpr (so_c so) (w_E W1))) (set_vt (w_P W1) (fun _ => 0))).
  assert (H4 : prepare so W1 W4) by (exists (fun _ => 0); reflexivity).
  destruct (prepare_part (sx_F k) so W1 W4 H4 eq_refl A1) as ((D1 & _) & _).
  assert (DV : e_dv (w_E W4) 0%nat = 1).
  { cbn [W4 with_P with_E w_E hskpng_Tpr so sx_so so_c sx_c o_parcel e_dv W1]. rewrite NR. lra. }
  assert (NC4 : e_nc (w_E W4) = 1%nat) by exact NC. assert (NR4 : e_rhod (w_E W4) 0%nat = 1) by exact NR.
  assert (N4 : p_np (w_P W4) = 2%nat) by exact N1.
  assert (NA4 : forall i, (i < 2)%nat -> p_n (w_P W4) i = sx_n i /\ p_rd3 (w_P W4) i = 1 /\ p_kpa (w_P W4) i = sx_kpa i /\ p_ijk (w_P W4) i = 0%nat) by exact NA.
  clearbody W4.
  (* the pass *)
  assert (SRT : sort_helper true [0;0]%nat [0;0]%nat [0;1]%nat) by exact ex_sort.
  assert (IJ : map (p_ijk (w_P W4)) (seq 0 (p_np (w_P W4))) = [0;0]%nat).
  { rewrite N4. cbn [seq map]. rewrite (proj2 (proj2 (proj2 (NA4 0%nat ltac:(lia))))), (proj2 (proj2 (proj2 (NA4 1%nat ltac:(lia))))). reflexivity. }
  destruct (coal (fun _ _ _ => 3) 1 (e_dv (w_E W4)) (f_co (sx_F k)) (e_nc (w_E W4)) (fun _ => 0%nat) (fun _ => 0) [0;1]%nat [0;0]%nat 2
              (fun _ => [0%nat]) (fun _ => 1 / 2) (sd_of W4)) as [st|] eqn:EC; [|discriminate EC].
  destruct (NA4 0%nat ltac:(lia)) as (a1 & a2 & a3 & _). destruct (NA4 1%nat ltac:(lia)) as (b1 & b2 & b3 & _).
  assert (CO := EC). rewrite NC4 in CO.
  destruct (sx_coal k (sd_of W4) st a1 b1 a2 b2 a3 b3 (e_dv (w_E W4)) DV CO) as (C0 & C1). clear CO.
  set (W5 := with_P (with_sds W4 (arr st)) (set_vt (w_P (with_sds W4 (arr st))) (fun _ => 0))).
  assert (H5' : coal_pass (sx_F k) W4 W5).
  { exists (fun _ _ _ => 3), 1, (fun _ => 0%nat), (fun _ => 0), [0;0]%nat, [0;1]%nat, (fun _ => [0%nat]), (fun _ => 1 / 2), st, (fun _ => 0).
    cbv zeta. rewrite IJ. cbn [length]. split; [intros; lra|]. split; [lra|]. split; [intros; apply Permutation_refl|].
    split; [exact SRT|]. split; [exact EC|reflexivity]. }
  set (W6 := with_P W5 (set_rc2 (w_P W5) (fun _ => 1))).
  assert (H5 : coalescence (sx_F k) so W4 W6).
  { unfold coalescence. cbn [so_coal so sx_so]. exists W5, (fun _ => 1). split; [|reflexivity]. cbn [coal_passes so_sstp_coal so sx_so]. exists W5. auto. }
  destruct (coalescence_part (sx_F k) so W4 W6 H5 ltac:(discriminate) D1) as ((G1 & _) & _).
  assert (N6 : p_np (w_P W6) = 2%nat) by exact N4.
  assert (NA6 : forall i, (i < 2)%nat -> p_n (w_P W6) i = (if (i =? 0)%nat then 1%N else 2%N) /\ p_rd3 (w_P W6) i = (if (i =? 0)%nat then 1 else 3) /\
     p_kpa (w_P W6) i = (if (i =? 0)%nat then 1 else if (1 <? k)%nat then 2 / 3 else 0)).
  { intros i Hi. destruct i as [|[|i]]; [exact C0|exact C1|lia]. }
  assert (NC6 : e_nc (w_E W6) = 1%nat) by exact NC4. assert (NR6 : e_rhod (w_E W6) 0%nat = 1) by exact NR4.
  clearbody W6.
  set (W7 := with_pos (with_P W6 (set_turb (w_P W6) (fun _ => 0) (fun _ => 0))) (fun _ => 1 / 2) (fun _ => 0) (fun _ => 0)).
  assert (H6 : motion (sx_F k) W6 W7).
  { exists (fun _ => 0), (fun _ => 0), (fun _ => 1 / 2), (fun _ => 0), (fun _ => 0). split; [|reflexivity].
    intros i _. unfold near, sx_F, sx_b. cbn. lra. }
  destruct (motion_part (sx_F k) W6 W7 H6 G1) as (I1 & I2 & _).
  (* no source *)
  set (P7 := w_P W7). set (P8 := mk_parts 2 (p_ijk P7) (fun i => if (i <? 2)%nat then p_n P7 i else 0%N)
                      (fun i => if (i <? 2)%nat then p_rw2 P7 i else 0) (fun i => if (i <? 2)%nat then p_rd3 P7 i else 0)
                      (p_kpa P7) (p_vt P7) (fun i => if (i <? 2)%nat then p_ia P7 i else 0) (fun i => if (i <? 2)%nat then p_ic P7 i else 0)
                      (fun i => if (i <? 2)%nat then p_irho P7 i else 0) (fun _ => 0) (fun _ => 0) (fun _ => 1)).
  set (W8 := mk_world P8 (w_E W7) (w_S W7) (w_x W7) (w_y W7) (w_z W7) (w_ict W7) (w_pud W7)).
  assert (N7 : p_np P7 = 2%nat) by exact N6.
  assert (H7 : sources (sx_F k) W7 W8).
  { unfold sources. cbv zeta. fold P7. rewrite N7. cbn [W8 w_P P8 p_np w_E w_pud p_n p_rw2 p_rd3 p_ia p_ic p_irho w_x w_y w_z].
    split; [cbn; lia|]. split; [reflexivity|]. split; [reflexivity|]. split; [|split; [|reflexivity]]; intros i Hi.
    - destruct (Nat.ltb_spec i 2); [|lia]. split; [split; [lia|apply I1]|]. repeat split; reflexivity.
    - destruct (Nat.ltb_spec i 2); [lia|]. repeat split; try reflexivity; try lra; unfold sx_F, sx_b; cbn; lra. }
  set (s0 := mk_ss W W1 W7 W8 W8).
  destruct (sources_part (sx_F k) s0 H7 I1 I2) as (J1 & J2 & _).
  destruct (walls_part (sx_F k) HF s0 J1 J2) as (K1 & _). cbn [s0 at_added] in K1.
  destruct (sx_tail k true (walls (sx_F k) W8) (fun i => if (i =? 0)%nat then 1%N else 2%N) (fun i => if (i =? 0)%nat then 1 else 3)
     (fun i => if (i =? 0)%nat then 1 else if (1 <? k)%nat then 2 / 3 else 0) 2 (or_intror eq_refl) K1 eq_refl) as (W9 & H8 & H9).
  { intros i Hi. destruct (NA6 i Hi) as (Q1 & Q2 & Q3). rewrite (proj2 (sx_walls k W8)) by exact Hi.
    cbn [walls W8 w_P set_mult P8 p_n p_rd3 p_kpa]. destruct (Nat.ltb_spec i 2); [|lia]. split; [exact Q1|]. split; [exact Q2|exact Q3]. }
  { intros i _. destruct (i =? 0)%nat; discriminate. }
  { exact NR6. }
  exists (mk_ss W W1 W7 W8 W9). cbn [at_start at_end]. split; [reflexivity|]. split; [|split; [exact H9|split; [|split]]].
  - exists W1, W1, W4, W6. cbn [at_start at_synced at_moved at_added at_end]. split; [exact H1|]. split; [reflexivity|]. split; [reflexivity|].
    split; [exact H4|]. split; [exact H5|]. split; [exact H6|]. split; [exact H7|exact H8].
  - intros i Hi. exfalso. cbn [at_added at_moved] in Hi. change (p_np (w_P W7)) with (p_np (w_P W6)) in Hi. rewrite N6 in Hi. cbn [W8 w_P P8 p_np] in Hi. lia.
  - unfold brought. cbn [at_added at_moved]. fold P7. rewrite N7. cbn [W8 w_P P8 p_np p_n sumR Nat.ltb Nat.leb]. lra.
  - unfold carried_out, is_out, f_parcel. cbn [sx_F f_b sx_b n_dims Nat.eqb negb andb at_added W8 w_P P8 p_np sumR]. lra.
Qed.
(** both *)
Lemma sx_run k : exists s1 s2, let l := [(sx_so false, s1); (sx_so true, s2)] in
  run (sx_F k) sx_W l (at_end s2) /\ Forall (step_ok (sx_F k)) l /\ Forall (fun t => sources_ok 0 1 (snd t)) l /\
  over brought l = 0 /\ over (carried_out (sx_F k)) l = 0 /\
  p_np (w_P (at_moved s1)) = 1%nat /\ p_np (w_P (at_added s1)) = 2%nat /\
  sx_pop (at_end s2) (fun i => if (i =? 0)%nat then 1%N else 2%N) (fun i => if (i =? 0)%nat then 1 else 3)
     (fun i => if (i =? 0)%nat then 1 else if (1 <? k)%nat then 2 / 3 else 0) 2.
Proof.
  destruct (sx_step1 k) as (s1 & A1 & A2 & A3 & A4 & A5 & A6 & A7 & A8).
  assert (O1 : state_ok (sx_F k) (at_end s1)).
  { apply (step_part (sx_F k) (sx_setup_ok k) (sx_so false) s1 A2 (sx_ok k false s1)). rewrite A1. apply sx_state_ok. }
  destruct (sx_step2 k (at_end s1) O1 A3) as (s2 & B1 & B2 & B3 & B4 & B5 & B6).
  exists s1, s2. cbv zeta. split; [|split; [|split; [|split; [|split; [|split; [exact A7|split; [exact A8|exact B3]]]]]]].
  - rewrite <- A1. apply run_cons; [exact A2|]. rewrite <- B1. apply run_cons; [exact B2|]. apply run_nil.
  - constructor; [apply sx_ok|constructor; [apply sx_ok|constructor]].
  - constructor; [exact A4|constructor; [exact B4|constructor]].
  - unfold over. cbn [map lsumR fold_right snd]. rewrite A5, B5. lra.
  - unfold over. cbn [map lsumR fold_right snd]. rewrite A6, B6. lra.
Qed.
Lemma sx_soluble_0 : soluble sx_W = 5 * (4 / 3 * PI).
Proof. unfold soluble, of_one. cbn [sx_W w_P p_np sumR p_n p_kpa p_rd3]. unfold N2R. cbn. lra. Qed.
Lemma sx_soluble_2 W q : sx_pop W (fun i => if (i =? 0)%nat then 1%N else 2%N) (fun i => if (i =? 0)%nat then 1 else 3)
     (fun i => if (i =? 0)%nat then 1 else q) 2 -> soluble W = (1 + 6 * q) * (4 / 3 * PI).
Proof.
  intros (A & B & _). unfold soluble, of_one. rewrite A. cbn [sumR]. destruct (B 0%nat ltac:(lia)) as (-> & -> & -> & _). destruct (B 1%nat ltac:(lia)) as (-> & -> & -> & _).
  cbn [Nat.eqb]. unfold N2R. cbn. lra.
Qed.
Lemma sx_aerosol : aerosol_ok 0 1 sx_W.
Proof. intros i _. unfold aerosol_at. cbn [sx_W w_P p_rd3 p_kpa]. lra. Qed.

(** C93 refuted without mixing: four fifths of the soluble material vanish in a collision *)
Theorem C93_unmixed_refuted : exists F W l W',
  setup_ok F /\ run F W l W' /\ state_ok F W /\ Forall (step_ok F) l /\ Forall (fun t => sources_ok 0 1 (snd t)) l /\ aerosol_ok 0 1 W /\
  (n_dry_distros (f_co F) + n_dry_sizes (f_co F) = 1)%nat /\ over brought l = 0 /\ over (carried_out F) l = 0 /\
  soluble W = 5 * (4 / 3 * PI) /\ soluble W' = 4 / 3 * PI.
Proof.
  destruct (sx_run 1) as (s1 & s2 & H). cbv zeta in H. destruct H as (H1 & H2 & H3 & H4 & H5 & _ & _ & H6).
  exists (sx_F 1), sx_W, [(sx_so false, s1); (sx_so true, s2)], (at_end s2).
  split; [apply sx_setup_ok|]. split; [exact H1|]. split; [apply sx_state_ok|]. split; [exact H2|]. split; [exact H3|]. split; [exact sx_aerosol|].
  split; [reflexivity|]. split; [exact H4|]. split; [exact H5|]. split; [exact sx_soluble_0|]. rewrite (sx_soluble_2 _ 0 H6). ring.
Qed.
(** the hypotheses of C93_soluble_partial and C93_range are met by a run in which a source and a collision act *)
Theorem C93_instance : exists F W l W',
  setup_ok F /\ run F W l W' /\ state_ok F W /\ Forall (step_ok F) l /\ Forall (fun t => sources_ok 0 1 (snd t)) l /\ aerosol_ok 0 1 W /\ mixed F /\
  (exists t, In t l /\ (p_np (w_P (at_moved (snd t))) < p_np (w_P (at_added (snd t))))%nat) /\
  p_kpa (w_P W') 1%nat = 2 / 3 /\ p_n (w_P W') 0%nat = 1%N /\ soluble W' = 5 * (4 / 3 * PI).
Proof.
  destruct (sx_run 2) as (s1 & s2 & H). cbv zeta in H. destruct H as (H1 & H2 & H3 & H4 & H5 & H7 & H8 & H6).
  exists (sx_F 2), sx_W, [(sx_so false, s1); (sx_so true, s2)], (at_end s2).
  split; [apply sx_setup_ok|]. split; [exact H1|]. split; [apply sx_state_ok|]. split; [exact H2|]. split; [exact H3|]. split; [exact sx_aerosol|].
  split; [unfold mixed; cbn; lia|]. split.
  { exists (sx_so false, s1). split; [left; reflexivity|]. cbn [snd]. rewrite H7, H8. lia. }
  destruct H6 as (A & B & C). split; [exact (proj1 (proj2 (proj2 (B 1%nat ltac:(lia)))))|]. split; [exact (proj1 (B 0%nat ltac:(lia)))|].
  rewrite (sx_soluble_2 _ (2 / 3) (conj A (conj B C))). field.
Qed.
Print Assumptions C93_range.
Print Assumptions C93_soluble_partial.
Print Assumptions C93_uniform.
Print Assumptions C93_unmixed_refuted.
Print Assumptions C93_instance.
