(** * C56: sources of aerosol *)
From Coq Require Import List Arith NArith ZArith Reals Bool Lia Lra.
From Verif Require ThermoModel ThermoProofs.
From Verif Require Import Base BaseProofs SpaceModel SpaceProofs GridProps InitModel InitProofs InitProps.
Import ListNotations.
Open Scope R_scope.

(** ** Specification *)
(** the cell with indices [i], [j], [k] is in the source region: its centre is within the box, in each dimension of the model *)
Definition centre_within (s0 s1 d : R) (i : nat) : Prop := s0 < (INR i + 1 / 2) * d <= s1.
Definition cell_in_region (o : icfg) (b : box) (i j k : nat) : Prop :=
  centre_within (s_x0 b) (s_x1 b) (ic_dx o) i /\ centre_within (s_z0 b) (s_z1 b) (ic_dz o) k /\
  (ic_dims o = 3%nat -> centre_within (s_y0 b) (s_y1 b) (ic_dy o) j).
Definition sensible_box (b : box) : Prop :=
  0 <= s_x0 b /\ 0 <= s_x1 b /\ 0 <= s_y0 b /\ 0 <= s_y1 b /\ 0 <= s_z0 b /\ 0 <= s_z1 b.
(** time for which the source was on *)
Definition time_on (l : list (bool * R)) : R := lsumR (map (fun p : bool * R => if fst p then snd p else 0) l).

(** ** lemmas *)
Lemma edge_spec s d i : 0 <= s -> 0 < d -> ((i < edge s d)%nat <-> (INR i + 1 / 2) * d <= s).
Proof.
  intros Hs Hd. unfold edge. assert (H0 : 0 <= s / d) by (apply Rmult_le_pos; [lra|left; now apply Rinv_0_lt_compat]).
  destruct (truncN_spec (s / d + 5 / 10)) as (A & B); [lra|]. set (t := N.to_nat (truncN (s / d + 5 / 10))) in *.
  assert (E : s = s / d * d) by (field; lra).
  split; intros H.
  - apply le_INR in H. rewrite S_INR in H. rewrite E. apply Rmult_le_compat_r; lra.
  - rewrite E in H. apply Rmult_le_reg_r in H; [|lra]. apply INR_lt. lra.
Qed.

Lemma between_edges_spec s0 s1 d i : 0 <= s0 -> 0 <= s1 -> 0 < d ->
  between_edges i (edge s0 d) (edge s1 d) = true <-> centre_within s0 s1 d i.
Proof.
  intros H0 H1 Hd. unfold between_edges, centre_within. rewrite andb_true_iff, Nat.ltb_lt, Nat.leb_le, (edge_spec s1 d i H1 Hd).
  assert (Q := edge_spec s0 d i H0 Hd). split.
  - intros (A & B). split; [|exact A]. apply Rnot_le_lt. intros X. apply Q in X. lia.
  - intros (A & B). split; [exact B|]. apply Nat.nlt_ge. intros X. apply Q in X. lra.
Qed.

(** ** C56: cells *)
(** The source acts in exactly the cells whose centres are in the given box. *)
Theorem C56_cells :
  forall o b i j k,
    (ic_dims o = 2 \/ ic_dims o = 3)%nat -> 0 < ic_dx o -> 0 < ic_dy o -> 0 < ic_dz o -> sensible_box b ->
    valid_cell (ic_dims o) (ic_nx o) (ic_ny o) (ic_nz o) i j k ->
    (in_source o b (ravel (ic_dims o) (ic_ny o) (ic_nz o) i j k) = true <-> cell_in_region o b i j k).
Proof.
  intros o b i j k HD Hx Hy Hz (A1 & A2 & A3 & A4 & A5 & A6) HV. unfold in_source, cell_in_region.
  rewrite <- (between_edges_spec _ _ _ i A1 A2 Hx), <- (between_edges_spec _ _ _ k A5 A6 Hz), <- (between_edges_spec _ _ _ j A3 A4 Hy).
  destruct HD as [E|E]; rewrite E in *; cbn [ravel Nat.eqb]; unfold valid_cell in HV; cbn in HV.
  - assert (Hk : (k < ic_nz o)%nat) by (destruct HV; tauto || lia).
    replace ((i * ic_nz o + k) mod ic_nz o)%nat with k by (rewrite Nat.add_comm, Nat.mod_add, Nat.mod_small by lia; reflexivity).
    replace ((i * ic_nz o + k) / ic_nz o)%nat with i by (rewrite Nat.add_comm, Nat.div_add, Nat.div_small by lia; lia).
    rewrite andb_true_iff. split; [intros (P & Q); repeat split; auto; discriminate|tauto].
  - assert (Hk : (k < ic_nz o)%nat) by (destruct HV; tauto || lia). assert (Hj : (j < ic_ny o)%nat) by (destruct HV; tauto || lia).
    replace (i * (ic_nz o * ic_ny o) + j * ic_nz o + k)%nat with (cell_no (ic_ny o) (ic_nz o) i j k) by (unfold cell_no; ring).
    rewrite (div_col (ic_ny o) (ic_nz o) i j k Hj Hk).
    unfold cell_no.
    replace (((i * ic_ny o + j) * ic_nz o + k) mod ic_nz o)%nat with k by (rewrite Nat.add_comm, Nat.mod_add, Nat.mod_small by lia; reflexivity).
    replace (((i * ic_ny o + j) * ic_nz o + k) / ic_nz o)%nat with (i * ic_ny o + j)%nat by (rewrite (Nat.add_comm _ k), Nat.div_add, Nat.div_small by lia; lia).
    replace ((i * ic_ny o + j) mod ic_ny o)%nat with j by (rewrite Nat.add_comm, Nat.mod_add, Nat.mod_small by lia; reflexivity).
    rewrite !andb_true_iff. tauto.
Qed.
Print Assumptions C56_cells.

(** ** C56: one addition *)
Lemma counts_src_nth o b number c : (c < ic_n_cell o)%nat -> nth c (counts_src o b number) 0%nat = if in_source o b c then number else 0%nat.
Proof. intros H. unfold counts_src. rewrite (nth_map_lt _ _ _ 0%nat) by (now rewrite seq_length). now rewrite seq_nth by exact H. Qed.
Lemma counts_src_length o b number : length (counts_src o b number) = ic_n_cell o.
Proof. unfold counts_src. now rewrite map_length, seq_length. Qed.

(** From a size distribution: each cell of the region gets the number of super-droplets asked for, one in each of as many equal
    intervals of the logarithm of radius, which represent the rate times the time between additions up to rounding of each
    multiplicity and the width of the intervals; other cells get none. *)
Theorem C56_from_distribution :
  forall o b D number sup_dt d F L c,
    set_up o -> uniform_draws d -> smooth_distribution D F L -> (c < ic_n_cell o)%nat -> (0 < number)%nat -> 0 < sup_dt ->
    let g := src_simple o b D number sup_dt d in
    (in_source o b c = false -> in_cell c g = []) /\
    (in_source o b c = true ->
       length (in_cell c g) = number /\
       (forall i, (i < number)%nat -> exists s, nth_error (in_cell c g) i = Some s /\ c_kpa s = di_kappa D /\
          ln (di_min D) + INR i * (di_range D / INR number) <= log_radius s < ln (di_min D) + (INR i + 1) * (di_range D / INR number)) /\
       Rabs (particles (in_cell c g) - sup_dt * requested o c (concentration D F)) <=
       INR number / 2 + sup_dt * requested o c (L * di_range D ^ 2 / INR number)).
Proof.
  intros o b D number sup_dt d F L c Hs Hd HD Hc Hn Hdt g. split; intros Hb.
  - unfold g, src_simple. rewrite make_group_in_cell by (now rewrite counts_src_length). now rewrite counts_src_nth, Hb.
  - unfold g, src_simple, di_range. apply group_particles with (L := L) (F := F); auto.
    + apply counts_src_length.
    + now rewrite counts_src_nth, Hb.
    + unfold analysis_multiplier. assert (HD' := HD). destruct HD' as (Hr & _).
      replace (ln (di_max D / di_min D)) with (ln (di_max D) - ln (di_min D)) by (unfold Rdiv; rewrite ln_mult, ln_Rinv; try lra; apply Rinv_0_lt_compat; lra).
      rewrite N2R_of_nat. set (V := if Nat.eqb (ic_dims o) 0 then _ else _). clearbody V. field. apply Rgt_not_eq. now apply lt_0_INR.
    + lra.
Qed.
Print Assumptions C56_from_distribution.

(** Of a given size. *)
Theorem C56_of_size :
  forall o b kappa radius rate number sup_dt d c,
    set_up o -> 0 <= rate -> (c < ic_n_cell o)%nat -> (0 < number)%nat -> 0 < sup_dt ->
    let g := src_size o b kappa radius rate number sup_dt d in
    (in_source o b c = false -> in_cell c g = []) /\
    (in_source o b c = true ->
       length (in_cell c g) = number /\
       (forall s, In s (in_cell c g) -> c_rd3 s = radius ^ 3 /\ c_kpa s = kappa) /\
       Rabs (particles (in_cell c g) - requested o c (rate * sup_dt)) <= INR number / 2).
Proof.
  intros o b kappa radius rate number sup_dt d c Hs Hrate Hc Hn Hdt g. split; intros Hb.
  - unfold g, src_size. rewrite make_group_in_cell by (now rewrite counts_src_length). now rewrite counts_src_nth, Hb.
  - unfold g, src_size. rewrite make_group_in_cell by (now rewrite counts_src_length). rewrite counts_src_nth, Hb by exact Hc.
    split; [now rewrite map_length, seq_length|]. split.
    + intros s Hin. apply in_map_iff in Hin as (k & <- & Hk). rewrite sd_of_rd3, sd_of_kpa. split; [ring|reflexivity].
    + unfold particles. rewrite N2R_lsumN, !map_map, lsumR_map_seq.
      rewrite (sumR_ext _ _ (fun _ => N2R (n_dry_sizes o (rate * sup_dt) number c))) by (intros; now rewrite sd_of_n).
      rewrite sumR_const. unfold n_dry_sizes. rewrite conc_to_number_requested. set (x := requested o c (rate * sup_dt)).
      assert (Hx : 0 <= x) by (apply requested_nonneg; auto; apply Rmult_le_pos; lra). assert (Hk0 : 0 < INR number) by (now apply lt_0_INR).
      assert (Hxm : 0 <= x / INR number) by (apply Rmult_le_pos; [lra|left; now apply Rinv_0_lt_compat]).
      assert (Q := round_half _ Hxm). replace (INR number * N2R (truncN (x / INR number + 5 / 10)) - x) with
        ((N2R (truncN (x / INR number + 5 / 10)) - x / INR number) * INR number) by (field; lra).
      rewrite Rabs_mult, (Rabs_pos_eq (INR number)) by lra. assert (Y := Rmult_le_compat_r (INR number) _ _ ltac:(lra) Q). lra.
Qed.
Print Assumptions C56_of_size.

(** ** C56: the rate over a run *)
Lemma in_cell_app c g h : in_cell c (g ++ h) = in_cell c g ++ in_cell c h.
Proof. apply filter_app. Qed.
Lemma particles_app g h : particles (g ++ h) = particles g + particles h.
Proof. unfold particles. rewrite !N2R_lsumN, !map_app. rewrite !map_map. unfold lsumR.
  induction g as [|x g IH]; cbn [map app fold_right]; [lra|]. rewrite IH. lra. Qed.
Lemma requested_linear o c x y : requested o c (x + y) = requested o c x + requested o c y.
Proof. rewrite !requested_scale. ring. Qed.

(** number of additions *)
Fixpoint additions (sup ctr : nat) (l : list (bool * R)) : nat :=
  match l with
  | [] => 0
  | (on, _) :: r => (if on && Nat.eqb (ctr mod sup) 0 then 1 else 0) + additions sup (if on then S ctr else 0) r
  end.
Lemma run_additions o b kappa radius rate number dt0 sup c :
  set_up o -> 0 <= rate -> (c < ic_n_cell o)%nat -> (0 < number)%nat -> 0 < dt0 -> (0 < sup)%nat -> in_source o b c = true ->
  forall l ctr d,
  let g := src_run o b kappa radius rate number dt0 sup ctr l d in
  length (in_cell c g) = (additions sup ctr l * number)%nat /\
  Rabs (particles (in_cell c g) - requested o c (rate * (INR (additions sup ctr l) * INR sup * dt0))) <= INR (additions sup ctr l) * INR number / 2.
Proof.
  intros Hs Hr Hc Hn Hdt Hsup Hb. induction l as [|[on dt] l IH]; intros ctr d; cbn [src_run additions]; cbv zeta.
  - cbn [in_cell filter length INR]. split; [reflexivity|]. unfold particles. cbn [map lsumN fold_right]. change (N2R 0) with 0.
    replace (rate * (0 * INR sup * dt0)) with 0 by ring. rewrite requested_scale. rewrite !Rmult_0_l, Rminus_0_r, Rabs_R0. lra.
  - specialize (IH (if on then S ctr else 0%nat) (fun i => d (S i))). cbv zeta in IH. destruct IH as (IHn & IHp).
    rewrite in_cell_app, app_length, particles_app.
    set (T := src_run _ _ _ _ _ _ _ _ _ l _) in *. set (A := additions sup _ l) in *. clearbody T A.
    destruct (on && Nat.eqb (ctr mod sup) 0).
    + assert (HS : 0 < INR sup * dt0) by (apply Rmult_lt_0_compat; [now apply lt_0_INR|lra]).
      destruct (C56_of_size o b kappa radius rate number (INR sup * dt0) (d 0%nat) c Hs Hr Hc Hn HS) as (_ & Q).
      destruct (Q Hb) as (Qn & _ & Qp). set (g := src_size _ _ _ _ _ _ _ _) in *. clearbody g. rewrite Qn, IHn. split; [lia|].
      rewrite plus_INR. change (INR 1) with 1.
      replace (rate * ((1 + INR A) * INR sup * dt0)) with (rate * (INR sup * dt0) + rate * (INR A * INR sup * dt0)) by ring.
      rewrite requested_linear.
      replace (particles (in_cell c g) + particles (in_cell c T) - (requested o c (rate * (INR sup * dt0)) + requested o c (rate * (INR A * INR sup * dt0)))) with
        ((particles (in_cell c g) - requested o c (rate * (INR sup * dt0))) + (particles (in_cell c T) - requested o c (rate * (INR A * INR sup * dt0)))) by ring.
      eapply Rle_trans; [apply Rabs_triang|]. lra.
    + cbn [in_cell filter length]. rewrite Nat.add_0_l, IHn. split; [reflexivity|]. unfold particles at 1. cbn [map lsumN fold_right]. change (N2R 0) with 0.
      rewrite Nat.add_0_l, Rplus_0_l. exact IHp.
Qed.

(** histories in which the source is always on for a multiple of [sup] steps, with the timestep given at initialisation *)
Inductive whole_periods (dt0 : R) (sup : nat) : list (bool * R) -> Prop :=
| wp_nil : whole_periods dt0 sup []
| wp_off : forall dt l, whole_periods dt0 sup l -> whole_periods dt0 sup ((false, dt) :: l)
| wp_on : forall l, whole_periods dt0 sup l -> whole_periods dt0 sup (repeat (true, dt0) sup ++ l).

Lemma additions_period sup : forall m ctr l dt0, (0 < sup)%nat -> (0 < ctr mod sup)%nat -> (ctr mod sup + m <= sup)%nat ->
  additions sup ctr (repeat (true, dt0) m ++ l) = additions sup (ctr + m) l.
Proof.
  induction m as [|m IH]; intros ctr l dt0 Hs H0 Hm; cbn [repeat app].
  - now rewrite Nat.add_0_r.
  - cbn [additions andb]. destruct (Nat.eqb_spec (ctr mod sup) 0) as [E|_]; [lia|].
    destruct m as [|m].
    + cbn [repeat app]. rewrite Nat.add_1_r. lia.
    + assert (E : (S ctr mod sup = S (ctr mod sup))%nat).
      { rewrite (Nat.div_mod ctr sup) at 1 by lia. replace (S (sup * (ctr / sup) + ctr mod sup)) with (S (ctr mod sup) + (ctr / sup) * sup)%nat by lia.
        rewrite Nat.mod_add by lia. apply Nat.mod_small. lia. }
      rewrite IH by lia. replace (S ctr + S m)%nat with (ctr + S (S m))%nat by lia. lia.
Qed.

Lemma whole_additions dt0 sup l : (0 < sup)%nat -> whole_periods dt0 sup l ->
  forall ctr, (ctr mod sup = 0)%nat -> INR (additions sup ctr l) * INR sup * dt0 = time_on l.
Proof.
  intros Hs. induction 1 as [|dt l H IH|l H IH]; intros ctr Hc.
  - cbn. unfold time_on. cbn. lra.
  - cbn [additions andb]. rewrite Nat.add_0_l, IH by (apply Nat.mod_0_l; lia). unfold time_on, lsumR. cbn [map fst snd fold_right]. lra.
  - assert (Et : time_on (repeat (true, dt0) sup ++ l) = INR sup * dt0 + time_on l).
    { unfold time_on, lsumR. clear. induction sup as [|s IH]; [cbn; lra|]. cbn [repeat app map fold_right fst snd]. rewrite IH, S_INR. lra. }
    rewrite Et. assert (Ea : additions sup ctr (repeat (true, dt0) sup ++ l) = S (additions sup (ctr + sup) l)).
    { destruct sup as [|s]; [lia|]. cbn [repeat app]. remember (S s) as sup. cbn [additions]. rewrite Hc, Nat.eqb_refl. cbn [andb].
      destruct s as [|s].
      - cbn [repeat app]. subst sup. rewrite Nat.add_1_r. reflexivity.
      - assert (E : (S ctr mod sup = 1)%nat).
        { rewrite (Nat.div_mod ctr sup) at 1 by lia. rewrite Hc. replace (S (sup * (ctr / sup) + 0)) with (1 + (ctr / sup) * sup)%nat by lia.
          rewrite Nat.mod_add by lia. apply Nat.mod_small. lia. }
        rewrite additions_period by lia. replace (S ctr + S s)%nat with (ctr + sup)%nat by lia. reflexivity. }
    rewrite Ea, S_INR. rewrite Rmult_plus_distr_r, Rmult_plus_distr_r, IH; [lra|].
    replace (ctr + sup)%nat with (ctr + 1 * sup)%nat by lia. rewrite Nat.mod_add by lia. exact Hc.
Qed.

(** The particles added in a cell of the region are the rate times the time the source was on. *)
Theorem C56_rate_partial :
  forall o b kappa radius rate number dt0 sup l d c,
    set_up o -> 0 <= rate -> (c < ic_n_cell o)%nat -> (0 < number)%nat -> 0 < dt0 -> (0 < sup)%nat -> in_source o b c = true ->
    whole_periods dt0 sup l ->
    let g := in_cell c (src_run o b kappa radius rate number dt0 sup 0 l d) in
    INR (length g) * INR sup * dt0 = time_on l * INR number /\
    Rabs (particles g - requested o c (rate * time_on l)) <= INR (length g) / 2.
Proof.
  intros o b kappa radius rate number dt0 sup l d c Hs Hr Hc Hn Hdt Hsup Hb HW g.
  destruct (run_additions o b kappa radius rate number dt0 sup c Hs Hr Hc Hn Hdt Hsup Hb l 0 d) as (A & B). fold g in A, B.
  rewrite A, mult_INR. assert (E := whole_additions dt0 sup l Hsup HW 0%nat (Nat.mod_0_l sup ltac:(lia))). rewrite E in B. rewrite <- E.
  split; [ring|]. rewrite E. exact B.
Qed.
Print Assumptions C56_rate_partial.

(** At any moment of an uninterrupted operation the source is at most one period ahead: it has added what is due until the end
    of the current period. *)
Theorem C56_never_late :
  forall o b kappa radius rate number dt0 sup steps d c,
    set_up o -> 0 <= rate -> (c < ic_n_cell o)%nat -> (0 < number)%nat -> 0 < dt0 -> (0 < sup)%nat -> in_source o b c = true ->
    let g := in_cell c (src_run o b kappa radius rate number dt0 sup 0 (repeat (true, dt0) steps) d) in
    exists periods,
      (steps <= periods * sup < steps + sup)%nat /\ length g = (periods * number)%nat /\
      Rabs (particles g - requested o c (rate * (INR (periods * sup) * dt0))) <= INR (length g) / 2.
Proof.
  intros o b kappa radius rate number dt0 sup steps d c Hs Hr Hc Hn Hdt Hsup Hb g.
  destruct (run_additions o b kappa radius rate number dt0 sup c Hs Hr Hc Hn Hdt Hsup Hb (repeat (true, dt0) steps) 0 d) as (A & B). fold g in A, B.
  set (up := fun n => ((n + (sup - 1)) / sup)%nat).
  assert (Hup : forall n, (n <= up n * sup < n + sup)%nat).
  { intros n. unfold up. assert (Q := Nat.div_mod (n + (sup - 1)) sup ltac:(lia)). assert (Q2 := Nat.mod_upper_bound (n + (sup - 1)) sup ltac:(lia)).
    set (q := ((n + (sup - 1)) / sup)%nat) in *. set (r := ((n + (sup - 1)) mod sup)%nat) in *. clearbody q r. nia. }
  assert (HupS : forall n, up (S n) = ((if Nat.eqb (n mod sup) 0 then 1 else 0) + up n)%nat).
  { intros n. assert (Q := Nat.div_mod n sup ltac:(lia)). assert (Q2 := Nat.mod_upper_bound n sup ltac:(lia)).
    assert (U1 := Hup n). assert (U2 := Hup (S n)). set (x := up n) in *. set (y := up (S n)) in *.
    set (q := (n / sup)%nat) in *. set (r := (n mod sup)%nat) in *. clearbody x y q r. clear - Q Q2 U1 U2 Hsup.
    destruct (Nat.eqb_spec r 0) as [->|E].
    - assert (x = q) by nia. assert (y = S q) by nia. lia.
    - assert (x = S q) by nia. assert (y = S q) by nia. lia. }
  assert (G : forall m ctr, (additions sup ctr (repeat (true, dt0) m) + up ctr = up (ctr + m))%nat).
  { clear - HupS. induction m as [|m IH]; intros ctr; cbn [repeat additions andb]; [now rewrite Nat.add_0_r|].
    specialize (IH (S ctr)). rewrite HupS in IH. replace (ctr + S m)%nat with (S ctr + m)%nat by lia. lia. }
  specialize (G steps 0%nat). assert (U0 : up 0%nat = 0%nat) by (unfold up; apply Nat.div_small; lia). rewrite U0, !Nat.add_0_r, Nat.add_0_l in G.
  exists (up steps). rewrite G in A, B. split; [apply Hup|]. split; [exact A|]. rewrite A, !mult_INR. exact B.
Qed.
Print Assumptions C56_never_late.

(** ** counterexamples *)
Definition small : icfg :=
  {| ic_dims := 2; ic_nx := 1; ic_ny := 0; ic_nz := 1; ic_dx := 1; ic_dy := 1; ic_dz := 1;
     ic_x0 := 0; ic_x1 := 1; ic_y0 := 0; ic_y1 := 1; ic_z0 := 0; ic_z1 := 1;
     ic_sd_conc := 1; ic_const_multi := 0; ic_indep := true; ic_factor := []; ic_n_cell := 1;
     ic_rhod := fun _ => 1; ic_dv := fun _ => 1; ic_bin := 1 / 10000 |}.
Definition everywhere : box := {| s_x0 := 0; s_x1 := 1; s_y0 := 0; s_y1 := 1; s_z0 := 0; s_z1 := 1 |}.
Lemma small_set_up : set_up small.
Proof. unfold set_up, small. cbn. repeat split; intros; try lra; tauto. Qed.
Lemma small_in_source : in_source small everywhere 0 = true.
Proof.
  change 0%nat with (ravel 2 0 1 0 0 0). apply (C56_cells small everywhere 0 0 0); [now left|cbn; lra|cbn; lra|cbn; lra| |unfold valid_cell; cbn; lia| ].
  - unfold sensible_box, everywhere. cbn. lra.
  - unfold cell_in_region, centre_within, everywhere, small. cbn. repeat split; try lra; discriminate.
Qed.

(** The timestep used is the one given at initialisation: with a current timestep twice as long half of the particles is added. *)
Theorem C56_variable_timestep_refuted :
  forall d, let l := [(true, 2); (true, 2)] in
  let g := in_cell 0 (src_run small everywhere (6 / 10) (1 / 10000000) 1000 1 1 1 0 l d) in
  requested small 0 (1000 * time_on l) = 4000 /\ Rabs (particles g - 2000) <= 1.
Proof.
  intros d l g. split; [unfold requested, time_on, small; cbn; lra|].
  destruct (run_additions small everywhere (6 / 10) (1 / 10000000) 1000 1 1 1 0 small_set_up ltac:(lra) ltac:(cbn; lia) ltac:(lia) ltac:(lra) ltac:(lia) small_in_source l 0 d) as (_ & B).
  fold g in B. cbn [l additions andb Nat.modulo Nat.divmod Nat.eqb fst snd Nat.sub Nat.add] in B.
  replace (requested small 0 (1000 * (INR 2 * INR 1 * 1))) with 2000 in B by (unfold requested, small; cbn; lra). cbn [INR] in B. lra.
Qed.
Print Assumptions C56_variable_timestep_refuted.

(** A source switched off in the middle of a period and on again starts a new period: here twice as many particles are added. *)
Theorem C56_interrupted_refuted :
  forall d, let l := [(true, 1); (false, 1); (true, 1); (false, 1)] in
  let g := in_cell 0 (src_run small everywhere (6 / 10) (1 / 10000000) 1000 1 1 2 0 l d) in
  requested small 0 (1000 * time_on l) = 2000 /\ Rabs (particles g - 4000) <= 1.
Proof.
  intros d l g. split; [unfold requested, time_on, small; cbn; lra|].
  destruct (run_additions small everywhere (6 / 10) (1 / 10000000) 1000 1 1 2 0 small_set_up ltac:(lra) ltac:(cbn; lia) ltac:(lia) ltac:(lra) ltac:(lia) small_in_source l 0 d) as (_ & B).
  fold g in B. cbn [l additions andb Nat.modulo Nat.divmod Nat.eqb fst snd Nat.sub Nat.add] in B.
  replace (requested small 0 (1000 * (INR 2 * INR 2 * 1))) with 4000 in B by (unfold requested, small; cbn; lra). cbn [INR] in B. lra.
Qed.
Print Assumptions C56_interrupted_refuted.

(** The hypotheses of the theorems above are met. *)
Theorem C56_instance :
  set_up small /\ in_source small everywhere 0 = true /\ smooth_distribution (flat (6 / 10)) (fun x => 300 * x) 0 /\
  whole_periods 1 2 [(true, 1); (true, 1); (false, 3); (true, 1); (true, 1)].
Proof.
  split; [apply small_set_up|]. split; [apply small_in_source|]. split; [apply flat_smooth|].
  apply (wp_on 1 2 [(false, 3); (true, 1); (true, 1)]). apply wp_off. apply (wp_on 1 2 []). apply wp_nil.
Qed.

Print Assumptions C56_instance.
