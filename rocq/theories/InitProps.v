(** * C45: super-droplets created at the start
    C56: sources of aerosol *)
From Coq Require Import List Arith NArith ZArith Reals Bool Lia Lra.
From Verif Require ThermoModel ThermoProofs.
From Verif Require Import Base BaseProofs SpaceModel SpaceProofs GridProps InitModel InitProofs.
Import ListNotations.
Open Scope R_scope.

(** ** Specification *)
(** number of real particles in cell [c] for a concentration [conc] at standard conditions: times the volume of the cell,
    the density of air relative to the standard one, and the profile of concentration *)
Definition requested (o : icfg) (c : nat) (conc : R) : R :=
  conc * ic_dv o c * (if ic_indep o then 1 else ic_rhod o c / rho_stp) *
  (match ic_factor o with [] => 1 | _ => nth (c mod ic_nz o) (ic_factor o) 0 end).

(** a model set up properly: positive sizes and densities, cell volumes and profile not negative, one cell in a parcel *)
Definition set_up (o : icfg) : Prop :=
  0 < ic_dx o /\ 0 < ic_dy o /\ 0 < ic_dz o /\
  (forall c, (c < ic_n_cell o)%nat -> 0 < ic_rhod o c /\ 0 <= ic_dv o c) /\
  (forall x, In x (ic_factor o) -> 0 <= x) /\
  (ic_dims o = 0%nat -> ic_n_cell o = 1%nat).
Definition uniform_draws (d : draws) : Prop :=
  forall k, 0 <= d_r d k < 1 /\ 0 <= d_x d k < 1 /\ 0 <= d_y d k < 1 /\ 0 <= d_z d k < 1.

(** real particles represented by super-droplets *)
Definition particles (l : list csd) : R := N2R (lsumN (map c_n l)).
(** [F] is an antiderivative of the distribution: F b - F a is the concentration with logarithm of radius in [a, b] *)
Definition smooth_distribution (D : distro) (F : R -> R) (L : R) : Prop :=
  0 < di_min D < di_max D /\ 0 <= L /\
  antiderivative_on F (di_f D) (ln (di_min D)) (ln (di_max D)) /\
  lipschitz_on L (di_f D) (ln (di_min D)) (ln (di_max D)) /\
  (forall x, ln (di_min D) <= x <= ln (di_max D) -> 0 <= di_f D x).
Definition concentration (D : distro) (F : R -> R) : R := F (ln (di_max D)) - F (ln (di_min D)).
Definition log_radius (s : csd) : R := ln (c_rd3 s) / 3.

(** ** lemmas *)
Lemma rho_stp_pos : 0 < rho_stp.
Proof.
  unfold rho_stp, p_stp, T_stp. apply Rdiv_lt_0_compat; [lra|apply ThermoProofs.R_d_pos].
Qed.

Definition scale (o : icfg) (c : nat) : R :=
  (if ic_indep o then 1 else ic_rhod o c / rho_stp) * (match ic_factor o with [] => 1 | _ => nth (c mod ic_nz o) (ic_factor o) 0 end).
Lemma requested_scale o c x : requested o c x = x * ic_dv o c * scale o c.
Proof. unfold requested, scale. ring. Qed.
Lemma scale_nonneg o c : set_up o -> (c < ic_n_cell o)%nat -> 0 <= scale o c.
Proof.
  intros (_ & _ & _ & H & Hf & _) Hc. destruct (H c Hc) as (Hr & _). unfold scale. apply Rmult_le_pos.
  - destruct (ic_indep o); [lra|]. apply Rmult_le_pos; [lra|]. left. apply Rinv_0_lt_compat, rho_stp_pos.
  - destruct (ic_factor o) as [|a l] eqn:E; [lra|].
    destruct (lt_dec (c mod ic_nz o) (length (a :: l))) as [Hl|Hl]; [apply Hf, nth_In, Hl|]. rewrite nth_overflow by lia. lra.
Qed.
Lemma conc_to_number_requested o c x : conc_to_number o x c = requested o c x.
Proof. rewrite requested_scale. unfold conc_to_number, profile, scale. destruct (ic_indep o), (ic_factor o); unfold Rdiv; ring. Qed.
Lemma requested_nonneg o c x : set_up o -> (c < ic_n_cell o)%nat -> 0 <= x -> 0 <= requested o c x.
Proof.
  intros Hs Hc Hx. rewrite requested_scale. apply Rmult_le_pos; [|now apply scale_nonneg].
  destruct Hs as (_ & _ & _ & H & _). destruct (H c Hc). now apply Rmult_le_pos.
Qed.

Lemma n_sd_conc_alt o f m c r : n_sd_conc o f m c r =
  truncN (m * scale o c * (if Nat.eqb (ic_dims o) 0 then 1 else ic_dv o c / (ic_dx o * ic_dy o * ic_dz o)) * f (ln r / 3) + 5 / 10).
Proof.
  unfold n_sd_conc, profile, scale. f_equal. f_equal. destruct (ic_indep o), (ic_factor o), (Nat.eqb (ic_dims o) 0); unfold Rdiv; ring.
Qed.

Lemma nth_repeat_lt {A} (a b : A) n i : (i < n)%nat -> nth i (repeat a n) b = a.
Proof. intros H. rewrite nth_indep with (d' := a) by (rewrite repeat_length; exact H). apply nth_repeat. Qed.

(** the particles of one cell of a group created from a distribution *)
Lemma group_particles o D counts kappa d F L c k m W :
  set_up o -> uniform_draws d -> smooth_distribution D F L -> (c < ic_n_cell o)%nat -> length counts = ic_n_cell o ->
  nth c counts 0%nat = k -> (0 < k)%nat ->
  m = W * (ln (di_max D) - ln (di_min D)) / INR k * (if Nat.eqb (ic_dims o) 0 then ic_dv o 0%nat else ic_dx o * ic_dy o * ic_dz o) ->
  0 <= W ->
  let g := make_group o counts kappa (rd3_sd_conc (ln (di_min D)) (ln (di_max D)) counts d) (fun _ c r => n_sd_conc o (di_f D) m c r) d in
  length (in_cell c g) = k /\
  (forall i, (i < k)%nat -> exists s, nth_error (in_cell c g) i = Some s /\
     c_kpa s = kappa /\
     ln (di_min D) + INR i * ((ln (di_max D) - ln (di_min D)) / INR k) <= log_radius s < ln (di_min D) + (INR i + 1) * ((ln (di_max D) - ln (di_min D)) / INR k)) /\
  Rabs (particles (in_cell c g) - W * requested o c (concentration D F)) <=
  INR k / 2 + W * requested o c (L * (ln (di_max D) - ln (di_min D)) ^ 2 / INR k).
Proof.
  intros Hs Hd (Hr & HL & HF & Hlip & Hpos) Hc Hlen Hk Hk0 Hm HW g. subst g.
  rewrite make_group_in_cell by lia. rewrite Hk. set (off := exscan counts c).
  set (lo := ln (di_min D)) in *. set (hi := ln (di_max D)) in *.
  assert (Hlh : lo < hi) by (apply ln_increasing; lra).
  assert (HkR : 0 < INR k) by (apply lt_0_INR; lia).
  set (w := (hi - lo) / INR k). assert (Hw : 0 < w) by (apply Rdiv_lt_0_compat; lra).
  assert (Hrad : forall i, (i < k)%nat -> ln (rd3_sd_conc lo hi counts d (off + i) c) / 3 = lo + (INR i + d_r d (off + i)%nat) * w).
  { intros i Hi. unfold rd3_sd_conc. rewrite ln_exp. unfold lnrd_sd_conc. fold off. rewrite Hk.
    replace (off + i - off)%nat with i by lia. unfold w. field. lra. }
  split; [now rewrite map_length, seq_length|]. split.
  - intros i Hi. exists (sd_of o kappa (rd3_sd_conc lo hi counts d) (fun _ c r => n_sd_conc o (di_f D) m c r) d c (off + i)).
    split; [|split].
    + rewrite nth_error_map. rewrite nth_error_nth' with (d := 0%nat) by (now rewrite seq_length). rewrite seq_nth by exact Hi. reflexivity.
    + apply sd_of_kpa.
    + unfold log_radius. rewrite sd_of_rd3, Hrad by exact Hi. destruct (Hd (off + i)%nat) as ((U0 & U1) & _).
      assert (0 <= d_r d (off + i)%nat * w) by (apply Rmult_le_pos; lra).
      assert (d_r d (off + i)%nat * w < 1 * w) by (apply Rmult_lt_compat_r; lra). lra.
  - unfold particles. rewrite N2R_lsumN, !map_map.
    assert (E : lsumR (map (fun x => N2R (c_n (sd_of o kappa (rd3_sd_conc lo hi counts d) (fun _ c r => n_sd_conc o (di_f D) m c r) d c x))) (seq off k)) =
      sumR k (fun i => N2R (truncN (W * w * (ic_dv o c * scale o c) * di_f D (lo + (INR i + d_r d (off + i)%nat) * w) + 5 / 10)))).
    { rewrite lsumR_map_seq. apply sumR_ext. intros i Hi. rewrite sd_of_n. rewrite n_sd_conc_alt, Hrad by exact Hi. f_equal. f_equal. f_equal. f_equal.
      rewrite Hm. unfold w. destruct Hs as (X & Y & Z & _ & _ & H0). destruct (Nat.eqb_spec (ic_dims o) 0) as [E0|E0].
      - assert (c = 0)%nat by (rewrite (H0 E0) in Hc; lia). subst c. field. lra.
      - field. repeat split; lra. }
    rewrite E. clear E.
    assert (Hend : lo + INR k * w = hi) by (unfold w; field; lra).
    assert (HA : 0 <= W * w * (ic_dv o c * scale o c)).
    { apply Rmult_le_pos; [apply Rmult_le_pos; lra|]. apply Rmult_le_pos; [|now apply scale_nonneg].
      destruct Hs as (_ & _ & _ & H & _). now apply H. }
    assert (Q := rounded_sum F (di_f D) L lo w k (fun i => lo + (INR i + d_r d (off + i)%nat) * w) (W * w * (ic_dv o c * scale o c)) Hw HL HA).
    rewrite Hend in Q. specialize (Q HF Hlip Hpos).
    assert (Hin : forall i, (i < k)%nat -> lo + INR i * w <= lo + (INR i + d_r d (off + i)%nat) * w <= lo + (INR i + 1) * w).
    { intros i Hi. destruct (Hd (off + i)%nat) as ((U0 & U1) & _).
      assert (0 <= d_r d (off + i)%nat * w) by (apply Rmult_le_pos; lra).
      assert (d_r d (off + i)%nat * w < 1 * w) by (apply Rmult_lt_compat_r; lra). lra. }
    specialize (Q Hin). rewrite !requested_scale.
    replace (W * (concentration D F * ic_dv o c * scale o c)) with (W * w * (ic_dv o c * scale o c) / w * (F hi - F lo)) by (unfold concentration; fold hi lo; field; lra).
    replace (W * (L * (hi - lo) ^ 2 / INR k * ic_dv o c * scale o c)) with (W * w * (ic_dv o c * scale o c) / w * (INR k * (L * w * w))) by (unfold w; field; lra).
    exact Q.
Qed.

Lemma truncN_N2R n : truncN (N2R n) = n.
Proof. apply truncN_unique. lra. Qed.
Lemma truncN_N2R_half n : truncN (N2R n + 5 / 10) = n.
Proof. apply truncN_unique. lra. Qed.

Lemma init_all_nth o tot : forall l d gs j D, init_all_sd_conc o tot l d = Some gs -> nth_error l j = Some D ->
  exists g, nth_error gs j = Some g /\ init_sd_conc o tot D (d j) = Some g.
Proof.
  induction l as [|E l IH]; intros d gs j D H Hj; [destruct j; discriminate|]. cbn [init_all_sd_conc] in H.
  destruct (init_sd_conc o tot E (d 0%nat)) as [g|] eqn:Eg; [|discriminate].
  destruct (init_all_sd_conc o tot l (fun i => d (S i))) as [gs'|] eqn:Egs; [|discriminate]. injection H as <-.
  destruct j as [|j]; cbn [nth_error] in Hj.
  - injection Hj as <-. exists g. auto.
  - destruct (IH _ _ j D Egs Hj) as (g' & A & B). exists g'. auto.
Qed.

Lemma sd_conc_share o tot D d F L c k q :
  set_up o -> uniform_draws d -> smooth_distribution D F L -> (c < ic_n_cell o)%nat ->
  0 < tot -> di_range D * N2R (ic_sd_conc o) = N2R k * tot -> (ic_sd_conc o = k * q)%N -> (0 < k)%N -> (0 < q)%N ->
  exists g, init_sd_conc o tot D d = Some g /\
  length (in_cell c g) = N.to_nat k /\
  (forall i, (i < N.to_nat k)%nat -> exists s, nth_error (in_cell c g) i = Some s /\
     c_kpa s = di_kappa D /\
     ln (di_min D) + INR i * (di_range D / N2R k) <= log_radius s < ln (di_min D) + (INR i + 1) * (di_range D / N2R k)) /\
  Rabs (particles (in_cell c g) - requested o c (concentration D F)) <=
  N2R k / 2 + requested o c (L * di_range D ^ 2 / N2R k).
Proof.
  intros Hs Hd HD Hc Htot Hfr Hsd Hk Hq. unfold init_sd_conc. assert (HD' := HD). destruct HD' as (Hr & _).
  assert (Hlh : ln (di_min D) < ln (di_max D)) by (apply ln_increasing; lra).
  destruct (Rleb _ _) eqn:E; [apply Rleb_true in E; lra|]. clear E.
  fold (di_range D). assert (Hfk : di_range D / tot * N2R (ic_sd_conc o) = N2R k).
  { replace (di_range D / tot * N2R (ic_sd_conc o)) with (di_range D * N2R (ic_sd_conc o) / tot) by (field; lra). rewrite Hfr. field. lra. }
  rewrite Hfk, truncN_N2R, truncN_N2R_half. destruct (N.eqb_spec k 0) as [E|_]; [lia|].
  eexists. split; [reflexivity|].
  set (counts := repeat (N.to_nat k) (ic_n_cell o)).
  assert (Hk0 : 0 < N2R k) by (change 0 with (N2R 0); now apply N2R_lt).
  assert (Hq0 : 0 < N2R q) by (change 0 with (N2R 0); now apply N2R_lt).
  assert (Hdiv : (ic_sd_conc o / k = q)%N) by (rewrite Hsd, N.mul_comm; apply N.div_mul; lia).
  assert (Q := group_particles o D counts (di_kappa D) d F L c (N.to_nat k)
     (analysis_multiplier o (ic_sd_conc o) 1 (di_min D) (di_max D) * N2R (ic_sd_conc o / k)) 1 Hs Hd HD Hc).
  rewrite N2R_to_nat, !Rmult_1_l in Q. unfold di_range in *. apply Q.
  - unfold counts. apply repeat_length.
  - unfold counts. now apply nth_repeat_lt.
  - lia.
  - rewrite Hdiv. unfold analysis_multiplier. rewrite Hsd, N2R_mult.
    replace (ln (di_max D / di_min D)) with (ln (di_max D) - ln (di_min D)) by (unfold Rdiv; rewrite ln_mult, ln_Rinv; try lra; apply Rinv_0_lt_compat; lra).
    set (V := if Nat.eqb (ic_dims o) 0 then _ else _). clearbody V. field. lra.
  - lra.
Qed.

(** ** C45 *)
(** One distribution: every cell gets exactly sd_conc super-droplets, one in each of sd_conc equal intervals of the logarithm
    of radius, and the real particles they represent are the requested ones up to rounding of each multiplicity by at most
    one half and up to the width of the intervals. *)
Theorem C45_one_distribution :
  forall o D d F L c,
    set_up o -> uniform_draws (d 0%nat) -> smooth_distribution D F L -> (0 < ic_sd_conc o)%N -> (c < ic_n_cell o)%nat ->
    let sd := ic_sd_conc o in
    exists g, init_with_distros o [D] d = Some [g] /\
      length (in_cell c g) = N.to_nat sd /\
      (forall i, (i < N.to_nat sd)%nat -> exists s, nth_error (in_cell c g) i = Some s /\ c_kpa s = di_kappa D /\
         ln (di_min D) + INR i * (di_range D / N2R sd) <= log_radius s < ln (di_min D) + (INR i + 1) * (di_range D / N2R sd)) /\
      Rabs (particles (in_cell c g) - requested o c (concentration D F)) <=
      N2R sd / 2 + requested o c (L * di_range D ^ 2 / N2R sd).
Proof.
  intros o D d F L c Hs Hd HD Hsd Hc sd. assert (HD' := HD). destruct HD' as (Hr & _).
  assert (Hlh : ln (di_min D) < ln (di_max D)) by (apply ln_increasing; lra).
  destruct (sd_conc_share o (tot_lnrd_rng [D]) D (d 0%nat) F L c sd 1 Hs Hd HD Hc) as (g & Hg & Q).
  - unfold tot_lnrd_rng, di_range. cbn [fold_left]. unfold di_range. lra.
  - unfold tot_lnrd_rng. cbn [fold_left]. unfold sd. ring.
  - unfold sd. lia.
  - exact Hsd.
  - lia.
  - exists g. split; [|exact Q]. unfold init_with_distros. cbn [init_all_sd_conc]. now rewrite Hg.
Qed.
Print Assumptions C45_one_distribution.

(** Several distributions: the same for each of them, provided its share of the super-droplets (in proportion to its range
    of logarithms of radii) is a whole number [k] of which sd_conc is a multiple. The proviso is needed, see below. *)
Theorem C45_several_distributions_partial :
  forall o l d gs j D F L c k q,
    set_up o -> (forall i, uniform_draws (d i)) -> smooth_distribution D F L -> (c < ic_n_cell o)%nat ->
    nth_error l j = Some D -> init_with_distros o l d = Some gs ->
    0 < lsumR (map di_range l) ->
    di_range D * N2R (ic_sd_conc o) = N2R k * lsumR (map di_range l) -> (ic_sd_conc o = k * q)%N -> (0 < k)%N -> (0 < q)%N ->
    exists g, nth_error gs j = Some g /\
      length (in_cell c g) = N.to_nat k /\
      Rabs (particles (in_cell c g) - requested o c (concentration D F)) <=
      N2R k / 2 + requested o c (L * di_range D ^ 2 / N2R k).
Proof.
  intros o l d gs j D F L c k q Hs Hd HD Hc Hj Hgs Htot Hfr Hsd Hk Hq.
  assert (Et : tot_lnrd_rng l = lsumR (map di_range l)).
  { unfold tot_lnrd_rng. assert (G : forall m x, fold_left (fun s E => s + di_range E) m x = x + lsumR (map di_range m)).
    { induction m as [|E m IH]; intros x; cbn [fold_left map lsumR fold_right]; [lra|]. rewrite IH. fold (lsumR (map di_range m)). lra. }
    rewrite G. lra. }
  unfold init_with_distros in Hgs. rewrite Et in Hgs. destruct (init_all_nth _ _ _ _ _ _ _ Hgs Hj) as (g & Hg & Hi).
  destruct (sd_conc_share o (lsumR (map di_range l)) D (d j) F L c k q) as (g' & Hg' & Hlen & _ & Hp); auto.
  rewrite Hi in Hg'. injection Hg' as <-. exists g. auto.
Qed.
Print Assumptions C45_several_distributions_partial.

(** Constant multiplicity: the real particles in a cell are the requested ones up to half of the multiplicity, and all dry radii
    are within the range of the distribution. *)
Theorem C45_const_multi :
  forall o D multi d c,
    set_up o -> uniform_draws d -> 0 < di_min D < di_max D -> 0 < ic_bin o -> (0 < multi)%N -> (c < ic_n_cell o)%nat ->
    (forall x, ln (di_min D) <= x <= ln (di_max D) -> 0 < di_f D x) ->
    let conc := integrate (di_f D) (ln (di_min D)) (ln (di_max D)) (ic_bin o) in
    exists g, init_const_multi o D multi d = Some g /\
      (forall s, In s (in_cell c g) -> c_n s = multi /\ c_kpa s = di_kappa D /\ ln (di_min D) <= log_radius s <= ln (di_max D)) /\
      Rabs (particles (in_cell c g) - requested o c conc) <= N2R multi / 2.
Proof.
  intros o D multi d c Hs Hd Hr Hb Hm Hc Hf conc. unfold init_const_multi.
  assert (Hlh : ln (di_min D) < ln (di_max D)) by (apply ln_increasing; lra).
  set (lo := ln (di_min D)) in *. set (hi := ln (di_max D)) in *.
  destruct (Rleb hi lo) eqn:E; [apply Rleb_true in E; lra|]. clear E. eexists. split; [reflexivity|].
  fold conc. set (counts := counts_const_multi o conc multi).
  assert (Hlen : length counts = ic_n_cell o) by (unfold counts, counts_const_multi; now rewrite map_length, seq_length).
  rewrite make_group_in_cell by lia.
  assert (Hn : nth c counts 0%nat = N.to_nat (truncN (requested o c conc / N2R multi + 5 / 10))).
  { unfold counts, counts_const_multi. rewrite (nth_map_lt _ _ _ 0%nat) by (now rewrite seq_length). rewrite seq_nth by exact Hc.
    now rewrite conc_to_number_requested. }
  assert (Hm0 : 0 < N2R multi) by (change 0 with (N2R 0); now apply N2R_lt).
  assert (Hconc : 0 <= conc).
  { unfold conc, integrate. apply Rmult_le_pos; [|lra]. apply Rplus_le_le_0_compat.
    - assert (A := Hf lo ltac:(lra)). assert (B := Hf hi ltac:(lra)). lra.
    - apply sumR_nonneg. intros i Hi. left. apply Hf.
      assert (T0 : 0 <= (hi - lo) / ic_bin o) by (apply Rmult_le_pos; [lra|left; now apply Rinv_0_lt_compat]).
      assert (HT : INR (Z.to_nat (truncZ ((hi - lo) / ic_bin o))) <= (hi - lo) / ic_bin o).
      { unfold truncZ. destruct (Rle_dec 0 _); [|lra]. destruct (base_Int_part ((hi - lo) / ic_bin o)) as (A & B).
        rewrite INR_IZR_INZ. assert (0 <= Int_part ((hi - lo) / ic_bin o))%Z.
        { apply le_IZR. apply Rnot_lt_le. intros X. assert (Y : (Int_part ((hi - lo) / ic_bin o) <= -1)%Z) by (apply lt_IZR in X; lia).
          apply IZR_le in Y. lra. }
        rewrite Z2Nat.id by assumption. lra. }
      assert (HSi : INR (S i) <= (hi - lo) / ic_bin o) by (eapply Rle_trans; [|exact HT]; apply le_INR; lia).
      assert (INR (S i) * ic_bin o <= (hi - lo) / ic_bin o * ic_bin o) by (apply Rmult_le_compat_r; lra).
      replace ((hi - lo) / ic_bin o * ic_bin o) with (hi - lo) in H by (field; lra).
      assert (0 <= INR (S i) * ic_bin o) by (apply Rmult_le_pos; [apply pos_INR|lra]). lra. }
  split.
  - intros s Hin. apply in_map_iff in Hin as (k & <- & Hk). rewrite sd_of_n, sd_of_kpa. repeat split; auto.
    + unfold log_radius. rewrite sd_of_rd3. unfold rd3_const_multi. rewrite ln_exp.
      pose proof (pos_INR (upper_bound_from (cdf (di_f D) lo hi (ic_bin o)) (d_r d k) 0 (cdf_points lo hi (ic_bin o)))).
      assert (0 <= INR (upper_bound_from (cdf (di_f D) lo hi (ic_bin o)) (d_r d k) 0 (cdf_points lo hi (ic_bin o))) * ic_bin o) by (apply Rmult_le_pos; lra). lra.
    + unfold log_radius. rewrite sd_of_rd3. unfold rd3_const_multi. rewrite ln_exp.
      set (np := cdf_points lo hi (ic_bin o)). set (G := cdf (di_f D) lo hi (ic_bin o)).
      assert (T0 : 0 <= (hi - lo) / ic_bin o) by (apply Rmult_le_pos; [lra|left; now apply Rinv_0_lt_compat]).
      assert (Hnp : (0 < np)%nat /\ INR np <= (hi - lo) / ic_bin o + 1).
      { unfold np, cdf_points. destruct (truncN_spec ((hi - lo) / ic_bin o + 1)) as (A & B); [lra|].
        split; [|exact A]. apply INR_lt. change (INR 0) with 0. lra. }
      assert (Hlast : d_r d k < G (np - 1)%nat).
      { unfold G, cdf. fold np. cbv zeta. unfold Rdiv. rewrite Rinv_r; [apply Hd|].
        apply Rgt_not_eq. cbn [sumR]. apply Rplus_le_lt_0_compat.
        - apply sumR_nonneg. intros i Hi. left. apply Hf.
          assert (0 <= ic_bin o * INR i) by (apply Rmult_le_pos; [lra|apply pos_INR]).
          assert (INR i + 1 <= INR np) by (rewrite <- S_INR; apply le_INR; lia).
          assert (ic_bin o * INR i <= ic_bin o * ((hi - lo) / ic_bin o)) by (apply Rmult_le_compat_l; lra).
          replace (ic_bin o * ((hi - lo) / ic_bin o)) with (hi - lo) in * by (field; lra). lra.
        - apply Hf. assert (0 <= ic_bin o * INR (np - 1)) by (apply Rmult_le_pos; [lra|apply pos_INR]).
          assert (INR (np - 1) + 1 <= INR np) by (rewrite <- S_INR; apply le_INR; lia).
          assert (ic_bin o * INR (np - 1) <= ic_bin o * ((hi - lo) / ic_bin o)) by (apply Rmult_le_compat_l; lra).
          replace (ic_bin o * ((hi - lo) / ic_bin o)) with (hi - lo) in * by (field; lra). lra. }
      assert (Hub : forall n i, (i <= np - 1 < i + n)%nat -> (upper_bound_from G (d_r d k) i n <= np - 1)%nat).
      { induction n as [|n IH]; intros i Hi; [lia|]. cbn [upper_bound_from]. destruct (Rltb (d_r d k) (G i)) eqn:E; [lia|].
        apply IH. apply Rltb_false in E. destruct (Nat.eq_dec i (np - 1)) as [->|]; [lra|lia]. }
      specialize (Hub np 0%nat ltac:(lia)). fold G np. apply le_INR in Hub.
      assert (INR (np - 1) + 1 <= INR np) by (rewrite <- S_INR; apply le_INR; lia).
      assert (INR (upper_bound_from G (d_r d k) 0 np) * ic_bin o <= (hi - lo) / ic_bin o * ic_bin o) by (apply Rmult_le_compat_r; lra).
      replace ((hi - lo) / ic_bin o * ic_bin o) with (hi - lo) in * by (field; lra). lra.
  - unfold particles. rewrite N2R_lsumN, !map_map, lsumR_map_seq. rewrite (sumR_ext _ _ (fun _ => N2R multi)) by (intros; now rewrite sd_of_n).
    rewrite sumR_const, Hn, N2R_to_nat. set (x := requested o c conc). assert (Hx : 0 <= x) by now apply requested_nonneg.
    assert (Hxm : 0 <= x / N2R multi) by (apply Rmult_le_pos; [lra|left; now apply Rinv_0_lt_compat]).
    assert (Q := round_half _ Hxm). replace (N2R (truncN (x / N2R multi + 5 / 10)) * N2R multi - x) with
      ((N2R (truncN (x / N2R multi + 5 / 10)) - x / N2R multi) * N2R multi) by (field; lra).
    rewrite Rabs_mult, (Rabs_pos_eq (N2R multi)) by lra. assert (Y := Rmult_le_compat_r (N2R multi) _ _ ltac:(lra) Q). lra.
Qed.
Print Assumptions C45_const_multi.

(** Given dry sizes: the number of super-droplets asked for, of that size, representing the requested particles up to one half
    for each. *)
Theorem C45_dry_size :
  forall o kappa radius conc count d c,
    set_up o -> 0 <= conc -> (0 < count)%nat -> (c < ic_n_cell o)%nat ->
    let g := init_dry_size o kappa radius conc count d in
    length (in_cell c g) = count /\
    (forall s, In s (in_cell c g) -> c_rd3 s = radius ^ 3 /\ c_kpa s = kappa) /\
    Rabs (particles (in_cell c g) - requested o c conc) <= INR count / 2.
Proof.
  intros o kappa radius conc count d c Hs Hconc Hcount Hc g. unfold g, init_dry_size.
  rewrite make_group_in_cell by (now rewrite repeat_length). rewrite nth_repeat_lt by exact Hc.
  split; [now rewrite map_length, seq_length|]. split.
  - intros s Hin. apply in_map_iff in Hin as (k & <- & Hk). rewrite sd_of_rd3, sd_of_kpa. split; [ring|reflexivity].
  - unfold particles. rewrite N2R_lsumN, !map_map, lsumR_map_seq.
    rewrite (sumR_ext _ _ (fun _ => N2R (n_dry_sizes o conc count c))) by (intros; now rewrite sd_of_n).
    rewrite sumR_const. unfold n_dry_sizes. rewrite conc_to_number_requested. set (x := requested o c conc).
    assert (Hx : 0 <= x) by now apply requested_nonneg. assert (Hk0 : 0 < INR count) by (now apply lt_0_INR).
    assert (Hxm : 0 <= x / INR count) by (apply Rmult_le_pos; [lra|left; now apply Rinv_0_lt_compat]).
    assert (Q := round_half _ Hxm). replace (INR count * N2R (truncN (x / INR count + 5 / 10)) - x) with
      ((N2R (truncN (x / INR count + 5 / 10)) - x / INR count) * INR count) by (field; lra).
    rewrite Rabs_mult, (Rabs_pos_eq (INR count)) by lra. assert (Y := Rmult_le_compat_r (INR count) _ _ ltac:(lra) Q). lra.
Qed.
Print Assumptions C45_dry_size.

(** The concentration used for constant multiplicity is the integral of the distribution up to the size of the bins. *)
Theorem C45_integral :
  forall f F L M a b bin,
    a < b -> 0 < bin -> 0 <= L -> antiderivative_on F f a b -> lipschitz_on L f a b -> (forall x, a <= x <= b -> 0 <= f x <= M) ->
    Rabs (integrate f a b bin - (F b - F a)) <= L * bin * (b - a + bin) / 2 + M * bin.
Proof.
  intros f F L M a b bin Hab Hb HL HF Hlip HM. unfold integrate.
  assert (T0 : 0 <= (b - a) / bin) by (apply Rmult_le_pos; [lra|left; now apply Rinv_0_lt_compat]).
  destruct (truncZ_nonneg _ T0) as [[H1 H2] H3]. set (t := truncZ ((b - a) / bin)) in *.
  set (n := Z.to_nat t). assert (Et : INR n = IZR t) by (unfold n; rewrite INR_IZR_INZ, Z2Nat.id; auto).
  rewrite <- Et in H1, H2. clearbody n. clear Et t H3.
  assert (E : b - a = (b - a) / bin * bin) by (field; lra).
  assert (N1 : INR n * bin <= b - a) by (rewrite E; apply Rmult_le_compat_r; lra).
  assert (N2 : b - a < (INR n + 1) * bin) by (rewrite E; apply Rmult_lt_compat_r; lra).
  assert (M0 : 0 <= M) by (specialize (HM a ltac:(lra)); lra).
  assert (Hmean : forall x y, a <= x -> x <= y -> y <= b -> exists e, F y - F x = f e * (y - x) /\ x <= e <= y).
  { intros x y X1 X2 X3. destruct (Rle_lt_or_eq_dec _ _ X2) as [Hlt| ->].
    - destruct (mean_value F f x y Hlt) as (e & He & Hr); [intros z Hz; apply HF; lra|]. exists e. split; [exact He|lra].
    - exists y. split; [ring|lra]. }
  (* the leftover *)
  destruct (Hmean (a + INR n * bin) b) as (e0 & He0 & Hr0).
  { pose proof (pos_INR n). assert (0 <= INR n * bin) by (apply Rmult_le_pos; lra). lra. } { lra. } { lra. }
  pose proof (pos_INR n) as Hn0. assert (Hnb : 0 <= INR n * bin) by (apply Rmult_le_pos; lra).
  assert (Left : 0 <= F b - F (a + INR n * bin) <= M * bin).
  { rewrite He0. assert (Q := HM e0 ltac:(lra)). split; [apply Rmult_le_pos; lra|]. apply Rmult_le_compat; lra. }
  destruct n as [|n].
  { cbn [INR Nat.sub sumR] in *. rewrite Rmult_0_l, Rplus_0_r in Left, Hr0.
    assert (A := HM a ltac:(lra)). assert (B := HM b ltac:(lra)).
    assert (0 <= (f a + f b) / 2 * bin <= M * bin) by (split; [apply Rmult_le_pos; lra|apply Rmult_le_compat_r; lra]).
    assert (0 <= L * bin * (b - a + bin) / 2).
    { apply Rmult_le_pos; [|lra]. apply Rmult_le_pos; [apply Rmult_le_pos|]; lra. }
    replace (((f a + f b) / 2 + 0) * bin) with ((f a + f b) / 2 * bin) by ring. apply Rabs_le. lra. }
  replace (S n - 1)%nat with n by lia.
  set (g := fun i => f (a + INR i * bin)).
  assert (Hsum : forall m, (f a + g (S m)) / 2 + sumR m (fun i => f (a + INR (S i) * bin)) = sumR (S m) (fun i => (g i + g (S i)) / 2)).
  { assert (Hg0 : g 0%nat = f a) by (unfold g; f_equal; cbn [INR]; ring).
    induction m as [|m IH]; [cbn [sumR]; rewrite Hg0; lra|].
    change (sumR (S (S m)) (fun i => (g i + g (S i)) / 2)) with (sumR (S m) (fun i => (g i + g (S i)) / 2) + (g (S m) + g (S (S m))) / 2).
    rewrite <- IH. change (sumR (S m) (fun i => f (a + INR (S i) * bin))) with (sumR m (fun i => f (a + INR (S i) * bin)) + g (S m)). lra. }
  assert (Hpt : forall i, (i <= S n)%nat -> a <= a + INR i * bin <= b).
  { intros i Hi. assert (INR i <= INR (S n)) by (apply le_INR; lia). pose proof (pos_INR i).
    assert (0 <= INR i * bin) by (apply Rmult_le_pos; lra). assert (INR i * bin <= INR (S n) * bin) by (apply Rmult_le_compat_r; lra). lra. }
  assert (Htrap : Rabs (sumR (S n) (fun i => bin * ((g i + g (S i)) / 2)) - (F (a + INR (S n) * bin) - F a)) <= INR (S n) * (L * bin * bin / 2)).
  { replace (F (a + INR (S n) * bin) - F a) with (sumR (S n) (fun i => F (a + INR (S i) * bin) - F (a + INR i * bin))).
    2:{ clear. generalize (S n). intros m. induction m as [|m IH]; [cbn; replace (a + 0 * bin) with a by ring; ring|]. cbn [sumR]. rewrite IH. ring. }
    apply sumR_abs_diff. intros i Hi.
    assert (Pi := Hpt i ltac:(lia)). assert (PSi := Hpt (S i) ltac:(lia)).
    assert (Hstep : a + INR (S i) * bin = a + INR i * bin + bin) by (rewrite S_INR; ring).
    destruct (Hmean (a + INR i * bin) (a + INR (S i) * bin)) as (e & He & Hr); [lra|rewrite Hstep; lra|lra|].
    rewrite He. replace (a + INR (S i) * bin - (a + INR i * bin)) with bin by (rewrite Hstep; ring).
    unfold g. set (x := a + INR i * bin) in *. rewrite Hstep in *.
    assert (Q1 := Hlip x e ltac:(lra) ltac:(lra)). assert (Q2 := Hlip (x + bin) e ltac:(lra) ltac:(lra)).
    rewrite (Rabs_left1 (x - e)) in Q1 by lra. rewrite (Rabs_pos_eq (x + bin - e)) in Q2 by lra.
    replace (bin * ((f x + f (x + bin)) / 2) - f e * bin) with (bin / 2 * ((f x - f e) + (f (x + bin) - f e))) by field.
    rewrite Rabs_mult, (Rabs_pos_eq (bin / 2)) by lra.
    assert (Rabs (f x - f e + (f (x + bin) - f e)) <= L * bin).
    { eapply Rle_trans; [apply Rabs_triang|]. replace (L * bin) with (L * - (x - e) + L * (x + bin - e)) by ring. lra. }
    apply Rle_trans with (bin / 2 * (L * bin)); [apply Rmult_le_compat_l; lra|lra]. }
  (* the last point *)
  assert (Pn := Hpt (S n) ltac:(lia)).
  assert (Last : Rabs (bin / 2 * (f b - g (S n))) <= L * bin * bin / 2).
  { rewrite Rabs_mult, (Rabs_pos_eq (bin / 2)) by lra. unfold g. assert (Q := Hlip b (a + INR (S n) * bin) ltac:(lra) ltac:(lra)).
    rewrite (Rabs_pos_eq (b - _)) in Q by lra.
    assert (L * (b - (a + INR (S n) * bin)) <= L * bin) by (apply Rmult_le_compat_l; lra).
    apply Rle_trans with (bin / 2 * (L * bin)); [apply Rmult_le_compat_l; lra|lra]. }
  rewrite sumR_scal in Htrap. rewrite <- (Hsum n) in Htrap.
  set (S0 := sumR n (fun i => f (a + INR (S i) * bin))) in *. set (T1 := F (a + INR (S n) * bin) - F a) in *.
  set (T2 := F b - F (a + INR (S n) * bin)) in *.
  replace (((f a + f b) / 2 + S0) * bin - (F b - F a)) with
    ((bin * ((f a + g (S n)) / 2 + S0) - T1) + bin / 2 * (f b - g (S n)) - T2) by (unfold T1, T2; field).
  assert (B : INR (S n) * (L * bin * bin / 2) <= L * bin * (b - a) / 2).
  { replace (INR (S n) * (L * bin * bin / 2)) with (L * bin / 2 * (INR (S n) * bin)) by field.
    replace (L * bin * (b - a) / 2) with (L * bin / 2 * (b - a)) by field. apply Rmult_le_compat_l; [|lra].
    apply Rmult_le_pos; [apply Rmult_le_pos|]; lra. }
  apply Rabs_le. apply Rabs_def2_le in Htrap || idtac.
  assert (X1 := Rle_abs (bin * ((f a + g (S n)) / 2 + S0) - T1)). assert (X2 := Rle_abs (- (bin * ((f a + g (S n)) / 2 + S0) - T1))). rewrite Rabs_Ropp in X2.
  assert (Y1 := Rle_abs (bin / 2 * (f b - g (S n)))). assert (Y2 := Rle_abs (- (bin / 2 * (f b - g (S n))))). rewrite Rabs_Ropp in Y2.
  lra.
Qed.
Print Assumptions C45_integral.

(** *** positions *)
(** everything which creates super-droplets *)
Inductive created (o : icfg) : list csd -> draws -> Prop :=
| cr_distro tot D d g : init_sd_conc o tot D d = Some g -> created o g d
| cr_multi D multi d g : init_const_multi o D multi d = Some g -> created o g d
| cr_size kappa radius conc count d : created o (init_dry_size o kappa radius conc count d) d
| cr_src b D number sup_dt d : created o (src_simple o b D number sup_dt d) d
| cr_src_size b kappa radius rate number sup_dt d : created o (src_size o b kappa radius rate number sup_dt d) d.

Lemma created_group o g d : created o g d ->
  exists counts kappa rd3 n, g = make_group o counts kappa rd3 n d /\ length counts = ic_n_cell o.
Proof.
  intros [tot D d' g' H|D multi d' g' H|kappa radius conc count d'|b D number sup_dt d'|b kappa radius rate number sup_dt d'].
  - unfold init_sd_conc in H. destruct (Rleb _ _); [discriminate|]. destruct (N.eqb _ 0); [discriminate|]. injection H as <-.
    eexists _, _, _, _. split; [reflexivity|]. apply repeat_length.
  - unfold init_const_multi in H. destruct (Rleb _ _); [discriminate|]. injection H as <-.
    eexists _, _, _, _. split; [reflexivity|]. unfold counts_const_multi. now rewrite map_length, seq_length.
  - eexists _, _, _, _. split; [reflexivity|]. apply repeat_length.
  - eexists _, _, _, _. split; [reflexivity|]. unfold counts_src. now rewrite map_length, seq_length.
  - eexists _, _, _, _. split; [reflexivity|]. unfold counts_src. now rewrite map_length, seq_length.
Qed.

(** the interval of cell [i] meets the domain [p0, p1) *)
Definition meets (p0 p1 dp : R) (i : nat) : Prop := Rmax p0 (INR i * dp) < Rmin p1 ((INR i + 1) * dp).
Definition inside (p0 p1 dp : R) (i : nat) (x : R) : Prop := p0 <= x < p1 /\ INR i * dp <= x < (INR i + 1) * dp.

Lemma pos_inside p0 p1 dp u i : 0 <= u < 1 -> meets p0 p1 dp i -> inside p0 p1 dp i (pos_in_cell p0 p1 dp u i).
Proof.
  unfold meets, inside, pos_in_cell. rewrite cmin_Rmin, cmax_Rmax. intros Hu Hm.
  pose proof (Rmax_l p0 (INR i * dp)). pose proof (Rmax_r p0 (INR i * dp)).
  pose proof (Rmin_l p1 ((INR i + 1) * dp)). pose proof (Rmin_r p1 ((INR i + 1) * dp)).
  set (lo := Rmax _ _) in *. set (hi := Rmin _ _) in *. clearbody lo hi.
  assert (0 <= u * (hi - lo)) by (apply Rmult_le_pos; lra).
  assert (u * (hi - lo) < 1 * (hi - lo)) by (apply Rmult_lt_compat_r; lra). lra.
Qed.

Lemma inside_coord p0 p1 dp i x : 0 < dp -> inside p0 p1 dp i x -> cell_coord dp x = i.
Proof.
  intros Hd (_ & H). destruct (cell_coord_spec dp x (S i) Hd) as (_ & H').
  { rewrite S_INR. pose proof (pos_INR i). assert (0 <= INR i * dp) by (apply Rmult_le_pos; lra). lra. }
  eapply span_unique; [exact Hd|exact H'|exact H].
Qed.

(** Super-droplets created for a cell which meets the domain are inside both that cell and the domain, and the library finds
    them in that cell. *)
Theorem C45_positions :
  forall o g d c i j k,
    created o g d -> uniform_draws d -> set_up o -> grid_dims (ic_dims o) (ic_nx o) (ic_ny o) (ic_nz o) ->
    ic_n_cell o = n_cell (ic_nx o) (ic_ny o) (ic_nz o) ->
    valid_cell (ic_dims o) (ic_nx o) (ic_ny o) (ic_nz o) i j k -> c = ravel (ic_dims o) (ic_ny o) (ic_nz o) i j k ->
    ((1 <= ic_dims o)%nat -> meets (ic_x0 o) (ic_x1 o) (ic_dx o) i) ->
    ((3 <= ic_dims o)%nat -> meets (ic_y0 o) (ic_y1 o) (ic_dy o) j) ->
    ((2 <= ic_dims o)%nat -> meets (ic_z0 o) (ic_z1 o) (ic_dz o) k) ->
    forall s, In s g -> c_cell s = c ->
      ((1 <= ic_dims o)%nat -> inside (ic_x0 o) (ic_x1 o) (ic_dx o) i (c_x s)) /\
      ((3 <= ic_dims o)%nat -> inside (ic_y0 o) (ic_y1 o) (ic_dy o) j (c_y s)) /\
      ((2 <= ic_dims o)%nat -> inside (ic_z0 o) (ic_z1 o) (ic_dz o) k (c_z s)) /\
      hskpng_ijk (ic_dims o) (ic_ny o) (ic_nz o) (ic_dx o) (ic_dy o) (ic_dz o) (c_x s) (c_y s) (c_z s) = c.
Proof.
  intros o g d c i j k Hcr Hd Hs HG HN Hv Hc Mx My Mz s Hin Hcell.
  destruct (created_group o g d Hcr) as (counts & kappa & rd3 & n & -> & Hlen).
  destruct (C10_numbering_bijective _ _ _ _ HG) as [HB _]. destruct (HB i j k Hv) as (Hlt & Hun). rewrite <- Hc in Hlt, Hun.
  assert (Hin' : In s (in_cell c (make_group o counts kappa rd3 n d))).
  { apply filter_In. split; [exact Hin|]. now apply Nat.eqb_eq. }
  rewrite make_group_in_cell in Hin' by (rewrite Hlen, HN; exact Hlt). apply in_map_iff in Hin' as (m & <- & _).
  assert (P := sd_of_pos o kappa rd3 n d c m). unfold position in P. rewrite Hun in P.
  set (t := sd_of o kappa rd3 n d c m) in *. clearbody t. injection P as Px Py Pz.
  destruct (Hd m) as (_ & Ux & Uy & Uz). destruct Hs as (Dx & Dy & Dz & _).
  assert (X : (1 <= ic_dims o)%nat -> inside (ic_x0 o) (ic_x1 o) (ic_dx o) i (c_x t)).
  { intros H. rewrite Px. destruct (Nat.eqb_spec (ic_nx o) 0) as [E|E]; [|now apply pos_inside; auto].
    exfalso. unfold grid_dims in HG. destruct (ic_dims o) as [|[|[|[|?]]]]; lia. }
  assert (Y : (3 <= ic_dims o)%nat -> inside (ic_y0 o) (ic_y1 o) (ic_dy o) j (c_y t)).
  { intros H. rewrite Py. destruct (Nat.eqb_spec (ic_ny o) 0) as [E|E]; [|now apply pos_inside; auto].
    exfalso. unfold grid_dims in HG. destruct (ic_dims o) as [|[|[|[|?]]]]; lia. }
  assert (Z : (2 <= ic_dims o)%nat -> inside (ic_z0 o) (ic_z1 o) (ic_dz o) k (c_z t)).
  { intros H. rewrite Pz. destruct (Nat.eqb_spec (ic_nz o) 0) as [E|E]; [|now apply pos_inside; auto].
    exfalso. unfold grid_dims in HG. destruct (ic_dims o) as [|[|[|[|?]]]]; lia. }
  repeat split; try (now apply X); try (now apply Y); try (now apply Z).
  rewrite Hc. unfold hskpng_ijk. unfold grid_dims in HG. destruct (ic_dims o) as [|[|[|[|?]]]]; try tauto; cbn [ravel] in *.
  - eapply inside_coord; eauto.
  - rewrite (inside_coord _ _ _ i (c_x t) Dx (X ltac:(lia))), (inside_coord _ _ _ k (c_z t) Dz (Z ltac:(lia))). reflexivity.
  - rewrite (inside_coord _ _ _ i (c_x t) Dx (X ltac:(lia))), (inside_coord _ _ _ j (c_y t) Dy (Y ltac:(lia))), (inside_coord _ _ _ k (c_z t) Dz (Z ltac:(lia))). reflexivity.
Qed.
Print Assumptions C45_positions.

(** A domain which leaves out a corner of the grid: real particles are put outside the domain. *)
Definition corner : icfg :=
  {| ic_dims := 2; ic_nx := 3; ic_ny := 0; ic_nz := 3; ic_dx := 1; ic_dy := 1; ic_dz := 1;
     ic_x0 := 0; ic_x1 := 1; ic_y0 := 0; ic_y1 := 1; ic_z0 := 0; ic_z1 := 1;
     ic_sd_conc := 0; ic_const_multi := 0; ic_indep := true; ic_factor := []; ic_n_cell := 9;
     ic_rhod := fun _ => 1; ic_dv := dv_eval 0 3 1 1 1 0 1 0 1 0 1; ic_bin := 1 / 10000 |}.
Definition halves : draws := {| d_r := fun _ => 1 / 2; d_x := fun _ => 1 / 2; d_y := fun _ => 1 / 2; d_z := fun _ => 1 / 2 |}.
Theorem C45_positions_refuted :
  set_up corner /\ 0 <= ic_x0 corner < INR 3 * ic_dx corner /\ ic_x0 corner < ic_x1 corner <= INR 3 * ic_dx corner /\
  exists s, In s (init_dry_size corner (6 / 10) (1 / 10000000) 100 1 halves) /\
            (0 < c_n s)%N /\ ic_x1 corner < c_x s /\ ic_z1 corner < c_z s.
Proof.
  split; [|split; [cbn; lra|split; [cbn; lra|]]].
  - unfold set_up, corner. cbn [ic_dx ic_dy ic_dz ic_n_cell ic_rhod ic_dv ic_factor ic_dims]. repeat split; try lra.
    + unfold dv_eval. rewrite cmax_Rmax. apply Rmax_l.
    + intros x [].
    + discriminate.
  - set (g := init_dry_size _ _ _ _ _ _).
    assert (E : in_cell 8 g = map (sd_of corner (6 / 10) (fun _ _ => 1 / 10000000 * (1 / 10000000) * (1 / 10000000)) (fun _ c _ => n_dry_sizes corner 100 1 c) halves 8) [8%nat]).
    { unfold g, init_dry_size. rewrite make_group_in_cell by (cbn; lia). reflexivity. }
    assert (In (sd_of corner (6 / 10) (fun _ _ => 1 / 10000000 * (1 / 10000000) * (1 / 10000000)) (fun _ c _ => n_dry_sizes corner 100 1 c) halves 8 8) (in_cell 8 g)) by (rewrite E; now left).
    eexists. split; [apply filter_In in H; apply H|].
    assert (P := sd_of_pos corner (6 / 10) (fun _ _ => 1 / 10000000 * (1 / 10000000) * (1 / 10000000)) (fun _ c _ => n_dry_sizes corner 100 1 c) halves 8 8).
    rewrite sd_of_n. set (t := sd_of _ _ _ _ _ _ _) in *. clearbody t. clear E H g.
    assert (Q : position corner halves 8 8 = (3 / 2, 0, 3 / 2)).
    { unfold position, pos_in_cell. cbn [corner halves ic_dims ic_nx ic_ny ic_nz ic_x0 ic_x1 ic_y0 ic_y1 ic_z0 ic_z1 ic_dx ic_dy ic_dz d_x d_y d_z unravel Nat.eqb].
      change (8 / 3)%nat with 2%nat. change (8 mod 3)%nat with 2%nat. cbn [INR]. rewrite cmin_Rmin, cmax_Rmax.
      rewrite Rmin_left, Rmax_right by lra. match goal with |- (?a, ?b, ?c) = _ => replace a with (3 / 2) by lra; replace c with (3 / 2) by lra end; reflexivity. }
    rewrite Q in P. injection P as Px Py Pz. rewrite Px, Pz. cbn [corner ic_x1 ic_z1].
    split; [|lra]. unfold n_dry_sizes. rewrite conc_to_number_requested. unfold requested. cbn [corner ic_indep ic_factor ic_dv].
    assert (V : dv_eval 0 3 1 1 1 0 1 0 1 0 1 8 = 1).
    { unfold dv_eval, m1. cbn [Nat.max]. change (8 / 3 / 1)%nat with 2%nat. change ((8 / 3) mod 1)%nat with 0%nat. change (8 mod 3)%nat with 2%nat.
      cbn [INR]. rewrite !cmin_Rmin, !cmax_Rmax. unfold Rmin, Rmax. repeat (destruct (Rle_dec _ _) as [?H|?H]; try lra). }
    rewrite V. replace (100 * 1 * 1 * 1 / INR 1 + 5 / 10) with (N2R 100 + 5 / 10) by (unfold N2R; cbn [Z.of_N INR]; lra).
    rewrite truncN_N2R_half. lia.
Qed.
Print Assumptions C45_positions_refuted.

(** *** two distributions *)
(** Two distributions over the same range of radii and three super-droplets per cell: two are created in each cell instead
    of three, and they represent one third of the requested particles. *)
Definition parcel3 : icfg :=
  {| ic_dims := 0; ic_nx := 0; ic_ny := 0; ic_nz := 0; ic_dx := 1; ic_dy := 1; ic_dz := 1;
     ic_x0 := 0; ic_x1 := 1; ic_y0 := 0; ic_y1 := 1; ic_z0 := 0; ic_z1 := 1;
     ic_sd_conc := 3; ic_const_multi := 0; ic_indep := true; ic_factor := []; ic_n_cell := 1;
     ic_rhod := fun _ => 1; ic_dv := fun _ => 1; ic_bin := 1 / 10000 |}.
Definition flat (kappa : R) : distro :=
  {| di_kappa := kappa; di_f := fun _ => 300; di_min := exp (-18); di_max := exp (-17) |}.
Lemma flat_smooth kappa : smooth_distribution (flat kappa) (fun x => 300 * x) 0 /\ concentration (flat kappa) (fun x => 300 * x) = 300.
Proof.
  unfold smooth_distribution, concentration, flat. cbn [di_min di_max di_f]. rewrite !ln_exp. split; [|lra].
  split; [split; [apply exp_pos|apply exp_increasing; lra]|]. split; [lra|]. split; [|split].
  - intros x _. assert (Q := derivable_pt_lim_scal id 300 x 1 (derivable_pt_lim_id x)). rewrite Rmult_1_r in Q. exact Q.
  - intros x y _ _. rewrite Rminus_diag_eq by reflexivity. rewrite Rabs_R0. lra.
  - intros; lra.
Qed.
Theorem C45_two_distributions_refuted :
  set_up parcel3 /\ requested parcel3 0 300 = 300 /\
  exists g1 g2, init_with_distros parcel3 [flat (2 / 10); flat (6 / 10)] (fun _ => halves) = Some [g1; g2] /\
    length (in_cell 0 g1) = 1%nat /\ length (in_cell 0 g2) = 1%nat /\
    particles (in_cell 0 g1) = 100 /\ particles (in_cell 0 g2) = 100.
Proof.
  split; [|split].
  - unfold set_up, parcel3. cbn. repeat split; intros; try lra; tauto.
  - unfold requested, parcel3. cbn. lra.
  - assert (G : forall kappa tot, tot = 2 -> exists g, init_sd_conc parcel3 tot (flat kappa) halves = Some g /\ length (in_cell 0 g) = 1%nat /\ particles (in_cell 0 g) = 100).
    { intros kappa tot ->. unfold init_sd_conc. cbn [flat di_min di_max di_kappa di_f parcel3 ic_sd_conc ic_n_cell]. rewrite !ln_exp.
      destruct (Rleb (-17) (-18)) eqn:E; [apply Rleb_true in E; lra|].
      replace ((-17 - -18) / 2 * N2R 3 + 5 / 10) with (N2R 2) by (unfold N2R; cbn [Z.of_N]; lra).
      replace (truncN ((-17 - -18) / 2 * N2R 3)) with 1%N by (symmetry; apply truncN_unique; unfold N2R; cbn [Z.of_N]; lra).
      rewrite truncN_N2R. cbn [N.eqb]. change (3 / 2)%N with 1%N. eexists. split; [reflexivity|].
      set (gg := make_group _ _ _ _ _ _).
      assert (Eg : in_cell 0 gg = map (sd_of parcel3 kappa (rd3_sd_conc (-18) (-17) [1%nat] halves)
         (fun _ c r => n_sd_conc parcel3 (fun _ => 300) (analysis_multiplier parcel3 3 1 (exp (-18)) (exp (-17)) * N2R 1) c r) halves 0) [0%nat]).
      { unfold gg. rewrite make_group_in_cell by (cbn; lia). reflexivity. }
      rewrite Eg. split; [reflexivity|]. unfold particles. cbn [map lsumN fold_right]. rewrite sd_of_n, n_sd_conc_alt.
      assert (Em : analysis_multiplier parcel3 3 1 (exp (-18)) (exp (-17)) * N2R 1 = 1 / 3).
      { unfold analysis_multiplier. cbn [parcel3 ic_dims ic_dv Nat.eqb]. replace (exp (-17) / exp (-18)) with (exp 1) by (unfold Rdiv; rewrite <- exp_Ropp, <- exp_plus; f_equal; lra). rewrite ln_exp. unfold N2R. cbn [Z.of_N]. lra. }
      rewrite Em. unfold scale. cbn [parcel3 ic_indep ic_factor ic_dims Nat.eqb].
      replace (1 / 3 * (1 * 1) * 1 * 300 + 5 / 10) with (N2R 100 + 5 / 10) by (unfold N2R; cbn [Z.of_N]; lra).
      rewrite truncN_N2R_half. rewrite N.add_0_r. unfold N2R. cbn [Z.of_N]. lra. }
    assert (Ht : tot_lnrd_rng [flat (2 / 10); flat (6 / 10)] = 2).
    { unfold tot_lnrd_rng, di_range. cbn [fold_left flat di_min di_max]. rewrite !ln_exp. lra. }
    destruct (G (2 / 10) _ Ht) as (g1 & A1 & B1 & C1). destruct (G (6 / 10) _ Ht) as (g2 & A2 & B2 & C2).
    exists g1, g2. unfold init_with_distros. cbn [init_all_sd_conc]. rewrite A1, A2. auto.
Qed.
Print Assumptions C45_two_distributions_refuted.

(** *** automatic range of radii *)
(** The range found lies within the initial one and at both its ends super-droplets would represent at least one particle. *)
Theorem C45_range_found :
  forall o f sd dt lo0 hi0 fuel lo hi,
    0 < lo0 -> 0 < hi0 -> search o f sd dt lo0 hi0 fuel lo0 hi0 = Range lo hi ->
    lo0 < lo /\ hi < hi0 /\
    1 <= f (ln lo) * analysis_multiplier o sd dt lo hi /\ 1 <= f (ln hi) * analysis_multiplier o sd dt lo hi.
Proof.
  intros o f sd dt lo0 hi0 fuel lo hi H0 H1 Hs.
  assert (G : forall fuel a b, lo0 <= a -> 0 < b <= hi0 -> search o f sd dt lo0 hi0 fuel a b = Range lo hi ->
    lo0 < lo /\ hi < hi0 /\ 1 <= f (ln lo) * analysis_multiplier o sd dt lo hi /\ 1 <= f (ln hi) * analysis_multiplier o sd dt lo hi).
  { clear Hs fuel. induction fuel as [|fuel IH]; intros a b Ha Hb; cbn [search]; [discriminate|]. cbv zeta.
    assert (T : forall x, truncN x <> 0%N -> 1 <= x).
    { intros x Hx. apply Rnot_lt_le. intros L. apply Hx. unfold truncN. destruct (base_Int_part x) as (P & Q).
      assert (Int_part x < 1)%Z by (apply lt_IZR; lra). lia. }
    destruct (N.eqb_spec (truncN (f (ln a) * analysis_multiplier o sd dt a b)) 0) as [E1|E1]; cbn [negb]; rewrite ?andb_false_r, ?andb_true_r.
    - destruct (Reqb b hi0 && _); [discriminate|]. apply IH; lra.
    - destruct (Reqb a lo0) eqn:Ea; [discriminate|]. apply Reqb_false in Ea.
      destruct (N.eqb_spec (truncN (f (ln b) * analysis_multiplier o sd dt a b)) 0) as [E2|E2]; cbn [negb]; rewrite ?andb_false_r, ?andb_true_r.
      + apply IH; [lra|]. split; [apply Rdiv_lt_0_compat; lra|]. apply Rmult_le_reg_r with (101 / 100); [lra|].
        replace (b / (101 / 100) * (101 / 100)) with b by (field; lra). lra.
      + destruct (Reqb b hi0) eqn:Eb; [discriminate|]. apply Reqb_false in Eb. intros [= <- <-]. repeat split; auto; lra. }
  apply (G fuel lo0 hi0); auto; lra.
Qed.
Print Assumptions C45_range_found.

(** For a distribution without particles the search never ends (in real arithmetic; in floating point the lower radius
    overflows to infinity, and the conversion of the resulting NaN to an integer is undefined). *)
Theorem C45_search_ends_refuted :
  forall o sd dt lo0 hi0 fuel, 0 < lo0 -> search o (fun _ => 0) sd dt lo0 hi0 fuel lo0 hi0 = NotYet.
Proof.
  intros o sd dt lo0 hi0 fuel H0. assert (G : forall fuel a b, search o (fun _ => 0) sd dt lo0 hi0 fuel a b = NotYet).
  { clear. induction fuel as [|fuel IH]; intros a b; cbn [search]; [reflexivity|]. cbv zeta. rewrite !Rmult_0_l.
    replace (truncN 0) with 0%N by (symmetry; apply truncN_unique; unfold N2R; cbn; lra). cbn [N.eqb negb]. rewrite !andb_false_r. apply IH. }
  apply G.
Qed.
Print Assumptions C45_search_ends_refuted.
