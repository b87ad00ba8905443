(** * C60, continued: volumes of levels, timing, an example, and where relaxation fails *)
From Coq Require Import List Arith NArith ZArith Reals Bool Lia Lra Permutation Sorted.
From Verif Require Import Base BaseProofs ThermoModel SpaceModel SpaceProofs GridProps InitModel InitProofs HskpngModel MomsModel MomsProofs RlxModel RlxProps.
Import ListNotations.
Open Scope R_scope.

(** The volume of a level used for the expected number is the sum of the volumes of its cells. *)
Theorem C60_volume :
  forall o k, (k < m1 (ic_nz o))%nat -> 0 < ic_dx o -> 0 < ic_dy o -> 0 < ic_dz o ->
    0 <= ic_x0 o < ic_x1 o -> ic_x1 o <= INR (m1 (ic_nx o)) * ic_dx o ->
    0 <= ic_y0 o < ic_y1 o -> ic_y1 o <= INR (m1 (ic_ny o)) * ic_dy o ->
    (forall i j, (i < m1 (ic_nx o))%nat -> (j < m1 (ic_ny o))%nat ->
       at_most_one_outside (gap (ic_dx o) (ic_x0 o) (ic_x1 o) i) (gap (ic_dy o) (ic_y0 o) (ic_y1 o) j) (gap (ic_dz o) (ic_z0 o) (ic_z1 o) k)) ->
    sumR (m1 (ic_nx o)) (fun i => sumR (m1 (ic_ny o)) (fun j =>
      dv_eval (ic_ny o) (ic_nz o) (ic_dx o) (ic_dy o) (ic_dz o) (ic_x0 o) (ic_x1 o) (ic_y0 o) (ic_y1 o) (ic_z0 o) (ic_z1 o)
        ((i * m1 (ic_ny o) + j) * m1 (ic_nz o) + k))) = hor_dv o k.
Proof.
  intros o k Hk Hdx Hdy Hdz Hx Hx' Hy Hy' HO.
  replace (hor_dv o k) with (level_volume o k).
  2: { unfold hor_dv, level_volume, overlap. rewrite !cmax_Rmax, cmin_Rmin. set (g := Rmin _ _ - Rmax _ _).
       assert (0 < (ic_x1 o - ic_x0 o) * (ic_y1 o - ic_y0 o)) by nra. set (A := (ic_x1 o - ic_x0 o) * (ic_y1 o - ic_y0 o)) in *.
       unfold Rmax. destruct (Rle_dec 0 (A * g)), (Rle_dec 0 g); nra. }
  unfold level_volume.
  rewrite (sumR_ext (m1 (ic_nx o)) _ (fun i => ((ic_y1 o - ic_y0 o) * overlap (ic_dz o) (ic_z0 o) (ic_z1 o) k) * overlap (ic_dx o) (ic_x0 o) (ic_x1 o) i)).
  { rewrite sumR_scal_l, overlap_sum by auto. ring. }
  intros i Hi.
  rewrite (sumR_ext (m1 (ic_ny o)) _ (fun j => (overlap (ic_dx o) (ic_x0 o) (ic_x1 o) i * overlap (ic_dz o) (ic_z0 o) (ic_z1 o) k) * overlap (ic_dy o) (ic_y0 o) (ic_y1 o) j)).
  { rewrite sumR_scal_l, overlap_sum by auto. ring. }
  intros j Hj. rewrite (C12_cell_volume_partial (ic_nx o)) by auto. ring.
Qed.
Print Assumptions C60_volume.

(** Relaxation takes place in the first step in which it is on and every supstp_rlx steps later, for as long as it is on. *)
Lemma rlx_steps_on s n : forall c i, (i < n)%nat -> nth i (rlx_steps s c (repeat true n)) false = Nat.eqb ((c + i) mod s) 0.
Proof.
  induction n as [|n IH]; intros c i Hi; [lia|]. cbn [repeat rlx_steps rlx_step]. destruct i as [|i]; cbn [nth]; [now rewrite Nat.add_0_r|].
  rewrite IH by lia. f_equal. f_equal. lia.
Qed.
Theorem C60_timing :
  forall s c before n i, (i < n)%nat ->
    nth (length before + S i) (rlx_steps s c (before ++ false :: repeat true n)) false = Nat.eqb (i mod s) 0 /\
    nth (length before) (rlx_steps s c (before ++ false :: repeat true n)) true = false /\
    nth i (rlx_steps s 0 (repeat true n)) false = Nat.eqb (i mod s) 0.
Proof.
  intros s c before n i Hi. split; [|split; [|now rewrite rlx_steps_on]]; revert c; induction before as [|t before IH]; intros c.
  - cbn [length Nat.add app rlx_steps rlx_step nth]. now rewrite rlx_steps_on.
  - cbn [length Nat.add app rlx_steps]. destruct (rlx_step s t c) as (now_, c1). cbn [nth]. apply IH.
  - reflexivity.
  - cbn [length app rlx_steps]. destruct (rlx_step s t c) as (now_, c1). cbn [nth]. apply IH.
Qed.
Print Assumptions C60_timing.

(** ** where it fails *)
(** amount for any rlx_sd_per_bin *)
Lemma bin_amount_any o x dt D tot hs u b k : good_domain o -> 0 < x_per_bin x -> 0 < x_timescale x -> 0 <= dt -> 0 <= x_tolerance x -> (0 < n_bins x D tot)%nat ->
  (forall p, 0 <= u p < 1) -> (k < ic_nz o)%nat ->
  let E := expected o x D tot b k in
  let added := filter (fun s => Nat.eqb (s_cell s mod ic_nz o) k) (new_in_bin o x dt D tot b hs u) in
  x_tolerance x * E < E - hs k -> 0 < E ->
  length added = n_sd_per_bin x /\
  Rabs (number added - INR (n_sd_per_bin x) / x_per_bin x * ((E - hs k) * Rmin (dt / x_timescale x) 1)) <= INR (n_sd_per_bin x) / 2.
Proof.
  intros Go Hper Hts Hdt Htol Hb Hu Hk E added H1 H2. unfold added. rewrite (new_at_level o x dt D tot Go) by assumption. fold E. unfold n_sd_to_create, missing. fold E.
  destruct (Rltb 0 E) eqn:E0; [|apply Rltb_false in E0; lra]. assert (0 <= x_tolerance x * E) by (apply Rmult_le_pos; lra).
  destruct (Rltb (E - hs k) 0) eqn:E1; [apply Rltb_true in E1; lra|].
  destruct (Rltb (x_tolerance x) ((E - hs k) / E)) eqn:E2.
  2: { apply Rltb_false in E2. exfalso. apply (Rmult_le_compat_r E) in E2; [|lra]. unfold Rdiv in E2. rewrite Rmult_assoc, Rinv_l in E2 by lra. lra. }
  split; [now rewrite map_length, seq_length|].
  unfold number. rewrite map_map. rewrite (lsumR_const _ (N2R (multiplicity o x dt D tot b hs k))) by reflexivity. rewrite seq_length.
  unfold multiplicity, missing. fold E. rewrite E1, cmin_Rmin.
  set (m := n_sd_per_bin x). assert (HM : 0 <= INR m) by apply pos_INR. set (al := Rmin (dt / x_timescale x) 1).
  assert (Hal : 0 <= al) by (unfold al; apply Rmin_glb; [apply Rmult_le_pos; [lra|left; now apply Rinv_0_lt_compat]|lra]). clearbody al.
  assert (Hq : 0 <= (E - hs k) / x_per_bin x * al) by (apply Rmult_le_pos; [apply Rmult_le_pos; [lra|left; now apply Rinv_0_lt_compat]|exact Hal]).
  assert (R0 := round_half _ Hq). replace (5 / 10) with (1 / 2) in R0 by lra. set (t := N2R (truncN ((E - hs k) / x_per_bin x * al + 1 / 2))) in *.
  replace (INR m * t - INR m / x_per_bin x * ((E - hs k) * al)) with (INR m * (t - (E - hs k) / x_per_bin x * al)) by (field; lra).
  rewrite Rabs_mult, (Rabs_pos_eq (INR m)) by lra. nra.
Qed.

(** One super-droplet per bin, the domain shared by [size] >= 2 processes or devices: each of them adds [size] times the missing particles. *)
Theorem C60_distributed_refuted :
  forall size o x0 dt D tot hs u b k, (2 <= size)%nat -> x_per_bin x0 = 1 -> let x := distmem_rlx size x0 in
    good_domain o -> 0 < x_timescale x -> 0 <= dt -> 0 <= x_tolerance x -> (0 < n_bins x D tot)%nat ->
    (forall p, 0 <= u p < 1) -> (k < ic_nz o)%nat ->
    let E := expected o x D tot b k in
    let added := filter (fun s => Nat.eqb (s_cell s mod ic_nz o) k) (new_in_bin o x dt D tot b hs u) in
    x_tolerance x * E < E - hs k -> 0 < E ->
    length added = 1%nat /\ Rabs (number added - INR size * ((E - hs k) * Rmin (dt / x_timescale x) 1)) <= 1 / 2.
Proof.
  intros size o x0 dt D tot hs u b k Hsz H1 x Go Hts Hdt Htol Hb Hu Hk E added A B.
  assert (HS : 2 <= INR size) by (replace 2 with (INR 2) by (cbn; lra); now apply le_INR).
  assert (HP : x_per_bin x = 1 / INR size) by (unfold x, distmem_rlx; cbn [x_per_bin]; now rewrite H1).
  clearbody x.
  assert (Hpp : 0 < x_per_bin x) by (rewrite HP; apply Rdiv_lt_0_compat; lra).
  assert (HN : n_sd_per_bin x = 1%nat).
  { unfold n_sd_per_bin. assert (Q : 0 <= x_per_bin x + 1 / 2) by lra.
    assert (x_per_bin x <= 1 / 2). { rewrite HP. unfold Rdiv. rewrite !Rmult_1_l. apply Rinv_le_contravar; lra. }
    destruct (truncN_spec _ Q) as (T & _). assert (INR (N.to_nat (truncN (x_per_bin x + 1 / 2))) <= 1) by lra.
    assert (N.to_nat (truncN (x_per_bin x + 1 / 2)) <= 1)%nat by (apply INR_le; cbn; lra). lia. }
  destruct (bin_amount_any o x dt D tot hs u b k Go Hpp Hts Hdt Htol Hb Hu Hk A B) as (P & Q). rewrite HN in P, Q. split; [exact P|].
  fold added E in Q. rewrite HP in Q. cbn [INR] in Q. replace (1 / (1 / INR size)) with (INR size) in Q by (field; lra). exact Q.
Qed.
Print Assumptions C60_distributed_refuted.

(** Relaxation in a step in which the source has added super-droplets to an already sorted population: those are not counted, and the first
    super-droplet is counted once more for each of them, in the lowest level whatever its own level is. *)
Theorem C60_with_source_refuted :
  forall o x D tot b old src sijk sid ks vs, let pop := old ++ src in
    sorted_pop (length old) (fun i => s_cell (nth i old no_rsd)) sijk sid ->
    let (sijk', sid') := order_after_source sijk sid (length src) in
    sort_by_key_result (levels o (per_cell o x pop D tot b sijk' sid')) (map snd (per_cell o x pop D tot b sijk' sid')) ks vs ->
    old <> [] -> (0 < ic_nz o)%nat ->
    forall k, hor_sum ks vs k = existing o D (n_bins x D tot) b k old +
      (if Nat.eqb k 0 then INR (length src) * selected x pop D tot b 0 else 0).
Proof.
  intros o x D tot b old src sijk sid ks vs pop HS. cbn [order_after_source].
  intros HR Hold Hnz k. destruct HR as (L1 & L2 & HP & HO). unfold hor_sum.
  destruct (run_sums_spec ks vs L2 HO) as (R1 & R2 & R3 & R4). rewrite scatter_spec by exact R1.
  destruct (sorted_facts _ _ _ _ HS) as (P1 & P2 & _).
  assert (C : forall (x : R) l, lsumR (x :: l) = x + lsumR l) by reflexivity.
  assert (E : keysum ks vs k = existing o D (n_bins x D tot) b k old + (if Nat.eqb k 0 then INR (length src) * selected x pop D tot b 0 else 0)).
  { rewrite <- (keysum_perm _ _ _ _ k HP). unfold keysum, per_cell, moms_calc, levels.
    set (w := fun id => moment_counter 0 (selected x pop D tot b id) (s_rd3 (at_ pop id))).
    set (keys := sijk ++ repeat 0%nat (length src)). set (ids := sid ++ repeat 0%nat (length src)).
    replace (map (fun kv : nat * R => if (fst kv =? k)%nat then snd kv else 0)
                 (combine (map (fun kv => (fst kv mod ic_nz o)%nat) (run_sums keys (map w ids))) (map snd (run_sums keys (map w ids)))))
      with (map (fun kv : nat * R => if Nat.eqb (fst kv mod ic_nz o) k then snd kv else 0) (run_sums keys (map w ids))).
    2: { clear. induction (run_sums keys (map w ids)) as [|(a, v) l IH]; [reflexivity|]. cbn [map combine fst snd]. f_equal. exact IH. }
    assert (LE : length sijk = length sid) by (rewrite P2, map_length; reflexivity).
    rewrite (run_sums_group (fun c => Nat.eqb (c mod ic_nz o) k)) by (unfold keys, ids; rewrite map_length, !app_length, LE; reflexivity).
    unfold keys, ids. rewrite map_app.
    assert (CA : forall (a1 a2 : list nat) (b1 b2 : list R), length a1 = length b1 -> combine (a1 ++ a2) (b1 ++ b2) = combine a1 b1 ++ combine a2 b2).
    { clear. induction a1 as [|a a1 IH]; intros a2 [|v b1] b2 H; cbn in H; try lia; [reflexivity|]. cbn [app combine]. f_equal. apply IH. lia. }
    rewrite CA by (now rewrite map_length). rewrite map_app, lsumR_app. f_equal.
    - unfold existing, number. rewrite lsumR_filter. rewrite (map_nth_seq _ old no_rsd). rewrite <- (lsumR_map_perm _ _ _ P1). rewrite P2. f_equal.
      assert (Hs : forall i, In i sid -> (i < length old)%nat) by (intros i Hi; apply (Permutation_in _ P1) in Hi; apply in_seq in Hi; lia).
      clear - Hs. induction sid as [|i l IH]; [reflexivity|]. cbn [map combine fst snd]. f_equal; [|apply IH; intros; apply Hs; now right].
      unfold w. rewrite moment_zero. unfold selected, at_, range_filter, counted, pop. rewrite !(app_nth1 old) by (apply Hs; now left).
      change (edge x D tot b) with (bin_edge D (n_bins x D tot) b). change (edge x D tot (S b)) with (bin_edge D (n_bins x D tot) (S b)).
      destruct (Nat.eqb _ _); [|reflexivity]. destruct (Rleb (bin_edge _ _ _) _ && Rltb _ (bin_edge _ _ _)); rewrite ?andb_true_r, ?andb_false_r; [|reflexivity]. reflexivity.
    - generalize (length src). intros n. induction n as [|n IH]; [cbn; destruct (k =? 0)%nat; lra|]. cbn [repeat map combine fst snd]. rewrite C, IH, Nat.mod_0_l by lia.
      rewrite (Nat.eqb_sym 0 k). destruct (k =? 0)%nat; [|lra]. rewrite S_INR. unfold w. rewrite moment_zero. lra. }
  destruct (in_dec Nat.eq_dec k ks) as [H|H].
  - rewrite R3 by exact H. exact E.
  - rewrite R4 by exact H. rewrite <- E. symmetry. now apply keysum_not_in.
Qed.
Print Assumptions C60_with_source_refuted.

(** The vector of random numbers is as long as there are super-droplets, new ones included: shorter than needed when the new ones are many. *)
Theorem C60_random_numbers_refuted :
  forall o x D tot b hs present, (2 <= ic_dims o)%nat -> let new := list_sum (to_create o x D tot b hs) in
    (present < (ic_dims o - 1) * new)%nat -> (present + new < random_numbers o x D tot b hs)%nat.
Proof. intros o x D tot b hs present H new Hp. unfold random_numbers. fold new. nia. Qed.
Print Assumptions C60_random_numbers_refuted.

(** ** an example: two columns and two levels, 20 particles expected in each level, 18 present in the lower one and none in the upper;
    two super-droplets per bin, time step half of the time scale *)
Definition ex_o : icfg :=
  {| ic_dims := 2; ic_nx := 2; ic_ny := 0; ic_nz := 2; ic_dx := 1; ic_dy := 1; ic_dz := 1; ic_x0 := 0; ic_x1 := 2; ic_y0 := 0; ic_y1 := 1; ic_z0 := 0; ic_z1 := 2;
     ic_sd_conc := 0; ic_const_multi := 0; ic_indep := true; ic_factor := []; ic_n_cell := 4; ic_rhod := fun _ => 1; ic_dv := fun _ => 1; ic_bin := 1 |}.
Definition ex_x : rcfg := {| x_bins := 1; x_per_bin := INR 2; x_timescale := 2; x_tolerance := 1 / 10 |}.
Definition ex_D : rdistro := {| x_kappa := 1; x_f := fun _ => 10; x_lo := 0; x_hi := 1; x_kmin := 0; x_kmax := 2; x_zmin := 0; x_zmax := 2 |}.
Definition ex_pop : list rsd := [{| s_cell := 0; s_rd3 := exp (3 / 2); s_kpa := 1; s_n := 18 |}].

Theorem C60_instance :
  exists hs, (forall b, measured ex_o ex_x ex_D (tot_rng [ex_D]) ex_pop b (hs b)) /\ n_bins ex_x ex_D (tot_rng [ex_D]) = 1%nat /\
  forall u, (forall b p, 0 <= u b p < 1) ->
    let new := new_of_distro ex_o ex_x 1 ex_D (tot_rng [ex_D]) hs u in
    filter (counted 2 0 1 2 1 (exp 3)) new = [] /\
    length (filter (counted 2 1 1 2 1 (exp 3)) new) = 2%nat /\ Rabs (number (filter (counted 2 1 1 2 1 (exp 3)) new) - 10) <= 1.
Proof.
  set (tot := tot_rng [ex_D]).
  assert (NB : n_bins ex_x ex_D tot = 1%nat).
  { unfold n_bins, tot, tot_rng. cbn [ex_x ex_D x_bins x_hi x_lo fold_left]. rewrite (truncN_unique _ 1); [reflexivity|]. unfold N2R. cbn [Z.of_N]. split; lra. }
  exists (fun b => hor_sum [0%nat] [moment_counter 0 (selected ex_x ex_pop ex_D tot b 0) (exp (3 / 2))]).
  assert (HM : forall b, measured ex_o ex_x ex_D tot ex_pop b (hor_sum [0%nat] [moment_counter 0 (selected ex_x ex_pop ex_D tot b 0) (exp (3 / 2))])).
  { intros b. exists [0%nat], [0%nat], [0%nat], [moment_counter 0 (selected ex_x ex_pop ex_D tot b 0) (exp (3 / 2))]. split; [|split].
    - exists false. cbn. repeat split; auto.
    - unfold levels, per_cell, moms_calc. cbn [map run_sums fst snd ex_o ic_nz Nat.modulo Nat.divmod]. repeat split; auto. 
    - reflexivity. }
  split; [exact HM|]. split; [exact NB|]. intros u Hu new.
  assert (Go : good_domain ex_o). { unfold good_domain. cbn [ex_o ic_dims ic_nx ic_ny ic_nz ic_dz ic_x0 ic_x1 ic_y0 ic_y1 ic_rhod]. repeat split; try lra; try lia; auto. intros _; lra. }
  assert (GD : good_distro ex_D). { unfold good_distro. cbn [ex_D x_lo x_hi x_zmin x_zmax x_f]. repeat split; try lra. intros _; lra. }
  destruct (C60_relaxation_partial ex_o ex_x 1 ex_pop ex_D tot 2 (fun b => hor_sum [0%nat] [moment_counter 0 (selected ex_x ex_pop ex_D tot b 0) (exp (3 / 2))]) u Go GD ltac:(lia) eq_refl) as (_ & B); cbn [ex_x x_timescale x_tolerance]; try lra; [rewrite NB; lia|exact HM|exact Hu|].
  rewrite NB in B. fold new in B.
  assert (E0 : bin_edge ex_D 1 0 = 1). { unfold bin_edge. cbn [ex_D x_lo x_hi INR]. replace (3 * (0 + 0 * ((1 - 0) / 1))) with 0 by field. apply exp_0. }
  assert (E1 : bin_edge ex_D 1 1 = exp 3). { unfold bin_edge. cbn [ex_D x_lo x_hi INR]. f_equal. field. }
  assert (T : forall k, (k < 2)%nat -> target ex_o ex_D 1 0 k = 20).
  { intros k Hk. unfold target, level_volume, overlap. cbn [ex_o ex_D x_f x_lo x_hi ic_x0 ic_x1 ic_y0 ic_y1 ic_z0 ic_z1 ic_dz ic_indep INR].
    assert (Hc : k = 0%nat \/ k = 1%nat) by lia. destruct Hc as [-> | ->]; cbn [INR]; unfold Rmin, Rmax; repeat destruct (Rle_dec _ _); lra. }
  assert (A : forall k, (k < 2)%nat -> in_altitudes ex_o ex_D k).
  { intros k Hk. unfold in_altitudes. cbn [ex_o ex_D x_zmin x_zmax ic_dz]. assert (Hc : k = 0%nat \/ k = 1%nat) by lia. destruct Hc as [-> | ->]; cbn [INR]; lra. }
  assert (P15 : 1 < exp (3 / 2) /\ exp (3 / 2) < exp 3). { split; [rewrite <- exp_0 at 1; apply exp_increasing; lra|apply exp_increasing; lra]. }
  assert (H : forall k, (k < 2)%nat -> existing ex_o ex_D 1 0 k ex_pop = if Nat.eqb k 0 then 18 else 0).
  { intros k Hk. unfold existing, ex_pop. rewrite E0, E1. unfold counted. cbn [filter s_cell s_rd3 s_kpa ex_o ex_D ic_nz x_kmin x_kmax].
    destruct (Rleb 1 (exp (3 / 2))) eqn:K1; [|apply Rleb_false in K1; lra]. destruct (Rltb (exp (3 / 2)) (exp 3)) eqn:K2; [|apply Rltb_false in K2; lra].
    destruct (Rleb 0 1) eqn:K3; [|apply Rleb_false in K3; lra]. destruct (Rltb 1 2) eqn:K4; [|apply Rltb_false in K4; lra].
    assert (Hc : k = 0%nat \/ k = 1%nat) by lia. destruct Hc as [-> | ->]; cbn [Nat.eqb Nat.modulo Nat.divmod andb Nat.sub fst snd]; unfold number; cbn; unfold N2R; cbn [Z.of_N]; lra. }
  destruct (B 0%nat 0%nat ltac:(lia) ltac:(cbn; lia)) as (_ & B0 & _). destruct (B 0%nat 1%nat ltac:(lia) ltac:(cbn; lia)) as (B1 & _).
  rewrite T, H, E0, E1 in B0 by lia. rewrite T, H, E0, E1 in B1 by lia. cbn [Nat.eqb] in B0, B1.
  replace (x_kappa ex_D + 1) with 2 in B0, B1 by (cbn [ex_D x_kappa]; lra). change (x_kappa ex_D) with 1 in B0, B1. change (ic_nz ex_o) with 2%nat in B0, B1.
  split; [apply B0; right; left; cbn [ex_x x_tolerance]; lra|].
  destruct B1 as (L & Q); [apply A; lia|cbn [ex_x x_tolerance]; lra|lra|]. split; [exact L|].
  replace ((20 - 0) * Rmin (1 / x_timescale ex_x) 1) with 10 in Q by (cbn [ex_x x_timescale]; unfold Rmin; destruct (Rle_dec _ _); lra).
  cbn [INR] in Q. lra.
Qed.
Print Assumptions C60_instance.
