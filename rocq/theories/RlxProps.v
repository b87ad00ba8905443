(** * C60: relaxation of aerosol *)
From Coq Require Import List Arith NArith ZArith Reals Bool Lia Lra Permutation Sorted.
From Verif Require Import Base BaseProofs ThermoModel SpaceModel SpaceProofs GridProps InitModel InitProofs HskpngModel MomsModel MomsProofs RlxModel.
Import ListNotations.
Open Scope R_scope.

(** ** Specification *)
(** in level [k], of kappa in [kmin, kmax) and dry radius (cubed) in [lo, hi) *)
Definition counted (nz k : nat) (kmin kmax lo hi : R) (s : rsd) : bool :=
  Nat.eqb (s_cell s mod nz) k && (Rleb kmin (s_kpa s) && Rltb (s_kpa s) kmax) && (Rleb lo (s_rd3 s) && Rltb (s_rd3 s) hi).
(** number of particles *)
Definition number (l : list rsd) : R := lsumR (map (fun s => N2R (s_n s)) l).
(** edges of [n] bins of equal size between [lo] and [hi] on the axis of ln(rd), in rd^3 *)
Definition bin_edge (D : rdistro) (n b : nat) : R := exp (3 * (x_lo D + INR b * ((x_hi D - x_lo D) / INR n))).
(** the level lies below the upper end of the range of altitudes, and its top above the lower end *)
Definition in_altitudes (o : icfg) (D : rdistro) (k : nat) : Prop := x_zmin D / ic_dz o < INR k + 1 <= x_zmax D / ic_dz o.
(** volume of the part of the domain in a level *)
Definition level_volume (o : icfg) (k : nat) : R :=
  (ic_x1 o - ic_x0 o) * (ic_y1 o - ic_y0 o) * overlap (ic_dz o) (ic_z0 o) (ic_z1 o) k.
(** the number of particles that should be in bin [b] of level [k] *)
Definition target (o : icfg) (D : rdistro) (n b k : nat) : R :=
  x_f D (x_lo D + (INR b + 1 / 2) * ((x_hi D - x_lo D) / INR n)) * ((x_hi D - x_lo D) / INR n) * level_volume o k *
  (if ic_indep o then 1 else ic_rhod o k / rho_stp).

(** ** horizontal sums *)
Lemma run_sums_group (P : nat -> bool) keys vals : length keys = length vals ->
  lsumR (map (fun kv => if P (fst kv) then snd kv else 0) (run_sums keys vals)) =
  lsumR (map (fun kv => if P (fst kv) then snd kv else 0) (combine keys vals)).
Proof.
  revert vals; induction keys as [|k keys IH]; intros [|v vals] H; cbn [length] in H; try lia; [reflexivity|].
  cbn [run_sums combine]. specialize (IH vals ltac:(lia)).
  assert (C : forall (x : R) l, lsumR (x :: l) = x + lsumR l) by reflexivity.
  destruct (run_sums keys vals) as [|(k', s) rest].
  - cbn [map fst snd] in *. rewrite !C, <- IH. reflexivity.
  - destruct (Nat.eqb_spec k k') as [->|N]; cbn [map fst snd] in *; rewrite !C in *; rewrite <- IH.
    + destruct (P k'); lra.
    + lra.
Qed.

Lemma keysum_perm keys vals keys' vals' c : Permutation (combine keys vals) (combine keys' vals') -> keysum keys vals c = keysum keys' vals' c.
Proof. intros H. unfold keysum. apply lsumR_map_perm. exact H. Qed.
Lemma keysum_not_in keys vals c : ~ In c keys -> keysum keys vals c = 0.
Proof.
  unfold keysum. revert vals; induction keys as [|k keys IH]; intros [|v vals] H; try reflexivity.
  cbn [combine map fst snd]. destruct (Nat.eqb_spec k c) as [->|N]; [exfalso; apply H; now left|].
  change (lsumR (0 :: map (fun kv : nat * R => if (fst kv =? c)%nat then snd kv else 0) (combine keys vals))) with
    (0 + lsumR (map (fun kv : nat * R => if (fst kv =? c)%nat then snd kv else 0) (combine keys vals))).
  rewrite IH; [lra|]. intros HI. apply H. now right.
Qed.

Lemma hor_sum_spec nz pop sijk sid w ks vs k :
  sorted_pop (length pop) (fun i => s_cell (nth i pop no_rsd)) sijk sid ->
  sort_by_key_result (map (fun kv => (fst kv mod nz)%nat) (run_sums sijk (map w sid))) (map snd (run_sums sijk (map w sid))) ks vs ->
  hor_sum ks vs k = lsumR (map (fun i => if Nat.eqb (s_cell (nth i pop no_rsd) mod nz) k then w i else 0) (seq 0 (length pop))).
Proof.
  intros HS (L1 & L2 & HP & HO). unfold hor_sum.
  destruct (run_sums_spec ks vs L2 HO) as (R1 & R2 & R3 & R4). rewrite scatter_spec by exact R1.
  assert (E : keysum ks vs k = lsumR (map (fun i => if Nat.eqb (s_cell (nth i pop no_rsd) mod nz) k then w i else 0) (seq 0 (length pop)))).
  { rewrite <- (keysum_perm _ _ _ _ k HP). destruct (sorted_facts _ _ _ _ HS) as (P1 & P2 & _).
    unfold keysum.
    replace (map (fun kv : nat * R => if (fst kv =? k)%nat then snd kv else 0)
                 (combine (map (fun kv => (fst kv mod nz)%nat) (run_sums sijk (map w sid))) (map snd (run_sums sijk (map w sid)))))
      with (map (fun kv : nat * R => if Nat.eqb (fst kv mod nz) k then snd kv else 0) (run_sums sijk (map w sid))).
    - rewrite (run_sums_group (fun c => Nat.eqb (c mod nz) k)) by (rewrite P2, !map_length; reflexivity).
      rewrite <- (lsumR_map_perm _ _ _ P1). rewrite P2. f_equal. clear. induction sid as [|i l IH]; [reflexivity|]. cbn [map combine fst snd]. f_equal. exact IH.
    - clear. induction (run_sums sijk (map w sid)) as [|(a, v) l IH]; [reflexivity|]. cbn [map combine fst snd]. f_equal. exact IH. }
  destruct (in_dec Nat.eq_dec k ks) as [H|H].
  - rewrite R3 by exact H. exact E.
  - rewrite R4 by exact H. rewrite <- E. symmetry. now apply keysum_not_in.
Qed.

Lemma lsumR_filter {A} (P : A -> bool) (f : A -> R) l : lsumR (map f (filter P l)) = lsumR (map (fun s => if P s then f s else 0) l).
Proof.
  induction l as [|a l IH]; [reflexivity|]. cbn [filter map]. assert (C : forall (x : R) l, lsumR (x :: l) = x + lsumR l) by reflexivity.
  rewrite C, <- IH. destruct (P a); [cbn [map]; rewrite C; lra|lra].
Qed.
Lemma map_nth_seq {A B} (f : A -> B) (l : list A) d : map f l = map (fun i => f (nth i l d)) (seq 0 (length l)).
Proof.
  induction l as [|a l IH] using rev_ind; [reflexivity|]. rewrite app_length, map_app. cbn [length map]. rewrite Nat.add_1_r, seq_S, map_app. cbn [map Nat.add].
  rewrite app_nth2, Nat.sub_diag by lia. cbn [nth]. f_equal. rewrite IH. apply map_ext_in. intros i Hi. apply in_seq in Hi. rewrite app_nth1 by lia. reflexivity.
Qed.

(** ** groups of new super-droplets *)
Lemma group_filter {A} (P : A -> bool) (g : nat -> nat -> A) counts c0 : (c0 < length counts)%nat ->
  (forall c p, (c < length counts)%nat -> (p < list_sum counts)%nat -> P (g c p) = Nat.eqb c c0) ->
  filter P (map (fun p => g (init_ijk counts (fun _ => 0%nat) p) p) (seq 0 (list_sum counts))) = map (g c0) (seq (exscan counts c0) (nth c0 counts 0%nat)).
Proof.
  intros Hc HP.
  assert (Hle : (exscan counts c0 + nth c0 counts 0 <= list_sum counts)%nat).
  { rewrite <- exscan_S by lia. rewrite <- exscan_all. apply exscan_mono. lia. }
  assert (Hin : forall p, (p < list_sum counts)%nat -> (init_ijk counts (fun _ => 0%nat) p < length counts)%nat).
  { intros p Hp. destruct (exscan_find counts (length counts) p) as (c' & Hc' & He); [lia|rewrite exscan_all; lia|]. rewrite (init_ijk_spec counts _ c' p) by lia. exact Hc'. }
  assert (Hno : forall l, (forall p, In p l -> (p < list_sum counts)%nat /\ init_ijk counts (fun _ => 0%nat) p <> c0) ->
    filter P (map (fun p => g (init_ijk counts (fun _ => 0%nat) p) p) l) = []).
  { induction l as [|p l IH]; intros H; [reflexivity|]. cbn [map filter]. destruct (H p (or_introl eq_refl)) as (Hp & Hn). rewrite HP by auto.
    destruct (Nat.eqb_spec (init_ijk counts (fun _ => 0%nat) p) c0) as [E|E]; [contradiction|]. apply IH. intros; apply H; now right. }
  assert (Hyes : forall l, (forall p, In p l -> (p < list_sum counts)%nat /\ init_ijk counts (fun _ => 0%nat) p = c0) ->
    filter P (map (fun p => g (init_ijk counts (fun _ => 0%nat) p) p) l) = map (g c0) l).
  { induction l as [|p l IH]; intros H; [reflexivity|]. cbn [map filter]. destruct (H p (or_introl eq_refl)) as (Hp & Hn). rewrite HP by auto. rewrite Hn, Nat.eqb_refl.
    f_equal. apply IH. intros; apply H; now right. }
  replace (seq 0 (list_sum counts)) with (seq 0 (exscan counts c0) ++ seq (exscan counts c0) (nth c0 counts 0%nat) ++
    seq (exscan counts c0 + nth c0 counts 0%nat) (list_sum counts - exscan counts c0 - nth c0 counts 0%nat)).
  2: { rewrite <- seq_app, <- (seq_app (exscan counts c0) _ 0) || rewrite <- seq_app. replace (exscan counts c0 + (nth c0 counts 0 + (list_sum counts - exscan counts c0 - nth c0 counts 0)))%nat with (list_sum counts) by lia. reflexivity. }
  rewrite !map_app, !filter_app. rewrite Hno, Hyes, Hno; [now rewrite app_nil_r|..].
  - intros k Hk. apply in_seq in Hk. split; [lia|]. destruct (exscan_find counts (length counts) k) as (c' & Hc' & He); [lia|rewrite exscan_all; lia|].
    rewrite (init_ijk_spec counts _ c' k) by lia. intros ->. lia.
  - intros k Hk. apply in_seq in Hk. split; [lia|]. apply init_ijk_spec; lia.
  - intros k Hk. apply in_seq in Hk. split; [lia|]. destruct (exscan_find counts c0 k) as (c' & Hc' & He); [lia|lia|].
    rewrite (init_ijk_spec counts _ c' k) by lia. lia.
Qed.

(** ** one bin *)
Lemma index_lt u n : 0 <= u < 1 -> (0 < n)%nat -> (N.to_nat (truncN (u * INR n)) < n)%nat.
Proof.
  intros Hu Hn. assert (0 < INR n) by now apply lt_0_INR. destruct (truncN_spec (u * INR n)) as (A & _); [nra|]. apply INR_lt. nra.
Qed.
Lemma ravel_level dims nx ny nz i j k : (dims = 2 \/ dims = 3)%nat -> (i < nx)%nat -> (dims = 3%nat -> (j < ny)%nat) -> (k < nz)%nat ->
  (ravel dims ny nz i j k mod nz = k /\ ravel dims ny nz i j k < nx * (if Nat.eqb dims 3 then ny else 1) * nz)%nat.
Proof.
  intros [-> | ->] Hi Hj Hk; cbn [ravel Nat.eqb].
  - split; [rewrite Nat.add_comm, Nat.mod_add by lia; now apply Nat.mod_small|nia].
  - specialize (Hj eq_refl). split.
    + replace (i * (nz * ny) + j * nz + k)%nat with (k + (i * ny + j) * nz)%nat by lia. rewrite Nat.mod_add by lia. now apply Nat.mod_small.
    + assert (i * ny + j < nx * ny)%nat by nia. nia.
Qed.
Lemma edge_third y : ln (ThermoModel.cpow (exp (3 * y)) (1 / 3)) = y.
Proof. unfold ThermoModel.cpow. destruct (Rlt_dec 0 (exp (3 * y))) as [_|N]; [|destruct N; apply exp_pos]. unfold Rpower. rewrite !ln_exp. lra. Qed.

Definition good_distro (D : rdistro) : Prop := x_lo D < x_hi D /\ 0 <= x_zmin D /\ 0 <= x_zmax D /\ forall r, 0 <= x_f D r.
Definition good_domain (o : icfg) : Prop :=
  (ic_dims o = 2 \/ ic_dims o = 3)%nat /\ (0 < ic_nx o)%nat /\ (0 < ic_nz o)%nat /\ (ic_dims o = 3%nat -> (0 < ic_ny o)%nat) /\
  0 < ic_dz o /\ ic_x0 o < ic_x1 o /\ ic_y0 o < ic_y1 o /\ (forall c, 0 <= ic_rhod o c).

Lemma hor_dv_volume o k : good_domain o -> hor_dv o k = level_volume o k.
Proof.
  intros (_ & _ & _ & _ & _ & Hx & Hy & _). unfold hor_dv, level_volume, overlap. rewrite !cmax_Rmax, cmin_Rmin.
  set (g := Rmin _ _ - Rmax _ _). assert (0 < (ic_x1 o - ic_x0 o) * (ic_y1 o - ic_y0 o)) by nra. set (A := (ic_x1 o - ic_x0 o) * (ic_y1 o - ic_y0 o)) in *.
  unfold Rmax. destruct (Rle_dec 0 (A * g)), (Rle_dec 0 g); nra.
Qed.
Lemma level_volume_nonneg o k : good_domain o -> 0 <= level_volume o k.
Proof.
  intros (_ & _ & _ & _ & _ & Hx & Hy & _). unfold level_volume. apply Rmult_le_pos; [nra|]. unfold overlap. apply Rmax_l.
Qed.
Lemma altitudes_spec o D k : good_domain o -> good_distro D ->
  (Nat.ltb k (z_min_index o D) || Nat.leb (z_max_index o D) k = false <-> in_altitudes o D k).
Proof.
  intros (_ & _ & _ & _ & Hz & _) (_ & H0 & H1 & _). unfold z_min_index, z_max_index, in_altitudes.
  destruct (truncN_spec (x_zmin D / ic_dz o)) as (A & B); [apply Rmult_le_pos; [lra|left; now apply Rinv_0_lt_compat]|].
  destruct (truncN_spec (x_zmax D / ic_dz o)) as (A' & B'); [apply Rmult_le_pos; [lra|left; now apply Rinv_0_lt_compat]|].
  set (m := N.to_nat (truncN (x_zmin D / ic_dz o))) in *. set (M := N.to_nat (truncN (x_zmax D / ic_dz o))) in *.
  rewrite orb_false_iff, Nat.ltb_ge, Nat.leb_gt. split; intros (P & Q).
  - apply le_INR in P. apply le_INR in Q. rewrite S_INR in Q. lra.
  - split; [assert (m < S k)%nat; [apply INR_lt; rewrite S_INR; lra|lia]|]. assert (S k < S M)%nat; [apply INR_lt; rewrite !S_INR; lra|lia].
Qed.

Section OneBin.
  Variables (o : icfg) (x : rcfg) (dt : R) (D : rdistro) (tot : R) (m : nat).
  Hypotheses (Go : good_domain o) (GD : good_distro D) (Hm : (1 <= m)%nat) (Hper : x_per_bin x = INR m)
             (Hts : 0 < x_timescale x) (Hdt : 0 <= dt) (Htol : 0 <= x_tolerance x) (Hbins : (0 < n_bins x D tot)%nat).

  Lemma bin_size_pos : 0 < bin_size x D tot.
  Proof. unfold bin_size. apply Rdiv_lt_0_compat; [destruct GD; lra|now apply lt_0_INR]. Qed.
  Lemma rd3_in_bin b u : 0 <= u < 1 ->
    edge x D tot b <= exp (3 * (ln (ThermoModel.cpow (edge x D tot b) (1 / 3)) + u * bin_size x D tot)) < edge x D tot (S b).
  Proof.
    intros Hu. assert (P := bin_size_pos). unfold edge. rewrite !edge_third, S_INR. split.
    - destruct (Req_dec u 0) as [->|N]; [right; f_equal; ring|left; apply exp_increasing]. assert (0 < u) by (destruct Hu as ([A|A] & _); [exact A|now destruct N]). assert (0 < u * bin_size x D tot) by (apply Rmult_lt_0_compat; lra). lra.
    - apply exp_increasing. assert (u * bin_size x D tot < bin_size x D tot) by nra. lra.
  Qed.
  Lemma edge_mono b c : (b <= c)%nat -> edge x D tot b <= edge x D tot c.
  Proof.
    intros H. unfold edge. assert (P := bin_size_pos). apply le_INR in H. destruct (Rle_lt_or_eq_dec _ _ H) as [L|L]; [left; apply exp_increasing; nra|right; now rewrite L].
  Qed.
  Lemma expected_cases b k : (in_altitudes o D k /\ expected o x D tot b k = target o D (n_bins x D tot) b k) \/ (~ in_altitudes o D k /\ expected o x D tot b k = 0).
  Proof.
    unfold expected. destruct (Nat.ltb k (z_min_index o D) || Nat.leb (z_max_index o D) k) eqn:E.
    - right. split; [|reflexivity]. intros H. apply (altitudes_spec o D k Go GD) in H. congruence.
    - left. split; [now apply altitudes_spec|]. unfold target. fold (bin_size x D tot). rewrite hor_dv_volume by exact Go.
      destruct (ic_indep o); [ring|]. unfold Rdiv. ring.
  Qed.
  Lemma target_nonneg b k : 0 <= target o D (n_bins x D tot) b k.
  Proof.
    unfold target. fold (bin_size x D tot). assert (P := bin_size_pos). assert (V := level_volume_nonneg o k Go). destruct GD as (_ & _ & _ & Hf).
    apply Rmult_le_pos; [apply Rmult_le_pos; [apply Rmult_le_pos; [apply Hf|lra]|exact V]|]. destruct (ic_indep o); [lra|].
    apply Rmult_le_pos; [apply Go|]. left. apply Rinv_0_lt_compat. unfold rho_stp, p_stp, T_stp, ThermoModel.R_d. repeat apply Rdiv_lt_0_compat; lra.
  Qed.
  Lemma per_bin : n_sd_per_bin x = m.
  Proof.
    unfold n_sd_per_bin. rewrite Hper. rewrite (truncN_unique _ (N.of_nat m)).
    - lia.
    - rewrite <- nat_N_Z || idtac. unfold N2R. rewrite nat_N_Z, <- INR_IZR_INZ. lra.
  Qed.

  Variable hs : nat -> R.
  Variable u : nat -> R.
  Hypothesis Hu : forall p, 0 <= u p < 1.
  Variable b : nat.

  Definition new_sd (k p : nat) : rsd :=
    let n := list_sum (to_create o x D tot b hs) in
    {| s_cell := ravel (ic_dims o) (ic_ny o) (ic_nz o) (N.to_nat (truncN (u p * INR (ic_nx o))))
                   (if Nat.eqb (ic_dims o) 3 then N.to_nat (truncN (u (2 * n + p)%nat * INR (ic_ny o))) else 0%nat) k;
       s_rd3 := exp (3 * (ln (ThermoModel.cpow (edge x D tot b) (1 / 3)) + u (n + p)%nat * bin_size x D tot));
       s_kpa := x_kappa D; s_n := multiplicity o x dt D tot b hs k |}.
  Lemma new_alt : new_in_bin o x dt D tot b hs u =
    map (fun p => new_sd (init_ijk (to_create o x D tot b hs) (fun _ => 0%nat) p) p) (seq 0 (list_sum (to_create o x D tot b hs))).
  Proof. reflexivity. Qed.
  Lemma new_sd_level k p : (k < ic_nz o)%nat -> (s_cell (new_sd k p) mod ic_nz o = k /\ s_cell (new_sd k p) < ic_nx o * (if Nat.eqb (ic_dims o) 3 then ic_ny o else 1) * ic_nz o)%nat.
  Proof.
    intros Hk. destruct Go as (Hd & Hx & Hz & Hy & _). unfold new_sd. cbn [s_cell]. apply ravel_level; auto.
    - now apply index_lt.
    - intros E. rewrite E. cbn [Nat.eqb]. apply index_lt; auto.
  Qed.
  Lemma create_length : length (to_create o x D tot b hs) = ic_nz o.
  Proof. unfold to_create. now rewrite map_length, seq_length. Qed.
  Lemma in_new s : In s (new_in_bin o x dt D tot b hs u) ->
    (s_cell s < ic_nx o * (if Nat.eqb (ic_dims o) 3 then ic_ny o else 1) * ic_nz o)%nat /\ s_kpa s = x_kappa D /\ edge x D tot b <= s_rd3 s < edge x D tot (S b).
  Proof.
    rewrite new_alt, in_map_iff. intros (p & <- & Hp). apply in_seq in Hp.
    assert (Hk : (init_ijk (to_create o x D tot b hs) (fun _ => 0%nat) p < ic_nz o)%nat).
    { rewrite <- create_length. destruct (exscan_find (to_create o x D tot b hs) (length (to_create o x D tot b hs)) p) as (c' & Hc' & He); [lia|rewrite exscan_all; lia|].
      rewrite (init_ijk_spec _ _ c' p) by lia. exact Hc'. }
    split; [now apply new_sd_level|]. split; [reflexivity|]. unfold new_sd. cbn [s_rd3]. apply rd3_in_bin, Hu.
  Qed.
  Lemma new_at_level k : (k < ic_nz o)%nat ->
    filter (fun s => Nat.eqb (s_cell s mod ic_nz o) k) (new_in_bin o x dt D tot b hs u) =
    map (new_sd k) (seq (exscan (to_create o x D tot b hs) k) (n_sd_to_create x (missing o x D tot b hs k) (expected o x D tot b k))).
  Proof.
    intros Hk. rewrite new_alt. rewrite (group_filter _ new_sd _ k) by (rewrite ?create_length; auto; intros c p Hc Hp; try rewrite create_length in Hc; f_equal; now apply new_sd_level).
    f_equal. f_equal. unfold to_create. rewrite nth_map_lt with (da := 0%nat) by (rewrite seq_length; exact Hk). rewrite seq_nth by exact Hk. reflexivity.
  Qed.

  Lemma lsumR_const {A} (f : A -> R) v l : (forall s, In s l -> f s = v) -> lsumR (map f l) = INR (length l) * v.
  Proof.
    induction l as [|a l IH]; intros H; [cbn; lra|]. assert (C : forall (y : R) l, lsumR (y :: l) = y + lsumR l) by reflexivity.
    cbn [map]. rewrite C, IH by (intros; apply H; now right). rewrite (H a) by now left. cbn [length]. rewrite S_INR. lra.
  Qed.
  Lemma bin_amount k : (k < ic_nz o)%nat ->
    let E := expected o x D tot b k in
    let added := filter (fun s => Nat.eqb (s_cell s mod ic_nz o) k) (new_in_bin o x dt D tot b hs u) in
    (x_tolerance x * E < E - hs k -> 0 < E -> length added = m /\ Rabs (number added - (E - hs k) * Rmin (dt / x_timescale x) 1) <= INR m / 2) /\
    (E - hs k <= x_tolerance x * E \/ E <= 0 -> added = []).
  Proof.
    intros Hk E added. unfold added. rewrite new_at_level by exact Hk. fold E. unfold n_sd_to_create, missing. fold E. split.
    - intros H1 H2. destruct (Rltb 0 E) eqn:E0; [|apply Rltb_false in E0; lra]. assert (0 <= x_tolerance x * E) by (apply Rmult_le_pos; lra).
      destruct (Rltb (E - hs k) 0) eqn:E1; [apply Rltb_true in E1; lra|].
      destruct (Rltb (x_tolerance x) ((E - hs k) / E)) eqn:E2.
      2: { apply Rltb_false in E2. exfalso. apply (Rmult_le_compat_r E) in E2; [|lra]. unfold Rdiv in E2. rewrite Rmult_assoc, Rinv_l in E2 by lra. lra. }
      rewrite per_bin. split; [now rewrite map_length, seq_length|].
      unfold number. rewrite map_map. rewrite (lsumR_const _ (N2R (multiplicity o x dt D tot b hs k))) by reflexivity. rewrite seq_length.
      unfold multiplicity, missing. fold E. rewrite E1, Hper, cmin_Rmin.
      assert (HM : 0 < INR m) by (apply lt_0_INR; lia). set (al := Rmin (dt / x_timescale x) 1).
      assert (Hal : 0 <= al) by (unfold al; apply Rmin_glb; [apply Rmult_le_pos; [lra|left; now apply Rinv_0_lt_compat]|lra]). clearbody al.
      assert (Hq : 0 <= (E - hs k) / INR m * al) by (apply Rmult_le_pos; [apply Rmult_le_pos; [lra|left; now apply Rinv_0_lt_compat]|exact Hal]).
      assert (R0 := round_half _ Hq). replace (5 / 10) with (1 / 2) in R0 by lra. set (t := N2R (truncN ((E - hs k) / INR m * al + 1 / 2))) in *.
      replace (INR m * t - (E - hs k) * al) with (INR m * (t - (E - hs k) / INR m * al)) by (field; lra).
      rewrite Rabs_mult, (Rabs_pos_eq (INR m)) by lra. nra.
    - intros H. destruct (Rltb 0 E) eqn:E0; [|reflexivity]. apply Rltb_true in E0. destruct H as [H|H]; [|lra].
      assert (Q : (if Rltb (E - hs k) 0 then 0 else E - hs k) / E <= x_tolerance x).
      { apply (Rmult_le_reg_r E); [lra|]. unfold Rdiv. rewrite Rmult_assoc, Rinv_l by lra. assert (0 <= x_tolerance x * E) by (apply Rmult_le_pos; lra).
        destruct (Rltb (E - hs k) 0); lra. }
      destruct (Rltb (x_tolerance x) _) eqn:E1; [apply Rltb_true in E1; lra|reflexivity].
  Qed.
End OneBin.

(** ** the whole set of new super-droplets *)
(** particles now in bin [b] of level [k] *)
Definition existing (o : icfg) (D : rdistro) (n b k : nat) (pop : list rsd) : R :=
  number (filter (counted (ic_nz o) k (x_kmin D) (x_kmax D) (bin_edge D n b) (bin_edge D n (S b))) pop).
(** [hs k] is what the program obtains for the number of particles in level [k], whatever the unstable sorts do *)
Definition measured (o : icfg) (x : rcfg) (D : rdistro) (tot : R) (pop : list rsd) (b : nat) (hs : nat -> R) : Prop :=
  exists sijk sid ks vs,
    sorted_pop (length pop) (fun i => s_cell (nth i pop no_rsd)) sijk sid /\
    sort_by_key_result (levels o (per_cell o x pop D tot b sijk sid)) (map snd (per_cell o x pop D tot b sijk sid)) ks vs /\
    forall k, hs k = hor_sum ks vs k.

Lemma moment_zero n y : moment_counter 0 n y = n.
Proof.
  unfold moment_counter. destruct (Rleb 0 y).
  - unfold ThermoModel.cpow. destruct (Rlt_dec 0 y); [rewrite Rpower_O by assumption; ring|]. destruct (Req_EM_T 0 0); [ring|lra].
  - destruct (truncZ_nonneg 0 (Rle_refl 0)) as [[H1 H2] H3]. assert (truncZ 0 < 1)%Z by (apply lt_IZR; lra). replace (truncZ 0) with 0%Z by lia. cbn. ring.
Qed.
Lemma measured_existing o x D tot pop b hs k : measured o x D tot pop b hs -> hs k = existing o D (n_bins x D tot) b k pop.
Proof.
  intros (sijk & sid & ks & vs & HS & HR & ->). unfold per_cell, moms_calc, levels in HR. rewrite (hor_sum_spec _ _ _ _ _ _ _ k HS HR).
  unfold existing, number. rewrite lsumR_filter. rewrite (map_nth_seq _ pop no_rsd). f_equal. apply map_ext. intros i. rewrite moment_zero.
  unfold selected, at_, range_filter, counted. change (edge x D tot b) with (bin_edge D (n_bins x D tot) b). change (edge x D tot (S b)) with (bin_edge D (n_bins x D tot) (S b)).
  destruct (Nat.eqb _ _); [|reflexivity]. destruct (Rleb (bin_edge _ _ _) _ && Rltb _ (bin_edge _ _ _)); rewrite ?andb_true_r, ?andb_false_r; [|reflexivity].
  cbn [andb]. reflexivity.
Qed.
Lemma filter_flat_map {A} (P : A -> bool) (f : nat -> list A) b l : NoDup l -> In b l ->
  (forall c s, In c l -> c <> b -> In s (f c) -> P s = false) -> filter P (flat_map f l) = filter P (f b).
Proof.
  assert (Hnil : forall l', (forall s, In s l' -> P s = false) -> filter P l' = []).
  { induction l' as [|a l' IH]; intros H; [reflexivity|]. cbn [filter]. rewrite (H a) by now left. apply IH. intros; apply H; now right. }
  induction l as [|c l IH]; intros HN HI HP; [destruct HI|]. apply NoDup_cons_iff in HN. destruct HN as (HN1 & HN2). cbn [flat_map]. rewrite filter_app.
  destruct (Nat.eq_dec c b) as [->|N].
  - rewrite (Hnil (flat_map f l)); [apply app_nil_r|]. intros s Hs. apply in_flat_map in Hs. destruct Hs as (c & Hc & Hs). apply (HP c s); [now right| |exact Hs]. intros ->. contradiction.
  - rewrite (Hnil (f c)); [|intros s Hs; apply (HP c s); [now left|exact N|exact Hs]]. cbn [app]. apply IH; [exact HN2|destruct HI; [contradiction|assumption]|]. intros c' s Hc'. apply HP. now right.
Qed.
Lemma filter_ext_in' {A} (P Q : A -> bool) l : (forall s, In s l -> P s = Q s) -> filter P l = filter Q l.
Proof. induction l as [|a l IH]; intros H; [reflexivity|]. cbn [filter]. rewrite (H a) by now left. rewrite IH by (intros; apply H; now right). reflexivity. Qed.

(** C60. If rlx_sd_per_bin is a whole number: new super-droplets lie in cells of the domain, have the kappa of the distribution and dry radii within
    its range; in each bin and each level within the range of altitudes, if more than the tolerated part of the expected number is missing, that
    many super-droplets appear, and their particles are, up to rounding of multiplicities, the missing number times dt / rlx_timescale (at most one);
    otherwise nothing appears; and never more particles than missing, up to this rounding. *)
Theorem C60_relaxation_partial :
  forall o x dt pop D tot m hs u, good_domain o -> good_distro D -> (1 <= m)%nat -> x_per_bin x = INR m -> 0 < x_timescale x -> 0 <= dt -> 0 <= x_tolerance x ->
    let nb := n_bins x D tot in
    (0 < nb)%nat -> (forall b, measured o x D tot pop b (hs b)) -> (forall b p, 0 <= u b p < 1) ->
    let new := new_of_distro o x dt D tot hs u in
    (forall s, In s new -> (s_cell s < ic_nx o * (if Nat.eqb (ic_dims o) 3 then ic_ny o else 1) * ic_nz o)%nat /\ s_kpa s = x_kappa D /\
       exp (3 * x_lo D) <= s_rd3 s < exp (3 * x_hi D)) /\
    forall b k, (b < nb)%nat -> (k < ic_nz o)%nat ->
      let E := target o D nb b k in
      let H := existing o D nb b k pop in
      let added := filter (counted (ic_nz o) k (x_kappa D) (x_kappa D + 1) (bin_edge D nb b) (bin_edge D nb (S b))) new in
      (in_altitudes o D k -> x_tolerance x * E < E - H -> 0 < E ->
         length added = m /\ Rabs (number added - (E - H) * Rmin (dt / x_timescale x) 1) <= INR m / 2) /\
      (~ in_altitudes o D k \/ E - H <= x_tolerance x * E \/ E <= 0 -> added = []) /\
      number added <= Rmax 0 (E - H) + INR m / 2.
Proof.
  intros o x dt pop D tot m hs u Go GD Hm Hper Hts Hdt Htol nb Hb HM Hu new.
  assert (Hin : forall b s, In s (new_in_bin o x dt D tot b (hs b) (u b)) ->
    (s_cell s < ic_nx o * (if Nat.eqb (ic_dims o) 3 then ic_ny o else 1) * ic_nz o)%nat /\ s_kpa s = x_kappa D /\ edge x D tot b <= s_rd3 s < edge x D tot (S b)).
  { intros b s. apply (in_new o x dt D tot m Go GD Hm Hb (hs b) (u b) (Hu b)). }
  assert (E0 : edge x D tot 0 = exp (3 * x_lo D)) by (unfold edge; f_equal; cbn [INR]; ring).
  assert (E1 : edge x D tot nb = exp (3 * x_hi D)). { unfold edge, bin_size. fold nb. f_equal. field. apply not_0_INR. lia. }
  assert (Mono : forall b c, (b <= c)%nat -> edge x D tot b <= edge x D tot c) by (intros; now apply (edge_mono x D tot GD Hb)).
  split.
  - intros s Hs. apply in_flat_map in Hs. destruct Hs as (b & Hbb & Hs). apply in_seq in Hbb. destruct (Hin b s Hs) as (A & B & C). split; [exact A|]. split; [exact B|].
    rewrite <- E0, <- E1. assert (M0 := Mono 0%nat b ltac:(lia)). assert (M1 := Mono (S b) nb ltac:(fold nb in Hbb; lia)). lra.
  - intros b k Hbn Hk E H added.
    assert (EA : added = filter (fun s => Nat.eqb (s_cell s mod ic_nz o) k) (new_in_bin o x dt D tot b (hs b) (u b))).
    { unfold added, new, new_of_distro. fold nb. rewrite (filter_flat_map _ _ b).
      - apply filter_ext_in'. intros s Hs. destruct (Hin b s Hs) as (_ & B & C). unfold counted. rewrite B.
        change (bin_edge D nb b) with (edge x D tot b). change (bin_edge D nb (S b)) with (edge x D tot (S b)).
        destruct (Rleb (x_kappa D) (x_kappa D)) eqn:K1; [|apply Rleb_false in K1; lra]. destruct (Rltb (x_kappa D) (x_kappa D + 1)) eqn:K2; [|apply Rltb_false in K2; lra].
        destruct (Rleb (edge x D tot b) (s_rd3 s)) eqn:K3; [|apply Rleb_false in K3; lra]. destruct (Rltb (s_rd3 s) (edge x D tot (S b))) eqn:K4; [|apply Rltb_false in K4; lra].
        cbn [andb]. now rewrite !andb_true_r.
      - apply seq_NoDup.
      - apply in_seq. lia.
      - intros c s _ Hcb Hs. destruct (Hin c s Hs) as (_ & _ & C). unfold counted. change (bin_edge D nb b) with (edge x D tot b). change (bin_edge D nb (S b)) with (edge x D tot (S b)).
        apply andb_false_intro2. destruct (Nat.lt_ge_cases c b) as [L|L].
        + apply andb_false_intro1. destruct (Rleb (edge x D tot b) (s_rd3 s)) eqn:K3; [|reflexivity]. apply Rleb_true in K3. assert (M := Mono (S c) b ltac:(lia)). lra.
        + apply andb_false_intro2. destruct (Rltb (s_rd3 s) (edge x D tot (S b))) eqn:K4; [|reflexivity]. apply Rltb_true in K4. assert (M := Mono (S b) c ltac:(lia)). lra. }
    rewrite EA. destruct (bin_amount o x dt D tot m Go Hm Hper Hts Hdt Htol Hb (hs b) (u b) (Hu b) b k Hk) as (P & Q).
    rewrite (measured_existing o x D tot pop b (hs b) k (HM b)) in P, Q. fold nb in P, Q. fold H in P, Q.
    set (new1 := filter (fun s => Nat.eqb (s_cell s mod ic_nz o) k) (new_in_bin o x dt D tot b (hs b) (u b))) in *. clearbody new1.
    assert (T0 : 0 <= E) by (now apply target_nonneg).
    assert (HMm : 0 < INR m) by (apply lt_0_INR; lia).
    destruct (expected_cases o x D tot Go GD b k) as [(Ha & EE)|(Ha & EE)]; rewrite EE in P, Q; [fold nb in P, Q; fold E in P, Q|].
    + split; [intros _; exact P|]. split; [intros [N|N]; [contradiction|now apply Q]|].
      destruct (Rlt_dec (x_tolerance x * E) (E - H)) as [L|L]; [destruct (Rlt_dec 0 E) as [L0|L0]|].
      * destruct (P L L0) as (_ & B). assert (Hal : 0 <= Rmin (dt / x_timescale x) 1 <= 1).
        { split; [apply Rmin_glb; [apply Rmult_le_pos; [lra|left; now apply Rinv_0_lt_compat]|lra]|apply Rmin_r]. }
        set (al := Rmin (dt / x_timescale x) 1) in *. clearbody al. assert (0 <= x_tolerance x * E) by (apply Rmult_le_pos; lra).
        rewrite Rmax_right by lra. apply Rabs_def2' in B || (unfold Rabs in B; destruct (Rcase_abs _) in B); nra.
      * rewrite Q by (right; lra). unfold number. cbn. assert (0 <= Rmax 0 (E - H)) by apply Rmax_l. lra.
      * rewrite Q by (left; lra). unfold number. cbn. assert (0 <= Rmax 0 (E - H)) by apply Rmax_l. lra.
    + split; [intros N; contradiction|]. split; [intros _; apply Q; right; lra|]. rewrite Q by (right; lra). unfold number. cbn. assert (0 <= Rmax 0 (E - H)) by apply Rmax_l. lra.
Qed.
Print Assumptions C60_relaxation_partial.

(** Several distributions: each is treated alone, from the same existing super-droplets, and the bins of all together are at most rlx_bins. *)
Theorem C60_several :
  forall o x dt l tot hs u,
    new_of_all o x dt tot l hs u = concat (map (fun i => new_of_distro o x dt (nth i l {| x_kappa := 0; x_f := fun _ => 0; x_lo := 0; x_hi := 0; x_kmin := 0; x_kmax := 0; x_zmin := 0; x_zmax := 0 |}) tot (hs i) (u i)) (seq 0 (length l))) /\
    ((forall D, In D l -> x_lo D < x_hi D) -> l <> [] -> INR (list_sum (map (fun D => n_bins x D (tot_rng l)) l)) <= N2R (x_bins x)).
Proof.
  intros o x dt l tot hs u. split.
  - revert hs u; induction l as [|D l IH]; intros hs u; [reflexivity|]. cbn [new_of_all length seq map concat nth]. f_equal. rewrite IH. f_equal.
    rewrite <- seq_shift, map_map. reflexivity.
  - intros H Hne.
    assert (S : tot_rng l = lsumR (map (fun D => x_hi D - x_lo D) l)).
    { unfold tot_rng. assert (G : forall l s, fold_left (fun s D => s + (x_hi D - x_lo D)) l s = s + lsumR (map (fun D => x_hi D - x_lo D) l)).
      { clear. induction l as [|D l IH]; intros s; [cbn; lra|]. cbn [fold_left map]. rewrite IH. cbn [lsumR fold_right]. unfold lsumR. cbn [fold_right]. lra. }
      rewrite G. lra. }
    assert (Hpos : 0 < tot_rng l).
    { rewrite S. destruct l as [|D l']; [contradiction|]. cbn [map]. change (0 < (x_hi D - x_lo D) + lsumR (map (fun D => x_hi D - x_lo D) l')).
      assert (x_lo D < x_hi D) by (apply H; now left). assert (0 <= lsumR (map (fun D => x_hi D - x_lo D) l')); [|lra].
      assert (H' : forall D, In D l' -> x_lo D < x_hi D) by (intros; apply H; now right). clear - H'. induction l' as [|D' l' IH]; [cbn; lra|]. cbn [map].
      change (0 <= (x_hi D' - x_lo D') + lsumR (map (fun D => x_hi D - x_lo D) l')). assert (x_lo D' < x_hi D') by (apply H'; now left). assert (0 <= lsumR (map (fun D => x_hi D - x_lo D) l')) by (apply IH; intros; apply H'; now right). lra. }
    set (t := tot_rng l) in *. clearbody t.
    assert (G : forall l', (forall D, In D l' -> x_lo D < x_hi D) -> INR (list_sum (map (fun D => n_bins x D t) l')) <= N2R (x_bins x) * lsumR (map (fun D => x_hi D - x_lo D) l') / t).
    { induction l' as [|D l' IH]; intros H'; [cbn; unfold Rdiv; lra|]. cbn [map list_sum fold_right]. change (fold_right Nat.add 0%nat (map (fun D0 => n_bins x D0 t) l')) with (list_sum (map (fun D0 => n_bins x D0 t) l')).
      change (lsumR (x_hi D - x_lo D :: map (fun D0 => x_hi D0 - x_lo D0) l')) with ((x_hi D - x_lo D) + lsumR (map (fun D0 => x_hi D0 - x_lo D0) l')).
      rewrite plus_INR. assert (A := IH ltac:(intros; apply H'; now right)). assert (x_lo D < x_hi D) by (apply H'; now left).
      assert (P : 0 <= N2R (x_bins x) * (x_hi D - x_lo D) / t). { apply Rmult_le_pos; [apply Rmult_le_pos; [apply N2R_nonneg|lra]|left; now apply Rinv_0_lt_compat]. }
      destruct (truncN_spec _ P) as (B & _). unfold n_bins at 1. unfold Rdiv in *. rewrite Rmult_plus_distr_l, Rmult_plus_distr_r. lra. }
    specialize (G l H). rewrite <- S in G. unfold Rdiv in G. rewrite Rmult_assoc, Rinv_r, Rmult_1_r in G by lra. exact G.
Qed.
Print Assumptions C60_several.
