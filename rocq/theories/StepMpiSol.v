(** C97: soluble material and hygroscopicity over whole runs on several MPI processes. *)
From Coq Require Import List Arith NArith ZArith Lia Reals Lra Psatz Permutation Sorted Bool Relations.
From Verif Require Import Base BaseProofs DistModel ExchProofs ExchInv ExchProps HskpngModel HskpngProofs MomsModel MomsProofs CoalModel CoalProofs
  SpaceModel SpaceProofs SpaceProps GridProps RcycModel RcycProofs RcycProps ThermoModel CondModel CondPassModel CondPassProofs CondPassProps
  CondPassProps2 CondPassProps3 CondPassProps4 FreezeProps StepModel StepProps StepSol StepMpiModel StepMpi.
Import ListNotations.
Local Open Scope R_scope.

(** ** the exchange and any function of the attributes other than the position *)
Section Any.
Variable g : list R -> R.
Hypothesis Hg : forall h (d : ExchProps.sd), g (snd (with_x ix_x h d)) = g (snd d).
Definition gw (d : ExchProps.sd) : R := N2R (fst d) * g (snd d).
Lemma gw_x h d : gw (with_x ix_x h d) = gw d.
Proof. unfold gw. change (fst (with_x ix_x h d)) with (fst d). rewrite Hg. reflexivity. Qed.
Lemma gsum_alive l : lsumR (map gw (filter alive l)) = lsumR (map gw l).
Proof.
  unfold lsumR. induction l as [|d l IH]; [reflexivity|]. cbn [filter map fold_right]. unfold alive at 1. destruct (N.eqb_spec (fst d) 0) as [E|E]; cbn [negb].
  - rewrite IH. unfold gw at 2. rewrite E. unfold N2R. cbn. lra.
  - cbn [map fold_right]. rewrite IH. reflexivity.
Qed.
Lemma gsum_world size off loc :
  lsumR (map gw (ExchProps.world ix_x size off loc)) = sumR size (fun i => lsumR (map gw (droplets (loc i)))).
Proof.
  unfold ExchProps.world. rewrite sum_flat, <- sumR_seq. apply sumR_ext. intros i _. rewrite map_map, <- (gsum_alive (droplets (loc i))).
  f_equal. apply map_ext. intros d. apply gw_x.
Qed.
Definition attr_list (F : setup) (W : world) (k : nat) : list R := map (fun v => vec_of W v k) (seq 0 (n_vec F)).
Definition gtotal (F : setup) (W : world) : R := sumR (p_np (w_P W)) (fun k => N2R (p_n (w_P W) k) * g (attr_list F W k)).
Lemma local_gtotal F W : gtotal F W = lsumR (map gw (droplets (local_of F W))).
Proof. rewrite local_drops, map_map, <- sumR_seq. reflexivity. Qed.
Lemma received_attr F W l k : length (cols l) = n_vec F -> (k < length (ns l))%nat ->
  attr_list F (received F W l) k = map (fun c => nth k c 0) (cols l).
Proof.
  intros Hl Hk. unfold attr_list. transitivity (map (fun v => nth k (nth v (cols l) []) 0) (seq 0 (n_vec F))).
  - apply map_ext_in. intros v Hv. apply in_seq in Hv. apply received_vec; [exact Hk|lia].
  - rewrite <- Hl. rewrite <- (map_map (fun v => nth v (cols l) []) (fun c => nth k c 0)). rewrite map_seq_nth. reflexivity.
Qed.
Lemma received_mult F W l k : (k < length (ns l))%nat -> p_n (w_P (received F W l)) k = nth k (ns l) 0%N.
Proof. intros Hk. unfold received, with_pop. cbn [w_P p_n np mult]. destruct (Nat.ltb_spec k (length (ns l))); [reflexivity|lia]. Qed.
Lemma received_gtotal F W l : length (cols l) = n_vec F -> gtotal F (received F W l) = lsumR (map gw (droplets l)).
Proof.
  intros Hl. unfold droplets. rewrite map_map, <- sumR_seq. unfold gtotal. change (p_np (w_P (received F W l))) with (length (ns l)).
  apply sumR_ext. intros k Hk. rewrite received_attr, received_mult by assumption. reflexivity.
Qed.
End Any.

Section Cluster.
Variable C : cluster.
Hypothesis HC : cluster_ok C.
Variable t : xstates.
Let size := k_size C.
Let F i := k_F C i.
Let A i := at_added (x_s t i).
Let Wl i := walls (F i) (A i).
Let L i := local_of (F i) (Wl i).
Let c := rank_of C (x_bufs t) (fun i => ids_of (F i) (A i)).
Hypothesis HL : forall i, (i < size)%nat -> loose (F i) (A i).
Hypothesis HN : forall i, (i < size)%nat -> close_by (F i) (A i).

Lemma exch_any V (g : list R -> R) (p : list R -> Prop) :
  (forall h (d : ExchProps.sd), g (snd (with_x ix_x h d)) = g (snd d)) ->
  (forall h (d : ExchProps.sd), p (snd (with_x ix_x h d)) <-> p (snd d)) ->
  exchange C (x_adve t) (x_bufs t) A V ->
  (if x_adve t then reachable C t /\ buffers_ok C t else at_home C t) ->
  (forall i k, (i < size)%nat -> (k < p_np (w_P (Wl i)))%nat -> p_n (w_P (Wl i)) k <> 0%N -> p (attr_list (F i) (Wl i) k)) ->
  sumR size (fun i => gtotal g (F i) (V i)) = sumR size (fun i => gtotal g (F i) (Wl i)) /\
  forall i k, (i < size)%nat -> (k < p_np (w_P (V i)))%nat -> p_n (w_P (V i)) k <> 0%N -> p (attr_list (F i) (V i) k).
Proof.
  intros Hg Hp HE HX HP. unfold exchange in HE. cbv zeta in HE. destruct (x_adve t).
  2:{ change (forall i, (i < size)%nat -> V i = Wl i) in HE. split.
      - apply sumR_ext. intros i Hi. rewrite (HE i Hi). reflexivity.
      - intros i k Hi. rewrite (HE i Hi). apply HP, Hi. }
  destruct HE as (s & Hrun & Hend & Hthr & HV).
  change (clos_refl_trans_1n _ (DistModel.step size ix_x c) (start (fun i => bcnd_flag (c i) (L i))) (Run s)) in Hrun.
  change (forall y, ~ DistModel.step size ix_x c (Run s) y) in Hend.
  change (forall i, (i < size)%nat -> V i = received (F i) (Wl i) (loc s i)) in HV. destruct HX as [HX HB]. pose proof (ring C HC t HL HN HX HB) as RS.
  destruct (C16_exchange size ix_x (n_vec (F 0%nat)) (k_periodic C) (k_off C) c L RS (Run s) Hrun Hend) as (s' & Eg & PM & _ & CL & _).
  injection Eg as <-.
  assert (NV : forall i, (i < size)%nat -> length (cols (loc s i)) = n_vec (F i)).
  { intros i Hi. rewrite (proj1 (CL i Hi)). symmetry. apply (nv_eq C HC i Hi). }
  split.
  - transitivity (sumR size (fun i => lsumR (map (gw g) (droplets (loc s i))))).
    { apply sumR_ext. intros i Hi. rewrite (HV i Hi). apply received_gtotal, NV, Hi. }
    transitivity (sumR size (fun i => lsumR (map (gw g) (droplets (L i))))).
    2:{ apply sumR_ext. intros i Hi. symmetry. apply local_gtotal. }
    rewrite <- (gsum_world g Hg size (k_off C) (loc s)). rewrite <- (gsum_world g Hg size (k_off C) L).
    rewrite (lsumR_perm _ _ (Permutation_map (gw g) PM)). unfold through_walls. destruct (k_periodic C) eqn:EP.
    + rewrite map_map. f_equal. apply map_ext. intros d. apply gw_x, Hg.
    + rewrite filter_same; [reflexivity|]. apply (in_domain C HC t HL HN HX EP).
  - intros i k Hi Hk Hn. rewrite (HV i Hi) in *. change (p_np (w_P (received (F i) (Wl i) (loc s i)))) with (length (ns (loc s i))) in Hk.
    rewrite received_mult in Hn by exact Hk. rewrite received_attr by (auto using NV).
    assert (IN : In (nth k (ns (loc s i)) 0%N, map (fun v => nth k v 0) (cols (loc s i))) (droplets (loc s i))).
    { unfold droplets. apply (in_map (fun k => (nth k (ns (loc s i)) 0%N, map (fun v => nth k v 0) (cols (loc s i))))). apply in_seq. lia. }
    set (d := (nth k (ns (loc s i)) 0%N, map (fun v => nth k v 0) (cols (loc s i)))) in *.
    assert (AL : alive d = true) by (unfold alive; apply negb_true_iff, N.eqb_neq; exact Hn).
    assert (IW : In (with_x ix_x (Rplus (k_off C i)) d) (ExchProps.world ix_x size (k_off C) (loc s))).
    { unfold ExchProps.world. apply in_flat_map. exists i. split; [apply in_seq; lia|]. apply in_map, filter_In. auto. }
    apply (Permutation_in _ PM) in IW.
    assert (Q : exists d2 h, In d2 (ExchProps.world ix_x size (k_off C) L) /\ (with_x ix_x (Rplus (k_off C i)) d = with_x ix_x h d2 \/ with_x ix_x (Rplus (k_off C i)) d = d2)).
    { unfold through_walls in IW. destruct (k_periodic C).
      - apply in_map_iff in IW. destruct IW as (d2 & E & I2). exists d2. eexists. split; [exact I2|]. left. symmetry. exact E.
      - apply filter_In in IW. eexists. exists (fun x => x). split; [apply IW|]. right. reflexivity. }
    destruct Q as (d2 & h & I2 & Q). unfold ExchProps.world in I2. apply in_flat_map in I2. destruct I2 as (j & Hj & I2). apply in_seq in Hj.
    apply in_map_iff in I2. destruct I2 as (d3 & E3 & I3). apply filter_In in I3. destruct I3 as [I3 A3].
    assert (Hj' : (j < size)%nat) by lia.
    assert (S3 : p (snd d3)).
    { unfold L in I3. rewrite local_drops in I3. apply in_map_iff in I3. destruct I3 as (k3 & <- & Hk3). apply in_seq in Hk3.
      unfold alive in A3. cbn [fst] in A3. apply negb_true_iff, N.eqb_neq in A3. cbn [snd]. apply (HP j k3 Hj' (proj2 Hk3) A3). }
    change (p (snd d)). apply (Hp (Rplus (k_off C i)) d).
    apply (Hp (Rplus (k_off C j)) d3) in S3. rewrite E3 in S3.
    destruct Q as [->| ->]; [apply Hp; exact S3|exact S3].
Qed.
End Cluster.

(** ** the parts of a step *)
Definition sol_of (l : list R) : R := nth 2 l 0 * (4 / 3 * PI * nth 0 l 0).
Definition aero_of (lo hi : R) (l : list R) : Prop := 0 < nth 0 l 0 /\ lo <= nth 2 l 0 <= hi.
Lemma sol_x h (d : ExchProps.sd) : sol_of (snd (with_x ix_x h d)) = sol_of (snd d).
Proof. unfold sol_of. rewrite !other_attr by discriminate. reflexivity. Qed.
Lemma aero_x lo hi h (d : ExchProps.sd) : aero_of lo hi (snd (with_x ix_x h d)) <-> aero_of lo hi (snd d).
Proof. unfold aero_of. rewrite !other_attr by discriminate. reflexivity. Qed.
Lemma at_vec F W k v : (v < 14)%nat -> nth v (map (fun v => vec_of W v k) (seq 0 (n_vec F))) 0 = vec_of W v k.
Proof. intros Hv. pose proof (vec14 F). rewrite nth_map_seq by lia. reflexivity. Qed.
Lemma sol_total F W : gtotal sol_of F W = soluble W.
Proof. unfold gtotal, soluble, of_one, sol_of, attr_list. apply sumR_ext. intros k _. rewrite !at_vec by lia. reflexivity. Qed.
Lemma aero_attr lo hi F W k : aero_of lo hi (attr_list F W k) <-> aerosol_at lo hi W k.
Proof. unfold aero_of, aerosol_at, attr_list. rewrite !at_vec by lia. reflexivity. Qed.
(** super-droplets with droplets *)
Definition aero_live (lo hi : R) (W : world) : Prop := forall i, (i < p_np (w_P W))%nat -> p_n (w_P W) i <> 0%N -> aerosol_at lo hi W i.

Lemma first_sol G lo hi so s : setup_ok G -> 0 <= lo -> first_part G so s ->
  o_parcel (so_c so) = f_parcel G -> o_ice (so_c so) = f_ice G -> o_exact (so_c so) = f_exact G -> (1 <= o_sstp (so_c so))%nat ->
  (f_ice G = true -> so_coal so = false) -> accurate so (at_synced s) -> state_ok G (at_start s) ->
  sources_ok lo hi s -> aerosol_ok lo hi (at_start s) ->
  aerosol_ok lo hi (at_added s) /\ ((so_coal so = true -> mixed G) -> soluble (at_added s) = soluble (at_start s) + brought s).
Proof.
  intros HG Hlo (W2 & W3 & W4 & W5 & H1 & H2 & H3 & H4 & H5 & H6 & H7) K1 K2 K3 K4 K5 K6 HW HS HA.
  destruct (sync_part G so _ _ H1 HW) as (A1 & A2 & A3 & _).
  assert (SA1 : same_aero (at_start s) (at_synced s)) by (unfold same_aero; rewrite A2; auto).
  destruct (nucl_part G so _ _ H2 K1 K2 A1) as ((B1 & B2 & B3 & B4) & B5 & B6 & B7 & B8 & B9).
  pose proof (nucl_same G so _ _ H2) as SA2.
  assert (AC : accurate so W2).
  { intros Hc. destruct (K6 Hc) as [Q|[Q|(Q1 & Q2 & Q3 & Q4)]]; [left; exact Q|right; left; exact Q|right; right].
    split; [exact Q1|]. split; [exact Q2|]. split; [exact Q3|]. intros i Hi. rewrite B7, B8, B9. apply Q4. rewrite <- B6. exact Hi. }
  destruct (cond_step G HG so _ _ H3 K1 K2 K3 K4 AC B1) as ((D1 & _) & _).
  pose proof (cond_same G so _ _ H3 K4 B1) as SA3.
  destruct (prepare_part G so _ _ H4 K1 D1) as ((E1 & _) & _).
  assert (SA4 : same_aero W3 W4) by (destruct H4 as (v & ->); repeat split).
  pose proof (same_aerosol lo hi _ _ SA4 (same_aerosol lo hi _ _ SA3 (same_aerosol lo hi _ _ SA2 (same_aerosol lo hi _ _ SA1 HA)))) as HA4.
  destruct (coalescence_part G so _ _ H5 K5 E1) as ((G1 & _) & _).
  destruct (coalescence_sol G lo hi Hlo so _ _ H5 K5 E1 HA4) as (G2 & G3).
  destruct (motion_part G _ _ H6 G1) as (I1 & I2 & _).
  assert (SA6 : same_aero W5 (at_moved s)) by (destruct H6 as (a & b & x & y & z & _ & E); rewrite E; repeat split).
  destruct (sources_sol G lo hi s H7 HS (same_aerosol lo hi _ _ SA6 G2)) as (J3 & J4).
  split; [exact J3|]. intros HM. specialize (G3 HM).
  pose proof (same_soluble _ _ SA1). pose proof (same_soluble _ _ SA2). pose proof (same_soluble _ _ SA3). pose proof (same_soluble _ _ SA4).
  pose proof (same_soluble _ _ SA6). lra.
Qed.
Lemma walls_sol_mpi C i0 lo hi s : rank_ok C i0 -> aerosol_ok lo hi (at_added s) ->
  let F := k_F C i0 in let W := at_added s in aerosol_ok lo hi (walls F W) /\ soluble (walls F W) + carried_out F s = soluble W.
Proof.
  intros HR HA F W. split; [exact HA|]. fold W in HA. pose proof HR as (_ & _ & _ & _ & _ & _ & _ & _ & _ & G10 & _). fold F in G10.
  set (P := w_P W) in *. set (l := map (bsd_of W) (seq 0 (p_np P))). set (o := f_b F) in *.
  assert (LL : length l = p_np P) by (unfold l; rewrite map_length, seq_length; reflexivity).
  assert (NL : forall i d, (i < p_np P)%nat -> nth i l d = bsd_of W i).
  { intros i d Hi. unfold l. rewrite (nth_indep _ d (bsd_of W 0%nat)) by (rewrite map_length, seq_length; exact Hi).
    rewrite map_nth, seq_nth by exact Hi. reflexivity. }
  unfold carried_out. fold W P. unfold soluble at 2. unfold soluble. unfold walls at 1. cbn [w_P set_mult p_np]. fold P. rewrite <- sumR_plus.
  apply sumR_ext. intros i Hi. change (of_one (walls F W) i) with (of_one W i). unfold walls. cbn [w_P set_mult p_n]. fold P l o. unfold is_out. fold o.
  destruct (f_parcel F) eqn:EP.
  - unfold f_parcel in EP. fold o in EP. unfold bcnd. rewrite EP. cbn [fst negb andb]. rewrite NL by exact Hi. cbn [bsd_of b_n]. fold P. ring.
  - assert (E0 : n_dims o <> 0%nat) by (intros E; unfold f_parcel in EP; fold o in EP; rewrite E in EP; discriminate).
    destruct (proj2 (C09_exactly_those_outside_are_removed o l (w_pud W) (bsd_of W i) E0 (proj2 G10)) i ltac:(lia)) as [Q _].
    rewrite NL in Q by exact Hi. rewrite Q. change (b_n (bsd_of W i)) with (p_n P i). cbn [negb andb].
    destruct (_ || _); [change (N2R 0) with 0|]; ring.
Qed.
Lemma tidy_sol_mpi F lo hi so V W' : tidy F so V W' -> (p_np (w_P V) <= f_max F)%nat ->
  (so_rcyc so = true -> pure_const_multi (f_co F) = true \/ has_one (pop_of V) \/ (2 * number_of_zeros (pop_of V) <= p_np (w_P V))%nat) ->
  aero_live lo hi V -> aerosol_ok lo hi W' /\ soluble W' = soluble V.
Proof.
  intros (gar & garn & tmp & sid & sched & p' & Hsort & Hsch & Hc & ->) O1 Hd HA.
  set (p := pop_of V) in *.
  assert (RI : rcyc_inputs (f_max F) p tmp sid sched) by (split; [exact O1|split; [exact Hsort|exact Hsch]]).
  assert (NZ : forall k, (k < np p')%nat -> mult p' k <> 0%N).
  { apply (proj2 (C06_no_zero_left_iff_partial _ _ _ _ _ _ _ _ _ _ _ _ RI Hc)). destruct (so_rcyc so); [|auto].
    destruct (Hd eq_refl) as [A|[A|A]]; auto. }
  destruct (origin _ _ _ _ _ _ _ _ _ _ _ _ RI Hc) as [NP OR].
  assert (V14 : (14 <= n_vec F)%nat) by (unfold n_vec; destruct (f_exact F); lia).
  split.
  - intros k Hk. unfold with_pop in Hk. cbn [w_P p_np] in Hk. destruct (OR k Hk (NZ k Hk)) as (j & J1 & J2 & J3 & J4).
    assert (AT : forall v, (v < 14)%nat -> vec p' v k = vec_of V v j).
    { intros v Hv. rewrite <- (nth_attrs (n_vec F) p' k v) by lia. rewrite J4, nth_attrs by lia. reflexivity. }
    unfold aerosol_at, with_pop. cbn [w_P p_rd3 p_kpa]. destruct (Nat.ltb_spec k (np p')) as [_|Hl]; [|lia]. rewrite !AT by lia. exact (HA j J1 J2).
  - destruct (C05_totals_conserved gar garn (f_max F) (n_vec F) 0 (pure_const_multi (f_co F)) tmp sid sched (so_rcyc so) p
        (fun l => nth 2 l 0 * (4 / 3 * PI * nth 0 l 0)) RI) as (p2 & E & T). rewrite Hc in E. injection E as <-. unfold total in T. unfold soluble.
    transitivity (sumR (np p') (fun i => N2R (mult p' i) * (nth 2 (attrs (n_vec F) 0 p' i) 0 * (4 / 3 * PI * nth 0 (attrs (n_vec F) 0 p' i) 0)))).
    + unfold with_pop, of_one. cbn [w_P p_np p_n p_rd3 p_kpa]. apply sumR_ext. intros i Hi. destruct (Nat.ltb_spec i (np p')); [|lia].
      rewrite !nth_attrs by lia. reflexivity.
    + rewrite T. unfold p, pop_of. cbn [np mult]. apply sumR_ext. intros i Hi. rewrite !nth_attrs by lia. reflexivity.
Qed.

(** ** a step *)
Definition clean (C : cluster) (lo hi : R) (W : nat -> world) : Prop := forall i, (i < k_size C)%nat -> aerosol_ok lo hi (W i).
Definition clean_sources (C : cluster) (lo hi : R) (t : xstates) : Prop := forall i, (i < k_size C)%nat -> sources_ok lo hi (x_s t i).
(** every process mixes, or has no collisions in this step *)
Definition mixing (C : cluster) (t : xstates) : Prop := forall i, (i < k_size C)%nat -> so_coal (x_so t i) = true -> mixed (k_F C i).
Lemma mpi_sol C lo hi t : 0 <= lo -> cluster_ok C -> xstep C t -> xstep_ok C t -> clean_sources C lo hi t -> states_ok C (fun i => at_start (x_s t i)) ->
  clean C lo hi (fun i => at_start (x_s t i)) ->
  clean C lo hi (fun i => at_end (x_s t i)) /\
  (mixing C t -> all C (fun _ => soluble) (fun i => at_end (x_s t i)) + sumR (k_size C) (fun i => carried_out (k_F C i) (x_s t i)) =
                 all C (fun _ => soluble) (fun i => at_start (x_s t i)) + sumR (k_size C) (fun i => brought (x_s t i))).
Proof.
  intros Hlo HC (X1 & X2 & X3) (O1 & O2) HS HW HA.
  set (V := x_recv t) in *.
  assert (FB : forall i, (i < k_size C)%nat -> loose (k_F C i) (at_added (x_s t i)) /\ close_by (k_F C i) (at_added (x_s t i))).
  { intros i Hi. destruct (O1 i Hi) as (K1 & K2 & K3 & K4 & K5 & K6 & _).
    destruct (first_budget (alone (k_F C i)) (x_so t i) (x_s t i) (alone_ok C i (proj1 (proj2 HC) i Hi)) (first_alone _ _ _ (X1 i Hi)) K1 K2 K3 K4 K5 K6 (HW i Hi)) as (Q1 & Q2 & _).
    split; [exact Q1|exact Q2]. }
  assert (FS : forall i, (i < k_size C)%nat -> aerosol_ok lo hi (at_added (x_s t i)) /\
     ((so_coal (x_so t i) = true -> mixed (k_F C i)) -> soluble (at_added (x_s t i)) = soluble (at_start (x_s t i)) + brought (x_s t i))).
  { intros i Hi. destruct (O1 i Hi) as (K1 & K2 & K3 & K4 & K5 & K6 & _).
    exact (first_sol (alone (k_F C i)) lo hi (x_so t i) (x_s t i) (alone_ok C i (proj1 (proj2 HC) i Hi)) Hlo (first_alone _ _ _ (X1 i Hi)) K1 K2 K3 K4 K5 K6
      (HW i Hi) (HS i Hi) (HA i Hi)). }
  assert (WS : forall i, (i < k_size C)%nat -> aerosol_ok lo hi (walls (k_F C i) (at_added (x_s t i))) /\
     soluble (walls (k_F C i) (at_added (x_s t i))) + carried_out (k_F C i) (x_s t i) = soluble (at_added (x_s t i))).
  { intros i Hi. exact (walls_sol_mpi C i lo hi (x_s t i) (proj1 (proj2 HC) i Hi) (proj1 (FS i Hi))). }
  assert (HL : forall i, (i < k_size C)%nat -> loose (k_F C i) (at_added (x_s t i))) by (intros i Hi; apply FB, Hi).
  assert (HN : forall i, (i < k_size C)%nat -> close_by (k_F C i) (at_added (x_s t i))) by (intros i Hi; apply FB, Hi).
  destruct (exch_part C HC t HL HN V X2 O2) as (EX & _).
  destruct (exch_any C HC t HL HN V sol_of (aero_of lo hi) sol_x (aero_x lo hi) X2 O2) as (SUM & PRE).
  { intros i k Hi Hk _. apply aero_attr. apply (WS i Hi). exact Hk. }
  assert (TD : forall i, (i < k_size C)%nat -> aerosol_ok lo hi (at_end (x_s t i)) /\ soluble (at_end (x_s t i)) = soluble (V i)).
  { intros i Hi. apply (tidy_sol_mpi (k_F C i) lo hi (x_so t i) (V i) _ (X3 i Hi)).
    - apply (EX i Hi).
    - apply (O1 i Hi).
    - intros k Hk Hn. apply (aero_attr lo hi (k_F C i)). exact (PRE i k Hi Hk Hn). }
  split; [intros i Hi; apply (TD i Hi)|]. intros HM. unfold all.
  rewrite <- !sumR_plus.
  assert (Q : forall i, (i < k_size C)%nat -> soluble (at_end (x_s t i)) + carried_out (k_F C i) (x_s t i) =
     (soluble (at_start (x_s t i)) + brought (x_s t i)) + (gtotal sol_of (k_F C i) (V i) + (-1) * gtotal sol_of (k_F C i) (walls (k_F C i) (at_added (x_s t i))))).
  { intros i Hi. rewrite !sol_total. pose proof (proj2 (FS i Hi) (HM i Hi)). pose proof (proj2 (WS i Hi)). pose proof (proj2 (TD i Hi)). lra. }
  rewrite (sumR_ext (k_size C) _ _ Q). apply (sum_split (k_size C) _). exact SUM.
Qed.

(** ** C97 *)
(** C97, hygroscopicity: whatever happens in a run, on whichever process a super-droplet is, its hygroscopicity stays within the range of
    those at the start and in sources, and its aerosol never vanishes *)
Theorem C97_range C lo hi W l W' : 0 <= lo -> cluster_ok C -> xrun C W l W' -> states_ok C W -> Forall (xstep_ok C) l ->
  Forall (clean_sources C lo hi) l -> clean C lo hi W -> clean C lo hi W'.
Proof.
  intros Hlo HC H. induction H as [W|t l W' Hs Hr IH]; intros HW HO HS HA; [exact HA|].
  inversion HO as [|? ? HO1 HO2]; subst. inversion HS as [|? ? HS1 HS2]; subst.
  destruct (mpi_step C t HC Hs HO1 HW) as (A1 & _). apply (IH A1 HO2 HS2). apply (mpi_sol C lo hi t Hlo HC Hs HO1 HS1 HW HA).
Qed.
(** C97, soluble material: with mixing, or without collisions, the soluble material in the whole domain changes only by what sources bring
    and what leaves through open boundaries or falls out *)
Theorem C97_soluble_partial C lo hi W l W' : 0 <= lo -> cluster_ok C -> xrun C W l W' -> states_ok C W -> Forall (xstep_ok C) l ->
  Forall (clean_sources C lo hi) l -> clean C lo hi W -> Forall (mixing C) l ->
  all C (fun _ => soluble) W' + xover C carried_out l = all C (fun _ => soluble) W + xover C (fun _ => brought) l.
Proof.
  intros Hlo HC H. induction H as [W|t l W' Hs Hr IH]; intros HW HO HS HA HM; [unfold xover; cbn; lra|].
  inversion HO as [|? ? HO1 HO2]; subst. inversion HS as [|? ? HS1 HS2]; subst. inversion HM as [|? ? HM1 HM2]; subst.
  destruct (mpi_step C t HC Hs HO1 HW) as (A1 & _). destruct (mpi_sol C lo hi t Hlo HC Hs HO1 HS1 HW HA) as (B1 & B2).
  specialize (B2 HM1). specialize (IH A1 HO2 HS2 B1 HM2).
  assert (OV : forall f, xover C f (t :: l) = sumR (k_size C) (fun i => f (k_F C i) (x_s t i)) + xover C f l) by (intros f; reflexivity). rewrite !OV. lra.
Qed.

(** an instance: in the run of C95_instance the aerosol of both processes has hygroscopicity 1, and what falls out takes 3/11 of it away *)
Theorem C97_instance : exists t W',
  cluster_ok mx_C /\ states_ok mx_C mx_W /\ xrun mx_C mx_W [t] W' /\ Forall (xstep_ok mx_C) [t] /\
  Forall (clean_sources mx_C (1 / 2) 2) [t] /\ clean mx_C (1 / 2) 2 mx_W /\ Forall (mixing mx_C) [t] /\
  all mx_C (fun _ => soluble) mx_W = 11 * (4 / 3 * PI) /\ all mx_C (fun _ => soluble) W' = 8 * (4 / 3 * PI).
Proof.
  destruct mx_run as (W' & V & H1 & H2 & _). exists (mx_t W' V), W'. split; [exact mx_cluster|]. split; [exact mx_state|]. split; [exact H1|]. split; [exact H2|].
  assert (S1 : Forall (clean_sources mx_C (1 / 2) 2) [mx_t W' V]).
  { constructor; [|constructor]. intros i Hi j Hj. exfalso. cbn [mx_t x_s at_moved at_added] in Hj. lia. }
  assert (S2 : clean mx_C (1 / 2) 2 mx_W).
  { intros i Hi k Hk. unfold aerosol_at, mx_W. cbn [w_P p_rd3 p_kpa]. lra. }
  assert (S3 : Forall (mixing mx_C) [mx_t W' V]).
  { constructor; [|constructor]. intros i Hi E. discriminate E. }
  assert (T : all mx_C (fun _ => soluble) mx_W = 11 * (4 / 3 * PI)).
  { unfold all, soluble, of_one. cbn [mx_C k_size sumR mx_W w_P p_np p_n p_kpa p_rd3 Nat.eqb]. unfold mx_n, N2R. cbn. lra. }
  split; [exact S1|]. split; [exact S2|]. split; [exact S3|]. split; [exact T|].
  pose proof (C97_soluble_partial mx_C (1 / 2) 2 mx_W [mx_t W' V] W' ltac:(lra) mx_cluster H1 mx_state H2 S1 S2 S3) as Q. rewrite T in Q.
  unfold xover in Q. cbn [map lsumR fold_right mx_C k_size sumR k_F] in Q.
  assert (B : forall i, brought (x_s (mx_t W' V) i) = 0).
  { intros i. unfold brought. cbv zeta. change (at_moved (x_s (mx_t W' V) i)) with (mx_A i). change (at_added (x_s (mx_t W' V) i)) with (mx_A i).
    apply sumR_0. intros k Hk. apply Nat.ltb_lt in Hk. rewrite Hk. ring. }
  rewrite !B in Q.
  assert (E0 : carried_out mx_F (x_s (mx_t W' V) 0%nat) = 3 * (4 / 3 * PI)).
  { unfold carried_out. cbv zeta. change (at_added (x_s (mx_t W' V) 0%nat)) with (mx_A 0%nat). change (p_np (w_P (mx_A 0%nat))) with 2%nat. cbn [sumR].
    unfold is_out, of_one. change (f_parcel mx_F) with false. cbn [negb andb].
    unfold left_sideways, left_top, left_bottom, has_vertical_walls.
    cbn [mx_F f_b mx_b n_dims periodic_topbot distmem lft_open rgt_open open_side_walls Nat.eqb Nat.ltb Nat.leb negb andb orb].
    cbn [bsd_of b_z z0 z1]. change (w_z (mx_A 0%nat) 0%nat) with (1 / 2). change (w_z (mx_A 0%nat) 1%nat) with (- (1)).
    cbn [orb]. change (z0 mx_b) with 0. change (z1 mx_b) with 1.
    rewrite ?(proj2 (Rltb_true (- (1)) 0)), ?(proj2 (Rltb_false (1 / 2) 0)), ?(proj2 (Rleb_false 1 (1 / 2))), ?(proj2 (Rleb_false 1 (- (1)))) by lra. cbn [orb andb].
    change (p_n (w_P (mx_A 0%nat)) 1%nat) with 3%N. change (p_kpa (w_P (mx_A 0%nat)) 1%nat) with 1. change (p_rd3 (w_P (mx_A 0%nat)) 1%nat) with 1.
    unfold N2R. cbn. lra. }
  assert (E1 : carried_out mx_F (x_s (mx_t W' V) 1%nat) = 0).
  { unfold carried_out. cbv zeta. change (at_added (x_s (mx_t W' V) 1%nat)) with (mx_A 1%nat). change (p_np (w_P (mx_A 1%nat))) with 1%nat. cbn [sumR].
    unfold is_out, of_one. change (f_parcel mx_F) with false. cbn [negb andb].
    unfold left_sideways, left_top, left_bottom, has_vertical_walls.
    cbn [mx_F f_b mx_b n_dims periodic_topbot distmem lft_open rgt_open open_side_walls Nat.eqb Nat.ltb Nat.leb negb andb orb].
    cbn [bsd_of b_z z0 z1]. change (w_z (mx_A 1%nat) 0%nat) with (1 / 2). change (z0 mx_b) with 0. change (z1 mx_b) with 1.
    rewrite ?(proj2 (Rltb_false (1 / 2) 0)), ?(proj2 (Rleb_false 1 (1 / 2))) by lra. cbn [orb andb]. lra. }
  rewrite E0, E1 in Q. lra.
Qed.

Print Assumptions C97_range.
Print Assumptions C97_soluble_partial.
Print Assumptions C97_instance.
