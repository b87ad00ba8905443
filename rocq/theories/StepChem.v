(** C94: nitrogen, carbon and sulphur over whole runs with chemistry. *)
From Coq Require Import List Arith NArith ZArith Lia Reals Lra Psatz Permutation Sorted Bool.
From Verif Require Import Base BaseProofs HskpngModel HskpngProofs MomsModel MomsProofs CoalModel CoalProofs CoalPairProofs CoalPassProofs CoalProps
  ThermoModel ThermoProofs SpaceModel SpaceProofs SpaceProps GridProps RcycModel RcycProofs RcycProps TomsModel TomsProps ChemModel ChemHenry ChemDissoc ChemReact ChemStep ChemDry ChemHistory
  StepModel StepProps StepChemModel.
Import ListNotations.
Local Open Scope R_scope.

(** ** Specification *)
(** the elements *)
Inductive element := nitrogen_V | nitrogen_III | carbon_IV | sulphur.
(** moles of an element in given masses of the dissolved compounds (HNO3, NH3 H2O, CO2 H2O, SO2 H2O and H2SO4; kg/mol) *)
Definition mol_in (e : element) (m : nat -> R) : R :=
  match e with
  | nitrogen_V => m HNO3 / (63 / 1000) | nitrogen_III => m NH3 / (35 / 1000) | carbon_IV => m CO2 / (62 / 1000)
  | sulphur => m SO2 / (82 / 1000) + m S_VI / (98 / 1000)
  end.
(** moles of an element in a kilogram of air, from the mass mixing ratios of gases (HNO3, NH3, CO2, SO2) *)
Definition mol_air (e : element) (a : nat -> R) : R :=
  match e with
  | nitrogen_V => a HNO3 / (63 / 1000) | nitrogen_III => a NH3 / (17 / 1000) | carbon_IV => a CO2 / (44 / 1000) | sulphur => a SO2 / (64 / 1000)
  end.
Definition cells_of (F : setup) : nat := n_cell (f_nx F) (f_ny F) (f_nz F).
(** a property w of a droplet (a function of the masses of compounds and the cube of the dry radius), summed over all droplets *)
Definition held (w : (nat -> R) -> R -> R) (W : kworld) : R :=
  let h := k_h W in sumR (h_np h) (fun i => N2R (h_n h i) * w (fun k => h_m h k i) (h_rd3 h i)).
Definition in_drops (e : element) : kworld -> R := held (fun m _ => mol_in e m).
Definition in_air (F : setup) (e : element) (W : kworld) : R :=
  let h := k_h W in sumR (cells_of F) (fun c => mol_air e (fun g => h_amb h g c) * (h_rhod h c * h_dv h c)).
Definition on_ground (e : element) (W : kworld) : R := mol_in e (p_chem (k_pud W)).
Definition have (F : setup) (e : element) (W : kworld) : R := in_air F e W + in_drops e W + on_ground e W.
(** brought by the host model, which sets gases and density; leaving through open side walls and the top *)
Definition k_host (F : setup) (e : element) (s : kstep_states) : R := in_air F e (ka_ready s) - in_air F e (ka_start s).
Definition k_escaped (F : setup) (w : (nat -> R) -> R -> R) (s : kstep_states) : R :=
  let W := ka_moved s in let h := k_h W in
  sumR (h_np h) (fun i =>
    if negb (f_parcel F) && (left_sideways (f_b F) (kbsd_of W i) || left_top (f_b F) (kbsd_of W i))
    then N2R (h_n h i) * w (fun k => h_m h k i) (h_rd3 h i) else 0).
Definition k_over (f : kstep_states -> R) (l : list (ksopts * kstep_states)) : R := lsumR (map (fun t => f (snd t)) l).

(** ** admissible runs *)
Definition ksetup_ok (F : setup) : Prop :=
  setup_ok F /\ CoalModel.chem_switch (f_co F) = true /\ chem_on (f_b F) = true.
Definition kstate_ok (F : setup) (W : kworld) : Prop :=
  let h := k_h W in
  (h_np h <= f_max F)%nat /\ (forall c, 0 < h_rhod h c /\ 0 < h_dv h c) /\ (forall i, (i < h_np h)%nat -> (h_ijk h i < cells_of F)%nat) /\
  (forall i, 0 <= h_rd3 h i /\ (h_n h i < 2 ^ 64)%N) /\ nn h.
(** [phys]: radii, temperatures and the time step are positive *)
(** recycling finds a donor for every super-droplet without droplets (C06); only multiplicities matter *)
Definition counts_only (h : chst) : pop := mk_pop (h_np h) (h_n h) (fun _ _ => 0) (fun _ => 0).
Definition kdonors (F : setup) (so : ksopts) (s : kstep_states) : Prop :=
  let h := k_h (kwalls F (ka_moved s)) in
  ko_rcyc so = true -> pure_const_multi (f_co F) = true \/ has_one (counts_only h) \/ (2 * number_of_zeros (counts_only h) <= h_np h)%nat.
Definition kstep_ok (F : setup) (t : ksopts * kstep_states) : Prop :=
  let so := fst t in let s := snd t in
  phys (ko_chem so) (k_h (ka_ready s)) /\ 0 < ho_rho (ko_chem so) /\ sorts_ok (k_h (ka_ready s)) (ka_sorts s) /\ kdonors F so s.

(** the number of the gas *)
Definition gas_of (e : element) : nat := match e with nitrogen_V => 0 | nitrogen_III => 1 | carbon_IV => 2 | sulphur => 3 end%nat.
(** in every substep of chemistry there is some of the gas of the element in every cell, before and after the exchange with droplets *)
Definition gas_lasts (F : setup) (e : element) (t : ksopts * kstep_states) : Prop :=
  let o := ko_chem (fst t) in let s := snd t in
  ho_dsl o || ho_dsc o || ho_rct o = true ->
  exists st, trajectory o (ka_sorts s) (k_h (ka_ready s)) (ho_sstp o) st /\
    forall k c, (k < ho_sstp o)%nat -> (c < cells_of F)%nat ->
      0 <= h_amb (sstp_step_chem (ho_allow o) (ho_var_rho o) (ho_sstp o) k (st k)) (gas_of e) c /\ 0 < h_amb (st (S k)) (gas_of e) c.
(** dry aerosol (as if of density rho) and sulfate, in droplets and on the ground *)
Definition dry_part (rho : R) : (nat -> R) -> R -> R := fun _ r => dry_mass rho r.
Definition sulfate_part : (nat -> R) -> R -> R := fun m _ => m S_VI.
Definition dry_aerosol (rho : R) (W : kworld) : R := held (dry_part rho) W + rho * p_dry_vol (k_pud W).
Definition sulfate (W : kworld) : R := held sulfate_part W + p_chem (k_pud W) S_VI.

(** ** the parts of a step *)
Lemma total_sum F e W : kstate_ok F W -> in_air F e W + in_drops e W = sumR (cells_of F) (fun c => total (gas_of e) (k_h W) c).
Proof.
  intros (_ & _ & O4 & _). unfold total. rewrite sumR_plus. f_equal.
  - unfold in_air. apply sumR_ext. intros c _. unfold air_mol. destruct e; cbn [gas_of mol_air]; unfold M_gas_, M_HNO3, M_NH3, M_CO2, M_SO2, HNO3, NH3, CO2, SO2; field.
  - unfold in_drops, held.
    pose proof (sum_cells (h_np (k_h W)) (h_ijk (k_h W)) (cells_of F) (fun i => N2R (h_n (k_h W) i) * mol_in e (fun k => h_m (k_h W) k i)) O4) as Q.
    rewrite <- Q. apply sumR_ext. intros c _. unfold cellsum. apply sumR_ext. intros i _. destruct (_ =? _)%nat; [|reflexivity]. f_equal.
    unfold drop_mol. destruct e; cbn [gas_of mol_in]; unfold HNO3, NH3, CO2, SO2, S_VI, M_aq_, M_HNO3, M_NH3_H2O, M_CO2_H2O, M_SO2_H2O, M_H2SO4;
      cbn [Nat.eqb]; field.
Qed.
Lemma gas_le3 e : gas_of e = HNO3 \/ gas_of e = NH3 \/ gas_of e = CO2 \/ gas_of e = SO2.
Proof. destruct e; cbn; unfold HNO3, NH3, CO2, SO2; auto. Qed.

(** the balance of a part of a step *)
Definition S6 (m : nat -> R) : R := m S_VI.
Section Parts.
Variable F : setup.
Hypothesis HF : ksetup_ok F.

Lemma before_part W W' : before F W W' -> kstate_ok F W ->
  kstate_ok F W' /\ (forall w, held w W' = held w W) /\ k_pud W' = k_pud W.
Proof.
  intros (host & rw2 & rhod & dv & T & H1 & H2 & ->) (O1 & O2 & O3 & O4 & O5). split; [|split; [reflexivity|reflexivity]].
  split; [exact O1|]. split; [exact H1|]. split; [exact O3|]. split; [exact O4|exact O5].
Qed.

Lemma chem_part so sorts W W' rho : chemistry so sorts W W' -> kstate_ok F W -> phys (ko_chem so) (k_h W) -> ho_rho (ko_chem so) = rho -> 0 < rho -> sorts_ok (k_h W) sorts ->
  kstate_ok F W' /\ (forall e, in_air F e W + in_drops e W <= in_air F e W' + in_drops e W') /\
  held (fun m r => dry_mass rho r - m S_VI) W' = held (fun m r => dry_mass rho r - m S_VI) W /\ k_pud W' = k_pud W /\
  (forall i, 0 < h_rw2 (k_h W') i).
Proof.
  intros (h & H & ->) HW Hph Er Hrho Hs. pose proof HW as (O1 & O2 & O3 & O4 & O5). set (h0 := k_h W) in *.
  destruct (C69_never_lost (ko_chem so) sorts h0 h H Hs O2) as (L & F1 & F2 & F3 & F4 & F5 & F6 & F7).
  assert (G : forall i, nn h /\ h_rd3 h0 i <= h_rd3 h i /\ dry_mass rho (h_rd3 h i) - h_m h S_VI i = dry_mass rho (h_rd3 h0 i) - h_m h0 S_VI i).
  { intros i. destruct (C70_growth (ko_chem so) sorts h0 h i H Hs Hph O5 ltac:(lra)) as (A & _ & B & C). rewrite Er in C. split; [exact A|]. split; [exact B|lra]. }
  set (g := gas_async (ho_allow (ko_chem so)) (ho_dsl (ko_chem so)) h).
  assert (Q : h_np g = h_np h /\ h_ijk g = h_ijk h /\ h_n g = h_n h /\ h_rd3 g = h_rd3 h /\ h_m g = h_m h /\ h_amb g = h_amb h /\ h_rhod g = h_rhod h /\
              h_dv g = h_dv h /\ h_rw2 g = h_rw2 h).
  { unfold g, gas_async, sstp_save_chem. destruct (ho_dsl _), (ho_allow _); repeat split. }
  destruct Q as (Q1 & Q2 & Q3 & Q4 & Q5 & Q6 & Q7 & Q8 & Q9). clearbody g.
  assert (HW' : kstate_ok F (with_h W g)).
  { unfold kstate_ok, with_h. cbn [k_h]. rewrite Q1, Q7, Q8, Q2, Q4, Q3, F1, F2, F3, F5, F6. split; [exact O1|]. split; [exact O2|]. split; [exact O3|]. split.
    - intros i. destruct (G i) as (_ & B & _). destruct (O4 i). split; [lra|assumption].
    - unfold nn. rewrite Q5. exact (proj1 (G 0%nat)). }
  split; [exact HW'|]. split; [|split; [|split; [reflexivity|]]].
  - intros e. rewrite (total_sum F e W HW), (total_sum F e _ HW'). apply sumR_le. intros c _. cbn [with_h k_h].
    replace (total (gas_of e) g c) with (total (gas_of e) h c); [apply L, gas_le3|].
    unfold total, air_mol, drop_mol. rewrite Q6, Q7, Q8, Q1, Q2, Q3, Q5. reflexivity.
  - unfold held. cbn [with_h k_h]. rewrite Q1, Q3, Q5, Q4, F1, F3. apply sumR_ext. intros i _. f_equal. apply G.
  - intros i. cbn [with_h k_h]. rewrite Q9, F4. apply Hph.
Qed.
Lemma chem_exact so sorts W W' e st : chemistry so sorts W W' -> kstate_ok F W -> phys (ko_chem so) (k_h W) -> 0 < ho_rho (ko_chem so) -> sorts_ok (k_h W) sorts ->
  (ho_dsl (ko_chem so) || ho_dsc (ko_chem so) || ho_rct (ko_chem so) = true -> trajectory (ko_chem so) sorts (k_h W) (ho_sstp (ko_chem so)) st /\
   forall k c, (k < ho_sstp (ko_chem so))%nat -> (c < cells_of F)%nat ->
     0 <= h_amb (sstp_step_chem (ho_allow (ko_chem so)) (ho_var_rho (ko_chem so)) (ho_sstp (ko_chem so)) k (st k)) (gas_of e) c /\ 0 < h_amb (st (S k)) (gas_of e) c) ->
  in_air F e W' + in_drops e W' = in_air F e W + in_drops e W.
Proof.
  intros HC HW Hph Hrho Hs HT. destruct (chem_part so sorts W W' _ HC HW Hph eq_refl Hrho Hs) as (HW' & _).
  rewrite (total_sum F e W HW), (total_sum F e _ HW'). apply sumR_ext. intros c Hc. destruct HC as (h & H & ->). cbn [with_h k_h].
  assert (E : total (gas_of e) (gas_async (ho_allow (ko_chem so)) (ho_dsl (ko_chem so)) h) c = total (gas_of e) h c).
  { unfold gas_async, sstp_save_chem. destruct (ho_dsl _), (ho_allow _); reflexivity. }
  rewrite E. destruct (ho_dsl (ko_chem so) || ho_dsc (ko_chem so) || ho_rct (ko_chem so)) eqn:On.
  - destruct (HT eq_refl) as (T & G).
    destruct (C69_conserved_partial (ko_chem so) sorts (k_h W) st (gas_of e) c T On Hs Hph ltac:(apply HW) (gas_le3 e) (fun k Hk => G k c Hk Hc)) as (A & B & _).
    rewrite H in A. injection A as ->. exact B.
  - unfold chem_step in H. rewrite On in H. injection H as <-. reflexivity.
Qed.

(** coalescence *)
Definition massive (s : sd) : Prop := forall k, (k < 8)%nat -> 0 <= CoalModel.chem s k.
Lemma upd2_massive (a : nat -> sd) i j x y : (forall k, massive (a k)) -> massive x -> massive y -> forall k, massive (upd (upd a i x) j y k).
Proof. intros H Hx Hy k. unfold upd. destruct (k =? j)%nat; [exact Hy|]. destruct (k =? i)%nat; [exact Hx|apply H]. Qed.
Lemma pair_massive kernel dt dv o nc gr sijk cell a b u : massive a -> massive b ->
  let r := collider_pair kernel dt dv o nc gr sijk cell a b u in massive (fst (fst (fst (fst r)))) /\ massive (snd (fst (fst (fst r)))).
Proof.
  intros A B. unfold collider_pair. cbv zeta. set (c1 := if Rltb _ _ then _ else _). clearbody c1.
  destruct (c1 =? 0)%N; [split; assumption|]. destruct (CoalModel.n b <=? CoalModel.n a)%N; unfold collide; cbn [fst snd]; split; assumption.
Qed.
Lemma follow_massive o f : In f (follow_ups o) -> forall ca cb a b x y, f ca cb a b = Some (x, y) -> massive a -> massive b -> massive x /\ massive y.
Proof.
  intros H ca cb a b x y E A B. unfold follow_ups in H. repeat rewrite in_app_iff in H.
  assert (K : (exists k, f = summator k) \/ f = weighted_summator \/ f = selector \/ f = invalidator).
  { destruct H as [H|[H|[H|H]]].
    - destruct (chem_switch o); [|destruct H]. apply in_map_iff in H. destruct H as (k & <- & _). left. eauto.
    - destruct (mix_kappa_on o); [|destruct H]. destruct H as [<-|[]]. tauto.
    - destruct (diag_incloud_time o); [|destruct H]. destruct H as [<-|[]]. tauto.
    - destruct (act_sstp o); [|destruct H]. destruct H as [<-|[]]. tauto. }
  assert (Q : forall s t k, massive s -> massive t -> 0 < ca -> massive (set_chem s k (CoalModel.chem s k + ca * CoalModel.chem t k))).
  { intros s t k Hs Ht Hc j Hj. unfold set_chem. cbn [CoalModel.chem]. unfold upd. destruct (Nat.eqb_spec j k) as [->|]; [|apply Hs, Hj].
    specialize (Hs k Hj). specialize (Ht k Hj). pose proof (Rmult_le_pos ca _ ltac:(lra) Ht). lra. }
  destruct K as [(k & ->)|[ -> |[ -> | -> ]]];
    [unfold summator in E|unfold weighted_summator in E|unfold selector in E|unfold invalidator in E];
    (destruct (Rleb ca 0) eqn:Ec; [discriminate|]; apply Rleb_false in Ec; destruct (Reqb cb na_ge_nb); injection E as <- <-; split; try assumption; try (apply Q; assumption)).
Qed.
Lemma coal_massive kernel dt dv o nc gn gr sid sijk np sched u01 sds st :
  coal kernel dt dv o nc gn gr sid sijk np sched u01 sds = Some st -> (forall i, massive (sds i)) -> forall i, massive (arr st i).
Proof.
  unfold coal. destruct np; [discriminate|]. intros E H. injection E as <-. cbn [arr].
  assert (K : forall i, massive (arr (fold_left (collider_step kernel dt dv o nc gn gr sid sijk) (sched 0%nat) (CoalModel.mk_cst sds u01 false)) i)).
  { apply (fold_inv _ (fun st => forall i, massive (arr st i))); [|exact H]. intros st i Hs k. unfold collider_step.
    destruct (Nat.odd _); [apply Hs|]. destruct (negb _); [apply Hs|].
    pose proof (pair_massive kernel dt dv o nc gr sijk (CoalModel.sijk sijk i) (arr st (CoalModel.sid sid i)) (arr st (CoalModel.sid sid (S i))) (col st i) (Hs _) (Hs _)) as Q.
    cbv zeta in Q. destruct (collider_pair _ _ _ _ _ _ _ _ _ _ _) as [[[[a' b'] ka] kb] f]. cbn [fst snd arr] in *. apply upd2_massive; tauto. }
  set (st1 := fold_left _ _ _) in *. clearbody st1.
  assert (G : forall fs ka, (forall f, In f fs -> In f (follow_ups o)) -> (forall i, massive (snd ka i)) -> forall i, massive (snd
     (fold_left (fun (ka : nat * (nat -> sd)) f => (S (fst ka), fold_left (follow_step sid f (col st1)) (sched (fst ka)) (snd ka))) fs ka) i)).
  { induction fs as [|f fs IH]; intros ka Hf Hk; [exact Hk|]. cbn [fold_left]. apply IH; [intros; apply Hf; right; assumption|].
    cbn [snd]. apply (fold_inv _ (fun a => forall i, massive (a i))); [|exact Hk]. intros a j Ha. unfold follow_step.
    destruct (f _ _ _ _) as [[x y]|] eqn:Ef; [|exact Ha].
    destruct (follow_massive o f (Hf f (or_introl eq_refl)) _ _ _ _ _ _ Ef (Ha _) (Ha _)). apply upd2_massive; assumption. }
  apply G; [auto|exact K].
Qed.

(** quantities that are conserved when droplets merge *)
Definition linear (w : (nat -> R) -> R -> R) : Prop :=
  exists a b, (forall m r, w m r = sumR 8 (fun k => a k * m k) + b * r).
Lemma linear_mol e : linear (fun m _ => mol_in e m).
Proof.
  exists (fun k => match e with
    | nitrogen_V => if (k =? HNO3)%nat then / (63 / 1000) else 0 | nitrogen_III => if (k =? NH3)%nat then / (35 / 1000) else 0
    | carbon_IV => if (k =? CO2)%nat then / (62 / 1000) else 0
    | sulphur => if (k =? SO2)%nat then / (82 / 1000) else if (k =? S_VI)%nat then / (98 / 1000) else 0 end), 0.
  intros m r. destruct e; cbn [sumR]; unfold mol_in, HNO3, NH3, CO2, SO2, S_VI; cbn [Nat.eqb]; unfold Rdiv; ring.
Qed.
Lemma linear_dry rho : linear (fun m r => dry_mass rho r - m S_VI).
Proof.
  exists (fun k => if (k =? S_VI)%nat then -1 else 0), (rho * (4 / 3 * PI)).
  intros m r. cbn [sumR]. unfold dry_mass, S_VI. cbn [Nat.eqb]. ring.
Qed.
Lemma held_linear w a b W : (forall m r, w m r = sumR 8 (fun k => a k * m k) + b * r) ->
  held w W = sumR 8 (fun k => a k * sumR (h_np (k_h W)) (fun i => N2R (h_n (k_h W) i) * h_m (k_h W) k i)) +
             b * sumR (h_np (k_h W)) (fun i => N2R (h_n (k_h W) i) * h_rd3 (k_h W) i).
Proof.
  intros E. unfold held. rewrite <- sumR_scal.
  rewrite (sumR_ext 8 _ (fun k => sumR (h_np (k_h W)) (fun i => a k * (N2R (h_n (k_h W) i) * h_m (k_h W) k i)))) by (intros; symmetry; apply sumR_scal).
  rewrite (sumR_ext (h_np (k_h W)) _ (fun i => sumR 8 (fun k => a k * (N2R (h_n (k_h W) i) * h_m (k_h W) k i)) + b * (N2R (h_n (k_h W) i) * h_rd3 (k_h W) i)))
    by (intros i _; rewrite E; cbn [sumR]; ring).
  rewrite sumR_plus. f_equal. cbn [sumR]. rewrite Rplus_0_l, <- !sumR_plus. apply sumR_ext. intros; ring.
Qed.

Definition wet (W : kworld) : Prop := forall i, 0 <= h_rw2 (k_h W) i.
Lemma coal_pass_part W W' : kcoal_pass F W W' -> kstate_ok F W -> wet W ->
  kstate_ok F W' /\ wet W' /\ (forall w, linear w -> held w W' = held w W) /\ (forall e, in_air F e W' = in_air F e W) /\ k_pud W' = k_pud W.
Proof.
  intros (kernel & dt & gn & gr & sijk & sid & sched & u01 & st & vt & kpa & ict & rc2 & H) HW HR. cbv zeta in H.
  destruct H as (Hk & Hdt & Hsch & Hsort & Hc & ->). pose proof HW as (O1 & O2 & O3 & O4 & O5).
  set (h := k_h W) in *. set (ijk := map (h_ijk h) (seq 0 (h_np h))) in *. set (sds := ksd_of W vt kpa ict rc2) in *.
  assert (L : length ijk = h_np h) by (unfold ijk; rewrite map_length, seq_length; reflexivity).
  set (nc := (m1 (f_nx F) * m1 (f_ny F) * m1 (f_nz F))%nat) in *.
  assert (NC : cells_of F = nc) by reflexivity.
  assert (IN : forall c, In c ijk -> (c < nc)%nat).
  { intros c Hi. unfold ijk in Hi. apply in_map_iff in Hi. destruct Hi as (i & <- & Hi). apply in_seq in Hi. rewrite <- NC. apply O3. lia. }
  assert (NE : (0 < length ijk)%nat) by (destruct (length ijk); [discriminate Hc|lia]).
  assert (PIN : pass_inputs kernel dt (h_dv h) nc ijk sched sds).
  { constructor; auto.
    - intros c Hi. apply O2.
    - intros i Hi. apply O4.
    - intros i Hi. apply HR. }
  pose proof (C03_conservation kernel dt (h_dv h) (f_co F) nc gn gr ijk sid sijk sched u01 sds st Hsort PIN Hc) as C.
  assert (SZ : forall i, sized (arr st i)).
  { apply (coal_sized _ _ _ _ _ _ _ _ _ _ _ _ _ _ Hc). intros i. destruct (O4 i) as [A B]. split; [apply HR|]. split; [exact A|exact B]. }
  assert (MS : forall i, massive (arr st i)).
  { apply (coal_massive _ _ _ _ _ _ _ _ _ _ _ _ _ _ Hc). intros i k Hk'. apply O5, Hk'. }
  assert (T : forall w, (forall c, cell_total ijk w (arr st) c = cell_total ijk w sds c) ->
                sumR (h_np h) (fun i => w (arr st i)) = sumR (h_np h) (fun i => w (sds i))).
  { intros w Hw. rewrite <- (cell_total_sum (h_ijk h) (h_np h) nc w (arr st)) by exact O3.
    rewrite <- (cell_total_sum (h_ijk h) (h_np h) nc w sds) by exact O3. apply sumR_ext. intros c _. apply Hw. }
  split; [|split; [|split; [|split; [reflexivity|reflexivity]]]].
  - unfold kstate_ok, with_ksds. cbn [with_h k_h h_np h_rhod h_dv h_ijk h_rd3 h_n]. fold h.
    split; [exact O1|]. split; [exact O2|]. split; [exact O3|]. split; [intros i; split; apply SZ|]. intros k i Hk'. cbn [h_m]. apply MS, Hk'.
  - intros i. cbn. apply SZ.
  - intros w (a & b & Ew). rewrite (held_linear w a b _ Ew), (held_linear w a b _ Ew). fold h. unfold with_ksds.
    cbn [with_h k_h h_np h_n h_m h_rd3]. fold h. f_equal.
    + apply sumR_ext. intros k Hk'. f_equal.
      apply (T (fun s => N2R (CoalModel.n s) * CoalModel.chem s k)). intros c. apply (C c); [apply HF|exact Hk'].
    + f_equal. apply (T (fun s => N2R (CoalModel.n s) * CoalModel.rd3 s)). intros c. apply (C c).
Qed.
Lemma coalescence_part so W W' : kcoalescence F so W W' -> kstate_ok F W -> wet W ->
  kstate_ok F W' /\ wet W' /\ (forall w, linear w -> held w W' = held w W) /\ (forall e, in_air F e W' = in_air F e W) /\ k_pud W' = k_pud W.
Proof.
  unfold kcoalescence. destruct (ko_coal so); [|intros -> H1 H2; repeat split; auto; apply H1].
  generalize (ko_sstp_coal so). intros k. revert W. induction k as [|k IH]; intros W H HW HR; cbn [kcoal_passes] in H.
  - subst W'. split; [exact HW|]. split; [exact HR|]. split; [reflexivity|]. split; reflexivity.
  - destruct H as (V & H1 & H2). destruct (coal_pass_part W V H1 HW HR) as (A1 & A2 & A3 & A4 & A5).
    destruct (IH V H2 A1 A2) as (B1 & B2 & B3 & B4 & B5). split; [exact B1|]. split; [exact B2|].
    split; [intros w Hw; rewrite B3, A3 by exact Hw; reflexivity|]. split; [intros e; rewrite B4; apply A4|congruence].
Qed.

(** motion and boundary conditions: cells of super-droplets are not up to date *)
Definition kloose (W : kworld) : Prop :=
  let h := k_h W in
  (h_np h <= f_max F)%nat /\ (forall c, 0 < h_rhod h c /\ 0 < h_dv h c) /\ (forall i, 0 <= h_rd3 h i /\ (h_n h i < 2 ^ 64)%N) /\ nn h /\ wet W.
Definition kclose (W : kworld) : Prop := forall i, (i < h_np (k_h W))%nat -> near F (k_x W i) (k_y W i) (k_z W i).
Lemma motion_part W W' : kmotion F W W' -> kstate_ok F W -> wet W ->
  kloose W' /\ kclose W' /\ k_h W' = k_h W /\ k_pud W' = k_pud W.
Proof.
  intros (x & y & z & H & ->) (O1 & O2 & O3 & O4 & O5) HR. split; [|split; [exact H|split; reflexivity]].
  split; [exact O1|]. split; [exact O2|]. split; [exact O4|]. split; [exact O5|exact HR].
Qed.

Definition kfallen (w : (nat -> R) -> R -> R) (W : kworld) : R :=
  if f_parcel F then 0 else fallen_sum (f_b F) (fun b => w (b_chem b) (b_rd3 b)) (map (kbsd_of W) (seq 0 (h_np (k_h W)))).
Definition ground_dry (rho : R) (W : kworld) : R := rho * p_dry_vol (k_pud W) - p_chem (k_pud W) S_VI.
Lemma fallen_linear o l (f g : bsd -> R) a : fallen_sum o (fun s => a * f s + g s) l = a * fallen_sum o f l + fallen_sum o g l.
Proof.
  unfold fallen_sum. induction l as [|s l IH]; [cbn; ring|]. cbn [map lsumR fold_right] in *. unfold lsumR in *. rewrite IH.
  destruct (fell_out o s); ring.
Qed.
Lemma walls_part s : kloose (ka_moved s) -> kclose (ka_moved s) ->
  let W := ka_moved s in let V := kwalls F W in
  kloose V /\ (forall e, in_air F e V = in_air F e W) /\ (forall w, held w V + kfallen w W + k_escaped F w s = held w W) /\
  (forall e, on_ground e V = on_ground e W + kfallen (fun m _ => mol_in e m) W) /\
  (forall rho, ground_dry rho V = ground_dry rho W + kfallen (fun m r => dry_mass rho r - m S_VI) W) /\
  (forall i, (i < h_np (k_h V))%nat -> h_n (k_h V) i <> 0%N ->
     (hskpng_ijk (n_dims (f_b F)) (f_ny F) (f_nz F) (f_dx F) (f_dy F) (f_dz F) (k_x V i) (k_y V i) (k_z V i) < cells_of F)%nat).
Proof.
  intros HL HN. cbv zeta. unfold k_escaped. cbv zeta. set (W := ka_moved s) in *. clearbody W. clear s. pose proof HL as (O1 & O2 & O4 & O5 & O6).
  destruct HF as (HS & Hsw & Hon).
  pose proof HS as (G1 & G2 & G3 & G4 & G5 & G6 & G7 & G8 & G9 & G10 & G11 & G12 & G13).
  set (h := k_h W) in *. set (l := map (kbsd_of W) (seq 0 (h_np h))). set (o := f_b F) in *.
  assert (LL : length l = h_np h) by (unfold l; rewrite map_length, seq_length; reflexivity).
  assert (NL : forall i d, (i < h_np h)%nat -> nth i l d = kbsd_of W i).
  { intros i d Hi. unfold l. rewrite (nth_indep _ d (kbsd_of W 0%nat)) by (rewrite map_length, seq_length; exact Hi).
    rewrite map_nth, seq_nth by exact Hi. reflexivity. }
  assert (IL : forall b, In b l -> exists i, (i < h_np h)%nat /\ b = kbsd_of W i).
  { intros b Hb. unfold l in Hb. apply in_map_iff in Hb. destruct Hb as (i & <- & Hi). apply in_seq in Hi. exists i. split; [lia|reflexivity]. }
  assert (LB : length (fst (fst (bcnd o l (k_pud W)))) = length l).
  { destruct (Nat.eq_dec (n_dims o) 0) as [E0|E0]; [unfold bcnd; rewrite E0; reflexivity|].
    apply (C09_exactly_those_outside_are_removed o l (k_pud W) (kbsd_of W 0%nat) E0 (proj2 G10)). }
  assert (BN : forall i, b_n (nth i (fst (fst (bcnd o l (k_pud W)))) (kbsd_of W i)) = h_n h i \/
                         b_n (nth i (fst (fst (bcnd o l (k_pud W)))) (kbsd_of W i)) = 0%N).
  { intros i. destruct (Nat.lt_ge_cases i (h_np h)) as [Hi|Hi]; [|left; rewrite nth_overflow by lia; reflexivity].
    destruct (Nat.eq_dec (n_dims o) 0) as [E0|E0]; [left; unfold bcnd; rewrite E0; cbn [Nat.eqb fst]; rewrite NL by exact Hi; reflexivity|].
    rewrite (proj1 (proj2 (C09_exactly_those_outside_are_removed o l (k_pud W) (kbsd_of W i) E0 (proj2 G10)) i ltac:(lia))), NL by exact Hi.
    destruct (_ || _); auto. }
  assert (FS : forall w : bsd -> R, fallen_sum o w l = sumR (h_np h) (fun i => if fell_out o (kbsd_of W i) then N2R (h_n h i) * w (kbsd_of W i) else 0)).
  { intros w. unfold fallen_sum, l. rewrite map_map, <- sumR_seq. reflexivity. }
  assert (PU : (forall k, (k < 8)%nat -> p_chem (k_pud (kwalls F W)) k = p_chem (k_pud W) k + kfallen (fun m _ => m k) W) /\
               p_dry_vol (k_pud (kwalls F W)) = p_dry_vol (k_pud W) + kfallen (fun _ r => 4 / 3 * PI * r) W).
  { unfold kfallen, kwalls. cbn [k_pud]. fold h l o. destruct (f_parcel F) eqn:EP.
    - unfold f_parcel in EP. fold o in EP. unfold bcnd. rewrite EP. cbn [fst snd]. split; [intros k _|]; lra.
    - assert (E0 : n_dims o <> 0%nat) by (intros E; unfold f_parcel in EP; fold o in EP; rewrite E in EP; discriminate).
      assert (POS : forall b, In b l -> 0 <= b_rw2 b /\ 0 <= b_rd3 b).
      { intros b Hb. destruct (IL b Hb) as (i & _ & ->). split; [apply O6|apply O4]. }
      destruct (C09_puddle_exact o l (k_pud W) E0 (proj2 G10) POS) as (_ & A2 & _ & _ & _ & _ & A7). rewrite Hon in A7. split; [exact A7|exact A2]. }
  destruct PU as (PU1 & PU2).
  split; [|split; [reflexivity|split; [|split; [|split]]]].
  - unfold kloose, kwalls. cbn [k_h set_n h_np h_rhod h_dv h_rd3 h_n]. fold h. split; [exact O1|]. split; [exact O2|].
    split; [|split; [exact O5|exact O6]]. intros i. split; [apply O4|]. fold l. fold o. destruct (BN i) as [-> | ->]; [apply O4|reflexivity].
  - intros w. unfold held, kfallen, kwalls. cbv zeta. cbn [k_h set_n h_np h_n h_m h_rd3]. fold h l o. destruct (f_parcel F) eqn:EP.
    + cbn [negb andb]. rewrite (sumR_0 (h_np h) (fun _ => 0)) by reflexivity. rewrite !Rplus_0_r. apply sumR_ext. intros i Hi. f_equal. f_equal.
      unfold f_parcel in EP. fold o in EP. unfold bcnd. rewrite EP. cbn [fst]. rewrite NL by exact Hi. reflexivity.
    + assert (E0 : n_dims o <> 0%nat) by (intros E; unfold f_parcel in EP; fold o in EP; rewrite E in EP; discriminate).
      rewrite FS, <- !sumR_plus. apply sumR_ext. intros i Hi. cbn [negb andb].
      destruct (proj2 (C09_exactly_those_outside_are_removed o l (k_pud W) (kbsd_of W i) E0 (proj2 G10)) i ltac:(lia)) as [Q _].
      rewrite NL in Q by exact Hi. rewrite Q.
      change (b_n (kbsd_of W i)) with (h_n h i). change (b_chem (kbsd_of W i)) with (fun k => h_m h k i). change (b_rd3 (kbsd_of W i)) with (h_rd3 h i).
      unfold fell_out.
      assert (TB : left_top o (kbsd_of W i) = true -> left_bottom o (kbsd_of W i) = true -> False).
      { unfold left_top, left_bottom. intros A B. apply andb_true_iff in A, B. destruct A as [_ A], B as [_ B].
        rewrite Rleb_true in A. rewrite Rltb_true in B. lra. }
      set (v := w (fun k => h_m h k i) (h_rd3 h i)). clearbody v.
      destruct (left_sideways o (kbsd_of W i)), (left_top o (kbsd_of W i)), (left_bottom o (kbsd_of W i)); cbn [negb orb andb];
        try (exfalso; apply TB; reflexivity); try (replace (N2R 0) with 0 by reflexivity); ring.
  - intros e. unfold on_ground.
    assert (KZ : forall a b k1 k2, kfallen (fun m _ => a * m k1 + b * m k2) W = a * kfallen (fun m _ => m k1) W + b * kfallen (fun m _ => m k2) W).
    { intros a b k1 k2. unfold kfallen. destruct (f_parcel F); [ring|]. rewrite fallen_linear. f_equal.
      pose proof (fallen_linear (f_b F) (map (kbsd_of W) (seq 0 (h_np (k_h W)))) (fun s => b_chem s k2) (fun _ => 0) b) as Q.
      rewrite FS in Q. fold o h l in Q |- *. rewrite !FS in *.
      rewrite (sumR_ext (h_np h) (fun i => if fell_out o (kbsd_of W i) then N2R (h_n h i) * 0 else 0) (fun _ => 0)) in Q
        by (intros; destruct (fell_out _ _); ring). rewrite (sumR_0 (h_np h) (fun _ => 0)) in Q by reflexivity.
      rewrite Rplus_0_r in Q. rewrite <- Q. apply sumR_ext. intros i _. destruct (fell_out _ _); ring. }
    assert (KE : forall w1 w2, (forall m r, w1 m r = w2 m r) -> kfallen w1 W = kfallen w2 W).
    { intros w1 w2 E. unfold kfallen. destruct (f_parcel F); [reflexivity|]. fold o h l. rewrite !FS. apply sumR_ext. intros i _. rewrite E. reflexivity. }
    destruct e; unfold mol_in at 1 2; rewrite !PU1 by (unfold HNO3, NH3, CO2, SO2, S_VI; lia).
    + rewrite (KE (fun m _ => mol_in nitrogen_V m) (fun m _ => / (63 / 1000) * m HNO3 + 0 * m HNO3)) by (intros; cbn [mol_in]; unfold Rdiv; ring). rewrite KZ. unfold Rdiv. ring.
    + rewrite (KE (fun m _ => mol_in nitrogen_III m) (fun m _ => / (35 / 1000) * m NH3 + 0 * m NH3)) by (intros; cbn [mol_in]; unfold Rdiv; ring). rewrite KZ. unfold Rdiv. ring.
    + rewrite (KE (fun m _ => mol_in carbon_IV m) (fun m _ => / (62 / 1000) * m CO2 + 0 * m CO2)) by (intros; cbn [mol_in]; unfold Rdiv; ring). rewrite KZ. unfold Rdiv. ring.
    + rewrite (KE (fun m _ => mol_in sulphur m) (fun m _ => / (82 / 1000) * m SO2 + / (98 / 1000) * m S_VI)) by (intros; cbn [mol_in]; unfold Rdiv; ring). rewrite KZ. unfold Rdiv. ring.
  - intros rho. unfold ground_dry. rewrite PU2, PU1 by (unfold S_VI; lia). unfold kfallen. destruct (f_parcel F); [ring|]. fold o h l.
    rewrite !FS.
    rewrite (sumR_ext (h_np h) (fun i => if fell_out o (kbsd_of W i) then N2R (h_n h i) * (dry_mass rho (b_rd3 (kbsd_of W i)) - b_chem (kbsd_of W i) S_VI) else 0)
      (fun i => rho * (if fell_out o (kbsd_of W i) then N2R (h_n h i) * (4 / 3 * PI * b_rd3 (kbsd_of W i)) else 0) +
                -1 * (if fell_out o (kbsd_of W i) then N2R (h_n h i) * b_chem (kbsd_of W i) S_VI else 0)))
      by (intros i _; unfold dry_mass; destruct (fell_out _ _); ring).
    rewrite sumR_plus, !sumR_scal. ring.
  - intros i Hi Hn. unfold kwalls in *. cbn [k_h k_x k_y k_z set_n h_np h_n] in *. fold h l o in Hi, Hn |- *.
    refine (proj2 (C10_after_boundary_conditions o l (k_pud W) (f_nx F) (f_ny F) (f_nz F) (f_dx F) (f_dy F) (f_dz F) G1 G2 G3 G4 G5 G6 G7 G8 G9 G10 G11 _ _ _ Hn)).
    + intros b Hb. destruct (IL b Hb) as (j & Hj & ->). exact (HN j Hj).
    + apply nth_In. lia.
Qed.

(** the end of a step *)
Definition kdecode (l : list R) : (nat -> R) * R := (fun k => nth (n_vec F + k) l 0, nth 0 l 0).
Lemma attrs_vec p i v : (v < n_vec F)%nat -> nth v (attrs (n_vec F) CoalModel.chem_all p i) 0 = vec p v i.
Proof.
  intros H. unfold attrs. rewrite app_nth1 by (rewrite map_length, seq_length; exact H).
  rewrite (nth_indep _ 0 (vec p 0%nat i)) by (rewrite map_length, seq_length; exact H).
  change (vec p 0%nat i) with ((fun v => vec p v i) 0%nat). rewrite map_nth, seq_nth by exact H. reflexivity.
Qed.
Lemma attrs_chem p i k : (k < 8)%nat -> nth (n_vec F + k) (attrs (n_vec F) CoalModel.chem_all p i) 0 = chem_vec p (k * np p + i).
Proof.
  intros H. unfold attrs. rewrite app_nth2 by (rewrite map_length, seq_length; lia). rewrite map_length, seq_length.
  replace (n_vec F + k - n_vec F)%nat with k by lia. unfold CoalModel.chem_all.
  rewrite (nth_indep _ 0 (chem_vec p (0 * np p + i))) by (rewrite map_length, seq_length; exact H).
  change (chem_vec p (0 * np p + i)) with ((fun b => chem_vec p (b * np p + i)) 0%nat). rewrite map_nth, seq_nth by exact H. reflexivity.
Qed.
Lemma pop_chem W other i k : (i < h_np (k_h W))%nat -> chem_vec (kpop_of W other) (k * np (kpop_of W other) + i) = h_m (k_h W) k i.
Proof.
  intros H. unfold kpop_of. cbn [chem_vec np]. rewrite (Nat.add_comm (k * _) i), Nat.div_add, Nat.div_small, Nat.mod_add, Nat.mod_small by lia. reflexivity.
Qed.
Lemma tidy_part so V W' : ktidy F so V W' -> kloose V ->
  (ko_rcyc so = true -> pure_const_multi (f_co F) = true \/ has_one (counts_only (k_h V)) \/
     (2 * number_of_zeros (counts_only (k_h V)) <= h_np (k_h V))%nat) ->
  (forall i, (i < h_np (k_h V))%nat -> h_n (k_h V) i <> 0%N ->
     (hskpng_ijk (n_dims (f_b F)) (f_ny F) (f_nz F) (f_dx F) (f_dy F) (f_dz F) (k_x V i) (k_y V i) (k_z V i) < cells_of F)%nat) ->
  kstate_ok F W' /\ (forall w, linear w -> held w W' = held w V) /\ (forall e, in_air F e W' = in_air F e V) /\ k_pud W' = k_pud V /\
  forall i, (i < h_np (k_h W'))%nat -> h_n (k_h W') i <> 0%N.
Proof.
  intros (other & gar & garn & tmp & sid & sched & p' & Hsort & Hsch & Hc & ->) (O1 & O2 & O4 & O5 & O6) Hd Hij.
  set (p := kpop_of V other) in *. set (h := k_h V) in *.
  assert (RI : rcyc_inputs (f_max F) p tmp sid sched) by (split; [exact O1|split; [exact Hsort|exact Hsch]]).
  assert (NZ : forall k, (k < np p')%nat -> mult p' k <> 0%N).
  { apply (proj2 (C06_no_zero_left_iff_partial _ _ _ _ _ _ _ _ _ _ _ _ RI Hc)). destruct (ko_rcyc so); [|auto].
    destruct (Hd eq_refl) as [A|[A|A]]; auto. }
  destruct (origin _ _ _ _ _ _ _ _ _ _ _ _ RI Hc) as [NP OR].
  assert (V7 : (7 <= n_vec F)%nat) by (unfold n_vec; destruct (f_exact F); lia).
  assert (AT : forall k, (k < np p')%nat -> exists j, (j < h_np h)%nat /\ h_n h j <> 0%N /\ (mult p' k <= h_n h j)%N /\
                (forall v, (v < 7)%nat -> vec p' v k = vec p v j) /\ (forall m, (m < 8)%nat -> chem_vec p' (m * np p' + k) = h_m h m j)).
  { intros k Hk. destruct (OR k Hk (NZ k Hk)) as (j & J1 & J2 & J3 & J4). exists j. split; [exact J1|]. split; [exact J2|]. split; [exact J3|]. split.
    - intros v Hv. rewrite <- (attrs_vec p' k v) by lia. rewrite J4, attrs_vec by lia. reflexivity.
    - intros m Hm. rewrite <- (attrs_chem p' k m) by exact Hm. rewrite J4, attrs_chem by exact Hm. apply pop_chem. exact J1. }
  split; [|split; [|split; [|split]]].
  - unfold kstate_ok, with_kpop. cbn [k_h h_np h_rhod h_dv h_ijk h_rd3 h_n]. fold h. split; [pose proof (Nat.le_trans _ _ _ NP O1); assumption|].
    split; [exact O2|]. split; [|split].
    + intros k Hk. destruct (AT k Hk) as (j & J1 & J2 & J3 & J4 & _). rewrite !J4 by lia. unfold p, kpop_of. cbn [vec]. apply (Hij j J1 J2).
    + intros k. destruct (Nat.ltb_spec k (np p')) as [Hk|Hk]; [|split; [lra|reflexivity]].
      destruct (AT k Hk) as (j & J1 & J2 & J3 & J4 & _). rewrite !J4 by lia. unfold p, kpop_of. cbn [vec]. destruct (O4 j) as (A & B). split; [exact A|lia].
    + intros m k Hm. cbn [h_m]. destruct (Nat.ltb_spec k (np p')) as [Hk|Hk]; [|lra].
      destruct (AT k Hk) as (j & J1 & J2 & J3 & _ & J5). rewrite J5 by exact Hm. apply O5, Hm.
  - intros w (a & b & Ew). set (w8 := fun m r => sumR 8 (fun k => a k * m k) + b * r).
    destruct (C05_totals_conserved gar garn (f_max F) (n_vec F) CoalModel.chem_all (pure_const_multi (f_co F)) tmp sid sched (ko_rcyc so) p
        (fun l => w8 (fst (kdecode l)) (snd (kdecode l))) RI) as (p2 & E & T). rewrite Hc in E. injection E as <-. unfold RcycProps.total in T. unfold held.
    transitivity (sumR (np p') (fun i => N2R (mult p' i) * w8 (fst (kdecode (attrs (n_vec F) CoalModel.chem_all p' i))) (snd (kdecode (attrs (n_vec F) CoalModel.chem_all p' i))))).
    + unfold with_kpop. cbn [k_h h_np h_n h_m h_rd3]. apply sumR_ext. intros i Hi. destruct (Nat.ltb_spec i (np p')); [|lia]. f_equal.
      rewrite Ew. unfold w8, kdecode. cbn [fst snd]. rewrite attrs_vec by lia. f_equal. apply sumR_ext. intros k Hk. rewrite attrs_chem by exact Hk. reflexivity.
    + rewrite T. unfold p at 1 2. unfold kpop_of at 1 2. cbn [np mult]. fold h. apply sumR_ext. intros i Hi. f_equal.
      rewrite Ew. unfold w8, kdecode. cbn [fst snd]. rewrite attrs_vec by lia. f_equal.
      apply sumR_ext. intros k Hk. rewrite attrs_chem by exact Hk. unfold p. rewrite pop_chem by exact Hi. reflexivity.
  - reflexivity.
  - reflexivity.
  - intros i Hi. unfold with_kpop in *. cbn [k_h h_np h_n] in *. destruct (Nat.ltb_spec i (np p')); [|lia]. apply NZ, Hi.
Qed.

(** a whole step *)
Lemma wet_of_phys o h : phys o h -> forall i, 0 <= h_rw2 h i.
Proof. intros H i. pose proof (proj1 H i). lra. Qed.
Lemma held_split rho W : held (fun m r => dry_mass rho r - m S_VI) W = held (dry_part rho) W - held sulfate_part W.
Proof.
  unfold held, dry_part, sulfate_part. replace (sumR (h_np (k_h W)) (fun i => N2R (h_n (k_h W) i) * dry_mass rho (h_rd3 (k_h W) i)) - sumR (h_np (k_h W)) (fun i => N2R (h_n (k_h W) i) * h_m (k_h W) S_VI i))
    with (sumR (h_np (k_h W)) (fun i => N2R (h_n (k_h W) i) * dry_mass rho (h_rd3 (k_h W) i)) + -1 * sumR (h_np (k_h W)) (fun i => N2R (h_n (k_h W) i) * h_m (k_h W) S_VI i)) by ring.
  rewrite <- sumR_scal, <- sumR_plus. apply sumR_ext. intros; ring.
Qed.
Lemma escaped_split rho s : k_escaped F (fun m r => dry_mass rho r - m S_VI) s = k_escaped F (dry_part rho) s - k_escaped F sulfate_part s.
Proof.
  unfold k_escaped, dry_part, sulfate_part. cbv zeta. match goal with |- _ = ?a - ?b => replace (a - b) with (a + -1 * b) by ring end.
  rewrite <- sumR_scal, <- sumR_plus. apply sumR_ext. intros i _. destruct (_ && _); ring.
Qed.
Lemma step_part so s : kstep F so s -> kstep_ok F (so, s) -> kstate_ok F (ka_start s) ->
  kstate_ok F (ka_end s) /\
  (forall e, have F e (ka_start s) + k_host F e s <= have F e (ka_end s) + k_escaped F (fun m _ => mol_in e m) s) /\
  (forall e, gas_lasts F e (so, s) -> have F e (ka_end s) + k_escaped F (fun m _ => mol_in e m) s = have F e (ka_start s) + k_host F e s) /\
  (dry_aerosol (ho_rho (ko_chem so)) (ka_end s) + k_escaped F (dry_part (ho_rho (ko_chem so))) s - (sulfate (ka_end s) + k_escaped F sulfate_part s) =
   dry_aerosol (ho_rho (ko_chem so)) (ka_start s) - sulfate (ka_start s)) /\
  forall i, (i < h_np (k_h (ka_end s)))%nat -> h_n (k_h (ka_end s)) i <> 0%N.
Proof.
  intros (W1 & W2 & H1 & H2 & H3 & H4 & H5) (K1 & K2 & K3 & K4) HW. cbn [fst snd] in *. set (rho := ho_rho (ko_chem so)) in *.
  destruct (before_part _ _ H1 HW) as (A1 & A2 & A3).
  destruct (chem_part so _ _ _ rho H2 A1 K1 eq_refl K2 K3) as (B1 & B2 & B3 & B4 & B5).
  assert (WW : wet W1) by (intros i; specialize (B5 i); lra).
  destruct (coalescence_part so _ _ H3 B1 WW) as (C1 & C2 & C3 & C4 & C5).
  destruct (motion_part _ _ H4 C1 C2) as (D1 & D2 & D3 & D4).
  destruct (walls_part s D1 D2) as (E1 & E2 & E3 & E4 & E5 & E6).
  destruct (tidy_part so _ _ H5 E1 K4 E6) as (G1 & G2 & G3 & G4 & G5).
  assert (HM : forall w, held w (ka_moved s) = held w W2) by (intros w; unfold held; rewrite D3; reflexivity).
  assert (AM : forall e, in_air F e (ka_moved s) = in_air F e W2) by (intros e; unfold in_air; rewrite D3; reflexivity).
  assert (PUD : k_pud (ka_moved s) = k_pud (ka_start s)) by congruence.
  assert (EL : forall e, on_ground e (ka_end s) = on_ground e (kwalls F (ka_moved s))) by (intros e; unfold on_ground; rewrite G4; reflexivity).
  assert (EG : forall e, on_ground e (ka_moved s) = on_ground e (ka_start s)) by (intros e; unfold on_ground; rewrite PUD; reflexivity).
  split; [exact G1|]. split; [|split; [|split; [|exact G5]]].
  - intros e. unfold have, k_host. rewrite EL, E4, EG, G3, E2, AM, C4. unfold in_drops. rewrite (G2 _ (linear_mol e)).
    pose proof (E3 (fun m _ => mol_in e m)) as Q. rewrite HM, (C3 _ (linear_mol e)) in Q. specialize (B2 e). unfold in_drops in B2. rewrite (A2 (fun m _ => mol_in e m)) in B2. lra.
  - intros e HG. unfold have, k_host. rewrite EL, E4, EG, G3, E2, AM, C4. unfold in_drops. rewrite (G2 _ (linear_mol e)).
    pose proof (E3 (fun m _ => mol_in e m)) as Q. rewrite HM, (C3 _ (linear_mol e)) in Q.
    assert (B2' : in_air F e W1 + in_drops e W1 = in_air F e (ka_ready s) + in_drops e (ka_ready s)).
    { unfold gas_lasts in HG. cbn [fst snd] in HG. destruct (ho_dsl (ko_chem so) || ho_dsc (ko_chem so) || ho_rct (ko_chem so)) eqn:On.
      - destruct (HG eq_refl) as (st & T1 & T2). apply (chem_exact so _ _ _ e st H2 A1 K1 K2 K3). intros _. split; [exact T1|exact T2].
      - apply (chem_exact so _ _ _ e (fun _ => k_h W1) H2 A1 K1 K2 K3). rewrite On. discriminate. }
    unfold in_drops in B2'. rewrite (A2 (fun m _ => mol_in e m)) in B2'. lra.
  - pose proof (E3 (fun m r => dry_mass rho r - m S_VI)) as Q. rewrite HM, (C3 _ (linear_dry rho)), B3, (A2 (fun m r => dry_mass rho r - m S_VI)) in Q.
    rewrite <- (G2 _ (linear_dry rho)) in Q. rewrite !held_split, escaped_split in Q.
    pose proof (E5 rho) as Q2. unfold ground_dry in Q2. rewrite <- G4, PUD in Q2. unfold dry_aerosol, sulfate. lra.
Qed.
End Parts.

(** ** C94 *)
Lemma run_budget F : ksetup_ok F -> forall W l W', krun F W l W' -> kstate_ok F W -> Forall (kstep_ok F) l ->
  kstate_ok F W' /\
  (forall e, have F e W + k_over (k_host F e) l <= have F e W' + k_over (k_escaped F (fun m _ => mol_in e m)) l) /\
  (forall e, Forall (gas_lasts F e) l -> have F e W' + k_over (k_escaped F (fun m _ => mol_in e m)) l = have F e W + k_over (k_host F e) l) /\
  (forall rho, Forall (fun t => ho_rho (ko_chem (fst t)) = rho) l ->
     dry_aerosol rho W' + k_over (k_escaped F (dry_part rho)) l - (sulfate W' + k_over (k_escaped F sulfate_part) l) = dry_aerosol rho W - sulfate W).
Proof.
  intros HF W l W' H. induction H as [W|so s l W' Hs Hr IH]; intros HW HO.
  - unfold k_over. cbn. split; [exact HW|]. split; [intros; lra|]. split; intros; lra.
  - inversion HO as [|? ? HO1 HO2]; subst.
    destruct (step_part F HF so s Hs HO1 HW) as (A1 & A2 & A3 & A4 & A5).
    destruct (IH A1 HO2) as (B1 & B2 & B3 & B4).
    assert (OV : forall f, k_over f ((so, s) :: l) = f s + k_over f l) by (intros f; reflexivity).
    split; [exact B1|]. split; [|split].
    + intros e. rewrite !OV. specialize (A2 e). specialize (B2 e). lra.
    + intros e HC. rewrite !OV. inversion HC as [|? ? HC1 HC2]; subst. specialize (A3 e HC1). specialize (B3 e HC2). lra.
    + intros rho HC. rewrite !OV. inversion HC as [|? ? HC1 HC2]; subst. cbn [fst] in *. specialize (B4 _ HC2). lra.
Qed.

(** C94, nothing is lost: over any run with chemistry, moles of nitrogen (+V and -III), carbon (IV) and sulphur in the air, in the droplets
    and on the ground, together with what left through open side walls and the top, are at least what there was in the beginning together
    with what the host model brought.  (They can be more: when a cell runs out of a gas, the code creates it, C66_created_refuted.) *)
Theorem C94_never_lost F W l W' e : ksetup_ok F -> krun F W l W' -> kstate_ok F W -> Forall (kstep_ok F) l ->
  have F e W + k_over (k_host F e) l <= have F e W' + k_over (k_escaped F (fun m _ => mol_in e m)) l.
Proof. intros HF H HW HO. apply (run_budget F HF W l W' H HW HO). Qed.
(** C94, conserved: with equality if cells do not run out of the gas of the element *)
Theorem C94_conserved_partial F W l W' e : ksetup_ok F -> krun F W l W' -> kstate_ok F W -> Forall (kstep_ok F) l ->
  Forall (gas_lasts F e) l ->
  have F e W' + k_over (k_escaped F (fun m _ => mol_in e m)) l = have F e W + k_over (k_host F e) l.
Proof. intros HF H HW HO. apply (run_budget F HF W l W' H HW HO). Qed.
(** C94, aerosol: over any run the mass of dry aerosol changes exactly by what was oxidised to sulfate (both with what is on the ground and
    what left) *)
Theorem C94_aerosol_grows_by_sulfate F W l W' rho : ksetup_ok F -> krun F W l W' -> kstate_ok F W -> Forall (kstep_ok F) l ->
  Forall (fun t => ho_rho (ko_chem (fst t)) = rho) l ->
  dry_aerosol rho W' + k_over (k_escaped F (dry_part rho)) l - dry_aerosol rho W =
  sulfate W' + k_over (k_escaped F sulfate_part) l - sulfate W.
Proof. intros HF H HW HO HR. pose proof (proj2 (proj2 (proj2 (run_budget F HF W l W' H HW HO))) rho HR). lra. Qed.
(** C94, state: after any run masses and dry sizes are not negative, every super-droplet is in a cell of the grid; after at least one step
    every super-droplet has droplets *)
Theorem C94_state F W l W' : ksetup_ok F -> krun F W l W' -> kstate_ok F W -> Forall (kstep_ok F) l ->
  kstate_ok F W' /\ (l <> [] -> forall i, (i < h_np (k_h W'))%nat -> h_n (k_h W') i <> 0%N).
Proof.
  intros HF H HW HO. split; [apply (run_budget F HF W l W' H HW HO)|]. revert HW HO. induction H as [W|so s l W' Hs Hr IH]; intros HW HO Hl; [congruence|].
  inversion HO as [|? ? HO1 HO2]; subst. destruct (step_part F HF so s Hs HO1 HW) as (A1 & _ & _ & _ & A6).
  destruct l as [|t l]; [inversion Hr; subst; exact A6|]. apply IH; [exact A1|exact HO2|discriminate].
Qed.

(** an instance: one cell, two super-droplets of 10 micrometres and pH 5 with as much CO2 as is in equilibrium with the air; a step with all
    chemical processes and collisions, at the end of which both fall out through the bottom *)
Definition kx_b : bopts := mk_bopts 2 0 1 0 1 0 1 true false false false false false true.
Definition kx_F : setup := mk_setup kx_b 1 0 1 1 1 1 false false (CoalModel.mk_copts true 1 0 1 false false false) 10.
Definition kx_so : ksopts := mk_kso eq_o true 1 false.
Definition kx_h : chst := {|
  h_np := 2; h_ijk := fun _ => 0%nat; h_n := fun _ => 1000%N; h_rw2 := fun _ => / 10 ^ 10; h_rd3 := fun _ => / 10 ^ 21;
  h_m := fun k _ => if (k =? CO2)%nat then eq_x else if (k =? Hp)%nat then eq_H else 0;
  h_amb := fun g _ => if (g =? CO2)%nat then 1 / 1000 else 0; h_tmp := fun _ _ => 0; h_rhod := fun _ => 1; h_dv := fun _ => 1; h_T := fun _ => 280 |}.
Definition kx_W : kworld := mk_kw kx_h (fun _ => 1 / 2) (fun _ => 0) (fun _ => 1 / 2) (mk_puddle 0 0 0 0 0 0 (fun _ => 0)).
Definition kx_sorts : nat -> list nat * list nat := fun _ => ([0; 0]%nat, [0; 1]%nat).
Lemma kx_setup_ok : ksetup_ok kx_F.
Proof.
  split; [|split; reflexivity]. unfold setup_ok, kx_F, kx_b, grid_dims. cbn. repeat split; try lra; try lia; try discriminate; left; lra.
Qed.
Lemma kx_pos : 0 < eq_V /\ 0 < eq_H /\ 0 < eq_x.
Proof.
  assert (HV : 0 < eq_V) by (apply vol_pos; apply Rinv_0_lt_compat; apply pow_lt; lra).
  pose proof M_H_pos as HM.
  assert (HH : 0 < eq_H) by (unfold eq_H; apply Rmult_lt_0_compat; [lra|exact HV]).
  assert (Hh : 0 < eq_H / M_H / eq_V) by (apply h_pos; assumption).
  pose proof (Henry_eff_pos 2 280 _ Hh) as HHe. pose proof (M_aq_pos 2) as Ma. pose proof (M_gas_pos 2) as Mg. pose proof kaBoNA_pos as HR.
  split; [exact HV|]. split; [exact HH|].
  unfold eq_x. assert (0 < M_aq_ 2 / M_gas_ 2) by (apply Rdiv_lt_0_compat; assumption). repeat (apply Rmult_lt_0_compat; [|lra]). lra.
Qed.
Lemma kx_state_ok : kstate_ok kx_F kx_W.
Proof.
  destruct kx_pos as (HV & HH & Hx).
  assert (Hr : 0 < / 10 ^ 21) by (apply Rinv_0_lt_compat; apply pow_lt; lra).
  unfold kstate_ok, kx_F, kx_W, kx_h, cells_of, n_cell, m1. cbn [k_h h_np h_rhod h_dv h_ijk h_rd3 h_n f_max f_nx f_ny f_nz]. cbv zeta.
  split; [lia|]. split; [intros; lra|]. split; [intros; cbn; lia|]. split; [intros; split; [lra|reflexivity]|].
  intros k i _. cbn [h_m]. destruct (k =? CO2)%nat; [lra|]. destruct (k =? Hp)%nat; lra.
Qed.
Definition kx_ready : chst := let h := gas_sync_in (h_amb kx_h) kx_h in
  mk_chst (h_np h) (h_ijk h) (h_n h) (fun _ => / 10 ^ 10) (h_rd3 h) (h_m h) (h_amb h) (h_tmp h) (fun _ => 1) (fun _ => 1) (fun _ => 280).
Lemma kx_before : before kx_F kx_W (with_h kx_W kx_ready).
Proof.
  exists (h_amb kx_h), (fun _ => / 10 ^ 10), (fun _ => 1), (fun _ => 1), (fun _ => 280). split; [intros; lra|]. split; [reflexivity|]. reflexivity.
Qed.
Lemma kx_sort : sort_helper true [0; 0]%nat [0; 0]%nat [0; 1]%nat.
Proof. exact ex_sort. Qed.
Lemma kx_phys : phys eq_o kx_ready /\ sorts_ok kx_ready kx_sorts.
Proof.
  assert (Hr : 0 < / 10 ^ 10) by (apply Rinv_0_lt_compat; apply pow_lt; lra). split.
  - unfold phys; cbn [kx_ready eq_o h_rw2 h_T h_rhod h_dv ho_dt ho_fp ho_fps]. repeat (split; [intros; try split; lra|]).
    split; [apply fp_double_ok|]. split; [apply fp_single_ok|]. cbn [fp_double fp_single feps]. lra.
  - intros k. exists true. exact kx_sort.
Qed.
(** the air keeps its CO2 *)
Lemma kx_gas : exists h, chem_step eq_o kx_sorts kx_ready = Some h /\
  trajectory eq_o kx_sorts kx_ready 1 (fun k => if (k =? 0)%nat then kx_ready else h) /\ h_amb h CO2 0%nat = 1 / 1000.
Proof.
  destruct kx_pos as (HV & HH & Hx). destruct kx_phys as (Hph & Hs).
  pose proof M_H_pos as HM.
  assert (Hh : 0 < eq_H / M_H / eq_V) by (apply h_pos; assumption).
  pose proof (Henry_eff_pos 2 280 _ Hh) as HHe. pose proof (M_aq_pos 2) as Ma. pose proof (M_gas_pos 2) as Mg. pose proof kaBoNA_pos as HR.
  assert (Hr : 0 < / 10 ^ 10) by (apply Rinv_0_lt_compat; apply pow_lt; lra).
  destruct (chem_substep eq_o [0; 0]%nat [0; 1]%nat 0 kx_ready) as [s'|] eqn:E; [|discriminate E].
  assert (T : trajectory eq_o kx_sorts kx_ready 1 (fun k => if (k =? 0)%nat then kx_ready else s')).
  { split; [reflexivity|intros k Hk; replace k with 0%nat by lia; exact E]. }
  exists s'. split; [|split; [exact T|]].
  { unfold chem_step. change (ho_dsl eq_o || ho_dsc eq_o || ho_rct eq_o) with true. cbv iota.
    change (ho_sstp eq_o) with 1%nat. cbn [chem_loop kx_sorts fst snd]. rewrite E. reflexivity. }
  rewrite (substep_amb _ _ _ _ _ _ E). change (ho_dsl eq_o) with true. cbv iota.
  assert (E1 : sstp_step_chem (ho_allow eq_o) (ho_var_rho eq_o) (ho_sstp eq_o) 0 kx_ready = kx_ready) by reflexivity. rewrite E1. clear E1.
  set (dt := ho_dt eq_o / INR (ho_sstp eq_o)).
  assert (Hdt : 0 < dt) by (unfold dt; cbn [eq_o ho_dt ho_sstp INR]; lra). clearbody dt.
  assert (HVe : forall i, chem_vol_ante kx_ready i = eq_V) by reflexivity.
  set (V := chem_vol_ante kx_ready) in *. set (flag := chem_flag_ante kx_ready V). clearbody flag. clearbody V.
  assert (HND : NoDup (seq 0 chem_gas_n)) by apply seq_NoDup.
  assert (HnH : ~ In Hp (seq 0 chem_gas_n)) by (rewrite in_seq; unfold Hp, chem_gas_n; lia).
  pose proof (henry_fold dt V flag [0; 0]%nat [0; 1]%nat _ HND HnH kx_ready) as F. cbv zeta in F. destruct F as (_ & _ & F).
  destruct (F CO2) as (_ & Ea); [apply in_seq; unfold CO2, chem_gas_n; lia|]. specialize (Ea (Hs 0%nat) 0%nat).
  assert (Eu : chem_henry dt V flag [0; 0]%nat [0; 1]%nat kx_ready = fold_left (chem_henry_gas dt V flag [0; 0]%nat [0; 1]%nat) (seq 0 chem_gas_n) kx_ready) by reflexivity.
  rewrite <- Eu in Ea. clear Eu F. rewrite Ea.
  assert (Eg : forall i, mg_of dt V flag kx_ready CO2 i = eq_x).
  { intros i. unfold mg_of. destruct (flag i); [|reflexivity].
    change (h_m kx_ready CO2 i) with eq_x. change (h_m kx_ready Hp i) with eq_H. change (h_amb kx_ready CO2 (h_ijk kx_ready i)) with (1 / 1000).
    change (h_rw2 kx_ready i) with (/ 10 ^ 10). change (h_rhod kx_ready (h_ijk kx_ready i)) with 1. unfold T_of. change (h_T kx_ready (h_ijk kx_ready i)) with 280.
    rewrite HVe. unfold chem_Henry_fun. unfold CO2. assert (H280 : 0 < 280) by lra. pose proof (mass_trans_pos (/ 10 ^ 10) 2 280 Hr H280) as Hk'.
    unfold eq_x. set (He := Henry_eff 2 280 (eq_H / M_H / eq_V)) in *. set (kk := mass_trans (/ 10 ^ 10) (D_ 2) (ac_ 2) 280 (M_gas_ 2)) in *.
    clearbody He kk. set (a := M_aq_ 2) in *. set (b := M_gas_ 2) in *. set (Rg := kaBoNA) in *. clearbody a b Rg.
    assert (0 < dt * kk) by (apply Rmult_lt_0_compat; assumption). assert (0 < He * Rg) by (apply Rmult_lt_0_compat; assumption).
    field. repeat split; try lra; nra. }
  match goal with |- context [if ?d then _ else _] => destruct d as [Ho|Ho] end; [|reflexivity].
  unfold new_amb.
  assert (Ec : cellsum (h_np kx_ready) (h_ijk kx_ready) (fun i => N2R (h_n kx_ready i) * mg_of dt V flag kx_ready CO2 i) 0%nat =
               cellsum (h_np kx_ready) (h_ijk kx_ready) (fun i => N2R (h_n kx_ready i) * h_m kx_ready CO2 i) 0%nat).
  { apply cellsum_ext. intros i _ _. rewrite Eg. reflexivity. }
  rewrite Ec. unfold ambient_chem_calculator. unfold Rminus at 2 4. rewrite Rplus_opp_r. unfold Rdiv. rewrite !Rmult_0_l, Rminus_0_r.
  change (h_amb kx_ready CO2 0%nat) with (1 / 1000). destruct (Rltb 0 (1 / 1000)) eqn:El; [lra|apply Rltb_false in El; lra].
Qed.

Theorem C94_instance : exists s W',
  ksetup_ok kx_F /\ kstate_ok kx_F kx_W /\ krun kx_F kx_W [(kx_so, s)] W' /\ Forall (kstep_ok kx_F) [(kx_so, s)] /\
  Forall (gas_lasts kx_F carbon_IV) [(kx_so, s)] /\ on_ground carbon_IV kx_W = 0 /\ 0 < on_ground carbon_IV W'.
Proof.
  destruct kx_pos as (HV & HH & Hx). destruct kx_phys as (Hph & Hs). pose proof kx_setup_ok as HF. pose proof kx_state_ok as HW.
  destruct kx_gas as (h & HC & HT & HA). pose proof kx_before as H1. set (W0 := with_h kx_W kx_ready) in *.
  destruct (before_part kx_F _ _ H1 HW) as (A1 & A2 & A3).
  set (W1 := with_h W0 (gas_async (ho_allow eq_o) (ho_dsl eq_o) h)).
  assert (H2 : chemistry kx_so kx_sorts W0 W1) by (exists h; split; [exact HC|reflexivity]).
  assert (Hr : 0 < ho_rho eq_o) by (cbn; lra).
  destruct (chem_part kx_F kx_so kx_sorts W0 W1 _ H2 A1 Hph eq_refl Hr Hs) as (B1 & B2 & B3 & B4 & B5).
  set (st := fun k : nat => if (k =? 0)%nat then kx_ready else h).
  assert (GP : trajectory (ko_chem kx_so) kx_sorts (k_h W0) (ho_sstp (ko_chem kx_so)) st /\
    forall k c, (k < ho_sstp (ko_chem kx_so))%nat -> (c < cells_of kx_F)%nat ->
      0 <= h_amb (sstp_step_chem (ho_allow (ko_chem kx_so)) (ho_var_rho (ko_chem kx_so)) (ho_sstp (ko_chem kx_so)) k (st k)) (gas_of carbon_IV) c /\
      0 < h_amb (st (S k)) (gas_of carbon_IV) c).
  { split; [exact HT|]. intros k c Hk Hc. assert (K : k = 0%nat) by (cbn in Hk; lia). subst k.
    assert (C0 : c = 0%nat) by (unfold cells_of, n_cell, m1, kx_F in Hc; cbn in Hc; lia). subst c. unfold st. cbn [Nat.eqb gas_of]. split; [cbn; lra|].
    change 2%nat with CO2. rewrite HA. lra. }
  clearbody st.
  assert (GL : forall W' M, gas_lasts kx_F carbon_IV (kx_so, mk_kss kx_W W0 kx_sorts M W')).
  { intros W' M. unfold gas_lasts. cbv zeta. cbn [fst snd ka_sorts ka_ready]. intros _. exists st. exact GP. }
  pose proof (chem_exact kx_F kx_so kx_sorts W0 W1 carbon_IV st H2 A1 Hph Hr Hs (fun _ => GP)) as EX.
  destruct (C69_never_lost eq_o kx_sorts kx_ready h HC Hs (fun c => proj1 (proj2 (proj2 Hph)) c)) as (_ & F1 & F2 & F3 & F4 & F5 & F6 & F7).
  assert (A0 : h_amb (k_h W1) CO2 0%nat = 1 / 1000) by exact HA.
  assert (R0 : h_rhod (k_h W1) 0%nat = 1) by (change (h_rhod h 0%nat = 1); rewrite F5; reflexivity).
  assert (V0 : h_dv (k_h W1) 0%nat = 1) by (change (h_dv h 0%nat = 1); rewrite F6; reflexivity).
  assert (N0 : h_np (k_h W1) = 2%nat) by (change (h_np h = 2%nat); rewrite F1; reflexivity).
  assert (M0 : h_n (k_h W1) = fun _ => 1000%N) by (change (h_n h = fun _ => 1000%N); rewrite F3; reflexivity).
  assert (I0 : h_ijk (k_h W1) = fun _ => 0%nat) by (change (h_ijk h = fun _ => 0%nat); rewrite F2; reflexivity).
  assert (P0 : k_pud W1 = mk_puddle 0 0 0 0 0 0 (fun _ => 0)) by reflexivity.
  clear HA GP. clearbody W1. clear F1 F2 F3 F4 F5 F6 F7 HC HT.
  assert (DR : in_drops carbon_IV W1 = 2000 * (eq_x / (62 / 1000))).
  { assert (Q : in_drops carbon_IV W0 = 2000 * (eq_x / (62 / 1000))).
    { unfold in_drops, held. change (h_np (k_h W0)) with 2%nat. cbn [sumR mol_in]. change (h_n (k_h W0)) with (fun _ : nat => 1000%N). cbv beta.
      change (h_m (k_h W0) CO2 0%nat) with eq_x. change (h_m (k_h W0) CO2 1%nat) with eq_x. replace (N2R 1000) with 1000 by (unfold N2R; cbn; lra). field. }
    assert (AIR : in_air kx_F carbon_IV W1 = in_air kx_F carbon_IV W0).
    { unfold in_air. change (cells_of kx_F) with 1%nat. cbn [sumR mol_air]. rewrite A0, R0, V0. reflexivity. }
    lra. }
  (* collisions *)
  assert (WW : wet W1) by (intros i; specialize (B5 i); lra).
  destruct (coal (fun _ _ _ => 3) 1 (h_dv (k_h W1)) (f_co kx_F) (m1 (f_nx kx_F) * m1 (f_ny kx_F) * m1 (f_nz kx_F)) (fun _ => 0%nat) (fun _ => 0) [0;1]%nat [0;0]%nat 2
              (fun _ => [0%nat]) (fun _ => 0) (ksd_of W1 (fun _ => 0) (fun _ => 0) (fun _ => 0) (fun _ => 0))) as [cs|] eqn:EC; [|discriminate EC].
  set (W2 := with_ksds W1 (arr cs)).
  assert (H3' : kcoal_pass kx_F W1 W2).
  { exists (fun _ _ _ => 3), 1, (fun _ => 0%nat), (fun _ => 0), [0;0]%nat, [0;1]%nat, (fun _ => [0%nat]), (fun _ => 0), cs, (fun _ => 0), (fun _ => 0), (fun _ => 0), (fun _ => 0).
    cbv zeta. rewrite N0, I0. cbn [seq map length]. split; [intros; lra|]. split; [lra|]. split; [intros; apply Permutation_refl|].
    split; [exact ex_sort|]. split; [exact EC|reflexivity]. }
  assert (H3 : kcoalescence kx_F kx_so W1 W2) by (unfold kcoalescence; cbn [ko_coal kx_so ko_sstp_coal kcoal_passes]; exists W2; auto).
  destruct (coalescence_part kx_F HF kx_so W1 W2 H3 B1 WW) as (C1 & C2 & C3 & C4 & C5).
  assert (N2 : h_np (k_h W2) = 2%nat) by exact N0.
  clearbody W2.
  (* both fall out *)
  set (W3 := mk_kw (k_h W2) (fun _ => 1 / 2) (fun _ => 0) (fun _ => -1) (k_pud W2)).
  assert (H4 : kmotion kx_F W2 W3).
  { exists (fun _ => 1 / 2), (fun _ => 0), (fun _ => -1). split; [|reflexivity]. intros i _. unfold near, kx_F, kx_b. cbn. lra. }
  destruct (motion_part kx_F W2 W3 H4 C1 C2) as (D1 & D2 & D3 & D4).
  set (s0 := mk_kss kx_W W0 kx_sorts W3 W3).
  destruct (walls_part kx_F HF s0 D1 D2) as (E1 & E2 & E3 & E4 & E5 & E6). cbn [s0 ka_moved] in *.
  assert (LB : forall i, left_bottom kx_b (kbsd_of W3 i) = true).
  { intros i. unfold left_bottom. cbn [has_vertical_walls kx_b n_dims periodic_topbot Nat.ltb Nat.leb negb andb]. apply Rltb_true. cbn. lra. }
  assert (FO : forall i, fell_out kx_b (kbsd_of W3 i) = true).
  { intros i. unfold fell_out. rewrite LB. unfold left_sideways. cbn [kx_b n_dims distmem open_side_walls Nat.eqb andb orb kbsd_of b_x x0 x1 W3 k_x]. rewrite orb_false_r.
    replace (Rltb (1 / 2) 0) with false by (symmetry; apply Rltb_false; lra). replace (Rleb 1 (1 / 2)) with false by (symmetry; apply Rleb_false; lra). reflexivity. }
  assert (KF : kfallen kx_F (fun m _ => mol_in carbon_IV m) W3 = in_drops carbon_IV W3).
  { unfold kfallen, in_drops, held. change (f_parcel kx_F) with false. cbv iota. unfold fallen_sum. rewrite map_map, <- sumR_seq.
    apply sumR_ext. intros i _. change (f_b kx_F) with kx_b. rewrite FO. reflexivity. }
  remember (kwalls kx_F W3) as V eqn:EV.
  assert (NV : h_np (k_h V) = 2%nat) by (rewrite EV; exact N2).
  assert (ZV : forall i, (i < 2)%nat -> h_n (k_h V) i = 0%N).
  { intros i Hi. rewrite EV. unfold kwalls. cbn [k_h set_n h_n]. assert (N3 : h_np (k_h W3) = 2%nat) by exact N2. rewrite N3. change (f_b kx_F) with kx_b.
    destruct (C09_exactly_those_outside_are_removed kx_b (map (kbsd_of W3) (seq 0 2)) (k_pud W3) (kbsd_of W3 i) ltac:(discriminate) ltac:(cbn; lra)) as (_ & Q).
    destruct (Q i ltac:(cbn; lia)) as [Q1 _]. refine (eq_trans Q1 _).
    assert (NI : nth i (map (kbsd_of W3) (seq 0 2)) (kbsd_of W3 i) = kbsd_of W3 i) by (destruct i as [|[|i]]; [reflexivity|reflexivity|lia]).
    rewrite NI, LB, orb_true_r. reflexivity. }
  assert (GV : on_ground carbon_IV V = 2000 * (eq_x / (62 / 1000))).
  { rewrite E4, KF. replace (on_ground carbon_IV W3) with 0.
    - unfold in_drops. unfold W3 at 1. change (held (fun m _ => mol_in carbon_IV m) (mk_kw (k_h W2) (fun _ => 1 / 2) (fun _ => 0) (fun _ => -1) (k_pud W2))) with (held (fun m _ => mol_in carbon_IV m) W2).
      rewrite (C3 _ (linear_mol carbon_IV)). unfold in_drops in DR. rewrite DR. ring.
    - unfold on_ground. change (k_pud W3) with (k_pud W2). rewrite C5, P0. cbn. lra. }
  assert (KE : kdonors kx_F kx_so s0) by (intros Q; discriminate Q).
  assert (ST : sort_by_key_result (map (fun i => N.to_nat (h_n (k_h V) i)) (seq 0 (h_np (k_h V)))) (seq 0 (h_np (k_h V))) [0; 0]%nat [0; 1]%nat).
  { rewrite NV. cbn [seq map]. rewrite !ZV by lia. split; [reflexivity|]. split; [reflexivity|]. split; [apply Permutation_refl|repeat constructor]. }
  assert (OV : (h_np (k_h V) <= f_max kx_F)%nat) by (rewrite NV; cbn; lia).
  destruct (C05_totals_conserved (fun _ => 0) (fun _ => 0%N) (f_max kx_F) (n_vec kx_F) CoalModel.chem_all false [0; 0]%nat [0; 1]%nat (fun l m => seq 0 m) false
     (kpop_of V (fun _ _ => 0)) (fun _ => 0) (conj OV (conj ST (fun l m => Permutation_refl (seq 0 m))))) as (p' & EP & _).
  set (W' := with_kpop kx_F V p').
  exists (mk_kss kx_W W0 kx_sorts W3 W'), W'.
  split; [exact HF|]. split; [exact HW|]. split; [|split; [|split; [|split]]].
  - refine (krun_cons kx_F kx_so (mk_kss kx_W W0 kx_sorts W3 W') [] _ _ (krun_nil kx_F _)).
    exists W1, W2. cbn [ka_start ka_ready ka_sorts ka_moved ka_end]. split; [exact H1|]. split; [exact H2|]. split; [exact H3|]. split; [exact H4|].
    rewrite <- EV. exists (fun _ _ => 0), (fun _ => 0), (fun _ => 0%N), [0; 0]%nat, [0; 1]%nat, (fun l m => seq 0 m), p'.
    split; [exact ST|]. split; [intros; apply Permutation_refl|]. split; [exact EP|reflexivity].
  - constructor; [|constructor]. unfold kstep_ok. cbn [fst snd ka_ready ka_sorts]. split; [exact Hph|]. split; [exact Hr|]. split; [exact Hs|exact KE].
  - constructor; [|constructor]. apply GL.
  - unfold on_ground, kx_W. cbn. lra.
  - replace (on_ground carbon_IV W') with (on_ground carbon_IV V) by reflexivity. rewrite GV. assert (0 < eq_x / (62 / 1000)) by (apply Rdiv_lt_0_compat; lra). lra.
Qed.

Print Assumptions C94_never_lost.
Print Assumptions C94_conserved_partial.
Print Assumptions C94_aerosol_grows_by_sulfate.
Print Assumptions C94_state.
Print Assumptions C94_instance.
