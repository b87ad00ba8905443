(** * C69: a whole step of chemistry: substeps, switches, what is conserved *)
From Coq Require Import List Arith NArith ZArith Lia Reals Lra Bool.
From Verif Require Import Base BaseProofs ThermoModel ThermoProofs TomsModel TomsProps MomsModel InitModel MomsProofs ChemModel ChemHenry ChemDissoc ChemReact CondPassProofs HskpngModel.
Import ListNotations.
Local Open Scope R_scope.

(** ** Specification *)
(** moles of nitrogen(V), nitrogen(-III), carbon(IV) or sulphur (e = HNO3, NH3, CO2, SO2) in droplet i; all of it in cell c *)
Definition drop_mol (e : nat) (s : chst) (i : nat) : R :=
  h_m s e i / M_aq_ e + (if (e =? SO2)%nat then h_m s S_VI i / M_H2SO4 else 0).
Definition total (e : nat) (s : chst) (c : nat) : R :=
  air_mol s e c + sumR (h_np s) (fun i => if (h_ijk s i =? c)%nat then N2R (h_n s i) * drop_mol e s i else 0).
(** the sort of each substep lists the super-droplets by cell *)
Definition sorts_ok (s : chst) (sorts : nat -> list nat * list nat) : Prop :=
  forall k, sorted_pop (h_np s) (h_ijk s) (fst (sorts k)) (snd (sorts k)).
(** the states between substeps *)
Definition trajectory (o : chopts) (sorts : nat -> list nat * list nat) (s : chst) (n : nat) (st : nat -> chst) : Prop :=
  st 0%nat = s /\ forall k, (k < n)%nat -> chem_substep o (fst (sorts k)) (snd (sorts k)) k (st k) = Some (st (S k)).

Definition frame (s s' : chst) : Prop :=
  h_np s' = h_np s /\ h_ijk s' = h_ijk s /\ h_n s' = h_n s /\ h_rw2 s' = h_rw2 s /\ h_rhod s' = h_rhod s /\ h_dv s' = h_dv s /\ h_T s' = h_T s.
Lemma frame_refl s : frame s s. Proof. repeat split. Qed.
Lemma frame_trans a b c : frame a b -> frame b c -> frame a c.
Proof. unfold frame. intuition congruence. Qed.

(** ** Trajectories *)
Lemma loop_trajectory o sorts : forall left step s s', chem_loop o sorts step left s = Some s' ->
  exists st, st step = s /\ st (step + left)%nat = s' /\
    forall k, (step <= k < step + left)%nat -> chem_substep o (fst (sorts k)) (snd (sorts k)) k (st k) = Some (st (S k)).
Proof.
  induction left as [|l IH]; intros step s s' H; cbn [chem_loop] in H.
  - injection H as <-. exists (fun _ => s). rewrite Nat.add_0_r. repeat split. intros k Hk. lia.
  - destruct (chem_substep o (fst (sorts step)) (snd (sorts step)) step s) as [s1|] eqn:E; [|discriminate].
    destruct (IH (S step) s1 s' H) as (st & A & B & C).
    exists (fun k => if (k =? step)%nat then s else st k).
    rewrite Nat.eqb_refl. split; [reflexivity|]. split.
    + replace (step + S l)%nat with (S step + l)%nat by lia.
      destruct (Nat.eqb_spec (S step + l) step); [lia|]. exact B.
    + intros k Hk. destruct (Nat.eqb_spec (S k) step); [lia|].
      destruct (Nat.eqb_spec k step) as [->|Hne]; [rewrite A; exact E|]. apply C. lia.
Qed.
Lemma trajectory_loop o sorts : forall left step st,
  (forall k, (step <= k < step + left)%nat -> chem_substep o (fst (sorts k)) (snd (sorts k)) k (st k) = Some (st (S k))) ->
  chem_loop o sorts step left (st step) = Some (st (step + left)%nat).
Proof.
  induction left as [|l IH]; intros step st H; cbn [chem_loop]; [rewrite Nat.add_0_r; reflexivity|].
  rewrite H by lia. rewrite IH by (intros k Hk; apply H; lia). f_equal. f_equal. lia.
Qed.

(** ** Parts of a substep *)
Lemma sstp_step_spec allow var_rho n step s :
  let s' := sstp_step_chem allow var_rho n step s in
  frame s s' /\ h_m s' = h_m s /\ h_rd3 s' = h_rd3 s /\
  forall g c, if allow && (g <? if var_rho then 6 else 5)%nat then
      if (step =? 0)%nat then h_tmp s' g c = h_amb s g c - h_tmp s g c /\
                              h_amb s' g c = h_amb s g c - (INR n - 1) * (h_amb s g c - h_tmp s g c) / INR n
      else h_tmp s' g c = h_tmp s g c /\ h_amb s' g c = h_amb s g c + h_tmp s g c / INR n
    else h_tmp s' g c = h_tmp s g c /\ h_amb s' g c = h_amb s g c.
Proof.
  cbn zeta. unfold sstp_step_chem. destruct allow; cbn [negb andb].
  2:{ split; [apply frame_refl|]. repeat split. }
  set (F := fun s ix => _).
  assert (G : forall l, NoDup l -> forall s, let s' := fold_left F l s in
     frame s s' /\ h_m s' = h_m s /\ h_rd3 s' = h_rd3 s /\
     forall g c, (In g l -> if (step =? 0)%nat then h_tmp s' g c = h_amb s g c - h_tmp s g c /\
                              h_amb s' g c = h_amb s g c - (INR n - 1) * (h_amb s g c - h_tmp s g c) / INR n
         else h_tmp s' g c = h_tmp s g c /\ h_amb s' g c = h_amb s g c + h_tmp s g c / INR n) /\
       (~ In g l -> h_tmp s' g c = h_tmp s g c /\ h_amb s' g c = h_amb s g c)).
  { clear s. induction l as [|a l IH]; intros ND s s'.
    - split; [apply frame_refl|]. split; [reflexivity|]. split; [reflexivity|]. intros g c. split; [intros []|intros _; split; reflexivity].
    - inversion ND as [|? ? Hni ND']; subst. cbn [fold_left] in s'. destruct (IH ND' (F s a)) as (I1 & I2 & I3 & I4).
      fold s' in I1, I2, I3, I4.
      assert (S1 : frame s (F s a) /\ h_m (F s a) = h_m s /\ h_rd3 (F s a) = h_rd3 s).
      { unfold F. destruct (step =? 0)%nat; repeat split. }
      destruct S1 as (S1 & S2 & S3).
      assert (O : forall g c, g <> a -> h_tmp (F s a) g c = h_tmp s g c /\ h_amb (F s a) g c = h_amb s g c).
      { intros g c Hne. unfold F. destruct (step =? 0)%nat; cbn [h_tmp h_amb set_tmp set_amb]; unfold upd;
          destruct (Nat.eqb_spec g a); try contradiction; split; reflexivity. }
      split; [eapply frame_trans; eassumption|]. split; [congruence|]. split; [congruence|].
      intros g c. destruct (I4 g c) as (J1 & J2). split.
      + intros [<-|Hin].
        * destruct (J2 Hni) as (E1 & E2). rewrite E1, E2. unfold F.
          destruct (step =? 0)%nat; cbn [h_tmp h_amb set_tmp set_amb]; unfold upd; rewrite ?Nat.eqb_refl; split; reflexivity.
        * assert (Hne : g <> a) by (intros ->; contradiction). destruct (O g c Hne) as (E1 & E2). specialize (J1 Hin).
          rewrite E1, E2 in J1. exact J1.
      + intros Hn. cbn [In] in Hn. destruct J2 as (E1 & E2); [tauto|]. destruct (O g c) as (E3 & E4); [intros ->; tauto|].
        rewrite E1, E2, E3, E4. split; reflexivity. }
  destruct (G (seq 0 (if var_rho then 6 else 6 - 1)) (seq_NoDup _ _) s) as (G1 & G2 & G3 & G4).
  split; [exact G1|]. split; [exact G2|]. split; [exact G3|]. intros g c. destruct (G4 g c) as (H1 & H2). rewrite in_seq in H1, H2.
  change (6 - 1)%nat with 5%nat in *.
  destruct (Nat.ltb_spec g (if var_rho then 6 else 5)); [apply H1; lia|apply H2; lia].
Qed.

Lemma total_cellsum e s c : total e s c = air_mol s e c + cellsum (h_np s) (h_ijk s) (fun i => N2R (h_n s i) * drop_mol e s i) c.
Proof. reflexivity. Qed.
Lemma cellsum_le np ijk w w' c : (forall i, (i < np)%nat -> ijk i = c -> w i <= w' i) -> cellsum np ijk w c <= cellsum np ijk w' c.
Proof.
  unfold cellsum. intros H. induction np as [|k IH]; [cbn; lra|]. cbn.
  assert (IH' := IH (fun i Hi => H i (Nat.lt_lt_succ_r _ _ Hi))).
  destruct (Nat.eqb_spec (ijk k) c) as [E|E]; [specialize (H k (Nat.lt_succ_diag_r k) E); lra|lra].
Qed.
Lemma total_le e s s' c : frame s s' -> air_mol s e c <= air_mol s' e c ->
  (forall i, (i < h_np s)%nat -> h_ijk s i = c -> drop_mol e s i <= drop_mol e s' i) -> total e s c <= total e s' c.
Proof.
  intros (Q1 & Q2 & Q3 & _) Ha Hd. rewrite !total_cellsum. rewrite Q1, Q2, Q3.
  apply Rplus_le_compat; [exact Ha|]. apply cellsum_le. intros i Hi Hc. apply Rmult_le_compat_l; [apply N2R_nonneg|apply Hd; assumption].
Qed.
Lemma total_eq e s s' c : frame s s' -> air_mol s' e c = air_mol s e c ->
  (forall i, (i < h_np s)%nat -> h_ijk s i = c -> drop_mol e s' i = drop_mol e s i) -> total e s' c = total e s c.
Proof.
  intros (Q1 & Q2 & Q3 & _) Ha Hd. rewrite !total_cellsum. rewrite Q1, Q2, Q3, Ha. f_equal.
  apply cellsum_ext. intros i Hi Hc. rewrite Hd by assumption. reflexivity.
Qed.
Lemma drops_split e s c : cellsum (h_np s) (h_ijk s) (fun i => N2R (h_n s i) * drop_mol e s i) c =
  drops_mol s e c + (if (e =? SO2)%nat then cellsum (h_np s) (h_ijk s) (fun i => N2R (h_n s i) * h_m s S_VI i) c / M_H2SO4 else 0).
Proof.
  unfold drops_mol, cellsum, drop_mol. induction (h_np s) as [|k IH]; cbn [sumR].
  - destruct (e =? SO2)%nat; unfold Rdiv; ring.
  - rewrite IH. destruct (e =? SO2)%nat; unfold Rdiv; destruct (h_ijk s k =? c)%nat; ring.
Qed.

Lemma cleanup_spec s : frame s (chem_cleanup s) /\ h_amb (chem_cleanup s) = h_amb s /\ h_tmp (chem_cleanup s) = h_tmp s /\
  h_rd3 (chem_cleanup s) = h_rd3 s /\ (forall k i, h_m s k i <= h_m (chem_cleanup s) k i) /\
  (forall k i, (k < 8)%nat -> 0 <= h_m (chem_cleanup s) k i) /\ (forall k i, 0 <= h_m s k i -> h_m (chem_cleanup s) k i = h_m s k i).
Proof.
  split; [repeat split|]. split; [reflexivity|]. split; [reflexivity|]. split; [reflexivity|].
  unfold chem_cleanup, cleanup; cbn [h_m set_m]. unfold chem_all. split; [|split]; intros k i.
  - destruct (k <? 8)%nat; [|lra]. destruct (Rleb 0 (h_m s k i)) eqn:E; [lra|apply Rleb_false in E; lra].
  - intros Hk. apply Nat.ltb_lt in Hk. rewrite Hk. destruct (Rleb 0 (h_m s k i)) eqn:E; [apply Rleb_true in E; exact E|lra].
  - intros H. destruct (k <? 8)%nat; [|reflexivity]. destruct (Rleb 0 (h_m s k i)) eqn:E; [reflexivity|apply Rleb_false in E; lra].
Qed.
Lemma drop_mono e s s' i : (e < 4)%nat -> (forall k, h_m s k i <= h_m s' k i) -> drop_mol e s i <= drop_mol e s' i.
Proof.
  intros He H. unfold drop_mol. pose proof (M_aq_pos e) as M. assert (M2 : 0 < M_H2SO4) by (unfold M_H2SO4; lra).
  assert (forall a b d, 0 < d -> a <= b -> a / d <= b / d) as Q.
  { intros a b d Hd Hab. unfold Rdiv. apply Rmult_le_compat_r; [left; apply Rinv_0_lt_compat; exact Hd|exact Hab]. }
  apply Rplus_le_compat; [apply Q; [exact M|apply H]|]. destruct (e =? SO2)%nat; [apply Q; [exact M2|apply H]|lra].
Qed.
Lemma cleanup_total e s c : (e < 4)%nat -> total e s c <= total e (chem_cleanup s) c.
Proof.
  intros He. destruct (cleanup_spec s) as (F & A & _ & _ & M & _).
  apply total_le; [exact F| |]; [|intros i _ _; apply drop_mono; [exact He|intros k; apply M]].
  unfold air_mol. rewrite A. destruct F as (_ & _ & _ & _ & -> & -> & _). lra.
Qed.

Lemma dissoc_total e fp fps V flag s c : (e < 4)%nat -> frame s (chem_dissoc fp fps V flag s) /\ total e (chem_dissoc fp fps V flag s) c = total e s c /\
  h_amb (chem_dissoc fp fps V flag s) = h_amb s /\ h_tmp (chem_dissoc fp fps V flag s) = h_tmp s /\
  (forall k i, k <> Hp -> h_m (chem_dissoc fp fps V flag s) k i = h_m s k i).
Proof.
  intros He.
  assert (M : forall k i, k <> Hp -> h_m (chem_dissoc fp fps V flag s) k i = h_m s k i).
  { intros k i Hk. unfold chem_dissoc; cbn [h_m set_m]. unfold upd. apply Nat.eqb_neq in Hk. rewrite Hk. reflexivity. }
  split; [repeat split|]. split; [|split; [reflexivity|split; [reflexivity|exact M]]].
  apply total_eq; [repeat split|reflexivity|]. intros i _ _. unfold drop_mol. rewrite !M; [reflexivity|unfold S_VI, Hp; lia|unfold Hp; lia].
Qed.
Lemma react_drop e dt rho V flag s i : (e < 4)%nat -> drop_mol e (chem_react dt rho V flag s) i = drop_mol e s i.
Proof.
  intros He. unfold drop_mol.
  assert (R1 : 1 <> 0) by lra.
  destruct (C68_stoichiometry dt 1 V flag s i R1) as (A & _ & _ & B & _). cbn zeta in A, B.
  assert (E : h_m (chem_react dt rho V flag s) = h_m (chem_react dt 1 V flag s)) by reflexivity. rewrite E. clear E.
  destruct (Nat.eqb_spec e SO2) as [->|Hne].
  - unfold moles, SO2, S_VI in A. unfold M_aq_, SO2, S_VI, M_SO2_H2O, M_H2SO4. exact A.
  - rewrite B; [reflexivity|]. unfold SO2, HNO3, NH3, CO2, Hp in *. lia.
Qed.
Lemma react_total e dt rho V flag s c : (e < 4)%nat -> frame s (chem_react dt rho V flag s) /\
  total e (chem_react dt rho V flag s) c = total e s c /\ h_amb (chem_react dt rho V flag s) = h_amb s /\ h_tmp (chem_react dt rho V flag s) = h_tmp s.
Proof.
  intros He. split; [repeat split|]. split; [|split; reflexivity].
  apply total_eq; [repeat split|reflexivity|]. intros i _ _. apply react_drop; exact He.
Qed.
Lemma static_frame s s' : same_static s s' -> frame s s' /\ h_tmp s' = h_tmp s.
Proof. unfold same_static, frame. tauto. Qed.
Lemma henry_total e dt V flag sijk sid s c : (e < 4)%nat -> sorted_pop (h_np s) (h_ijk s) sijk sid -> 0 < h_rhod s c -> 0 < h_dv s c ->
  frame s (chem_henry dt V flag sijk sid s) /\ h_tmp (chem_henry dt V flag sijk sid s) = h_tmp s /\
  total e s c <= total e (chem_henry dt V flag sijk sid s) c /\
  (0 < h_amb (chem_henry dt V flag sijk sid s) e c -> total e (chem_henry dt V flag sijk sid s) c = total e s c).
Proof.
  intros He Hs Hr Hd. destruct (C66_conservation_partial dt V flag sijk sid s e ltac:(lia) Hs) as (A & _ & B & St). cbn zeta in A, B, St.
  destruct (A c Hr Hd) as (_ & A2 & A3 & _). destruct (static_frame _ _ St) as (F & T).
  set (s' := chem_henry dt V flag sijk sid s) in *. clearbody s'.
  split; [exact F|]. split; [exact T|].
  rewrite !total_cellsum, !drops_split.
  assert (E : cellsum (h_np s') (h_ijk s') (fun i => N2R (h_n s' i) * h_m s' S_VI i) c = cellsum (h_np s) (h_ijk s) (fun i => N2R (h_n s i) * h_m s S_VI i) c).
  { destruct F as (-> & -> & -> & _). apply cellsum_ext. intros i _ _. rewrite (proj1 (B i)). reflexivity. }
  rewrite E. split; [lra|]. intros Hp. specialize (A2 Hp). lra.
Qed.

(** ** One substep *)
Definition spread (o : chopts) (k : nat) (s : chst) (g c : nat) : R := h_amb (if ho_dsl o then sstp_step_chem (ho_allow o) (ho_var_rho o) (ho_sstp o) k s else s) g c.

Lemma total_sstp allow var_rho n k s e c : total e (sstp_step_chem allow var_rho n k s) c =
  total e s c + (h_amb (sstp_step_chem allow var_rho n k s) e c - h_amb s e c) * (h_rhod s c * h_dv s c) / M_gas_ e.
Proof.
  destruct (sstp_step_spec allow var_rho n k s) as (F & M & _). set (s' := sstp_step_chem allow var_rho n k s) in *. clearbody s'.
  rewrite !total_cellsum. destruct F as (Q1 & Q2 & Q3 & Q4 & Q5 & Q6 & Q7).
  unfold drop_mol, air_mol. rewrite Q1, Q2, Q3, Q5, Q6, M. pose proof (M_gas_pos e). field. lra.
Qed.

Lemma substep_spec o sijk sid k s s' e c :
  chem_substep o sijk sid k s = Some s' -> (e < 4)%nat -> sorted_pop (h_np s) (h_ijk s) sijk sid -> 0 < h_rhod s c -> 0 < h_dv s c ->
  frame s s' /\ (forall g d, h_tmp s' g d = h_tmp (if ho_dsl o then sstp_step_chem (ho_allow o) (ho_var_rho o) (ho_sstp o) k s else s) g d) /\
  total e s c + (spread o k s e c - h_amb s e c) * (h_rhod s c * h_dv s c) / M_gas_ e <= total e s' c.
Proof.
  intros H He Hs Hr Hd. unfold chem_substep in H. destruct (ho_switch o); cbn [negb] in H; [|discriminate].
  set (V := chem_vol_ante s) in *. set (flag := chem_flag_ante s V) in *. set (dt := ho_dt o / INR (ho_sstp o)) in *. clearbody V flag dt.
  pose (s1 := if ho_dsl o then chem_cleanup (chem_henry dt V flag sijk sid (sstp_step_chem (ho_allow o) (ho_var_rho o) (ho_sstp o) k s)) else s).
  pose (s2 := if ho_dsc o then chem_cleanup (chem_dissoc (ho_fp o) (ho_fps o) V flag s1) else s1).
  pose (s3 := if ho_rct o then chem_cleanup (chem_react dt (ho_rho o) V flag s2) else s2).
  assert (E3 : s' = s3) by (injection H as <-; reflexivity). clear H.
  assert (A1 : frame s s1 /\ (forall g d, h_tmp s1 g d = h_tmp (if ho_dsl o then sstp_step_chem (ho_allow o) (ho_var_rho o) (ho_sstp o) k s else s) g d) /\
    total e s c + (spread o k s e c - h_amb s e c) * (h_rhod s c * h_dv s c) / M_gas_ e <= total e s1 c).
  { unfold s1, spread. destruct (ho_dsl o).
    - rewrite <- total_sstp.
      destruct (sstp_step_spec (ho_allow o) (ho_var_rho o) (ho_sstp o) k s) as (F & M & _).
      set (t := sstp_step_chem (ho_allow o) (ho_var_rho o) (ho_sstp o) k s) in *. clearbody t. pose proof F as (Q1 & Q2 & Q3 & Q4 & Q5 & Q6 & Q7).
      rewrite <- Q1, <- Q2 in Hs. rewrite <- Q5 in Hr. rewrite <- Q6 in Hd.
      destruct (henry_total e dt V flag sijk sid t c He Hs Hr Hd) as (F2 & T2 & L & _).
      set (u := chem_henry dt V flag sijk sid t) in *. clearbody u.
      destruct (cleanup_spec u) as (F3 & A3 & T3 & _). pose proof (cleanup_total e u c He).
      split; [eapply frame_trans; [exact F|]; eapply frame_trans; [exact F2|exact F3]|].
      split; [intros g d; rewrite T3, T2; reflexivity|lra].
    - split; [apply frame_refl|]. split; [reflexivity|]. unfold Rminus. rewrite Rplus_opp_r. unfold Rdiv. rewrite !Rmult_0_l. lra. }
  clearbody s1. destruct A1 as (F1 & T1 & L1).
  assert (A2 : frame s1 s2 /\ h_tmp s2 = h_tmp s1 /\ total e s1 c <= total e s2 c).
  { unfold s2. destruct (ho_dsc o); [|split; [apply frame_refl|split; [reflexivity|lra]]].
    destruct (dissoc_total e (ho_fp o) (ho_fps o) V flag s1 c He) as (F2 & E2 & _ & T2 & _).
    set (u := chem_dissoc (ho_fp o) (ho_fps o) V flag s1) in *. clearbody u.
    destruct (cleanup_spec u) as (F3 & A3 & T3 & _). pose proof (cleanup_total e u c He).
    split; [eapply frame_trans; eassumption|]. split; [congruence|lra]. }
  clearbody s2. destruct A2 as (F2 & T2 & L2).
  assert (A3 : frame s2 s3 /\ h_tmp s3 = h_tmp s2 /\ total e s2 c <= total e s3 c).
  { unfold s3. destruct (ho_rct o); [|split; [apply frame_refl|split; [reflexivity|lra]]].
    destruct (react_total e dt (ho_rho o) V flag s2 c He) as (F3 & E3' & _ & T3).
    set (u := chem_react dt (ho_rho o) V flag s2) in *. clearbody u.
    destruct (cleanup_spec u) as (F4 & A4 & T4 & _). pose proof (cleanup_total e u c He).
    split; [eapply frame_trans; eassumption|]. split; [congruence|lra]. }
  clearbody s3. destruct A3 as (F3 & T3 & L3). subst s'.
  split; [eapply frame_trans; [exact F1|]; eapply frame_trans; eassumption|].
  split; [intros g d; rewrite T3, T2; apply T1|lra].
Qed.

(** ** A whole step *)
Lemma trajectory_frame o sorts s n st : trajectory o sorts s n st -> sorts_ok s sorts -> (forall c, 0 < h_rhod s c /\ 0 < h_dv s c) ->
  forall k, (k <= n)%nat -> frame s (st k).
Proof.
  intros (E0 & T) Hs Hp. induction k as [|k IH]; intros Hk; [rewrite E0; apply frame_refl|].
  specialize (IH ltac:(lia)). pose proof IH as (Q1 & Q2 & Q3 & Q4 & Q5 & Q6 & Q7).
  assert (H1 : sorted_pop (h_np (st k)) (h_ijk (st k)) (fst (sorts k)) (snd (sorts k))) by (rewrite Q1, Q2; apply Hs).
  destruct (substep_spec o _ _ k (st k) (st (S k)) 0%nat 0%nat (T k ltac:(lia)) ltac:(lia) H1) as (F & _).
  - rewrite Q5. apply Hp.
  - rewrite Q6. apply Hp.
  - eapply frame_trans; eassumption.
Qed.
Lemma trajectory_tmp o sorts s n st : trajectory o sorts s n st -> sorts_ok s sorts -> (forall c, 0 < h_rhod s c /\ 0 < h_dv s c) ->
  forall k, (k < n)%nat -> forall g c,
    h_tmp (st (S k)) g c = if ho_dsl o && (ho_allow o && (g <? if ho_var_rho o then 6 else 5)%nat) then h_amb s g c - h_tmp s g c else h_tmp s g c.
Proof.
  intros HT Hs Hp. pose proof HT as (E0 & T). induction k as [|k IH]; intros Hk g c.
  - assert (H1 : sorted_pop (h_np (st 0%nat)) (h_ijk (st 0%nat)) (fst (sorts 0%nat)) (snd (sorts 0%nat))) by (rewrite E0; apply Hs).
    destruct (substep_spec o _ _ 0 (st 0%nat) (st 1%nat) 0%nat 0%nat (T 0%nat ltac:(lia)) ltac:(lia) H1) as (_ & A & _).
    + rewrite E0. apply Hp.
    + rewrite E0. apply Hp.
    + rewrite A, E0. destruct (ho_dsl o); cbn [andb]; [|reflexivity].
      destruct (sstp_step_spec (ho_allow o) (ho_var_rho o) (ho_sstp o) 0 s) as (_ & _ & _ & B). specialize (B g c). cbn [Nat.eqb] in B.
      destruct (ho_allow o && (g <? if ho_var_rho o then 6 else 5)%nat); apply B.
  - pose proof (trajectory_frame o sorts s n st HT Hs Hp (S k) ltac:(lia)) as (Q1 & Q2 & Q3 & Q4 & Q5 & Q6 & Q7).
    assert (H1 : sorted_pop (h_np (st (S k))) (h_ijk (st (S k))) (fst (sorts (S k))) (snd (sorts (S k)))) by (rewrite Q1, Q2; apply Hs).
    destruct (substep_spec o _ _ (S k) (st (S k)) (st (S (S k))) 0%nat 0%nat (T (S k) ltac:(lia)) ltac:(lia) H1) as (_ & A & _).
    + rewrite Q5. apply Hp.
    + rewrite Q6. apply Hp.
    + rewrite A. rewrite <- (IH ltac:(lia) g c). destruct (ho_dsl o); [|reflexivity].
      destruct (sstp_step_spec (ho_allow o) (ho_var_rho o) (ho_sstp o) (S k) (st (S k))) as (_ & _ & _ & B). specialize (B g c). cbn [Nat.eqb] in B.
      destruct (ho_allow o && (g <? if ho_var_rho o then 6 else 5)%nat); apply B.
Qed.

Lemma lost_inv o sorts s st e c : trajectory o sorts s (ho_sstp o) st -> sorts_ok s sorts -> (forall c, 0 < h_rhod s c /\ 0 < h_dv s c) -> (e < 4)%nat ->
  forall k, (1 <= k <= ho_sstp o)%nat ->
  total e s c <= total e (st k) c +
    (if ho_dsl o && ho_allow o then (INR (ho_sstp o) - INR k) / INR (ho_sstp o) * (h_amb s e c - h_tmp s e c) else 0) * (h_rhod s c * h_dv s c) / M_gas_ e.
Proof.
  intros HT Hs Hp He k [Hk1 Hk2].
  assert (Hn : 0 < INR (ho_sstp o)) by (apply lt_0_INR; lia).
  assert (Hlt : (e <? if ho_var_rho o then 6 else 5)%nat = true) by (apply Nat.ltb_lt; destruct (ho_var_rho o); lia).
  pose proof HT as (E0 & T). pose proof (M_gas_pos e) as HM.
  induction Hk1 as [|k Hk1 IH].
  - assert (H1 : sorted_pop (h_np (st 0%nat)) (h_ijk (st 0%nat)) (fst (sorts 0%nat)) (snd (sorts 0%nat))) by (rewrite E0; apply Hs).
    destruct (substep_spec o _ _ 0 (st 0%nat) (st 1%nat) e c (T 0%nat ltac:(lia)) He H1) as (_ & _ & L).
    + rewrite E0. apply Hp.
    + rewrite E0. apply Hp.
    + rewrite E0 in L. unfold spread in L. destruct (ho_dsl o); cbn [andb].
      * destruct (sstp_step_spec (ho_allow o) (ho_var_rho o) (ho_sstp o) 0 s) as (_ & _ & _ & B). specialize (B e c). cbn [Nat.eqb] in B.
        rewrite Hlt in B. destruct (ho_allow o); cbn [andb] in B; rewrite (proj2 B) in L.
        -- apply Rle_trans with (2 := Rplus_le_compat_r _ _ _ L). right. cbn [INR]. field. lra.
        -- apply Rle_trans with (2 := Rplus_le_compat_r _ _ _ L). right. unfold Rdiv. ring.
      * apply Rle_trans with (2 := Rplus_le_compat_r _ _ _ L). right. unfold Rdiv. ring.
  - specialize (IH ltac:(lia)).
    pose proof (trajectory_frame o sorts s _ st HT Hs Hp k ltac:(lia)) as (Q1 & Q2 & Q3 & Q4 & Q5 & Q6 & Q7).
    assert (H1 : sorted_pop (h_np (st k)) (h_ijk (st k)) (fst (sorts k)) (snd (sorts k))) by (rewrite Q1, Q2; apply Hs).
    destruct (substep_spec o _ _ k (st k) (st (S k)) e c (T k ltac:(lia)) He H1) as (_ & _ & L).
    + rewrite Q5. apply Hp.
    + rewrite Q6. apply Hp.
    + apply Rle_trans with (1 := IH). rewrite Q5, Q6 in L. unfold spread in L.
      destruct k as [|k']; [lia|]. pose proof (trajectory_tmp o sorts s _ st HT Hs Hp k' ltac:(lia) e c) as ET. rewrite Hlt, andb_true_r in ET.
      destruct (ho_dsl o); cbn [andb] in *.
      * destruct (sstp_step_spec (ho_allow o) (ho_var_rho o) (ho_sstp o) (S k') (st (S k'))) as (_ & _ & _ & B). specialize (B e c). cbn [Nat.eqb] in B.
        rewrite Hlt in B. destruct (ho_allow o); cbn [andb] in B, ET; rewrite (proj2 B) in L.
        -- rewrite ET in L. apply Rle_trans with (2 := Rplus_le_compat_r _ _ _ L). right. rewrite (S_INR (S k')). field. lra.
        -- apply Rle_trans with (2 := Rplus_le_compat_r _ _ _ L). right. unfold Rdiv. ring.
      * apply Rle_trans with (2 := Rplus_le_compat_r _ _ _ L). right. unfold Rdiv. ring.
Qed.

(** C69: a step of chemistry, with any switches and any number of substeps, loses no nitrogen(V), nitrogen(-III), carbon or sulphur in
    any cell: the amount in the air (as given to the step) and in the droplets together does not decrease.  (It may increase:
    C66_created_refuted.)  Positions, multiplicities, sizes and the thermodynamic fields are not changed. *)
Theorem C69_never_lost o sorts s s' :
  chem_step o sorts s = Some s' -> sorts_ok s sorts -> (forall c, 0 < h_rhod s c /\ 0 < h_dv s c) ->
  (forall e c, (e = HNO3 \/ e = NH3 \/ e = CO2 \/ e = SO2) -> total e s c <= total e s' c) /\ frame s s'.
Proof.
  intros H Hs Hp. unfold chem_step in H. destruct (ho_dsl o || ho_dsc o || ho_rct o).
  2:{ injection H as <-. split; [intros; lra|apply frame_refl]. }
  destruct (loop_trajectory o sorts _ _ _ _ H) as (st & A & B & C). cbn [Nat.add] in B.
  assert (HT : trajectory o sorts s (ho_sstp o) st) by (split; [exact A|intros k Hk; apply C; lia]).
  split; [|rewrite <- B; apply (trajectory_frame o sorts s _ st HT Hs Hp); lia].
  intros e c He. assert (He' : (e < 4)%nat) by (unfold HNO3, NH3, CO2, SO2 in He; lia).
  destruct (ho_sstp o) as [|n] eqn:En; [rewrite <- A, <- B; lra|]. rewrite <- En in *.
  pose proof (lost_inv o sorts s st e c HT Hs Hp He' (ho_sstp o) ltac:(lia)) as L. rewrite B in L.
  assert (Z : forall a, (INR (ho_sstp o) - INR (ho_sstp o)) / INR (ho_sstp o) * a = 0).
  { intros a. unfold Rminus. rewrite Rplus_opp_r. unfold Rdiv. ring. }
  destruct (ho_dsl o && ho_allow o); [rewrite Z in L|]; unfold Rdiv in L; rewrite !Rmult_0_l in L; lra.
Qed.

(** ** Gases *)
Definition after_uptake (o : chopts) (V : nat -> R) (flag : nat -> bool) (dt : R) (s1 : chst) : chst :=
  let s2 := if ho_dsc o then chem_cleanup (chem_dissoc (ho_fp o) (ho_fps o) V flag s1) else s1 in
  if ho_rct o then chem_cleanup (chem_react dt (ho_rho o) V flag s2) else s2.
Lemma after_amb o V flag dt s1 : h_amb (after_uptake o V flag dt s1) = h_amb s1.
Proof. unfold after_uptake. destruct (ho_rct o), (ho_dsc o); reflexivity. Qed.
Lemma cleanup_amb s : h_amb (chem_cleanup s) = h_amb s. Proof. reflexivity. Qed.
Lemma substep_amb o sijk sid k s s' : chem_substep o sijk sid k s = Some s' ->
  h_amb s' = h_amb (if ho_dsl o then chem_henry (ho_dt o / INR (ho_sstp o)) (chem_vol_ante s) (chem_flag_ante s (chem_vol_ante s)) sijk sid
                                       (sstp_step_chem (ho_allow o) (ho_var_rho o) (ho_sstp o) k s) else s).
Proof.
  intros H.
  assert (F : chem_substep o sijk sid k s = if negb (ho_switch o) then None else
    Some (after_uptake o (chem_vol_ante s) (chem_flag_ante s (chem_vol_ante s)) (ho_dt o / INR (ho_sstp o))
      (if ho_dsl o then chem_cleanup (chem_henry (ho_dt o / INR (ho_sstp o)) (chem_vol_ante s) (chem_flag_ante s (chem_vol_ante s)) sijk sid
                                       (sstp_step_chem (ho_allow o) (ho_var_rho o) (ho_sstp o) k s)) else s))) by reflexivity.
  rewrite F in H. clear F. destruct (ho_switch o); cbn [negb] in H; [|discriminate]. injection H as <-. rewrite after_amb.
  destruct (ho_dsl o); [rewrite cleanup_amb|]; reflexivity.
Qed.
(** C69: the change of a trace gas made outside since the last step is spread evenly over the substeps (seen in a cell without droplets)
    if gases are substepped and density is a prognostic variable, or for every gas but ozone *)
Theorem C69_spread_partial o sorts s st g c :
  trajectory o sorts s (ho_sstp o) st -> sorts_ok s sorts -> (forall c, 0 < h_rhod s c /\ 0 < h_dv s c) ->
  ho_dsl o = true -> ho_allow o = true -> (g < 6)%nat -> (ho_var_rho o = true \/ g <> O3) ->
  (forall i, (i < h_np s)%nat -> h_ijk s i <> c) ->
  forall k, (1 <= k <= ho_sstp o)%nat ->
  h_amb (st k) g c = h_tmp s g c + INR k / INR (ho_sstp o) * (h_amb s g c - h_tmp s g c).
Proof.
  intros HT Hs Hp Hdsl Hal Hg Hv Hempty k (Hk1 & Hk2).
  assert (Hn : 0 < INR (ho_sstp o)) by (apply lt_0_INR; lia).
  assert (Hlt : (g <? if ho_var_rho o then 6 else 5)%nat = true).
  { apply Nat.ltb_lt. unfold O3 in Hv. destruct (ho_var_rho o); [lia|]. destruct Hv; [discriminate|lia]. }
  pose proof HT as (E0 & T).
  assert (Step : forall k, (k < ho_sstp o)%nat -> h_amb (st (S k)) g c = h_amb (sstp_step_chem (ho_allow o) (ho_var_rho o) (ho_sstp o) k (st k)) g c).
  { intros j Hj. pose proof (trajectory_frame o sorts s _ st HT Hs Hp j ltac:(lia)) as F.
    rewrite (substep_amb o _ _ j (st j) (st (S j)) (T j Hj)), Hdsl.
    destruct (sstp_step_spec (ho_allow o) (ho_var_rho o) (ho_sstp o) j (st j)) as (F' & _).
    set (t := sstp_step_chem (ho_allow o) (ho_var_rho o) (ho_sstp o) j (st j)) in *. clearbody t.
    pose proof (frame_trans _ _ _ F F') as (Q1 & Q2 & Q3 & Q4 & Q5 & Q6 & Q7).
    assert (H1 : sorted_pop (h_np t) (h_ijk t) (fst (sorts j)) (snd (sorts j))) by (rewrite Q1, Q2; apply Hs).
    destruct (C66_conservation_partial (ho_dt o / INR (ho_sstp o)) (chem_vol_ante (st j)) (chem_flag_ante (st j) (chem_vol_ante (st j))) _ _ t g Hg H1) as (A & _).
    destruct (A c) as (_ & _ & _ & B); [rewrite Q5; apply Hp|rewrite Q6; apply Hp|]. apply B. rewrite Q1, Q2. exact Hempty. }
  induction Hk1 as [|k Hk1 IH].
  - rewrite Step by lia. rewrite E0.
    destruct (sstp_step_spec (ho_allow o) (ho_var_rho o) (ho_sstp o) 0 s) as (_ & _ & _ & B). specialize (B g c). cbn [Nat.eqb] in B.
    rewrite Hlt, Hal in B. cbn [andb] in B. rewrite Hal. rewrite (proj2 B). cbn [INR]. field. lra.
  - specialize (IH ltac:(lia)). rewrite Step by lia. destruct k as [|k']; [lia|].
    pose proof (trajectory_tmp o sorts s _ st HT Hs Hp k' ltac:(lia) g c) as ET. rewrite Hdsl, Hal, Hlt in ET. cbn [andb] in ET.
    destruct (sstp_step_spec (ho_allow o) (ho_var_rho o) (ho_sstp o) (S k') (st (S k'))) as (_ & _ & _ & B). specialize (B g c). cbn [Nat.eqb] in B.
    rewrite Hlt, Hal in B. cbn [andb] in B. rewrite Hal. rewrite (proj2 B), IH, ET, (S_INR (S k')). field. lra.
Qed.
(** C69, refuted for ozone when density is not a prognostic variable: the whole change is applied in the first substep *)
Theorem C69_ozone_refuted o sorts s st c :
  trajectory o sorts s (ho_sstp o) st -> sorts_ok s sorts -> (forall c, 0 < h_rhod s c /\ 0 < h_dv s c) ->
  ho_var_rho o = false -> (forall i, (i < h_np s)%nat -> h_ijk s i <> c) ->
  forall k, (k <= ho_sstp o)%nat -> h_amb (st k) O3 c = h_amb s O3 c.
Proof.
  intros HT Hs Hp Hv Hempty k Hk. pose proof HT as (E0 & T).
  induction k as [|k IH]; [rewrite E0; reflexivity|]. rewrite <- (IH ltac:(lia)).
  pose proof (trajectory_frame o sorts s _ st HT Hs Hp k ltac:(lia)) as F.
  rewrite (substep_amb o _ _ k (st k) (st (S k)) (T k ltac:(lia))). destruct (ho_dsl o); [|reflexivity].
  destruct (sstp_step_spec (ho_allow o) (ho_var_rho o) (ho_sstp o) k (st k)) as (F' & _ & _ & B). specialize (B O3 c).
  assert (Hl : (O3 <? if ho_var_rho o then 6 else 5)%nat = false) by (rewrite Hv; reflexivity). rewrite Hl, andb_false_r in B. rewrite <- (proj2 B).
  set (t := sstp_step_chem (ho_allow o) (ho_var_rho o) (ho_sstp o) k (st k)) in *. clearbody t.
  pose proof (frame_trans _ _ _ F F') as (Q1 & Q2 & Q3 & Q4 & Q5 & Q6 & Q7).
  assert (H1 : sorted_pop (h_np t) (h_ijk t) (fst (sorts k)) (snd (sorts k))) by (rewrite Q1, Q2; apply Hs).
  destruct (C66_conservation_partial (ho_dt o / INR (ho_sstp o)) (chem_vol_ante (st k)) (chem_flag_ante (st k) (chem_vol_ante (st k))) _ _ t O3 ltac:(unfold O3; lia) H1) as (A & _).
  destruct (A c) as (_ & _ & _ & D); [rewrite Q5; apply Hp|rewrite Q6; apply Hp|]. apply D. rewrite Q1, Q2. exact Hempty.
Qed.

(** C69: chemistry that was not switched on at initialisation raises an error; chemistry not asked for changes nothing *)
Theorem C69_switch o sorts s :
  (ho_dsl o = false /\ ho_dsc o = false /\ ho_rct o = false -> chem_step o sorts s = Some s) /\
  (ho_switch o = false -> (0 < ho_sstp o)%nat -> ho_dsl o = true \/ ho_dsc o = true \/ ho_rct o = true -> chem_step o sorts s = None) /\
  (ho_switch o = true -> exists s', chem_step o sorts s = Some s').
Proof.
  split; [intros (A & B & C); unfold chem_step; rewrite A, B, C; reflexivity|]. split.
  - intros Hsw Hn Hon. unfold chem_step. assert (E : ho_dsl o || ho_dsc o || ho_rct o = true) by (destruct Hon as [->|[->| ->]]; rewrite ?orb_true_r; reflexivity).
    rewrite E. destruct (ho_sstp o) as [|n]; [lia|]. cbn [chem_loop]. unfold chem_substep. rewrite Hsw. reflexivity.
  - intros Hsw. unfold chem_step. destruct (ho_dsl o || ho_dsc o || ho_rct o); [|eexists; reflexivity].
    generalize 0%nat as k. generalize s. induction (ho_sstp o) as [|n IH]; intros t k; cbn [chem_loop]; [eexists; reflexivity|].
    unfold chem_substep at 1. rewrite Hsw. cbn [negb]. apply IH.
Qed.

(** ** Exact conservation *)
Definition nn (s : chst) : Prop := forall k i, (k < 8)%nat -> 0 <= h_m s k i.
Definition phys (o : chopts) (s : chst) : Prop :=
  (forall i, 0 < h_rw2 s i) /\ (forall c, 0 < h_T s c) /\ (forall c, 0 < h_rhod s c /\ 0 < h_dv s c) /\
  0 < ho_dt o /\ fp_ok (ho_fp o) /\ fp_ok (ho_fps o) /\ feps (ho_fp o) <= feps (ho_fps o).
Lemma vol_pos r : 0 < r -> 0 < chem_vol r.
Proof.
  intros H. unfold chem_vol. rewrite cpow_3_2 by lra. assert (0 < sqrt r ^ 3) by (apply pow_lt, sqrt_lt_R0; exact H).
  pose proof PI_RGT_0. nra.
Qed.
Lemma electroneutral_pos fp fps a b c d e V T : fp_ok fp -> fp_ok fps -> feps fp <= feps fps -> 0 < V ->
  0 <= a /\ 0 <= b /\ 0 <= c /\ 0 <= d /\ 0 <= e -> exists r, chem_electroneutral fp fps a b c d e V T = Some r /\ 0 < r.
Proof.
  intros F1 F2 F3 HV Hm.
  destruct (neutral_exists T (totals_of a b c d e V)) as (z & Hz & Ez); [apply totals_of_ok; assumption|].
  assert (Q : exists r, chem_electroneutral fp fps a b c d e V T = Some r /\ 0 < r / M_H / V).
  { destruct (Rlt_dec z (1 / 100000)) as [H|H].
    - destruct (outside_z fp fps a b c d e V T F1 F2 F3 HV Hm z Hz Ez (or_introl H)) as (r & E & B). exists r. split; [exact E|lra].
    - destruct (Rlt_dec 10000 z) as [H'|H'].
      + destruct (outside_z fp fps a b c d e V T F1 F2 F3 HV Hm z Hz Ez (or_intror H')) as (r & E & B). exists r. split; [exact E|lra].
      + destruct (inside_z fp fps a b c d e V T F1 F2 F3 HV Hm z Hz Ez ltac:(lra)) as (r & E & B & _). exists r. split; [exact E|lra]. }
  destruct Q as (r & E & B). exists r. split; [exact E|]. pose proof M_H_pos as HM.
  replace r with (r / M_H / V * V * M_H) by (field; lra). apply Rmult_lt_0_compat; [apply Rmult_lt_0_compat|]; assumption.
Qed.
Lemma Henry_fun_nonneg g dt V T c m rw2 rhod mH : 0 < dt -> 0 < V -> 0 < T -> 0 <= c -> 0 <= m -> 0 < rw2 -> 0 < rhod -> 0 < mH ->
  0 <= chem_Henry_fun g dt V T c m rw2 rhod mH.
Proof.
  intros Hdt HV HT Hc Hm Hr Hrho HH. unfold chem_Henry_fun.
  assert (Hh : 0 < mH / M_H / V) by (apply h_pos; assumption).
  pose proof (mass_trans_pos rw2 g T Hr HT) as Hk. pose proof (Henry_eff_pos g T _ Hh) as HHe.
  pose proof (M_gas_pos g) as HMg. pose proof (M_aq_pos g) as HMa. pose proof kaBoNA_pos as HR.
  set (k := mass_trans rw2 (D_ g) (ac_ g) T (M_gas_ g)) in *. set (He := Henry_eff g T (mH / M_H / V)) in *. clearbody k He.
  assert (0 < dt * k / He / kaBoNA / T).
  { apply Rdiv_lt_0_compat; [apply Rdiv_lt_0_compat; [apply Rdiv_lt_0_compat; [apply Rmult_lt_0_compat|]|]|]; assumption. }
  apply Rle_mult_inv_pos; [|lra].
  assert (0 < M_aq_ g / M_gas_ g) by (apply Rdiv_lt_0_compat; assumption).
  assert (0 <= dt * V * k * c * rhod * (M_aq_ g / M_gas_ g)); [|lra].
  apply Rmult_le_pos; [|lra]. apply Rmult_le_pos; [|lra]. apply Rmult_le_pos; [|lra]. apply Rmult_le_pos; [|lra]. apply Rmult_le_pos; lra.
Qed.
Lemma flag_H s V i : nn s -> chem_flag_ante s V i = true -> 0 < h_m s Hp i.
Proof.
  intros Hnn. unfold chem_flag_ante, set_chem_flag. destruct (Reqb (h_m s Hp i) 0) eqn:E; [discriminate|]. intros _.
  apply Reqb_false in E. specialize (Hnn Hp i ltac:(unfold Hp; lia)). lra.
Qed.
Lemma cleanup_total_eq e s c : (e < 4)%nat ->
  (forall i, (i < h_np s)%nat -> h_ijk s i = c -> 0 <= h_m s e i /\ 0 <= h_m s S_VI i) -> total e (chem_cleanup s) c = total e s c.
Proof.
  intros He H. destruct (cleanup_spec s) as (F & A & _ & _ & _ & _ & M).
  apply total_eq; [exact F| |].
  - unfold air_mol. rewrite A. destruct F as (_ & _ & _ & _ & -> & -> & _). reflexivity.
  - intros i Hi Hc. destruct (H i Hi Hc) as (H1 & H2). unfold drop_mol. rewrite !M by assumption. reflexivity.
Qed.

Lemma substep_conserved o sijk sid k s s' e c :
  chem_substep o sijk sid k s = Some s' -> (e < 4)%nat -> sorted_pop (h_np s) (h_ijk s) sijk sid -> phys o s -> (0 < ho_sstp o)%nat -> nn s ->
  (ho_dsl o = true -> 0 <= spread o k s e c /\ 0 < h_amb s' e c) ->
  nn s' /\ total e s' c = total e s c + (spread o k s e c - h_amb s e c) * (h_rhod s c * h_dv s c) / M_gas_ e.
Proof.
  intros H He Hs (P1 & P2 & P3 & P4 & P5 & P6 & P7) Hn Hnn Hgas.
  assert (EA := substep_amb _ _ _ _ _ _ H).
  unfold chem_substep in H. destruct (ho_switch o); cbn [negb] in H; [|discriminate].
  assert (Hdt : 0 < ho_dt o / INR (ho_sstp o)) by (apply Rdiv_lt_0_compat; [exact P4|apply lt_0_INR; lia]).
  assert (HV : forall i, 0 < chem_vol_ante s i) by (intros i; apply vol_pos, P1).
  assert (Hfl : forall i, chem_flag_ante s (chem_vol_ante s) i = true -> 0 < h_m s Hp i) by (intros i; apply flag_H; exact Hnn).
  set (V := chem_vol_ante s) in *. set (flag := chem_flag_ante s V) in *. set (dt := ho_dt o / INR (ho_sstp o)) in *. clearbody V flag dt.
  pose (s1 := if ho_dsl o then chem_cleanup (chem_henry dt V flag sijk sid (sstp_step_chem (ho_allow o) (ho_var_rho o) (ho_sstp o) k s)) else s).
  pose (s2 := if ho_dsc o then chem_cleanup (chem_dissoc (ho_fp o) (ho_fps o) V flag s1) else s1).
  pose (s3 := if ho_rct o then chem_cleanup (chem_react dt (ho_rho o) V flag s2) else s2).
  assert (E3 : s' = s3) by (injection H as <-; reflexivity). clear H.
  assert (A1 : nn s1 /\ (forall i, flag i = true -> 0 < h_m s1 Hp i) /\
    total e s1 c = total e s c + (spread o k s e c - h_amb s e c) * (h_rhod s c * h_dv s c) / M_gas_ e).
  { unfold s1. unfold spread in *. destruct (ho_dsl o).
    - rewrite <- total_sstp. destruct (Hgas eq_refl) as (G1 & G2). clear Hgas.
      destruct (sstp_step_spec (ho_allow o) (ho_var_rho o) (ho_sstp o) k s) as (F & M & _).
      set (t := sstp_step_chem (ho_allow o) (ho_var_rho o) (ho_sstp o) k s) in *. clearbody t. pose proof F as (Q1 & Q2 & Q3 & Q4 & Q5 & Q6 & Q7).
      destruct (P3 c) as (Hr & Hd).
      rewrite <- Q1, <- Q2 in Hs. rewrite <- Q5 in Hr. rewrite <- Q6 in Hd.
      destruct (henry_total e dt V flag sijk sid t c He Hs Hr Hd) as (F2 & T2 & _ & L).
      assert (He6 : (e < 6)%nat) by lia.
      destruct (C66_conservation_partial dt V flag sijk sid t e He6 Hs) as (_ & B & C & _). cbn zeta in B, C.
      set (u := chem_henry dt V flag sijk sid t) in *. clearbody u. rewrite EA in G2.
      destruct (cleanup_spec u) as (F3 & A3 & T3 & _ & _ & N & Mk).
      split; [intros j i Hj; apply N; exact Hj|]. split.
      + intros i Hi. rewrite Mk; rewrite (proj2 (C i)), M; [apply Hfl; exact Hi|left; apply Hfl; exact Hi].
      + rewrite cleanup_total_eq; [apply L; exact G2|exact He|]. destruct F2 as (U1 & U2 & _). rewrite U1, U2, Q1, Q2.
        intros i Hi Hc. split.
        * rewrite B. rewrite M. assert (0 <= h_m s e i) by (apply Hnn; lia). destruct (flag i) eqn:Ef; [|assumption].
          rewrite Q7, Q2, Q4, Q5, Hc. apply Henry_fun_nonneg; try assumption; [apply HV|apply P2|apply P1|apply P3|apply Hfl; exact Ef].
        * rewrite (proj1 (C i)), M. apply Hnn. unfold S_VI. lia.
    - split; [exact Hnn|]. split; [exact Hfl|]. unfold Rminus. rewrite Rplus_opp_r. unfold Rdiv. rewrite !Rmult_0_l. lra. }
  clearbody s1. destruct A1 as (N1 & H1 & L1).
  assert (A2 : nn s2 /\ (forall i, flag i = true -> 0 < h_m s2 Hp i) /\ total e s2 c = total e s1 c).
  { unfold s2. destruct (ho_dsc o); [|split; [exact N1|split; [exact H1|reflexivity]]].
    destruct (dissoc_total e (ho_fp o) (ho_fps o) V flag s1 c He) as (F2 & E2 & _ & T2 & M2).
    assert (HH : forall i, flag i = true -> 0 < h_m (chem_dissoc (ho_fp o) (ho_fps o) V flag s1) Hp i).
    { intros i Hi. unfold chem_dissoc; cbn [h_m set_m]. unfold upd. rewrite Nat.eqb_refl, Hi.
      destruct (electroneutral_pos (ho_fp o) (ho_fps o) (h_m s1 SO2 i) (h_m s1 CO2 i) (h_m s1 HNO3 i) (h_m s1 NH3 i) (h_m s1 S_VI i) (V i) (T_of s1 i) P5 P6 P7 (HV i)) as (r & -> & Hr); [|exact Hr].
      repeat split; apply N1; unfold SO2, CO2, HNO3, NH3, S_VI; lia. }
    set (u := chem_dissoc (ho_fp o) (ho_fps o) V flag s1) in *. clearbody u.
    destruct (cleanup_spec u) as (F3 & A3 & T3 & _ & _ & N & Mk).
    split; [intros j i Hj; apply N; exact Hj|]. split; [intros i Hi; rewrite Mk; [apply HH; exact Hi|left; apply HH; exact Hi]|].
    rewrite cleanup_total_eq; [exact E2|exact He|]. intros i _ _. rewrite !M2; [|unfold S_VI, Hp; lia|unfold Hp; lia].
    split; apply N1; unfold S_VI; lia. }
  clearbody s2. destruct A2 as (N2 & H2 & L2).
  assert (A3 : nn s3 /\ total e s3 c = total e s2 c).
  { unfold s3. destruct (ho_rct o); [|split; [exact N2|reflexivity]].
    destruct (react_total e dt (ho_rho o) V flag s2 c He) as (F3 & E3' & _ & T3).
    assert (HH : forall i, 0 <= h_m (chem_react dt (ho_rho o) V flag s2) e i /\ 0 <= h_m (chem_react dt (ho_rho o) V flag s2) S_VI i).
    { intros i. assert (Z1 : 1 <> 0) by lra.
      destruct (C68_stoichiometry dt 1 V flag s2 i Z1) as (_ & _ & _ & B & _ & _ & _ & _ & _ & U). cbn zeta in B, U.
      assert (E : h_m (chem_react dt (ho_rho o) V flag s2) = h_m (chem_react dt 1 V flag s2)) by reflexivity. rewrite E. clear E.
      assert (X : forall j, (j < 8)%nat -> 0 <= h_m s2 j i) by (intros j Hj; apply N2; exact Hj).
      destruct (flag i) eqn:Ef; [|rewrite !(proj1 (U eq_refl)); split; apply X; unfold S_VI; lia].
      destruct (C68_bounds dt 1 V flag s2 i Hdt (HV i) (H2 i Ef)) as (Y1 & Y2); try (apply X; unfold SO2, H2O2, O3; lia). cbn zeta in Y1, Y2.
      pose proof (X S_VI ltac:(unfold S_VI; lia)). split; [|lra].
      destruct (Nat.eq_dec e SO2) as [->|Hne]; [destruct (Y1 SO2 (or_introl eq_refl)); pose proof (X SO2 ltac:(unfold SO2; lia)); lra|].
      rewrite B; [apply X; lia|]. unfold SO2, HNO3, NH3, CO2, Hp in *. lia. }
    set (u := chem_react dt (ho_rho o) V flag s2) in *. clearbody u.
    destruct (cleanup_spec u) as (F4 & A4 & T4 & _ & _ & N & Mk).
    split; [intros j i Hj; apply N; exact Hj|]. rewrite cleanup_total_eq; [exact E3'|exact He|]. intros i _ _. apply HH. }
  clearbody s3. destruct A3 as (N3 & L3). subst s'. split; [exact N3|lra].
Qed.

(** C69: and exactly conserves them as long as the air does not run out of the gas: for every element and cell, if in each substep the
    gas is not negative before uptake (which a strong sink outside can make it) and some remains afterwards *)
Theorem C69_conserved_partial o sorts s st e c :
  trajectory o sorts s (ho_sstp o) st -> ho_dsl o || ho_dsc o || ho_rct o = true -> sorts_ok s sorts -> phys o s -> nn s ->
  (e = HNO3 \/ e = NH3 \/ e = CO2 \/ e = SO2) ->
  (forall k, (k < ho_sstp o)%nat -> 0 <= h_amb (sstp_step_chem (ho_allow o) (ho_var_rho o) (ho_sstp o) k (st k)) e c /\ 0 < h_amb (st (S k)) e c) ->
  chem_step o sorts s = Some (st (ho_sstp o)) /\ total e (st (ho_sstp o)) c = total e s c /\ nn (st (ho_sstp o)).
Proof.
  intros HT Hon Hs Hph Hnn He Hgas. pose proof HT as (E0 & T).
  assert (He' : (e < 4)%nat) by (unfold HNO3, NH3, CO2, SO2 in He; lia).
  split.
  { unfold chem_step. rewrite Hon. rewrite <- E0. change (st (ho_sstp o)) with (st (0 + ho_sstp o)%nat). apply trajectory_loop. intros k Hk. apply T. lia. }
  pose proof (proj1 (proj2 (proj2 Hph))) as P3.
  assert (Hlt : (e <? if ho_var_rho o then 6 else 5)%nat = true) by (apply Nat.ltb_lt; destruct (ho_var_rho o); lia).
  pose proof (M_gas_pos e) as HM.
  assert (Inv : forall k, (k <= ho_sstp o)%nat -> nn (st k) /\
    ((1 <= k)%nat -> total e s c = total e (st k) c +
      (if ho_dsl o && ho_allow o then (INR (ho_sstp o) - INR k) / INR (ho_sstp o) * (h_amb s e c - h_tmp s e c) else 0) * (h_rhod s c * h_dv s c) / M_gas_ e)).
  { induction k as [|k IH]; intros Hk; [split; [rewrite E0; exact Hnn|lia]|].
    destruct (IH ltac:(lia)) as (N & L). clear IH.
    assert (Hn : 0 < INR (ho_sstp o)) by (apply lt_0_INR; lia).
    pose proof (trajectory_frame o sorts s _ st HT Hs P3 k ltac:(lia)) as (Q1 & Q2 & Q3 & Q4 & Q5 & Q6 & Q7).
    assert (H1 : sorted_pop (h_np (st k)) (h_ijk (st k)) (fst (sorts k)) (snd (sorts k))) by (rewrite Q1, Q2; apply Hs).
    assert (Hph' : phys o (st k)) by (unfold phys in *; rewrite Q4, Q5, Q6, Q7; exact Hph).
    destruct (substep_conserved o _ _ k (st k) (st (S k)) e c (T k ltac:(lia)) He' H1 Hph' ltac:(lia) N) as (N' & L').
    { intros Hd. unfold spread. rewrite Hd. apply Hgas. lia. }
    split; [exact N'|]. intros _. rewrite Q5, Q6 in L'. unfold spread in L'. rewrite L'.
    destruct k as [|k'].
    - rewrite E0 in *. destruct (ho_dsl o); cbn [andb] in *; [|unfold Rdiv; ring].
      destruct (sstp_step_spec (ho_allow o) (ho_var_rho o) (ho_sstp o) 0 s) as (_ & _ & _ & B). specialize (B e c). cbn [Nat.eqb] in B.
      rewrite Hlt in B. destruct (ho_allow o); cbn [andb] in B; rewrite (proj2 B); [cbn [INR]; field; lra|unfold Rdiv; ring].
    - rewrite (L ltac:(lia)). pose proof (trajectory_tmp o sorts s _ st HT Hs P3 k' ltac:(lia) e c) as ET. rewrite Hlt, andb_true_r in ET.
      destruct (ho_dsl o); cbn [andb] in *; [|unfold Rdiv; ring].
      destruct (sstp_step_spec (ho_allow o) (ho_var_rho o) (ho_sstp o) (S k') (st (S k'))) as (_ & _ & _ & B). specialize (B e c). cbn [Nat.eqb] in B.
      rewrite Hlt in B. destruct (ho_allow o); cbn [andb] in B, ET; rewrite (proj2 B); [rewrite ET, (S_INR (S k')); field; lra|unfold Rdiv; ring]. }
  destruct (Inv (ho_sstp o) (le_n _)) as (N & L). split; [|exact N].
  destruct (ho_sstp o) as [|n] eqn:En; [rewrite E0; reflexivity|]. rewrite <- En in *. specialize (L ltac:(lia)).
  assert (Z : forall a, (INR (ho_sstp o) - INR (ho_sstp o)) / INR (ho_sstp o) * a = 0) by (intros a; unfold Rminus; rewrite Rplus_opp_r; unfold Rdiv; ring).
  destruct (ho_dsl o && ho_allow o); [rewrite Z in L|]; unfold Rdiv in L; rewrite !Rmult_0_l in L; lra.
Qed.

(** instance: a droplet of 10 micrometres and pH 5 that holds as much CO2 as is in equilibrium with the air, all processes on *)
Definition eq_V : R := chem_vol (/ 10 ^ 10).
Definition eq_H : R := 1 / 100 * M_H * eq_V.
Definition eq_x : R := eq_V * (1 / 1000) * 1 * (M_aq_ 2 / M_gas_ 2) * Henry_eff 2 280 (eq_H / M_H / eq_V) * kaBoNA * 280.
Definition eq_s : chst := {|
  h_np := 1; h_ijk := fun _ => 0%nat; h_n := fun _ => 1000%N; h_rw2 := fun _ => / 10 ^ 10; h_rd3 := fun _ => / 10 ^ 21;
  h_m := fun k _ => if (k =? CO2)%nat then eq_x else if (k =? Hp)%nat then eq_H else 0;
  h_amb := fun g _ => if (g =? CO2)%nat then 1 / 1000 else 0; h_tmp := fun _ _ => 0; h_rhod := fun _ => 1; h_dv := fun _ => 1; h_T := fun _ => 280 |}.
Definition eq_o : chopts := {| ho_switch := true; ho_rho := 1800; ho_dsl := true; ho_dsc := true; ho_rct := true;
  ho_allow := false; ho_var_rho := false; ho_dt := 1; ho_sstp := 1; ho_fp := fp_double; ho_fps := fp_single |}.
Definition eq_sorts : nat -> list nat * list nat := fun _ => ([0%nat], [0%nat]).

Theorem C69_instance : exists st,
  trajectory eq_o eq_sorts eq_s 1 st /\ sorts_ok eq_s eq_sorts /\ phys eq_o eq_s /\ nn eq_s /\ 0 < h_m eq_s CO2 0%nat /\
  (forall k, (k < 1)%nat -> 0 <= h_amb (sstp_step_chem (ho_allow eq_o) (ho_var_rho eq_o) (ho_sstp eq_o) k (st k)) CO2 0%nat /\ 0 < h_amb (st (S k)) CO2 0%nat).
Proof.
  assert (HV : 0 < eq_V) by (apply vol_pos; apply Rinv_0_lt_compat; apply pow_lt; lra).
  pose proof M_H_pos as HM.
  assert (HH : 0 < eq_H) by (unfold eq_H; apply Rmult_lt_0_compat; [lra|exact HV]).
  assert (Hh : 0 < eq_H / M_H / eq_V) by (apply h_pos; assumption).
  pose proof (Henry_eff_pos 2 280 _ Hh) as HHe. pose proof (M_aq_pos 2) as Ma. pose proof (M_gas_pos 2) as Mg. pose proof kaBoNA_pos as HR.
  assert (Hx : 0 < eq_x).
  { unfold eq_x. assert (0 < M_aq_ 2 / M_gas_ 2) by (apply Rdiv_lt_0_compat; assumption). repeat (apply Rmult_lt_0_compat; [|lra]). lra. }
  assert (Hr : 0 < / 10 ^ 10) by (apply Rinv_0_lt_compat; apply pow_lt; lra).
  assert (Hs : sorts_ok eq_s eq_sorts).
  { intros k. exists false. unfold sort_helper, sort_by_key_result. cbn. split; [reflexivity|]. split; [reflexivity|]. split; [reflexivity|]. repeat constructor. }
  assert (Hph : phys eq_o eq_s).
  { unfold phys; cbn [eq_s eq_o h_rw2 h_T h_rhod h_dv ho_dt ho_fp ho_fps]. repeat (split; [intros; try split; lra|]).
    split; [apply fp_double_ok|]. split; [apply fp_single_ok|]. cbn [fp_double fp_single feps]. lra. }
  destruct (chem_substep eq_o [0%nat] [0%nat] 0 eq_s) as [s'|] eqn:E; [|discriminate E].
  exists (fun k => if (k =? 0)%nat then eq_s else s').
  split; [split; [reflexivity|intros k Hk; replace k with 0%nat by lia; exact E]|].
  split; [exact Hs|]. split; [exact Hph|]. split.
  { intros k i _. cbn [eq_s h_m]. destruct (k =? CO2)%nat; [lra|]. destruct (k =? Hp)%nat; lra. }
  split; [exact Hx|].
  intros k Hk. replace k with 0%nat by lia. cbn [Nat.eqb]. split; [cbn; lra|].
  rewrite (substep_amb _ _ _ _ _ _ E). change (ho_dsl eq_o) with true. cbv iota.
  assert (E1 : sstp_step_chem (ho_allow eq_o) (ho_var_rho eq_o) (ho_sstp eq_o) 0 eq_s = eq_s) by reflexivity. rewrite E1. clear E1.
  set (dt := ho_dt eq_o / INR (ho_sstp eq_o)).
  assert (Hdt : 0 < dt) by (unfold dt; cbn [eq_o ho_dt ho_sstp INR]; lra). clearbody dt.
  assert (HVe : forall i, chem_vol_ante eq_s i = eq_V) by reflexivity.
  set (V := chem_vol_ante eq_s) in *. set (flag := chem_flag_ante eq_s V). clearbody flag. clearbody V.
  assert (HND : NoDup (seq 0 chem_gas_n)) by apply seq_NoDup.
  assert (HnH : ~ In Hp (seq 0 chem_gas_n)) by (rewrite in_seq; unfold Hp, chem_gas_n; lia).
  pose proof (henry_fold dt V flag [0%nat] [0%nat] _ HND HnH eq_s) as F. cbv zeta in F. destruct F as (_ & _ & F).
  destruct (F CO2) as (_ & Ea); [apply in_seq; unfold CO2, chem_gas_n; lia|]. specialize (Ea (Hs 0%nat) 0%nat).
  assert (Eu : chem_henry dt V flag [0%nat] [0%nat] eq_s = fold_left (chem_henry_gas dt V flag [0%nat] [0%nat]) (seq 0 chem_gas_n) eq_s) by reflexivity.
  rewrite <- Eu in Ea. clear Eu F. rewrite Ea.
  assert (Eg : forall i, mg_of dt V flag eq_s CO2 i = eq_x).
  { intros i. unfold mg_of. destruct (flag i); [|reflexivity].
    change (h_m eq_s CO2 i) with eq_x. change (h_m eq_s Hp i) with eq_H. change (h_amb eq_s CO2 (h_ijk eq_s i)) with (1 / 1000).
    change (h_rw2 eq_s i) with (/ 10 ^ 10). change (h_rhod eq_s (h_ijk eq_s i)) with 1. unfold T_of. change (h_T eq_s (h_ijk eq_s i)) with 280.
    rewrite HVe. unfold chem_Henry_fun. unfold CO2. assert (H280 : 0 < 280) by lra. pose proof (mass_trans_pos (/ 10 ^ 10) 2 280 Hr H280) as Hk'.
    unfold eq_x. set (He := Henry_eff 2 280 (eq_H / M_H / eq_V)) in *. set (kk := mass_trans (/ 10 ^ 10) (D_ 2) (ac_ 2) 280 (M_gas_ 2)) in *.
    clearbody He kk. set (a := M_aq_ 2) in *. set (b := M_gas_ 2) in *. set (Rg := kaBoNA) in *. clearbody a b Rg.
    assert (0 < dt * kk) by (apply Rmult_lt_0_compat; assumption). assert (0 < He * Rg) by (apply Rmult_lt_0_compat; assumption).
    field. repeat split; try lra; nra. }
  match goal with |- context [if ?d then _ else _] => destruct d as [Ho|Ho] end; [|change (0 < 1 / 1000); lra].
  unfold new_amb. 
  assert (Ec : cellsum (h_np eq_s) (h_ijk eq_s) (fun i => N2R (h_n eq_s i) * mg_of dt V flag eq_s CO2 i) 0%nat =
               cellsum (h_np eq_s) (h_ijk eq_s) (fun i => N2R (h_n eq_s i) * h_m eq_s CO2 i) 0%nat).
  { apply cellsum_ext. intros i _ _. rewrite Eg. reflexivity. }
  rewrite Ec. unfold ambient_chem_calculator. unfold Rminus at 2 4. rewrite Rplus_opp_r. unfold Rdiv. rewrite !Rmult_0_l, Rminus_0_r.
  change (h_amb eq_s CO2 0%nat) with (1 / 1000). destruct (Rltb 0 (1 / 1000)) eqn:El; [lra|apply Rltb_false in El; lra].
Qed.

Print Assumptions C69_never_lost.
Print Assumptions C69_spread_partial.
Print Assumptions C69_ozone_refuted.
Print Assumptions C69_switch.
Print Assumptions C69_conserved_partial.
Print Assumptions C69_instance.
