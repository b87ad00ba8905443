(** C20, C22: condensation with per-particle substeps. *)
From Coq Require Import List Arith NArith ZArith Lia Reals Lra Bool.
From Verif Require Import Base BaseProofs HskpngModel ThermoModel ThermoProofs TomsModel CondModel MomsModel MomsProofs
  CondPassModel CondPassProofs CondPassProps.
Import ListNotations.
Local Open Scope R_scope.

(** ** specification *)
(** droplets and their ambient air after [k] per-particle substeps, and the air that droplets see in substep [k] *)
Definition pafter (o : copts) (sijk sid : list nat) (st : cst) (k : nat) : parts * tmps :=
  perparticle_loop o (mfp_D (s_E st)) (mfp_K (s_E st)) (e_dv (s_E st)) sijk sid (deltas o st) k (s_P st, s_S st).
Definition pseen (o : copts) (sijk sid : list nat) (st : cst) (k : nat) : tmps :=
  apply_noncond o (deltas o st) (snd (pafter o sijk sid st k)).
(** mass of water of one super-droplet *)
Definition sd_mass (P : parts) (i : nat) : R := N2R (p_n P i) * (4 / 3 * PI * 1000 * sqrt (p_rw2 P i) ^ 3).
(** vapour lost by the air to super-droplet [i] in substep [k], heating of that air *)
Definition lost (o : copts) sijk sid (st : cst) (k i : nat) : R :=
  (sd_mass (fst (pafter o sijk sid st (S k))) i - sd_mass (fst (pafter o sijk sid st k)) i)
  / (if o_parcel o then 1 else t_rh (pseen o sijk sid st k) i * e_dv (s_E st) (p_ijk (s_P st) i)).
Definition heat (o : copts) sijk sid (st : cst) (k i : nat) : R :=
  let S := pseen o sijk sid st k in
  let T := if o_th_dry o then dry_T (t_th S i) (t_rh S i) else t_th S i * exner (t_p S i) in
  t_th S i / T * (l_v T / c_pd) * lost o sijk sid st k i.

(** densities of air at super-droplets and volumes of cells are positive *)
Definition air_ok (st : cst) : Prop :=
  (forall i, (i < p_np (s_P st))%nat -> 0 < t_rh (s_S st) i /\ 0 < e_rhod (s_E st) (p_ijk (s_P st) i)
                                      /\ 0 < e_dv (s_E st) (p_ijk (s_P st) i)).

(** ** lemmas *)
Section PP.
  Variables (o : copts) (sijk sid : list nat) (st : cst).
  Let A k := pafter o sijk sid st k.
  Let B k := pseen o sijk sid st k.

  Lemma pafter_frame k : same_pop (s_P st) (fst (A k)) /\ p_ia (fst (A k)) = p_ia (s_P st) /\ p_ic (fst (A k)) = p_ic (s_P st) /\
    p_irho (fst (A k)) = p_irho (s_P st) /\
    ((forall i, 0 <= p_rw2 (s_P st) i) -> forall i, 0 <= p_rw2 (fst (A k)) i).
  Proof.
    induction k as [|k IH].
    - repeat split; auto.
    - destruct IH as ((I1 & I2 & I3) & I4 & I5 & I6 & I7). unfold A, pafter in *. cbn [perparticle_loop].
      set (PS := perparticle_loop _ _ _ _ _ _ _ k _) in *. destruct PS as [P S]. cbn [fst] in *.
      unfold perparticle_substep. cbn [fst].
      assert (Q : same_pop P (apply_sgs_supersat o P) /\ p_ia (apply_sgs_supersat o P) = p_ia P /\ p_ic (apply_sgs_supersat o P) = p_ic P /\
                  p_irho (apply_sgs_supersat o P) = p_irho P /\ p_rw2 (apply_sgs_supersat o P) = p_rw2 P).
      { unfold apply_sgs_supersat. destruct (o_turb o); repeat split; reflexivity. }
      destruct Q as ((Q1 & Q2 & Q3) & Q4 & Q5 & Q6 & Q7).
      unfold same_pop. cbn [set_rw2 p_np p_ijk p_n p_ia p_ic p_irho p_rw2].
      split; [split; [congruence|split; congruence]|]. split; [congruence|]. split; [congruence|]. split; [congruence|].
      intros H i. apply advance_nonneg. rewrite Q7. apply I7, H.
  Qed.

  Lemma pseen_rh k i : (1 <= o_sstp o)%nat ->
    t_rh (snd (A k)) i = t_rh (s_S st) i + INR k / INR (o_sstp o) * (e_rhod (s_E st) (p_ijk (s_P st) i) - t_rh (s_S st) i) /\
    t_rh (B k) i = part_way (o_sstp o) k (t_rh (s_S st) i) (e_rhod (s_E st) (p_ijk (s_P st) i)).
  Proof.
    intros Hs. assert (Hi : INR (o_sstp o) <> 0) by (apply not_0_INR; lia).
    assert (H1 : t_rh (snd (A k)) i = t_rh (s_S st) i + INR k / INR (o_sstp o) * (e_rhod (s_E st) (p_ijk (s_P st) i) - t_rh (s_S st) i)).
    { induction k as [|k IH]; [cbn; field; exact Hi|].
      assert (E : t_rh (snd (A (S k))) i = t_rh (snd (A k)) i + (e_rhod (s_E st) (p_ijk (s_P st) i) - t_rh (s_S st) i) / INR (o_sstp o)).
      { unfold A, pafter. cbn [perparticle_loop]. set (PS := perparticle_loop _ _ _ _ _ _ _ k _). destruct PS as [P S].
        unfold perparticle_substep. cbn [snd t_rh apply_noncond]. reflexivity. }
      rewrite E, IH, S_INR. field. exact Hi. }
    split; [exact H1|].
    assert (E : t_rh (B k) i = t_rh (snd (A k)) i + (e_rhod (s_E st) (p_ijk (s_P st) i) - t_rh (s_S st) i) / INR (o_sstp o)) by reflexivity.
    rewrite E, H1. unfold part_way. rewrite S_INR. field. exact Hi.
  Qed.
  Lemma part_way_pos s k a b : (k < s)%nat -> 0 < a -> 0 < b -> 0 < part_way s k a b.
  Proof.
    intros Hk Ha Hb. unfold part_way. assert (0 < INR s) by (apply lt_0_INR; lia).
    assert (Hf : 0 < INR (S k) / INR s <= 1).
    { split; [apply Rdiv_lt_0_compat; [apply lt_0_INR; lia|assumption]|].
      apply (Rmult_le_reg_r (INR s)); [assumption|]. unfold Rdiv. rewrite Rmult_assoc, Rinv_l by lra.
      rewrite Rmult_1_r, Rmult_1_l. apply le_INR. lia. }
    set (f := INR (S k) / INR s) in *. clearbody f. nra.
  Qed.

  Hypothesis Hr : forall i, 0 <= p_rw2 (s_P st) i.
  Hypothesis Hs1 : (1 <= o_sstp o)%nat.
  Hypothesis Hair : air_ok st.

  Lemma drv_code k i : (k < o_sstp o)%nat -> (i < p_np (s_P st))%nat ->
    rw3diff2drv o (- drop_mlt) (- rw2torw3 (p_rw2 (fst (A k)) i) + rw2torw3 (p_rw2 (fst (A (S k))) i)) (n_real (fst (A k)) i)
      (t_rh (B k) i) (e_dv (s_E st) (p_ijk (fst (A k)) i)) = - lost o sijk sid st k i.
  Proof.
    intros Hk Hi. destruct (pafter_frame k) as ((F1 & F2 & F3) & _ & _ & _ & F7).
    destruct (pafter_frame (S k)) as ((G1 & G2 & G3) & _ & _ & _ & G7).
    rewrite !rw2torw3_eq by (first [apply F7|apply G7]; exact Hr).
    unfold lost, sd_mass, rw3diff2drv, n_real. fold (A k) (A (S k)) (B k). rewrite F2, F3, G3, drop_mlt_eq.
    destruct (o_parcel o); [field|].
    destruct (Hair i Hi) as (H1 & H2 & H3).
    assert (0 < t_rh (B k) i) by (rewrite (proj2 (pseen_rh k i Hs1)); apply part_way_pos; assumption).
    field. lra.
  Qed.

  Lemma step_nomix k i : o_mix o = false -> (k < o_sstp o)%nat -> (i < p_np (s_P st))%nat ->
    t_rv (snd (A (S k))) i = t_rv (B k) i - lost o sijk sid st k i /\
    t_th (snd (A (S k))) i = t_th (B k) i + heat o sijk sid st k i.
  Proof.
    intros Hm Hk Hi. pose proof (drv_code k i Hk Hi) as D.
    assert (E : t_rv (snd (A (S k))) i = t_rv (B k) i + rw3diff2drv o (- drop_mlt)
       (- rw2torw3 (p_rw2 (fst (A k)) i) + rw2torw3 (p_rw2 (fst (A (S k))) i)) (n_real (fst (A k)) i)
       (t_rh (B k) i) (e_dv (s_E st) (p_ijk (fst (A k)) i)) /\
       t_th (snd (A (S k))) i = t_th (B k) i + rw3diff2drv o (- drop_mlt)
       (- rw2torw3 (p_rw2 (fst (A k)) i) + rw2torw3 (p_rw2 (fst (A (S k))) i)) (n_real (fst (A k)) i)
       (t_rh (B k) i) (e_dv (s_E st) (p_ijk (fst (A k)) i)) * d_th_d_rv (Tp_of o (B k) i) (t_th (B k) i)).
    { unfold A, B, pseen, pafter. cbn [perparticle_loop]. set (PS := perparticle_loop _ _ _ _ _ _ _ k _). destruct PS as [P S].
      unfold perparticle_substep. rewrite Hm. cbn [fst snd t_rv t_th t_rh set_rw2 p_rw2].
      assert (Q : p_rw2 (apply_sgs_supersat o P) = p_rw2 P) by (unfold apply_sgs_supersat; destruct (o_turb o); reflexivity).
      rewrite Q. split; reflexivity. }
    destruct E as [E1 E2]. rewrite D in E1, E2. split; [rewrite E1; ring|]. rewrite E2. unfold heat, d_th_d_rv, Tp_of, T_of.
    fold (B k). unfold Rdiv. ring.
  Qed.

  Hypothesis Hs : sorted_pop (p_np (s_P st)) (p_ijk (s_P st)) sijk sid.
  Lemma update_pstate_eq P x d i : p_ijk P = p_ijk (s_P st) -> (i < p_np (s_P st))%nat ->
    update_pstate sijk sid P x d i = x i + cellsum (p_np (s_P st)) (p_ijk (s_P st)) d (p_ijk (s_P st) i).
  Proof.
    intros E Hi. unfold update_pstate. cbv zeta. rewrite E. rewrite (scatter_sums_plain _ _ _ _ Hs).
    destruct (occupied_dec _ _ _ _ Hs (p_ijk (s_P st) i)) as [|H]; [ring|]. exfalso. apply H. exists i. auto.
  Qed.

  Lemma step_mix k i : o_mix o = true -> (k < o_sstp o)%nat -> (i < p_np (s_P st))%nat ->
    t_rv (snd (A (S k))) i = t_rv (B k) i - cellsum (p_np (s_P st)) (p_ijk (s_P st)) (lost o sijk sid st k) (p_ijk (s_P st) i) /\
    t_th (snd (A (S k))) i = t_th (B k) i + cellsum (p_np (s_P st)) (p_ijk (s_P st)) (heat o sijk sid st k) (p_ijk (s_P st) i).
  Proof.
    intros Hm Hk Hi. pose proof (drv_code k) as D.
    destruct (pafter_frame k) as ((F1 & F2 & F3) & _ & _ & _ & F7). fold (A k) in F1, F2, F3, F7.
    set (dr j := rw3diff2drv o (- drop_mlt)
       (- rw2torw3 (p_rw2 (fst (A k)) j) + rw2torw3 (p_rw2 (fst (A (S k))) j)) (n_real (fst (A k)) j)
       (t_rh (B k) j) (e_dv (s_E st) (p_ijk (fst (A k)) j))).
    assert (E : t_rv (snd (A (S k))) i = update_pstate sijk sid (fst (A k)) (t_rv (B k)) dr i /\
       t_th (snd (A (S k))) i = update_pstate sijk sid (fst (A k)) (t_th (B k)) (fun j => dr j * d_th_d_rv (Tp_of o (B k) j) (t_th (B k) j)) i).
    { unfold dr, A, B, pseen, pafter. cbn [perparticle_loop]. set (PS := perparticle_loop _ _ _ _ _ _ _ k _). destruct PS as [P S].
      unfold perparticle_substep. rewrite Hm. cbn [fst snd t_rv t_th t_rh set_rw2 p_rw2].
      assert (Q : p_rw2 (apply_sgs_supersat o P) = p_rw2 P) by (unfold apply_sgs_supersat; destruct (o_turb o); reflexivity).
      rewrite Q. split; reflexivity. }
    destruct E as [E1 E2]. rewrite update_pstate_eq in E1, E2 by assumption. rewrite E1, E2.
    split.
    - replace (t_rv (B k) i - cellsum (p_np (s_P st)) (p_ijk (s_P st)) (lost o sijk sid st k) (p_ijk (s_P st) i))
        with (t_rv (B k) i + -1 * cellsum (p_np (s_P st)) (p_ijk (s_P st)) (lost o sijk sid st k) (p_ijk (s_P st) i)) by ring.
      rewrite <- cellsum_scal. f_equal. apply cellsum_ext. intros j Hj _. unfold dr. rewrite D by assumption. ring.
    - f_equal. apply cellsum_ext. intros j Hj _. unfold dr. rewrite D by assumption. unfold heat, d_th_d_rv, Tp_of, T_of.
      fold (B k). unfold Rdiv. ring.
  Qed.
End PP.

(** C22: with mixing, after all substeps the air at every super-droplet of a cell has the vapour (potential temperature) of the host
    model minus (plus) what all droplets of the cell took (released) in all substeps; the cell gets the same values for every order
    in which super-droplets write them; cells without super-droplets are unchanged.  The values that the super-droplets had before are
    arbitrary. *)
Theorem C22_mixing o allow g sijk sid st st' :
  use_perparticle o = true -> o_mix o = true -> o_adaptive o = false -> (1 <= o_sstp o)%nat ->
  pop_ok o sijk sid st -> air_ok st -> cond_part o allow g sijk sid st st' ->
  let np := p_np (s_P st) in let ijk := p_ijk (s_P st) in
  let taken c := sumR (o_sstp o) (fun k => cellsum np ijk (lost o sijk sid st k) c) in
  let heating c := sumR (o_sstp o) (fun k => cellsum np ijk (heat o sijk sid st k) c) in
  s_P st' = fst (pafter o sijk sid st (o_sstp o)) /\
  (forall i, (i < np)%nat -> let S := snd (pafter o sijk sid st (o_sstp o)) in
     t_rv S i = e_rv (s_E st) (ijk i) - taken (ijk i) /\ t_th S i = e_th (s_E st) (ijk i) + heating (ijk i)) /\
  (forall c, e_rv (s_E st') c = e_rv (s_E st) c - taken c /\ e_th (s_E st') c = e_th (s_E st) c + heating c) /\
  (forall c, (forall i, (i < np)%nat -> ijk i <> c) -> taken c = 0 /\ heating c = 0).
Proof.
  intros Hu Hm Ha Hs1 Hok Hair HC np ijk taken heating.
  destruct Hok as (Hs & Hb & Hr & Hd).
  assert (HS : forall i, (i < np)%nat -> let S := snd (pafter o sijk sid st (o_sstp o)) in
     t_rv S i = e_rv (s_E st) (ijk i) - taken (ijk i) /\ t_th S i = e_th (s_E st) (ijk i) + heating (ijk i)).
  { intros i Hi. assert (Hi0 : INR (o_sstp o) <> 0) by (apply not_0_INR; lia).
    assert (G : forall k, (k <= o_sstp o)%nat ->
      t_rv (snd (pafter o sijk sid st k)) i = t_rv (s_S st) i + INR k / INR (o_sstp o) * (e_rv (s_E st) (ijk i) - t_rv (s_S st) i)
        - sumR k (fun k => cellsum np ijk (lost o sijk sid st k) (ijk i)) /\
      t_th (snd (pafter o sijk sid st k)) i = t_th (s_S st) i + INR k / INR (o_sstp o) * (e_th (s_E st) (ijk i) - t_th (s_S st) i)
        + sumR k (fun k => cellsum np ijk (heat o sijk sid st k) (ijk i))).
    { induction k as [|k IH]; intros Hk.
      - cbn [sumR pafter perparticle_loop snd INR]. split; field; exact Hi0.
      - destruct (IH ltac:(lia)) as [I1 I2].
        destruct (step_mix o sijk sid st Hr Hs1 Hair Hs k i Hm ltac:(lia) Hi) as [S1 S2].
        fold np ijk in S1, S2.
        assert (B1 : t_rv (pseen o sijk sid st k) i = t_rv (snd (pafter o sijk sid st k)) i + (e_rv (s_E st) (ijk i) - t_rv (s_S st) i) / INR (o_sstp o))
          by reflexivity.
        assert (B2 : t_th (pseen o sijk sid st k) i = t_th (snd (pafter o sijk sid st k)) i + (e_th (s_E st) (ijk i) - t_th (s_S st) i) / INR (o_sstp o))
          by reflexivity.
        rewrite S1, S2, B1, B2, I1, I2. cbn [sumR]. rewrite S_INR. split; field; exact Hi0. }
    destruct (G (o_sstp o) (le_n _)) as [G1 G2]. cbv zeta. rewrite G1, G2. unfold taken, heating. split; field; exact Hi0. }
  assert (HE : forall c, (forall i, (i < np)%nat -> ijk i <> c) -> taken c = 0 /\ heating c = 0).
  { intros c Hc. assert (Ho : ~ occupied np ijk c) by (intros (i & Hi & E); exact (Hc i Hi E)).
    unfold taken, heating. split; apply sumR_0; intros k Hk; apply cellsum_empty, Ho. }
  assert (HP : exists P S rv' th', P = fst (pafter o sijk sid st (o_sstp o)) /\ S = snd (pafter o sijk sid st (o_sstp o)) /\
     st' = sstp_save o allow (mk_cst P (set_rvth (s_E st) rv' th') S) /\
     update_state P (t_rv S) (e_rv (s_E st)) rv' /\ update_state P (t_th S) (e_th (s_E st)) th').
  { destruct HC as [? Hu'|? ? ? Hu' Hm'|st P S rv' th' Hu' Hm' lD lK HPS U1 U2]; [congruence|congruence|].
    exists P, S, rv', th'. rewrite Ha in HPS. unfold pafter. fold lD lK.
    rewrite <- HPS. repeat split; auto. }
  destruct HP as (P & S & rv' & th' & EP & ES & Est & U1 & U2).
  destruct (sstp_save_PE o allow (mk_cst P (set_rvth (s_E st) rv' th') S)) as [X1 X2]. rewrite <- Est in X1, X2. cbn [s_P s_E] in X1, X2.
  split; [rewrite X1, EP; reflexivity|]. split; [exact HS|]. split; [|exact HE].
  destruct (pafter_frame o sijk sid st (o_sstp o)) as ((F1 & F2 & _) & _).
  intros c. rewrite X2. cbn [set_rvth e_rv e_th].
  assert (K : forall (x x' : nat -> R) s t, update_state P s x x' -> (forall i, (i < np)%nat -> s i = x (ijk i) + t (ijk i)) ->
              (forall c, (forall i, (i < np)%nat -> ijk i <> c) -> t c = 0) -> x' c = x c + t c).
  { intros x x' s t U Hst Ht. specialize (U c). rewrite EP, F1, F2 in U. fold np ijk in U.
    destruct U as [(i & Hi & Ei & Ex)|(Hn & Ex)].
    - rewrite Ex, Hst by exact Hi. rewrite Ei. reflexivity.
    - rewrite Ex, (Ht c Hn). ring. }
  split.
  - rewrite (K (e_rv (s_E st)) rv' (t_rv S) (fun c => - taken c)); [ring|exact U1| |].
    + intros i Hi. rewrite ES. destruct (HS i Hi) as [-> _]. ring.
    + intros c' Hc'. destruct (HE c' Hc') as [-> _]. ring.
  - rewrite (K (e_th (s_E st)) th' (t_th S) heating); [reflexivity|exact U2| |].
    + intros i Hi. rewrite ES. destruct (HS i Hi) as [_ ->]. ring.
    + intros c' Hc'. apply HE, Hc'.
Qed.

(** with mixing the outcome does not depend on the order of writing *)
Theorem C22_order o allow g g' sijk sid st st1 st2 :
  use_perparticle o = true -> o_mix o = true -> o_adaptive o = false -> (1 <= o_sstp o)%nat ->
  pop_ok o sijk sid st -> air_ok st -> cond_part o allow g sijk sid st st1 -> cond_part o allow g' sijk sid st st2 ->
  s_P st1 = s_P st2 /\ forall c, e_rv (s_E st1) c = e_rv (s_E st2) c /\ e_th (s_E st1) c = e_th (s_E st2) c.
Proof.
  intros Hu Hm Ha Hs Hok Hair H1 H2.
  destruct (C22_mixing o allow g sijk sid st st1 Hu Hm Ha Hs Hok Hair H1) as (P1 & _ & C1 & _).
  destruct (C22_mixing o allow g' sijk sid st st2 Hu Hm Ha Hs Hok Hair H2) as (P2 & _ & C2 & _).
  split; [congruence|]. intros c. destruct (C1 c) as [-> ->]. destruct (C2 c) as [-> ->]. split; reflexivity.
Qed.

(** C20 with mixing: total water is conserved if the air at super-droplets had the present density of their cells before. *)
Theorem C20_mix_water_partial o allow g sijk sid st st' :
  use_perparticle o = true -> o_mix o = true -> o_adaptive o = false -> (1 <= o_sstp o)%nat ->
  pop_ok o sijk sid st -> cond_part o allow g sijk sid st st' ->
  (forall i, (i < p_np (s_P st))%nat -> t_rh (s_S st) i = e_rhod (s_E st) (p_ijk (s_P st) i)) ->
  forall c, (c < e_nc (s_E st))%nat -> total_water o st' c = total_water o st c.
Proof.
  intros Hu Hm Ha Hs1 Hok HC Hrh c Hc.
  assert (Hair : air_ok st).
  { intros i Hi. destruct Hok as (_ & Hb & _ & Hd). destruct (Hd _ (Hb i Hi)) as [D1 D2]. rewrite Hrh by exact Hi. auto. }
  destruct (C22_mixing o allow g sijk sid st st' Hu Hm Ha Hs1 Hok Hair HC) as (EP & _ & EC & _).
  destruct (EC c) as [Erv _].
  assert (EE : e_rhod (s_E st') = e_rhod (s_E st) /\ e_dv (s_E st') = e_dv (s_E st)).
  { destruct HC as [? Hu'|? ? ? Hu' Hm'|st P S rv' th' Hu' Hm' lD lK HPS U1 U2]; [congruence|congruence|].
    destruct (sstp_save_PE o allow (mk_cst P (set_rvth (s_E st) rv' th') S)) as [_ X]. rewrite X. split; reflexivity. }
  destruct EE as [E1 E2].
  set (m := air_in (o_parcel o) (e_rhod (s_E st)) (e_dv (s_E st)) c).
  assert (EL : forall k, (k < o_sstp o)%nat -> cellsum (p_np (s_P st)) (p_ijk (s_P st)) (lost o sijk sid st k) c =
     (liq_in (fst (pafter o sijk sid st (S k))) c - liq_in (fst (pafter o sijk sid st k)) c) / m).
  { intros k Hk. destruct (pafter_frame o sijk sid st k) as ((F1 & F2 & F3) & _).
    destruct (pafter_frame o sijk sid st (S k)) as ((G1 & G2 & G3) & _).
    unfold liq_in. rewrite F1, F2, F3, G1, G2, G3.
    replace (cellsum (p_np (s_P st)) (p_ijk (s_P st)) (fun i => N2R (p_n (s_P st) i) * (4 / 3 * PI * 1000 * sqrt (p_rw2 (fst (pafter o sijk sid st (S k))) i) ^ 3)) c -
             cellsum (p_np (s_P st)) (p_ijk (s_P st)) (fun i => N2R (p_n (s_P st) i) * (4 / 3 * PI * 1000 * sqrt (p_rw2 (fst (pafter o sijk sid st k)) i) ^ 3)) c)
      with (cellsum (p_np (s_P st)) (p_ijk (s_P st)) (fun i => N2R (p_n (s_P st) i) * (4 / 3 * PI * 1000 * sqrt (p_rw2 (fst (pafter o sijk sid st (S k))) i) ^ 3)
               + -1 * (N2R (p_n (s_P st) i) * (4 / 3 * PI * 1000 * sqrt (p_rw2 (fst (pafter o sijk sid st k)) i) ^ 3))) c)
      by (rewrite cellsum_plus, cellsum_scal; ring).
    unfold Rdiv. rewrite (Rmult_comm (cellsum _ _ _ _)), <- cellsum_scal. apply cellsum_ext. intros i Hi Ei.
    unfold lost, sd_mass. rewrite F3, G3. rewrite (proj2 (pseen_rh o sijk sid st k i Hs1)), Hrh by exact Hi. rewrite Ei.
    replace (part_way (o_sstp o) k (e_rhod (s_E st) c) (e_rhod (s_E st) c)) with (e_rhod (s_E st) c) by (unfold part_way; unfold Rdiv; ring).
    unfold m, air_in, Rdiv. ring. }
  assert (ET : sumR (o_sstp o) (fun k => cellsum (p_np (s_P st)) (p_ijk (s_P st)) (lost o sijk sid st k) c) =
     (liq_in (s_P st') c - liq_in (s_P st) c) / m).
  { rewrite (sumR_ext _ _ (fun k => (liq_in (fst (pafter o sijk sid st (S k))) c - liq_in (fst (pafter o sijk sid st k)) c) / m)) by exact EL.
    assert (T : forall n, sumR n (fun k => (liq_in (fst (pafter o sijk sid st (S k))) c - liq_in (fst (pafter o sijk sid st k)) c) / m) =
        (liq_in (fst (pafter o sijk sid st n)) c - liq_in (s_P st) c) / m).
    { induction n as [|n IH]; cbn [sumR]; [cbn; unfold Rdiv; ring|]. rewrite IH. unfold Rdiv. ring. }
    rewrite T, EP. reflexivity. }
  unfold total_water, q_liq, q_ice. rewrite E1, E2. fold m. rewrite Erv, ET.
  assert (EI : ice_in (s_P st') c = ice_in (s_P st) c).
  { rewrite EP. destruct (pafter_frame o sijk sid st (o_sstp o)) as ((F1 & F2 & F3) & F4 & F5 & F6 & _).
    unfold ice_in. rewrite F1, F2, F3, F4, F5, F6. reflexivity. }
  rewrite EI. unfold Rdiv. ring.
Qed.

Print Assumptions C22_mixing.
Print Assumptions C22_order.
Print Assumptions C20_mix_water_partial.
