(** C20, C21: condensation with per-cell substeps. *)
From Coq Require Import List Arith NArith ZArith Lia Reals Lra Bool.
From Verif Require Import Base BaseProofs HskpngModel ThermoModel ThermoProofs TomsModel CondModel MomsModel MomsProofs
  CondPassModel CondPassProofs.
Import ListNotations.
Local Open Scope R_scope.

(** ** specification *)
(** the state after [k] per-cell substeps, and the state that droplets see in substep [k] *)
Definition after (o : copts) (g : junk) (sijk sid : list nat) (st : cst) (k : nat) : cst :=
  l_st (percell_loop o g (mfp_D (s_E st)) (mfp_K (s_E st)) sijk sid k (mk_pcst st (g_rw g) (g_ice g))).
Definition seen (o : copts) (g : junk) (sijk sid : list nat) (st : cst) (k : nat) : cst :=
  sstp_percell_step o k (after o g sijk sid st k).
(** the old value plus the fraction (k+1)/s of the change made by the host model *)
Definition part_way (s k : nat) (old host : R) : R := old + INR (S k) / INR s * (host - old).
(** temperature of cells with the given potential temperature, density and pressure *)
Definition temp (o : copts) (E : cells) (c : nat) : R :=
  if o_th_dry o then dry_T (e_th E c) (e_rhod E c) else e_th E c * exner (e_p E c).

(** ** interpolation of the host tendency *)
Lemma sstp_seq s (x t d : nat -> R) (v t0 : R) : (1 <= s)%nat -> x 0%nat = v -> t 0%nat = t0 ->
  (forall k, (k < s)%nat -> x (S k) = fst (sstp_var s k (x k, t k)) + d k /\ t (S k) = snd (sstp_var s k (x k, t k))) ->
  forall k, (k < s)%nat ->
    fst (sstp_var s k (x k, t k)) = part_way s k t0 v + sumR k d /\
    x (S k) = part_way s k t0 v + sumR (S k) d /\ t (S k) = v - t0.
Proof.
  intros Hs H1 H2 H k. assert (Hi : INR s <> 0) by (apply not_0_INR; lia).
  induction k as [|k IH]; intros Hk.
  - destruct (H 0%nat Hk) as [A B]. unfold sstp_var in *. cbn [Nat.eqb fst snd] in *. rewrite H1, H2 in *.
    unfold part_way. cbn [sumR]. change (INR 1) with 1. rewrite A, B.
    split; [field; exact Hi|]. split; [|reflexivity]. cbn [sumR]. field. exact Hi.
  - destruct (IH ltac:(lia)) as (_ & X & T). destruct (H (S k) Hk) as [A B]. unfold sstp_var in *.
    cbn [Nat.eqb fst snd] in *. rewrite A, B, X, T. unfold part_way. cbn [sumR]. rewrite (S_INR (S k)).
    split; [field; exact Hi|]. split; [field; exact Hi|reflexivity].
Qed.

Section Percell.
  Variables (o : copts) (g : junk) (sijk sid : list nat) (st : cst).
  Let lD := mfp_D (s_E st). Let lK := mfp_K (s_E st).
  Let L k := percell_loop o g lD lK sijk sid k (mk_pcst st (g_rw g) (g_ice g)).
  Let A k := after o g sijk sid st k.
  Let B k := seen o g sijk sid st k.

  Lemma after_S k : A (S k) = l_st (percell_substep o g lD lK sijk sid k (L k)).
  Proof. reflexivity. Qed.

  (** what does not change *)
  Lemma after_frame k : same_pop (s_P st) (s_P (A k)) /\ e_nc (s_E (A k)) = e_nc (s_E st) /\
    (o_parcel o = false -> e_dv (s_E (A k)) = e_dv (s_E st)) /\ p_irho (s_P (A k)) = p_irho (s_P st) /\
    (o_var_rho o = false -> e_rhod (s_E (A k)) = e_rhod (s_E st)) /\
    ((forall i, 0 <= p_rw2 (s_P st) i) -> forall i, 0 <= p_rw2 (s_P (A k)) i).
  Proof.
    induction k as [|k IH].
    - repeat split; auto.
    - rewrite after_S. destruct IH as ((I1 & I2 & I3) & I4 & I5 & I6 & I7 & I8).
      destruct (sstp_percell_frame o k (A k)) as (F1 & F2 & F3 & F4).
      unfold percell_substep. cbn [l_st s_P s_E]. change (l_st (L k)) with (A k).
      set (st1 := sstp_percell_step o k (A k)) in *.
      split; [|split; [|split; [|split; [|split]]]].
      + unfold same_pop. destruct (o_ice o); cbn [grow_ice grow_liq set_rw2 set_ice p_np p_ijk p_n];
        unfold apply_sgs_supersat; rewrite F1; destruct (o_turb o); cbn [set_ssp p_np p_ijk p_n]; auto.
      + unfold update_th_rv, hskpng_Tpr. cbn [set_rvth e_nc]. rewrite F2. exact I4.
      + intros Hp. unfold update_th_rv, hskpng_Tpr. cbn [set_rvth e_dv]. rewrite Hp, F3. apply I5, Hp.
      + destruct (o_ice o); cbn [grow_ice grow_liq set_rw2 set_ice p_irho];
        unfold apply_sgs_supersat; rewrite F1; destruct (o_turb o); cbn [set_ssp p_irho]; exact I6.
      + intros Hv. unfold update_th_rv, hskpng_Tpr. cbn [set_rvth e_rhod]. rewrite F4 by exact Hv. apply I7, Hv.
      + intros Hr i. specialize (I8 Hr).
        assert (H1 : forall i, 0 <= p_rw2 (apply_sgs_supersat o (s_P st1)) i).
        { intros j. unfold apply_sgs_supersat. rewrite F1. destruct (o_turb o); apply I8. }
        destruct (o_ice o); cbn [grow_ice grow_liq set_rw2 set_ice p_rw2]; apply advance_nonneg, H1.
  Qed.

  Lemma rhod_after k : e_rhod (s_E (A (S k))) = e_rhod (s_E (B k)).
  Proof. reflexivity. Qed.
  Lemma dv_seen k : o_parcel o = false -> e_dv (s_E (B k)) = e_dv (s_E st).
  Proof.
    intros Hp. unfold B, seen. destruct (sstp_percell_frame o k (A k)) as (_ & _ & F & _).
    change (after o g sijk sid st k) with (A k). rewrite F. apply after_frame, Hp.
  Qed.

  (** Wet and Ice depend on the fields of cells only through density and volume *)
  Lemma Wet_fields P E E' c : (o_parcel o = false -> e_dv E c = e_dv E' c /\ e_rhod E c = e_rhod E' c) -> Wet o P E c = Wet o P E' c.
  Proof.
    intros H. unfold Wet, per_air. destruct (o_parcel o); cbn [negb]; [reflexivity|]. destruct (H eq_refl) as [-> ->]. reflexivity.
  Qed.
  Lemma Ice_fields P E E' c : (o_parcel o = false -> e_dv E c = e_dv E' c /\ e_rhod E c = e_rhod E' c) -> Ice o P E c = Ice o P E' c.
  Proof.
    intros H. unfold Ice, per_air. destruct (o_parcel o); cbn [negb]; [reflexivity|]. destruct (H eq_refl) as [-> ->]. reflexivity.
  Qed.

  Hypothesis Hok : pop_ok o sijk sid st.
  Hypothesis Hs1 : (1 <= o_sstp o)%nat.

  Lemma sorted_at k : sorted_pop (p_np (s_P (A k))) (p_ijk (s_P (A k))) sijk sid.
  Proof. destruct (after_frame k) as ((F1 & F2 & _) & _). rewrite F1, F2. apply Hok. Qed.
  Lemma range_at k : forall i, (i < p_np (s_P (A k)))%nat -> (p_ijk (s_P (A k)) i < e_nc (s_E (A k)))%nat.
  Proof. destruct (after_frame k) as ((F1 & F2 & _) & F4 & _). rewrite F1, F2, F4. apply Hok. Qed.

  (** contents at the beginning of substep [k] as used by the code *)
  Definition w_old k c := if (k =? 0)%nat then Wet o (s_P st) (s_E (B 0)) c else Wet o (s_P (A k)) (s_E (A k)) c.
  Definition i_old k c := if (k =? 0)%nat then Ice o (s_P st) (s_E (B 0)) c else Ice o (s_P (A k)) (s_E (A k)) c.

  Lemma steps k c : (k < o_sstp o)%nat -> (c < e_nc (s_E st))%nat ->
    (let T := temp o (s_E (B k)) c in
     let dL := Wet o (s_P (A (S k))) (s_E (A (S k))) c - w_old k c in
     let dI := Ice o (s_P (A (S k))) (s_E (A (S k))) c - i_old k c in
     e_rv (s_E (A (S k))) c = e_rv (s_E (B k)) c - drop_mlt * dL - (if o_ice o then dI else 0) /\
     e_th (s_E (A (S k))) c = e_th (s_E (B k)) c * factor_v T (drop_mlt * dL) * (if o_ice o then factor_s T dI else 1)) /\
    (S k <> o_sstp o -> l_rw (L (S k)) c = Wet o (s_P (A (S k))) (s_E (A (S k))) c /\
                        l_ice (L (S k)) c = Ice o (s_P (A (S k))) (s_E (A (S k))) c).
  Proof.
    intros Hk Hc. induction k as [k IH] using lt_wf_ind.
    assert (Hprev : k <> 0%nat -> l_rw (L k) c = Wet o (s_P (A k)) (s_E (A k)) c /\ l_ice (L k) c = Ice o (s_P (A k)) (s_E (A k)) c).
    { intros H0. destruct k as [|k']; [lia|]. apply (IH k'); lia. }
    pose proof (percell_substep_spec o g lD lK sijk sid k (L k) c) as SP. cbv zeta in SP.
    change (l_st (L k)) with (A k) in SP. change (percell_substep o g lD lK sijk sid k (L k)) with (L (S k)) in SP.
    change (l_st (L (S k))) with (A (S k)) in SP.
    change (sstp_percell_step o k (A k)) with (B k) in SP.
    assert (Hc' : (c < e_nc (s_E (A k)))%nat) by (destruct (after_frame k) as (_ & -> & _); exact Hc).
    assert (Hempty : k <> 0%nat -> ~ occupied (p_np (s_P (A k))) (p_ijk (s_P (A k))) c -> l_rw (L k) c = 0 /\ l_ice (L k) c = 0).
    { intros H0 Ho. destruct (Hprev H0) as [-> ->]. split; [apply Wet_empty|apply Ice_empty]; exact Ho. }
    specialize (SP (sorted_at k) (range_at k) Hc' Hempty).
    set (E1 := hskpng_Tpr o (s_E (B k))) in *.
    assert (WE : forall P, Wet o P E1 c = Wet o P (s_E (A (S k))) c) by (intros P; reflexivity).
    assert (IE : forall P, Ice o P E1 c = Ice o P (s_E (A (S k))) c) by (intros P; reflexivity).
    assert (EL : (if (k =? 0)%nat then Wet o (s_P (A k)) E1 c else l_rw (L k) c) = w_old k c).
    { unfold w_old. destruct (Nat.eqb_spec k 0) as [->|Hk0]; [|apply Hprev, Hk0].
      apply Wet_fields. intros Hp. unfold E1, hskpng_Tpr. cbn [e_dv e_rhod]. rewrite Hp. split; reflexivity. }
    assert (EI : (if (k =? 0)%nat then Ice o (s_P (A k)) E1 c else l_ice (L k) c) = i_old k c).
    { unfold i_old. destruct (Nat.eqb_spec k 0) as [->|Hk0]; [|apply Hprev, Hk0].
      apply Ice_fields. intros Hp. unfold E1, hskpng_Tpr. cbn [e_dv e_rhod]. rewrite Hp. split; reflexivity. }
    rewrite EL, EI, !WE, !IE in SP. destruct SP as (S1 & S2 & S3).
    split; [|exact S3]. split; [exact S1|]. exact S2.
  Qed.

  (** interpolation: a variable of cells is what it was before plus part of the change, plus changes by condensation *)
  Definition drv k c := e_rv (s_E (A (S k))) c - e_rv (s_E (B k)) c.
  Definition dth k c := e_th (s_E (A (S k))) c - e_th (s_E (B k)) c.
  Lemma seen_rv c k : (k < o_sstp o)%nat ->
    e_rv (s_E (B k)) c = part_way (o_sstp o) k (t_rv (s_S st) c) (e_rv (s_E st) c) + sumR k (fun j => drv j c) /\
    e_rv (s_E (A (S k))) c = part_way (o_sstp o) k (t_rv (s_S st) c) (e_rv (s_E st) c) + sumR (S k) (fun j => drv j c).
  Proof.
    intros Hk. destruct (Nat.eq_dec (o_sstp o) 1) as [E1|Hn].
    - assert (k = 0)%nat by lia. subst k. rewrite E1.
      assert (EB : e_rv (s_E (B 0)) c = e_rv (s_E st) c) by (unfold B, seen, sstp_percell_step; rewrite E1; reflexivity).
      unfold part_way. cbn [sumR]. change (INR 1) with 1. unfold drv. rewrite EB. split; field.
    - pose proof (sstp_seq (o_sstp o) (fun k => e_rv (s_E (A k)) c) (fun k => t_rv (s_S (A k)) c) (fun k => drv k c)
                    (e_rv (s_E st) c) (t_rv (s_S st) c) Hs1 eq_refl eq_refl) as Q.
      assert (EB : forall k, e_rv (s_E (B k)) c = fst (sstp_var (o_sstp o) k (e_rv (s_E (A k)) c, t_rv (s_S (A k)) c)) /\
                             t_rv (s_S (A (S k))) c = snd (sstp_var (o_sstp o) k (e_rv (s_E (A k)) c, t_rv (s_S (A k)) c))).
      { intros j. assert (T : t_rv (s_S (A (S j))) = t_rv (s_S (B j))) by reflexivity. rewrite T. unfold B, seen, sstp_percell_step.
        change (after o g sijk sid st j) with (A j).
        destruct (Nat.eqb_spec (o_sstp o) 1); [lia|]. split; reflexivity. }
      destruct (Q ltac:(intros j Hj; destruct (EB j) as [X Y]; split; [unfold drv; rewrite X; lra|exact Y]) k Hk) as (Q1 & Q2 & _).
      split; [rewrite (proj1 (EB k)); exact Q1|exact Q2].
  Qed.
  Lemma seen_th c k : (k < o_sstp o)%nat ->
    e_th (s_E (B k)) c = part_way (o_sstp o) k (t_th (s_S st) c) (e_th (s_E st) c) + sumR k (fun j => dth j c) /\
    e_th (s_E (A (S k))) c = part_way (o_sstp o) k (t_th (s_S st) c) (e_th (s_E st) c) + sumR (S k) (fun j => dth j c).
  Proof.
    intros Hk. destruct (Nat.eq_dec (o_sstp o) 1) as [E1|Hn].
    - assert (k = 0)%nat by lia. subst k. rewrite E1.
      assert (EB : e_th (s_E (B 0)) c = e_th (s_E st) c) by (unfold B, seen, sstp_percell_step; rewrite E1; reflexivity).
      unfold part_way. cbn [sumR]. change (INR 1) with 1. unfold dth. rewrite EB. split; field.
    - pose proof (sstp_seq (o_sstp o) (fun k => e_th (s_E (A k)) c) (fun k => t_th (s_S (A k)) c) (fun k => dth k c)
                    (e_th (s_E st) c) (t_th (s_S st) c) Hs1 eq_refl eq_refl) as Q.
      assert (EB : forall k, e_th (s_E (B k)) c = fst (sstp_var (o_sstp o) k (e_th (s_E (A k)) c, t_th (s_S (A k)) c)) /\
                             t_th (s_S (A (S k))) c = snd (sstp_var (o_sstp o) k (e_th (s_E (A k)) c, t_th (s_S (A k)) c))).
      { intros j. assert (T : t_th (s_S (A (S j))) = t_th (s_S (B j))) by reflexivity. rewrite T. unfold B, seen, sstp_percell_step.
        change (after o g sijk sid st j) with (A j).
        destruct (Nat.eqb_spec (o_sstp o) 1); [lia|]. split; reflexivity. }
      destruct (Q ltac:(intros j Hj; destruct (EB j) as [X Y]; split; [unfold dth; rewrite X; lra|exact Y]) k Hk) as (Q1 & Q2 & _).
      split; [rewrite (proj1 (EB k)); exact Q1|exact Q2].
  Qed.
  Lemma seen_rhod c k : (k < o_sstp o)%nat ->
    e_rhod (s_E (B k)) c = if o_var_rho o then part_way (o_sstp o) k (t_rh (s_S st) c) (e_rhod (s_E st) c) else e_rhod (s_E st) c.
  Proof.
    intros Hk. destruct (o_var_rho o) eqn:Ev.
    2:{ unfold B, seen. destruct (sstp_percell_frame o k (A k)) as (_ & _ & _ & F). change (after o g sijk sid st k) with (A k).
        rewrite F by exact Ev. destruct (after_frame k) as (_ & _ & _ & _ & G & _). rewrite G by exact Ev. reflexivity. }
    destruct (Nat.eq_dec (o_sstp o) 1) as [E1|Hn].
    - assert (k = 0)%nat by lia. subst k. rewrite E1.
      assert (EB : e_rhod (s_E (B 0)) c = e_rhod (s_E st) c) by (unfold B, seen, sstp_percell_step; rewrite E1; reflexivity).
      unfold part_way. change (INR 1) with 1. rewrite EB. field.
    - pose proof (sstp_seq (o_sstp o) (fun k => e_rhod (s_E (A k)) c) (fun k => t_rh (s_S (A k)) c) (fun k => 0)
                    (e_rhod (s_E st) c) (t_rh (s_S st) c) Hs1 eq_refl eq_refl) as Q.
      assert (EB : forall k, e_rhod (s_E (B k)) c = fst (sstp_var (o_sstp o) k (e_rhod (s_E (A k)) c, t_rh (s_S (A k)) c)) /\
                             t_rh (s_S (A (S k))) c = snd (sstp_var (o_sstp o) k (e_rhod (s_E (A k)) c, t_rh (s_S (A k)) c))).
      { intros j. assert (T : t_rh (s_S (A (S j))) = t_rh (s_S (B j))) by reflexivity. rewrite T. unfold B, seen, sstp_percell_step.
        change (after o g sijk sid st j) with (A j).
        destruct (Nat.eqb_spec (o_sstp o) 1); [lia|]. cbn [s_E s_S e_rhod t_rh]. rewrite Ev. split; reflexivity. }
      destruct (Q ltac:(intros j Hj; destruct (EB j) as [X Y]; split;
          [change (e_rhod (s_E (A (S j))) c) with (e_rhod (s_E (B j)) c); rewrite X; lra|exact Y]) k Hk) as (Q1 & _ & _).
      rewrite (proj1 (EB k)), Q1, sumR_0 by reflexivity. lra.
  Qed.

  Lemma part_way_end old host : part_way (o_sstp o) (o_sstp o - 1) old host = host.
  Proof.
    unfold part_way. replace (S (o_sstp o - 1)) with (o_sstp o) by lia. field. apply not_0_INR; lia.
  Qed.

  (** total changes *)
  Lemma total_change c : (c < e_nc (s_E st))%nat ->
    e_rv (s_E (A (o_sstp o))) c = e_rv (s_E st) c
      - drop_mlt * (Wet o (s_P (A (o_sstp o))) (s_E (A (o_sstp o))) c - Wet o (s_P st) (s_E (B 0)) c)
      - (if o_ice o then Ice o (s_P (A (o_sstp o))) (s_E (A (o_sstp o))) c - Ice o (s_P st) (s_E (B 0)) c else 0).
  Proof.
    intros Hc. assert (Es : exists s, o_sstp o = S s) by (exists (o_sstp o - 1)%nat; lia). destruct Es as [s Es].
    pose proof (seen_rv c s ltac:(lia)) as [_ R]. rewrite Es. rewrite R.
    assert (PW : part_way (o_sstp o) s (t_rv (s_S st) c) (e_rv (s_E st) c) = e_rv (s_E st) c).
    { replace s with (o_sstp o - 1)%nat by lia. apply part_way_end. }
    rewrite PW.
    set (X k := drop_mlt * w_old k c + (if o_ice o then i_old k c else 0)).
    assert (HX : forall k, (k < S s)%nat -> drv k c = X k - (if (k =? s)%nat then
        drop_mlt * Wet o (s_P (A (S s))) (s_E (A (S s))) c + (if o_ice o then Ice o (s_P (A (S s))) (s_E (A (S s))) c else 0) else X (S k))).
    { intros k Hk. destruct (steps k c ltac:(lia) Hc) as ((S1 & _) & _). unfold drv. rewrite S1. unfold X.
      destruct (Nat.eqb_spec k s) as [->|Hks].
      - destruct (o_ice o); lra.
      - change (w_old (S k) c) with (Wet o (s_P (A (S k))) (s_E (A (S k))) c).
        change (i_old (S k) c) with (Ice o (s_P (A (S k))) (s_E (A (S k))) c). destruct (o_ice o); lra. }
    assert (HT : forall m, (m <= s)%nat -> sumR m (fun j => drv j c) = X 0%nat - X m).
    { induction m as [|m IHm]; intros Hm; cbn [sumR]; [lra|]. rewrite IHm by lia. rewrite HX by lia.
      destruct (Nat.eqb_spec m s); [lia|]. lra. }
    cbn [sumR]. rewrite HT by lia. rewrite HX by lia. rewrite Nat.eqb_refl.
    unfold X at 1. unfold w_old, i_old. cbn [Nat.eqb]. destruct (o_ice o); lra.
  Qed.
End Percell.

Lemma cond_part_percell o allow g sijk sid st st' : use_perparticle o = false -> cond_part o allow g sijk sid st st' ->
  st' = sstp_save o allow (after o g sijk sid st (o_sstp o)).
Proof. intros Hu H. destruct H; [reflexivity|congruence|congruence]. Qed.
Lemma sstp_save_PE o allow st : s_P (sstp_save o allow st) = s_P st /\ s_E (sstp_save o allow st) = s_E st.
Proof. unfold sstp_save. destruct allow; split; reflexivity. Qed.

(** the density with which the liquid water content is computed does not change during the step *)
Definition steady (o : copts) : Prop := o_var_rho o = false \/ o_parcel o = true \/ o_sstp o = 1%nat.

Lemma steady_air o g sijk sid st k : steady o -> (k < o_sstp o)%nat -> o_parcel o = false ->
  e_rhod (s_E (seen o g sijk sid st k)) = e_rhod (s_E st) /\ e_rhod (s_E (after o g sijk sid st (S k))) = e_rhod (s_E st) /\
  e_dv (s_E (seen o g sijk sid st k)) = e_dv (s_E st) /\ e_dv (s_E (after o g sijk sid st (S k))) = e_dv (s_E st).
Proof.
  intros Hst Hk Hp. assert (R : e_rhod (s_E (seen o g sijk sid st k)) = e_rhod (s_E st)).
  { destruct Hst as [H|[H|H]]; [|congruence|].
    - unfold seen. destruct (sstp_percell_frame o k (after o g sijk sid st k)) as (_ & _ & _ & F). rewrite F by exact H.
      apply after_frame, H.
    - assert (k = 0)%nat by lia. subst k. unfold seen, sstp_percell_step. rewrite H. reflexivity. }
  split; [exact R|]. split; [exact R|]. split; [apply dv_seen, Hp|]. apply after_frame, Hp.
Qed.

Section Top.
  Variables (o : copts) (allow : bool) (g : junk) (sijk sid : list nat) (st : cst).
  Hypothesis Hok : pop_ok o sijk sid st.
  Hypothesis Hs1 : (1 <= o_sstp o)%nat.
  Let P0 := s_P st. Let E0 := s_E st.
  Let A k := after o g sijk sid st k.
  Let B k := seen o g sijk sid st k.

  Lemma Wet_A k c : (c < e_nc E0)%nat -> drop_mlt * Wet o (s_P (A k)) E0 c = q_liq o (s_P (A k)) E0 c.
  Proof.
    intros Hc. destruct Hok as (_ & _ & Hr & Hd). destruct (Hd c Hc). symmetry. apply Wet_q; try assumption.
    destruct (after_frame o g sijk sid st k) as (_ & _ & _ & _ & _ & F). apply F, Hr.
  Qed.
  Lemma Ice_A k c : (c < e_nc E0)%nat -> (if o_ice o then Ice o (s_P (A k)) E0 c else 0) = q_ice o (s_P (A k)) E0 c.
  Proof.
    intros Hc. destruct Hok as (_ & _ & _ & Hd). destruct (Hd c Hc). symmetry. apply Ice_q; assumption.
  Qed.

  (** water and heat in substep [k], with a density that does not change *)
  Lemma substep_steady k c : steady o -> (k < o_sstp o)%nat -> (c < e_nc E0)%nat ->
    let T := temp o (s_E (B k)) c in
    let dl := q_liq o (s_P (A (S k))) E0 c - q_liq o (s_P (A k)) E0 c in
    let di := q_ice o (s_P (A (S k))) E0 c - q_ice o (s_P (A k)) E0 c in
    e_rv (s_E (A (S k))) c = e_rv (s_E (B k)) c - dl - di /\
    e_th (s_E (A (S k))) c = e_th (s_E (B k)) c * (1 + l_v T / c_pd / T * dl) * (1 + l_s T / c_pd / T * di).
  Proof.
    intros Hst Hk Hc T dl di.
    destruct (steps o g sijk sid st Hok Hs1 k c Hk Hc) as ((S1 & S2) & _).
    fold (A (S k)) (B k) T in S1, S2.
    assert (FW : forall P, Wet o P (s_E (A (S k))) c = Wet o P E0 c).
    { intros P. apply Wet_fields. intros Hp. destruct (steady_air o g sijk sid st k Hst Hk Hp) as (_ & R & _ & D).
      unfold A. rewrite R, D. split; reflexivity. }
    assert (FI : forall P, Ice o P (s_E (A (S k))) c = Ice o P E0 c).
    { intros P. apply Ice_fields. intros Hp. destruct (steady_air o g sijk sid st k Hst Hk Hp) as (_ & R & _ & D).
      unfold A. rewrite R, D. split; reflexivity. }
    assert (WO : w_old o g sijk sid st k c = Wet o (s_P (A k)) E0 c).
    { unfold w_old. destruct k as [|k']; cbn [Nat.eqb].
      - apply Wet_fields. intros Hp. destruct (steady_air o g sijk sid st 0 Hst Hk Hp) as (R & _ & D & _).
        rewrite R, D. split; reflexivity.
      - apply Wet_fields. intros Hp. destruct (steady_air o g sijk sid st k' Hst ltac:(lia) Hp) as (_ & R & _ & D).
        rewrite R, D. split; reflexivity. }
    assert (IO : i_old o g sijk sid st k c = Ice o (s_P (A k)) E0 c).
    { unfold i_old. destruct k as [|k']; cbn [Nat.eqb].
      - apply Ice_fields. intros Hp. destruct (steady_air o g sijk sid st 0 Hst Hk Hp) as (R & _ & D & _).
        rewrite R, D. split; reflexivity.
      - apply Ice_fields. intros Hp. destruct (steady_air o g sijk sid st k' Hst ltac:(lia) Hp) as (_ & R & _ & D).
        rewrite R, D. split; reflexivity. }
    rewrite FW, FI, WO, IO in S1, S2.
    assert (Edl : drop_mlt * (Wet o (s_P (A (S k))) E0 c - Wet o (s_P (A k)) E0 c) = dl)
      by (unfold dl; rewrite <- !Wet_A by exact Hc; ring).
    assert (Edi : (if o_ice o then Ice o (s_P (A (S k))) E0 c - Ice o (s_P (A k)) E0 c else 0) = di)
      by (unfold di; rewrite <- !Ice_A by exact Hc; destruct (o_ice o); ring).
    rewrite Edl in S1, S2. rewrite Edi in S1. split; [exact S1|]. rewrite S2. unfold factor_v, factor_s.
    destruct (o_ice o); [rewrite Edi; reflexivity|]. rewrite <- Edi. ring.
  Qed.
End Top.

(** C20, per-cell substeps: total water of every cell is conserved. *)
Theorem C20_percell_water o allow g sijk sid st st' :
  use_perparticle o = false -> (1 <= o_sstp o)%nat -> steady o -> pop_ok o sijk sid st ->
  cond_part o allow g sijk sid st st' ->
  forall c, (c < e_nc (s_E st))%nat -> total_water o st' c = total_water o st c.
Proof.
  intros Hu Hs Hst Hok HC c Hc. rewrite (cond_part_percell _ _ _ _ _ _ _ Hu HC).
  unfold total_water. destruct (sstp_save_PE o allow (after o g sijk sid st (o_sstp o))) as [-> ->].
  pose proof (total_change o g sijk sid st Hok Hs c Hc) as TC.
  destruct Hok as (_ & _ & Hr & Hd). destruct (Hd c Hc) as [D1 D2].
  set (A := after o g sijk sid st (o_sstp o)) in *.
  assert (Hair : o_parcel o = false -> e_dv (s_E A) c = e_dv (s_E st) c /\ e_rhod (s_E A) c = e_rhod (s_E st) c).
  { intros Hp. destruct (steady_air o g sijk sid st (o_sstp o - 1) Hst ltac:(lia) Hp) as (_ & R & _ & D).
    unfold A. replace (o_sstp o) with (S (o_sstp o - 1)) by lia. rewrite R, D. split; reflexivity. }
  assert (Hair0 : o_parcel o = false -> e_dv (s_E (seen o g sijk sid st 0)) c = e_dv (s_E st) c /\
                                        e_rhod (s_E (seen o g sijk sid st 0)) c = e_rhod (s_E st) c).
  { intros Hp. destruct (steady_air o g sijk sid st 0 Hst ltac:(lia) Hp) as (R & _ & D & _). rewrite R, D. split; reflexivity. }
  rewrite (Wet_fields o (s_P A) _ (s_E st) c Hair), (Wet_fields o (s_P st) _ (s_E st) c Hair0) in TC.
  rewrite (Ice_fields o (s_P A) _ (s_E st) c Hair), (Ice_fields o (s_P st) _ (s_E st) c Hair0) in TC.
  assert (Hr' : forall i, 0 <= p_rw2 (s_P A) i) by (apply (after_frame o g sijk sid st (o_sstp o)), Hr).
  assert (QA : q_liq o (s_P A) (s_E A) c = q_liq o (s_P A) (s_E st) c /\ q_ice o (s_P A) (s_E A) c = q_ice o (s_P A) (s_E st) c).
  { unfold q_liq, q_ice, air_in. destruct (o_parcel o); [split; reflexivity|]. destruct (Hair eq_refl) as [-> ->]. split; reflexivity. }
  destruct QA as [-> ->]. rewrite !Wet_q by assumption. rewrite !Ice_q by assumption. rewrite TC. destruct (o_ice o); lra.
Qed.

(** C20, per-cell substeps: the exchange of water and heat in every substep.  [st'] is the state after the last substep;
    the temperature is that of the air the droplets are in. *)
Theorem C20_percell_heat o allow g sijk sid st st' :
  use_perparticle o = false -> (1 <= o_sstp o)%nat -> steady o -> pop_ok o sijk sid st ->
  cond_part o allow g sijk sid st st' ->
  let A k := after o g sijk sid st k in let B k := seen o g sijk sid st k in
  s_P st' = s_P (A (o_sstp o)) /\ s_E st' = s_E (A (o_sstp o)) /\
  forall k c, (k < o_sstp o)%nat -> (c < e_nc (s_E st))%nat ->
    let T := temp o (s_E (B k)) c in
    let dl := q_liq o (s_P (A (S k))) (s_E st) c - q_liq o (s_P (A k)) (s_E st) c in
    let di := q_ice o (s_P (A (S k))) (s_E st) c - q_ice o (s_P (A k)) (s_E st) c in
    e_rv (s_E (A (S k))) c = e_rv (s_E (B k)) c - dl - di /\
    e_th (s_E (A (S k))) c = e_th (s_E (B k)) c * (1 + l_v T / c_pd / T * dl) * (1 + l_s T / c_pd / T * di).
Proof.
  intros Hu Hs Hst Hok HC A B. rewrite (cond_part_percell _ _ _ _ _ _ _ Hu HC).
  destruct (sstp_save_PE o allow (after o g sijk sid st (o_sstp o))) as [-> ->].
  split; [reflexivity|]. split; [reflexivity|]. intros k c Hk Hc. exact (substep_steady o g sijk sid st Hok Hs k c Hst Hk Hc).
Qed.

(** C20, C21: a cell without super-droplets is left with exactly the values of the host model, whatever the number of substeps, and
    in substep [k] it has the old value plus k/s of the change made by the host model. *)
Theorem C20_percell_empty o allow g sijk sid st st' :
  use_perparticle o = false -> (1 <= o_sstp o)%nat -> pop_ok o sijk sid st ->
  cond_part o allow g sijk sid st st' ->
  forall c, (c < e_nc (s_E st))%nat -> (forall i, (i < p_np (s_P st))%nat -> p_ijk (s_P st) i <> c) ->
  e_rv (s_E st') c = e_rv (s_E st) c /\ e_th (s_E st') c = e_th (s_E st) c /\ e_rhod (s_E st') c = e_rhod (s_E st) c /\
  (forall k, (k < o_sstp o)%nat ->
     e_rv (s_E (seen o g sijk sid st k)) c = part_way (o_sstp o) k (t_rv (s_S st) c) (e_rv (s_E st) c) /\
     e_th (s_E (seen o g sijk sid st k)) c = part_way (o_sstp o) k (t_th (s_S st) c) (e_th (s_E st) c)).
Proof.
  intros Hu Hs Hok HC c Hc He. pose proof Hs as Hs1. rewrite (cond_part_percell _ _ _ _ _ _ _ Hu HC).
  destruct (sstp_save_PE o allow (after o g sijk sid st (o_sstp o))) as [_ ->].
  assert (Ho : ~ occupied (p_np (s_P st)) (p_ijk (s_P st)) c) by (intros (i & Hi & E); exact (He i Hi E)).
  assert (HoA : forall k, ~ occupied (p_np (s_P (after o g sijk sid st k))) (p_ijk (s_P (after o g sijk sid st k))) c).
  { intros k. destruct (after_frame o g sijk sid st k) as ((F1 & F2 & _) & _). rewrite F1, F2. exact Ho. }
  assert (Z : forall k, (k < o_sstp o)%nat -> drv o g sijk sid st k c = 0 /\ dth o g sijk sid st k c = 0).
  { intros k Hk. destruct (steps o g sijk sid st Hok Hs1 k c Hk Hc) as ((S1 & S2) & _).
    rewrite (Wet_empty o _ _ c (HoA (S k))), (Ice_empty o _ _ c (HoA (S k))) in S1, S2.
    assert (w_old o g sijk sid st k c = 0) as W by (unfold w_old; destruct (k =? 0)%nat; apply Wet_empty; auto).
    assert (i_old o g sijk sid st k c = 0) as I by (unfold i_old; destruct (k =? 0)%nat; apply Ice_empty; auto).
    rewrite W, I in S1, S2. unfold drv, dth. unfold factor_v, factor_s in S2. split.
    - rewrite S1. destruct (o_ice o); ring.
    - rewrite S2. destruct (o_ice o); ring. }
  assert (Es : exists s, o_sstp o = S s) by (exists (o_sstp o - 1)%nat; lia). destruct Es as [s Es].
  pose proof (seen_rv o g sijk sid st Hs c s ltac:(lia)) as [_ R].
  pose proof (seen_th o g sijk sid st Hs c s ltac:(lia)) as [_ T].
  pose proof (seen_rhod o g sijk sid st Hs c s ltac:(lia)) as D.
  assert (PW : forall a b, part_way (o_sstp o) s a b = b).
  { intros a b. replace s with (o_sstp o - 1)%nat by lia. apply part_way_end, Hs. }
  rewrite !PW in R, T. rewrite PW in D. rewrite sumR_0 in R, T; [|intros j Hj; apply Z; lia|intros j Hj; apply Z; lia].
  rewrite Es. split; [rewrite R; ring|]. split; [rewrite T; ring|]. split.
  - rewrite rhod_after, D. destruct (o_var_rho o); reflexivity.
  - rewrite <- Es. intros k Hk. pose proof (seen_rv o g sijk sid st Hs c k Hk) as [R' _]. pose proof (seen_th o g sijk sid st Hs c k Hk) as [T' _].
    rewrite sumR_0 in R', T'; [|intros j Hj; apply Z; lia|intros j Hj; apply Z; lia]. rewrite R', T'. split; ring.
Qed.

(** C21: in substep [k] the droplets see the old values plus the fraction (k+1)/s of the change made by the host model, plus what
    condensation changed in the previous substeps; after the last substep the whole change has been applied. *)
Theorem C21_percell o allow g sijk sid st st' :
  use_perparticle o = false -> (1 <= o_sstp o)%nat ->
  cond_part o allow g sijk sid st st' ->
  let A k := after o g sijk sid st k in let B k := seen o g sijk sid st k in let s := o_sstp o in
  forall c,
  (forall k, (k < s)%nat ->
    e_rv (s_E (B k)) c = part_way s k (t_rv (s_S st) c) (e_rv (s_E st) c)
                         + sumR k (fun j => e_rv (s_E (A (S j))) c - e_rv (s_E (B j)) c) /\
    e_th (s_E (B k)) c = part_way s k (t_th (s_S st) c) (e_th (s_E st) c)
                         + sumR k (fun j => e_th (s_E (A (S j))) c - e_th (s_E (B j)) c) /\
    e_rhod (s_E (B k)) c = if o_var_rho o then part_way s k (t_rh (s_S st) c) (e_rhod (s_E st) c) else e_rhod (s_E st) c) /\
  e_rv (s_E st') c = e_rv (s_E st) c + sumR s (fun j => e_rv (s_E (A (S j))) c - e_rv (s_E (B j)) c) /\
  e_th (s_E st') c = e_th (s_E st) c + sumR s (fun j => e_th (s_E (A (S j))) c - e_th (s_E (B j)) c) /\
  e_rhod (s_E st') c = e_rhod (s_E st) c.
Proof.
  intros Hu Hs HC A B s c. rewrite (cond_part_percell _ _ _ _ _ _ _ Hu HC).
  destruct (sstp_save_PE o allow (after o g sijk sid st (o_sstp o))) as [_ ->].
  split.
  - intros k Hk. split; [exact (proj1 (seen_rv o g sijk sid st Hs c k Hk))|].
    split; [exact (proj1 (seen_th o g sijk sid st Hs c k Hk))|]. exact (seen_rhod o g sijk sid st Hs c k Hk).
  - assert (Es : exists s, o_sstp o = S s) by (exists (o_sstp o - 1)%nat; lia). destruct Es as [s' Es].
    pose proof (seen_rv o g sijk sid st Hs c s' ltac:(lia)) as [_ R].
    pose proof (seen_th o g sijk sid st Hs c s' ltac:(lia)) as [_ T].
    pose proof (seen_rhod o g sijk sid st Hs c s' ltac:(lia)) as D.
    assert (PW : forall a b, part_way (o_sstp o) s' a b = b).
    { intros a b. replace s' with (o_sstp o - 1)%nat by lia. apply part_way_end, Hs. }
    rewrite !PW in R, T. rewrite PW in D. unfold s. rewrite Es.
    split; [exact R|]. split; [exact T|]. rewrite rhod_after, D. destruct (o_var_rho o); reflexivity.
Qed.

(** C21: the values kept for the next time step are those handed back to the host model. *)
Theorem C21_old_values o g sijk sid st st' : o_exact o = false -> cond_part o true g sijk sid st st' ->
  forall c, t_rv (s_S st') c = e_rv (s_E st') c /\ t_th (s_S st') c = e_th (s_E st') c /\ t_rh (s_S st') c = e_rhod (s_E st') c.
Proof.
  intros Hx H c. assert (K : forall s0, t_rv (s_S (sstp_save o true s0)) c = e_rv (s_E (sstp_save o true s0)) c /\
    t_th (s_S (sstp_save o true s0)) c = e_th (s_E (sstp_save o true s0)) c /\
    t_rh (s_S (sstp_save o true s0)) c = e_rhod (s_E (sstp_save o true s0)) c).
  { intros s0. unfold sstp_save. cbn [s_S s_E t_rv t_th t_rh]. rewrite Hx. repeat split; reflexivity. }
  destruct H; apply K.
Qed.

(** C20 refuted for a density that varies in time and more than one per-cell substep: the water content before growth is computed
    with the density of the first substep and the one after with that of the last, so that total water changes in every cell with
    liquid water, whatever the growth. *)
Theorem C20_variable_density_refuted o allow g sijk sid st st' c :
  use_perparticle o = false -> (1 < o_sstp o)%nat -> o_var_rho o = true -> o_parcel o = false -> o_ice o = false ->
  pop_ok o sijk sid st -> cond_part o allow g sijk sid st st' ->
  (c < e_nc (s_E st))%nat -> 0 < liq_in (s_P st) c -> 0 < t_rh (s_S st) c -> t_rh (s_S st) c <> e_rhod (s_E st) c ->
  total_water o st' c = total_water o st c
    + liq_in (s_P st) c / e_dv (s_E st) c * (1 / part_way (o_sstp o) 0 (t_rh (s_S st) c) (e_rhod (s_E st) c) - 1 / e_rhod (s_E st) c) /\
  total_water o st' c <> total_water o st c.
Proof.
  intros Hu Hs Hv Hp Hi Hok HC Hc HL Ht Hne.
  assert (Hs1 : (1 <= o_sstp o)%nat) by lia.
  pose proof (C21_percell o allow g sijk sid st st' Hu Hs1 HC c) as (_ & _ & _ & RH).
  pose proof (cond_part_percell _ _ _ _ _ _ _ Hu HC) as ES.
  pose proof (total_change o g sijk sid st Hok Hs1 c Hc) as TC. rewrite Hi in TC.
  pose proof (seen_rhod o g sijk sid st Hs1 c 0 ltac:(lia)) as R0. rewrite Hv in R0.
  destruct (sstp_save_PE o allow (after o g sijk sid st (o_sstp o))) as [SP SE]. rewrite <- ES in SP, SE.
  rewrite <- SP, <- SE in TC.
  destruct Hok as (_ & _ & Hr & Hd). destruct (Hd c Hc) as [D1 D2].
  assert (DV : e_dv (s_E st') = e_dv (s_E st)) by (rewrite SE; apply after_frame, Hp).
  assert (Hr' : forall i, 0 <= p_rw2 (s_P st') i) by (rewrite SP; apply (after_frame o g sijk sid st (o_sstp o)), Hr).
  set (r1 := part_way (o_sstp o) 0 (t_rh (s_S st) c) (e_rhod (s_E st) c)) in *.
  assert (Hr1 : 0 < r1 /\ r1 <> e_rhod (s_E st) c).
  { unfold r1, part_way. change (INR 1) with 1. assert (Hi2 : 1 < INR (o_sstp o)) by (apply lt_1_INR; lia).
    set (s := INR (o_sstp o)) in *. set (t := t_rh (s_S st) c) in *. set (h := e_rhod (s_E st) c) in *.
    assert (Hs0 : 0 < / s < 1) by (split; [apply Rinv_0_lt_compat; lra|rewrite <- Rinv_1; apply Rinv_lt_contravar; lra]).
    replace (1 / s) with (/ s) by lra. set (u := / s) in *. clearbody u s t h. split.
    - nra.
    - intros E. apply Hne. assert ((1 - u) * (t - h) = 0) by lra. nra. }
  assert (Q0 : total_water o st c = e_rv (s_E st) c + drop_mlt * Wet o (s_P st) (s_E st) c).
  { unfold total_water. rewrite Wet_q by assumption. unfold q_ice. rewrite Hi. ring. }
  assert (Q1 : total_water o st' c = e_rv (s_E st') c + drop_mlt * Wet o (s_P st') (s_E st') c).
  { unfold total_water. rewrite Wet_q; [|assumption|rewrite RH; assumption|rewrite DV; assumption]. unfold q_ice. rewrite Hi. ring. }
  set (L := liq_in (s_P st) c) in *. set (dv := e_dv (s_E st) c) in *.
  assert (QL : drop_mlt * Wet o (s_P st) (s_E st) c = L / (e_rhod (s_E st) c * dv)).
  { rewrite <- Wet_q by assumption. unfold q_liq, air_in. rewrite Hp. reflexivity. }
  assert (QL1 : drop_mlt * Wet o (s_P st) (s_E (seen o g sijk sid st 0)) c = L / (r1 * dv)).
  { rewrite <- R0. rewrite <- Wet_q; [|assumption|rewrite R0; tauto|rewrite dv_seen by exact Hp; assumption].
    unfold q_liq, air_in. rewrite Hp, dv_seen by exact Hp. reflexivity. }
  assert (EQ : total_water o st' c = total_water o st c + L / dv * (1 / r1 - 1 / e_rhod (s_E st) c)).
  { rewrite Q1, Q0, TC, QL.
    replace (L / dv * (1 / r1 - 1 / e_rhod (s_E st) c)) with (L / (r1 * dv) - L / (e_rhod (s_E st) c * dv)) by (field; lra).
    rewrite <- QL1. ring. }
  split; [exact EQ|]. rewrite EQ. intros X.
  assert (Z : L / dv * (1 / r1 - 1 / e_rhod (s_E st) c) = 0) by lra.
  apply Rmult_integral in Z. destruct Z as [Z|Z].
  - assert (0 < L / dv) by (apply Rdiv_lt_0_compat; assumption). lra.
  - destruct Hr1 as [Hr1 Hr2]. apply Hr2. assert (Q : / r1 = / e_rhod (s_E st) c) by lra.
    apply (f_equal Rinv) in Q. rewrite !Rinv_inv in Q. exact Q.
Qed.

Print Assumptions C20_percell_water.
Print Assumptions C20_percell_heat.
Print Assumptions C20_percell_empty.
Print Assumptions C21_percell.
Print Assumptions C21_old_values.
Print Assumptions C20_variable_density_refuted.
