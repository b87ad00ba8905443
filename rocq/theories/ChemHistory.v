(** C69 over many steps: gases come from the host at each step, and go back to it (src/particles_step.ipp:146-155, 319-327, 365-372) *)
From Coq Require Import List Arith NArith ZArith Reals Bool Lia Lra Psatz.
From Verif Require Import Base BaseProofs ThermoModel MomsModel MomsProofs TomsModel ChemModel ChemStep.
Import ListNotations.
Local Open Scope R_scope.

(** sync_in of the six trace gases (particles_step.ipp:146-155) *)
Definition gas_sync_in (host : nat -> nat -> R) (s : chst) : chst := set_amb s (fun g c => if (g <? 6)%nat then host g c else h_amb s g c).
(** sync out (particles_step.ipp:319-327): arrays of the host after step_cond *)
Definition gas_sync_out (dsl : bool) (s : chst) (host : nat -> nat -> R) : nat -> nat -> R :=
  fun g c => if dsl && (g <? 6)%nat then h_amb s g c else host g c.
(** the part of step_async (particles_step.ipp:365-372); [dsl] of its own options *)
Definition gas_async (allow dsl : bool) (s : chst) : chst := if dsl then sstp_save_chem allow s else s.
(** init_percell_sstp_chem (sstp_chem.ipp:35-51) *)
Definition gas_init (allow : bool) (host : nat -> nat -> R) (s : chst) : chst := sstp_save_chem allow (gas_sync_in host s).

(** ** specification of a history: step n starts from state [b n]; the host gives [hin n] and gets [hout n]; what other processes do to droplets and air between
    the steps is free, but they leave gases alone *)
Record run (allow var_rho : bool) (o : nat -> chopts) (sorts : nat -> nat -> list nat * list nat) (hin hout : nat -> nat -> nat -> R)
    (b m : nat -> chst) : Prop := {
  run_opts : forall n, ho_allow (o n) = allow /\ ho_var_rho (o n) = var_rho;
  run_init : exists s h0, h_amb (b 0%nat) = h_amb (gas_init allow h0 s) /\ h_tmp (b 0%nat) = h_tmp (gas_init allow h0 s) /\ hout 0%nat = h0;
  run_step : forall n, chem_step (o n) (sorts n) (gas_sync_in (hin n) (b n)) = Some (m n);
  run_out : forall n, hout (S n) = gas_sync_out (ho_dsl (o n)) (m n) (hin n);
  run_next : forall n, h_amb (b (S n)) = h_amb (gas_async allow (ho_dsl (o n)) (m n)) /\ h_tmp (b (S n)) = h_tmp (gas_async allow (ho_dsl (o n)) (m n))
}.
(** states within step n *)
Definition within o sorts hin (b : nat -> chst) n st : Prop := trajectory (o n) (sorts n) (gas_sync_in (hin n) (b n)) (ho_sstp (o n)) st.
Definition air_ok (s : chst) : Prop := forall c, 0 < h_rhod s c /\ 0 < h_dv s c.

(** C69: in every step but those after a step without dissolution, in a cell without droplets, gases go from what the host got last to what it gives now in equal
    parts (missing: ozone without variable density, a step after one without dissolution) *)
Theorem C69_history_partial allow var_rho o sorts hin hout b m n st g c :
  run allow var_rho o sorts hin hout b m -> within o sorts hin b n st -> sorts_ok (b n) (sorts n) -> air_ok (b n) ->
  allow = true -> ho_dsl (o n) = true -> (forall k, n = S k -> ho_dsl (o k) = true) -> (g < 6)%nat -> (var_rho = true \/ g <> O3) ->
  (forall i, (i < h_np (b n))%nat -> h_ijk (b n) i <> c) ->
  forall k, (1 <= k <= ho_sstp (o n))%nat ->
  h_amb (st k) g c = hout n g c + INR k / INR (ho_sstp (o n)) * (hin n g c - hout n g c).
Proof.
  intros [Ro Ri Rs Rout Rn] HT Hs Ha Hal Hd Hd' Hg Hv He k Hk. destruct (Ro n) as (A1 & A2).
  assert (Hlt : (g <? 6)%nat = true) by (apply Nat.ltb_lt; exact Hg).
  assert (E : h_tmp (b n) g c = hout n g c).
  { destruct n as [|n].
    - destruct Ri as (s & h0 & _ & R2 & R3). rewrite R2, R3. unfold gas_init, sstp_save_chem. rewrite Hal. cbn [negb]. unfold gas_sync_in, set_tmp, set_amb. cbn [h_tmp h_amb]. rewrite Hlt. reflexivity.
    - destruct (Rn n) as (_ & R2). rewrite R2, Rout. specialize (Hd' n eq_refl). rewrite Hd'. unfold gas_async, sstp_save_chem, gas_sync_out. rewrite Hal. cbn [negb andb]. unfold set_tmp. cbn [h_tmp]. rewrite Hlt. reflexivity. }
  rewrite (C69_spread_partial (o n) (sorts n) (gas_sync_in (hin n) (b n)) st g c HT Hs Ha Hd); [|rewrite A1; exact Hal|exact Hg|rewrite A2; exact Hv|exact He|exact Hk].
  unfold gas_sync_in, set_amb. cbn [h_tmp h_amb]. rewrite Hlt, E. reflexivity.
Qed.
(** C69 refuted when dissolution was off in the step before: the gas first goes back to the value of the last step with dissolution, not to the one the host
    has had since.  With 2 and more substeps and a host that gives the same value in both steps, the value in the first substep is not the one of the host. *)
Theorem C69_pause_refuted allow var_rho o sorts hin hout b m n st g c :
  run allow var_rho o sorts hin hout b m -> within o sorts hin b (S (S n)) st -> sorts_ok (b (S (S n))) (sorts (S (S n))) -> air_ok (b (S (S n))) ->
  allow = true -> ho_dsl (o n) = true -> ho_dsl (o (S n)) = false -> ho_dsc (o (S n)) = false -> ho_rct (o (S n)) = false -> ho_dsl (o (S (S n))) = true -> (g < 5)%nat ->
  (forall i, (i < h_np (b (S (S n))))%nat -> h_ijk (b (S (S n))) i <> c) -> (2 <= ho_sstp (o (S (S n))))%nat ->
  hin (S n) g c = hin (S (S n)) g c -> hin (S n) g c <> hout (S n) g c ->
  h_amb (st 1%nat) g c = hout (S n) g c + 1 / INR (ho_sstp (o (S (S n)))) * (hin (S (S n)) g c - hout (S n) g c) /\
  h_amb (st 1%nat) g c <> hin (S (S n)) g c.
Proof.
  intros [Ro Ri Rs Rout Rn] HT Hs Ha Hal D0 D1 D1' D1'' D2 Hg He HN Hsame Hdiff. destruct (Ro (S (S n))) as (A1 & A2).
  assert (Hlt : (g <? 6)%nat = true) by (apply Nat.ltb_lt; lia).
  assert (E : h_tmp (b (S (S n))) g c = hout (S n) g c).
  { destruct (Rn (S n)) as (_ & R2). rewrite R2, D1. unfold gas_async.
    specialize (Rs (S n)). unfold chem_step in Rs. rewrite D1, D1', D1'' in Rs. cbn [orb] in Rs. injection Rs as Em. rewrite <- Em. unfold gas_sync_in at 1, set_amb. cbn [h_tmp].
    destruct (Rn n) as (_ & R3). rewrite R3, Rout, D0. unfold gas_async, sstp_save_chem, gas_sync_out. rewrite Hal. cbn [negb andb]. unfold set_tmp. cbn [h_tmp]. rewrite Hlt. reflexivity. }
  assert (F : h_amb (st 1%nat) g c = hout (S n) g c + 1 / INR (ho_sstp (o (S (S n)))) * (hin (S (S n)) g c - hout (S n) g c)).
  { rewrite (C69_spread_partial (o (S (S n))) (sorts (S (S n))) (gas_sync_in (hin (S (S n))) (b (S (S n)))) st g c HT Hs Ha D2); [|rewrite A1; exact Hal|lia|right; unfold O3; lia|exact He|lia].
    unfold gas_sync_in, set_amb. cbn [h_tmp h_amb]. rewrite Hlt, E. change (INR 1) with 1. reflexivity. }
  split; [exact F|]. rewrite F. rewrite <- Hsame. assert (2 <= INR (ho_sstp (o (S (S n))))) by (replace 2 with (INR 2) by (cbn; lra); apply le_INR; lia).
  set (N := INR (ho_sstp (o (S (S n))))) in *. clearbody N. set (x := hin (S n) g c) in *. set (y := hout (S n) g c) in *. clearbody x y. intros Q. apply Hdiff.
  assert (Q2 : (1 - 1 / N) * (x - y) = 0) by lra. apply Rmult_integral in Q2. destruct Q2 as [Q2|Q2]; [|lra].
  assert (1 / N <= 1 / 2); [|lra]. unfold Rdiv. rewrite !Rmult_1_l. apply Rinv_le_contravar; lra.
Qed.
(** histories exist for all options (with chemistry switched on) and everything the host may give *)
Theorem C69_history_instance allow var_rho o sorts hin (h0 : nat -> nat -> R) (s : chst) :
  (forall n, ho_switch (o n) = true /\ ho_allow (o n) = allow /\ ho_var_rho (o n) = var_rho) ->
  exists hout b m, run allow var_rho o sorts hin hout b m /\ forall n, exists st, (ho_dsl (o n) = true -> within o sorts hin b n st).
Proof.
  intros H.
  pose (F := fun n t => match chem_step (o n) (sorts n) (gas_sync_in (hin n) t) with Some x => x | None => t end).
  assert (FE : forall n t, chem_step (o n) (sorts n) (gas_sync_in (hin n) t) = Some (F n t)).
  { intros n t. destruct (H n) as (Hs & _). destruct (proj2 (proj2 (C69_switch (o n) (sorts n) (gas_sync_in (hin n) t))) Hs) as (s' & E). unfold F. rewrite E. reflexivity. }
  pose (b := fix b n := match n with O => gas_init allow h0 s | S k => gas_async allow (ho_dsl (o k)) (F k (b k)) end).
  exists (fun n => match n with O => h0 | S k => gas_sync_out (ho_dsl (o k)) (F k (b k)) (hin k) end), b, (fun n => F n (b n)). split.
  - constructor.
    + intros n. apply H.
    + exists s, h0. repeat split.
    + intros n. apply FE.
    + intros n. reflexivity.
    + intros n. split; reflexivity.
  - intros n. specialize (FE n (b n)). unfold chem_step in FE. destruct (ho_dsl (o n)) eqn:Ed.
    + cbn [orb] in FE. destruct (loop_trajectory _ _ _ _ _ _ FE) as (st & A & B & C). exists st. intros _. split; [exact A|]. intros k Hk. apply C. lia.
    + exists (fun _ => b n). discriminate.
Qed.

Print Assumptions C69_history_partial.
Print Assumptions C69_pause_refuted.
Print Assumptions C69_history_instance.
