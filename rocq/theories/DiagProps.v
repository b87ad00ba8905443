(** C25, C26, C55: diagnostics. *)
From Coq Require Import List Arith NArith ZArith Lia Reals Lra Bool Permutation Sorted.
From Verif Require Import Base BaseProofs HskpngModel SpaceModel ThermoModel ThermoProofs TomsModel CondModel KoehlerModel KoehlerProps
  MomsModel MomsProofs CondPassModel CondPassProofs CondProps DiagModel.
Import ListNotations.
Local Open Scope R_scope.

(** ** specification *)
(** attribute of a super-droplet as the user knows it: radii, not their powers *)
Definition dry_radius (P : parts) (i : nat) : R := cbrt (p_rd3 P i).
Definition wet_radius (P : parts) (i : nat) : R := sqrt (p_rw2 P i).
Definition rng_value (P : parts) (a : rng_attr) (i : nat) : R :=
  match a with r_dry => dry_radius P i | r_wet => wet_radius P i | r_ice_a => p_ia P i | r_ice_c => p_ic P i | r_kappa => p_kpa P i end.
Definition mom_value (X : xattr) (P : parts) (a : mom_attr) (i : nat) : R :=
  match a with
  | m_dry => dry_radius P i | m_wet => wet_radius P i | m_ice_a => p_ia P i | m_ice_c => p_ic P i | m_kappa => p_kpa P i
  | m_up => x_up X i | m_vp => x_vp X i | m_wp => x_wp X i | m_ict => x_ict X i
  end.
Definition is_radius (a : rng_attr) : bool := match a with r_dry | r_wet => true | _ => false end.

(** the selection after a call, given the one before it *)
Definition both (b : bool) (x : bool) : bool := if b then x else false.
Definition within (lo hi x : R) : bool := if Rle_dec lo x then if Rlt_dec x hi then true else false else false.
Definition positive (x : R) : bool := if Rlt_dec 0 x then true else false.
Definition at_least (x c : R) : bool := if Rle_dec c x then true else false.
Definition select (p : fptype) (P : parts) (E : cells) (c : call) (S : nat -> bool) : nat -> bool :=
  match c with
  | c_all | c_precip_ice => fun _ => true
  | c_rng a further lo hi => fun i => both (if further then S i else true) (within lo hi (rng_value P a i))
  | c_ice further => fun i => both (if further then S i else true) (positive (p_ia P i))
  | c_water further => fun i => both (if further then S i else true) (positive (wet_radius P i))
  | c_RH_ge_Sc => fun i => at_least (e_RH E (p_ijk P i)) (S_cr p (p_rd3 P i) (p_kpa P i) (e_T E (p_ijk P i)))
  | c_rw_ge_rc => fun i => at_least (wet_radius P i) (cbrt (rw3_cr p (p_rd3 P i) (p_kpa P i) (e_T E (p_ijk P i))))
  | _ => S
  end.
(** the selection after a sequence of calls *)
Fixpoint selected (o : dopts) X fall sijk sid (cs : list call) (st : dst) (S : nat -> bool) : nat -> bool :=
  match cs with
  | [] => S
  | c :: r => match diag o X fall sijk sid c st with
              | Some st' => selected o X fall sijk sid r st' (select (d_fp o) (g_P st) (g_E st) c S)
              | None => S
              end
  end.
(** a call that starts a new selection *)
Definition starts (c : call) : Prop :=
  match c with c_all | c_rng _ false _ _ | c_ice false | c_water false | c_RH_ge_Sc | c_rw_ge_rc => True | _ => False end.
(** ranges of radii do not start below zero *)
Definition range_ok (c : call) : Prop := match c with c_rng a _ lo hi => is_radius a = true -> 0 <= lo /\ 0 <= hi | _ => True end.

(** an admissible state *)
Definition diag_ok (sijk sid : list nat) (st : dst) : Prop :=
  let P := g_P st in let E := g_E st in
  sorted_pop (p_np P) (p_ijk P) sijk sid /\
  (forall i, (i < p_np P)%nat -> (p_ijk P i < e_nc E)%nat) /\
  (forall i, 0 <= p_rw2 P i) /\ (forall i, 0 <= p_rd3 P i) /\
  (forall c, (c < e_nc E)%nat -> 0 < e_rhod E c /\ 0 < e_dv E c).
(** sum over the selected super-droplets of a cell *)
Definition sum_selected (P : parts) (S : nat -> bool) (w : nat -> R) (c : nat) : R :=
  cellsum (p_np P) (p_ijk P) (fun i => if S i then w i else 0) c.

(** ** selections *)
Definition holds (st : dst) (S : nat -> bool) : Prop := forall i, g_sel st i = if S i then N2R (p_n (g_P st) i) else 0.

Lemma sq_le x y : 0 <= x -> 0 <= y -> (x ^ 2 <= y <-> x <= sqrt y).
Proof.
  intros Hx Hy. split; intros H.
  - rewrite <- (sqrt_pow2 x Hx). apply sqrt_le_1_alt, H.
  - replace y with (sqrt y ^ 2) by (rewrite pow2_sqrt; auto). apply pow_incr. split; assumption.
Qed.
Lemma cube_le x y : 0 <= x -> 0 <= y -> (x ^ 3 <= y <-> x <= cbrt y).
Proof.
  intros Hx Hy. destruct (cbrt_cube_nonneg y Hy) as [H0 H3]. split; intros H.
  - apply Rnot_lt_le. intros L. pose proof (cube_lt (cbrt y) x H0 L). lra.
  - assert (E : cbrt y ^ 3 = y) by (transitivity (cbrt y * cbrt y * cbrt y); [ring|exact H3]).
    rewrite <- E. apply pow_incr. split; assumption.
Qed.
Lemma range_value P a lo hi i n : 0 <= p_rw2 P i -> 0 <= p_rd3 P i -> (is_radius a = true -> 0 <= lo /\ 0 <= hi) ->
  range_filter (rng_bound a lo) (rng_bound a hi) n (rng_vec P a i) = if within lo hi (rng_value P a i) then n else 0.
Proof.
  intros Hw Hd Hr. unfold range_filter, within.
  assert (K : forall b, (is_radius a = true -> 0 <= b) -> (rng_bound a b <= rng_vec P a i <-> b <= rng_value P a i)).
  { intros b Hb. destruct a; cbn [rng_bound rng_vec rng_value is_radius] in *; try reflexivity.
    - apply cube_le; [apply Hb; reflexivity|exact Hd].
    - apply sq_le; [apply Hb; reflexivity|exact Hw]. }
  assert (K1 := K lo (fun H => proj1 (Hr H))). assert (K2 := K hi (fun H => proj2 (Hr H))). clear K.
  destruct (Rle_dec lo (rng_value P a i)) as [L|L].
  - replace (Rleb (rng_bound a lo) (rng_vec P a i)) with true by (symmetry; apply Rleb_true; tauto). cbn [andb].
    destruct (Rlt_dec (rng_value P a i) hi) as [L'|L'].
    + replace (Rltb (rng_vec P a i) (rng_bound a hi)) with true; [reflexivity|]. symmetry. apply Rltb_true.
      apply Rnot_le_lt. intros H. apply K2 in H. lra.
    + replace (Rltb (rng_vec P a i) (rng_bound a hi)) with false; [reflexivity|]. symmetry. apply Rltb_false. apply K2. lra.
  - replace (Rleb (rng_bound a lo) (rng_vec P a i)) with false; [reflexivity|]. symmetry. apply Rleb_false.
    apply Rnot_le_lt. intros H. apply L, K1, H.
Qed.

Lemma gt0_value n x : gt0_filter n x = if positive x then n else 0.
Proof.
  unfold gt0_filter, positive. destruct (Rlt_dec 0 x) as [H|H].
  - replace (Rltb 0 x) with true by (symmetry; apply Rltb_true, H). reflexivity.
  - replace (Rltb 0 x) with false by (symmetry; apply Rltb_false; lra). reflexivity.
Qed.
Lemma positive_sqrt w : 0 <= w -> positive (sqrt w) = positive w.
Proof.
  intros H. unfold positive. destruct (Rlt_dec 0 w) as [L|L].
  - destruct (Rlt_dec 0 (sqrt w)) as [_|N]; [reflexivity|]. exfalso. apply N, sqrt_lt_R0, L.
  - assert (w = 0) by lra. subst. rewrite sqrt_0. destruct (Rlt_dec 0 0); [lra|reflexivity].
Qed.
Lemma both_value (b : bool) (s q : bool) (x n : R) : x = (if (if b then s else true) then n else 0) ->
  (if q then x else 0) = if both (if b then s else true) q then n else 0.
Proof. intros ->. unfold both. destruct b, s, q; reflexivity. Qed.

Lemma rc_value w c : 0 <= w -> (cpow c (2 / 3) <= w <-> cbrt c <= sqrt w).
Proof.
  intros H. destruct (Rlt_dec 0 c) as [Hc|Hc].
  - rewrite two_thirds by exact Hc. destruct (cbrt_pos c Hc) as [C _]. rewrite <- (sq_le (cbrt c) w) by lra.
    replace (cbrt c ^ 2) with (cbrt c * cbrt c) by ring. reflexivity.
  - assert (A : cpow c (2 / 3) = 0).
    { unfold cpow. destruct (Rlt_dec 0 c); [contradiction|]. destruct (Req_EM_T (2 / 3) 0); lra. }
    assert (B : cbrt c <= 0).
    { unfold cbrt. destruct (Rlt_dec 0 c); [contradiction|]. destruct (Rlt_dec c 0); [|lra]. unfold Rpower. pose proof (exp_pos (/ 3 * ln (- c))). lra. }
    rewrite A. pose proof (sqrt_pos w). split; intros; lra.
Qed.
Lemma at_least_comp n x c x' c' : (c <= x <-> c' <= x') -> comp_filter n x c = if at_least x' c' then n else 0.
Proof.
  intros K. unfold comp_filter, at_least. destruct (Rle_dec c' x') as [L|L].
  - replace (Rleb c x) with true by (symmetry; apply Rleb_true, K, L). reflexivity.
  - replace (Rleb c x) with false; [reflexivity|]. symmetry. apply Rleb_false, Rnot_le_lt. intros H. apply L, K, H.
Qed.
Lemma at_least_ge0 n x c : ge0_filter n (x - c) = if at_least x c then n else 0.
Proof.
  unfold ge0_filter, at_least. destruct (Rle_dec c x) as [L|L].
  - replace (Rleb 0 (x - c)) with true by (symmetry; apply Rleb_true; lra). reflexivity.
  - replace (Rleb 0 (x - c)) with false; [reflexivity|]. symmetry. apply Rleb_false. lra.
Qed.

Section Run.
  Variables (o : dopts) (X : xattr) (fall : parts -> cells -> nat -> R) (sijk sid : list nat).
  Let D := diag o X fall sijk sid.

  (** what calls do not change: everything but fall speeds (changed by the precipitation rates only), temperature, pressure, relative
      humidity and viscosity, which are recomputed from potential temperature, vapour and density; in a parcel also the volume of the
      cell, recomputed from density *)
  Definition precip_call (c : call) : bool := match c with c_precip | c_precip_ice => true | _ => false end.
  Definition field_call (c : call) : bool := match c with c_pressure | c_temperature | c_RH => true | _ => false end.
  Lemma diag_frame c st st' : D c st = Some st' ->
    (precip_call c = false -> g_P st' = g_P st) /\ (precip_call c = true -> g_P st' = set_vt (g_P st) (fall (g_P st) (g_E st))) /\
    (field_call c = false -> g_E st' = g_E st) /\ (field_call c = true -> g_E st' = hskpng_Tpr (d_o o) (g_E st)).
  Proof.
    unfold D, diag. intros H.
    destruct c as [|a f lo hi|f|f| | |a k| | | | | |rad sg| | | |s]; cbn [precip_call field_call];
      try (injection H as <-; repeat split; intros; try discriminate; reflexivity).
    - destruct (needs_ice a && negb (o_ice (d_o o))); [discriminate|]. injection H as <-. repeat split; intros; try discriminate; reflexivity.
    - destruct (o_ice (d_o o)); [|discriminate]. injection H as <-. repeat split; intros; try discriminate; reflexivity.
    - assert (H' : st' = calc o sijk sid true st (mom_vec X (g_P st) a) (mom_power a k) \/ st' = st).
      { destruct a; try (injection H as <-; left; reflexivity); [destruct (o_ice (d_o o))|destruct (o_ice (d_o o))|destruct (d_ict o)];
          try discriminate; injection H as <-; auto. }
      destruct H' as [-> | ->]; repeat split; intros; try discriminate; reflexivity.
    - destruct (o_ice (d_o o)); [|discriminate]. injection H as <-. repeat split; intros; try discriminate; reflexivity.
    - destruct (o_ice (d_o o)); [|discriminate]. injection H as <-. repeat split; intros; try discriminate; reflexivity.
    - destruct (d_chem o); [|discriminate]. injection H as <-. repeat split; intros; try discriminate; reflexivity.
  Qed.

  Lemma diag_ok_step c st st' : (o_parcel (d_o o) = true -> forall k, (k < e_nc (g_E st))%nat -> 0 < e_rhod (g_E st) k) ->
    diag_ok sijk sid st -> D c st = Some st' -> diag_ok sijk sid st'.
  Proof.
    intros _ H HD. destruct (diag_frame c st st' HD) as (F1 & F2 & F3 & F4). destruct H as (A1 & A2 & A3 & A4 & A5).
    assert (HP : p_np (g_P st') = p_np (g_P st) /\ p_ijk (g_P st') = p_ijk (g_P st) /\ p_rw2 (g_P st') = p_rw2 (g_P st) /\ p_rd3 (g_P st') = p_rd3 (g_P st)).
    { destruct (precip_call c); [rewrite F2 by reflexivity|rewrite F1 by reflexivity]; repeat split; reflexivity. }
    assert (HE : e_nc (g_E st') = e_nc (g_E st) /\ e_rhod (g_E st') = e_rhod (g_E st) /\
      (e_dv (g_E st') = e_dv (g_E st) \/ e_dv (g_E st') = fun c => 1 / e_rhod (g_E st) c)).
    { destruct (field_call c); [rewrite F4 by reflexivity|rewrite F3 by reflexivity].
      - cbn [hskpng_Tpr e_nc e_rhod e_dv]. destruct (o_parcel (d_o o)); repeat split; auto.
      - repeat split; auto. }
    destruct HP as (P1 & P2 & P3 & P4). destruct HE as (E1 & E2 & E3). unfold diag_ok. rewrite P1, P2, P3, P4, E1, E2.
    repeat split; auto; intros; [apply A5; assumption|]. destruct (A5 c0 H) as [B1 B2].
    destruct E3 as [-> | ->]; [exact B2|]. apply Rdiv_lt_0_compat; lra.
  Qed.

  Lemma select_step c st st' S : diag_ok sijk sid st -> range_ok c -> D c st = Some st' -> holds st S \/ starts c ->
    holds st' (select (d_fp o) (g_P st) (g_E st) c S).
  Proof.
    intros (_ & _ & Hw & Hd & _) Hr H HS. unfold D, diag in H.
    assert (Hbase : forall f, (f = false \/ holds st S) -> forall i, base_sel f st i = if (if f then S i else true) then N2R (p_n (g_P st) i) else 0).
    { intros f Hf i. unfold base_sel. destruct f; [destruct Hf as [Hf|Hf]; [discriminate|apply Hf]|reflexivity]. }
    assert (HF : forall f : bool, holds st S \/ (if f then False else True) -> f = false \/ holds st S).
    { intros [|] [K|K]; auto; contradiction. }
    assert (Hkeep : forall st1, g_sel st1 = g_sel st -> p_n (g_P st1) = p_n (g_P st) -> holds st S -> holds st1 S).
    { intros st1 E1 E2 K i. rewrite E1, E2. apply K. }
    destruct c as [|a f lo hi|f|f| | |a k| | | | | |rad sg| | | |s]; cbn [starts select] in *.
    - injection H as <-. intros i. reflexivity.
    - destruct (needs_ice a && negb (o_ice (d_o o))); [discriminate|]. injection H as <-. intros i. cbn [g_sel set_sel g_P].
      rewrite range_value by auto. apply both_value. apply Hbase, HF. destruct f; exact HS.
    - destruct (o_ice (d_o o)); [|discriminate]. injection H as <-. intros i. cbn [g_sel set_sel g_P]. rewrite gt0_value.
      apply both_value. apply Hbase, HF. destruct f; exact HS.
    - injection H as <-. intros i. cbn [g_sel set_sel g_P]. rewrite gt0_value. unfold wet_radius. rewrite positive_sqrt by apply Hw.
      apply both_value. apply Hbase, HF. destruct f; exact HS.
    - injection H as <-. intros i. cbn [g_sel set_sel g_P]. apply at_least_ge0.
    - injection H as <-. intros i. cbn [g_sel set_sel g_P]. apply at_least_comp. apply rc_value, Hw.
    - destruct HS as [HS|[]].
      assert (H' : st' = calc o sijk sid true st (mom_vec X (g_P st) a) (mom_power a k) \/ st' = st).
      { destruct a; try (injection H as <-; left; reflexivity); [destruct (o_ice (d_o o))|destruct (o_ice (d_o o))|destruct (d_ict o)];
          try discriminate; injection H as <-; auto. }
      destruct H' as [-> | ->]; [apply Hkeep; auto|exact HS].
    - destruct HS as [HS|[]]. destruct (o_ice (d_o o)); [|discriminate]. injection H as <-. apply Hkeep; auto.
    - destruct HS as [HS|[]]. injection H as <-. apply Hkeep; auto.
    - destruct HS as [HS|[]]. injection H as <-. apply Hkeep; auto.
    - destruct HS as [HS|[]]. injection H as <-. apply Hkeep; auto.
    - destruct (o_ice (d_o o)); [|discriminate]. injection H as <-. intros i. reflexivity.
    - destruct HS as [HS|[]]. injection H as <-. apply Hkeep; auto.
    - destruct HS as [HS|[]]. injection H as <-. apply Hkeep; auto.
    - destruct HS as [HS|[]]. injection H as <-. apply Hkeep; auto.
    - destruct HS as [HS|[]]. injection H as <-. apply Hkeep; auto.
    - destruct HS as [HS|[]]. destruct (d_chem o); [|discriminate]. injection H as <-. apply Hkeep; auto.
  Qed.

  Lemma selection_from cs st st' S : diag_ok sijk sid st -> Forall range_ok cs -> diags o X fall sijk sid cs st = Some st' -> holds st S ->
    holds st' (selected o X fall sijk sid cs st S) /\ diag_ok sijk sid st'.
  Proof.
    revert st S. induction cs as [|c r IH]; intros st S Hok Hr H HS; cbn [diags selected] in *.
    - injection H as <-. auto.
    - inversion Hr as [|? ? R1 R2]; subst. destruct (diag o X fall sijk sid c st) as [st1|] eqn:E; [|discriminate].
      apply (IH st1); auto.
      + apply (diag_ok_step c st); auto. intros _ k Hk. apply Hok, Hk.
      + apply (select_step c st); auto.
  Qed.
End Run.

(** ** C25: selections *)
(** C25: after any sequence of calls that starts with a fresh selection, the weights of super-droplets are their multiplicities for the selected
    ones and zero for the others *)
Theorem C25_selection o X fall sijk sid c r st st' S0 :
  diag_ok sijk sid st -> Forall range_ok (c :: r) -> starts c -> diags o X fall sijk sid (c :: r) st = Some st' ->
  forall i, g_sel st' i = if selected o X fall sijk sid (c :: r) st S0 i then N2R (p_n (g_P st') i) else 0.
Proof.
  intros Hok Hr Hc H. cbn [diags selected] in *. inversion Hr as [|? ? R1 R2]; subst.
  destruct (diag o X fall sijk sid c st) as [st1|] eqn:E; [|discriminate].
  apply (selection_from o X fall sijk sid r st1 st'); auto.
  - apply (diag_ok_step o X fall sijk sid c st); auto. intros _ k Hk. apply Hok, Hk.
  - apply (select_step o X fall sijk sid c st); auto.
Qed.
(** the selection does not depend on what was selected before the fresh selection *)
Theorem C25_fresh o X fall sijk sid c r st S S' i : starts c ->
  selected o X fall sijk sid (c :: r) st S i = selected o X fall sijk sid (c :: r) st S' i \/ diag o X fall sijk sid c st = None.
Proof.
  intros Hc. cbn [selected]. destruct (diag o X fall sijk sid c st) as [st1|]; [left|right; reflexivity].
  f_equal. destruct c as [|a [|] lo hi|[|]|[|]| | |a k| | | | | |rad sg| | | |s]; cbn [starts] in Hc; try contradiction; reflexivity.
Qed.

(** ** what outbuf returns *)
Fixpoint runs (keys : list nat) : list nat :=
  match keys with [] => [] | k :: r => match runs r with k' :: t => if (k =? k')%nat then k' :: t else k :: k' :: t | [] => [k] end end.
Lemma run_sums_keys keys vals : length keys = length vals -> map fst (run_sums keys vals) = runs keys.
Proof.
  revert vals. induction keys as [|k keys IH]; intros [|v vals] H; cbn in *; try lia; [reflexivity|].
  specialize (IH vals ltac:(lia)). destruct (run_sums keys vals) as [|(k', s) rest]; cbn in IH; rewrite <- IH; [reflexivity|].
  destruct (Nat.eqb k k'); reflexivity.
Qed.
Lemma run_max_keys keys vals : length keys = length vals -> map fst (run_max keys vals) = runs keys.
Proof.
  revert vals. induction keys as [|k keys IH]; intros [|v vals] H; cbn in *; try lia; [reflexivity|].
  specialize (IH vals ltac:(lia)). destruct (run_max keys vals) as [|(k', s) rest]; cbn in IH; rewrite <- IH; [reflexivity|].
  destruct (Nat.eqb k k'); reflexivity.
Qed.

Lemma put_read {A B} (l : list (A * B)) f g :
  map (fun k => (put (map fst l) f k, put (map snd l) g k)) (seq 0 (length l)) = l.
Proof.
  revert f g. induction l as [|(a, b) l IH]; intros f g; [reflexivity|]. cbn [length seq map]. f_equal.
  rewrite <- seq_shift, map_map. etransitivity; [|apply (IH (fun k => f (S k)) (fun k => g (S k)))]. apply map_ext. intros k. reflexivity.
Qed.
Lemma outbuf_set_mom st kvs c : fill_outbuf (set_mom st kvs) c = scatter (fun _ v => v) kvs (fun _ => 0) c.
Proof. unfold fill_outbuf, set_mom. cbn [g_cijk g_cmom g_cn]. rewrite put_read. reflexivity. Qed.

Lemma cpow_root x y r k : 0 <= x -> (0 < x -> Rpower x y = r) -> (x = 0 -> r = 0) -> 0 < y -> cpow x (INR k * y) = r ^ k.
Proof.
  intros H H1 H0 Hy. unfold cpow. destruct (Rlt_dec 0 x) as [L|L].
  - rewrite <- (H1 L). rewrite <- Rpower_pow by (unfold Rpower; apply exp_pos). rewrite Rpower_mult. f_equal. ring.
  - rewrite H0 by lra. destruct k as [|k].
    + rewrite Rmult_0_l. destruct (Req_EM_T 0 0); [reflexivity|lra].
    + rewrite pow_i by lia. destruct (Req_EM_T (INR (S k) * y) 0) as [E|]; [|reflexivity].
      apply Rmult_integral in E. pose proof (lt_0_INR (S k) ltac:(lia)). lra.
Qed.
Lemma truncZ_INR k : truncZ (INR k) = Z.of_nat k.
Proof.
  unfold truncZ. destruct (Rle_dec 0 (INR k)) as [_|N]; [|exfalso; apply N, pos_INR].
  unfold Int_part. rewrite INR_IZR_INZ. rewrite <- (tech_up (IZR (Z.of_nat k)) (Z.of_nat k + 1)); [lia| |]; rewrite plus_IZR; lra.
Qed.

Lemma moment_value X P a k i n : 0 <= p_rw2 P i -> 0 <= p_rd3 P i ->
  moment_counter (mom_power a k) n (mom_vec X P a i) = n * mom_value X P a i ^ k.
Proof.
  intros Hw Hd. unfold moment_counter.
  assert (G : forall x, (if Rleb 0 x then n * cpow x (INR k) else n * powerRZ x (truncZ (INR k))) = n * x ^ k).
  { intros x. destruct (Rleb 0 x) eqn:E.
    - apply Rleb_true in E. rewrite <- (Rmult_1_r (INR k)). rewrite (cpow_root x 1 x) by (try lra; intros; apply Rpower_1; assumption). reflexivity.
    - rewrite truncZ_INR. rewrite pow_powerRZ. reflexivity. }
  destruct a; cbn [mom_power mom_vec mom_value]; try apply G.
  - replace (Rleb 0 (p_rd3 P i)) with true by (symmetry; apply Rleb_true, Hd). unfold Rdiv. unfold dry_radius.
    rewrite (cpow_root _ _ (cbrt (p_rd3 P i))); [reflexivity|exact Hd| | |lra].
    + intros L. unfold cbrt. destruct (Rlt_dec 0 (p_rd3 P i)); [reflexivity|contradiction].
    + intros ->. unfold cbrt. destruct (Rlt_dec 0 0); lra.
  - replace (Rleb 0 (p_rw2 P i)) with true by (symmetry; apply Rleb_true, Hw). unfold Rdiv. unfold wet_radius.
    rewrite (cpow_root _ _ (sqrt (p_rw2 P i))); [reflexivity|exact Hw| | |lra].
    + intros L. apply Rpower_sqrt, L.
    + intros ->. apply sqrt_0.
Qed.

(** ** C25: moments *)
(** mass of dry air in a cell; a parcel is one kilogram *)
Definition air_mass (o : dopts) (E : cells) (c : nat) : R := if o_parcel (d_o o) then 1 else e_rhod E c * e_dv E c.
Lemma per_air_mass o E c x : 0 < e_rhod E c -> 0 < e_dv E c ->
  per_air (true && negb (o_parcel (d_o o))) (e_dv E) (e_rhod E) c x = x / air_mass o E c.
Proof. intros H1 H2. unfold per_air, air_mass. cbn [andb]. destruct (o_parcel (d_o o)); cbn [negb]; [lra|]. field. lra. Qed.

Lemma calc_out o sijk sid sp st x xp c : diag_ok sijk sid st ->
  fill_outbuf (calc o sijk sid sp st x xp) c =
  per_air (sp && negb (o_parcel (d_o o))) (e_dv (g_E st)) (e_rhod (g_E st)) c
    (cellsum (p_np (g_P st)) (p_ijk (g_P st)) (fun i => moment_counter xp (g_sel st i) (x i)) c).
Proof.
  intros (Hs & _). unfold calc. rewrite outbuf_set_mom. rewrite (scatter_moms (p_np (g_P st)) (p_ijk (g_P st)) _ _ Hs).
  destruct (occupied_dec _ _ _ _ Hs c) as [H|H]; [reflexivity|]. rewrite cellsum_empty by exact H.
  unfold per_air, Rdiv. destruct (sp && negb (o_parcel (d_o o))); ring.
Qed.
Lemma weights st S w c : holds st S -> (forall i, w i 0 = 0) ->
  cellsum (p_np (g_P st)) (p_ijk (g_P st)) (fun i => w i (g_sel st i)) c =
  sum_selected (g_P st) S (fun i => w i (N2R (p_n (g_P st) i))) c.
Proof.
  intros H W. unfold sum_selected. apply cellsum_ext. intros i _ _. rewrite (H i). destruct (S i); [reflexivity|apply W].
Qed.

Section Moments.
  Variables (o : dopts) (X : xattr) (fall : parts -> cells -> nat -> R) (sijk sid : list nat).
  (** calls before the moment: a fresh selection and anything after it *)
  Variables (c0 : call) (r : list call) (st st1 : dst) (S0 : nat -> bool).
  Hypothesis Hok : diag_ok sijk sid st.
  Hypothesis Hr : Forall range_ok (c0 :: r).
  Hypothesis Hc : starts c0.
  Hypothesis Hd : diags o X fall sijk sid (c0 :: r) st = Some st1.
  Let S := selected o X fall sijk sid (c0 :: r) st S0.

  Lemma moments_holds : holds st1 S /\ diag_ok sijk sid st1.
  Proof.
    split; [intros i; apply (C25_selection o X fall sijk sid c0 r st st1 S0 Hok Hr Hc Hd)|].
    cbn [diags] in Hd. inversion Hr as [|? ? R1 R2]. destruct (diag o X fall sijk sid c0 st) as [st2|] eqn:E; [|discriminate].
    apply (selection_from o X fall sijk sid r st2 st1 (select (d_fp o) (g_P st) (g_E st) c0 S0)); auto.
    - apply (diag_ok_step o X fall sijk sid c0 st); auto. intros _ k Hk. apply Hok, Hk.
    - apply (select_step o X fall sijk sid c0 st); auto.
  Qed.

  Lemma moment_out a k st2 cell : diag o X fall sijk sid (c_mom a k) st1 = Some st2 -> (a = m_ict -> d_ict o = true) ->
    (cell < e_nc (g_E st1))%nat ->
    fill_outbuf st2 cell =
    sum_selected (g_P st1) S (fun i => N2R (p_n (g_P st1) i) * mom_value X (g_P st1) a i ^ k) cell / air_mass o (g_E st1) cell.
  Proof.
    intros H Ha Hcell. destruct moments_holds as [HS Hok1].
    assert (E : st2 = calc o sijk sid true st1 (mom_vec X (g_P st1) a) (mom_power a k)).
    { unfold diag in H. destruct a; try (injection H as <-; reflexivity).
      - destruct (o_ice (d_o o)); [injection H as <-; reflexivity|discriminate].
      - destruct (o_ice (d_o o)); [injection H as <-; reflexivity|discriminate].
      - rewrite (Ha eq_refl) in H. injection H as <-. reflexivity. }
    rewrite E, calc_out by exact Hok1. destruct Hok1 as (_ & _ & Hw & Hdr & Ha1). destruct (Ha1 cell Hcell) as [A1 A2].
    rewrite per_air_mass by assumption. f_equal.
    rewrite (weights st1 S (fun i n => moment_counter (mom_power a k) n (mom_vec X (g_P st1) a i)) cell HS).
    - unfold sum_selected. apply cellsum_ext. intros i _ _. rewrite moment_value by auto. reflexivity.
    - intros i. rewrite moment_value by auto. ring.
  Qed.
End Moments.

(** C25: outbuf after a moment: in every cell the sum over the selected super-droplets of multiplicity times the power of the attribute, per
    unit mass of dry air; zero in cells with no super-droplets *)
Theorem C25_moment o X fall sijk sid c0 r st st1 S0 a k st2 :
  diag_ok sijk sid st -> Forall range_ok (c0 :: r) -> starts c0 -> diags o X fall sijk sid (c0 :: r) st = Some st1 ->
  diag o X fall sijk sid (c_mom a k) st1 = Some st2 -> (a = m_ict -> d_ict o = true) ->
  forall cell, (cell < e_nc (g_E st1))%nat ->
  fst (outbuf sijk sid st2) cell =
  sum_selected (g_P st1) (selected o X fall sijk sid (c0 :: r) st S0)
    (fun i => N2R (p_n (g_P st1) i) * mom_value X (g_P st1) a i ^ k) cell / air_mass o (g_E st1) cell.
Proof.
  intros Hok Hr Hc Hd H Ha cell Hcell. apply (moment_out o X fall sijk sid c0 r st st1 S0 Hok Hr Hc Hd a k); assumption.
Qed.

(** C25: number of selected super-droplets; mixing ratio of ice; precipitation rates *)
Section Others.
  Variables (o : dopts) (X : xattr) (fall : parts -> cells -> nat -> R) (sijk sid : list nat).
  Variables (c0 : call) (r : list call) (st st1 st2 : dst) (S0 : nat -> bool).
  Hypothesis Hok : diag_ok sijk sid st.
  Hypothesis Hr : Forall range_ok (c0 :: r).
  Hypothesis Hc : starts c0.
  Hypothesis Hd : diags o X fall sijk sid (c0 :: r) st = Some st1.
  Let S := selected o X fall sijk sid (c0 :: r) st S0.
  Let P := g_P st1.
  Let H1 := moments_holds o X fall sijk sid c0 r st st1 S0 Hok Hr Hc Hd.

  Lemma sd_conc_out cell : diag o X fall sijk sid c_sd_conc st1 = Some st2 ->
    fill_outbuf st2 cell = sum_selected P S (fun i => if (p_n P i =? 0)%N then 0 else 1) cell.
  Proof.
    intros H. unfold diag in H. injection H as <-. destruct H1 as [HS (Hs & _)]. rewrite outbuf_set_mom.
    rewrite (scatter_sums_plain (p_np P) (p_ijk P) _ _ Hs).
    replace (cellsum (p_np P) (p_ijk P) (fun i => if Rltb 0 (g_sel st1 i) then 1 else 0) cell)
      with (sum_selected P S (fun i => if (p_n P i =? 0)%N then 0 else 1) cell).
    - match goal with |- (if ?d then _ else _) = _ => destruct d as [K|K] end; [reflexivity|]. unfold sum_selected. rewrite cellsum_empty by exact K. reflexivity.
    - unfold sum_selected. apply cellsum_ext. intros i _ _. rewrite (HS i). fold S P. destruct (S i).
      + destruct (N.eqb_spec (p_n P i) 0) as [E|E].
        * rewrite E. replace (Rltb 0 (N2R 0)) with false; [reflexivity|]. symmetry. apply Rltb_false. unfold N2R. cbn. lra.
        * replace (Rltb 0 (N2R (p_n P i))) with true; [reflexivity|]. symmetry. apply Rltb_true. replace 0 with (N2R 0) by (unfold N2R; reflexivity). apply N2R_lt. lia.
      + replace (Rltb 0 0) with false; [reflexivity|]. symmetry. apply Rltb_false. lra.
  Qed.
  Lemma ice_out cell : diag o X fall sijk sid c_ice_mix_ratio st1 = Some st2 -> (cell < e_nc (g_E st1))%nat ->
    fill_outbuf st2 cell =
    sum_selected P S (fun i => N2R (p_n P i) * (p_irho P i * (4 / 3 * PI * p_ia P i ^ 2 * p_ic P i))) cell / air_mass o (g_E st1) cell.
  Proof.
    intros H Hcell. unfold diag in H. destruct (o_ice (d_o o)); [|discriminate]. injection H as <-. destruct H1 as [HS Hok1].
    rewrite calc_out by exact Hok1. destruct Hok1 as (_ & _ & _ & _ & Ha1). destruct (Ha1 cell Hcell) as [A1 A2].
    rewrite per_air_mass by assumption. f_equal.
    rewrite (weights st1 S (fun i n => moment_counter 1 n (ice_mass (p_ia (g_P st1) i) (p_ic (g_P st1) i) (p_irho (g_P st1) i))) cell HS).
    - unfold sum_selected. apply cellsum_ext. intros i _ _. rewrite moment_1. unfold ice_mass. fold P. destruct (S i); [ring|reflexivity].
    - intros i. rewrite moment_1. ring.
  Qed.
  Lemma chem_out s cell : diag o X fall sijk sid (c_chem s) st1 = Some st2 -> (cell < e_nc (g_E st1))%nat ->
    fill_outbuf st2 cell = sum_selected P S (fun i => N2R (p_n P i) * x_chem X s i) cell / air_mass o (g_E st1) cell.
  Proof.
    intros H Hcell. unfold diag in H. destruct (d_chem o); [|discriminate]. injection H as <-. destruct H1 as [HS Hok1].
    rewrite calc_out by exact Hok1. destruct Hok1 as (_ & _ & _ & _ & Ha1). destruct (Ha1 cell Hcell) as [A1 A2].
    rewrite per_air_mass by assumption. f_equal.
    rewrite (weights st1 S (fun i n => moment_counter 1 n (x_chem X s i)) cell HS).
    - unfold sum_selected. apply cellsum_ext. intros i _ _. rewrite moment_1. fold P. destruct (S i); [ring|reflexivity].
    - intros i. rewrite moment_1. ring.
  Qed.
  Lemma precip_out cell : diag o X fall sijk sid c_precip st1 = Some st2 ->
    fill_outbuf st2 cell = sum_selected P S (fun i => N2R (p_n P i) * (wet_radius P i ^ 3 * fall P (g_E st1) i)) cell.
  Proof.
    intros H. unfold diag in H. injection H as <-. destruct H1 as [HS Hok1].
    rewrite calc_out.
    - cbn [andb]. unfold per_air. cbn [g_P g_sel set_vt p_np p_ijk p_rw2 p_vt].
      rewrite (weights st1 S (fun i n => moment_counter 1 n (cpow (p_rw2 (g_P st1) i) (3 / 2) * fall (g_P st1) (g_E st1) i)) cell HS).
      + unfold sum_selected. apply cellsum_ext. intros i _ _. rewrite moment_1. destruct Hok1 as (_ & _ & Hw & _).
        rewrite cpow_3_2 by apply Hw. reflexivity.
      + intros i. rewrite moment_1. ring.
    - destruct Hok1 as (A1 & A2 & A3 & A4 & A5). repeat split; auto; apply A5; assumption.
  Qed.
  (** the precipitation rate of ice is that of all super-droplets, not of the selected ones *)
  Lemma precip_ice_out cell : diag o X fall sijk sid c_precip_ice st1 = Some st2 ->
    fill_outbuf st2 cell =
    cellsum (p_np P) (p_ijk P) (fun i => N2R (p_n P i) * (p_irho P i * (4 / 3 * PI * p_ia P i ^ 2 * p_ic P i) * fall P (g_E st1) i)) cell.
  Proof.
    intros H. unfold diag in H. destruct (o_ice (d_o o)); [|discriminate]. injection H as <-. destruct H1 as [HS Hok1].
    rewrite calc_out.
    - cbn [andb]. unfold per_air. cbn [g_P g_sel set_vt p_np p_ijk p_rw2 p_vt p_ia p_ic p_irho].
      apply cellsum_ext. intros i _ _. rewrite moment_1. unfold n_real. fold P. cbn [set_vt p_n p_vt p_ia p_ic p_irho]. fold P. ring.
    - destruct Hok1 as (A1 & A2 & A3 & A4 & A5). repeat split; auto; apply A5; assumption.
  Qed.
End Others.

Lemma sorted_pop_id np ijk : Sorted le (map ijk (seq 0 np)) -> sorted_pop np ijk (map ijk (seq 0 np)) (seq 0 np).
Proof.
  intros H. exists false. unfold sort_helper, sort_by_key_result. rewrite map_length, !seq_length. split; [reflexivity|]. split; [reflexivity|].
  split; [apply Permutation_refl|exact H].
Qed.
Lemma run_max_head keys vals : length keys = length vals ->
  match run_max keys vals with [] => keys = [] | (k, _) :: _ => exists r, keys = k :: r end.
Proof.
  revert vals; induction keys as [|k keys IH]; intros [|v vals] H; cbn in *; try lia; [reflexivity|].
  specialize (IH vals ltac:(lia)). destruct (run_max keys vals) as [|(k', s) rest].
  - exists keys. reflexivity.
  - destruct IH as [r0 ->]. destruct (Nat.eqb_spec k k') as [->|]; eexists; reflexivity.
Qed.
Lemma sorted_head_lt (k k' : nat) l c : Sorted le (k :: k' :: l) -> k <> k' -> In c (k' :: l) -> (k < c)%nat.
Proof.
  intros H N I. assert (L : (k < k')%nat) by (inversion H as [|? ? H1 H2]; inversion H2; lia).
  inversion H as [|? ? H1 H2]; subst. apply Sorted_StronglySorted in H1; [|intros x y z; lia].
  inversion H1 as [|? ? H3 H4]; subst. destruct I as [<-|I]; [exact L|]. rewrite Forall_forall in H4. specialize (H4 c I). lia.
Qed.
Lemma run_max_spec keys vals : length keys = length vals -> Sorted le keys ->
  (forall c, In c keys -> exists m, lookup c (run_max keys vals) = Some m /\ In (c, m) (combine keys vals) /\
     forall v, In (c, v) (combine keys vals) -> v <= m) /\
  (forall c, ~ In c keys -> lookup c (run_max keys vals) = None).
Proof.
  revert vals; induction keys as [|k keys IH]; intros [|v vals] Hl Hs; cbn [length] in Hl; try lia.
  - split; [intros c []|reflexivity].
  - assert (Hs' : Sorted le keys) by (inversion Hs; assumption).
    destruct (IH vals ltac:(lia) Hs') as [I1 I2]. pose proof (run_max_head keys vals ltac:(lia)) as HH.
    cbn [run_max combine]. destruct (run_max keys vals) as [|(k', s) rest] eqn:E.
    + subst keys. destruct vals; [|cbn in Hl; lia]. cbn. split.
      * intros c [<-|[]]. exists v. rewrite Nat.eqb_refl. split; [reflexivity|]. split; [auto|]. intros v' [K|[]]. injection K as <-. lra.
      * intros c N. destruct (Nat.eqb_spec k c) as [->|]; [exfalso; apply N; auto|reflexivity].
    + destruct HH as [r0 ->]. destruct (Nat.eqb_spec k k') as [->|Hne].
      * split.
        -- intros c Hc. assert (Hc' : In c (k' :: r0)) by (destruct Hc as [<-|Hc]; [left; reflexivity|exact Hc]).
           destruct (I1 c Hc') as (m & L & M & B). cbn [lookup] in *.
           destruct (Nat.eqb_spec k' c) as [->|N].
           ++ injection L as <-. exists (cmax v s). rewrite cmax_Rmax. split; [reflexivity|]. split.
              ** unfold Rmax. destruct (Rle_dec v s); [right; exact M|left; reflexivity].
              ** intros v' [K|K]; [injection K as <-; apply Rmax_l|]. apply Rle_trans with s; [apply B, K|apply Rmax_r].
           ++ exists m. split; [exact L|]. split; [right; exact M|]. intros v' [K|K]; [congruence|apply B, K].
        -- intros c N. specialize (I2 c ltac:(intros K; apply N; right; exact K)). cbn [lookup] in *.
           destruct (k' =? c)%nat; [discriminate|exact I2].
      * split.
        -- intros c Hc. destruct (Nat.eq_dec c k) as [->|N].
           ++ exists v. cbn [lookup]. rewrite Nat.eqb_refl. split; [reflexivity|]. split; [left; reflexivity|].
              intros v' [K|K]; [injection K as <-; lra|]. exfalso. apply in_combine_l in K. pose proof (sorted_head_lt k k' r0 k Hs Hne K). lia.
           ++ destruct Hc as [Hc|Hc]; [congruence|]. destruct (I1 c Hc) as (m & L & M & B). exists m. split.
              ** cbn [lookup]. destruct (Nat.eqb_spec k c); [congruence|exact L].
              ** split; [right; exact M|]. intros v' [K|K]; [congruence|apply B, K].
        -- intros c N. cbn [lookup]. destruct (Nat.eqb_spec k c) as [->|]; [exfalso; apply N; left; reflexivity|].
           apply I2. intros K. apply N. right. exact K.
Qed.

(** C25: the largest wet radius is that of all super-droplets in the cell, selected or not *)
Theorem C25_max_rw o X fall sijk sid st st' cell :
  diag_ok sijk sid st -> diag o X fall sijk sid c_max_rw st = Some st' ->
  let P := g_P st in let out := fst (outbuf sijk sid st') cell in
  (occupied (p_np P) (p_ijk P) cell -> exists i, (i < p_np P)%nat /\ p_ijk P i = cell /\ wet_radius P i = out) /\
  (forall i, (i < p_np P)%nat -> p_ijk P i = cell -> wet_radius P i <= out) /\
  (~ occupied (p_np P) (p_ijk P) cell -> out = 0).
Proof.
  intros (Hs & _) H P out. unfold diag in H. injection H as <-.
  assert (Ho : out = scatter (fun _ v => v) (run_max sijk (map (fun i => wet_radius P i) sid)) (fun _ => 0) cell) by apply outbuf_set_mom.
  clearbody out. destruct (sorted_facts _ _ _ _ Hs) as (HP & HE & HS).
  assert (Hl : length sijk = length (map (fun i => wet_radius P i) sid)) by (rewrite HE, !map_length; reflexivity).
  destruct (run_max_spec sijk (map (fun i => wet_radius P i) sid) Hl HS) as [R1 R2].
  rewrite scatter_spec in Ho.
  2:{ rewrite run_max_keys by exact Hl. rewrite <- (run_sums_keys sijk (map (fun i => wet_radius P i) sid) Hl). apply (sums_spec _ _ _ _ Hs). }
  assert (HC : forall c v, In (c, v) (combine sijk (map (fun i => wet_radius P i) sid)) <-> exists i, (i < p_np P)%nat /\ p_ijk P i = c /\ wet_radius P i = v).
  { intros c v. rewrite HE.
    replace (combine (map (p_ijk (g_P st)) sid) (map (fun i => wet_radius P i) sid)) with (map (fun i => (p_ijk P i, wet_radius P i)) sid)
      by (clear; induction sid as [|x l IH]; [reflexivity|cbn; f_equal; exact IH]).
    rewrite in_map_iff. split.
    - intros (i & E & Hi). injection E as <- <-. exists i. apply (Permutation_in _ HP), in_seq in Hi. repeat split. unfold P. lia.
    - intros (i & Hi & <- & <-). exists i. split; [reflexivity|]. apply (Permutation_in _ (Permutation_sym HP)), in_seq. unfold P in Hi. lia. }
  destruct (occupied_dec _ _ _ _ Hs cell) as [K|K].
  - destruct (R1 cell) as (m & L & M & B); [apply (occupied_in _ _ _ _ Hs), K|]. rewrite L in Ho. subst out.
    split; [|split].
    + intros _. apply HC, M.
    + intros i Hi Hc. apply B, HC. exists i. auto.
    + intros N. contradiction.
  - rewrite R2 in Ho by (rewrite (occupied_in _ _ _ _ Hs); exact K). split; [contradiction|]. split; [|intros _; exact Ho].
    intros i Hi Hc. exfalso. apply K. exists i. auto.
Qed.
(** C25: number of selected super-droplets, mixing ratio of ice, flux of water volume (up to the factor 4/3 pi), mass of a dissolved compound per mass of air; the flux of
    ice mass is that of all super-droplets *)
Theorem C25_other_quantities o X fall sijk sid c0 r st st1 S0 q st2 :
  diag_ok sijk sid st -> Forall range_ok (c0 :: r) -> starts c0 -> diags o X fall sijk sid (c0 :: r) st = Some st1 ->
  diag o X fall sijk sid q st1 = Some st2 ->
  let P := g_P st1 in let E := g_E st1 in
  let S := selected o X fall sijk sid (c0 :: r) st S0 in
  let mass i := p_irho P i * (4 / 3 * PI * p_ia P i ^ 2 * p_ic P i) in
  forall cell, (cell < e_nc E)%nat ->
  let out := fst (outbuf sijk sid st2) cell in
  (q = c_sd_conc -> out = sum_selected P S (fun i => if (p_n P i =? 0)%N then 0 else 1) cell) /\
  (q = c_ice_mix_ratio -> out = sum_selected P S (fun i => N2R (p_n P i) * mass i) cell / air_mass o E cell) /\
  (q = c_precip -> out = sum_selected P S (fun i => N2R (p_n P i) * (wet_radius P i ^ 3 * fall P E i)) cell) /\
  (q = c_precip_ice -> out = sum_selected P (fun _ => true) (fun i => N2R (p_n P i) * (mass i * fall P E i)) cell) /\
  (forall s, q = c_chem s -> out = sum_selected P S (fun i => N2R (p_n P i) * x_chem X s i) cell / air_mass o E cell).
Proof.
  intros Hok Hr Hc Hd H P E S mass cell Hcell out. repeat split; first [intros -> | intros s ->].
  - apply (sd_conc_out o X fall sijk sid c0 r st st1 st2 S0); assumption.
  - apply (ice_out o X fall sijk sid c0 r st st1 st2 S0); assumption.
  - apply (precip_out o X fall sijk sid c0 r st st1 st2 S0); assumption.
  - apply (precip_ice_out o X fall sijk sid c0 r st st1 st2 S0); assumption.
  - apply (chem_out o X fall sijk sid c0 r st st1 st2 S0); assumption.
Qed.

(** ** C25: diagnosing does not change the simulation *)
Lemma hskpng_Tpr_idem o E : o_th_dry o = true \/ o_const_p o = true -> hskpng_Tpr o (hskpng_Tpr o E) = hskpng_Tpr o E.
Proof.
  intros H. unfold hskpng_Tpr, T_of, p_of. cbn [e_nc e_rv e_th e_rhod e_p e_T e_RH e_RHi e_eta e_dv].
  destruct (o_th_dry o), (o_const_p o), (o_ice o), (o_parcel o); try reflexivity; destruct H; discriminate.
Qed.
Lemma set_vt_set_vt P v w : set_vt (set_vt P v) w = set_vt P w. Proof. reflexivity. Qed.
Lemma set_vt_same P : set_vt P (p_vt P) = P. Proof. destruct P. reflexivity. Qed.

(** C25: no sequence of diagnostic calls changes super-droplets, except for the cached fall speeds, which only precipitation rates change;
    nor cells, when temperature, pressure and humidity are up to date *)
Theorem C25_state o X fall sijk sid cs st st' :
  o_th_dry (d_o o) = true \/ o_const_p (d_o o) = true -> hskpng_Tpr (d_o o) (g_E st) = g_E st ->
  diags o X fall sijk sid cs st = Some st' ->
  g_E st' = g_E st /\ (exists v, g_P st' = set_vt (g_P st) v) /\
  ((forall c, In c cs -> c <> c_precip /\ c <> c_precip_ice) -> g_P st' = g_P st).
Proof.
  intros Ho. revert st. induction cs as [|c cs IH]; intros st HE H; cbn [diags] in H.
  - injection H as <-. split; [reflexivity|]. split; [exists (p_vt (g_P st)); symmetry; apply set_vt_same|reflexivity].
  - destruct (diag o X fall sijk sid c st) as [st1|] eqn:E; [|discriminate].
    destruct (diag_frame o X fall sijk sid c st st1 E) as (F1 & F2 & F3 & F4).
    assert (HE1 : g_E st1 = g_E st) by (destruct (field_call c); [rewrite F4, HE by reflexivity|apply F3]; reflexivity).
    destruct (IH st1 ltac:(rewrite HE1; exact HE) H) as (A1 & (v & A2) & A3). split; [congruence|]. split.
    + destruct (precip_call c) eqn:Hp.
      * exists v. rewrite A2, F2 by reflexivity. reflexivity.
      * exists v. rewrite A2, F1 by reflexivity. reflexivity.
    + intros Hc. rewrite A3 by (intros c' Hin; apply Hc; right; exact Hin). apply F1.
      destruct (Hc c (or_introl eq_refl)) as [N1 N2]. destruct c; try reflexivity; congruence.
Qed.

(** C25 refuted for the precipitation rates: the fall speed of a droplet that has just collided is marked with -1 (C41) and stays so until the
    next motion; the ventilation of that droplet in the following condensation step depends on whether the user has asked for the
    precipitation rate in between *)
Definition vent_cells : cells :=
  mk_cells 1 (fun _ => 1 / 100) (fun _ => 290) (fun _ => 12 / 10) (fun _ => 100000) (fun _ => 290) (fun _ => 105 / 100) (fun _ => 1) (fun _ => 18 / 1000000) (fun _ => 1).
Definition vent_parts : parts :=
  mk_parts 1 (fun _ => O) (fun _ => 1000%N) (fun _ => 1 / 10 ^ 4 * (1 / 10 ^ 4)) (fun _ => 1 / 10 ^ 21) (fun _ => 1) (fun _ => -1)
    (fun _ => 0) (fun _ => 0) (fun _ => 0) (fun _ => 0) (fun _ => 0) (fun _ => 0).
Definition vent_opts (dt : R) : copts :=
  {| o_parcel := false; o_th_dry := true; o_const_p := false; o_ice := false; o_exact := false; o_mix := true; o_adaptive := false;
     o_RH := pv_cc; o_adapt_eps := 1; o_adapt_max := 2; o_turb := false; o_RH_max := 44; o_var_rho := false; o_dt := dt; o_sstp := 1; o_act := 1;
     o_k := cfg_double |}.
Definition vent_state : dst := mk_dst vent_parts vent_cells (fun _ => 0) (fun _ => O) (fun _ => 0) (fun _ => 0) O.
Definition mfp (_ : nat) : R := 1 / 10 ^ 7.

Theorem C25_precip_rate_refuted o X fall dt : d_o o = vent_opts dt -> 0 < dt -> 0 <= fall vent_parts vent_cells O ->
  diag_ok [O] [O] vent_state /\
  exists st', diags o X fall [O] [O] [c_all; c_precip] vent_state = Some st' /\
  p_rw2 (grow_liq (vent_opts dt) mfp mfp (g_P vent_state) (g_E vent_state)) 0 < p_rw2 (g_P vent_state) 0 /\
  p_rw2 (g_P vent_state) 0 < p_rw2 (grow_liq (vent_opts dt) mfp mfp (g_P st') (g_E st')) 0.
Proof.
  intros Ho Hdt Hf. split.
  - unfold diag_ok, vent_state, vent_parts, vent_cells; cbn [g_P g_E p_np p_ijk p_rw2 p_rd3 e_nc e_rhod e_dv].
    split; [apply (sorted_pop_id 1 (fun _ => O)); repeat constructor|]. repeat split; intros; try lra; lia.
  - eexists. split; [reflexivity|].
    assert (Hs : sub_dt (vent_opts dt) = dt) by (unfold sub_dt, vent_opts; cbn [o_dt o_sstp INR]; lra).
    split.
    + destruct C51_invalid_fall_speed_refuted as (_ & _ & _ & H). specialize (H dt Hdt).
      unfold grow_liq. rewrite Hs. exact H.
    + unfold grow_liq. rewrite Hs.
      match goal with |- _ < p_rw2 (set_rw2 _ (fun i => advance_rw2 ?k true (@?e i) _ _)) 0 => set (env := e) end.
      cbn [p_rw2 set_rw2].
      assert (He : env O = env_falling (fall vent_parts vent_cells O)) by reflexivity.
      rewrite He. clear env He. change (o_k (vent_opts dt)) with cfg_double.
      set (v := fall vent_parts vent_cells O) in *. clearbody v.
      destruct (C51_substep cfg_double (env_falling v) dt (1 / 10 ^ 4) cfg_double_ok (env_falling_ok v)) as (_ & H & _).
      * exact Hf.
      * exact Hdt.
      * lra.
      * unfold dry2; cbn [env_falling c_rd3]. replace (cbrt (1 / 10 ^ 21)) with (1 / 10 ^ 7); [lra|].
        destruct (cbrt_cube_nonneg (1 / 10 ^ 21)) as [H1 H2]; [lra|]. apply cube_inj; [lra|exact H1|]. rewrite H2. lra.
      * apply H. rewrite env_falling_RH. apply env_falling_S.
Qed.

(** ** C26: outbuf *)
(** calls that compute a quantity, and the quantities defined in all cells rather than summed over super-droplets *)
Definition selects (c : call) : bool :=
  match c with c_all | c_rng _ _ _ _ | c_ice _ | c_water _ | c_RH_ge_Sc | c_rw_ge_rc => true | _ => false end.
Inductive act := do_call (c : call) | do_outbuf.
Section Acts.
  Variables (o : dopts) (X : xattr) (fall : parts -> cells -> nat -> R) (sijk sid : list nat).
  Fixpoint acts (l : list act) (st : dst) : option dst :=
    match l with
    | [] => Some st
    | do_call c :: r => match diag o X fall sijk sid c st with Some st' => acts r st' | None => None end
    | do_outbuf :: r => acts r (snd (outbuf sijk sid st))
    end.
  Definition no_quantity (a : act) : Prop := match a with do_call c => selects c = true | do_outbuf => True end.

  (** the first entries of count_ijk are the occupied cells *)
  Definition keyed (st : dst) : Prop := g_cn st = length (runs sijk) /\ forall k, (k < g_cn st)%nat -> nth_error (runs sijk) k = Some (g_cijk st k).
  Lemma put_keyed l old : l = runs sijk -> forall k, (k < length l)%nat -> nth_error (runs sijk) k = Some (put l old k).
  Proof.
    intros <- k Hk. unfold put. destruct (nth_error l k) eqn:E; [reflexivity|]. apply nth_error_None in E. lia.
  Qed.
  Lemma set_mom_keyed st kvs : map fst kvs = runs sijk -> keyed (set_mom st kvs).
  Proof.
    intros H. unfold keyed, set_mom. cbn [g_cn g_cijk]. split; [rewrite <- H, map_length; reflexivity|].
    intros k Hk. apply put_keyed; [exact H|rewrite map_length; exact Hk].
  Qed.
  Lemma count_keyed st : length sijk = length sid -> keyed (hskpng_count sijk sid st).
  Proof.
    intros Hl. unfold keyed, hskpng_count. cbn [g_cn g_cijk].
    assert (K : map fst (run_sums sijk (map (fun _ : nat => 1) sid)) = runs sijk) by (apply run_sums_keys; rewrite map_length; exact Hl).
    split; [rewrite <- K, map_length; reflexivity|]. intros k Hk. apply put_keyed; [exact K|rewrite map_length; exact Hk].
  Qed.
  Lemma keyed_same st1 st2 c : keyed st1 -> keyed st2 -> g_cmom st1 = g_cmom st2 -> fill_outbuf st1 c = fill_outbuf st2 c.
  Proof.
    intros [A1 A2] [B1 B2] M. unfold fill_outbuf. rewrite M, A1, B1. f_equal. apply map_ext_in. intros k Hk. apply in_seq in Hk.
    f_equal. assert (Some (g_cijk st1 k) = Some (g_cijk st2 k)) by (rewrite <- A2, <- B2; [reflexivity|lia|lia]). congruence.
  Qed.
  Lemma acts_keyed l st st' : length sijk = length sid -> keyed st -> Forall no_quantity l -> acts l st = Some st' ->
    keyed st' /\ g_cmom st' = g_cmom st.
  Proof.
    intros Hl. revert st. induction l as [|[c|] l IH]; intros st HK HF H; cbn [acts] in H.
    - injection H as <-. auto.
    - inversion HF as [|? ? F1 F2]; subst. destruct (diag o X fall sijk sid c st) as [st1|] eqn:E; [|discriminate].
      assert (K : keyed st1 /\ g_cmom st1 = g_cmom st).
      { cbn [no_quantity] in F1. unfold diag in E.
        destruct c as [|a f lo hi|f|f| | |a k| | | | | |rad sg| | | |s]; cbn [selects] in F1; try discriminate;
          try (injection E as <-; split; [exact HK|reflexivity]).
        - destruct (needs_ice a && negb (o_ice (d_o o))); [discriminate|]. injection E as <-. split; [exact HK|reflexivity].
        - destruct (o_ice (d_o o)); [|discriminate]. injection E as <-. split; [exact HK|reflexivity]. }
      destruct K as [K1 K2]. destruct (IH st1 K1 F2 H) as [I1 I2]. split; [exact I1|congruence].
    - inversion HF as [|? ? F1 F2]; subst. destruct (IH _ (count_keyed st Hl) F2 H) as [I1 I2]. split; [exact I1|exact I2].
  Qed.
  Lemma sums_keyed st w : length sijk = length sid -> keyed (set_mom st (run_sums sijk (map w sid))).
  Proof. intros Hl. apply set_mom_keyed, run_sums_keys. rewrite map_length. exact Hl. Qed.
  Lemma calc_keyed sp st x xp : length sijk = length sid -> keyed (calc o sijk sid sp st x xp).
  Proof.
    intros Hl. unfold calc. apply set_mom_keyed. rewrite moms_calc_alt, map_map. cbn [fst].
    apply (run_sums_keys sijk). rewrite map_length. exact Hl.
  Qed.
  Lemma quantity_keyed q st st' : length sijk = length sid -> selects q = false -> field_call q = false -> (forall k, q = c_mom m_ict k -> d_ict o = true) ->
    diag o X fall sijk sid q st = Some st' -> keyed st'.
  Proof.
    intros Hl Hq Hf Hi H. unfold diag in H.
    destruct q as [|a f lo hi|f|f| | |a k| | | | | |rad sg| | | |s]; cbn [selects field_call] in Hq, Hf; try discriminate.
    - destruct a; try (injection H as <-; apply calc_keyed, Hl).
      + destruct (o_ice (d_o o)); [|discriminate]. injection H as <-. apply calc_keyed, Hl.
      + destruct (o_ice (d_o o)); [|discriminate]. injection H as <-. apply calc_keyed, Hl.
      + rewrite (Hi k eq_refl) in H. injection H as <-. apply calc_keyed, Hl.
    - destruct (o_ice (d_o o)); [|discriminate]. injection H as <-. apply calc_keyed, Hl.
    - injection H as <-. apply sums_keyed, Hl.
    - injection H as <-. apply set_mom_keyed, run_max_keys. rewrite map_length. exact Hl.
    - injection H as <-. apply calc_keyed, Hl.
    - destruct (o_ice (d_o o)); [|discriminate]. injection H as <-. apply calc_keyed, Hl.
    - injection H as <-. unfold mass_dens. apply set_mom_keyed. rewrite map_map. cbn [fst]. apply run_sums_keys. rewrite map_length. exact Hl.
    - destruct (d_chem o); [|discriminate]. injection H as <-. apply calc_keyed, Hl.
  Qed.
End Acts.

(** C26: after a quantity summed over super-droplets has been computed, outbuf returns the same array until the next quantity is computed:
    again after itself and after any selections *)
Theorem C26_repeated_partial o X fall sijk sid q st st1 l st2 :
  length sijk = length sid -> selects q = false -> field_call q = false -> (forall k, q = c_mom m_ict k -> d_ict o = true) ->
  diag o X fall sijk sid q st = Some st1 -> Forall no_quantity l -> acts o X fall sijk sid l st1 = Some st2 ->
  forall cell, fst (outbuf sijk sid st2) cell = fst (outbuf sijk sid st1) cell.
Proof.
  intros Hl Hq Hf Hi H HF HA cell. pose proof (quantity_keyed o X fall sijk sid q st st1 Hl Hq Hf Hi H) as K1.
  destruct (acts_keyed o X fall sijk sid l st1 st2 Hl K1 HF HA) as [K2 M]. apply (keyed_same sijk); assumption.
Qed.
(** C26: fields defined in all cells: the first outbuf returns them in every cell, occupied or not *)
Lemma scatter_seq f n c : scatter (fun _ v => v) (map (fun k => (k, f k)) (seq 0 n)) (fun _ => 0) c = if (c <? n)%nat then f c else 0.
Proof.
  rewrite scatter_spec by (rewrite map_map; cbn [fst]; rewrite map_id; apply seq_NoDup).
  assert (L : forall s m, lookup c (map (fun k => (k, f k)) (seq s m)) = if ((s <=? c)%nat && (c <? s + m)%nat)%bool then Some (f c) else None).
  { intros s m. revert s. induction m as [|m IH]; intros s; cbn [seq map lookup].
    - destruct (Nat.leb_spec s c), (Nat.ltb_spec c (s + 0)); cbn; try reflexivity; lia.
    - rewrite IH. destruct (Nat.eqb_spec s c) as [->|N].
      + destruct (Nat.leb_spec c c), (Nat.ltb_spec c (c + S m)); cbn; try reflexivity; lia.
      + destruct (Nat.leb_spec (S s) c), (Nat.leb_spec s c), (Nat.ltb_spec c (S s + m)), (Nat.ltb_spec c (s + S m)); cbn; try reflexivity; lia. }
  rewrite L. cbn [Nat.leb andb plus]. destruct (c <? n)%nat; reflexivity.
Qed.
Theorem C26_fields o X fall sijk sid q st st1 cell :
  diag o X fall sijk sid q st = Some st1 -> (cell < e_nc (g_E st))%nat ->
  let E := hskpng_Tpr (d_o o) (g_E st) in
  (q = c_pressure -> fst (outbuf sijk sid st1) cell = e_p E cell) /\
  (q = c_temperature -> fst (outbuf sijk sid st1) cell = e_T E cell) /\
  (q = c_RH -> fst (outbuf sijk sid st1) cell = e_RH E cell).
Proof.
  intros H Hc E. unfold diag in H.
  assert (G : forall f, fill_outbuf (diag_field o f st) cell = f E cell).
  { intros f. unfold fill_outbuf, diag_field. cbn [g_cijk g_cmom g_cn]. fold E.
    rewrite (scatter_seq (fun k => if (k <? e_nc E)%nat then f E k else g_cmom st k)).
    change (e_nc E) with (e_nc (g_E st)). destruct (Nat.ltb_spec cell (e_nc (g_E st))); [reflexivity|lia]. }
  repeat split; intros ->; injection H as <-; apply G.
Qed.

(** C26 refuted for fields: the second outbuf restores the list of occupied cells but not the values, and gives the temperature of the first cell
    to the only occupied one *)
Definition two_cells : cells :=
  mk_cells 2 (fun _ => 1 / 100) (fun c => if (c =? 0)%nat then 280 else 300) (fun _ => 1) (fun _ => 100000) (fun _ => 0) (fun _ => 0) (fun _ => 0) (fun _ => 0) (fun _ => 1).
Definition one_drop : parts :=
  mk_parts 1 (fun _ => 1%nat) (fun _ => 1000%N) (fun _ => 1 / 10 ^ 10) (fun _ => 1 / 10 ^ 21) (fun _ => 1) (fun _ => 0)
    (fun _ => 0) (fun _ => 0) (fun _ => 0) (fun _ => 0) (fun _ => 0) (fun _ => 0).
Definition field_state : dst := mk_dst one_drop two_cells (fun _ => 0) (fun _ => O) (fun _ => 0) (fun _ => 0) O.
Theorem C26_fields_refuted o X fall : d_o o = vent_opts 1 ->
  diag_ok [1%nat] [O] field_state /\
  exists st1, diag o X fall [1%nat] [O] c_temperature field_state = Some st1 /\
  let st2 := snd (outbuf [1%nat] [O] st1) in
  fst (outbuf [1%nat] [O] st1) 1%nat = e_T (hskpng_Tpr (d_o o) two_cells) 1%nat /\
  fst (outbuf [1%nat] [O] st2) 0%nat = 0 /\
  fst (outbuf [1%nat] [O] st2) 1%nat = e_T (hskpng_Tpr (d_o o) two_cells) 0%nat /\
  e_T (hskpng_Tpr (d_o o) two_cells) 0%nat < e_T (hskpng_Tpr (d_o o) two_cells) 1%nat.
Proof.
  intros Ho. split.
  - unfold diag_ok, field_state, one_drop, two_cells; cbn [g_P g_E p_np p_ijk p_rw2 p_rd3 e_nc e_rhod e_dv].
    split; [apply (sorted_pop_id 1 (fun _ => 1%nat)); repeat constructor|]. repeat split; intros; try lra; lia.
  - eexists. split; [reflexivity|]. split; [|split; [|split]].
    + reflexivity.
    + reflexivity.
    + reflexivity.
    + rewrite Ho. unfold hskpng_Tpr, T_of. cbn [e_T e_th e_rhod two_cells vent_opts o_th_dry]. cbn [Nat.eqb].
      unfold dry_T. assert (V : 0 < R_d < 1000) by (unfold R_d, kaBoNA, M_d; lra).
      set (k := cpow (1 * R_d / p_1000) (R_d / c_pd)).
      assert (Hk : 0 < k).
      { unfold k, cpow. destruct (Rlt_dec 0 (1 * R_d / p_1000)) as [_|N]; [unfold Rpower; apply exp_pos|].
        exfalso. apply N. apply Rdiv_lt_0_compat; [lra|unfold p_1000; lra]. }
      unfold cpow at 1 2. destruct (Rlt_dec 0 (280 * k)); [|lra]. destruct (Rlt_dec 0 (300 * k)); [|lra].
      apply Rlt_Rpower_l; [|lra]. apply Rdiv_lt_0_compat; unfold c_pd; lra.
Qed.

(** ** occupied cells *)
Lemma ss_unique (l l' : list nat) : StronglySorted lt l -> StronglySorted lt l' -> (forall x, In x l <-> In x l') -> l = l'.
Proof.
  revert l'. induction l as [|a l IH]; intros [|b l'] H1 H2 HI.
  - reflexivity.
  - exfalso. apply (HI b). left. reflexivity.
  - exfalso. apply (HI a). left. reflexivity.
  - inversion H1 as [|? ? S1 F1]; subst. inversion H2 as [|? ? S2 F2]; subst. rewrite Forall_forall in F1, F2.
    assert (E : a = b).
    { destruct (proj1 (HI a) (or_introl eq_refl)) as [E|I1]; [auto|]. destruct (proj2 (HI b) (or_introl eq_refl)) as [E|I2]; [auto|].
      specialize (F2 a I1). specialize (F1 b I2). lia. }
    subst b. f_equal. apply IH; auto. intros x. split; intros I.
    + destruct (proj1 (HI x) (or_intror I)) as [E|I']; [|exact I']. subst. specialize (F1 x I). lia.
    + destruct (proj2 (HI x) (or_intror I)) as [E|I']; [|exact I']. subst. specialize (F2 x I). lia.
Qed.
Lemma runs_in keys c : In c (runs keys) <-> In c keys.
Proof.
  induction keys as [|k keys IH]; [reflexivity|]. cbn [runs]. destruct (runs keys) as [|k' t] eqn:E.
  - split; intros [H|H]; [left; exact H|destruct H|left; exact H|right; apply IH, H].
  - destruct (Nat.eqb_spec k k') as [->|N].
    + rewrite IH. split; [intros H; right; exact H|]. intros [<-|H]; [apply IH; left; reflexivity|exact H].
    + split; intros [H|H]; [left; exact H|right; apply IH, H|left; exact H|right; apply IH, H].
Qed.
Lemma runs_sorted keys : Sorted le keys -> StronglySorted lt (runs keys).
Proof.
  induction keys as [|k keys IH]; intros Hs; [constructor|]. assert (Hs' : Sorted le keys) by (inversion Hs; assumption).
  specialize (IH Hs'). cbn [runs]. pose proof (runs_in keys) as RI. destruct (runs keys) as [|k' t] eqn:E; [repeat constructor|].
  destruct (Nat.eqb_spec k k') as [->|N]; [exact IH|]. constructor; [exact IH|]. rewrite Forall_forall. intros x Hx.
  apply RI in Hx. apply Sorted_StronglySorted in Hs; [|intros a b c; lia]. inversion Hs as [|? ? S1 F1]; subst. rewrite Forall_forall in F1.
  pose proof (F1 x Hx) as L1. destruct (Nat.eq_dec x k) as [->|]; [|lia].
  assert (Hk' : In k' keys) by (apply RI; left; reflexivity). pose proof (F1 k' Hk') as L2.
  assert (Hk : In k (k' :: t)) by (apply RI, Hx). destruct Hk as [Hk|Hk]; [congruence|].
  inversion IH as [|? ? S2 F2]; subst. rewrite Forall_forall in F2. specialize (F2 k Hk). lia.
Qed.
Lemma seq_sorted s n : StronglySorted lt (seq s n).
Proof.
  revert s. induction n as [|n IH]; intros s; [constructor|]. cbn. constructor; [apply IH|]. rewrite Forall_forall. intros x Hx. apply in_seq in Hx. lia.
Qed.
Lemma runs_all np ijk sijk sid nc : sorted_pop np ijk sijk sid -> (forall i, (i < np)%nat -> (ijk i < nc)%nat) ->
  (forall c, (c < nc)%nat -> occupied np ijk c) -> runs sijk = seq 0 nc.
Proof.
  intros Hs Hb Hall. destruct (sorted_facts _ _ _ _ Hs) as (_ & _ & HS). apply ss_unique; [apply runs_sorted, HS|apply seq_sorted|].
  intros x. rewrite runs_in, (occupied_in _ _ _ _ Hs), in_seq. split.
  - intros (i & Hi & <-). specialize (Hb i Hi). lia.
  - intros H. apply Hall. lia.
Qed.
Lemma sorted_len np ijk sijk sid : sorted_pop np ijk sijk sid -> length sijk = length sid.
Proof. intros Hs. destruct (sorted_facts _ _ _ _ Hs) as (_ & HE & _). rewrite HE, map_length. reflexivity. Qed.

(** C26: fields are returned again when there are super-droplets in every cell *)
Theorem C26_fields_partial o X fall sijk sid q st st1 l st2 :
  diag_ok sijk sid st -> (forall c, (c < e_nc (g_E st))%nat -> occupied (p_np (g_P st)) (p_ijk (g_P st)) c) -> field_call q = true ->
  diag o X fall sijk sid q st = Some st1 -> Forall no_quantity l -> acts o X fall sijk sid l st1 = Some st2 ->
  forall cell, fst (outbuf sijk sid st2) cell = fst (outbuf sijk sid st1) cell.
Proof.
  intros (Hs & Hb & _) Hall Hq H HF HA cell. pose proof (sorted_len _ _ _ _ Hs) as Hl.
  pose proof (runs_all _ _ _ _ _ Hs Hb Hall) as HR.
  assert (K1 : keyed sijk st1).
  { unfold diag in H. destruct q; cbn [field_call] in Hq; try discriminate; injection H as <-;
      (split; [rewrite HR, seq_length; reflexivity|]; intros k Hk; rewrite HR; cbn [diag_field g_cn g_cijk] in *;
       rewrite (nth_error_nth' _ O) by (rewrite seq_length; exact Hk); rewrite seq_nth by exact Hk; reflexivity). }
  destruct (acts_keyed o X fall sijk sid l st1 st2 Hl K1 HF HA) as [K2 M]. apply (keyed_same sijk); assumption.
Qed.
(** C26 refuted for moments of in-cloud time when it is not diagnosed: outbuf keeps returning the previous quantity *)
(** C25: calls refused: those about ice without ice, those about chemistry without chemistry; no others *)
Theorem C25_refused o X fall sijk sid c st :
  diag o X fall sijk sid c st = None <->
  match c with
  | c_rng a _ _ _ => (a = r_ice_a \/ a = r_ice_c) /\ o_ice (d_o o) = false
  | c_mom a _ => (a = m_ice_a \/ a = m_ice_c) /\ o_ice (d_o o) = false
  | c_ice _ | c_ice_mix_ratio | c_precip_ice => o_ice (d_o o) = false
  | c_chem _ => d_chem o = false
  | _ => False
  end.
Proof.
  unfold diag. destruct c as [|a f lo hi|f|f| | |a k| | | | | |rad sg| | | |s]; try (split; [discriminate|intros []]);
    try (destruct (o_ice (d_o o)); split; congruence); try (destruct (d_chem o); split; congruence).
  - destruct a, (o_ice (d_o o)); cbn; split; try discriminate; try (intros [[K|K] L]; discriminate); try (intros _; split; auto); reflexivity.
  - destruct a; try (split; [discriminate|intros [[K|K] _]; discriminate]).
    + destruct (o_ice (d_o o)); split; try discriminate; try (intros [_ K]; discriminate); auto.
    + destruct (o_ice (d_o o)); split; try discriminate; try (intros [_ K]; discriminate); auto.
    + destruct (d_ict o); split; try discriminate; intros [[K|K] _]; discriminate.
Qed.

Theorem C26_incloud_refuted o X fall sijk sid k st : d_ict o = false -> diag o X fall sijk sid (c_mom m_ict k) st = Some st.
Proof. intros H. unfold diag. rewrite H. reflexivity. Qed.

(** ** C55: mass density of droplets at a given radius *)
(** Gaussian kernel estimator with bandwidth from the number of super-droplets [cnt] (Shima et al. 2009) *)
Definition kernel_estimate (rad sig0 cnt n rw : R) : R :=
  let sig := sig0 / cpow cnt (1 / 5) in n / sig * rw ^ 3 * exp (- (((ln rw - ln rad) / sig) ^ 2) / 2).
Definition wet_mass_density (P : parts) (E : cells) (S : nat -> bool) (rad sig0 : R) (c : nat) : R :=
  let cnt := cellsum (p_np P) (p_ijk P) (fun _ => 1) c in
  4 / 3 * rho_w * sqrt (PI / 2) *
  sum_selected P S (fun i => kernel_estimate rad sig0 cnt (N2R (p_n P i)) (wet_radius P i)) c / e_dv E c.

Lemma estimator_eq rad sig0 n x cnt : 0 <= x -> mass_dens_estimator rad sig0 n x cnt = kernel_estimate rad sig0 cnt n (sqrt x).
Proof.
  intros H. unfold mass_dens_estimator, kernel_estimate. replace (3 * (1 / 2)) with (3 / 2) by lra. rewrite cpow_3_2 by exact H.
  replace (cpow x (1 / 2)) with (sqrt x); [reflexivity|]. unfold cpow. destruct (Rlt_dec 0 x) as [L|L].
  - rewrite <- Rpower_sqrt by exact L. f_equal. lra.
  - replace x with 0 by lra. rewrite sqrt_0. destruct (Req_EM_T (1 / 2) 0); lra.
Qed.
Lemma count_at np ijk sijk sid nc st c : sorted_pop np ijk sijk sid -> (forall i, (i < np)%nat -> (ijk i < nc)%nat) ->
  (forall c, (c < nc)%nat -> occupied np ijk c) -> (c < nc)%nat ->
  g_cnum (hskpng_count sijk sid st) c = cellsum np ijk (fun _ => 1) c.
Proof.
  intros Hs Hb Hall Hc. unfold hskpng_count. cbn [g_cnum]. pose proof (runs_all _ _ _ _ _ Hs Hb Hall) as HR.
  pose proof (sorted_len _ _ _ _ Hs) as Hl.
  destruct (sums_spec _ _ _ _ Hs (fun _ => 1)) as (N & _ & L & _). specialize (L c (Hall c Hc)).
  set (kvs := run_sums sijk (map (fun _ : nat => 1) sid)) in *.
  assert (K : map fst kvs = seq 0 nc) by (unfold kvs; rewrite run_sums_keys by (rewrite map_length; exact Hl); exact HR).
  clearbody kvs. assert (G : forall kvs s n, map fst kvs = seq s n -> (c < s + n)%nat -> (s <= c)%nat -> lookup c kvs = nth_error (map snd kvs) (c - s)).
  { clear. induction kvs as [|(k, v) kvs IH]; intros s n E H1 H2; cbn in E.
    - destruct n; [lia|discriminate].
    - destruct n as [|n]; [discriminate|]. cbn in E. injection E as -> E. cbn [lookup map snd].
      destruct (Nat.eqb_spec s c) as [->|N]; [rewrite Nat.sub_diag; reflexivity|].
      rewrite (IH (S s) n E) by lia. replace (c - s)%nat with (S (c - S s)) by lia. reflexivity. }
  specialize (G kvs O nc K ltac:(lia) ltac:(lia)). rewrite Nat.sub_0_r in G. unfold put. rewrite <- G, L. reflexivity.
Qed.

(** C55: right when there are super-droplets in every cell *)
Theorem C55_mass_density_partial o X fall sijk sid c0 r st st1 S0 rad sig0 st2 :
  diag_ok sijk sid st -> Forall range_ok (c0 :: r) -> starts c0 -> diags o X fall sijk sid (c0 :: r) st = Some st1 ->
  (forall c, (c < e_nc (g_E st1))%nat -> occupied (p_np (g_P st1)) (p_ijk (g_P st1)) c) ->
  diag o X fall sijk sid (c_mass_dens rad sig0) st1 = Some st2 ->
  forall cell, (cell < e_nc (g_E st1))%nat ->
  fst (outbuf sijk sid st2) cell = wet_mass_density (g_P st1) (g_E st1) (selected o X fall sijk sid (c0 :: r) st S0) rad sig0 cell.
Proof.
  intros Hok Hr Hc Hd Hall H cell Hcell.
  destruct (moments_holds o X fall sijk sid c0 r st st1 S0 Hok Hr Hc Hd) as [HS (Hs & Hb & Hw & _)].
  unfold diag in H. injection H as <-. unfold outbuf. cbn [fst]. unfold mass_dens. rewrite outbuf_set_mom.
  set (S := selected o X fall sijk sid (c0 :: r) st S0) in *. clearbody S.
  cbn [g_P g_E g_sel hskpng_count]. set (P := g_P st1) in *. set (E := g_E st1) in *.
  rewrite (scatter_sums (p_np P) (p_ijk P) _ _ Hs (fun _ v => v) (fun c v => 4 / 3 * rho_w * sqrt (PI / 2) * v / e_dv E c)).
  match goal with |- (if ?d then _ else _) = _ => destruct d as [K|K] end; [|exfalso; apply K, Hall, Hcell].
  unfold wet_mass_density. f_equal. f_equal. unfold sum_selected. apply cellsum_ext. intros i Hi Hic.
  rewrite estimator_eq by apply Hw. fold (wet_radius P i). rewrite Hic.
  change (put (map snd (run_sums sijk (map (fun _ : nat => 1) sid))) (g_cnum st1) cell) with (g_cnum (hskpng_count sijk sid st1) cell).
  rewrite (count_at (p_np P) (p_ijk P) sijk sid (e_nc E) st1 cell Hs Hb Hall Hcell).
  rewrite (HS i). fold P. destruct (S i); [reflexivity|]. unfold kernel_estimate, Rdiv. ring.
Qed.

(** C55 refuted with an empty cell: the numbers of super-droplets are stored for occupied cells only, one after another, but read at the number
    of the cell.  Cell 0 empty, one super-droplet in cell 1, 32 in cell 2: the estimate in cell 1 is made with the bandwidth of cell 2
    and is twice too large *)
Definition three_cells : cells :=
  mk_cells 3 (fun _ => 1 / 100) (fun _ => 300) (fun _ => 1) (fun _ => 100000) (fun _ => 0) (fun _ => 0) (fun _ => 0) (fun _ => 0) (fun _ => 1).
Definition drops33 : parts :=
  mk_parts 33 (fun i => if (i =? 0)%nat then 1%nat else 2%nat) (fun _ => 1000%N) (fun _ => 1 / 10 ^ 10) (fun _ => 1 / 10 ^ 21) (fun _ => 1) (fun _ => 0)
    (fun _ => 0) (fun _ => 0) (fun _ => 0) (fun _ => 0) (fun _ => 0) (fun _ => 0).
Definition state33 : dst := mk_dst drops33 three_cells (fun _ => 0) (fun _ => O) (fun _ => 0) (fun _ => 0) O.
Definition sijk33 : list nat := map (p_ijk drops33) (seq 0 33).

Lemma fifth_root_32 : cpow 32 (1 / 5) = 2.
Proof.
  unfold cpow. destruct (Rlt_dec 0 32); [|lra]. replace 32 with (Rpower 2 5).
  - rewrite Rpower_mult. replace (5 * (1 / 5)) with 1 by lra. apply Rpower_1. lra.
  - replace 5 with (INR 5) by (cbn; lra). rewrite Rpower_pow by lra. lra.
Qed.
Lemma cpow_1_l y : cpow 1 y = 1.
Proof. unfold cpow. destruct (Rlt_dec 0 1); [|lra]. unfold Rpower. rewrite ln_1, Rmult_0_r. apply exp_0. Qed.

Theorem C55_mass_density_refuted o X fall sig0 : 0 < sig0 ->
  let rad := 1 / 10 ^ 5 in
  diag_ok sijk33 (seq 0 33) state33 /\
  exists st1 st2, diags o X fall sijk33 (seq 0 33) [c_all] state33 = Some st1 /\ diag o X fall sijk33 (seq 0 33) (c_mass_dens rad sig0) st1 = Some st2 /\
  let right := wet_mass_density drops33 three_cells (fun _ => true) rad sig0 1 in
  0 < right /\ fst (outbuf sijk33 (seq 0 33) st2) 1%nat = 2 * right.
Proof.
  intros Hsig rad.
  assert (Hs : sorted_pop 33 (p_ijk drops33) sijk33 (seq 0 33)) by (apply sorted_pop_id; cbn; repeat (constructor; try lia)).
  split.
  - unfold diag_ok, state33. cbn [g_P g_E]. split; [exact Hs|].
    unfold drops33, three_cells; cbn [p_np p_ijk p_rw2 p_rd3 e_nc e_rhod e_dv].
    split; [intros i _; destruct (i =? 0)%nat; lia|]. repeat split; intros; lra.
  - eexists. eexists. split; [reflexivity|]. split; [reflexivity|]. intros right.
    assert (Hrw : sqrt (1 / 10 ^ 10) = rad).
    { unfold rad. replace (1 / 10 ^ 10) with ((1 / 10 ^ 5) * (1 / 10 ^ 5)) by lra. apply sqrt_square. lra. }
    assert (Hke : forall cnt, kernel_estimate rad sig0 cnt (N2R 1000) rad = N2R 1000 / (sig0 / cpow cnt (1 / 5)) * rad ^ 3).
    { intros cnt. unfold kernel_estimate. replace ((ln rad - ln rad) / (sig0 / cpow cnt (1 / 5))) with 0 by (unfold Rdiv; ring).
      replace (- 0 ^ 2 / 2) with 0 by lra. rewrite exp_0. ring. }
    assert (HC : forall w, cellsum 33 (p_ijk drops33) w 1 = w O).
    { intros w. unfold cellsum. cbn [sumR drops33 p_ijk Nat.eqb]. ring. }
    assert (Hright : right = 4 / 3 * rho_w * sqrt (PI / 2) * (N2R 1000 / sig0 * rad ^ 3)).
    { unfold right, wet_mass_density, sum_selected. change (p_np drops33) with 33%nat. rewrite !HC. change (wet_radius drops33 0) with (sqrt (1 / 10 ^ 10)).
      change (p_n drops33 0) with 1000%N. rewrite Hrw, Hke, cpow_1_l. change (e_dv three_cells 1) with 1. field. lra. }
    assert (Hpos : 0 < sqrt (PI / 2)) by (apply sqrt_lt_R0; pose proof PI_RGT_0; lra).
    assert (Hn : 0 < N2R 1000) by (unfold N2R; cbn [Z.of_N]; lra).
    split.
    + rewrite Hright. apply Rmult_lt_0_compat; [|apply Rmult_lt_0_compat].
      * unfold rho_w. lra.
      * apply Rdiv_lt_0_compat; assumption.
      * unfold rad. lra.
    + unfold outbuf. cbn [fst]. unfold mass_dens. rewrite outbuf_set_mom.
      cbn [g_P g_E g_sel hskpng_count set_sel state33].
      rewrite (scatter_sums 33 (p_ijk drops33) _ _ Hs (fun _ v => v) (fun c v => 4 / 3 * rho_w * sqrt (PI / 2) * v / e_dv three_cells c)).
      match goal with |- (if ?d then _ else _) = _ => destruct d as [K|K] end; [|exfalso; apply K; exists O; split; [lia|reflexivity]].
      rewrite HC. rewrite estimator_eq by (cbn [drops33 p_rw2]; lra). change (p_rw2 drops33 0) with (1 / 10 ^ 10). rewrite Hrw.
      change (n_real drops33 0) with (N2R 1000). change (p_ijk drops33 0) with 1%nat.
      rewrite Hke.
      match goal with |- context [cpow ?t (1 / 5)] => replace t with 32 end.
      * rewrite fifth_root_32, Hright. change (e_dv three_cells 1) with 1. field. lra.
      * unfold sijk33, drops33, hskpng_count. cbn [g_cnum p_ijk map seq Nat.eqb run_sums]. unfold put. cbn [map snd nth_error]. lra.
Qed.

(** a case that meets the hypotheses of C25, C26: super-droplets in two cells, three calls *)
Theorem C25_instance o X fall : d_o o = vent_opts 1 ->
  exists st1 st2, diags o X fall sijk33 (seq 0 33) [c_rng r_wet false 0 1; c_rng r_kappa true (1 / 2) 2; c_sd_conc] state33 = Some st1 /\
  diag o X fall sijk33 (seq 0 33) (c_mom m_wet 3) st1 = Some st2 /\
  fst (outbuf sijk33 (seq 0 33) st2) 1%nat = 1 / 10 ^ 12 /\ fst (outbuf sijk33 (seq 0 33) st2) 0%nat = 0.
Proof.
  intros Ho.
  assert (Hs : sorted_pop 33 (p_ijk drops33) sijk33 (seq 0 33)) by (apply sorted_pop_id; cbn; repeat (constructor; try lia)).
  assert (Hok : diag_ok sijk33 (seq 0 33) state33).
  { unfold diag_ok, state33. cbn [g_P g_E]. split; [exact Hs|].
    unfold drops33, three_cells; cbn [p_np p_ijk p_rw2 p_rd3 e_nc e_rhod e_dv].
    split; [intros i _; destruct (i =? 0)%nat; lia|]. repeat split; intros; lra. }
  assert (Hrw : sqrt (1 / 10 ^ 10) = 1 / 10 ^ 5).
  { replace (1 / 10 ^ 10) with ((1 / 10 ^ 5) * (1 / 10 ^ 5)) by lra. apply sqrt_square. lra. }
  eexists. eexists. split; [reflexivity|]. split; [reflexivity|].
  pose proof (fun st1 st2 H1 H2 H3 => C25_moment o X fall sijk33 (seq 0 33) (c_rng r_wet false 0 1) [c_rng r_kappa true (1 / 2) 2; c_sd_conc] state33 st1
    (fun _ => true) m_wet 3 st2 Hok H1 I H2 H3) as HM.
  specialize (HM _ _ ltac:(repeat constructor; cbn [range_ok is_radius]; intros; try discriminate; lra) eq_refl eq_refl ltac:(intros K; discriminate)).
  split.
  - rewrite HM by (cbn; lia). clear HM.
    assert (HC : forall w, cellsum 33 (p_ijk drops33) w 1 = w O).
    { intros w. unfold cellsum. cbn [sumR drops33 p_ijk Nat.eqb]. ring. }
    unfold sum_selected. etransitivity; [apply f_equal2; [apply HC|reflexivity]|].
    unfold air_mass. rewrite Ho. cbn [vent_opts o_parcel].
    change (e_rhod _ 1%nat * e_dv _ 1%nat) with (1 * 1).
    set (S := selected _ _ _ _ _ _ _ _ _).
    assert (HS : S = true).
    { unfold S. cbn [selected diag needs_ice andb g_P g_E set_sel set_mom select state33 both rng_value].
      unfold both, within, wet_radius. cbn [drops33 p_rw2 p_kpa]. rewrite Hrw.
      destruct (Rle_dec (1 / 2) 1); [|lra]. destruct (Rlt_dec 1 2); [|lra]. destruct (Rle_dec 0 (1 / 10 ^ 5)); [|lra]. destruct (Rlt_dec (1 / 10 ^ 5) 1); [reflexivity|lra]. }
    clearbody S. subst S. cbn [set_mom set_sel g_P state33 mom_value]. unfold wet_radius. cbn [drops33 p_n p_rw2]. rewrite Hrw. unfold N2R. cbn [Z.of_N]. lra.
  - rewrite HM by (cbn; lia). clear HM.
    unfold sum_selected. rewrite cellsum_empty; [unfold Rdiv; ring|]. intros (i & _ & K). unfold state33 in K. cbn in K. destruct (i =? 0)%nat; discriminate.
Qed.

(** C25 refuted for ranges of wet radius that start below zero: the bound is squared before the comparison, so that every droplet, though
    within [-1, 1), is left out *)
Theorem C25_negative_bound_refuted o X fall st st' i :
  diag o X fall sijk33 (seq 0 33) (c_rng r_wet false (-1) 1) st = Some st' -> g_sel st' i = 0.
Proof.
  unfold diag. cbn [needs_ice andb]. intros H. injection H as <-. cbn [g_sel set_sel rng_bound rng_vec]. unfold range_filter.
  destruct (Rleb _ _ && Rltb _ _)%bool eqn:E; [|reflexivity]. apply andb_prop in E. destruct E as [E1 E2].
  apply Rleb_true in E1. apply Rltb_true in E2. lra.
Qed.

Print Assumptions C25_selection.
Print Assumptions C25_fresh.
Print Assumptions C25_moment.
Print Assumptions C25_max_rw.
Print Assumptions C25_other_quantities.
Print Assumptions C25_state.
Print Assumptions C25_precip_rate_refuted.
Print Assumptions C26_repeated_partial.
Print Assumptions C26_fields.
Print Assumptions C26_fields_refuted.
Print Assumptions C26_fields_partial.
Print Assumptions C26_incloud_refuted.
Print Assumptions C55_mass_density_partial.
Print Assumptions C55_mass_density_refuted.
Print Assumptions C25_instance.
Print Assumptions C25_negative_bound_refuted.

Print Assumptions C25_refused.
