(** outcome of one candidate pair *)
From Coq Require Import List Arith NArith ZArith Lia Reals Lra Permutation Sorted Bool.
From Verif Require Import Base BaseProofs HskpngModel HskpngProofs CoalModel CoalProofs.
Import ListNotations.
Local Open Scope R_scope.

(** [X] (the more numerous one) and [Y] collide [c] times *)
Record merged (o : copts) (c : N) (X Y X' Y' : sd) : Prop := {
  mg_n_le   : (c * n Y <= n X)%N;
  mg_nX     : n X' = (n X - c * n Y)%N;
  mg_nY     : n Y' = n Y;
  mg_X      : rw2 X' = rw2 X /\ rd3 X' = rd3 X /\ vt X' = vt X /\ kpa X' = kpa X /\
              (forall k, chem X' k = chem X k) /\ ict X' = ict X /\ rc2 X' = rc2 X /\ pos X' = pos X;
  mg_rw_pos : 0 <= rw2 Y';
  mg_rw     : sqrt (rw2 Y') ^ 3 = N2R c * sqrt (rw2 X) ^ 3 + sqrt (rw2 Y) ^ 3;
  mg_rd3    : rd3 Y' = N2R c * rd3 X + rd3 Y;
  mg_vt     : vt Y' = -1;
  mg_chem   : forall k, chem Y' k =
                if chem_switch o && (k <? 8)%nat then chem Y k + N2R c * chem X k else chem Y k;
  mg_kpa    : if (1 <? n_dry_distros o + n_dry_sizes o)%nat
              then 0 <= rd3 X -> 0 < rd3 Y ->
                   kpa Y' * (N2R c * rd3 X + rd3 Y) = N2R c * (kpa X * rd3 X) + kpa Y * rd3 Y
              else kpa Y' = kpa Y;
  mg_ict    : ict Y' = if diag_incloud_time o then Rmax (ict X) (ict Y) else ict Y;
  mg_rc2    : rc2 Y' = if act_sstp o then -1 else rc2 Y;
  mg_pos    : pos Y' = pos Y
}.

(** number of collisions for probability [p], random number [u], before limiting *)
Definition collisions (p u : R) (c : N) : Prop :=
  exists f : N, N2R f <= p < N2R f + 1 /\
    c = if Rlt_dec u (p - N2R f) then (f + 1)%N else f.
(** limited by the ratio of multiplicities *)
Definition limited (c : N) (nX nY : N) : N := if (nY =? 0)%N then c else N.min c (nX / nY).

Definition pair_outcome (o : copts) (p u : R) (A B A' B' : sd) : Prop :=
  exists c1, collisions p u c1 /\
   ((c1 = 0%N /\ A' = A /\ B' = B) \/
    ((0 < c1)%N /\ (n B <= n A)%N /\ merged o (limited c1 (n A) (n B)) A B A' B') \/
    ((0 < c1)%N /\ (n A < n B)%N /\ merged o (limited c1 (n B) (n A)) B A B' A')).

(** ** the follow-up functors seen as updates of the less numerous one *)
Definition h_chem (c : N) (k : nat) (X Y : sd) := set_chem Y k (chem Y k + N2R c * chem X k).
Definition h_kpa (c : N) (X Y : sd) :=
  set_kpa Y (mix (N.to_nat c) (kpa X) (rd3 X) (kpa Y) (rd3 Y - N2R c * rd3 X)).
Definition h_ict (X Y : sd) := set_ict Y (Rmax (ict X) (ict Y)).
Definition h_rc2 (X Y : sd) := set_rc2 Y (-1).
Definition hs (o : copts) (c : N) : list (sd -> sd -> sd) :=
  (if chem_switch o then map (h_chem c) (seq 0 chem_all) else []) ++
  (if mix_kappa_on o then [h_kpa c] else []) ++
  (if diag_incloud_time o then [h_ict] else []) ++
  (if act_sstp o then [h_rc2] else []).

Definition acts (c : N) (f : R -> R -> sd -> sd -> option (sd * sd)) (h : sd -> sd -> sd) : Prop :=
  forall X Y, f (N2R c) na_ge_nb X Y = Some (X, h X Y) /\ f (N2R c) nb_gt_na Y X = Some (h X Y, X).

Lemma Reqb_refl x : Reqb x x = true.
Proof. now apply Reqb_true. Qed.
Lemma Reqb_na : Reqb nb_gt_na na_ge_nb = false.
Proof. apply Reqb_false. unfold nb_gt_na, na_ge_nb. lra. Qed.
Lemma truncN_N2R c : truncN (N2R c) = c.
Proof. apply truncN_unique. lra. Qed.
Lemma N2R_pos c : (0 < c)%N -> 0 < N2R c.
Proof. intros H. change 0 with (N2R 0). now apply N2R_lt. Qed.
Lemma Rleb_pos c : (0 < c)%N -> Rleb (N2R c) 0 = false.
Proof. intros H. apply Rleb_false. now apply N2R_pos. Qed.

Lemma acts_all o c : (0 < c)%N -> Forall2 (acts c) (follow_ups o) (hs o c).
Proof.
  intros Hc. unfold follow_ups, hs. repeat apply Forall2_app.
  - destruct (chem_switch o); [|constructor].
    generalize (seq 0 chem_all). intros l. induction l as [|k l IH]; constructor; auto.
    intros X Y. unfold summator, h_chem. now rewrite Rleb_pos, Reqb_refl, Reqb_na.
  - destruct (mix_kappa_on o); constructor; [|constructor].
    intros X Y. unfold weighted_summator, h_kpa. now rewrite Rleb_pos, Reqb_refl, Reqb_na, truncN_N2R.
  - destruct (diag_incloud_time o); constructor; [|constructor].
    intros X Y. unfold selector, h_ict. rewrite Rleb_pos, Reqb_refl, Reqb_na, !cmax_Rmax by auto.
    now rewrite (Rmax_comm (ict Y)).
  - destruct (act_sstp o); constructor; [|constructor].
    intros X Y. unfold invalidator, h_rc2, invalid. now rewrite Rleb_pos, Reqb_refl, Reqb_na.
Qed.

Lemma fold_na c fs hl X Y :
  Forall2 (acts c) fs hl ->
  fold_left (fun ab f => app_f f (N2R c) na_ge_nb ab) fs (X, Y) =
  (X, fold_left (fun y h => h X y) hl Y).
Proof.
  intros H. revert Y. induction H as [|f h fs hl Hf Hr IH]; intros Y; cbn; [reflexivity|].
  unfold app_f at 2. cbn. destruct (Hf X Y) as [-> _]. apply IH.
Qed.
Lemma fold_nb c fs hl X Y :
  Forall2 (acts c) fs hl ->
  fold_left (fun ab f => app_f f (N2R c) nb_gt_na ab) fs (Y, X) =
  (fold_left (fun y h => h X y) hl Y, X).
Proof.
  intros H. revert Y. induction H as [|f h fs hl Hf Hr IH]; intros Y; cbn; [reflexivity|].
  unfold app_f at 2. cbn. destruct (Hf X Y) as [_ ->]. apply IH.
Qed.
Lemma fold_quiet fs ab kb : (forall f, In f fs -> quiet f) ->
  fold_left (fun ab f => app_f f 0 kb ab) fs ab = ab.
Proof.
  revert ab. induction fs as [|f fs IH]; intros ab H; cbn; [reflexivity|].
  unfold app_f at 2. rewrite (H f); [|left; auto|lra]. apply IH. intros; apply H; right; auto.
Qed.

(** chemicals *)
Lemma chem_fold c X l Y : NoDup l ->
  let Y' := fold_left (fun y h => h X y) (map (h_chem c) l) Y in
  n Y' = n Y /\ rw2 Y' = rw2 Y /\ rd3 Y' = rd3 Y /\ vt Y' = vt Y /\ kpa Y' = kpa Y /\
  ict Y' = ict Y /\ rc2 Y' = rc2 Y /\ pos Y' = pos Y /\
  forall k, chem Y' k = if in_dec Nat.eq_dec k l then chem Y k + N2R c * chem X k else chem Y k.
Proof.
  revert Y. induction l as [|j l IH]; intros Y HN; cbn [map fold_left].
  - cbn. repeat split; auto.
  - inversion HN as [|? ? Hni HN']; subst.
    destruct (IH (h_chem c j X Y) HN') as (H1 & H2 & H3 & H4 & H5 & H6 & H7 & H8 & H9).
    do 8 (split; [assumption|]).
    intros k. rewrite H9. cbn [h_chem set_chem chem]. unfold upd.
    destruct (Nat.eqb_spec k j) as [E|E]; destruct (in_dec Nat.eq_dec k l) as [I|I];
      destruct (in_dec Nat.eq_dec k (j :: l)) as [I'|I']; subst; cbn in I'; try tauto; try reflexivity.
    exfalso. destruct I' as [I'|I']; congruence.
Qed.

Lemma mix_spec m kx x ky y : 0 <= x -> 0 < y ->
  mix m kx x ky y * (INR m * x + y) = INR m * (kx * x) + ky * y.
Proof.
  revert ky y. induction m as [|m IH]; intros ky y Hx Hy; [cbn; lra|].
  cbn [mix]. rewrite S_INR.
  replace ((INR m + 1) * x + y) with (INR m * x + (y + x)) by ring.
  rewrite IH by lra. field. lra.
Qed.
Lemma INR_N2R c : INR (N.to_nat c) = N2R c.
Proof. unfold N2R. now rewrite INR_IZR_INZ, N_nat_Z. Qed.

Lemma sqrt_cube x : 0 <= x -> sqrt x ^ 3 = x * sqrt x.
Proof. intros H. cbn. rewrite Rmult_1_r, <- Rmult_assoc, sqrt_sqrt; auto. Qed.

(** wet radius *)
Lemma wet_radius c x y : 0 <= x -> 0 <= y ->
  let r := cbrt (N2R c * x * sqrt x + y * sqrt y) in
  0 <= r * r /\ sqrt (r * r) ^ 3 = N2R c * sqrt x ^ 3 + sqrt y ^ 3.
Proof.
  intros Hx Hy r. pose proof (N2R_nonneg c) as Hc.
  assert (0 <= N2R c * x * sqrt x + y * sqrt y) as Hnn.
  { pose proof (sqrt_pos x). pose proof (sqrt_pos y).
    assert (0 <= N2R c * x * sqrt x) by (repeat apply Rmult_le_pos; auto).
    assert (0 <= y * sqrt y) by (apply Rmult_le_pos; auto). lra. }
  destruct (cbrt_cube_nonneg _ Hnn) as [Hr Hr3]. fold r in Hr, Hr3.
  split; [nra|]. rewrite sqrt_square by auto.
  rewrite !sqrt_cube by auto. rewrite <- Rmult_assoc. cbn. lra.
Qed.

Lemma sub64_ok a b c : (a < 2 ^ 64)%N -> (c * b <= a)%N -> sub64 a (mul64 c b) = (a - c * b)%N.
Proof.
  intros Ha Hc.
  assert (mul64 c b = (c * b)%N) as ->.
  { unfold mul64. rewrite wrap64_small; [rewrite <- N2Z.inj_mul; apply N2Z.id|].
    split; [lia|]. unfold W64. change 18446744073709551616%Z with (Z.of_N (2 ^ 64)). lia. }
  unfold sub64. rewrite wrap64_small.
  - rewrite <- N2Z.inj_sub by auto. apply N2Z.id.
  - unfold W64. change 18446744073709551616%Z with (Z.of_N (2 ^ 64)). lia.
Qed.

Lemma limited_le c x y : (limited c x y * y <= x)%N.
Proof.
  unfold limited. destruct (N.eqb_spec y 0) as [->|H]; [lia|].
  pose proof (N.mul_div_le x y H). pose proof (N.le_min_r c (x / y)). nia.
Qed.
Lemma limited_pos c x y : (0 < c)%N -> (y <= x)%N -> (0 < limited c x y)%N.
Proof.
  intros Hc H. unfold limited. destruct (N.eqb_spec y 0) as [->|H0]; [auto|].
  assert (1 <= x / y)%N by (apply N.div_le_lower_bound; lia). lia.
Qed.
Lemma limited_code c x y : (if (0 <? y)%N then N.min c (x / y) else c) = limited c x y.
Proof. unfold limited. destruct (N.ltb_spec 0 y), (N.eqb_spec y 0); auto; lia. Qed.

Lemma merged_ok o c X Y :
  (n X < 2 ^ 64)%N -> (c * n Y <= n X)%N -> (0 < c)%N -> 0 <= rw2 X -> 0 <= rw2 Y ->
  merged o c X Y (fst (collide c X Y))
         (fold_left (fun y h => h (fst (collide c X Y)) y) (hs o c) (snd (collide c X Y))).
Proof.
  intros Hn Hc Hpos HX HY.
  set (X1 := fst (collide c X Y)). set (Y1 := snd (collide c X Y)).
  (* split the list of updates *)
  unfold hs. rewrite !fold_left_app.
  set (Y2 := fold_left _ (if chem_switch o then _ else _) Y1).
  assert (H2 : n Y2 = n Y1 /\ rw2 Y2 = rw2 Y1 /\ rd3 Y2 = rd3 Y1 /\ vt Y2 = vt Y1 /\ kpa Y2 = kpa Y1 /\
     ict Y2 = ict Y1 /\ rc2 Y2 = rc2 Y1 /\ pos Y2 = pos Y1 /\
     forall k, chem Y2 k = if chem_switch o && (k <? 8)%nat then chem Y1 k + N2R c * chem X1 k else chem Y1 k).
  { unfold Y2. destruct (chem_switch o); [|cbn; repeat split; auto].
    destruct (chem_fold c X1 (seq 0 chem_all) Y1 (seq_NoDup _ _))
      as (E1 & E2 & E3 & E4 & E5 & E6 & E7 & E8 & E9).
    repeat split; auto. intros k. rewrite E9.
    destruct (in_dec Nat.eq_dec k (seq 0 chem_all)) as [Hin|Hni].
    - apply in_seq in Hin. unfold chem_all in Hin. destruct (Nat.ltb_spec k 8); [reflexivity|lia].
    - destruct (Nat.ltb_spec k 8) as [Hk|Hk]; [|reflexivity].
      exfalso. apply Hni. apply in_seq. unfold chem_all. lia. }
  clearbody Y2. destruct H2 as (E1 & E2 & E3 & E4 & E5 & E6 & E7 & E8 & E9).
  set (Y3 := fold_left _ (if mix_kappa_on o then _ else _) Y2).
  assert (H3 : n Y3 = n Y2 /\ rw2 Y3 = rw2 Y2 /\ rd3 Y3 = rd3 Y2 /\ vt Y3 = vt Y2 /\ chem Y3 = chem Y2 /\
     ict Y3 = ict Y2 /\ rc2 Y3 = rc2 Y2 /\ pos Y3 = pos Y2 /\
     kpa Y3 = if (1 <? n_dry_distros o + n_dry_sizes o)%nat
              then mix (N.to_nat c) (kpa X1) (rd3 X1) (kpa Y2) (rd3 Y2 - N2R c * rd3 X1) else kpa Y2).
  { unfold Y3, mix_kappa_on. destruct (1 <? n_dry_distros o + n_dry_sizes o)%nat; cbn; repeat split; auto. }
  clearbody Y3. destruct H3 as (F1 & F2 & F3 & F4 & F5 & F6 & F7 & F8 & F9).
  set (Y4 := fold_left _ (if diag_incloud_time o then _ else _) Y3).
  assert (H4 : n Y4 = n Y3 /\ rw2 Y4 = rw2 Y3 /\ rd3 Y4 = rd3 Y3 /\ vt Y4 = vt Y3 /\ chem Y4 = chem Y3 /\
     kpa Y4 = kpa Y3 /\ rc2 Y4 = rc2 Y3 /\ pos Y4 = pos Y3 /\
     ict Y4 = if diag_incloud_time o then Rmax (ict X1) (ict Y3) else ict Y3).
  { unfold Y4. destruct (diag_incloud_time o); cbn; repeat split; auto. }
  clearbody Y4. destruct H4 as (G1 & G2 & G3 & G4 & G5 & G6 & G7 & G8 & G9).
  set (Y5 := fold_left _ (if act_sstp o then _ else _) Y4).
  assert (H5 : n Y5 = n Y4 /\ rw2 Y5 = rw2 Y4 /\ rd3 Y5 = rd3 Y4 /\ vt Y5 = vt Y4 /\ chem Y5 = chem Y4 /\
     kpa Y5 = kpa Y4 /\ ict Y5 = ict Y4 /\ pos Y5 = pos Y4 /\
     rc2 Y5 = if act_sstp o then -1 else rc2 Y4).
  { unfold Y5. destruct (act_sstp o); cbn; repeat split; auto. }
  clearbody Y5. destruct H5 as (K1 & K2 & K3 & K4 & K5 & K6 & K7 & K8 & K9).
  destruct (wet_radius c (rw2 X) (rw2 Y) HX HY) as [Hw1 Hw2].
  constructor.
  - exact Hc.
  - unfold X1, collide. cbn. now apply sub64_ok.
  - rewrite K1, G1, F1, E1. reflexivity.
  - unfold X1, collide. cbn. repeat split; auto.
  - rewrite K2, G2, F2, E2. exact Hw1.
  - rewrite K2, G2, F2, E2. exact Hw2.
  - rewrite K3, G3, F3, E3. reflexivity.
  - rewrite K4, G4, F4, E4. unfold Y1, collide, invalid. cbn. lra.
  - intros k. rewrite K5, G5, F5, E9. reflexivity.
  - rewrite K6, G6, F9. destruct (1 <? n_dry_distros o + n_dry_sizes o)%nat.
    + intros Hx Hy. rewrite E5, E3. unfold X1, Y1, collide. cbn [fst snd rd3 kpa].
      replace (N2R c * rd3 X + rd3 Y - N2R c * rd3 X) with (rd3 Y) by ring.
      rewrite <- INR_N2R. now apply mix_spec.
    + rewrite E5. reflexivity.
  - rewrite K7, G9, F6, E6. reflexivity.
  - rewrite K9, G7, F7, E7. reflexivity.
  - rewrite K8, G8, F8, E8. reflexivity.
Qed.

Section PairOutcome.
  Variable kernel : nat -> sd -> sd -> R.
  Variable dt : R.
  Variable dv : nat -> R.
  Variable o : copts.
  Variable n_cell : nat.
  Variable garbage_r : nat -> R.
  Variable sorted_ijk : list nat.
  Notation prob := (prob kernel dt dv n_cell garbage_r sorted_ijk).
  Notation cpair := (collider_pair kernel dt dv o n_cell garbage_r sorted_ijk).

  Lemma cpair_flag cell a b u :
    snd (cpair cell a b u) = (pure_const_multi o && (1 <=? truncN (prob cell a b))%N).
  Proof.
    unfold collider_pair. fold (prob cell a b).
    match goal with |- context [(?x =? 0)%N] => destruct (x =? 0)%N end; [reflexivity|].
    destruct (n b <=? n a)%N; unfold collide; reflexivity.
  Qed.
  Lemma cpair_kb cell a b u : snd (fst (cpair cell a b u)) <= 0.
  Proof.
    unfold collider_pair.
    match goal with |- context [(?x =? 0)%N] => destruct (x =? 0)%N end; [cbn; lra|].
    destruct (n b <=? n a)%N; unfold collide; cbn; unfold na_ge_nb, nb_gt_na; lra.
  Qed.

  Lemma pair_outcome_ok cell a b u :
    0 <= prob cell a b -> (n a < 2 ^ 64)%N -> (n b < 2 ^ 64)%N -> 0 <= rw2 a -> 0 <= rw2 b ->
    let '(a1, b1, ka, kb, _) := cpair cell a b u in
    let ab := fold_left (fun ab f => app_f f ka kb ab) (follow_ups o) (a1, b1) in
    pair_outcome o (prob cell a b) u a b (fst ab) (snd ab).
  Proof.
    intros Hp Hna Hnb Hra Hrb. unfold collider_pair. fold (prob cell a b).
    set (pr := prob cell a b) in *.
    set (c0 := truncN pr).
    set (c1 := if Rltb u (pr - N2R c0) then (c0 + 1)%N else c0).
    assert (Hcol : collisions pr u c1).
    { exists c0. split; [apply N2R_truncN; auto|]. unfold c1, Rltb.
      now destruct (Rlt_dec u (pr - N2R c0)). }
    clearbody c1. destruct (N.eqb_spec c1 0) as [E|E].
    - rewrite fold_quiet by (intros; eapply quiet_follow_ups; eauto).
      exists c1. split; auto.
    - assert (0 < c1)%N as Hc1 by lia.
      destruct (N.leb_spec (n b) (n a)) as [Hle|Hlt].
      + rewrite limited_code. set (c := limited c1 (n a) (n b)).
        assert (0 < c)%N by (now apply limited_pos).
        destruct (collide c a b) as [a1 b1] eqn:Ec.
        rewrite (fold_na c _ (hs o c)) by (now apply acts_all).
        cbn [fst snd]. exists c1. split; auto. right. left. split; [exact Hc1|]. split; [exact Hle|]. fold c.
        replace a1 with (fst (collide c a b)) by (now rewrite Ec).
        replace b1 with (snd (collide c a b)) by (now rewrite Ec).
        apply merged_ok; auto. apply limited_le.
      + rewrite limited_code. set (c := limited c1 (n b) (n a)).
        assert (0 < c)%N by (apply limited_pos; auto; lia).
        destruct (collide c b a) as [b1 a1] eqn:Ec.
        rewrite (fold_nb c _ (hs o c)) by (now apply acts_all).
        cbn [fst snd]. exists c1. split; auto. right. right. split; [exact Hc1|]. split; [exact Hlt|]. fold c.
        replace b1 with (fst (collide c b a)) by (now rewrite Ec).
        replace a1 with (snd (collide c b a)) by (now rewrite Ec).
        apply merged_ok; auto. apply limited_le.
  Qed.
End PairOutcome.
