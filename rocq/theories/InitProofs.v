(** * Creation of super-droplets: auxiliary proofs *)
From Coq Require Import List Arith NArith ZArith Reals Bool Lia Lra.
From Verif Require Import Base BaseProofs SpaceModel InitModel.
Import ListNotations.
Open Scope R_scope.

(** ** cells *)
Lemma exscan_S counts c : (c < length counts)%nat -> exscan counts (S c) = (exscan counts c + nth c counts 0%nat)%nat.
Proof.
  unfold exscan. revert c; induction counts as [|a l IH]; intros c Hc; cbn [length] in Hc; [lia|].
  destruct c as [|c]; [cbn; lia|]. specialize (IH c ltac:(lia)).
  change (firstn (S (S c)) (a :: l)) with (a :: firstn (S c) l). change (firstn (S c) (a :: l)) with (a :: firstn c l) in *.
  change (nth (S c) (a :: l) 0%nat) with (nth c l 0%nat). change (list_sum (a :: firstn (S c) l)) with (a + list_sum (firstn (S c) l))%nat.
  change (list_sum (a :: firstn c l)) with (a + list_sum (firstn c l))%nat. rewrite IH. lia.
Qed.
Lemma exscan_all counts : exscan counts (length counts) = list_sum counts.
Proof. unfold exscan. now rewrite firstn_all. Qed.
Lemma exscan_mono counts a b : (a <= b <= length counts)%nat -> (exscan counts a <= exscan counts b)%nat.
Proof.
  intros [Hab Hb]. induction Hab as [|b Hab IH]; [lia|]. rewrite exscan_S by lia. assert (b <= length counts)%nat by lia. specialize (IH H). lia.
Qed.

Lemma fill_run_in v off cnt val k : (off <= k < off + cnt)%nat -> fill_run v off cnt val k = val.
Proof.
  induction cnt as [|n IH]; intros H; [lia|]. cbn [fill_run]. unfold upd. destruct (Nat.eqb_spec k (off + n)); [reflexivity|]. apply IH. lia.
Qed.
Lemma fill_run_out v off cnt val k : ~ (off <= k < off + cnt)%nat -> fill_run v off cnt val k = v k.
Proof.
  induction cnt as [|n IH]; intros H; [reflexivity|]. cbn [fill_run]. unfold upd. destruct (Nat.eqb_spec k (off + n)); [lia|]. apply IH. lia.
Qed.

Lemma init_ijk_spec counts v c k :
  (c < length counts)%nat -> (exscan counts c <= k < exscan counts c + nth c counts 0)%nat -> init_ijk counts v k = c.
Proof.
  intros Hc Hk. unfold init_ijk.
  assert (H : forall m, (c < m <= length counts)%nat ->
    fold_left (fun v c => fill_run v (exscan counts c) (nth c counts 0%nat) c) (seq 0 m) v k = c).
  { induction m as [|m IH]; intros Hm; [lia|]. rewrite seq_snoc, fold_left_app. cbn [fold_left].
    destruct (Nat.eq_dec m c) as [->|N]; [now apply fill_run_in|].
    rewrite fill_run_out; [apply IH; lia|]. assert (exscan counts (S c) <= exscan counts m)%nat by (apply exscan_mono; lia).
    rewrite exscan_S in H by lia. lia. }
  apply H. lia.
Qed.

Lemma exscan_find counts m k : (m <= length counts)%nat -> (k < exscan counts m)%nat ->
  exists c, (c < m)%nat /\ (exscan counts c <= k < exscan counts c + nth c counts 0)%nat.
Proof.
  induction m as [|m IH]; intros Hm Hk; [unfold exscan in Hk; cbn in Hk; lia|].
  destruct (lt_dec k (exscan counts m)) as [H|H].
  - destruct (IH ltac:(lia) H) as (c & Hc & He). exists c. split; [lia|exact He].
  - exists m. rewrite exscan_S in Hk by lia. split; lia.
Qed.

Definition in_cell (c : nat) (g : list csd) : list csd := filter (fun s => Nat.eqb (c_cell s) c) g.
Definition sd_of (o : icfg) (kappa : R) (rd3 : nat -> nat -> R) (n : nat -> nat -> R -> N) (d : draws) (c k : nat) : csd :=
  let '(x, y, z) := position o d c k in mk_csd c (rd3 k c) kappa (n k c (rd3 k c)) x y z.
Lemma sd_of_cell o kappa rd3 n d c k : c_cell (sd_of o kappa rd3 n d c k) = c.
Proof. unfold sd_of. now destruct (position o d c k) as ((? & ?) & ?). Qed.
Lemma sd_of_n o kappa rd3 n d c k : c_n (sd_of o kappa rd3 n d c k) = n k c (rd3 k c).
Proof. unfold sd_of. now destruct (position o d c k) as ((? & ?) & ?). Qed.
Lemma sd_of_rd3 o kappa rd3 n d c k : c_rd3 (sd_of o kappa rd3 n d c k) = rd3 k c.
Proof. unfold sd_of. now destruct (position o d c k) as ((? & ?) & ?). Qed.
Lemma sd_of_kpa o kappa rd3 n d c k : c_kpa (sd_of o kappa rd3 n d c k) = kappa.
Proof. unfold sd_of. now destruct (position o d c k) as ((? & ?) & ?). Qed.
Lemma sd_of_pos o kappa rd3 n d c k : (c_x (sd_of o kappa rd3 n d c k), c_y (sd_of o kappa rd3 n d c k), c_z (sd_of o kappa rd3 n d c k)) = position o d c k.
Proof. unfold sd_of. now destruct (position o d c k) as ((? & ?) & ?). Qed.

Lemma make_group_in_cell o counts kappa rd3 n d c : (c < length counts)%nat ->
  in_cell c (make_group o counts kappa rd3 n d) =
  map (sd_of o kappa rd3 n d c) (seq (exscan counts c) (nth c counts 0%nat)).
Proof.
  intros Hc. unfold make_group, in_cell. cbv zeta.
  change (map _ (seq 0 (list_sum counts))) with
    (map (fun k => sd_of o kappa rd3 n d (init_ijk counts (fun _ => 0%nat) k) k) (seq 0 (list_sum counts))).
  assert (Hle : (exscan counts c + nth c counts 0 <= list_sum counts)%nat).
  { rewrite <- exscan_S by lia. rewrite <- exscan_all. apply exscan_mono. lia. }
  replace (list_sum counts) with (exscan counts c + (nth c counts 0 + (list_sum counts - exscan counts c - nth c counts 0)))%nat by lia.
  rewrite !seq_app, !map_app, !filter_app. rewrite Nat.add_0_l.
  assert (Hno : forall l, (forall k, In k l -> init_ijk counts (fun _ => 0%nat) k <> c) ->
    filter (fun s => Nat.eqb (c_cell s) c) (map (fun k => sd_of o kappa rd3 n d (init_ijk counts (fun _ => 0%nat) k) k) l) = []).
  { induction l as [|k l IH]; intros H; [reflexivity|]. cbn [map filter]. rewrite sd_of_cell.
    destruct (Nat.eqb_spec (init_ijk counts (fun _ => 0%nat) k) c) as [E|E]; [exfalso; apply (H k); [now left|exact E]|].
    apply IH. intros; apply H; now right. }
  assert (Hyes : forall l, (forall k, In k l -> init_ijk counts (fun _ => 0%nat) k = c) ->
    filter (fun s => Nat.eqb (c_cell s) c) (map (fun k => sd_of o kappa rd3 n d (init_ijk counts (fun _ => 0%nat) k) k) l) =
    map (sd_of o kappa rd3 n d c) l).
  { induction l as [|k l IH]; intros H; [reflexivity|]. cbn [map filter]. rewrite sd_of_cell.
    rewrite (H k) by now left. rewrite Nat.eqb_refl. f_equal. apply IH. intros; apply H; now right. }
  rewrite Hno, Hyes, Hno; [now rewrite app_nil_r|..].
  - intros k Hk. apply in_seq in Hk. destruct (exscan_find counts (length counts) k) as (c' & Hc' & He); [lia|rewrite exscan_all; lia|].
    rewrite (init_ijk_spec counts _ c' k) by lia. intros ->. lia.
  - intros k Hk. apply in_seq in Hk. apply init_ijk_spec; lia.
  - intros k Hk. apply in_seq in Hk. destruct (exscan_find counts c k) as (c' & Hc' & He); [lia|lia|].
    rewrite (init_ijk_spec counts _ c' k) by lia. lia.
Qed.

(** ** rounding *)
Lemma round_half x : 0 <= x -> Rabs (N2R (truncN (x + 5 / 10)) - x) <= 1 / 2.
Proof. intros H. destruct (N2R_truncN (x + 5 / 10)) as (A & B); [lra|]. apply Rabs_le. lra. Qed.

Lemma N2R_lsumN l : N2R (lsumN l) = lsumR (map N2R l).
Proof. induction l as [|a l IH]; [reflexivity|]. cbn [lsumN fold_right map lsumR]. rewrite N2R_plus. fold (lsumN l). fold (lsumR (map N2R l)). now rewrite IH. Qed.

Lemma lsumR_map_seq (f : nat -> R) off cnt : lsumR (map f (seq off cnt)) = sumR cnt (fun i => f (off + i)%nat).
Proof.
  induction cnt as [|n IH]; [reflexivity|]. rewrite seq_S, map_app, lsumR_app, IH. cbn [map lsumR fold_right sumR]. lra.
Qed.

Lemma sumR_abs_diff m f g e : (forall i, (i < m)%nat -> Rabs (f i - g i) <= e) -> Rabs (sumR m f - sumR m g) <= INR m * e.
Proof.
  induction m as [|m IH]; intros H; [cbn; rewrite Rminus_0_r, Rabs_R0; lra|].
  cbn [sumR]. rewrite S_INR. replace (sumR m f + f m - (sumR m g + g m)) with ((sumR m f - sumR m g) + (f m - g m)) by ring.
  eapply Rle_trans; [apply Rabs_triang|]. assert (A := IH (fun i Hi => H i (Nat.lt_lt_succ_r _ _ Hi))). assert (B := H m (Nat.lt_succ_diag_r m)). lra.
Qed.

Lemma N2R_of_nat n : N2R (N.of_nat n) = INR n.
Proof. unfold N2R. rewrite nat_N_Z. symmetry. apply INR_IZR_INZ. Qed.
Lemma N2R_to_nat n : INR (N.to_nat n) = N2R n.
Proof. rewrite <- N2R_of_nat. now rewrite N2Nat.id. Qed.

(** ** Riemann sums with one point in every subinterval *)
Definition antiderivative_on (F f : R -> R) (a b : R) : Prop := forall x, a <= x <= b -> derivable_pt_lim F x (f x).
Definition lipschitz_on (L : R) (f : R -> R) (a b : R) : Prop :=
  forall x y, a <= x <= b -> a <= y <= b -> Rabs (f x - f y) <= L * Rabs (x - y).

Lemma mean_value F f a b : a < b -> antiderivative_on F f a b -> exists x, F b - F a = f x * (b - a) /\ a < x < b.
Proof. intros Hab HF. apply MVT_cor2; [exact Hab|]. intros c Hc. now apply HF. Qed.

Lemma riemann_sum F f L a w m (x : nat -> R) :
  0 < w -> 0 <= L -> antiderivative_on F f a (a + INR m * w) -> lipschitz_on L f a (a + INR m * w) ->
  (forall i, (i < m)%nat -> a + INR i * w <= x i <= a + (INR i + 1) * w) ->
  Rabs (w * sumR m (fun i => f (x i)) - (F (a + INR m * w) - F a)) <= INR m * (L * w * w).
Proof.
  intros Hw HL HF Hlip Hx.
  replace (F (a + INR m * w) - F a) with (sumR m (fun i => F (a + INR (S i) * w) - F (a + INR i * w))).
  2:{ clear. induction m as [|m IH]; [cbn; replace (a + 0 * w) with a by ring; ring|]. cbn [sumR]. rewrite IH. ring. }
  rewrite <- sumR_scal. apply sumR_abs_diff. intros i Hi.
  assert (Hi1 : INR i + 1 <= INR m) by (rewrite <- S_INR; apply le_INR; lia). pose proof (pos_INR i) as Hi0.
  assert (B1 : 0 <= INR i * w) by (apply Rmult_le_pos; lra).
  assert (B2 : (INR i + 1) * w <= INR m * w) by (apply Rmult_le_compat_r; lra).
  destruct (mean_value F f (a + INR i * w) (a + INR (S i) * w)) as (e & He & Hr).
  { rewrite S_INR. lra. }
  { intros y Hy. apply HF. rewrite S_INR in Hy. lra. }
  rewrite He. rewrite S_INR in *. replace (a + (INR i + 1) * w - (a + INR i * w)) with w by ring.
  replace (w * f (x i) - f e * w) with (w * (f (x i) - f e)) by ring. rewrite Rabs_mult, (Rabs_pos_eq w) by lra.
  specialize (Hx i Hi). assert (Q := Hlip (x i) e ltac:(lra) ltac:(lra)).
  assert (Rabs (x i - e) <= w) by (apply Rabs_le; lra).
  apply Rle_trans with (w * (L * w)); [|lra]. apply Rmult_le_compat_l; [lra|]. eapply Rle_trans; [exact Q|]. apply Rmult_le_compat_l; lra.
Qed.

(** multiplicities [A f(x_i)] rounded *)
Lemma rounded_sum F f L a w m (x : nat -> R) A :
  0 < w -> 0 <= L -> 0 <= A -> antiderivative_on F f a (a + INR m * w) -> lipschitz_on L f a (a + INR m * w) ->
  (forall y, a <= y <= a + INR m * w -> 0 <= f y) ->
  (forall i, (i < m)%nat -> a + INR i * w <= x i <= a + (INR i + 1) * w) ->
  Rabs (sumR m (fun i => N2R (truncN (A * f (x i) + 5 / 10))) - A / w * (F (a + INR m * w) - F a)) <=
  INR m / 2 + A / w * (INR m * (L * w * w)).
Proof.
  intros Hw HL HA HF Hlip Hpos Hx.
  assert (R1 := riemann_sum F f L a w m x Hw HL HF Hlip Hx).
  assert (R2 : Rabs (sumR m (fun i => N2R (truncN (A * f (x i) + 5 / 10))) - sumR m (fun i => A * f (x i))) <= INR m * (1 / 2)).
  { apply sumR_abs_diff. intros i Hi. apply round_half. apply Rmult_le_pos; [exact HA|]. apply Hpos. specialize (Hx i Hi).
    assert (Hi1 : INR i + 1 <= INR m) by (rewrite <- S_INR; apply le_INR; lia). pose proof (pos_INR i) as Hi0.
    assert (B1 : 0 <= INR i * w) by (apply Rmult_le_pos; lra).
    assert (B2 : (INR i + 1) * w <= INR m * w) by (apply Rmult_le_compat_r; lra). lra. }
  rewrite sumR_scal in R2. set (S := sumR m (fun i => f (x i))) in *. set (T := sumR m (fun i => N2R (truncN (A * f (x i) + 5 / 10)))) in *.
  set (D := F (a + INR m * w) - F a) in *.
  replace (T - A / w * D) with ((T - A * S) + A / w * (w * S - D)) by (field; lra).
  eapply Rle_trans; [apply (Rabs_triang (T - A * S) (A / w * (w * S - D)))|]. apply Rplus_le_compat; [lra|].
  assert (0 <= A / w) by (apply Rmult_le_pos; [exact HA|left; now apply Rinv_0_lt_compat]).
  rewrite Rabs_mult, (Rabs_pos_eq (A / w)) by assumption. now apply Rmult_le_compat_l.
Qed.
