(** * C58, C59: collision kernels *)
From Coq Require Import List Arith NArith ZArith Reals Bool Lia Lra.
From Verif Require Import Base BaseProofs ThermoModel ThermoProofs KernelModel.
Import ListNotations.
Open Scope R_scope.

(** ** Specification *)
(** radii (in micrometres) for which efficiencies are tabulated: 0, 1, ..., 100, 110, ..., 1100 *)
Definition node (i : nat) : R := if Nat.leb i 100 then INR i else 100 + 10 * INR (i - 100).
(** the table: rows for the greater of two radii *)
Definition entry (table : list R) (i j : nat) : R :=
  let M := Nat.max i j in let m := Nat.min i j in nth (M * (M + 1) / 2 + m) table 0.
Definition table_size : nat := (201 * 101)%nat.
(** linear interpolation *)
Definition lerp (a b t : R) : R := a + (b - a) * t.
(** bilinear interpolation in the cell between nodes i, i+1 and j, j+1 *)
Definition bilinear (table : list R) (i j : nat) (s t : R) : R :=
  lerp (lerp (entry table i j) (entry table (S i) j) s) (lerp (entry table i (S j)) (entry table (S i) (S j)) s) t.
(** radius in micrometres limited to the range of the table *)
Definition in_range (top r x : R) : Prop := (r * 1000000 < 1100 /\ x = r * 1000000) \/ (1100 <= r * 1000000 /\ x = top).

(** ** C59 *)
Lemma node_le_100 i : (i <= 100)%nat -> node i = INR i.
Proof. intros H. unfold node. now rewrite (proj2 (Nat.leb_le _ _) H). Qed.
Lemma node_ge_100 i : (100 <= i)%nat -> node i = 100 + 10 * INR (i - 100).
Proof.
  intros H. unfold node. destruct (Nat.leb_spec i 100) as [H'|_]; [|reflexivity]. assert (i = 100)%nat by lia. subst i.
  rewrite Nat.sub_diag. change (INR 0) with 0. rewrite INR_IZR_INZ. cbn [Z.of_nat Pos.of_succ_nat Pos.succ]. lra.
Qed.


Lemma INR_lt_num m (k : nat) (x : R) : INR m < x -> x <= INR k -> (m < k)%nat.
Proof. intros A B. apply INR_lt. lra. Qed.
Lemma INR_Z n z : Z.of_nat n = z -> INR n = IZR z.
Proof. intros <-. apply INR_IZR_INZ. Qed.

Lemma left_node_spec r : 0 <= r < 1100 ->
  exists i, (i < 200)%nat /\ INR (left_node r) = node i /\ INR (left_node r + node_dist r) = node (S i) /\
    node i <= r < node (S i) /\ kernel_index (left_node r) = i /\ kernel_index (left_node r + node_dist r) = S i.
Proof.
  intros (H0 & H1). unfold left_node, node_dist. destruct (Rleb 100 r) eqn:E.
  - apply Rleb_true in E. assert (Hp : 0 <= r / 10) by lra. destruct (truncN_spec (r / 10) Hp) as (A & B).
    set (m := N.to_nat (truncN (r / 10))) in *.
    assert (Hm1 : (9 < m)%nat) by (apply INR_lt; rewrite (INR_Z 9 9 eq_refl); lra).
    assert (Hm2 : (m < 110)%nat) by (apply INR_lt; rewrite (INR_Z 110 110 eq_refl); lra).
    exists (90 + m)%nat.
    assert (N1 : node (90 + m) = 10 * INR m).
    { rewrite node_ge_100 by lia. replace (90 + m - 100)%nat with (m - 10)%nat by lia. rewrite minus_INR by lia. rewrite (INR_Z 10 10 eq_refl). lra. }
    assert (N2 : node (S (90 + m)) = 10 * INR m + 10).
    { rewrite node_ge_100 by lia. replace (S (90 + m) - 100)%nat with (S m - 10)%nat by lia. rewrite minus_INR by lia. rewrite S_INR, (INR_Z 10 10 eq_refl). lra. }
    rewrite N1, N2. split; [lia|]. rewrite plus_INR, mult_INR, (INR_Z 10 10 eq_refl). split; [lra|]. split; [lra|]. split; [lra|].
    unfold kernel_index. split.
    + destruct (Nat.leb_spec (m * 10) 100) as [H|H]; [lia|]. replace (m * 10 - 100)%nat with ((m - 10) * 10)%nat by lia. rewrite Nat.div_mul by lia. lia.
    + destruct (Nat.leb_spec (m * 10 + 10) 100) as [H|H]; [lia|]. replace (m * 10 + 10 - 100)%nat with ((m - 9) * 10)%nat by lia. rewrite Nat.div_mul by lia. lia.
  - apply Rleb_false in E. destruct (truncN_spec r H0) as (A & B). set (m := N.to_nat (truncN r)) in *.
    assert (Hm2 : (m < 100)%nat) by (apply INR_lt; rewrite (INR_Z 100 100 eq_refl); lra).
    exists m. rewrite !node_le_100 by lia. split; [lia|]. split; [reflexivity|]. split; [f_equal; lia|]. rewrite S_INR. split; [lra|].
    unfold kernel_index. rewrite !(proj2 (Nat.leb_le _ _)) by lia. split; lia.
Qed.

Lemma triangle_lt M m : (m <= M)%nat -> (M <= 200)%nat -> (M * (M + 1) / 2 + m < table_size)%nat.
Proof.
  intros A B. unfold table_size.
  assert (M * (M + 1) / 2 <= 100 * 201)%nat by (apply Nat.div_le_upper_bound; [lia|]; nia). lia.
Qed.
Lemma vector_index_entry user table i j : length table = table_size -> (i <= 200)%nat -> (j <= 200)%nat ->
  nth_error (user ++ table) (kernel_vector_index i j (length user)) = Some (entry table i j).
Proof.
  intros L Hi Hj. unfold kernel_vector_index, entry. destruct (Nat.leb_spec j i) as [H|H].
  - rewrite (Nat.max_l i j), (Nat.min_r i j) by lia. rewrite nth_error_app2 by lia.
    replace (i * (i + 1) / 2 + j + length user - length user)%nat with (i * (i + 1) / 2 + j)%nat by lia.
    apply nth_error_nth'. rewrite L. apply triangle_lt; lia.
  - rewrite (Nat.max_r i j), (Nat.min_l i j) by lia. rewrite nth_error_app2 by lia.
    replace (j * (j + 1) / 2 + i + length user - length user)%nat with (j * (j + 1) / 2 + i)%nat by lia.
    apply nth_error_nth'. rewrite L. apply triangle_lt; lia.
Qed.

(** Whatever the radii, the efficiency is found in the table, and it is the bilinear interpolation between the four nodes around the
    two radii (limited to the range of the table); this needs that the limit, rounded, is less than the last radius. *)
Theorem C59_interpolation :
  forall rnd user table r1 r2,
    length table = table_size -> 0 <= r1 -> 0 <= r2 -> 0 <= rnd (1100 - 1 / 1000000) < 1100 ->
    exists x1 x2 i j,
      in_range (rnd (1100 - 1 / 1000000)) r1 x1 /\ in_range (rnd (1100 - 1 / 1000000)) r2 x2 /\ (i < 200)%nat /\ (j < 200)%nat /\
      node i <= x1 < node (S i) /\ node j <= x2 < node (S j) /\
      interpolated_efficiency rnd (length user) (user ++ table) r1 r2 =
        Some (bilinear table i j ((x1 - node i) / (node (S i) - node i)) ((x2 - node j) / (node (S j) - node j))).
Proof.
  intros rnd user table r1 r2 L H1 H2 Hr.
  assert (Q : forall r, 0 <= r -> in_range (rnd (1100 - 1 / 1000000)) r (limited rnd (r * 1000000)) /\ 0 <= limited rnd (r * 1000000) < 1100).
  { intros r Hp. unfold limited, in_range, r_max. destruct (Rleb 1100 (r * 1000000)) eqn:E.
    - apply Rleb_true in E. split; [right; split; [exact E|reflexivity]|exact Hr].
    - apply Rleb_false in E. split; [left; split; [lra|reflexivity]|lra]. }
  destruct (Q r1 H1) as (R1 & B1). destruct (Q r2 H2) as (R2 & B2). unfold interpolated_efficiency.
  set (x1 := limited rnd (r1 * 1000000)) in *. set (x2 := limited rnd (r2 * 1000000)) in *.
  destruct (left_node_spec x1 B1) as (i & Hi & Ni & Ni' & Bi & Ki & Ki'). destruct (left_node_spec x2 B2) as (j & Hj & Nj & Nj' & Bj & Kj & Kj').
  exists x1, x2, i, j. split; [exact R1|]. split; [exact R2|]. split; [exact Hi|]. split; [exact Hj|]. split; [exact Bi|]. split; [exact Bj|].
  cbv zeta. unfold at_node. rewrite Ki, Ki', Kj, Kj'. rewrite !vector_index_entry by (exact L || lia). rewrite Ni, Ni', Nj, Nj'.
  replace (INR (node_dist x1)) with (node (S i) - node i) by (rewrite <- Ni, <- Ni', plus_INR; lra).
  replace (INR (node_dist x2)) with (node (S j) - node j) by (rewrite <- Nj, <- Nj', plus_INR; lra).
  f_equal. unfold bilinear, lerp. field. lra.
Qed.

Lemma entry_bounds table lo hi i j : length table = table_size -> (i <= 200)%nat -> (j <= 200)%nat -> (forall x, In x table -> lo <= x <= hi) -> lo <= entry table i j <= hi.
Proof. intros L Hi Hj H. apply H. unfold entry. apply nth_In. rewrite L. apply triangle_lt; lia. Qed.
Lemma lerp_bounds a b t lo hi : lo <= a <= hi -> lo <= b <= hi -> 0 <= t <= 1 -> lo <= lerp a b t <= hi.
Proof. intros A B T. unfold lerp. split; nra. Qed.
Lemma frac_bounds a b x : a <= x < b -> 0 <= (x - a) / (b - a) <= 1.
Proof.
  intros H. split; [apply Rmult_le_pos; [lra|left; apply Rinv_0_lt_compat; lra]|]. apply (Rmult_le_reg_r (b - a)); [lra|].
  unfold Rdiv. rewrite Rmult_assoc, Rinv_l by lra. lra.
Qed.
(** The efficiency lies between the extreme values of the table, does not depend on the order of the two droplets, and at the radii of
    the table it is the tabulated one. *)
Theorem C59_efficiency :
  forall rnd user table r1 r2 lo hi,
    length table = table_size -> 0 <= r1 -> 0 <= r2 -> 0 <= rnd (1100 - 1 / 1000000) < 1100 -> (forall x, In x table -> lo <= x <= hi) ->
    let E := interpolated_efficiency rnd (length user) (user ++ table) in
    (exists e, E r1 r2 = Some e /\ lo <= e <= hi) /\
    E r1 r2 = E r2 r1 /\
    (forall i j, (i < 200)%nat -> (j < 200)%nat -> r1 * 1000000 = node i -> r2 * 1000000 = node j -> E r1 r2 = Some (entry table i j)).
Proof.
  intros rnd user table r1 r2 lo hi L H1 H2 Hr HT E.
  assert (node_inc : forall a b, (a < b)%nat -> node a < node b).
  { intros a b Hab. destruct (Nat.le_gt_cases b 100) as [Hb|Hb].
    - rewrite !node_le_100 by lia. now apply lt_INR.
    - rewrite (node_ge_100 b) by lia. assert (0 < INR (b - 100)) by (apply lt_0_INR; lia). destruct (Nat.le_gt_cases a 100) as [Ha|Ha].
      + rewrite node_le_100 by lia. apply le_INR in Ha. rewrite (INR_Z 100 100 eq_refl) in Ha. lra.
      + rewrite node_ge_100 by lia. assert (INR (a - 100) < INR (b - 100)) by (apply lt_INR; lia). lra. }
  assert (node_unique : forall a b x, node a <= x < node (S a) -> node b <= x < node (S b) -> a = b).
  { intros a b x A B. destruct (Nat.lt_trichotomy a b) as [H|[H|H]]; [exfalso|exact H|exfalso].
    - assert (node (S a) <= node b) by (destruct (Nat.eq_dec (S a) b) as [<-|]; [lra|left; apply node_inc; lia]). lra.
    - assert (node (S b) <= node a) by (destruct (Nat.eq_dec (S b) a) as [<-|]; [lra|left; apply node_inc; lia]). lra. }
  assert (range_unique : forall r x y, in_range (rnd (1100 - 1 / 1000000)) r x -> in_range (rnd (1100 - 1 / 1000000)) r y -> x = y).
  { intros r x y [(A & ->)|(A & ->)] [(B & ->)|(B & ->)]; lra. }
  destruct (C59_interpolation rnd user table r1 r2 L H1 H2 Hr) as (x1 & x2 & i & j & R1 & R2 & Hi & Hj & Bi & Bj & Ee). fold E in Ee.
  split; [|split].
  - eexists. split; [exact Ee|]. unfold bilinear. apply lerp_bounds; [| |now apply frac_bounds];
      apply lerp_bounds; try (apply entry_bounds; auto; lia); now apply frac_bounds.
  - destruct (C59_interpolation rnd user table r2 r1 L H2 H1 Hr) as (y2 & y1 & j' & i' & R2' & R1' & Hj' & Hi' & Bj' & Bi' & Ee'). fold E in Ee'.
    rewrite (range_unique _ _ _ R1' R1) in *. rewrite (range_unique _ _ _ R2' R2) in *.
    rewrite (node_unique _ _ _ Bi' Bi) in *. rewrite (node_unique _ _ _ Bj' Bj) in *. rewrite Ee, Ee'. f_equal.
    unfold bilinear, lerp. unfold entry. rewrite !(Nat.max_comm j), !(Nat.max_comm (S j)), !(Nat.min_comm j), !(Nat.min_comm (S j)). ring.
  - intros a b Ha Hb Ea Eb. rewrite Ee.
    assert (Q : forall k, (k < 200)%nat -> node k < 1100).
    { intros k Hk. replace 1100 with (node 200); [now apply node_inc|]. rewrite node_ge_100 by lia. rewrite (INR_Z (200 - 100) 100 eq_refl). lra. }
    assert (x1 = node a) by (destruct R1 as [(_ & ->)|(R1 & _)]; [exact Ea|specialize (Q a Ha); lra]). assert (x2 = node b) by (destruct R2 as [(_ & ->)|(R2 & _)]; [exact Eb|specialize (Q b Hb); lra]).
    assert (i = a) by (apply (node_unique i a x1 Bi); subst x1; assert (node a < node (S a)) by (apply node_inc; lia); lra).
    assert (j = b) by (apply (node_unique j b x2 Bj); subst x2; assert (node b < node (S b)) by (apply node_inc; lia); lra). subst.
    unfold bilinear, lerp. rewrite (Rminus_diag_eq (node a) (node a) eq_refl), (Rminus_diag_eq (node b) (node b) eq_refl). unfold Rdiv. rewrite !Rmult_0_l, !Rmult_0_r. f_equal. ring.
Qed.
Print Assumptions C59_efficiency.

(** ** C58: order of the two droplets *)
Lemma cmax_comm a b : cmax a b = cmax b a.
Proof. rewrite !cmax_Rmax. apply Rmax_comm. Qed.
Lemma cmin_comm a b : cmin a b = cmin b a.
Proof. rewrite !cmin_Rmin. apply Rmin_comm. Qed.
Lemma max_n_comm a b : max_n a b = max_n b a.
Proof. unfold max_n. now rewrite N.max_comm. Qed.
Lemma geometric_comm a b : geometric a b = geometric b a.
Proof. unfold geometric. rewrite (max_n_comm b a), (Rabs_minus_sym (k_vt b)), (Rmult_comm (k_rw2 b) (k_rw2 a)). ring. Qed.
Lemma vector_index_comm i j u : kernel_vector_index i j u = kernel_vector_index j i u.
Proof. unfold kernel_vector_index. destruct (Nat.leb_spec j i), (Nat.leb_spec i j); try reflexivity; assert (i = j) by lia; subst; reflexivity. Qed.
Lemma efficiency_comm rnd u p r1 r2 : interpolated_efficiency rnd u p r1 r2 = interpolated_efficiency rnd u p r2 r1.
Proof.
  unfold interpolated_efficiency. set (x1 := limited rnd (r1 * 1000000)). set (x2 := limited rnd (r2 * 1000000)). cbv zeta. unfold at_node.
  rewrite (vector_index_comm (kernel_index (left_node x1)) (kernel_index (left_node x2))).
  rewrite (vector_index_comm (kernel_index (left_node x1 + node_dist x1)) (kernel_index (left_node x2))).
  rewrite (vector_index_comm (kernel_index (left_node x1)) (kernel_index (left_node x2 + node_dist x2))).
  rewrite (vector_index_comm (kernel_index (left_node x1 + node_dist x1)) (kernel_index (left_node x2 + node_dist x2))).
  destruct (nth_error p (kernel_vector_index (kernel_index (left_node x2)) (kernel_index (left_node x1)) u)) as [p0|]; [|reflexivity].
  destruct (nth_error p (kernel_vector_index (kernel_index (left_node x2)) (kernel_index (left_node x1 + node_dist x1)) u)) as [p1|];
  destruct (nth_error p (kernel_vector_index (kernel_index (left_node x2 + node_dist x2)) (kernel_index (left_node x1)) u)) as [p2|]; try reflexivity.
  destruct (nth_error p (kernel_vector_index (kernel_index (left_node x2 + node_dist x2)) (kernel_index (left_node x1 + node_dist x1)) u)) as [p3|]; [|reflexivity].
  f_equal. unfold Rdiv. ring.
Qed.
Lemma wang_comm r1 r2 eps : wang r1 r2 eps = wang r2 r1 eps.
Proof.
  unfold wang. destruct (Rltb r2 r1) eqn:E, (Rltb r1 r2) eqn:E'; try reflexivity.
  - apply Rltb_true in E. apply Rltb_true in E'. lra.
  - apply Rltb_false in E. apply Rltb_false in E'. assert (r1 = r2) by lra. now subst.
Qed.

Lemma onishi_nograv_comm e r1 r2 Re eps dnu rat : onishi_nograv_with e r1 r2 Re eps dnu rat = onishi_nograv_with e r2 r1 Re eps dnu rat.
Proof.
  unfold onishi_nograv_with. destruct (Rltb eps (1 / 10000000000)); [reflexivity|].
  set (urms := sqrt _). set (leta := cpow _ e). set (tauk := leta * leta / dnu). set (Te := Re * tauk / sqrt 15).
  set (t1 := rat * 4 * r1 * r1 / 18 / dnu). set (t2 := rat * 4 * r2 * r2 / 18 / dnu).
  cbv zeta. rewrite (cmax_comm (2.5 * t1 / Te / (2.5 * t2 / Te))), (cmax_comm (t1 / t2)).
  set (phi := cmax (2.5 * t2 / Te / (2.5 * t1 / Te)) (2.5 * t1 / Te / (2.5 * t2 / Te))). set (gamma := phi * _).
  set (th1 := 2.5 * t1 / Te). set (th2 := 2.5 * t2 / Te).
  destruct (odiv (urms * urms * gamma) (gamma - 1)) as [q|]; [|reflexivity]. cbn [obind].
  rewrite (Rplus_comm r2 r1).
  replace (1 + th2 + th1) with (1 + th1 + th2) by ring.
  replace ((1 + th1 + th2) / (1 + th2) / (1 + th1)) with ((1 + th1 + th2) / (1 + th1) / (1 + th2)) by (unfold Rdiv; ring).
  replace (1 / (1 + th2) / (1 + th1) - 1 / (1 + gamma * th2) / (1 + gamma * th1)) with (1 / (1 + th1) / (1 + th2) - 1 / (1 + gamma * th1) / (1 + gamma * th2)) by (unfold Rdiv; ring).
  rewrite (Rplus_comm th2 th1). replace (4 * th2 * th1) with (4 * th1 * th2) by ring.
  destruct (osqrt _) as [Wr|]; [|reflexivity]. cbn [obind].
  destruct (Rleb (t2 / tauk) _), (Rleb (t1 / tauk) _);
    repeat match goal with |- context [osqrt ?x] => destruct (osqrt x); cbn [obind]; try reflexivity end; f_equal; ring.
Qed.

(** All kernels give the same for a pair of droplets in either order. *)
Theorem C58_symmetric : forall rnd u air a b, calc rnd u air a b = calc rnd u air b a.
Proof.
  intros rnd u air a b. destruct u as [p| |p| |l|l]; cbn [calc].
  - f_equal. unfold golovin. rewrite (max_n_comm b a). ring.
  - f_equal. apply geometric_comm.
  - f_equal. unfold geometric_with_multiplier. now rewrite geometric_comm.
  - f_equal. unfold long. now rewrite geometric_comm, (cmax_comm (sqrt (k_rw2 a))), (cmin_comm (sqrt (k_rw2 a))).
  - unfold geometric_with_efficiencies. now rewrite efficiency_comm, geometric_comm.
  - unfold onishi, onishi_nograv. destruct (nth_error l 0) as [Re|]; [|reflexivity]. cbn [obind].
    rewrite onishi_nograv_comm, efficiency_comm, wang_comm, geometric_comm. reflexivity.
Qed.
Print Assumptions C58_symmetric.

(** ** enhancement of efficiency by turbulence *)
Lemma first_greater_spec l x :
  (forall y, nth_error l (first_greater l x) = Some y -> x < y) /\
  (forall k y, (k < first_greater l x)%nat -> nth_error l k = Some y -> y <= x) /\
  (first_greater l x <= length l)%nat /\
  ((exists y, In y l /\ x < y) -> (first_greater l x < length l)%nat).
Proof.
  induction l as [|z l IH]; cbn [first_greater].
  - split; [discriminate|]. split; [intros; lia|]. split; [cbn; lia|]. intros (y & [] & _).
  - destruct (Rltb x z) eqn:E.
    + apply Rltb_true in E. split; [intros y [= <-]; exact E|]. split; [intros; lia|]. cbn [length]. split; [lia|]. intros; lia.
    + apply Rltb_false in E. destruct IH as (A & B & C & D). cbn [length nth_error]. split; [exact A|]. split; [|split; [lia|]].
      * intros [|k] y Hk; cbn [nth_error]; [intros [= <-]; lra|apply B; lia].
      * intros (y & [->|Hy] & Hlt); [lra|]. assert (first_greater l x < length l)%nat by (apply D; eauto). lia.
Qed.
Lemma eta_bounds rat eps R0 : (rat < 11)%nat -> (eps < 2)%nat -> (R0 < 7)%nat -> exists e, eta_at rat eps R0 = Some e /\ 1 <= e <= 36.52.
Proof.
  intros A B C.
  do 11 (destruct rat as [|rat]; [do 2 (destruct eps as [|eps]; [do 7 (destruct R0 as [|R0]; [eexists; split; [reflexivity|lra]|]); lia|]); lia|]). lia.
Qed.
Lemma nth_error_ex {A} (l : list A) k : (k < length l)%nat -> exists y, nth_error l k = Some y.
Proof. intros H. destruct (nth_error l k) as [y|] eqn:E; [eauto|]. apply nth_error_None in E. lia. Qed.

(** radii for which the enhancement is looked up inside of its table *)
Definition tabulated (r1 r2 : R) : Prop := 100 / 1000000 < Rmax r1 r2 \/ (Rmax r1 r2 < 100 / 1000000 /\ r1 <> r2).
Lemma wang_bounds r1 r2 eps : 0 < r1 -> 0 < r2 -> tabulated r1 r2 -> exists w, wang r1 r2 eps = Some w /\ 1 <= w <= 36.52.
Proof.
  intros H1 H2 HT. unfold wang.
  assert (Q : exists R' r, (if Rltb r2 r1 then (r1, r2) else (r2, r1)) = (R', r) /\ R' = Rmax r1 r2 /\ 0 < r <= R' /\ (r1 <> r2 -> r < R')).
  { destruct (Rltb r2 r1) eqn:E; [apply Rltb_true in E|apply Rltb_false in E]; eexists; eexists; (split; [reflexivity|]).
    - split; [rewrite Rmax_left; lra|]. split; [lra|]. intros; lra.
    - split; [rewrite Rmax_right; lra|]. split; [lra|]. intros; lra. }
  destruct Q as (R' & r & -> & Emax & Hr & Hne). unfold tabulated in HT. rewrite <- Emax in HT.
  destruct (Rltb (100 / 1000000) R') eqn:E; [exists 1; split; [reflexivity|lra]|]. apply Rltb_false in E.
  assert (HT' : R' < 100 / 1000000 /\ r < R') by (destruct HT as [HT|(HT & Hn)]; [lra|split; [exact HT|now apply Hne]]). clear HT.
  set (n_eps := if Rleb eps (25 / 1000) then 0%nat else 1%nat). assert (He : (n_eps < 2)%nat) by (unfold n_eps; destruct (Rleb _ _); lia). clearbody n_eps.
  destruct (first_greater_spec wang_R0 R') as (A1 & B1 & C1 & D1).
  destruct (first_greater_spec (tl wang_rat) (r / R')) as (A2 & B2 & C2 & D2).
  assert (Hn : (first_greater wang_R0 R' < 7)%nat) by (apply D1; exists (100 / 1000000); split; [cbn; tauto|lra]).
  assert (Hq : 0 < r / R' < 1).
  { split; [apply Rdiv_lt_0_compat; lra|]. apply (Rmult_lt_reg_r R'); [lra|]. unfold Rdiv. rewrite Rmult_assoc, Rinv_l by lra. lra. }
  assert (Hm : (first_greater (tl wang_rat) (r / R') < 10)%nat) by (apply D2; exists 1; split; [cbn; tauto|lra]).
  set (n := first_greater wang_R0 R') in *. set (m := first_greater (tl wang_rat) (r / R')) in *. cbv zeta.
  destruct (Nat.eqb_spec n 0) as [En|En]; [apply eta_bounds; lia|].
  replace (S m - 1)%nat with m by lia.
  destruct (nth_error_ex wang_R0 (n - 1)) as (Ra & Ea); [cbn [wang_R0 length]; lia|]. destruct (nth_error_ex wang_R0 n) as (Rb & Eb); [cbn [wang_R0 length]; lia|].
  destruct (nth_error_ex wang_rat m) as (qa & Eqa); [cbn [wang_rat length]; lia|]. destruct (nth_error_ex wang_rat (S m)) as (qb & Eqb); [cbn [wang_rat length]; lia|].
  destruct (eta_bounds m n_eps (n - 1)) as (e00 & E00 & F00); [lia|lia|lia|]. destruct (eta_bounds m n_eps n) as (e01 & E01 & F01); [lia|lia|lia|].
  destruct (eta_bounds (S m) n_eps (n - 1)) as (e10 & E10 & F10); [lia|lia|lia|]. destruct (eta_bounds (S m) n_eps n) as (e11 & E11 & F11); [lia|lia|lia|].
  rewrite Ea, Eb, Eqa, Eqb, E00, E01, E10, E11. eexists. split; [reflexivity|].
  assert (L1 : Ra <= R') by (apply (B1 (n - 1)%nat Ra); [lia|exact Ea]). assert (L2 : R' < Rb) by now apply A1.
  assert (L3 : qa <= r / R'). { destruct m as [|m']; [injection Eqa as <-; lra|]. apply (B2 m' qa); [lia|exact Eqa]. }
  assert (L4 : r / R' < qb) by now apply A2.
  replace ((e00 * (Rb - R') * (qb - r / R') + e01 * (R' - Ra) * (qb - r / R') + e10 * (Rb - R') * (r / R' - qa) + e11 * (R' - Ra) * (r / R' - qa)) / (Rb - Ra) / (qb - qa))
    with (lerp (lerp e00 e01 ((R' - Ra) / (Rb - Ra))) (lerp e10 e11 ((R' - Ra) / (Rb - Ra))) ((r / R' - qa) / (qb - qa))) by (unfold lerp; field; lra).
  apply lerp_bounds; [| |now apply frac_bounds]; apply lerp_bounds; auto; now apply frac_bounds.
Qed.

(** Two droplets of the same radius up to 0.1 mm, or a droplet of 0.1 mm: the code reads outside of the tables. *)
Theorem C58_equal_radii_refuted :
  forall r eps, 0 < r <= 100 / 1000000 -> wang r r eps = None.
Proof.
  intros r eps Hr. unfold wang. destruct (Rltb r r) eqn:E; [apply Rltb_true in E; lra|].
  destruct (Rltb (100 / 1000000) r) eqn:E'; [apply Rltb_true in E'; lra|]. cbv zeta.
  replace (r / r) with 1 by (field; lra).
  assert (Em : first_greater (tl wang_rat) 1 = 10%nat).
  { cbn [wang_rat tl first_greater]. repeat match goal with |- context [Rltb ?a ?b] => let H := fresh in destruct (Rltb a b) eqn:H; [apply Rltb_true in H; lra|clear H] end. reflexivity. }
  rewrite Em. assert (N : forall k, eta_at 11 (if Rleb eps (25 / 1000) then 0%nat else 1%nat) k = None) by (intros; reflexivity).
  destruct (Nat.eqb (first_greater wang_R0 r) 0); [apply N|].
  change (nth_error wang_rat 11) with (@None R).
  destruct (nth_error wang_R0 (first_greater wang_R0 r - 1)); [|reflexivity]. destruct (nth_error wang_R0 (first_greater wang_R0 r)); [|reflexivity].
  destruct (nth_error wang_rat (11 - 1)); reflexivity.
Qed.
Print Assumptions C58_equal_radii_refuted.

(** ** the turbulent kernel *)
Lemma tanh_bounds x : -1 < tanh x < 1.
Proof.
  unfold tanh, sinh, cosh. assert (A := exp_pos x). assert (B := exp_pos (- x)). set (p := exp x) in *. set (q := exp (- x)) in *. clearbody p q.
  replace ((p - q) / 2 / ((p + q) / 2)) with ((p - q) / (p + q)) by (field; lra).
  split; apply (Rmult_lt_reg_r (p + q)); try lra; unfold Rdiv; rewrite Rmult_assoc, Rinv_l by lra; lra.
Qed.
Lemma cpow_nonneg x y : 0 <= cpow x y.
Proof. unfold cpow. destruct (Rlt_dec 0 x); [unfold Rpower; left; apply exp_pos|]. destruct (Req_EM_T y 0); lra. Qed.
Lemma cpow_pos x y : 0 < x -> 0 < cpow x y.
Proof. intros H. unfold cpow. destruct (Rlt_dec 0 x); [apply exp_pos|contradiction]. Qed.
Lemma osqrt_some x : 0 <= x -> osqrt x = Some (sqrt x).
Proof. intros H. unfold osqrt. destruct (Rltb x 0) eqn:E; [apply Rltb_true in E; lra|reflexivity]. Qed.
Lemma cmax_ge_r a b : b <= cmax a b.
Proof. rewrite cmax_Rmax. apply Rmax_r. Qed.
Lemma cmax_ge_l a b : a <= cmax a b.
Proof. rewrite cmax_Rmax. apply Rmax_l. Qed.
Lemma Rdiv_nonneg a b : 0 <= a -> 0 < b -> 0 <= a / b.
Proof. intros A B. apply Rmult_le_pos; [exact A|left; now apply Rinv_0_lt_compat]. Qed.

(** the flow is turbulent enough: then the formula for the relative velocity has no singularity *)
Definition kolmogorov (exponent dnu eps : R) : R := cpow (dnu * dnu * dnu / eps) exponent.
Definition turbulent (exponent Re eps dnu : R) : Prop :=
  1 < 0.183 * (Re / sqrt (15 / dnu / eps)) / (dnu * dnu / kolmogorov exponent dnu eps / kolmogorov exponent dnu eps).

Lemma accel_factor t1 t2 : 0 < t1 -> 0 < t2 -> 0 <= (t1 + t2) - 4 * t1 * t2 / (t1 + t2) * sqrt ((1 + t1 + t2) / (1 + t1) / (1 + t2)).
Proof.
  intros A B. set (S := sqrt _). assert (HS : 0 <= S <= 1).
  { split; [apply sqrt_pos|]. rewrite <- sqrt_1. apply sqrt_le_1_alt. apply (Rmult_le_reg_r ((1 + t1) * (1 + t2))); [nra|].
    unfold Rdiv. replace ((1 + t1 + t2) * / (1 + t1) * / (1 + t2) * ((1 + t1) * (1 + t2))) with (1 + t1 + t2) by (field; lra). nra. }
  assert (HQ : 0 <= 4 * t1 * t2 / (t1 + t2) <= t1 + t2).
  { assert (0 < t1 * t2) by nra. split; [apply Rdiv_nonneg; lra|]. apply (Rmult_le_reg_r (t1 + t2)); [lra|]. unfold Rdiv. rewrite (Rmult_assoc _ (/ _)), Rinv_l by lra. assert (Q := Rle_0_sqr (t1 - t2)). unfold Rsqr in Q. lra. }
  set (Q := 4 * t1 * t2 / (t1 + t2)) in *. clearbody Q S. nra.
Qed.
Lemma decay_factor t1 t2 g : 0 < t1 -> 0 < t2 -> 1 < g -> 0 <= 1 / (1 + t1) / (1 + t2) - 1 / (1 + g * t1) / (1 + g * t2).
Proof.
  intros A B G. assert (0 < g * t1) by nra. assert (0 < g * t2) by nra. assert (t1 <= g * t1) by nra. assert (t2 <= g * t2) by nra.
  set (s1 := g * t1) in *. set (s2 := g * t2) in *. clearbody s1 s2.
  replace (1 / (1 + t1) / (1 + t2)) with (/ ((1 + t1) * (1 + t2))) by (field; lra). replace (1 / (1 + s1) / (1 + s2)) with (/ ((1 + s1) * (1 + s2))) by (field; lra).
  assert (/ ((1 + s1) * (1 + s2)) <= / ((1 + t1) * (1 + t2))); [|lra]. apply Rinv_le_contravar; nra.
Qed.

Lemma onishi_nograv_defined e r1 r2 Re eps dnu rat :
  0 < r1 -> 0 < r2 -> 0 < Re -> 1 / 10000000000 <= eps -> 0 < dnu -> 0 < rat -> turbulent e Re eps dnu ->
  exists k, onishi_nograv_with e r1 r2 Re eps dnu rat = Some k /\
    2 * PI * (r1 + r2) ^ 2 * sqrt (2 / PI * (dnu ^ 2 * (r1 + r2) ^ 2 / kolmogorov e dnu eps ^ 4 / 15)) <= k.
Proof.
  intros H1 H2 HRe Heps Hnu Hrat Hturb. unfold onishi_nograv_with. destruct (Rltb eps (1 / 10000000000)) eqn:E; [apply Rltb_true in E; lra|]. clear E.
  fold (kolmogorov e dnu eps). unfold turbulent in Hturb.
  assert (Hleta : 0 < kolmogorov e dnu eps) by (apply cpow_pos; apply Rdiv_lt_0_compat; [apply Rmult_lt_0_compat; nra|lra]).
  set (leta := kolmogorov e dnu eps) in *. clearbody leta.
  assert (Hin : 0 < 15 / dnu / eps) by (apply Rdiv_lt_0_compat; [apply Rdiv_lt_0_compat; lra|lra]).
  assert (Hu2 : 0 < Re / sqrt (15 / dnu / eps)) by (apply Rdiv_lt_0_compat; [exact HRe|now apply sqrt_lt_R0]).
  assert (Hu : sqrt (Re / sqrt (15 / dnu / eps)) * sqrt (Re / sqrt (15 / dnu / eps)) = Re / sqrt (15 / dnu / eps)) by (apply sqrt_sqrt; lra).
  set (urms := sqrt (Re / sqrt (15 / dnu / eps))) in *. set (U := Re / sqrt (15 / dnu / eps)) in *. clearbody U urms.
  set (tauk := leta * leta / dnu). assert (Htk : 0 < tauk) by (apply Rdiv_lt_0_compat; nra).
  set (Te := Re * tauk / sqrt 15). assert (HTe : 0 < Te) by (apply Rdiv_lt_0_compat; [nra|apply sqrt_lt_R0; lra]).
  set (t1 := rat * 4 * r1 * r1 / 18 / dnu). set (t2 := rat * 4 * r2 * r2 / 18 / dnu).
  assert (Ht : forall r, 0 < r -> 0 < rat * 4 * r * r / 18 / dnu).
  { intros r Hr. apply Rdiv_lt_0_compat; [|lra]. apply Rdiv_lt_0_compat; [|lra]. assert (0 < rat * 4) by lra. assert (0 < rat * 4 * r) by nra. nra. }
  assert (Ht1 : 0 < t1) by now apply Ht. assert (Ht2 : 0 < t2) by now apply Ht. clearbody t1 t2. clear Ht.
  cbv zeta. set (th1 := 2.5 * t1 / Te). set (th2 := 2.5 * t2 / Te).
  assert (Hth1 : 0 < th1) by (apply Rdiv_lt_0_compat; lra). assert (Hth2 : 0 < th2) by (apply Rdiv_lt_0_compat; lra). clearbody th1 th2.
  set (phi := cmax (th2 / th1) (th1 / th2)).
  assert (Hphi : 1 <= phi).
  { unfold phi. destruct (Rle_dec th1 th2) as [H|H].
    - eapply Rle_trans; [|apply cmax_ge_l]. apply (Rmult_le_reg_r th1); [lra|]. unfold Rdiv. rewrite Rmult_assoc, Rinv_l by lra. lra.
    - eapply Rle_trans; [|apply cmax_ge_r]. apply (Rmult_le_reg_r th2); [lra|]. unfold Rdiv. rewrite Rmult_assoc, Rinv_l by lra. lra. }
  clearbody phi. set (gamma := phi * (0.183 * urms * urms / (dnu * dnu / leta / leta))).
  assert (Hg : 1 < gamma).
  { unfold gamma. replace (0.183 * urms * urms) with (0.183 * U) by (rewrite Rmult_assoc, Hu; ring). nra. }
  clearbody gamma. unfold odiv. destruct (Reqb (gamma - 1) 0) eqn:E; [apply Reqb_true in E; lra|]. clear E. cbn [obind].
  set (cw := 1 + 0.6 * exp (- cpow (phi - 1) 1.5)). assert (Hcw : 0 < cw) by (unfold cw; assert (Q := exp_pos (- cpow (phi - 1) 1.5)); lra). clearbody cw.
  assert (Hq : 0 <= urms * urms * gamma / (gamma - 1)) by (rewrite Hu; apply Rdiv_nonneg; nra).
  assert (Hacc := accel_factor th1 th2 Hth1 Hth2). assert (Hdec := decay_factor th1 th2 gamma Hth1 Hth2 Hg).
  set (X1 := urms * urms * gamma / (gamma - 1)) in *.
  set (X2 := th1 + th2 - 4 * th1 * th2 / (th1 + th2) * sqrt ((1 + th1 + th2) / (1 + th1) / (1 + th2))) in *.
  set (X3 := 1 / (1 + th1) / (1 + th2) - 1 / (1 + gamma * th1) / (1 + gamma * th2)) in *.
  set (WrS2 := dnu * dnu * (r1 + r2) * (r1 + r2) / (leta * leta * leta * leta) / 15).
  assert (HW : 0 <= WrS2).
  { unfold WrS2. apply Rdiv_nonneg; [|lra]. assert (0 < leta * leta) by nra. assert (0 < leta * leta * leta) by nra. apply Rdiv_nonneg; [|nra]. assert (0 <= dnu * dnu) by nra. repeat apply Rmult_le_pos; lra. }
  assert (HX : 0 <= cw * (X1 * X2 * X3) / 3) by (apply Rdiv_nonneg; [|lra]; apply Rmult_le_pos; [lra|]; apply Rmult_le_pos; [now apply Rmult_le_pos|assumption]).
  assert (HPI := PI_RGT_0). assert (H2PI : 0 < 2 / PI) by (apply Rdiv_lt_0_compat; lra).
  rewrite osqrt_some by (apply Rmult_le_pos; lra). cbn [obind].
  assert (HWr : sqrt (2 / PI * WrS2) <= sqrt (2 / PI * (cw * (X1 * X2 * X3) / 3 + WrS2))) by (apply sqrt_le_1_alt, Rmult_le_compat_l; lra).
  set (Wr := sqrt (2 / PI * (cw * (X1 * X2 * X3) / 3 + WrS2))) in *. clearbody Wr X1 X2 X3. clear HX Hq Hacc Hdec.
  set (alpha := cmax (log10 (0.26 * sqrt Re) / log10 2) (1 / 10 ^ 20)). clearbody alpha.
  set (CA := 0.06 * cpow Re 0.30). set (StA := cpow (0.38 / 110 * Re) 0.25). set (StB := cbrt (0.38 / 0.16) * cbrt (0.38 / 0.16) * cbrt Re). clearbody CA StA StB.
  assert (HS1 : 0 < t1 / tauk) by now apply Rdiv_lt_0_compat. assert (HS2 : 0 < t2 / tauk) by now apply Rdiv_lt_0_compat.
  set (St1 := t1 / tauk) in *. set (St2 := t2 / tauk) in *. clearbody St1 St2.
  assert (Hsq : forall s, 0 <= 0.16 * sqrt (Re / s)) by (intros; assert (Q := sqrt_pos (Re / s)); lra).
  assert (G : forall (bb : bool) s1 x y, 0 < s1 -> 
     0 <= (let '(y1, y2) := if bb then (110 * s1 * s1, 0) else (0, 0.38 * Re / (s1 * s1)) in
           y1 * cpow (0.5 * (1 - tanh x)) alpha + y2 * cpow (1 - 0.5 * (1 - tanh x)) alpha + 0.16 * sqrt (Re / s1) * (0.5 * (1 + tanh y)))).
  { intros bb s1 x y Hs. assert (P1 := cpow_nonneg (0.5 * (1 - tanh x)) alpha). assert (P2 := cpow_nonneg (1 - 0.5 * (1 - tanh x)) alpha).
    assert (P3 := Hsq s1). assert (P4 := tanh_bounds y). assert (P5 : 0 <= 0.16 * sqrt (Re / s1) * (0.5 * (1 + tanh y))) by (apply Rmult_le_pos; lra).
    assert (P6 : 0 <= 0.38 * Re / (s1 * s1)) by (apply Rdiv_nonneg; nra).
    destruct bb.
    - assert (0 <= 110 * s1 * s1 * cpow (0.5 * (1 - tanh x)) alpha) by (apply Rmult_le_pos; [nra|exact P1]). lra.
    - assert (0 <= 0.38 * Re / (s1 * s1) * cpow (1 - 0.5 * (1 - tanh x)) alpha) by (apply Rmult_le_pos; lra). lra. }
  assert (G1 := G (Rleb St2 StA) St1 ((log10 St1 - log10 StA) / CA) ((log10 St1 - log10 StB) / 0.4) HS1).
  assert (G2 := G (Rleb St1 StA) St2 ((log10 St2 - log10 StA) / CA) ((log10 St2 - log10 StB) / 0.4) HS2). clear G.
  assert (HRG : forall x, 0 <= 2.6 * exp (- x) + 0.205 * exp (- (0.0206 * x)) * 0.5 * (1 + tanh (x - 3))).
  { intros x. assert (P1 := exp_pos (- x)). assert (P2 := exp_pos (- (0.0206 * x))). assert (P3 := tanh_bounds (x - 3)).
    assert (0 <= 0.205 * exp (- (0.0206 * x)) * 0.5 * (1 + tanh (x - 3))) by (apply Rmult_le_pos; lra). lra. }
  specialize (HRG (cmax (t2 / t1) (t1 / t2))). set (RG := 2.6 * exp _ + _) in *. clearbody RG.
  set (lower := 2 * PI * (r1 + r2) ^ 2 * sqrt (2 / PI * (dnu ^ 2 * (r1 + r2) ^ 2 / leta ^ 4 / 15))).
  assert (Hlow : lower = 2 * PI * (r1 + r2) * (r1 + r2) * sqrt (2 / PI * WrS2)).
  { unfold lower, WrS2. replace (dnu ^ 2 * (r1 + r2) ^ 2 / leta ^ 4 / 15) with (dnu * dnu * (r1 + r2) * (r1 + r2) / (leta * leta * leta * leta) / 15) by (field; lra). ring. }
  assert (Fin : forall s1 s2, exists k, Some (2 * PI * (r1 + r2) * (r1 + r2) * Wr * (1 + RG * sqrt s1 * sqrt s2)) = Some k /\ lower <= k).
  { intros s1 s2. eexists. split; [reflexivity|]. rewrite Hlow. assert (Q1 := sqrt_pos s1). assert (Q2 := sqrt_pos s2).
    assert (Q3 : 0 <= RG * sqrt s1 * sqrt s2) by (apply Rmult_le_pos; [now apply Rmult_le_pos|exact Q2]).
    assert (Q4 : 0 < 2 * PI * (r1 + r2) * (r1 + r2)) by (assert (0 < 2 * PI * (r1 + r2)) by nra; nra).
    assert (Q5 := sqrt_pos (2 / PI * WrS2)).
    apply Rle_trans with (2 * PI * (r1 + r2) * (r1 + r2) * Wr * 1).
    - rewrite Rmult_1_r. apply Rmult_le_compat_l; lra.
    - apply Rmult_le_compat_l; [apply Rmult_le_pos; lra|lra]. }
  destruct (if Rleb St2 StA then (110 * St1 * St1, 0) else (0, 0.38 * Re / (St1 * St1))) as (y11, y21).
  destruct (if Rleb St1 StA then (110 * St2 * St2, 0) else (0, 0.38 * Re / (St2 * St2))) as (y12, y22).
  rewrite !osqrt_some by lra. cbn [obind]. apply Fin.
Qed.

(** ** C58: sign and existence of the result *)
Lemma max_n_nonneg a b : 0 <= max_n a b.
Proof. unfold max_n, N2R. apply IZR_le. lia. Qed.
Lemma geometric_nonneg a b : 0 <= k_rw2 a -> 0 <= k_rw2 b -> 0 <= geometric a b.
Proof.
  intros A B. unfold geometric. assert (P := PI_RGT_0). assert (M := max_n_nonneg a b). assert (V := Rabs_pos (k_vt a - k_vt b)). assert (S := sqrt_pos (k_rw2 a * k_rw2 b)).
  apply Rmult_le_pos; [|lra]. apply Rmult_le_pos; [|exact V]. apply Rmult_le_pos; lra.
Qed.
Lemma wang_some r1 r2 eps w : 0 < r1 -> 0 < r2 -> wang r1 r2 eps = Some w -> 1 <= w <= 36.52.
Proof.
  intros H1 H2 E. assert (HT : tabulated r1 r2 \/ (r1 = r2 /\ r1 <= 100 / 1000000) \/ Rmax r1 r2 = 100 / 1000000).
  { unfold tabulated. destruct (Rtotal_order (Rmax r1 r2) (100 / 1000000)) as [H|[H|H]]; [|tauto|tauto].
    destruct (Req_dec r1 r2) as [->|N]; [|tauto]. right. left. split; [reflexivity|]. rewrite Rmax_left in H by lra. lra. }
  destruct HT as [HT|[(-> & HT)|HT]].
  - destruct (wang_bounds r1 r2 eps H1 H2 HT) as (w' & E' & B). rewrite E in E'. injection E' as <-. exact B.
  - rewrite C58_equal_radii_refuted in E by lra. discriminate.
  - exfalso. revert E. unfold wang.
    assert (Q : exists R' r, (if Rltb r2 r1 then (r1, r2) else (r2, r1)) = (R', r) /\ R' = Rmax r1 r2).
    { destruct (Rltb r2 r1) eqn:E; [apply Rltb_true in E|apply Rltb_false in E]; eexists; eexists; (split; [reflexivity|]); [rewrite Rmax_left|rewrite Rmax_right]; lra. }
    destruct Q as (R' & r & -> & ER). rewrite HT in ER. subst R'.
    destruct (Rltb (100 / 1000000) (100 / 1000000)) eqn:E; [apply Rltb_true in E; lra|].
    assert (Em : first_greater wang_R0 (100 / 1000000) = 7%nat).
    { cbn [wang_R0 first_greater]. repeat match goal with |- context [Rltb ?a ?b] => let H := fresh in destruct (Rltb a b) eqn:H; [apply Rltb_true in H; lra|clear H] end. reflexivity. }
    rewrite Em. cbn [Nat.eqb]. change (nth_error wang_R0 7) with (@None R). destruct (nth_error wang_R0 (7 - 1)); discriminate.
Qed.

(** what [init_kernel] hands over: the table comes after the parameters of the user *)
Definition tables_of (table : kernel_name -> list R) : Prop := forall k, length (table k) = table_size /\ forall x, In x (table k) -> 0 <= x.
Lemma table_max (l : list R) : exists hi, forall x, In x l -> x <= hi.
Proof.
  induction l as [|y l (hi & IH)]; [exists 0; intros x []|]. exists (Rmax y hi). intros x [->|H]; [apply Rmax_l|].
  eapply Rle_trans; [now apply IH|apply Rmax_r].
Qed.
Lemma efficiency_nonneg rnd user t r1 r2 : length t = table_size -> (forall x, In x t -> 0 <= x) -> 0 <= rnd (1100 - 1 / 1000000) < 1100 -> 0 <= r1 -> 0 <= r2 ->
  exists e, interpolated_efficiency rnd (length user) (user ++ t) r1 r2 = Some e /\ 0 <= e.
Proof.
  intros L P Hr H1 H2. destruct (table_max t) as (hi & Hhi).
  destruct (C59_efficiency rnd user t r1 r2 0 hi L H1 H2 Hr (fun x Hx => conj (P x Hx) (Hhi x Hx))) as ((e & E & B) & _). exists e. split; [exact E|lra].
Qed.

(** Every kernel that the library accepts, with parameters of the user and efficiencies that are not negative, gives a number that is
    not negative, for all multiplicities, fall speeds, radii and states of the air. *)
Theorem C58_nonneg :
  forall rnd k turb user table u air a b v,
    init_kernel k turb user table = Some u -> tables_of table -> (forall x, In x user -> 0 <= x) -> 0 <= rnd (1100 - 1 / 1000000) < 1100 ->
    0 < k_rw2 a -> 0 < k_rw2 b ->
    calc rnd u air a b = Some v -> 0 <= v.
Proof.
  intros rnd k turb user table u air a b v Hi HT HU Hr Ha Hb Hc.
  assert (Hg := geometric_nonneg a b (Rlt_le _ _ Ha) (Rlt_le _ _ Hb)).
  assert (Hsa := sqrt_lt_R0 _ Ha). assert (Hsb := sqrt_lt_R0 _ Hb).
  assert (Htab : forall user' k' v', calc rnd (UsesTable (table k')) air a b = Some v' -> user' = @nil R -> 0 <= v').
  { intros user' k' v' E ->. cbn [calc] in E. unfold geometric_with_efficiencies in E.
    destruct (efficiency_nonneg rnd [] (table k') (sqrt (k_rw2 a)) (sqrt (k_rw2 b))) as (e & Ee & Be); try apply HT; try exact Hr; try lra.
    cbn [length app] in Ee. rewrite Ee in E. injection E as <-. now apply Rmult_le_pos. }
  assert (Honi : forall k' v', calc rnd (UsesOnishi (user ++ table k')) air a b = Some v' -> length user = 1%nat -> 0 <= v').
  { intros k' v' E L. cbn [calc] in E. unfold onishi in E.
    destruct (nth_error (user ++ table k') 0) as [Re|]; [|discriminate]. cbn [obind] in E.
    destruct (onishi_nograv _ _ _ _ _ _) as [ng|]; [|discriminate]. cbn [obind] in E.
    destruct (efficiency_nonneg rnd user (table k') (sqrt (k_rw2 a)) (sqrt (k_rw2 b))) as (e & Ee & Be); try apply HT; try exact Hr; try lra.
    rewrite L in Ee. rewrite Ee in E. cbn [obind] in E.
    destruct (wang _ _ _) as [w|] eqn:Ew; [|discriminate]. injection E as <-. apply wang_some in Ew; [|lra|lra].
    apply Rmult_le_pos; [|apply sqrt_pos]. apply Rmult_le_pos; lra. }
  destruct k; cbn [init_kernel] in Hi; destruct user as [|p [|p2 user]]; try discriminate; try (destruct turb; [|discriminate]); injection Hi as <-;
    try (eapply Htab; [exact Hc|reflexivity]); try (eapply Honi; [exact Hc|reflexivity]); cbn [calc] in Hc; injection Hc as <-.
  - assert (Hp : 0 <= p) by (apply HU; cbn; tauto). unfold golovin. assert (P := PI_RGT_0). assert (M := max_n_nonneg a b).
    apply Rmult_le_pos; [|assert (0 <= k_rw2 a * sqrt (k_rw2 a)) by (apply Rmult_le_pos; lra); assert (0 <= k_rw2 b * sqrt (k_rw2 b)) by (apply Rmult_le_pos; lra); lra].
    apply Rmult_le_pos; [|exact M]. apply Rmult_le_pos; lra.
  - exact Hg.
  - apply Rmult_le_pos; [exact Hg|apply HU; cbn; tauto].
  - unfold long. destruct (Rltb _ _); [|exact Hg]. destruct (Rleb _ _) eqn:E; [lra|]. apply Rleb_false in E.
    set (rs := cmin _ _) in *. set (rL := cmax _ _) in *. assert (0 <= rL) by (unfold rL; eapply Rle_trans; [|apply cmax_ge_l]; lra). clearbody rs rL.
    apply Rmult_le_pos; [exact Hg|]. apply Rmult_le_pos; [apply Rmult_le_pos; lra|].
    assert (3 / 1000000 / rs <= 1); [|lra]. apply (Rmult_le_reg_r rs); [lra|]. unfold Rdiv at 1. rewrite Rmult_assoc, Rinv_l by lra. lra.
Qed.
Print Assumptions C58_nonneg.

(** Every accepted kernel gives a number, except that the turbulent ones need: a flow whose acceleration dominates (written out, as
    [leta] is 1), or no dissipation; and radii inside of the table of enhancements: greater than 0.1 mm, or less and not equal.
    Missing: the two cases of radii, see [C58_equal_radii_refuted]. *)
Theorem C58_defined_partial :
  forall rnd k turb user table u air a b,
    init_kernel k turb user table = Some u -> tables_of table -> 0 <= rnd (1100 - 1 / 1000000) < 1100 ->
    0 < k_rw2 a -> 0 < k_rw2 b -> 0 < k_rhod air -> 0 < k_eta air ->
    (k = OnishiHall \/ k = OnishiHallDavis ->
      (forall Re, In Re user -> 0 < Re /\
        (k_diss air < 1 / 10000000000 \/
         1 < 0.183 * (Re / sqrt (15 / (k_eta air / k_rhod air) / k_diss air)) / (k_eta air / k_rhod air) ^ 2)) /\
      (100 / 1000000 < Rmax (sqrt (k_rw2 a)) (sqrt (k_rw2 b)) \/
       (Rmax (sqrt (k_rw2 a)) (sqrt (k_rw2 b)) < 100 / 1000000 /\ sqrt (k_rw2 a) <> sqrt (k_rw2 b)))) ->
    exists v, calc rnd u air a b = Some v.
Proof.
  intros rnd k turb user table u air a b Hi HT Hr Ha Hb Hrho Heta HO.
  assert (Hsa := sqrt_lt_R0 _ Ha). assert (Hsb := sqrt_lt_R0 _ Hb).
  assert (Htab : forall k', exists v, calc rnd (UsesTable (table k')) air a b = Some v).
  { intros k'. cbn [calc]. unfold geometric_with_efficiencies.
    destruct (efficiency_nonneg rnd [] (table k') (sqrt (k_rw2 a)) (sqrt (k_rw2 b))) as (e & Ee & Be); try apply HT; try exact Hr; try lra.
    cbn [length app] in Ee. rewrite Ee. eauto. }
  assert (Honi : forall k' Re, user = [Re] -> k = OnishiHall \/ k = OnishiHallDavis -> exists v, calc rnd (UsesOnishi ([Re] ++ table k')) air a b = Some v).
  { intros k' Re Eu Hk. destruct (HO Hk) as (HRe & Hrad). destruct (HRe Re) as (HRe0 & Hflow); [rewrite Eu; cbn; tauto|]. clear HO HRe.
    cbn [calc]. unfold onishi. cbn [app nth_error obind].
    assert (Hnu : 0 < k_eta air / k_rhod air) by now apply Rdiv_lt_0_compat. set (nu := k_eta air / k_rhod air) in *. clearbody nu.
    assert (Hng : exists ng, onishi_nograv (sqrt (k_rw2 a)) (sqrt (k_rw2 b)) Re (k_diss air) nu (rho_w / k_rhod air) = Some ng).
    { destruct (Rlt_dec (k_diss air) (1 / 10000000000)) as [Hd|Hd].
      - unfold onishi_nograv, onishi_nograv_with. destruct (Rltb _ _) eqn:E; [eauto|apply Rltb_false in E; lra].
      - destruct Hflow as [Hflow|Hflow]; [lra|].
        destruct (onishi_nograv_defined leta_exponent (sqrt (k_rw2 a)) (sqrt (k_rw2 b)) Re (k_diss air) nu (rho_w / k_rhod air)) as (ng & E & _); try assumption; try lra.
        + unfold rho_w. apply Rdiv_lt_0_compat; lra.
        + unfold turbulent. replace (kolmogorov leta_exponent nu (k_diss air)) with 1; [replace (nu * nu / 1 / 1) with (nu ^ 2) by field; exact Hflow|].
          unfold kolmogorov, cpow, leta_exponent. change (Z.quot 1 4) with 0%Z.
          destruct (Rlt_dec 0 (nu * nu * nu / k_diss air)) as [H|H]; [unfold Rpower; rewrite Rmult_0_l; symmetry; apply exp_0|].
          destruct H. apply Rdiv_lt_0_compat; [assert (0 < nu * nu) by nra; nra|lra].
        + eauto. }
    destruct Hng as (ng & ->). cbn [obind].
    destruct (efficiency_nonneg rnd [Re] (table k') (sqrt (k_rw2 a)) (sqrt (k_rw2 b))) as (e & Ee & Be); try apply HT; try exact Hr; try lra.
    cbn [length app] in Ee. rewrite Ee. cbn [obind].
    destruct (wang_bounds (sqrt (k_rw2 a)) (sqrt (k_rw2 b)) Re Hsa Hsb Hrad) as (w & -> & _). cbn [obind]. eauto. }
  destruct k; cbn [init_kernel] in Hi; destruct user as [|p [|p2 user]]; try discriminate; try (destruct turb; [|discriminate]); injection Hi as <-;
    try apply Htab; try (apply Honi; [reflexivity|tauto]); cbn [calc]; eauto.
Qed.
Print Assumptions C58_defined_partial.

(** ** C58: two slips in the turbulent kernel *)
(** The kernel as it is called, with the dissipation rate given to the enhancement as an extra argument *)
Definition onishi_with_rate (rate : R) (rnd : R -> R) (params : list R) (air : kair) (a b : ksd) : option R :=
  let rwa := sqrt (k_rw2 a) in let rwb := sqrt (k_rw2 b) in
  do Re <- nth_error params 0;
  do nograv <- onishi_nograv rwa rwb Re (k_diss air) (k_eta air / k_rhod air) (rho_w / k_rhod air);
  let geo := geometric a b in
  do e <- interpolated_efficiency rnd 1 params rwa rwb;
  do w <- wang rwa rwb rate;
  Some (e * w * sqrt (geo * geo + nograv * nograv)).

Lemma wang_20_10 eps : wang (20 / 1000000) (10 / 1000000) eps = Some (if Rleb eps (25 / 1000) then 1.045 else 1.139).
Proof.
  unfold wang. destruct (Rltb (10 / 1000000) (20 / 1000000)) eqn:E; [|apply Rltb_false in E; lra]. clear E.
  destruct (Rltb (100 / 1000000) (20 / 1000000)) eqn:E; [apply Rltb_true in E; lra|]. clear E.
  assert (E1 : first_greater wang_R0 (20 / 1000000) = 2%nat).
  { cbn [wang_R0 first_greater].
    destruct (Rltb (20 / 1000000) (10 / 1000000)) eqn:E; [apply Rltb_true in E; lra|]. clear E.
    destruct (Rltb (20 / 1000000) (20 / 1000000)) eqn:E; [apply Rltb_true in E; lra|]. clear E.
    destruct (Rltb (20 / 1000000) (30 / 1000000)) eqn:E; [reflexivity|apply Rltb_false in E; lra]. }
  assert (E2 : first_greater (tl wang_rat) (10 / 1000000 / (20 / 1000000)) = 5%nat).
  { replace (10 / 1000000 / (20 / 1000000)) with (5 / 10) by field. cbn [wang_rat tl first_greater].
    do 5 (match goal with |- context [Rltb ?a ?b] => let H := fresh in destruct (Rltb a b) eqn:H; [apply Rltb_true in H; lra|clear H] end).
    destruct (Rltb (5 / 10) (6 / 10)) eqn:E; [reflexivity|apply Rltb_false in E; lra]. }
  rewrite E1, E2. cbn [Nat.eqb Nat.sub wang_R0 wang_rat nth_error]. unfold eta_at. 
  destruct (Rleb eps (25 / 1000)); cbn [wang_eta nth_error]; f_equal; field.
Qed.

(** The enhancement by turbulence is tabulated against the dissipation rate, but it is the Reynolds number that it is called with:
    in weak turbulence the collision rate of droplets of 20 and 10 um is 1.139 times what it is without enhancement, and it would be
    1.045 times with the dissipation rate. *)
Theorem C58_enhancement_argument_refuted :
  forall rnd Re t air n1 n2 v1 v2 V,
    25 / 1000 < Re -> k_diss air <= 25 / 1000 ->
    let a := {| k_n := n1; k_rw2 := (20 / 1000000) ^ 2; k_vt := v1 |} in
    let b := {| k_n := n2; k_rw2 := (10 / 1000000) ^ 2; k_vt := v2 |} in
    calc rnd (UsesOnishi (Re :: t)) air a b = Some V ->
    exists plain, V = 1.139 * plain /\ onishi_with_rate (k_diss air) rnd (Re :: t) air a b = Some (1.045 * plain).
Proof.
  intros rnd Re t air n1 n2 v1 v2 V HRe Hd a b. cbn [calc]. unfold onishi, onishi_with_rate.
  assert (Sa : sqrt (k_rw2 a) = 20 / 1000000) by (unfold a; cbn [k_rw2]; apply sqrt_pow2; lra).
  assert (Sb : sqrt (k_rw2 b) = 10 / 1000000) by (unfold b; cbn [k_rw2]; apply sqrt_pow2; lra).
  rewrite Sa, Sb. cbn [nth_error obind]. destruct (onishi_nograv _ _ _ _ _ _) as [ng|]; [|discriminate]. cbn [obind].
  destruct (interpolated_efficiency _ _ _ _ _) as [e|]; [|discriminate]. cbn [obind]. rewrite !wang_20_10.
  destruct (Rleb Re (25 / 1000)) eqn:E; [apply Rleb_true in E; lra|]. destruct (Rleb (k_diss air) (25 / 1000)) eqn:E'; [|apply Rleb_false in E'; lra].
  cbn [obind]. intros [= <-]. exists (e * sqrt (geometric a b * geometric a b + ng * ng)). split; [ring|]. f_equal. ring.
Qed.
Print Assumptions C58_enhancement_argument_refuted.

Print Assumptions C59_interpolation.
