(** C17 (advection), C40 (sedimentation and subsidence) *)
From Coq Require Import List Arith NArith ZArith Lia Reals Lra Bool.
From Verif Require Import Base BaseProofs SpaceModel SpaceProofs SpaceProps GridProps CoalModel MotionModel.
Import ListNotations.
Local Open Scope R_scope.

(** ** Specification.
    A flow gives a Courant number for every face of the staggered grid: [fu i j k] for the face of cell (i,j,k) towards
    smaller x, and so on; columns are numbered from 0 to nx-1, those of the halo have numbers below or above.
    Face number m of a direction lies between cells m-1 and m, hence at coordinate m times the cell size. *)
Record flow := mk_flow { fu : Z -> nat -> nat -> R; fv : Z -> nat -> nat -> R; fw : Z -> nat -> nat -> R }.

(** where the flow is found in the arrays (z fastest, then y, then x, starting at the left edge of the halo) *)
Definition stored (o : aopts) (f : flow) (cx cy cz : nat -> R) : Prop :=
  let h := halo_size o in
  let rows := match a_dims o with 3 => a_ny o | _ => 1%nat end in
  forall (i : Z) (j k : nat), (- Z.of_nat h <= i)%Z -> (j <= rows)%nat -> (k <= a_nz o)%nat ->
    ((i <= Z.of_nat (a_nx o + h))%Z -> (j < rows)%nat -> (k < a_nz o)%nat ->
       cx ((Z.to_nat (i + Z.of_nat h) * rows + j) * a_nz o + k)%nat = fu f i j k) /\
    ((i < Z.of_nat (a_nx o + h))%Z -> (k < a_nz o)%nat -> a_dims o = 3%nat ->
       cy ((Z.to_nat (i + Z.of_nat h) * (rows + 1) + j) * a_nz o + k)%nat = fv f i j k) /\
    ((i < Z.of_nat (a_nx o + h))%Z -> (j < rows)%nat ->
       cz ((Z.to_nat (i + Z.of_nat h) * rows + j) * (a_nz o + 1) + k)%nat = fw f i j k).

(** cell (i,j,k) contains the point; in two dimensions there is only j = 0 *)
Definition spanZ (d : R) (i : Z) (x : R) : Prop := IZR i * d <= x < (IZR i + 1) * d.
Definition in_cell (o : aopts) (i : Z) (j k : nat) (x y z : R) : Prop :=
  spanZ (a_dx o) i x /\ in_span (a_dz o) k z /\ (if (a_dims o =? 3)%nat then in_span (a_dy o) j y else j = 0%nat).

(** linear interpolation between the values [l] and [r] at the two ends of the span number i of length d *)
Definition lin (d i x l r : R) : R := (1 - (x / d - i)) * l + (x / d - i) * r.
Definition dX (o : aopts) (f : flow) (i : Z) (j k : nat) (x : R) : R :=
  a_dx o * lin (a_dx o) (IZR i) x (fu f i j k) (fu f (i + 1) j k).
Definition dY (o : aopts) (f : flow) (i : Z) (j k : nat) (y : R) : R :=
  a_dy o * lin (a_dy o) (INR j) y (fv f i j k) (fv f i (j + 1) k).
Definition dZ (o : aopts) (f : flow) (i : Z) (j k : nat) (z : R) : R :=
  a_dz o * lin (a_dz o) (INR k) z (fw f i j k) (fw f i j (k + 1)).

(** a two- or three-dimensional set-up, and a point of its domain *)
Record setup (o : aopts) : Prop := {
  su_dims : a_dims o = 2%nat \/ a_dims o = 3%nat;
  su_grid : grid_dims (a_dims o) (a_nx o) (a_ny o) (a_nz o);
  su_dx : 0 < a_dx o; su_dy : 0 < a_dy o; su_dz : 0 < a_dz o;
  su_z : 0 <= a_z0 o /\ a_z0 o + a_dz o / 1000 <= a_z1 o /\ a_z1 o <= INR (a_nz o) * a_dz o;
  su_y : a_dims o = 3%nat -> 0 <= a_y0 o /\ a_y0 o < a_y1 o /\ a_y1 o <= INR (a_ny o) * a_dy o
}.
Definition inside (o : aopts) (x y z : R) : Prop :=
  0 <= x < INR (a_nx o) * a_dx o /\ (a_dims o = 3%nat -> a_y0 o <= y < a_y1 o) /\ a_z0 o <= z < a_z1 o.

(** ** proofs *)
Definition rows (o : aopts) : nat := match a_dims o with 3 => a_ny o | _ => 1%nat end.
Definition cno (o : aopts) (i j k : nat) : nat := ((i * rows o + j) * a_nz o + k)%nat.

Lemma cno_ravel o i j k : setup o -> (j < rows o)%nat -> ravel (a_dims o) (a_ny o) (a_nz o) i j k = cno o i j k.
Proof.
  intros S Hj. unfold cno, rows in *. destruct (su_dims _ S) as [E|E]; rewrite E in *; cbn [ravel].
  - assert (j = 0)%nat by lia. subst. ring.
  - ring.
Qed.
Lemma cno_halo o i j k : setup o -> (cno o i j k + halo_x o = cno o (i + halo_size o) j k)%nat.
Proof. intros S. unfold cno, rows, halo_x. destruct (su_dims _ S) as [E|E]; rewrite E; ring. Qed.

(** the faces of the cell addressed by adve_calc *)
Lemma calc_faces o f cx cy cz h apply offset p (i : Z) j k :
  setup o -> stored o f cx cy cz ->
  (- Z.of_nat (halo_size o) <= i < Z.of_nat (a_nx o + halo_size o))%Z -> (j < rows o)%nat -> (k < a_nz o)%nat ->
  (pijk p + offset = cno o (Z.to_nat (i + Z.of_nat (halo_size o))) j k)%nat ->
  adve_calc o cx cy cz h apply offset p =
  mk_part (h (a_dx o) apply (px p) (pi p) (fu f i j k) (fu f (i + 1) j k))
    (if (a_dims o =? 3)%nat then h (a_dy o) apply (py p) (pj p) (fv f i j k) (fv f i (j + 1) k) else py p)
    (h (a_dz o) apply (pz p) (pk p) (fw f i j k) (fw f i j (k + 1)))
    (pijk p) (pi p) (pj p) (pk p).
Proof.
  intros S ST Hi Hj Hk E. unfold adve_calc. cbv zeta. rewrite E.
  set (I := Z.to_nat (i + Z.of_nat (halo_size o))) in *.
  assert (HI : (I < a_nx o + 2 * halo_size o)%nat) by (unfold I; lia).
  assert (EI1 : Z.to_nat (i + 1 + Z.of_nat (halo_size o)) = (I + 1)%nat) by (unfold I; lia).
  unfold stored in ST. cbv zeta in ST. fold (rows o) in ST.
  pose proof (ST i j k ltac:(lia) ltac:(lia) ltac:(lia)) as (A1 & A2 & A3).
  pose proof (ST (i + 1)%Z j k ltac:(lia) ltac:(lia) ltac:(lia)) as (B1 & _ & _).
  pose proof (ST i (j + 1)%nat k ltac:(lia) ltac:(lia) ltac:(lia)) as (_ & B2 & _).
  pose proof (ST i j (k + 1)%nat ltac:(lia) ltac:(lia) ltac:(lia)) as (_ & _ & B3).
  fold I in A1, A2, A3, B2, B3. rewrite EI1 in B1.
  specialize (A1 ltac:(lia) Hj Hk). specialize (B1 ltac:(lia) Hj Hk).
  specialize (A3 ltac:(lia) Hj). specialize (B3 ltac:(lia) Hj).
  specialize (A2 ltac:(lia) Hk). specialize (B2 ltac:(lia) Hk).
  pose proof (su_grid _ S) as G.
  unfold cno, rows in *. destruct (su_dims _ S) as [D|D]; rewrite D in *; cbn [grid_dims Nat.eqb Nat.ltb Nat.leb] in *.
  - assert (j = 0)%nat by lia. subst j.
    replace ((I * 1 + 0) * a_nz o + k)%nat with (I * a_nz o + k)%nat in * by ring.
    replace (((I + 1) * 1 + 0) * a_nz o + k)%nat with ((I + 1) * a_nz o + k)%nat in * by ring.
    replace (I * 1 + 0)%nat with I in * by ring.
    destruct G as (_ & Ey & _). rewrite Ey in *.
    destruct (C11_faces_2D (a_nx o) (a_nz o) (halo_size o) I k HI Hk) as ((-> & -> & -> & ->) & _).
    rewrite A1, B1, A3, B3. reflexivity.
  - specialize (A2 eq_refl). specialize (B2 eq_refl).
    pose proof (C11_faces_3D (a_nx o) (a_ny o) (a_nz o) (halo_size o) I j k HI Hj Hk) as ((E1 & E2 & E3 & E4 & E5 & E6) & _).
    unfold cell_no, face_x, face_y, face_z in *.
    rewrite E1, E2, E3, E4, E5, E6, A1, B1, A2, B2, A3, B3. reflexivity.
Qed.

Lemma cell_coord_Z d x (i : Z) : 0 < d -> (0 <= i)%Z -> spanZ d i x -> cell_coord d x = Z.to_nat i.
Proof.
  intros Hd Hi [H1 H2].
  assert (H0 : 0 <= x < INR (Z.to_nat i + 1) * d).
  { rewrite plus_INR, INR_IZR_INZ, Z2Nat.id by lia. change (INR 1) with 1. split; [|lra].
    apply Rle_trans with (IZR i * d); [|lra]. apply Rmult_le_pos; [|lra]. now apply (IZR_le 0). }
  destruct (cell_coord_spec d x _ Hd H0) as [_ H]. apply (span_unique d x); auto.
  unfold in_span. rewrite INR_IZR_INZ, Z2Nat.id by lia. split; lra.
Qed.
Lemma cell_coord_nat d x i : 0 < d -> in_span d i x -> cell_coord d x = i.
Proof.
  intros Hd H. rewrite (cell_coord_Z d x (Z.of_nat i)); [lia|auto|lia|].
  unfold spanZ. rewrite <- INR_IZR_INZ. exact H.
Qed.

(** the cell numbers stored by hskpng_ijk when positions are shifted by [s] columns *)
Lemma re_index_shift o (s : nat) x y z (i : Z) j k q :
  setup o -> in_cell o i j k (x - INR s * a_dx o) y z -> (- Z.of_nat s <= i)%Z ->
  (a_dims o = 3%nat -> (j < a_ny o)%nat) ->
  px q = x -> py q = y -> pz q = z ->
  re_index o q = mk_part x y z (cno o (Z.to_nat (i + Z.of_nat s)) j k)
     (Z.to_nat (i + Z.of_nat s)) (pj (re_index o q)) k /\
  (j < rows o)%nat /\ (a_dims o = 3%nat -> pj (re_index o q) = j).
Proof.
  intros S (CX & CZ & CY) Hi Hj Ex Ey Ez.
  pose proof (su_dx _ S). pose proof (su_dy _ S). pose proof (su_dz _ S).
  assert (EX : cell_coord (a_dx o) x = Z.to_nat (i + Z.of_nat s)).
  { apply cell_coord_Z; auto; try lia. unfold spanZ in *. rewrite plus_IZR, <- INR_IZR_INZ. split; lra. }
  assert (EZ : cell_coord (a_dz o) z = k) by (now apply cell_coord_nat).
  unfold re_index, hskpng_ijk. cbn [pj]. rewrite Ex, Ey, Ez, EX, EZ.
  destruct (su_dims _ S) as [D|D]; rewrite D in *; cbn [Nat.eqb] in CY.
  - subst j. assert (R1 : (0 < rows o)%nat) by (unfold rows; rewrite D; lia). split; [|split; [exact R1|discriminate]].
    f_equal. rewrite <- (cno_ravel o _ 0 k S) by exact R1. rewrite D. reflexivity.
  - assert (EY : cell_coord (a_dy o) y = j) by (now apply cell_coord_nat). rewrite EY.
    assert (R1 : (j < rows o)%nat) by (unfold rows; rewrite D; auto). split; [|split; [exact R1|reflexivity]].
    f_equal. rewrite <- (cno_ravel o _ j k S) by exact R1. rewrite D. reflexivity.
Qed.

Lemma in_span_bound d (k m : nat) z : 0 < d -> in_span d k z -> z < INR m * d -> (k < m)%nat.
Proof. intros Hd [H1 _] H2. apply INR_lt. apply Rmult_lt_reg_r with d; lra. Qed.

Lemma inside_bounds o x y z i j k : setup o -> inside o x y z -> in_cell o i j k x y z ->
  (0 <= i < Z.of_nat (a_nx o))%Z /\ (a_dims o = 3%nat -> (j < a_ny o)%nat) /\ (k < a_nz o)%nat.
Proof.
  intros S (IX & IY & IZ) (CX & CZ & CY). pose proof (su_dx _ S). pose proof (su_dy _ S). pose proof (su_dz _ S).
  destruct CX as [C1 C2]. repeat split.
  - destruct (Z.le_gt_cases 0 i); auto. assert (IZR i <= -1) by (apply (IZR_le _ (-1)); lia). nra.
  - apply lt_IZR. rewrite <- INR_IZR_INZ. apply Rmult_lt_reg_r with (a_dx o); lra.
  - intros D. rewrite D in CY. cbn in CY. apply (in_span_bound (a_dy o) _ _ y); auto.
    destruct (su_y _ S D) as (_ & _ & ?). specialize (IY D). lra.
  - apply (in_span_bound (a_dz o) _ _ z); auto. destruct (su_z _ S) as (_ & _ & ?). lra.
Qed.

(** C17, explicit Euler scheme: the displacement is the cell size times the Courant number interpolated linearly
    between the two faces of the cell, at the position of the super-droplet. (The last clause is about the level number
    left behind, which subsidence uses.) *)
Theorem C17_euler :
  forall o f cx cy cz x y z i j k,
    setup o -> stored o f cx cy cz -> inside o x y z -> in_cell o i j k x y z ->
    forall c0 i0 j0 k0,
    let p := adve o cx cy cz Euler (re_index o (mk_part x y z c0 i0 j0 k0)) in
    px p = x + dX o f i j k x /\
    py p = (if (a_dims o =? 3)%nat then y + dY o f i j k y else y) /\
    pz p = z + dZ o f i j k z /\ pk p = k.
Proof.
  intros o f cx cy cz x y z i j k S ST IN CE c0 i0 j0 k0 p.
  destruct (inside_bounds _ _ _ _ _ _ _ S IN CE) as (Hi & Hj & Hk).
  pose proof (su_dx _ S). pose proof (su_dy _ S). pose proof (su_dz _ S).
  destruct (re_index_shift o 0 x y z i j k (mk_part x y z c0 i0 j0 k0) S) as (E & Hr & Ej); try reflexivity; auto; try lia.
  { replace (x - INR 0 * a_dx o) with x by (cbn; lra). exact CE. }
  replace (Z.to_nat (i + Z.of_nat 0)) with (Z.to_nat i) in E by lia.
  assert (EP : p = adve_calc o cx cy cz adve_helper_expl true (halo_x o) (re_index o (mk_part x y z c0 i0 j0 k0))).
  { unfold p, adve. destruct (su_dims _ S) as [D|D]; rewrite D; reflexivity. }
  rewrite EP, (calc_faces o f cx cy cz _ _ _ _ i j k S ST); [|lia|auto|auto|].
  - assert (Ei : pi (re_index o (mk_part x y z c0 i0 j0 k0)) = Z.to_nat i) by (rewrite E; reflexivity).
    assert (Ek : pk (re_index o (mk_part x y z c0 i0 j0 k0)) = k) by (rewrite E; reflexivity).
    assert (Ey : py (re_index o (mk_part x y z c0 i0 j0 k0)) = y) by reflexivity.
    assert (Ex : px (re_index o (mk_part x y z c0 i0 j0 k0)) = x) by reflexivity.
    assert (Ez : pz (re_index o (mk_part x y z c0 i0 j0 k0)) = z) by reflexivity.
    cbn [px py pz]. rewrite Ei, Ek, Ex, Ez, Ey. unfold adve_helper_expl, dX, dY, dZ, lin.
    rewrite INR_IZR_INZ, Z2Nat.id by lia. split; [|split; [|split]].
    + field. lra.
    + destruct (Nat.eqb_spec (a_dims o) 3) as [D|D]; [|reflexivity]. rewrite (Ej D). field. lra.
    + field. lra.
    + reflexivity.
  - rewrite E. cbn [pijk]. rewrite cno_halo by auto. f_equal. lia.
Qed.
Print Assumptions C17_euler.

(** C17, implicit scheme: the new position solves the equation in which the displacement is the cell size times the
    Courant number interpolated (extrapolated) to the new position, unless the Courant number grows by exactly one
    across the cell, in which case there is no such position (the code divides by zero). *)
Theorem C17_implicit :
  forall o f cx cy cz x y z i j k,
    setup o -> stored o f cx cy cz -> inside o x y z -> in_cell o i j k x y z ->
    forall c0 i0 j0 k0,
    let p := adve o cx cy cz Implicit (re_index o (mk_part x y z c0 i0 j0 k0)) in
    (fu f (i + 1) j k - fu f i j k <> 1 -> forall x', px p = x' <-> x' = x + dX o f i j k x') /\
    (a_dims o = 3%nat -> fv f i (j + 1) k - fv f i j k <> 1 -> forall y', py p = y' <-> y' = y + dY o f i j k y') /\
    (a_dims o = 2%nat -> py p = y) /\
    (fw f i j (k + 1) - fw f i j k <> 1 -> forall z', pz p = z' <-> z' = z + dZ o f i j k z') /\
    pk p = k.
Proof.
  intros o f cx cy cz x y z i j k S ST IN CE c0 i0 j0 k0 p.
  destruct (inside_bounds _ _ _ _ _ _ _ S IN CE) as (Hi & Hj & Hk).
  pose proof (su_dx _ S). pose proof (su_dy _ S). pose proof (su_dz _ S).
  destruct (re_index_shift o 0 x y z i j k (mk_part x y z c0 i0 j0 k0) S) as (E & Hr & Ej); try reflexivity; auto; try lia.
  { replace (x - INR 0 * a_dx o) with x by (cbn; lra). exact CE. }
  replace (Z.to_nat (i + Z.of_nat 0)) with (Z.to_nat i) in E by lia.
  assert (EP : p = adve_calc o cx cy cz adve_helper_impl true (halo_x o) (re_index o (mk_part x y z c0 i0 j0 k0))).
  { unfold p, adve. destruct (su_dims _ S) as [D|D]; rewrite D; reflexivity. }
  assert (G : forall d a ii l r, 0 < d -> r - l <> 1 -> forall x',
     (a + d * (l - ii * (r - l))) / (1 - (r - l)) = x' <-> x' = a + d * lin d ii x' l r).
  { intros d a ii l r Hd Hn x'. unfold lin. set (q := 1 - (r - l)). assert (q <> 0) by (unfold q; lra).
    split; intros EE.
    - subst x'. unfold q in *. field. split; lra.
    - apply Rmult_eq_reg_r with q; auto. unfold Rdiv at 1. rewrite Rmult_assoc, Rinv_l, Rmult_1_r by auto.
      assert (E2 : d * ((1 - (x' / d - ii)) * l + (x' / d - ii) * r) = d * l + (x' - d * ii) * (r - l)) by (field; lra).
      rewrite E2 in EE. unfold q. nra. }
  rewrite EP, (calc_faces o f cx cy cz _ _ _ _ i j k S ST); [|lia|auto|auto|].
  - assert (Ei : pi (re_index o (mk_part x y z c0 i0 j0 k0)) = Z.to_nat i) by (rewrite E; reflexivity).
    assert (Ek : pk (re_index o (mk_part x y z c0 i0 j0 k0)) = k) by (rewrite E; reflexivity).
    assert (Ey : py (re_index o (mk_part x y z c0 i0 j0 k0)) = y) by reflexivity.
    assert (Ex : px (re_index o (mk_part x y z c0 i0 j0 k0)) = x) by reflexivity.
    assert (Ez : pz (re_index o (mk_part x y z c0 i0 j0 k0)) = z) by reflexivity.
    cbn [px py pz]. rewrite Ei, Ek, Ex, Ez, Ey. unfold adve_helper_impl, dX, dY, dZ.
    rewrite (INR_IZR_INZ (Z.to_nat i)), Z2Nat.id by lia. split; [|split; [|split; [|split; [|reflexivity]]]].
    + intros Hn x'. apply G; auto.
    + intros D Hn y'. rewrite D. cbn [Nat.eqb]. rewrite (Ej D). apply G; auto.
    + intros D. rewrite D. reflexivity.
    + intros Hn z'. apply G; auto.
  - rewrite E. cbn [pijk]. rewrite cno_halo by auto. f_equal. lia.
Qed.
Print Assumptions C17_implicit.

(** ** predictor-corrector *)
(** y wrapped into the domain by a whole number of domain lengths *)
Definition wrapped (a b y ym : R) : Prop := a <= ym < b /\ exists m : Z, ym = y + IZR m * (b - a).
(** z moved back into the domain, to 1e-8 of the cell size from the wall *)
Definition moved_back (o : aopts) (z zm : R) : Prop :=
  (a_z0 o < z < a_z1 o -> zm = z) /\
  (a_z1 o <= z -> zm = a_z1 o - / 10 ^ 8 * a_dz o) /\
  (z <= a_z0 o -> zm = a_z0 o + / 10 ^ 8 * a_dz o).
Definition bounded (o : aopts) (f : flow) : Prop :=
  (forall i j k, Rabs (fu f i j k) <= 2) /\
  (a_dims o = 3%nat -> forall i j k, Rabs (fv f i j k) * a_dy o <= a_y1 o - a_y0 o).

Lemma wrapped_unique a b y u v : a < b -> wrapped a b y u -> wrapped a b y v -> u = v.
Proof.
  intros Hab (Hu & m & Eu) (Hv & m' & Ev).
  assert (m = m').
  { assert (H1 : IZR m - IZR m' < 1). { apply Rmult_lt_reg_r with (b - a); nra. }
    assert (H2 : IZR m' - IZR m < 1). { apply Rmult_lt_reg_r with (b - a); nra. }
    rewrite <- minus_IZR in H1, H2. apply (lt_IZR _ 1) in H1. apply (lt_IZR _ 1) in H2. lia. }
  subst. reflexivity.
Qed.
Lemma Rabs_le_both a b : Rabs a <= b -> - b <= a <= b.
Proof. intros H. pose proof (Rle_abs a). pose proof (Rle_abs (- a)). rewrite Rabs_Ropp in *. lra. Qed.
Lemma lin_bounds d i x l r lo hi : 0 < d -> i * d <= x < (i + 1) * d -> lo <= l <= hi -> lo <= r <= hi ->
  lo <= lin d i x l r <= hi.
Proof.
  intros Hd Hx Hl Hr. unfold lin. set (w := x / d - i).
  assert (0 <= w < 1).
  { unfold w. assert (x = d * (x / d)) by (field; lra). split; nra. }
  split; nra.
Qed.
Lemma lin_abs d i x l r m : 0 < d -> i * d <= x < (i + 1) * d -> Rabs l <= m -> Rabs r <= m -> Rabs (lin d i x l r) <= m.
Proof.
  intros Hd Hx Hl Hr. apply Rabs_le. apply lin_bounds; auto; now apply Rabs_le_both.
Qed.

Lemma moved_back_spec o z : setup o -> moved_back o z (z_back o z).
Proof.
  intros S. destruct (su_z _ S) as (Z0 & Z1 & Z2). pose proof (su_dz _ S) as Hd.
  unfold moved_back, z_back. replace (/ 10 ^ 8) with (1 / 100000000) by (field).
  assert (Hd8 : 1 / 100000000 * a_dz o < a_dz o / 1000) by lra.
  unfold Rleb. repeat split; intros; repeat destruct (Rle_dec _ _); try lra.
Qed.
Lemma z_back_inside o z : setup o -> a_z0 o <= z_back o z < a_z1 o.
Proof.
  intros S. destruct (moved_back_spec o z S) as (A & B & C).
  destruct (su_z _ S) as (Z0 & Z1 & Z2). pose proof (su_dz _ S) as Hd.
  replace (/ 10 ^ 8) with (1 / 100000000) in * by (field).
  destruct (Rle_dec (a_z1 o) z); [rewrite B; lra|]. destruct (Rle_dec z (a_z0 o)); [rewrite C; lra|].
  rewrite A; lra.
Qed.

Theorem C17_pred_corr :
  forall o f cx cy cz x y z i j k,
    setup o -> a_cfg o = PredCorr -> stored o f cx cy cz -> bounded o f ->
    inside o x y z -> in_cell o i j k x y z ->
    forall c0 i0 j0 k0 ym zm i' j' k',
    let p := adve o cx cy cz PredCorr (mk_part x y z c0 i0 j0 k0) in
    (* position after the predictor *)
    let xs := x + dX o f i j k x in
    (a_dims o = 3%nat -> wrapped (a_y0 o) (a_y1 o) (y + dY o f i j k y) ym) -> moved_back o (z + dZ o f i j k z) zm ->
    in_cell o i' j' k' xs ym zm ->
    px p = x + (dX o f i j k x + dX o f i' j' k' xs) / 2 /\
    py p = (if (a_dims o =? 3)%nat then y + (dY o f i j k y + dY o f i' j' k' ym) / 2 else y) /\
    pz p = z + ((zm - z) + dZ o f i' j' k' zm) / 2 /\
    pk p = k'.
Proof.
  intros o f cx cy cz x y z i j k S CF ST [BU BV] IN CE c0 i0 j0 k0 ym zm i' j' k' p xs WR MB CE'.
  destruct (inside_bounds _ _ _ _ _ _ _ S IN CE) as (Hi & Hj & Hk).
  pose proof (su_dx _ S) as Hdx. pose proof (su_dy _ S) as Hdy. pose proof (su_dz _ S) as Hdz.
  assert (Hh : halo_size o = 2%nat) by (unfold halo_size; now rewrite CF).
  assert (EP : p = adve_pred_corr o cx cy cz (mk_part x y z c0 i0 j0 k0)).
  { unfold p, adve. destruct (su_dims _ S) as [D|D]; rewrite D; reflexivity. }
  assert (DX : Rabs (dX o f i j k x) <= 2 * a_dx o).
  { unfold dX. rewrite Rabs_mult, (Rabs_pos_eq (a_dx o)) by lra. rewrite Rmult_comm. apply Rmult_le_compat_r; [lra|].
    apply lin_abs; auto. apply CE. }
  apply Rabs_le_both in DX.
  assert (DY : a_dims o = 3%nat -> - (a_y1 o - a_y0 o) <= dY o f i j k y <= a_y1 o - a_y0 o).
  { intros D. apply Rabs_le_both. unfold dY. rewrite Rabs_mult, (Rabs_pos_eq (a_dy o)) by lra.
    destruct CE as (_ & _ & CY). rewrite D in CY. cbn [Nat.eqb] in CY.
    assert (HB : forall i j k, Rabs (fv f i j k) <= (a_y1 o - a_y0 o) / a_dy o).
    { intros. apply Rmult_le_reg_r with (a_dy o); auto. specialize (BV D i1 j1 k1).
      replace ((a_y1 o - a_y0 o) / a_dy o * a_dy o) with (a_y1 o - a_y0 o) by (field; lra). exact BV. }
    replace (a_y1 o - a_y0 o) with (a_dy o * ((a_y1 o - a_y0 o) / a_dy o)) by (field; lra).
    apply Rmult_le_compat_l; [lra|]. apply lin_abs; auto. }
  (* first indexing *)
  set (q1 := with_pos (mk_part x y z c0 i0 j0 k0) (x + INR (halo_size o) * a_dx o) y z).
  destruct (re_index_shift o 2 (x + INR (halo_size o) * a_dx o) y z i j k q1 S) as (E1 & Hr1 & Ej1);
    try reflexivity; auto; try lia.
  { rewrite Hh. replace (x + INR 2 * a_dx o - INR 2 * a_dx o) with x by ring. exact CE. }
  set (p1 := re_index o q1) in *.
  (* predictor *)
  assert (E2 : adve_calc o cx cy cz adve_helper_expl true 0 p1 =
     mk_part (xs + INR 2 * a_dx o)
        (if (a_dims o =? 3)%nat then y + dY o f i j k y else y) (z + dZ o f i j k z) (pijk p1) (pi p1) (pj p1) (pk p1)).
  { rewrite (calc_faces o f cx cy cz _ _ _ _ i j k S ST); [|lia|auto|auto|].
    - assert (Ex : px p1 = x + INR 2 * a_dx o) by (rewrite E1, Hh; reflexivity).
      assert (Ey : py p1 = y) by (rewrite E1; reflexivity).
      assert (Ez : pz p1 = z) by (rewrite E1; reflexivity).
      assert (Ei : INR (pi p1) = IZR i + INR 2).
      { rewrite E1. cbn [pi]. rewrite INR_IZR_INZ, Z2Nat.id by lia. rewrite plus_IZR, <- INR_IZR_INZ. reflexivity. }
      assert (Ek : pk p1 = k) by (rewrite E1; reflexivity).
      f_equal.
      + rewrite Ex. unfold xs, dX, adve_helper_expl, lin. rewrite Ei. field. lra.
      + destruct (Nat.eqb_spec (a_dims o) 3) as [D|D]; [|exact Ey]. rewrite Ey, (Ej1 D). unfold dY, adve_helper_expl, lin. field. lra.
      + rewrite Ez, Ek. unfold dZ, adve_helper_expl, lin. field. lra.
    - rewrite E1. cbn [pijk]. rewrite Hh. f_equal. lia. }
  (* the point where the corrector samples the flow *)
  assert (EY2 : a_dims o = 3%nat -> periodic (a_y0 o) (a_y1 o) (y + dY o f i j k y) = ym).
  { intros D. destruct (su_y _ S D) as (Y0 & Y1 & Y2). destruct IN as (_ & IY & _). specialize (IY D). specialize (DY D).
    destruct (C08_periodic_into_domain (a_y0 o) (a_y1 o) (y + dY o f i j k y)) as (P1 & (m & P2) & _); [lra|lra|].
    apply (wrapped_unique (a_y0 o) (a_y1 o) (y + dY o f i j k y)); auto. split; [lra|]. exists m. lra. }
  assert (EZ2 : z_back o (z + dZ o f i j k z) = zm).
  { destruct (moved_back_spec o (z + dZ o f i j k z) S) as (A & B & C). destruct MB as (A' & B' & C').
    destruct (Rle_dec (a_z1 o) (z + dZ o f i j k z)); [rewrite B, B'; auto|].
    destruct (Rle_dec (z + dZ o f i j k z) (a_z0 o)); [rewrite C, C'; auto|]. rewrite A, A' by lra. reflexivity. }
  set (y2 := if (a_dims o =? 3)%nat then ym else y) in *.
  assert (CE2 : in_cell o i' j' k' xs y2 zm).
  { destruct CE' as (C1 & C2 & C3). repeat split; try apply C1; try apply C2. unfold y2.
    destruct (a_dims o =? 3)%nat; auto. }
  assert (Hi' : (-2 <= i' < Z.of_nat (a_nx o + 2))%Z).
  { destruct CE2 as ((C1 & C2) & _). destruct IN as (IX & _).
    split.
    - assert (H : -3 < IZR i') by (unfold xs in *; apply Rmult_lt_reg_r with (a_dx o); lra).
      apply (lt_IZR (-3)) in H. lia.
    - apply lt_IZR. rewrite <- INR_IZR_INZ, plus_INR. change (INR 2) with (1 + 1).
      unfold xs in *. apply Rmult_lt_reg_r with (a_dx o); lra. }
  assert (Hj' : a_dims o = 3%nat -> (j' < a_ny o)%nat).
  { intros D. destruct CE2 as (_ & _ & C3). unfold y2 in C3. rewrite D in C3. cbn [Nat.eqb] in C3.
    apply (in_span_bound (a_dy o) _ _ ym); auto. destruct (su_y _ S D) as (_ & _ & ?). destruct (WR D) as ((_ & ?) & _). lra. }
  assert (Hk' : (k' < a_nz o)%nat).
  { destruct CE2 as (_ & C3 & _). apply (in_span_bound (a_dz o) _ _ zm); auto.
    pose proof (z_back_inside o (z + dZ o f i j k z) S). destruct (su_z _ S) as (_ & _ & ?). rewrite EZ2 in *. lra. }
  set (q3 := mk_part (xs + INR 2 * a_dx o) y2 zm (pijk p1) (pi p1) (pj p1) (pk p1)).
  destruct (re_index_shift o 2 (xs + INR 2 * a_dx o) y2 zm i' j' k' q3 S) as (E3 & Hr3 & Ej3); try reflexivity; auto; try lia.
  { replace (xs + INR 2 * a_dx o - INR 2 * a_dx o) with xs by ring. exact CE2. }
  set (p3 := re_index o q3) in *.
  assert (E4 : adve_calc o cx cy cz adve_helper_expl false 0 p3 =
     mk_part (dX o f i' j' k' xs) (if (a_dims o =? 3)%nat then dY o f i' j' k' ym else y) (dZ o f i' j' k' zm)
       (pijk p3) (pi p3) (pj p3) (pk p3)).
  { rewrite (calc_faces o f cx cy cz _ _ _ _ i' j' k' S ST); [|lia|auto|auto|].
    - assert (Ex : px p3 = xs + INR 2 * a_dx o) by reflexivity.
      assert (Ey : py p3 = y2) by reflexivity.
      assert (Ez : pz p3 = zm) by reflexivity.
      assert (Ei : INR (pi p3) = IZR i' + INR 2).
      { rewrite E3. cbn [pi]. rewrite INR_IZR_INZ, Z2Nat.id by lia. rewrite plus_IZR, <- INR_IZR_INZ. reflexivity. }
      assert (Ek : pk p3 = k') by (rewrite E3; reflexivity).
      rewrite Ex, Ey, Ez, Ek. f_equal.
      + unfold dX, adve_helper_expl, lin. rewrite Ei. field. lra.
      + unfold y2. destruct (Nat.eqb_spec (a_dims o) 3) as [D|D]; [|reflexivity]. rewrite (Ej3 D). unfold dY, adve_helper_expl, lin. field. lra.
      + unfold dZ, adve_helper_expl, lin. field. lra.
    - rewrite E3. cbn [pijk]. rewrite Hh. f_equal. lia. }
  (* final assembly *)
  assert (D2 : (1 <? a_dims o)%nat = true) by (destruct (su_dims _ S) as [D|D]; rewrite D; reflexivity).
  assert (D3 : (2 <? a_dims o)%nat = (a_dims o =? 3)%nat) by (destruct (su_dims _ S) as [D|D]; rewrite D; reflexivity).
  assert (EPP : p = with_pos (adve_calc o cx cy cz adve_helper_expl false 0 p3)
     ((dX o f i' j' k' xs + (xs + INR 2 * a_dx o + (x + INR 2 * a_dx o))) / 2 - INR 2 * a_dx o)
     (if (a_dims o =? 3)%nat then (dY o f i' j' k' ym + (ym + y_old_adjusted o (y + dY o f i j k y) y)) / 2 else y)
     ((dZ o f i' j' k' zm + (zm + z)) / 2)).
  { rewrite EP. unfold adve_pred_corr. cbv zeta. cbn [px py pz]. fold q1. fold p1. rewrite E2. cbn [px py pz pijk pi pj pk with_pos].
    rewrite D2, D3, EZ2.
    assert (EQ : with_pos (mk_part (xs + INR 2 * a_dx o) (if (a_dims o =? 3)%nat then y + dY o f i j k y else y)
         (z + dZ o f i j k z) (pijk p1) (pi p1) (pj p1) (pk p1)) (xs + INR 2 * a_dx o)
         (if (a_dims o =? 3)%nat then periodic (a_y0 o) (a_y1 o) (if (a_dims o =? 3)%nat then y + dY o f i j k y else y)
          else if (a_dims o =? 3)%nat then y + dY o f i j k y else y) zm = q3).
    { unfold with_pos, q3, y2. cbn [pijk pi pj pk]. f_equal. destruct (Nat.eqb_spec (a_dims o) 3) as [D|D]; auto. }
    unfold with_pos in EQ |- *. cbn [pijk pi pj pk] in EQ |- *. rewrite EQ. fold p3. rewrite E4.
    cbn [px py pz pijk pi pj pk]. rewrite Hh.
    assert (Ex1 : px p1 = x + INR 2 * a_dx o) by (rewrite E1, Hh; reflexivity).
    assert (Ey1 : py p1 = y) by reflexivity. assert (Ez1 : pz p1 = z) by reflexivity.
    assert (Ex3 : px p3 = xs + INR 2 * a_dx o) by reflexivity.
    assert (Ey3 : py p3 = y2) by reflexivity. assert (Ez3 : pz p3 = zm) by reflexivity.
    rewrite Ex1, Ey1, Ez1, Ex3, Ey3, Ez3. f_equal. unfold y2.
    destruct (a_dims o =? 3)%nat; reflexivity. }
  assert (EK : pk p = k') by (rewrite EPP, E4, E3; reflexivity).
  split; [|split; [|split; [|exact EK]]]; rewrite EPP; unfold with_pos; cbn [px py pz].
  - unfold xs. field.
  - destruct (Nat.eqb_spec (a_dims o) 3) as [D|D]; [|reflexivity].
    assert (EY : ym + y_old_adjusted o (y + dY o f i j k y) y = y + dY o f i j k y + y).
    { destruct IN as (_ & IY & _). specialize (IY D). destruct (WR D) as (W1 & W2). specialize (DY D). clear EPP E4 E2 EP.
      assert (W3 : forall v, wrapped (a_y0 o) (a_y1 o) (y + dY o f i j k y) v -> ym = v).
      { intros v Hv. apply (wrapped_unique (a_y0 o) (a_y1 o) (y + dY o f i j k y)); auto; lra. }
      unfold y_old_adjusted, Rleb, Rltb. assert (EYs : exists ys, ys = y + dY o f i j k y) by eauto. destruct EYs as (ys & EYs). rewrite <- EYs in *.
      destruct (Rle_dec (a_y1 o) ys).
      - destruct (Rlt_dec ys (a_y0 o)); [lra|].
        destruct (Rlt_dec ys (a_y1 o + (a_y1 o - a_y0 o))).
        + rewrite (W3 (ys - (a_y1 o - a_y0 o))); [ring|]. split; [lra|]. exists (-1)%Z. ring.
        + exfalso. lra.
      - destruct (Rlt_dec ys (a_y0 o)).
        + rewrite (W3 (ys + (a_y1 o - a_y0 o))); [ring|]. split; [lra|]. exists 1%Z. ring.
        + rewrite (W3 ys); [ring|]. split; [lra|]. exists 0%Z. ring. }
    rewrite EY. field.
  - field.
Qed.
Print Assumptions C17_pred_corr.
