(** C10-C12: cell indices, the staggered grid, cell volumes *)
From Coq Require Import List Arith NArith ZArith Lia Reals Lra Permutation Bool.
From Verif Require Import Base BaseProofs SpaceModel SpaceProofs SpaceProps.
Import ListNotations.
Local Open Scope R_scope.

(** ** C10 specification: the grid is nx (x ny) (x nz) boxes; cell (i,j,k) of an n-dimensional grid has the
    number obtained by counting z fastest, then y, then x. *)
Definition in_span (d : R) (i : nat) (x : R) : Prop := INR i * d <= x < (INR i + 1) * d.
Definition box (dims : nat) (dx dy dz : R) (i j k : nat) (x y z : R) : Prop :=
  ((1 <= dims)%nat -> in_span dx i x) /\ (dims = 3%nat -> in_span dy j y) /\ ((2 <= dims)%nat -> in_span dz k z).
Definition domain (dims nx ny nz : nat) (dx dy dz x y z : R) : Prop :=
  ((1 <= dims)%nat -> 0 <= x < INR nx * dx) /\ (dims = 3%nat -> 0 <= y < INR ny * dy) /\
  ((2 <= dims)%nat -> 0 <= z < INR nz * dz).
Definition valid_cell (dims nx ny nz i j k : nat) : Prop :=
  ((1 <= dims)%nat -> (i < nx)%nat) /\ (dims = 3%nat -> (j < ny)%nat) /\ ((2 <= dims)%nat -> (k < nz)%nat) /\
  ((dims < 1)%nat -> i = 0%nat) /\ (dims <> 3%nat -> j = 0%nat) /\ ((dims < 2)%nat -> k = 0%nat).
(** number of cells; a dimension that is not used has size zero *)
Definition n_cell (nx ny nz : nat) : nat := (m1 nx * m1 ny * m1 nz)%nat.
Definition grid_dims (dims nx ny nz : nat) : Prop :=
  match dims with
  | 0 => nx = 0 /\ ny = 0 /\ nz = 0
  | 1 => 0 < nx /\ ny = 0 /\ nz = 0
  | 2 => 0 < nx /\ ny = 0 /\ 0 < nz
  | 3 => 0 < nx /\ 0 < ny /\ 0 < nz
  | _ => False
  end%nat.

Lemma cell_coord_spec d x n : 0 < d -> 0 <= x < INR n * d ->
  (cell_coord d x < n)%nat /\ in_span d (cell_coord d x) x.
Proof.
  intros Hd Hx. unfold cell_coord, in_span.
  assert (H0 : 0 <= x / d) by (apply Rmult_le_pos; [lra|left; apply Rinv_0_lt_compat; auto]).
  destruct (truncZ_nonneg _ H0) as [[H1 H2] H3]. set (t := truncZ (x / d)) in *.
  assert (E : x = d * (x / d)) by (field; lra).
  assert (Et : INR (Z.to_nat t) = IZR t) by (rewrite INR_IZR_INZ, Z2Nat.id; auto).
  rewrite Et.
  assert (Hs : IZR t * d <= x < (IZR t + 1) * d) by (rewrite E at 1 2; split; nra).
  split; [|exact Hs].
  apply INR_lt. rewrite Et. destruct Hx. nra.
Qed.
Lemma span_unique d x i i' : 0 < d -> in_span d i x -> in_span d i' x -> i = i'.
Proof.
  unfold in_span. intros Hd [H1 H2] [H3 H4].
  assert (INR i < INR (S i')) by (rewrite S_INR; nra).
  assert (INR i' < INR (S i)) by (rewrite S_INR; nra).
  apply INR_lt in H. apply INR_lt in H0. lia.
Qed.

(** C10. Numbering: cell triples and cell numbers correspond one to one. *)
Theorem C10_numbering_bijective :
  forall dims nx ny nz, grid_dims dims nx ny nz ->
    (forall i j k, valid_cell dims nx ny nz i j k ->
       (ravel dims ny nz i j k < n_cell nx ny nz)%nat /\
       unravel dims ny nz (ravel dims ny nz i j k) = (i, j, k)) /\
    (forall c, (c < n_cell nx ny nz)%nat ->
       let '(i, j, k) := unravel dims ny nz c in
       valid_cell dims nx ny nz i j k /\ ravel dims ny nz i j k = c).
Proof.
  intros dims nx ny nz HG. unfold grid_dims in HG.
  destruct dims as [|[|[|[|dims]]]]; [| | | |contradiction]; unfold valid_cell, n_cell, m1, ravel, unravel.
  - destruct HG as (-> & -> & ->). split.
    + intros i j k (_ & _ & _ & H1 & H2 & H3). rewrite H1, H2, H3 by lia. cbn. auto.
    + intros c Hc. cbn in Hc. repeat split; intros; lia.
  - destruct HG as (H0 & -> & ->). split.
    + intros i j k (H1 & _ & _ & _ & H2 & H3). rewrite H2, H3 by lia. specialize (H1 ltac:(lia)). split; [|reflexivity].
      rewrite Nat.max_r by lia. cbn. lia.
    + intros c Hc. rewrite Nat.max_r in Hc by lia. cbn in Hc. repeat split; intros; try lia.
  - destruct HG as (H0 & -> & Hz). change (Nat.max 1 0) with 1%nat. rewrite (Nat.max_r 1 nx), (Nat.max_r 1 nz) by lia.
    split.
    + intros i j k (H1 & _ & H2 & _ & H3 & _). specialize (H1 ltac:(lia)). specialize (H2 ltac:(lia)).
      rewrite H3 by lia. split; [replace (nx * 1 * nz)%nat with (nx * nz)%nat by ring; assert ((i + 1) * nz <= nx * nz)%nat by (apply Nat.mul_le_mono_r; lia); lia|].
      rewrite Nat.div_add_l, Nat.div_small, Nat.add_0_r by lia.
      rewrite Nat.add_comm, Nat.mod_add, Nat.mod_small by lia. reflexivity.
    + intros c Hc.
      assert (E : c = (nz * (c / nz) + c mod nz)%nat) by (apply Nat.div_mod; lia).
      assert (c mod nz < nz)%nat by (apply Nat.mod_upper_bound; lia).
      assert (c / nz < nx)%nat by (apply Nat.div_lt_upper_bound; lia).
      split; [|lia]. repeat split; intros; try lia.
  - destruct HG as (H0 & Hy & Hz). rewrite !Nat.max_r by lia.
    split.
    + intros i j k (H1 & H2 & H3 & _). specialize (H1 ltac:(lia)). specialize (H2 ltac:(lia)). specialize (H3 ltac:(lia)).
      assert (E : (i * (nz * ny) + j * nz + k = (i * ny + j) * nz + k)%nat) by ring. 
      split; [rewrite E; assert ((i * ny + j) < nx * ny)%nat by nia; nia|].
      f_equal; [f_equal|].
      * rewrite <- Nat.add_assoc, Nat.div_add_l by nia. rewrite Nat.div_small; [lia|nia].
      * rewrite E, Nat.div_add_l, (Nat.div_small k nz), Nat.add_0_r by lia.
        rewrite Nat.add_comm, Nat.mod_add, Nat.mod_small by lia. reflexivity.
      * rewrite E. rewrite Nat.add_comm, Nat.mod_add, Nat.mod_small by lia. reflexivity.
    + intros c Hc.
      assert (E : c = (nz * (c / nz) + c mod nz)%nat) by (apply Nat.div_mod; lia).
      assert (E2 : (c / nz = ny * (c / nz / ny) + (c / nz) mod ny)%nat) by (apply Nat.div_mod; lia).
      assert (c mod nz < nz)%nat by (apply Nat.mod_upper_bound; lia).
      assert ((c / nz) mod ny < ny)%nat by (apply Nat.mod_upper_bound; lia).
      rewrite <- Nat.div_div by lia.
      assert (c / nz / ny < nx)%nat by (rewrite Nat.div_div by lia; apply Nat.div_lt_upper_bound; nia).
      split; [repeat split; intros; lia|]. nia.
Qed.
Print Assumptions C10_numbering_bijective.

(** C10. A position inside the domain gets a valid cell number, of the one cell whose box contains it. *)
Theorem C10_cell_contains_position :
  forall dims nx ny nz dx dy dz x y z,
    grid_dims dims nx ny nz -> 0 < dx -> 0 < dy -> 0 < dz ->
    domain dims nx ny nz dx dy dz x y z ->
    let c := hskpng_ijk dims ny nz dx dy dz x y z in
    (c < n_cell nx ny nz)%nat /\
    forall i j k, valid_cell dims nx ny nz i j k ->
      (c = ravel dims ny nz i j k <-> box dims dx dy dz i j k x y z).
Proof.
  intros dims nx ny nz dx dy dz x y z HG Hdx Hdy Hdz (DX & DY & DZ) c.
  destruct (C10_numbering_bijective dims nx ny nz HG) as [HB1 _].
  (* the triple actually used, with unused coordinates zeroed *)
  set (ci := if (1 <=? dims)%nat then cell_coord dx x else 0%nat).
  set (cj := if (dims =? 3)%nat then cell_coord dy y else 0%nat).
  set (ck := if (2 <=? dims)%nat then cell_coord dz z else 0%nat).
  assert (Ec : c = ravel dims ny nz ci cj ck).
  { unfold c, hskpng_ijk, ci, cj, ck. destruct dims as [|[|[|[|dims]]]]; try reflexivity. contradiction HG. }
  assert (SX : (1 <= dims)%nat -> (ci < nx)%nat /\ in_span dx ci x).
  { intros H. unfold ci. apply Nat.leb_le in H as H'. rewrite H'. apply cell_coord_spec; auto. }
  assert (SY : dims = 3%nat -> (cj < ny)%nat /\ in_span dy cj y).
  { intros H. unfold cj. apply Nat.eqb_eq in H as H'. rewrite H'. apply cell_coord_spec; auto. }
  assert (SZ : (2 <= dims)%nat -> (ck < nz)%nat /\ in_span dz ck z).
  { intros H. unfold ck. apply Nat.leb_le in H as H'. rewrite H'. apply cell_coord_spec; auto. }
  assert (HV : valid_cell dims nx ny nz ci cj ck).
  { repeat split; intros H; try (apply SX; auto; fail); try (apply SY; auto; fail); try (apply SZ; auto; fail).
    - unfold ci. destruct dims; [reflexivity|lia].
    - unfold cj. destruct (Nat.eqb_spec dims 3); [contradiction|reflexivity].
    - unfold ck. destruct dims as [|[|dims]]; try reflexivity. lia. }
  split; [rewrite Ec; now apply HB1|].
  intros i j k Hv. rewrite Ec. split.
  - intros E. assert (H : (ci, cj, ck) = (i, j, k)).
    { destruct (HB1 _ _ _ HV) as [_ <-]. destruct (HB1 _ _ _ Hv) as [_ <-]. now rewrite E. }
    injection H as <- <- <-. repeat split; intros; try (apply SX; auto; fail); try (apply SY; auto; fail); apply SZ; auto.
  - intros (B1 & B2 & B3). destruct Hv as (_ & _ & _ & V1 & V2 & V3). destruct HV as (_ & _ & _ & W1 & W2 & W3).
    f_equal.
    + destruct (le_lt_dec 1 dims); [|rewrite V1, W1 by lia; reflexivity].
      apply (span_unique dx x); auto. now apply SX.
    + destruct (Nat.eq_dec dims 3); [|rewrite V2, W2 by lia; reflexivity].
      apply (span_unique dy y); auto. now apply SY.
    + destruct (le_lt_dec 2 dims); [|rewrite V3, W3 by lia; reflexivity].
      apply (span_unique dz z); auto. now apply SZ.
Qed.
Print Assumptions C10_cell_contains_position.
Theorem C10_instance : grid_dims 3 4 5 6 /\ domain 3 4 5 6 1 1 1 (7/2) 4 (1/2) /\ valid_cell 3 4 5 6 3 4 0.
Proof. unfold grid_dims, domain, valid_cell; repeat split; intros; cbn; try lra; try lia. Qed.

(** C08+C09+C10 together: after the boundary conditions of a single-process run every super-droplet that
    has not been removed lies in the domain and gets a valid cell number. *)
Theorem C10_after_boundary_conditions :
  forall o l p nx ny nz dx dy dz,
    grid_dims (n_dims o) nx ny nz -> 0 < dx -> 0 < dy -> 0 < dz -> distmem o = false ->
    0 <= x0 o < x1 o -> x1 o <= INR nx * dx \/ n_dims o = 0%nat ->
    0 <= y0 o < y1 o -> y1 o <= INR ny * dy \/ n_dims o <> 3%nat ->
    0 <= z0 o < z1 o -> z1 o <= INR nz * dz \/ (n_dims o < 2)%nat ->
    (forall s, In s l -> x0 o - 10 * (x1 o - x0 o) <= b_x s /\ y0 o - 10 * (y1 o - y0 o) <= b_y s /\
                         z0 o - 10 * (z1 o - z0 o) <= b_z s) ->
    forall s', In s' (fst (fst (bcnd o l p))) -> b_n s' <> 0%N ->
      domain (n_dims o) nx ny nz dx dy dz (b_x s') (b_y s') (b_z s') /\
      (hskpng_ijk (n_dims o) ny nz dx dy dz (b_x s') (b_y s') (b_z s') < n_cell nx ny nz)%nat.
Proof.
  intros o l p nx ny nz dx dy dz HG Hdx Hdy Hdz Hdm HX HXn HY HYn HZ HZn Hguard s' Hin Hn.
  assert (HD : domain (n_dims o) nx ny nz dx dy dz (b_x s') (b_y s') (b_z s')).
  2:{ split; [exact HD|]. now apply (C10_cell_contains_position (n_dims o) nx ny nz dx dy dz). }
  destruct (Nat.eq_dec (n_dims o) 0) as [E0|E0].
  { rewrite E0. repeat split; intros; lia. }
  rewrite bcnd_list in Hin by auto. apply in_map_iff in Hin. destruct Hin as (s & <- & Hs).
  destruct (Hguard s Hs) as (G1 & G2 & G3).
  rewrite final_n in Hn by lra. destruct (final_moved o s) as (M1 & M2 & M3 & _).
  destruct (left_sideways o s || left_top o s || left_bottom o s) eqn:E; [congruence|].
  apply orb_false_iff in E as [E Eb]. apply orb_false_iff in E as [Es Et].
  unfold left_sideways in Es. rewrite Hdm in Es, M1. apply orb_false_iff in Es as [Ex Ey]. cbn [orb] in M1.
  unfold left_top, left_bottom, has_vertical_walls in *.
  rewrite M1, M2, M3. unfold domain. refine (conj (fun Hd => conj _ _) (conj (fun Hd => conj _ _) (fun Hd => conj _ _))).
  - destruct (open_side_walls o); cbn [andb] in Ex.
    + apply orb_false_iff in Ex as [Ex1 Ex2]. apply Rltb_false in Ex1. lra.
    + pose proof (C08_periodic_into_domain (x0 o) (x1 o) (b_x s)) as [H _]; lra.
  - destruct (open_side_walls o); cbn [andb] in Ex.
    + apply orb_false_iff in Ex as [Ex1 Ex2]. apply Rleb_false in Ex2. destruct HXn; [lra|contradiction].
    + pose proof (C08_periodic_into_domain (x0 o) (x1 o) (b_x s)) as [H _]; [lra|lra|]. destruct HXn; [lra|contradiction].
  - rewrite Hd in Ey |- *. cbn [Nat.eqb andb] in Ey |- *. destruct (open_side_walls o); cbn [andb negb] in Ey |- *.
    + apply orb_false_iff in Ey as [Ex1 Ex2]. apply Rltb_false in Ex1. lra.
    + pose proof (C08_periodic_into_domain (y0 o) (y1 o) (b_y s)) as [H _]; lra.
  - rewrite Hd in Ey |- *. cbn [Nat.eqb andb] in Ey |- *. destruct HYn; [|contradiction].
    destruct (open_side_walls o); cbn [andb negb] in Ey |- *.
    + apply orb_false_iff in Ey as [Ex1 Ex2]. apply Rleb_false in Ex2. lra.
    + pose proof (C08_periodic_into_domain (y0 o) (y1 o) (b_y s)) as [H0 _]; lra.
  - assert (E1 : (1 <? n_dims o)%nat = true) by (apply Nat.ltb_lt; lia). rewrite E1 in *. cbn [andb] in *.
    destruct (periodic_topbot o); cbn [negb andb] in *.
    + pose proof (C08_periodic_into_domain (z0 o) (z1 o) (b_z s)) as [H0 _]; lra.
    + apply Rltb_false in Eb. lra.
  - assert (E1 : (1 <? n_dims o)%nat = true) by (apply Nat.ltb_lt; lia). rewrite E1 in *. cbn [andb] in *.
    destruct HZn; [|lia].
    destruct (periodic_topbot o); cbn [negb andb] in *.
    + pose proof (C08_periodic_into_domain (z0 o) (z1 o) (b_z s)) as [H0 _]; lra.
    + apply Rleb_false in Et. lra.
Qed.
Print Assumptions C10_after_boundary_conditions.

(** ** C11 specification: faces of the Arakawa-C grid with [halo] extra columns on both sides in x.
    The x array holds (nx+2h+1) x ny x nz faces, the y array (nx+2h) x (ny+1) x nz, the z array
    (nx+2h) x ny x (nz+1), z fastest; face m of a row of cells lies between cells m-1 and m. *)
Definition cell_no (ny nz i j k : nat) : nat := ((i * ny + j) * nz + k)%nat.
Definition face_x (ny nz i j k : nat) : nat := ((i * ny + j) * nz + k)%nat.
Definition face_y (ny nz i j k : nat) : nat := ((i * (ny + 1) + j) * nz + k)%nat.
Definition face_z (ny nz i j k : nat) : nat := ((i * ny + j) * (nz + 1) + k)%nat.

Lemma div_col ny nz i j k : (j < ny)%nat -> (k < nz)%nat -> (cell_no ny nz i j k / (nz * ny) = i)%nat.
Proof.
  intros. unfold cell_no. replace ((i * ny + j) * nz + k)%nat with (i * (nz * ny) + (j * nz + k))%nat by ring.
  rewrite Nat.div_add_l by nia. rewrite Nat.div_small by nia. lia.
Qed.

Theorem C11_faces_3D :
  forall nx ny nz halo i j k, (i < nx + 2 * halo)%nat -> (j < ny)%nat -> (k < nz)%nat ->
    let c := cell_no ny nz i j k in
    (lft_ix c = face_x ny nz i j k /\ rgt_ix 3 ny nz c = face_x ny nz (i + 1) j k /\
     fre_ix ny nz c = face_y ny nz i j k /\ hnd_ix ny nz c = face_y ny nz i (j + 1) k /\
     blw_ix 3 ny nz c = face_z ny nz i j k /\ abv_ix 3 ny nz c = face_z ny nz i j (k + 1))%nat /\
    (lft_ix c < rgt_ix 3 ny nz c < size_cx 3 nx ny nz halo)%nat /\
    (fre_ix ny nz c < hnd_ix ny nz c < size_cy nx ny nz halo)%nat /\
    (blw_ix 3 ny nz c < abv_ix 3 ny nz c < size_cz 3 nx ny nz halo)%nat.
Proof.
  intros nx ny nz halo i j k Hi Hj Hk c.
  assert (Hb : (lft_ix c = face_x ny nz i j k /\ rgt_ix 3 ny nz c = face_x ny nz (i + 1) j k /\
     fre_ix ny nz c = face_y ny nz i j k /\ hnd_ix ny nz c = face_y ny nz i (j + 1) k /\
     blw_ix 3 ny nz c = face_z ny nz i j k /\ abv_ix 3 ny nz c = face_z ny nz i j (k + 1))%nat).
  { assert (E : (blw_ix 3 ny nz c = face_z ny nz i j k)%nat).
    { unfold blw_ix, c. rewrite div_col by auto. unfold cell_no, face_z.
      replace ((i * ny + j) * nz + k - i * (nz * ny))%nat with (j * nz + k)%nat by nia.
      rewrite Nat.div_add_l, Nat.div_small by lia. ring. }
    unfold abv_ix, hnd_ix, fre_ix, rgt_ix, lft_ix. rewrite E. unfold c. rewrite !div_col by auto.
    unfold cell_no, face_x, face_y, face_z. repeat split; ring. }
  split; [exact Hb|]. destruct Hb as (-> & -> & -> & -> & -> & ->).
  unfold size_cx, size_cy, size_cz, face_x, face_y, face_z.
  set (W := (nx + 2 * halo)%nat) in *. clearbody W.
  assert ((i + 1) * ny + j < (W + 1) * ny)%nat by nia.
  assert ((i * (ny + 1) + (j + 1)) < W * (ny + 1))%nat by nia.
  assert ((i * ny + j) < W * ny)%nat by nia.
  repeat split; nia.
Qed.
Print Assumptions C11_faces_3D.

Theorem C11_faces_2D :
  forall nx nz halo i k, (i < nx + 2 * halo)%nat -> (k < nz)%nat ->
    let c := (i * nz + k)%nat in
    (lft_ix c = i * nz + k /\ rgt_ix 2 0 nz c = (i + 1) * nz + k /\
     blw_ix 2 0 nz c = i * (nz + 1) + k /\ abv_ix 2 0 nz c = i * (nz + 1) + (k + 1))%nat /\
    (lft_ix c < rgt_ix 2 0 nz c < size_cx 2 nx 0 nz halo)%nat /\
    (blw_ix 2 0 nz c < abv_ix 2 0 nz c < size_cz 2 nx 0 nz halo)%nat.
Proof.
  intros nx nz halo i k Hi Hk c.
  assert (Hb : (lft_ix c = i * nz + k /\ rgt_ix 2 0 nz c = (i + 1) * nz + k /\
     blw_ix 2 0 nz c = i * (nz + 1) + k /\ abv_ix 2 0 nz c = i * (nz + 1) + (k + 1))%nat).
  { assert (E : (blw_ix 2 0 nz c = i * (nz + 1) + k)%nat).
    { unfold blw_ix, c. rewrite Nat.div_add_l, Nat.div_small by lia. ring. }
    unfold abv_ix, rgt_ix, lft_ix. rewrite E. unfold c. repeat split; ring. }
  split; [exact Hb|]. destruct Hb as (-> & -> & -> & ->). unfold size_cx, size_cz.
  set (W := (nx + 2 * halo)%nat) in *. clearbody W. repeat split; nia.
Qed.
Print Assumptions C11_faces_2D.

(** C11 is false in one dimension: with nz = 0 the right face of every cell is its left face, so a
    one-dimensional run always sees zero divergence of the Courant number across a cell. *)
Theorem C11_1D_refuted :
  forall ny c, rgt_ix 1 ny 0 c = lft_ix c.
Proof. intros. unfold rgt_ix, lft_ix. lia. Qed.
Print Assumptions C11_1D_refuted.
Theorem C11_instance : (rgt_ix 3 3 4 (cell_no 3 4 1 2 3) = 35 /\ fre_ix 3 4 (cell_no 3 4 1 2 3) = 27 /\ blw_ix 3 3 4 (cell_no 3 4 1 2 3) = 28)%nat.
Proof. repeat split. Qed.

(** ** C12 specification: the part of cell (i,j,k) inside the modelled domain *)
Definition overlap (d a b : R) (i : nat) : R := Rmax 0 (Rmin ((INR i + 1) * d) b - Rmax (INR i * d) a).
(** at most one side of the cell fails to meet the domain *)
Definition gap (d a b : R) (i : nat) : R := Rmin ((INR i + 1) * d) b - Rmax (INR i * d) a.
Definition at_most_one_outside (u v w : R) : Prop :=
  (0 <= u /\ 0 <= v) \/ (0 <= u /\ 0 <= w) \/ (0 <= v /\ 0 <= w).

Lemma Rmax0_prod u v w : at_most_one_outside u v w -> Rmax 0 (u * v * w) = Rmax 0 u * Rmax 0 v * Rmax 0 w.
Proof.
  intros H. unfold Rmax.
  assert (P : forall a b, 0 <= a -> 0 <= b -> 0 <= a * b) by (intros; now apply Rmult_le_pos).
  destruct (Rle_dec 0 u), (Rle_dec 0 v), (Rle_dec 0 w); try (unfold at_most_one_outside in H; lra).
  - destruct (Rle_dec 0 (u * v * w)); [reflexivity|]. exfalso. apply n. auto.
  - destruct (Rle_dec 0 (u * v * w)); [|lra]. pose proof (P u v r r0). nra.
  - destruct (Rle_dec 0 (u * v * w)); [|lra]. pose proof (P u w r r0). nra.
  - destruct (Rle_dec 0 (u * v * w)); [|lra]. pose proof (P v w r r0). nra.
Qed.

Lemma dv_unravel nx ny nz c : (c < n_cell nx ny nz)%nat ->
  exists i j k, (c / m1 nz / m1 ny = i /\ (c / m1 nz) mod m1 ny = j /\ c mod m1 nz = k)%nat /\
    (i < m1 nx)%nat /\ (j < m1 ny)%nat /\ (k < m1 nz)%nat /\ (c = (i * m1 ny + j) * m1 nz + k)%nat.
Proof.
  unfold n_cell. intros H. assert (1 <= m1 nz)%nat by (unfold m1; lia). assert (1 <= m1 ny)%nat by (unfold m1; lia).
  set (Z := m1 nz) in *. set (Y := m1 ny) in *. set (X := m1 nx) in *. clearbody X Y Z.
  eexists _, _, _. split; [repeat split|].
  assert (E : c = (Z * (c / Z) + c mod Z)%nat) by (apply Nat.div_mod; lia).
  assert (E2 : (c / Z = Y * (c / Z / Y) + (c / Z) mod Y)%nat) by (apply Nat.div_mod; lia).
  split; [rewrite Nat.div_div by lia; apply Nat.div_lt_upper_bound; nia|].
  split; [apply Nat.mod_upper_bound; lia|]. split; [apply Nat.mod_upper_bound; lia|]. nia.
Qed.

(** C12, for cells of which at most one side lies outside the domain (every cell, if in at most one direction
    the domain leaves whole layers of cells out). The general claim is refuted below. *)
Theorem C12_cell_volume_partial :
  forall nx ny nz dx dy dz xa xb ya yb za zb i j k,
    (i < m1 nx)%nat -> (j < m1 ny)%nat -> (k < m1 nz)%nat ->
    at_most_one_outside (gap dx xa xb i) (gap dy ya yb j) (gap dz za zb k) ->
    dv_eval ny nz dx dy dz xa xb ya yb za zb ((i * m1 ny + j) * m1 nz + k) =
    overlap dx xa xb i * overlap dy ya yb j * overlap dz za zb k.
Proof.
  intros nx ny nz dx dy dz xa xb ya yb za zb i j k Hi Hj Hk HO. unfold dv_eval.
  assert (E1 : (((i * m1 ny + j) * m1 nz + k) / m1 nz = i * m1 ny + j)%nat).
  { rewrite Nat.div_add_l by lia. rewrite (Nat.div_small k) by lia. lia. }
  assert (E2 : (((i * m1 ny + j) * m1 nz + k) mod m1 nz = k)%nat).
  { rewrite Nat.add_comm, Nat.mod_add by lia. apply Nat.mod_small; lia. }
  rewrite E1, E2.
  assert (E3 : ((i * m1 ny + j) / m1 ny = i)%nat).
  { rewrite Nat.div_add_l by lia. rewrite (Nat.div_small j) by lia. lia. }
  assert (E4 : ((i * m1 ny + j) mod m1 ny = j)%nat).
  { rewrite Nat.add_comm, Nat.mod_add by lia. apply Nat.mod_small; lia. }
  rewrite E3, E4, !cmin_Rmin, !cmax_Rmax. now apply Rmax0_prod.
Qed.
Print Assumptions C12_cell_volume_partial.

Definition clamp (a b t : R) : R := Rmin (Rmax t a) b.
Lemma overlap_clamp d a b i : 0 < d -> a < b -> overlap d a b i = clamp a b ((INR i + 1) * d) - clamp a b (INR i * d).
Proof.
  intros Hd Hab. assert (INR i * d < (INR i + 1) * d) by lra.
  set (s := (INR i + 1) * d) in *. set (t := INR i * d) in *. unfold overlap, clamp. fold s t.
  destruct (Rmin_cases s b) as [[? ->]|[? ->]], (Rmax_cases t a) as [[? ->]|[? ->]], (Rmax_cases s a) as [[? ->]|[? ->]];
  repeat match goal with
  | |- context [Rmax ?p ?q] => destruct (Rmax_cases p q) as [[? ->]|[? ->]]
  | |- context [Rmin ?p ?q] => destruct (Rmin_cases p q) as [[? ->]|[? ->]]
  end; lra.
Qed.
Lemma overlap_sum d a b n : 0 < d -> 0 <= a < b -> b <= INR n * d -> sumR n (overlap d a b) = b - a.
Proof.
  intros Hd Ha Hb.
  assert (H : forall m, sumR m (overlap d a b) = clamp a b (INR m * d) - clamp a b 0).
  { induction m as [|m IH]; [cbn; rewrite Rmult_0_l; lra|]. cbn [sumR]. rewrite IH, overlap_clamp, S_INR by lra. lra. }
  rewrite H. unfold clamp. minmax; lra.
Qed.

(** C12: the volumes of all cells add up to the volume of the domain. *)
Theorem C12_volumes_sum_partial :
  forall nx ny nz dx dy dz xa xb ya yb za zb,
    0 < dx -> 0 < dy -> 0 < dz ->
    0 <= xa < xb -> xb <= INR (m1 nx) * dx ->
    0 <= ya < yb -> yb <= INR (m1 ny) * dy ->
    0 <= za < zb -> zb <= INR (m1 nz) * dz ->
    (forall i j k, (i < m1 nx)%nat -> (j < m1 ny)%nat -> (k < m1 nz)%nat ->
       at_most_one_outside (gap dx xa xb i) (gap dy ya yb j) (gap dz za zb k)) ->
    sumR (n_cell nx ny nz) (dv_eval ny nz dx dy dz xa xb ya yb za zb) = (xb - xa) * (yb - ya) * (zb - za).
Proof.
  intros nx ny nz dx dy dz xa xb ya yb za zb Hdx Hdy Hdz Hx Hx' Hy Hy' Hz Hz' HO.
  unfold n_cell. rewrite sumR_block.
  rewrite (sumR_block (m1 nx) (m1 ny)).
  rewrite (sumR_ext (m1 nx) _ (fun i => ((yb - ya) * (zb - za)) * overlap dx xa xb i)).
  { rewrite sumR_scal_l, overlap_sum by auto. ring. }
  intros i Hi.
  rewrite (sumR_ext (m1 ny) _ (fun j => (overlap dx xa xb i * (zb - za)) * overlap dy ya yb j)).
  { rewrite sumR_scal_l, overlap_sum by auto. ring. }
  intros j Hj.
  rewrite (sumR_ext (m1 nz) _ (fun k => (overlap dx xa xb i * overlap dy ya yb j) * overlap dz za zb k)).
  { rewrite sumR_scal_l, overlap_sum by auto. ring. }
  intros k Hk. apply (C12_cell_volume_partial nx); auto.
Qed.
Print Assumptions C12_volumes_sum_partial.

(** the hypothesis about whole layers holds for the usual domains, those that cut less than a layer off *)
Lemma C12_usual_domains :
  forall (nx nz : nat) dx dy dz xa xb ya yb za zb,
    0 < dx -> 0 < dy -> 0 < dz ->
    0 <= xa <= dx -> (INR (m1 nx) - 1) * dx <= xb -> xa < xb ->
    0 <= za <= dz -> (INR (m1 nz) - 1) * dz <= zb -> za < zb ->
    forall i j k, (i < m1 nx)%nat -> (k < m1 nz)%nat ->
      at_most_one_outside (gap dx xa xb i) (gap dy ya yb j) (gap dz za zb k).
Proof.
  intros nx nz dx dy dz xa xb ya yb za zb Hdx Hdy Hdz Hx Hx' Hxx Hz Hz' Hzz i j k Hi Hk.
  assert (P : forall d a b n m, 0 < d -> 0 <= a <= d -> (INR n - 1) * d <= b -> a < b -> (m < n)%nat -> 0 <= gap d a b m).
  { intros d a b n m Hd Ha Hb Hab Hm. unfold gap.
    assert (INR m <= INR n - 1). { apply Rplus_le_reg_r with 1. replace (INR n - 1 + 1) with (INR n) by ring. rewrite <- S_INR. apply le_INR. lia. }
    pose proof (pos_INR m). assert (INR m * d <= (INR n - 1) * d) by (apply Rmult_le_compat_r; lra).
    assert (0 <= INR m * d) by (apply Rmult_le_pos; lra).
    minmax; lra. }
  right. left. split; [apply (P dx xa xb (m1 nx)); auto|apply (P dz za zb (m1 nz)); auto].
Qed.

(** C12 in general is false: a cell outside the domain both in x and in z gets a positive volume. *)
Theorem C12_cell_volume_refuted :
  exists nx nz dx dz xb zb, (0 < dx) /\ (0 < dz) /\ 0 < xb <= INR nx * dx /\ 0 < zb <= INR nz * dz /\
    let c := (2 * nz + 2)%nat in (* cell i = 2, k = 2 *)
    (c < n_cell nx 0 nz)%nat /\
    overlap dx 0 xb 2 = 0 /\ overlap dz 0 zb 2 = 0 /\
    0 < dv_eval 0 nz dx 1 dz 0 xb 0 1 0 zb c.
Proof.
  exists 3%nat, 3%nat, 1, 1, 1, 1. cbv zeta. repeat split; try lra; try (cbn; lra).
  - unfold n_cell, m1. cbn. lia.
  - unfold overlap. cbn [INR]. minmax; lra.
  - unfold overlap. cbn [INR]. minmax; lra.
  - unfold dv_eval, m1. cbn [Nat.max Nat.mul Nat.add]. 
    change (8 / 3 / 1)%nat with 2%nat. change ((8 / 3) mod 1)%nat with 0%nat. change (8 mod 3)%nat with 2%nat.
    rewrite !cmin_Rmin, !cmax_Rmax. cbn [INR]. minmax; lra.
Qed.
Print Assumptions C12_cell_volume_refuted.

Print Assumptions C10_instance.
Print Assumptions C11_instance.
