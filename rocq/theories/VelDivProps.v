(** C74: the divergence of velocity *)
From Coq Require Import List Arith ZArith Reals Lra Lia Bool Psatz.
From Verif Require Import Base BaseProofs SpaceModel GridProps MomsModel MomsProofs CondPassModel DiagModel E2lModel E2lProps VelDivModel.
Import ListNotations.
Local Open Scope R_scope.

(** an array of the host: the first element, and strides *)
Record harr := mk_harr { h_data : Z -> R; h_s0 : Z; h_s1 : Z; h_s2 : Z }.
(** its element of indices i, j, k *)
Definition elem (g : geom) (a : harr) (i j k : Z) : R := h_data a (addr g (h_s0 a) (h_s1 a) (h_s2 a) i j k).
Definition admissible (g : geom) (t : arr) (a : harr) : Prop := geom_ok g t /\ strides_ok g t (h_s0 a) (h_s1 a) (h_s2 a).
(** what the library makes of it in init or step_sync *)
Definition lib_of (g : geom) (t : arr) (a : harr) : Z -> R := sync_in (l2e g t (h_s0 a) (h_s1 a) (h_s2 a)) (h_data a).

Lemma lib_elem g t a i j k : admissible g t a -> real_element g t i j k -> lib_of g t a (pos g t i j k) = elem g a i j k.
Proof.
  intros (Hg & Hs) Hr. unfold lib_of, sync_in, elem. rewrite (proj2 (C39_real_elements _ _ _ _ _ _ _ _ Hg Hs Hr)). reflexivity.
Qed.

Lemma lookup_seq (f : nat -> R) n : forall a c, (a <= c < a + n)%nat -> lookup c (map (fun k => (k, f k)) (seq a n)) = Some (f c).
Proof.
  induction n as [|n IH]; intros a c H; [lia|]. cbn [seq map lookup]. destruct (Nat.eqb_spec a c) as [-> |Hne]; [|apply IH; lia].
  destruct (Nat.eqb_spec c c); [reflexivity|congruence].
Qed.
Lemma scatter_seq (f : nat -> R) n c : (c < n)%nat -> scatter (fun _ v => v) (map (fun k => (k, f k)) (seq 0 n)) (fun _ => 0) c = f c.
Proof.
  intros H. rewrite scatter_spec.
  - rewrite lookup_seq by lia. reflexivity.
  - rewrite map_map. cbn [fst]. rewrite map_id. apply seq_NoDup.
Qed.

(** ** specification: components of velocity on cell walls, Courant numbers made of them with a time step [dt], divergence in a cell *)
Definition courant_of (u : Z -> Z -> Z -> R) (dt d : R) (C : Z -> Z -> Z -> R) : Prop := forall i j k, C i j k = u i j k * dt / d.
Definition divergence (D : nat) (u v w : Z -> Z -> Z -> R) (dx dy dz : R) (i j k : Z) : R :=
  (u (i + 1)%Z j k - u i j k) / dx +
  (if (D =? 3)%nat then (v i (j + 1)%Z k - v i j k) / dy else 0) +
  (if (2 <=? D)%nat then (w i j (k + 1)%Z - w i j k) / dz else 0).

(** the cell of indices i (over all devices), j, k belongs to this device *)
Definition own (g : geom) (i j k : Z) : Prop := real_element g a_cell i j k.

(** what the diagnostic returns, in terms of arrays of the host *)
Lemma vel_div_out g dt0 X Y Z' st sijk sid i j k :
  (2 <= n_dims g <= 3)%nat -> admissible g a_cx X -> (n_dims g = 3%nat -> admissible g a_cy Y) -> admissible g a_cz Z' -> own g i j k ->
  fst (outbuf sijk sid (diag_vel_div g dt0 (lib_of g a_cx X) (lib_of g a_cy Y) (lib_of g a_cz Z') st)) (Z.to_nat (pos g a_cell i j k)) =
  (if (n_dims g =? 3)%nat then (elem g Y i (j + 1)%Z k - elem g Y i j k) / dt0 else 0) +
  (elem g Z' i j (k + 1)%Z - elem g Z' i j k) / dt0 + (elem g X (i + 1)%Z j k - elem g X i j k) / dt0.
Proof.
  intros HD HX HY HZ Ho.
  assert (Hgc : geom_ok g a_cell).
  { destruct HX as (Hg & _). unfold geom_ok in *. destruct (n_dims g) as [|[|[|[|d]]]]; try lia; intuition (try discriminate). }
  pose proof HX as ((G1 & G2 & G3 & G4 & GD) & _).
  pose proof Ho as ((Hi1 & Hi2) & Hj & Hk). cbn [ext_x] in Hi2.
  pose proof (fun H => lib_elem g a_cx X i j k HX H) as X0. pose proof (fun H => lib_elem g a_cx X (i + 1)%Z j k HX H) as X1.
  pose proof (fun H => lib_elem g a_cz Z' i j k HZ H) as Z0. pose proof (fun H => lib_elem g a_cz Z' i j (k + 1)%Z HZ H) as Z1.
  set (c := Z.to_nat (pos g a_cell i j k)).
  assert (Hc : (c < Z.to_nat (lib_size g a_cell))%nat).
  { unfold c. assert (B : (0 <= pos g a_cell i j k < lib_size g a_cell)%Z); [|lia].
    unfold pos, lib_size, halo, EY, EZ in *. cbn [ext_x ext_y ext_z] in *. destruct (n_dims g) as [|[|[|[|d]]]] eqn:En; try lia.
    - destruct GD as (Ey & Hz & _). rewrite Ey, (m1_pos (nx g)), (m1_pos (nz g)) by lia. change (E2lModel.m1 0) with 1%Z. assert (j = 0%Z) by lia. subst j. replace ((i - n_x_bfr g + 0) * 1 + 0)%Z with (i - n_x_bfr g)%Z by ring. set (u := (i - n_x_bfr g)%Z) in *. assert (0 <= u < nx g)%Z by lia. clearbody u. clear - Hk H Hz. nia.
    - destruct GD as (Hy & Hz). rewrite !m1_pos by lia.
      set (u := (i - n_x_bfr g)%Z) in *. assert (0 <= u < nx g)%Z by lia. replace (u + 0)%Z with u by ring.
      set (Yn := (ny g + 0)%Z) in *. set (Zn := (nz g + 0)%Z) in *. assert (Yn = ny g) by lia. assert (Zn = nz g) by lia.
      assert (0 <= u * Yn + j < nx g * ny g)%Z by nia. nia. }
  unfold outbuf, fst, fill_outbuf, diag_vel_div. destruct (n_dims g) as [|[|[|[|d]]]] eqn:En; try lia; cbn [Nat.eqb Nat.leb g_cijk g_cmom g_cn];
    rewrite (scatter_seq _ _ _ Hc); unfold div_pass; rewrite (proj2 (Nat.ltb_lt _ _) Hc); unfold add_div.
  - (* two dimensions *)
    destruct GD as (Ey & Hz & _). unfold real_element, own, pos, halo, EY, EZ, halo_x in *. rewrite En in *. cbn [ext_x ext_y ext_z] in *.
    assert (j = 0%Z) by lia. subst j.
    assert (Ec : c = Z.to_nat ((i - n_x_bfr g) * nz g + k)) by (unfold c; rewrite En; f_equal; ring). clearbody c.
    assert (Eh : (Z.to_nat (halo_size g * nz g) + c)%nat = (Z.to_nat (i - n_x_bfr g + halo_size g) * Z.to_nat (nz g) + Z.to_nat k)%nat) 
      by (apply Nat2Z.inj; rewrite Ec, !Nat2Z.inj_add, Nat2Z.inj_mul, !Z2Nat.id by nia; ring).
    rewrite Eh. set (i' := Z.to_nat (i - n_x_bfr g + halo_size g)) in *. set (k' := Z.to_nat k) in *.
    destruct (C11_faces_2D (i' + 1) (Z.to_nat (nz g)) 0 i' k') as ((F1 & F2 & F3 & F4) & _); [lia|unfold k'; lia|].
    rewrite Ey. change (Z.to_nat 0) with 0%nat. rewrite F1, F2, F3, F4.
    specialize (X0 ltac:(lia)). specialize (X1 ltac:(lia)). specialize (Z0 ltac:(lia)). specialize (Z1 ltac:(lia)).
    assert (Ei : Z.of_nat i' = (i - n_x_bfr g + halo_size g)%Z) by (unfold i'; lia). assert (Ek : Z.of_nat k' = k) by (unfold k'; lia). assert (Ezn : Z.of_nat (Z.to_nat (nz g)) = nz g) by lia.
    rewrite <- X0, <- X1, <- Z0, <- Z1. repeat rewrite ?Nat2Z.inj_add, ?Nat2Z.inj_mul. rewrite Ei, Ek, Ezn. change (Z.of_nat 1) with 1%Z.
    rewrite !Z.add_0_r, !Z.mul_1_r. replace (i + 1 - n_x_bfr g + halo_size g)%Z with (i - n_x_bfr g + halo_size g + 1)%Z by ring. ring.
  - (* three dimensions *)
    destruct GD as (Hy & Hz). specialize (HY eq_refl).
    pose proof (fun H => lib_elem g a_cy Y i j k HY H) as Y0. pose proof (fun H => lib_elem g a_cy Y i (j + 1)%Z k HY H) as Y1.
    unfold real_element, own, pos, halo, EY, EZ, halo_x in *. rewrite En in *. cbn [ext_x ext_y ext_z] in *.
    set (i' := Z.to_nat (i - n_x_bfr g + halo_size g)) in *. set (j' := Z.to_nat j) in *. set (k' := Z.to_nat k) in *.
    set (yn := Z.to_nat (ny g)) in *. set (zn := Z.to_nat (nz g)) in *.
    assert (Ei : Z.of_nat i' = (i - n_x_bfr g + halo_size g)%Z) by (unfold i'; lia). assert (Ej : Z.of_nat j' = j) by (unfold j'; lia).
    assert (Ek : Z.of_nat k' = k) by (unfold k'; lia). assert (Eyn : Z.of_nat yn = ny g) by (unfold yn; lia). assert (Ezn : Z.of_nat zn = nz g) by (unfold zn; lia).
    assert (Hp1 : (0 <= (i - n_x_bfr g) * ny g + j)%Z) by nia. assert (Hp0 : (0 <= ((i - n_x_bfr g) * ny g + j) * nz g + k)%Z) by nia.
    assert (Hp2 : (0 <= halo_size g * nz g * ny g)%Z) by (apply Z.mul_nonneg_nonneg; nia).
    assert (Ec : c = Z.to_nat (((i - n_x_bfr g) * ny g + j) * nz g + k)) by (unfold c; rewrite En; f_equal; ring). clearbody c.
    assert (Eh : (Z.to_nat (halo_size g * nz g * ny g) + c)%nat = cell_no yn zn i' j' k').
    { apply Nat2Z.inj. rewrite Ec. unfold cell_no. rewrite Nat2Z.inj_add, (Z2Nat.id _ Hp0), (Z2Nat.id _ Hp2). rewrite !Nat2Z.inj_add, !Nat2Z.inj_mul, !Nat2Z.inj_add, !Nat2Z.inj_mul, Ei, Ej, Ek, Eyn, Ezn. ring. }
    rewrite Eh.
    destruct (C11_faces_3D (i' + 1) yn zn 0 i' j' k') as ((F1 & F2 & F3 & F4 & F5 & F6) & _); [lia|unfold j', yn; lia|unfold k', zn; lia|].
    rewrite F1, F2, F3, F4, F5, F6.
    specialize (X0 ltac:(lia)). specialize (X1 ltac:(lia)). specialize (Y0 ltac:(lia)). specialize (Y1 ltac:(lia)). specialize (Z0 ltac:(lia)). specialize (Z1 ltac:(lia)).
    rewrite <- X0, <- X1, <- Y0, <- Y1, <- Z0, <- Z1.
    unfold face_x, face_y, face_z. repeat rewrite ?Nat2Z.inj_add, ?Nat2Z.inj_mul. rewrite Ei, Ej, Ek, Eyn, Ezn. change (Z.of_nat 1) with 1%Z.
    rewrite !Z.add_0_r. replace (i + 1 - n_x_bfr g + halo_size g)%Z with (i - n_x_bfr g + halo_size g + 1)%Z by ring. ring.
Qed.

(** C74: with Courant numbers made with the time step of initialization, the divergence of velocity, in every cell of every device, for any layout of host arrays
    and any halo.  (Missing: another time step, one dimension.) *)
Theorem C74_divergence_partial g dt X Y W st sijk sid u v w dx dy dz i j k :
  (2 <= n_dims g <= 3)%nat -> admissible g a_cx X -> (n_dims g = 3%nat -> admissible g a_cy Y) -> admissible g a_cz W ->
  0 < dt -> 0 < dx -> 0 < dy -> 0 < dz ->
  courant_of u dt dx (elem g X) -> (n_dims g = 3%nat -> courant_of v dt dy (elem g Y)) -> courant_of w dt dz (elem g W) -> own g i j k ->
  let st' := diag_vel_div g dt (lib_of g a_cx X) (lib_of g a_cy Y) (lib_of g a_cz W) st in
  fst (outbuf sijk sid st') (Z.to_nat (pos g a_cell i j k)) = divergence (n_dims g) u v w dx dy dz i j k /\
  g_P st' = g_P st /\ g_E st' = g_E st /\ g_sel st' = g_sel st.
Proof.
  intros HD HX HY HZ Ht Hx Hy Hz Cu Cv Cw Ho st'. split.
  - unfold st'. rewrite (vel_div_out g dt X Y W st sijk sid i j k HD HX HY HZ Ho). unfold divergence. rewrite !Cu, !Cw.
    destruct (n_dims g) as [|[|[|[|d]]]] eqn:En; try lia; cbn [Nat.eqb Nat.leb].
    + field. lra.
    + specialize (Cv eq_refl). rewrite !Cv. field. lra.
  - unfold st', diag_vel_div. destruct (n_dims g =? 0)%nat; repeat split; reflexivity.
Qed.
(** with a variable time step the Courant numbers are made with the present one, and the result is multiplied by the ratio of time steps *)
Theorem C74_variable_dt_refuted g dt0 dt X Y W st sijk sid u v w dx dy dz i j k :
  (2 <= n_dims g <= 3)%nat -> admissible g a_cx X -> (n_dims g = 3%nat -> admissible g a_cy Y) -> admissible g a_cz W ->
  0 < dt0 -> 0 < dt -> 0 < dx -> 0 < dy -> 0 < dz ->
  courant_of u dt dx (elem g X) -> (n_dims g = 3%nat -> courant_of v dt dy (elem g Y)) -> courant_of w dt dz (elem g W) -> own g i j k ->
  let st' := diag_vel_div g dt0 (lib_of g a_cx X) (lib_of g a_cy Y) (lib_of g a_cz W) st in
  let out := fst (outbuf sijk sid st') (Z.to_nat (pos g a_cell i j k)) in
  let div := divergence (n_dims g) u v w dx dy dz i j k in
  out = dt / dt0 * div /\ (div <> 0 -> dt <> dt0 -> out <> div).
Proof.
  intros HD HX HY HZ Ht0 Ht Hx Hy Hz Cu Cv Cw Ho st' out div.
  assert (E : out = dt / dt0 * div).
  { unfold out, st'. rewrite (vel_div_out g dt0 X Y W st sijk sid i j k HD HX HY HZ Ho). unfold div, divergence. rewrite !Cu, !Cw.
    destruct (n_dims g) as [|[|[|[|d]]]] eqn:En; try lia; cbn [Nat.eqb Nat.leb].
    - field. lra.
    - specialize (Cv eq_refl). rewrite !Cv. field. lra. }
  split; [exact E|]. intros Hd Hn. rewrite E. intros Q. apply Hn.
  assert (Q2 : (dt / dt0 - 1) * div = 0) by lra. apply Rmult_integral in Q2. destruct Q2 as [Q2|Q2]; [|contradiction].
  assert (dt = dt / dt0 * dt0) by (field; lra). nra.
Qed.
(** in one dimension the result is zero, whatever the flow (cf. C11_1D_refuted) *)
Theorem C74_1D_refuted g dt X st sijk sid i :
  n_dims g = 1%nat -> admissible g a_cx X -> own g i 0 0 ->
  fst (outbuf sijk sid (diag_vel_div g dt (lib_of g a_cx X) (fun _ => 0) (fun _ => 0) st)) (Z.to_nat (pos g a_cell i 0 0)) = 0.
Proof.
  intros En ((G1 & G2 & G3 & G4 & GD) & _) ((Hi1 & Hi2) & _). cbn [ext_x] in Hi2. rewrite En in GD. destruct GD as (Ey & Ez & _).
  assert (Hc : (Z.to_nat (pos g a_cell i 0 0) < Z.to_nat (lib_size g a_cell))%nat).
  { unfold pos, lib_size, halo, EY, EZ. rewrite En, Ey, Ez. change (E2lModel.m1 0) with 1%Z. rewrite m1_pos by lia. lia. }
  unfold outbuf, fst, fill_outbuf, diag_vel_div. rewrite En. cbn [Nat.eqb Nat.leb g_cijk g_cmom g_cn].
  rewrite (scatter_seq _ _ _ Hc). unfold div_pass. rewrite (proj2 (Nat.ltb_lt _ _) Hc). unfold add_div.
  rewrite Ez. change (Z.to_nat 0) with 0%nat. rewrite C11_1D_refuted. unfold Rdiv. ring.
Qed.
(** with no space dimensions the call does nothing *)
Theorem C74_0D g dt cx cy cz st : n_dims g = 0%nat -> diag_vel_div g dt cx cy cz st = st.
Proof. intros H. unfold diag_vel_div. rewrite H. reflexivity. Qed.

(** an instance: the second of two devices, three dimensions, halo of two, y slowest in one array: flow (x, 2 y, 3 z) has divergence 6 *)
Definition div_g : geom := {| n_dims := 3; nx := 2; ny := 3; nz := 4; n_x_tot := 4; n_x_bfr := 2; halo_size := 2 |}.
Theorem C74_instance : exists X Y W u v w,
  admissible div_g a_cx X /\ admissible div_g a_cy Y /\ admissible div_g a_cz W /\
  courant_of u (1 / 2) 1 (elem div_g X) /\ courant_of v (1 / 2) 1 (elem div_g Y) /\ courant_of w (1 / 2) 1 (elem div_g W) /\ own div_g 3 2 1 /\
  divergence 3 u v w 1 1 1 3 2 1 = 6.
Proof.
  exists (mk_harr (fun p => IZR (p / 12) / 2) 12 4 1), (mk_harr (fun p => IZR (p / 16)) 4 16 1), (mk_harr (fun p => IZR (p mod 5) * (3 / 2)) 15 5 1).
  exists (fun i j k => IZR ((i * 12 + j * 4 + k * 1) / 12)), (fun i j k => IZR ((i * 4 + j * 16 + k * 1) / 16) * 2), (fun i j k => IZR ((i * 15 + j * 5 + k * 1) mod 5) * 3).
  unfold admissible, geom_ok, strides_ok, courant_of, elem, addr, own, real_element, EX, EY, EZ, divergence. cbn [div_g n_dims nx ny nz n_x_tot n_x_bfr halo_size h_data h_s0 h_s1 h_s2 ext_x ext_y ext_z Nat.eqb Nat.leb].
  repeat match goal with |- _ /\ _ => split end; try lia; try (intros; field).
  vm_compute Z.div. vm_compute Z.modulo. lra.
Qed.

Print Assumptions C74_divergence_partial.
Print Assumptions C74_variable_dt_refuted.
Print Assumptions C74_1D_refuted.
Print Assumptions C74_0D.
Print Assumptions C74_instance.
