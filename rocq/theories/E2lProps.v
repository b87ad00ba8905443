(** C39: mapping of host arrays to library cells and cell walls. *)
From Coq Require Import List ZArith Lia Reals.
From Verif Require Import E2lModel.
Local Open Scope Z_scope.

(** ** specification *)
(** numbers of elements of the host array in x, y and z *)
Definition EX (g : geom) (a : arr) : Z := n_x_tot g + ext_x a.
Definition EY (g : geom) (a : arr) : Z := match n_dims g with 3%nat => ny g + ext_y a | _ => 1 end.
Definition EZ (g : geom) (a : arr) : Z := match n_dims g with 2%nat | 3%nat => nz g + ext_z a | _ => 1 end.
(** an element of the host array: sum of index times stride *)
Definition addr (g : geom) (s0 s1 s2 i j k : Z) : Z :=
  match n_dims g with 3%nat => i * s0 + j * s1 + k * s2 | 2%nat => i * s0 + k * s1 | _ => i end.
(** width of the halo of the library array; only Courant numbers have one *)
Definition halo (g : geom) (a : arr) : Z := match a with a_cell => 0 | _ => halo_size g end.
(** position of the cell (wall) with coordinates i (in all devices), j, k in the array of this device *)
Definition pos (g : geom) (a : arr) (i j k : Z) : Z := ((i - n_x_bfr g + halo g a) * EY g a + j) * EZ g a + k.

(** admissible grids; in one dimension only the Courant number in x exists, in two not the one in y *)
Definition geom_ok (g : geom) (a : arr) : Prop :=
  0 < nx g /\ 0 <= n_x_bfr g /\ n_x_bfr g + nx g <= n_x_tot g /\ 0 <= halo_size g /\
  match n_dims g with
  | 1%nat => ny g = 0 /\ nz g = 0 /\ (a = a_cell \/ a = a_cx)
  | 2%nat => ny g = 0 /\ 0 < nz g /\ a <> a_cy
  | 3%nat => 0 < ny g /\ 0 < nz g
  | _ => False
  end.
(** admissible strides: z is contiguous; rows (planes) may be padded; in three dimensions either x or y is the slowest index *)
Definition strides_ok (g : geom) (a : arr) (s0 s1 s2 : Z) : Prop :=
  match n_dims g with
  | 1%nat => s0 = 1
  | 2%nat => s1 = 1 /\ EZ g a <= s0
  | _ => s2 = 1 /\ ((EZ g a <= s1 /\ EY g a * s1 <= s0) \/ (EZ g a <= s0 /\ EX g a * s0 <= s1 /\ s0 < s1))
  end.
(** elements of the array that this device uses, halo not included *)
Definition real_element (g : geom) (a : arr) (i j k : Z) : Prop :=
  n_x_bfr g <= i < n_x_bfr g + nx g + ext_x a /\ 0 <= j < EY g a /\ 0 <= k < EZ g a.

(** ** index arithmetic *)
Lemma quot_rem a b r : 0 <= a -> 0 < b -> 0 <= r < b -> Z.quot (a * b + r) b = a /\ Z.rem (a * b + r) b = r.
Proof.
  intros Ha Hb Hr. split.
  - rewrite Z.quot_div_nonneg by nia. symmetry. apply (Z.div_unique_pos _ _ _ r); lia.
  - rewrite Z.rem_mod_nonneg by nia. symmetry. apply (Z.mod_unique_pos _ _ a); lia.
Qed.
Lemma m1_pos n : 0 < n -> m1 n = n. Proof. intros H. unfold m1. destruct (Z.eqb_spec n 0); lia. Qed.

(** index in the host's order of a position of the library array *)
Lemma shifted g a i j k : geom_ok g a -> pos g a i j k + (n_cell_bfr g + offset g a) = (i * EY g a + j) * EZ g a + k.
Proof.
  intros (H1 & H2 & H3 & H4 & HD). unfold pos, n_cell_bfr, offset, halo, EY, EZ, halo_x, halo_y, halo_z in *.
  destruct (n_dims g) as [|[|[|[|d]]]]; try contradiction.
  - destruct HD as (Ey & Ez & Ha). rewrite Ey, Ez. cbn [m1 Z.eqb]. destruct Ha as [-> | ->]; cbn [ext_x ext_y ext_z]; ring.
  - destruct HD as (Ey & Hz & Ha). rewrite Ey. rewrite (m1_pos (nz g)) by lia. change (m1 0) with 1. change (Z.max 1 0) with 1.
    destruct a; cbn [ext_x ext_y ext_z]; try congruence; ring.
  - destruct HD as (Hy & Hz). rewrite !m1_pos by lia. rewrite Z.max_r by lia. destruct a; cbn [ext_x ext_y ext_z]; ring.
Qed.

(** one index of the host array before the periodic rule *)
Definition raw (g : geom) (a : arr) (s0 s1 s2 v : Z) : Z :=
  match n_dims g with
  | 1%nat => v
  | 2%nat => s0 * Z.quot v (nz g + ext_z a) + s1 * Z.rem v (nz g + ext_z a)
  | _ => s0 * Z.quot v ((nz g + ext_z a) * (ny g + ext_y a)) + s1 * Z.rem (Z.quot v (nz g + ext_z a)) (ny g + ext_y a) + s2 * Z.rem v (nz g + ext_z a)
  end.
Definition total (g : geom) (a : arr) (s0 s1 : Z) : Z :=
  match n_dims g with
  | 1%nat => n_x_tot g + ext_x a
  | 2%nat => (n_x_tot g + ext_x a) * s0
  | _ => (if Z.max s0 s1 =? s0 then n_x_tot g + ext_x a else ny g + ext_y a) * Z.max s0 s1
  end.
Lemma l2e_raw g a s0 s1 s2 p : (0 < n_dims g)%nat ->
  l2e g a s0 s1 s2 p = periodic_cellno (total g a s0 s1) (raw g a s0 s1 s2 (p + (n_cell_bfr g + offset g a))).
Proof.
  intros H. unfold l2e, total, raw. destruct (n_dims g) as [|[|[|d]]]; [lia| | |reflexivity]; [rewrite Z.mul_1_r|]; reflexivity.
Qed.
Lemma raw_addr g a s0 s1 s2 i j k : geom_ok g a -> strides_ok g a s0 s1 s2 -> 0 <= i -> 0 <= j < EY g a -> 0 <= k < EZ g a ->
  raw g a s0 s1 s2 ((i * EY g a + j) * EZ g a + k) = addr g s0 s1 s2 i j k.
Proof.
  intros (_ & _ & _ & _ & HD) HS Hi Hj Hk. unfold strides_ok, raw, addr in *; unfold EY, EZ in *. destruct (n_dims g) as [|[|[|[|d]]]]; try contradiction.
  - lia.
  - rewrite Z.mul_1_r. assert (j = 0) by lia. subst j. rewrite Z.add_0_r. destruct (quot_rem i (nz g + ext_z a) k) as [-> ->]; try lia.
  - set (Zn := nz g + ext_z a) in *. set (Yn := ny g + ext_y a) in *.
    destruct (quot_rem (i * Yn + j) Zn k) as [E1 E2]; try nia. rewrite E1, E2.
    destruct (quot_rem i Yn j) as [E3 E4]; try lia. rewrite E4.
    destruct (quot_rem i (Zn * Yn) (j * Zn + k)) as [E5 _]; try nia.
    replace ((i * Yn + j) * Zn + k) with (i * (Zn * Yn) + (j * Zn + k)) by ring. rewrite E5. ring.
Qed.
Lemma addr_bound g a s0 s1 s2 i j k : geom_ok g a -> strides_ok g a s0 s1 s2 -> 0 <= i < EX g a -> 0 <= j < EY g a -> 0 <= k < EZ g a ->
  0 <= addr g s0 s1 s2 i j k < total g a s0 s1.
Proof.
  intros (_ & _ & _ & _ & HD) HS Hi Hj Hk. unfold strides_ok, addr, total in *; unfold EX, EY, EZ in *. destruct (n_dims g) as [|[|[|[|d]]]]; try contradiction.
  - lia.
  - destruct HS as [-> HS]. set (Xn := n_x_tot g + ext_x a) in *. clearbody Xn. assert ((i + 1) * s0 <= Xn * s0) by (apply Z.mul_le_mono_nonneg_r; lia).
    assert (0 <= i * s0) by (apply Z.mul_nonneg_nonneg; lia). lia.
  - destruct HD as (Hy & Hz). destruct HS as (-> & HS).
    set (Zn := nz g + ext_z a) in *. set (Yn := ny g + ext_y a) in *. set (Xn := n_x_tot g + ext_x a) in *. clearbody Zn Yn Xn.
    destruct HS as [(A1 & A2)|(A1 & A2 & A3)].
    + rewrite Z.max_l by nia. rewrite Z.eqb_refl.
      assert (j * s1 + k < s0) by nia. assert (0 <= j * s1) by nia. assert (0 <= i * s0) by nia. nia.
    + rewrite Z.max_r by lia. destruct (Z.eqb_spec s1 s0); [lia|].
      assert (i * s0 + k < s1) by nia. assert (0 <= i * s0) by nia. assert (0 <= j * s1) by nia. nia.
Qed.

(** ** C39 *)
(** C39: every element this device uses, in cells and in cell walls, is at the address its indices and the strides give *)
Theorem C39_real_elements g a s0 s1 s2 i j k :
  geom_ok g a -> strides_ok g a s0 s1 s2 -> real_element g a i j k ->
  0 <= pos g a i j k < lib_size g a /\ l2e g a s0 s1 s2 (pos g a i j k) = addr g s0 s1 s2 i j k.
Proof.
  intros Hg HS (Hi & Hj & Hk). split.
  - destruct Hg as (H1 & H2 & H3 & H4 & HD). unfold pos, lib_size, halo, EY, EZ in *.
    destruct (n_dims g) as [|[|[|[|d]]]]; try contradiction.
    + destruct HD as (Ey & Ez & Ha). rewrite Ey, Ez. change (m1 0) with 1. destruct Ha as [-> | ->]; cbn [ext_x] in Hi; rewrite ?(m1_pos (nx g)) by lia; nia.
    + destruct HD as (Ey & Hz & Ha). rewrite Ey. change (m1 0) with 1. destruct a; try congruence; cbn [ext_x ext_z] in *; rewrite ?m1_pos by lia; nia.
    + destruct HD as (Hy & Hz). set (u := i - n_x_bfr g) in *. assert (Hu : 0 <= u < nx g + ext_x a) by lia. clearbody u.
      assert (G : forall A B C h, 0 <= h -> 0 <= j < B -> 0 <= k < C -> u < A -> 0 <= ((u + h) * B + j) * C + k < (A + h) * B * C).
      { intros A B C h Hh Hj' Hk' HA. assert (0 <= (u + h) * B) by nia. split; [nia|]. assert ((u + h) * B + j + 1 <= (A + h) * B) by nia. nia. }
      destruct a; cbn [ext_x ext_y ext_z] in *; rewrite ?m1_pos by lia.
      * specialize (G (nx g) (ny g) (nz g) 0). rewrite !Z.add_0_r in *. apply G; lia.
      * specialize (G (nx g + 1) (ny g) (nz g) (halo_size g)). rewrite !Z.add_0_r in *. pose proof (G ltac:(lia) ltac:(lia) ltac:(lia) ltac:(lia)) as [G1 G2].
        split; [exact G1|]. eapply Z.lt_le_trans; [exact G2|]. apply Z.mul_le_mono_nonneg_r; [lia|]. apply Z.mul_le_mono_nonneg_r; lia.
      * specialize (G (nx g) (ny g + 1) (nz g) (halo_size g)). rewrite !Z.add_0_r in *. pose proof (G ltac:(lia) ltac:(lia) ltac:(lia) ltac:(lia)) as [G1 G2].
        split; [exact G1|]. eapply Z.lt_le_trans; [exact G2|]. apply Z.mul_le_mono_nonneg_r; [lia|]. apply Z.mul_le_mono_nonneg_r; lia.
      * specialize (G (nx g) (ny g) (nz g + 1) (halo_size g)). rewrite !Z.add_0_r in *. pose proof (G ltac:(lia) ltac:(lia) ltac:(lia) ltac:(lia)) as [G1 G2].
        split; [exact G1|]. eapply Z.lt_le_trans; [exact G2|]. apply Z.mul_le_mono_nonneg_r; [lia|]. apply Z.mul_le_mono_nonneg_r; lia.
  - pose proof Hg as (H1 & H2 & H3 & H4 & HD).
    assert (Hd : (0 < n_dims g)%nat) by (destruct (n_dims g); [contradiction|lia]).
    rewrite l2e_raw by exact Hd. rewrite shifted by exact Hg. rewrite raw_addr by (auto; lia).
    pose proof (addr_bound g a s0 s1 s2 i j k Hg HS ltac:(unfold EX; lia) Hj Hk) as B. unfold periodic_cellno.
    destruct (Z.leb_spec (total g a s0 s1) (addr g s0 s1 s2 i j k)); [lia|]. destruct (Z.ltb_spec (addr g s0 s1 s2 i j k) 0); lia.
Qed.

Lemma two_digits b i k i' k' : 0 <= k < b -> 0 <= k' < b -> i * b + k = i' * b + k' -> i = i' /\ k = k'.
Proof. intros H1 H2 H. assert (i = i') by nia. subst. lia. Qed.
Lemma addr_inj g a s0 s1 s2 i j k i' j' k' : geom_ok g a -> strides_ok g a s0 s1 s2 ->
  0 <= i < EX g a -> 0 <= j < EY g a -> 0 <= k < EZ g a -> 0 <= i' < EX g a -> 0 <= j' < EY g a -> 0 <= k' < EZ g a ->
  addr g s0 s1 s2 i j k = addr g s0 s1 s2 i' j' k' -> i = i' /\ j = j' /\ k = k'.
Proof.
  intros (_ & _ & _ & _ & HD) HS Hi Hj Hk Hi' Hj' Hk'. unfold strides_ok, addr in *; unfold EX, EY, EZ in *. destruct (n_dims g) as [|[|[|[|d]]]]; try contradiction.
  - lia.
  - destruct HS as [-> HS]. rewrite !Z.mul_1_r. intros H. apply two_digits in H; lia.
  - destruct HS as (-> & HS). rewrite !Z.mul_1_r. intros H.
    set (Zn := nz g + ext_z a) in *. set (Yn := ny g + ext_y a) in *. set (Xn := n_x_tot g + ext_x a) in *. clearbody Zn Yn Xn.
    destruct HS as [(A1 & A2)|(A1 & A2 & A3)].
    + rewrite <- !Z.add_assoc in H. apply two_digits in H; [|nia|nia]. destruct H as [E H]. apply two_digits in H; lia.
    + replace (i * s0 + j * s1 + k) with (j * s1 + (i * s0 + k)) in H by ring. replace (i' * s0 + j' * s1 + k') with (j' * s1 + (i' * s0 + k')) in H by ring.
      apply two_digits in H; [|nia|nia]. destruct H as [E H]. apply two_digits in H; lia.
Qed.
Lemma cell_coords g p : geom_ok g a_cell -> 0 <= p < lib_size g a_cell -> exists i j k, real_element g a_cell i j k /\ pos g a_cell i j k = p.
Proof.
  intros (H1 & H2 & H3 & H4 & HD) Hp. unfold real_element, pos, lib_size, halo, EY, EZ in *. cbn [ext_x ext_y ext_z].
  destruct (n_dims g) as [|[|[|[|d]]]]; try contradiction.
  - destruct HD as (Ey & Ez & _). rewrite Ey, Ez, (m1_pos (nx g)) in Hp by lia. change (m1 0) with 1 in Hp. exists (n_x_bfr g + p), 0, 0. lia.
  - destruct HD as (Ey & Hz & _). rewrite Ey, (m1_pos (nx g)), (m1_pos (nz g)) in Hp by lia. change (m1 0) with 1 in Hp. rewrite !Z.add_0_r.
    pose proof (Z.div_mod p (nz g) ltac:(lia)) as E. pose proof (Z.mod_pos_bound p (nz g) Hz) as B.
    assert (0 <= p / nz g) by (apply Z.div_pos; lia). assert (p / nz g < nx g) by (apply Z.div_lt_upper_bound; nia).
    exists (n_x_bfr g + p / nz g), 0, (p mod nz g). repeat split; lia.
  - destruct HD as (Hy & Hz). rewrite !m1_pos in Hp by lia. rewrite !Z.add_0_r.
    pose proof (Z.div_mod p (nz g) ltac:(lia)) as E. pose proof (Z.mod_pos_bound p (nz g) Hz) as B.
    set (q := p / nz g) in *. set (r := p mod nz g) in *. clearbody q r. assert (Hq : 0 <= q < nx g * ny g) by nia.
    pose proof (Z.div_mod q (ny g) ltac:(lia)) as E'. pose proof (Z.mod_pos_bound q (ny g) Hy) as B'.
    set (q' := q / ny g) in *. set (r' := q mod ny g) in *. clearbody q' r'. assert (Hq' : 0 <= q' < nx g) by nia.
    exists (n_x_bfr g + q'), r', r. repeat split; lia.
Qed.

(** C39: different cells are mapped to different elements *)
Theorem C39_one_to_one g s0 s1 s2 p q :
  geom_ok g a_cell -> strides_ok g a_cell s0 s1 s2 -> 0 <= p < lib_size g a_cell -> 0 <= q < lib_size g a_cell ->
  l2e g a_cell s0 s1 s2 p = l2e g a_cell s0 s1 s2 q -> p = q.
Proof.
  intros Hg HS Hp Hq. destruct (cell_coords g p Hg Hp) as (i & j & k & R1 & <-). destruct (cell_coords g q Hg Hq) as (i' & j' & k' & R2 & <-).
  rewrite (proj2 (C39_real_elements _ _ _ _ _ _ _ _ Hg HS R1)), (proj2 (C39_real_elements _ _ _ _ _ _ _ _ Hg HS R2)).
  destruct R1 as (A1 & A2 & A3), R2 as (B1 & B2 & B3). cbn [ext_x] in *. pose proof Hg as (H1 & H2 & H3 & _). intros E.
  destruct (addr_inj g a_cell s0 s1 s2 i j k i' j' k' Hg HS) as (-> & -> & ->); auto; unfold EX; cbn [ext_x]; lia.
Qed.

Lemma sync_out_spec m n from host : (forall p q, 0 <= p < Z.of_nat n -> 0 <= q < Z.of_nat n -> m p = m q -> p = q) ->
  (forall p, 0 <= p < Z.of_nat n -> sync_out m n from host (m p) = from p) /\
  (forall x, (forall p, 0 <= p < Z.of_nat n -> m p <> x) -> sync_out m n from host x = host x).
Proof.
  intros Hinj. induction n as [|n IH].
  - split; [intros; lia|reflexivity].
  - destruct IH as [I1 I2]; [intros p q Hp Hq; apply Hinj; lia|]. cbn [sync_out]. split.
    + intros p Hp. destruct (Z.eqb_spec (m p) (m (Z.of_nat n))) as [E|E].
      * apply Hinj in E; [subst; reflexivity|lia|lia].
      * apply I1. assert (p <> Z.of_nat n) by congruence. lia.
    + intros x Hx. destruct (Z.eqb_spec x (m (Z.of_nat n))) as [E|E]; [exfalso; apply (Hx (Z.of_nat n)); [lia|auto]|].
      apply I2. intros p Hp. apply Hx. lia.
Qed.
(** C39: reading takes, and writing gives, every cell its own element (i, j, k); no other element is written *)
Theorem C39_sync g s0 s1 s2 from host :
  geom_ok g a_cell -> strides_ok g a_cell s0 s1 s2 ->
  let m := l2e g a_cell s0 s1 s2 in
  let host' := sync_out m (Z.to_nat (lib_size g a_cell)) from host in
  (forall i j k, real_element g a_cell i j k ->
     sync_in m host (pos g a_cell i j k) = host (addr g s0 s1 s2 i j k) /\
     host' (addr g s0 s1 s2 i j k) = from (pos g a_cell i j k)) /\
  (forall x, (forall i j k, real_element g a_cell i j k -> x <> addr g s0 s1 s2 i j k) -> host' x = host x).
Proof.
  intros Hg HS m host'.
  assert (Hn : 0 <= lib_size g a_cell).
  { destruct Hg as (H1 & _ & _ & _ & HD). unfold lib_size, m1. destruct (Z.eqb_spec (nx g) 0), (Z.eqb_spec (ny g) 0), (Z.eqb_spec (nz g) 0);
    destruct (n_dims g) as [|[|[|[|d]]]]; try contradiction; nia. }
  destruct (sync_out_spec m (Z.to_nat (lib_size g a_cell)) from host) as [S1 S2].
  { intros p q Hp Hq. rewrite Z2Nat.id in Hp, Hq by exact Hn. apply C39_one_to_one; assumption. }
  rewrite Z2Nat.id in S1, S2 by exact Hn. split.
  - intros i j k R. destruct (C39_real_elements g a_cell s0 s1 s2 i j k Hg HS R) as [B E]. split.
    + unfold sync_in, m. rewrite E. reflexivity.
    + rewrite <- E. apply S1, B.
  - intros x Hx. apply S2. intros p Hp E. destruct (cell_coords g p Hg Hp) as (i & j & k & R & <-).
    apply (Hx i j k R). rewrite <- E. apply C39_real_elements; assumption.
Qed.

(** C39: halos of the Courant numbers in y and z of unpadded arrays with x as the slowest index are periodic *)
Lemma neg_digits b i k : 0 < b -> Z.quot (i * b + k) b * b + Z.rem (i * b + k) b = i * b + k.
Proof. intros H. pose proof (Z.quot_rem (i * b + k) b ltac:(lia)) as E. lia. Qed.
Lemma raw_contiguous g a s0 s1 s2 v : geom_ok g a ->
  match n_dims g with 1%nat => True | 2%nat => s1 = 1 /\ s0 = EZ g a | _ => s2 = 1 /\ s1 = EZ g a /\ s0 = EY g a * s1 end ->
  raw g a s0 s1 s2 v = v.
Proof.
  intros (_ & _ & _ & _ & HD) HS. unfold raw; unfold EY, EZ in *. destruct (n_dims g) as [|[|[|[|d]]]]; try contradiction.
  - reflexivity.
  - destruct HS as [-> ->]. destruct HD as (_ & Hz & _). pose proof (Z.quot_rem v (nz g + ext_z a)) as E. destruct a; cbn [ext_z] in *; lia.
  - destruct HD as (Hy & Hz). destruct HS as (-> & -> & ->).
    assert (0 < nz g + ext_z a) by (destruct a; cbn [ext_z]; lia). assert (0 < ny g + ext_y a) by (destruct a; cbn [ext_y]; lia).
    set (Zn := nz g + ext_z a) in *. set (Yn := ny g + ext_y a) in *. clearbody Zn Yn.
    rewrite <- Z.quot_quot by lia.
    pose proof (Z.quot_rem v Zn ltac:(lia)) as E1. pose proof (Z.quot_rem (Z.quot v Zn) Yn ltac:(lia)) as E2. nia.
Qed.
Definition contiguous (g : geom) (a : arr) (s0 s1 s2 : Z) : Prop :=
  match n_dims g with 1%nat => s0 = 1 | 2%nat => s1 = 1 /\ s0 = EZ g a | _ => s2 = 1 /\ s1 = EZ g a /\ s0 = EY g a * s1 end.
Lemma contiguous_total g a s0 s1 s2 : geom_ok g a -> contiguous g a s0 s1 s2 -> total g a s0 s1 = EX g a * (EY g a * EZ g a).
Proof.
  intros (_ & _ & _ & _ & HD) HS. unfold contiguous, total in *; unfold EX, EY, EZ in *. destruct (n_dims g) as [|[|[|[|d]]]]; try contradiction.
  - ring.
  - destruct HS as [_ ->]. ring.
  - destruct HD as (Hy & Hz). destruct HS as (_ & -> & ->).
    assert (0 < nz g + ext_z a) by (destruct a; cbn [ext_z]; lia). assert (0 < ny g + ext_y a) by (destruct a; cbn [ext_y]; lia).
    rewrite Z.max_l by nia. rewrite Z.eqb_refl. ring.
Qed.
Lemma contiguous_addr g a s0 s1 s2 i j k : geom_ok g a -> contiguous g a s0 s1 s2 -> 0 <= j < EY g a -> 0 <= k < EZ g a ->
  addr g s0 s1 s2 i j k = (i * EY g a + j) * EZ g a + k.
Proof.
  intros (_ & _ & _ & _ & HD) HS Hj Hk. unfold contiguous, addr in *; unfold EY, EZ in *. destruct (n_dims g) as [|[|[|[|d]]]]; try contradiction.
  - lia.
  - destruct HS as [-> ->]. assert (j = 0) by lia. subst. ring.
  - destruct HS as (-> & -> & ->). ring.
Qed.
(** where the halo elements of any array are read from: the period is the whole extent of the array *)
Lemma halo_address g a s0 s1 s2 i j k : geom_ok g a -> contiguous g a s0 s1 s2 -> 0 <= j < EY g a -> 0 <= k < EZ g a ->
  - EX g a <= i < 2 * EX g a -> l2e g a s0 s1 s2 (pos g a i j k) = addr g s0 s1 s2 (i mod EX g a) j k.
Proof.
  intros Hg HC Hj Hk Hi. assert (Hd : (0 < n_dims g)%nat) by (destruct Hg as (_ & _ & _ & _ & HD); destruct (n_dims g); [contradiction|lia]).
  rewrite l2e_raw by exact Hd. rewrite shifted by exact Hg.
  rewrite raw_contiguous; [|exact Hg|unfold contiguous in HC; destruct (n_dims g) as [|[|[|d]]]; auto].
  rewrite (contiguous_total g a s0 s1 s2 Hg HC). rewrite (contiguous_addr g a s0 s1 s2 _ j k Hg HC Hj Hk).
  set (X := EX g a) in *. set (Y := EY g a) in *. set (W := EZ g a) in *. assert (HX : 0 < X) by lia. clearbody X Y W.
  assert (HB : forall u, 0 <= u < X -> 0 <= (u * Y + j) * W + k < X * (Y * W)).
  { intros u Hu. assert (0 <= u * Y) by nia. split; [nia|]. assert (u * Y + j + 1 <= X * Y) by nia. nia. }
  unfold periodic_cellno. destruct (Z_lt_ge_dec i 0) as [L|L].
  - assert (E : i mod X = i + X) by (symmetry; apply (Z.mod_unique_pos _ _ (-1)); lia). rewrite E.
    pose proof (HB (i + X) ltac:(lia)) as B.
    replace (((i + X) * Y + j) * W + k) with ((i * Y + j) * W + k + X * (Y * W)) in * by ring.
    destruct (Z.leb_spec (X * (Y * W)) ((i * Y + j) * W + k)); [lia|]. destruct (Z.ltb_spec ((i * Y + j) * W + k) 0); lia.
  - destruct (Z_lt_ge_dec i X) as [L'|L'].
    + rewrite Z.mod_small by lia. pose proof (HB i ltac:(lia)) as B.
      destruct (Z.leb_spec (X * (Y * W)) ((i * Y + j) * W + k)); [lia|]. destruct (Z.ltb_spec ((i * Y + j) * W + k) 0); lia.
    + assert (E : i mod X = i - X) by (symmetry; apply (Z.mod_unique_pos _ _ 1); lia). rewrite E.
      pose proof (HB (i - X) ltac:(lia)) as B.
      replace (((i - X) * Y + j) * W + k) with ((i * Y + j) * W + k - X * (Y * W)) in * by ring.
      destruct (Z.leb_spec (X * (Y * W)) ((i * Y + j) * W + k)); lia.
Qed.
(** C39: the halo of the Courant numbers in y and z is that of a domain periodic in x, for arrays without padding and with x as the
    slowest index *)
Theorem C39_halo_yz_partial g a s0 s1 s2 i j k :
  geom_ok g a -> a = a_cy \/ a = a_cz -> contiguous g a s0 s1 s2 -> 0 <= j < EY g a -> 0 <= k < EZ g a ->
  - n_x_tot g <= i < 2 * n_x_tot g -> l2e g a s0 s1 s2 (pos g a i j k) = addr g s0 s1 s2 (i mod n_x_tot g) j k.
Proof.
  intros Hg Ha HC Hj Hk Hi.
  assert (E : EX g a = n_x_tot g) by (unfold EX; destruct Ha as [-> | ->]; cbn [ext_x]; ring).
  rewrite <- E. apply halo_address; auto. rewrite E. exact Hi.
Qed.
(** C39 refuted for the Courant number in x: walls of a periodic domain repeat every n_x_tot walls, the first and the last being the same one, but
    the halo repeats every n_x_tot + 1: the walls next to the domain are those of the other edge, not the ones before (after) them *)
Theorem C39_halo_x_refuted g s0 s1 s2 j k :
  geom_ok g a_cx -> contiguous g a_cx s0 s1 s2 -> 0 <= j < EY g a_cx -> 0 <= k < EZ g a_cx -> 1 < n_x_tot g ->
  l2e g a_cx s0 s1 s2 (pos g a_cx (-1) j k) = addr g s0 s1 s2 (n_x_tot g) j k /\
  l2e g a_cx s0 s1 s2 (pos g a_cx (n_x_tot g + 1) j k) = addr g s0 s1 s2 0 j k /\
  addr g s0 s1 s2 (n_x_tot g) j k <> addr g s0 s1 s2 (n_x_tot g - 1) j k /\
  addr g s0 s1 s2 0 j k <> addr g s0 s1 s2 1 j k.
Proof.
  intros Hg HC Hj Hk Hn.
  assert (E : EX g a_cx = n_x_tot g + 1) by (unfold EX; cbn [ext_x]; ring).
  rewrite !halo_address by (auto; rewrite E; lia). rewrite E.
  replace (-1 mod (n_x_tot g + 1)) with (n_x_tot g) by (apply (Z.mod_unique_pos _ _ (-1)); lia).
  rewrite Z.mod_same by lia. rewrite !(contiguous_addr g a_cx s0 s1 s2 _ j k Hg HC Hj Hk).
  set (Y := EY g a_cx) in *. set (W := EZ g a_cx) in *. clearbody Y W. repeat split; nia.
Qed.
(** C39 refuted for the halo of padded arrays: with rows of 3 walls stored every 4 elements, the halo of the Courant number in z is shifted by one wall *)
Definition grid2 : geom := {| n_dims := 2; nx := 3; ny := 0; nz := 2; n_x_tot := 3; n_x_bfr := 0; halo_size := 2 |}.
Theorem C39_padded_halo_refuted :
  geom_ok grid2 a_cz /\ strides_ok grid2 a_cz 4 1 0 /\
  l2e grid2 a_cz 4 1 0 (pos grid2 a_cz (-1) 0 1) = addr grid2 4 1 0 2 0 2 /\
  l2e grid2 a_cz 4 1 0 (pos grid2 a_cz (-1) 0 2) = addr grid2 4 1 0 2 0 3 /\
  l2e grid2 a_cz 4 1 0 (pos grid2 a_cz (-1) 0 1) <> addr grid2 4 1 0 2 0 1.
Proof. cbn. repeat split; try lia; try discriminate. Qed.
(** C39 refuted for the halo of arrays with y as the slowest index *)
Definition grid3 : geom := {| n_dims := 3; nx := 3; ny := 4; nz := 2; n_x_tot := 3; n_x_bfr := 0; halo_size := 2 |}.
Theorem C39_kij_halo_refuted :
  geom_ok grid3 a_cz /\ strides_ok grid3 a_cz 3 9 1 /\
  l2e grid3 a_cz 3 9 1 (pos grid3 a_cz (-1) 1 0) <> addr grid3 3 9 1 2 1 0.
Proof. cbn. repeat split; try lia; try discriminate. Qed.
(** C39 refuted for a domain one cell wide in x with y as the slowest index: all rows but the first are shifted by one, so that the first two rows
    share their elements *)
Definition grid31 : geom := {| n_dims := 3; nx := 1; ny := 4; nz := 2; n_x_tot := 1; n_x_bfr := 0; halo_size := 0 |}.
Theorem C39_one_column_refuted :
  geom_ok grid31 a_cell /\
  l2e grid31 a_cell 2 2 1 (pos grid31 a_cell 0 0 1) = addr grid31 2 2 1 0 0 1 /\
  l2e grid31 a_cell 2 2 1 (pos grid31 a_cell 0 1 1) = addr grid31 2 2 1 0 0 1 /\
  l2e grid31 a_cell 2 2 1 (pos grid31 a_cell 0 3 1) = addr grid31 2 2 1 0 2 1.
Proof. cbn. repeat split; try lia; try discriminate. Qed.

(** a case that meets the hypotheses: three dimensions, the second of two devices, y slowest, padded *)
Definition grid_dev : geom := {| n_dims := 3; nx := 3; ny := 4; nz := 2; n_x_tot := 6; n_x_bfr := 3; halo_size := 2 |}.
Theorem C39_instance : geom_ok grid_dev a_cx /\ strides_ok grid_dev a_cx 5 40 1 /\ real_element grid_dev a_cx 6 3 1 /\
  l2e grid_dev a_cx 5 40 1 (pos grid_dev a_cx 6 3 1) = 6 * 5 + 3 * 40 + 1.
Proof. cbn. repeat split; try lia; try discriminate. Qed.

Print Assumptions C39_real_elements.
Print Assumptions C39_one_to_one.
Print Assumptions C39_sync.
Print Assumptions C39_halo_yz_partial.
Print Assumptions C39_halo_x_refuted.
Print Assumptions C39_padded_halo_refuted.
Print Assumptions C39_kij_halo_refuted.
Print Assumptions C39_one_column_refuted.
Print Assumptions C39_instance.
