(** C79 (NumPy arrays) and C80 (keyword arguments and options set from Python). *)
From Coq Require Import List ZArith Reals Bool Lia Arith Lra Sorting.Sorted.
From Verif Require Import Base BaseProofs E2lModel E2lProps PyModel.
Import ListNotations.
Local Open Scope Z_scope.

(** ** specification *)
(** strides, in bytes, NumPy gives to a new array of doubles of this shape (C order) *)
Fixpoint c_strides (shape : list Z) : list Z := match shape with [] => [] | _ :: s => 8 * prodZ s :: c_strides s end.
Definition plain (a : ndarray) : Prop :=
  np_dtype a = Float64 /\ np_c_contiguous a = true /\ np_strides a = c_strides (np_shape a).
(** number of the element [idx] of an array of this shape, from the first one, in C order *)
Fixpoint flat (shape idx : list Z) : Z :=
  match shape, idx with _ :: s, i :: r => i * prodZ s + flat s r | _, _ => 0 end.
(** the shape of a field on the grid and the index of its element (i, j, k) *)
Definition field_shape (g : geom) (a : arr) : list Z :=
  match n_dims g with 3%nat => [EX g a; EY g a; EZ g a] | 2%nat => [EX g a; EZ g a] | _ => [EX g a] end.
Definition field_index (g : geom) (i j k : Z) : list Z :=
  match n_dims g with 3%nat => [i; j; k] | 2%nat => [i; k] | _ => [i] end.
(** the library uses the strides it was given *)
Definition st (s : list Z) (n : nat) : Z := nth n s 0.
Definition position (g : geom) (a : arr) (s : list Z) (i j k : Z) : Z := l2e g a (st s 0) (st s 1) (st s 2) (pos g a i j k).
(** arrays fit in memory *)
Definition fits (shape : list Z) : Prop := 8 * prodZ shape < 2 ^ 63.

Lemma elements_8 n : 0 <= n -> 8 * n < 2 ^ 63 -> elements (8 * n) = n.
Proof.
  intros H1 H2. unfold elements. rewrite Z.mod_small by (split; [lia|]; apply Z.lt_trans with (2 ^ 63); [exact H2|reflexivity]).
  rewrite Z.mul_comm. apply Z.div_mul. lia.
Qed.

Lemma dims3 nx ny nz : 0 < nx -> 0 < ny -> 0 < nz -> np_n_dims nx ny nz = 3%nat.
Proof. intros. unfold np_n_dims. rewrite !(proj2 (Z.ltb_lt _ _)) by lia. reflexivity. Qed.
Lemma dims2 nx nz : 0 < nx -> 0 < nz -> np_n_dims nx 0 nz = 2%nat.
Proof. intros. unfold np_n_dims. rewrite (proj2 (Z.ltb_lt 0 nx)), (proj2 (Z.ltb_lt 0 nz)) by lia. reflexivity. Qed.
Lemma dims1 nx : 1 < nx -> np_n_dims nx 0 0 = 1%nat.
Proof.
  intros. unfold np_n_dims. rewrite (proj2 (Z.ltb_lt 0 nx)), (proj2 (Z.ltb_lt 1 nx)) by lia.
  rewrite (proj2 (Z.eqb_neq nx 0)) by lia. reflexivity.
Qed.
Lemma plain_sane a : plain a -> sanity_checks a = true.
Proof. intros (E1 & E2 & _). unfold sanity_checks. rewrite E1, E2. reflexivity. Qed.

(** ** C79 *)
(** C79: a field with the shape of the grid is accepted, and the library finds the value for cell or wall (i, j, k) in
    element [i, j, k] of the array, inside the array; on each of any number of devices *)
Theorem C79_fields_partial g a f :
  geom_ok g a -> plain f -> np_shape f = field_shape g a -> fits (np_shape f) ->
  (n_dims g = 1%nat -> 1 < n_x_tot g) ->
  exists s, np2ai f (n_x_tot g) (ny g) (nz g) = Arr s /\
    forall i j k, real_element g a i j k ->
      position g a s i j k = flat (np_shape f) (field_index g i j k) /\ 0 <= position g a s i j k < prodZ (np_shape f).
Proof.
  intros Hg Hp Hs Hf H1. pose proof (plain_sane f Hp) as San. destruct Hp as (E1 & E2 & E3).
  unfold np2ai. rewrite E1, San. cbn [negb]. rewrite E3, Hs in *. unfold fits in Hf.
  pose proof Hg as (G1 & G2 & G3 & G4 & HD).
  unfold position, field_index. unfold field_shape in *.
  destruct (n_dims g) as [|[|[|[|d]]]] eqn:Ed; try contradiction.
  - destruct HD as (Ey & Ez & Ha). rewrite Ey, Ez, dims1 by auto. cbn [Nat.max fill c_strides repeat length prodZ flat].
    eexists. split; [reflexivity|]. intros i j k Hr. cbn [st nth] in *.
    assert (Hok : strides_ok g a (elements (8 * 1)) 0 0) by (unfold strides_ok; rewrite Ed; reflexivity).
    destruct (C39_real_elements g a _ _ _ i j k Hg Hok Hr) as [_ E]. rewrite E. unfold addr. rewrite Ed.
    destruct Hr as (Hi & _). unfold EX. split; [ring|]. lia.
  - destruct HD as (Ey & Hz & Ha). rewrite Ey, dims2 by lia. cbn [Nat.max fill c_strides repeat length prodZ flat] in *.
    assert (Hw : 0 < EZ g a) by (unfold EZ; rewrite Ed; destruct a; cbn [ext_z]; lia).
    assert (Hx : 0 < EX g a) by (unfold EX; destruct a; cbn [ext_x]; lia).
    rewrite !Z.mul_1_r in *. rewrite (elements_8 (EZ g a)) by nia. change (elements 8) with 1.
    eexists. split; [reflexivity|]. intros i j k Hr. cbn [st nth] in *.
    assert (Hok : strides_ok g a (EZ g a) 1 0) by (unfold strides_ok; rewrite Ed; split; [reflexivity|lia]).
    destruct (C39_real_elements g a _ _ _ i j k Hg Hok Hr) as [_ E]. rewrite E. unfold addr. rewrite Ed.
    destruct Hr as (Hi & _ & Hk). unfold EX in *. split; [ring|]. nia.
  - destruct HD as (Hy & Hz). rewrite dims3 by lia. cbn [Nat.max fill c_strides repeat length prodZ flat] in *.
    assert (Hw : 0 < EZ g a) by (unfold EZ; rewrite Ed; destruct a; cbn [ext_z]; lia).
    assert (Hv : 0 < EY g a) by (unfold EY; rewrite Ed; destruct a; cbn [ext_y]; lia).
    assert (Hx : 0 < EX g a) by (unfold EX; destruct a; cbn [ext_x]; lia).
    rewrite !Z.mul_1_r in *. rewrite (elements_8 (EZ g a)) by nia. rewrite (elements_8 (EY g a * EZ g a)) by nia. change (elements 8) with 1.
    eexists. split; [reflexivity|]. intros i j k Hr. cbn [st nth] in *.
    assert (Hok : strides_ok g a (EY g a * EZ g a) (EZ g a) 1) by (unfold strides_ok; rewrite Ed; split; [reflexivity|left; lia]).
    destruct (C39_real_elements g a _ _ _ i j k Hg Hok Hr) as [_ E]. rewrite E. unfold addr. rewrite Ed.
    destruct Hr as (Hi & Hj & Hk). unfold EX in *. split; [ring|].
    clear - Hi Hj Hk G2 G3 Hw Hv. set (V := EY g a) in *. set (W := EZ g a) in *. set (X := n_x_tot g + ext_x a) in *.
    assert (Hi' : 0 <= i < X) by lia. clearbody V W X. assert (0 <= j * W) by nia. assert (0 <= V * W) by nia.
    assert (j * W + k < V * W) by nia. set (P := V * W) in *. clearbody P. nia.
Qed.

(** C79: in two and three dimensions a one-dimensional array is a profile: element [k] for every cell or wall at level k *)
Theorem C79_profiles_partial g a f n :
  geom_ok g a -> plain f -> np_shape f = [n] -> (n_dims g = 2%nat \/ n_dims g = 3%nat) ->
  exists s, np2ai f (n_x_tot g) (ny g) (nz g) = Arr s /\
    forall i j k, real_element g a i j k -> position g a s i j k = k.
Proof.
  intros Hg Hp Hs Hd. pose proof (plain_sane f Hp) as San. destruct Hp as (E1 & E2 & E3).
  unfold np2ai. rewrite E1, San. cbn [negb]. rewrite E3, Hs in *.
  pose proof Hg as (G1 & G2 & G3 & G4 & HD).
  assert (Hd' : (0 < n_dims g)%nat) by (destruct Hd as [-> | ->]; lia).
  unfold position. destruct Hd as [Ed|Ed]; rewrite Ed in HD.
  - destruct HD as (Ey & Hz & Ha). rewrite Ey, dims2 by lia. cbn [Nat.max fill c_strides repeat length prodZ nth].
    eexists. split; [reflexivity|]. intros i j k (Hi & Hj & Hk). cbn [st nth]. change (elements (8 * 1)) with 1.
    rewrite l2e_raw, shifted by auto. unfold raw, total, periodic_cellno. rewrite Ed.
    unfold EY, EZ in *. rewrite Ed in *. assert (j = 0) by lia. subst j.
    destruct (quot_rem (i * 1 + 0) (nz g + ext_z a) k) as [A B]; try lia. rewrite A, B.
    rewrite Z.mul_0_r, Z.mul_0_l, Z.mul_1_l, Z.add_0_l. destruct (Z.leb_spec 0 k); lia.
  - destruct HD as (Hy & Hz). rewrite dims3 by lia. cbn [Nat.max fill c_strides repeat length prodZ nth].
    eexists. split; [reflexivity|]. intros i j k (Hi & Hj & Hk). cbn [st nth]. change (elements (8 * 1)) with 1.
    rewrite l2e_raw, shifted by auto. unfold raw, total, periodic_cellno. rewrite Ed. change (Z.max 0 0) with 0. cbn [Z.eqb].
    unfold EY, EZ in *. rewrite Ed in *.
    destruct (quot_rem (i * (ny g + ext_y a) + j) (nz g + ext_z a) k) as [A B]; try nia. rewrite B.
    rewrite !Z.mul_0_r, !Z.mul_0_l, Z.mul_1_l, !Z.add_0_l. destruct (Z.leb_spec 0 k); lia.
Qed.

(** C79: in a parcel exactly arrays of one element are accepted, and that element is used *)
Theorem C79_parcel g f i j k : n_dims g = 0%nat -> plain f ->
  (np_shape f = [1] -> exists s, np2ai f 0 0 0 = Arr s /\ position g a_cell s i j k = 0) /\
  ((length (np_shape f) <= 1)%nat -> np_shape f <> [1] -> np2ai f 0 0 0 = Throws).
Proof.
  intros Ed Hp. pose proof (plain_sane f Hp) as San. destruct Hp as (E1 & E2 & E3). unfold np2ai, position, l2e. rewrite E1, San, Ed. cbn [negb].
  split.
  - intros Es. rewrite E3, Es. eexists. split; reflexivity.
  - intros Hl Hn. rewrite E3. destruct (np_shape f) as [|n [|m r]]; cbn [length c_strides] in *; [reflexivity| |lia].
    cbn. destruct (Z.eqb_spec n 1); [congruence|reflexivity].
Qed.

Lemma fill_length n : forall l r, fill n l = Some r -> length r = n.
Proof.
  induction n as [|n IH]; intros [|x l] r; cbn [fill]; try (intros [= <-]); try discriminate.
  - reflexivity.
  - cbn [repeat length]. f_equal. apply repeat_length.
  - destruct (fill n l) as [q|] eqn:Eq; [|discriminate]. intros [= <-]. cbn [length]. rewrite (IH _ _ Eq). reflexivity.
Qed.
Lemma fill_none n : forall l, fill n l = None <-> (n < length l)%nat.
Proof.
  induction n as [|n IH]; intros [|x l]; cbn [fill length]; try (split; [discriminate|lia]).
  - split; [lia|reflexivity].
  - specialize (IH l). destruct (fill n l); split; intros H; try discriminate; try reflexivity.
    + assert (n < length l)%nat by lia. apply IH in H0. discriminate.
    + apply ->Nat.succ_lt_mono. apply IH. reflexivity.
Qed.
(** C79: what is accepted at all: contiguous arrays of doubles with as many dimensions as the set-up, or with one *)
Theorem C79_only f nx ny nz s : np2ai f nx ny nz = Arr s ->
  np_dtype f = Float64 /\ np_c_contiguous f = true /\
  (length (np_shape f) = np_n_dims nx ny nz \/ length (np_shape f) = 1%nat).
Proof.
  unfold np2ai, sanity_checks. destruct (np_dtype f); try discriminate. cbn [andb]. destruct (np_c_contiguous f); try discriminate. cbn [negb].
  destruct (fill _ _) as [q|] eqn:Eq; [|discriminate]. clear Eq.
  destruct (np_n_dims nx ny nz) as [|[|[|[|d]]]].
  - destruct (np_shape f) as [|n [|m r]]; try discriminate. auto.
  - destruct (length (np_shape f)) as [|[|m]]; try discriminate. auto.
  - destruct (length (np_shape f)) as [|[|[|m]]]; try discriminate; auto.
  - destruct (length (np_shape f)) as [|[|[|[|m]]]]; try discriminate; auto.
  - destruct (np_shape f) as [|n [|m r]]; try discriminate; auto.
Qed.
(** C79: arrays of other types, or not contiguous, are refused; so are those with a wrong number of dimensions that is not
    larger than that of the set-up *)
Theorem C79_refused_partial f nx ny nz :
  length (np_strides f) = length (np_shape f) -> np_dtype f <> Object ->
  (np_dtype f <> Float64 \/ np_c_contiguous f = false \/
   (length (np_shape f) <> 1%nat /\ (length (np_shape f) < np_n_dims nx ny nz)%nat)) ->
  np2ai f nx ny nz = Throws.
Proof.
  intros Hl Ho H. unfold np2ai, sanity_checks. destruct (np_dtype f) eqn:Et; [|congruence|reflexivity].
  destruct H as [H|[H|[H1 H2]]]; [congruence| |].
  - rewrite H. reflexivity.
  - destruct (np_c_contiguous f); [|reflexivity]. cbn [andb negb].
    destruct (fill _ _) as [q|] eqn:Eq; [|apply fill_none in Eq; lia].
    destruct (np_n_dims nx ny nz) as [|[|[|[|d]]]]; try lia.
    + destruct (length (np_shape f)) as [|[|m]]; try lia. reflexivity.
    + destruct (length (np_shape f)) as [|[|[|m]]]; try lia; reflexivity.
    + destruct (length (np_shape f)) as [|[|[|[|m]]]]; try lia; reflexivity.
    + destruct (np_shape f) as [|n [|m r]]; cbn [length] in *; try lia; reflexivity.
Qed.
(** C79 does not hold for arrays with more dimensions: memory is overwritten before the exception would be thrown, for every
    contiguous array of doubles with more dimensions than the set-up *)
Theorem C79_dimensions_refuted f nx ny nz : plain f -> (Nat.max 1 (np_n_dims nx ny nz) < length (np_shape f))%nat ->
  np2ai f nx ny nz = Overrun.
Proof.
  intros Hp H. pose proof (plain_sane f Hp) as San. destruct Hp as (E1 & E2 & E3). unfold np2ai. rewrite E1, San. cbn [negb].
  assert (L : forall s, length (c_strides s) = length s) by (induction s as [|x s IH]; cbn; congruence).
  destruct (fill _ _) as [q|] eqn:Eq; [|reflexivity]. exfalso.
  assert (C : fill (Nat.max 1 (np_n_dims nx ny nz)) (np_strides f) = None) by (apply fill_none; rewrite E3, L; exact H). congruence.
Qed.
Definition array (shape : list Z) : ndarray := {| np_dtype := Float64; np_c_contiguous := true; np_shape := shape; np_strides := c_strides shape |}.
(** ... a two-dimensional array given to a one-dimensional set-up, a three-dimensional one to a parcel *)
Example C79_dimensions_cases : np2ai (array [3; 2]) 3 0 0 = Overrun /\ np2ai (array [1; 1; 1]) 0 0 0 = Overrun.
Proof. split; reflexivity. Qed.
(** C79 does not hold for arrays of another size: they are accepted and read beyond their end *)
Definition line (n halo : Z) : geom := {| n_dims := 1; nx := n; ny := 0; nz := 0; n_x_tot := n; n_x_bfr := 0; halo_size := halo |}.
Definition plane (n m halo : Z) : geom := {| n_dims := 2; nx := n; ny := 0; nz := m; n_x_tot := n; n_x_bfr := 0; halo_size := halo |}.
Definition box3 (n l m halo : Z) : geom := {| n_dims := 3; nx := n; ny := l; nz := m; n_x_tot := n; n_x_bfr := 0; halo_size := halo |}.
Theorem C79_size_refuted :
  (exists s, np2ai (array [2]) 5 0 0 = Arr s /\ position (line 5 0) a_cell s 4 0 0 = 4 /\ prodZ (np_shape (array [2])) = 2) /\
  (exists s, np2ai (array [2; 2]) 3 0 4 = Arr s /\ position (plane 3 4 0) a_cell s 2 0 1 = 5 /\ prodZ (np_shape (array [2; 2])) = 4).
Proof. split; eexists; (split; [reflexivity|split; reflexivity]). Qed.
(** C79 does not hold for profiles of Courant numbers with the predictor-corrector scheme: the halo is read from before the
    start of the array *)
Theorem C79_profile_halo_refuted :
  exists s, np2ai (array [4]) 3 0 4 = Arr s /\ 0 <= pos (plane 3 4 2) a_cx (-1) 0 1 < lib_size (plane 3 4 2) a_cx /\
            position (plane 3 4 2) a_cx s (-1) 0 1 = -3.
Proof. eexists. split; [reflexivity|]. split; [split; reflexivity || discriminate|reflexivity]. Qed.
(** C79 does not hold for all arrays flagged contiguous: for dimensions of one element NumPy allows any stride, and a stride
    in y between those of x makes cells read the values of others *)
Theorem C79_one_element_stride_refuted :
  let f := {| np_dtype := Float64; np_c_contiguous := true; np_shape := [3; 1; 4]; np_strides := [32; 64; 8] |} in
  exists s, np2ai f 3 1 4 = Arr s /\ position (box3 3 1 4 0) a_cell s 2 0 0 = 0.
Proof. eexists. split; reflexivity. Qed.
(** C79 does not hold for a one-dimensional set-up of one cell: its Courant numbers, at two walls, are refused *)
Theorem C79_one_cell_refuted : geom_ok (line 1 0) a_cx /\ field_shape (line 1 0) a_cx = [2] /\ np2ai (array [2]) 1 0 0 = Throws.
Proof. split; [unfold geom_ok; cbn; repeat split; try lia; auto|]. split; reflexivity. Qed.

(** C79: arrays of a set-up with fields of the grid's shape are also written to element [i, j, k], and nothing else is *)
Theorem C79_written_partial g f from host :
  geom_ok g a_cell -> plain f -> np_shape f = field_shape g a_cell -> fits (np_shape f) -> (n_dims g = 1%nat -> 1 < n_x_tot g) ->
  exists s, np2ai f (n_x_tot g) (ny g) (nz g) = Arr s /\
    let host' := sync_out (l2e g a_cell (st s 0) (st s 1) (st s 2)) (Z.to_nat (lib_size g a_cell)) from host in
    (forall i j k, real_element g a_cell i j k -> host' (flat (np_shape f) (field_index g i j k)) = from (pos g a_cell i j k)) /\
    (forall x, (forall i j k, real_element g a_cell i j k -> x <> flat (np_shape f) (field_index g i j k)) -> host' x = host x).
Proof.
  intros Hg Hp Hs Hf H1. destruct (C79_fields_partial g a_cell f Hg Hp Hs Hf H1) as (s & E & H). exists s. split; [exact E|].
  cbn zeta. set (m := l2e g a_cell (st s 0) (st s 1) (st s 2)).
  assert (Hm : forall i j k, real_element g a_cell i j k -> m (pos g a_cell i j k) = flat (np_shape f) (field_index g i j k)).
  { intros i j k R. exact (proj1 (H i j k R)). }
  assert (Hn : 0 <= lib_size g a_cell).
  { destruct Hg as (G1 & _ & _ & _ & HD). unfold lib_size, m1. destruct (Z.eqb_spec (nx g) 0), (Z.eqb_spec (ny g) 0), (Z.eqb_spec (nz g) 0);
    destruct (n_dims g) as [|[|[|[|d]]]]; try contradiction; nia. }
  assert (Hfl : forall i j k i' j' k', real_element g a_cell i j k -> real_element g a_cell i' j' k' ->
    flat (np_shape f) (field_index g i j k) = flat (np_shape f) (field_index g i' j' k') -> pos g a_cell i j k = pos g a_cell i' j' k').
  { intros i j k i' j' k' (A1 & A2 & A3) (B1 & B2 & B3). rewrite Hs. unfold field_shape, field_index, pos, EX, EY, EZ in *.
    destruct Hg as (G1 & _ & _ & _ & HD). cbn [ext_x ext_y ext_z] in *. destruct (n_dims g) as [|[|[|[|d]]]]; try contradiction; cbn [flat prodZ].
    - intros Q. nia.
    - rewrite !Z.mul_1_r, !Z.add_0_r in *. intros Q. apply two_digits in Q; [|lia|lia]. destruct Q; subst. assert (j = j') by lia. subst. reflexivity.
    - rewrite !Z.mul_1_r, !Z.add_0_r in *. intros Q. apply two_digits in Q; [|nia|nia]. destruct Q as [Q1 Q]. apply two_digits in Q; [|lia|lia].
      destruct Q; subst. reflexivity. }
  destruct (sync_out_spec m (Z.to_nat (lib_size g a_cell)) from host) as [S1 S2].
  { intros p' q' Hp' Hq'. rewrite Z2Nat.id in Hp', Hq' by exact Hn.
    destruct (cell_coords g p' Hg Hp') as (i & j & k & R1 & <-). destruct (cell_coords g q' Hg Hq') as (i' & j' & k' & R2 & <-).
    rewrite !Hm by assumption. apply Hfl; assumption. }
  rewrite Z2Nat.id in S1, S2 by exact Hn. split.
  - intros i j k R. rewrite <- (Hm i j k R). apply S1.
    unfold strides_ok in *. destruct (H i j k R) as [_ _].
    (* the position is in range *)
    destruct R as (A1 & A2 & A3). unfold pos, lib_size, halo, EY, EZ in *. destruct Hg as (G1 & G2 & G3 & G4 & HD). cbn [ext_x ext_y ext_z] in *.
    destruct (n_dims g) as [|[|[|[|d]]]]; try contradiction.
    + destruct HD as (Ey & Ez & _). rewrite Ey, Ez, (m1_pos (nx g)) by lia. change (m1 0) with 1. nia.
    + destruct HD as (Ey & Hz & _). rewrite Ey, (m1_pos (nx g)), (m1_pos (nz g)) by lia. change (m1 0) with 1. nia.
    + destruct HD as (Hy & Hz). rewrite !m1_pos by lia. rewrite !Z.add_0_r in *.
      set (u := i - n_x_bfr g) in *. assert (0 <= u < nx g) by lia. clearbody u. assert (0 <= u * ny g) by nia.
      split; [nia|]. assert (u * ny g + j + 1 <= nx g * ny g) by nia. nia.
  - intros x Hx. apply S2. intros p' Hp' E'. destruct (cell_coords g p' Hg Hp') as (i & j & k & R & <-).
    apply (Hx i j k R). rewrite <- E'. apply Hm, R.
Qed.
(** C79: outbuf() shows one element per cell *)
Theorem C79_outbuf nx ny nz : 0 <= nx -> 0 <= ny -> 0 <= nz ->
  outbuf_elements nx ny nz = m1 nx * m1 ny * m1 nz.
Proof.
  intros. unfold outbuf_elements, m1. assert (E : forall n, 0 <= n -> Z.max 1 n = if n =? 0 then 1 else n) by (intros n Hn; destruct (Z.eqb_spec n 0); lia).
  rewrite !E by assumption. reflexivity.
Qed.
(** C79, instance: a box of 3 x 2 x 4 cells *)
Theorem C79_instance :
  geom_ok (box3 3 2 4 0) a_cz /\ plain (array [3; 2; 5]) /\ np_shape (array [3; 2; 5]) = field_shape (box3 3 2 4 0) a_cz /\
  fits [3; 2; 5] /\ exists s, np2ai (array [3; 2; 5]) 3 2 4 = Arr s /\ position (box3 3 2 4 0) a_cz s 2 1 4 = 29 /\
  real_element (box3 3 2 4 0) a_cz 2 1 4.
Proof.
  split; [unfold geom_ok; cbn; lia|]. split; [repeat split|]. split; [reflexivity|]. split; [reflexivity|].
  eexists. split; [reflexivity|]. split; [reflexivity|]. unfold real_element; cbn; lia.
Qed.

(** ** C80 *)
(** C80: whatever the call, when it is accepted, arguments given by position go to the parameters in order, those given by name
    to the parameters of that name, and the others have their defaults *)
Section Keywords.
Variable V : Type.
Variable dflt : pname -> V.
Definition faithful (m : method) : Prop :=
  forall pos kws vs, NoDup (map fst kws) -> call dflt m pos kws = Some vs ->
    length vs = length (params m) /\
    (forall k v, nth_error pos k = Some v -> nth_error vs k = Some v) /\
    (forall n v, In (n, v) kws -> got m vs n = Some v) /\
    (forall k n, nth_error (params m) k = Some n -> (length pos <= k)%nat -> ~ In n (map fst kws) -> nth_error vs k = Some (dflt n)).

Lemma lookup_kw_in n : forall (kws : list (pname * V)) v, lookup_kw n kws = Some v -> In (n, v) kws.
Proof.
  induction kws as [|[m w] kws IH]; intros v; cbn [lookup_kw]; [discriminate|].
  destruct (pname_dec n m) as [->|]; [intros [= ->]; left; reflexivity|intros H; right; auto].
Qed.
Lemma lookup_kw_nodup n v : forall (kws : list (pname * V)), NoDup (map fst kws) -> In (n, v) kws -> lookup_kw n kws = Some v.
Proof.
  induction kws as [|[m w] kws IH]; cbn [map fst lookup_kw]; [intros _ []|]. intros Hn H. inversion Hn; subst.
  destruct H as [E|H].
  - inversion E; subst. destruct (pname_dec n n); congruence.
  - destruct (pname_dec n m) as [->|]; [|auto]. exfalso. match goal with Q : ~ In m _ |- _ => apply Q end. apply (in_map fst) in H. exact H.
Qed.
Lemma lookup_kw_none n : forall (kws : list (pname * V)), lookup_kw n kws = None <-> ~ In n (map fst kws).
Proof.
  induction kws as [|[m w] kws IH]; cbn [map fst lookup_kw In]; [tauto|]. destruct (pname_dec n m) as [->|H].
  - split; [discriminate|tauto].
  - rewrite IH. split; [intros A [B|B]; [congruence|auto]|tauto].
Qed.
(** parameters filled by name, and how many keyword arguments were used *)
Lemma fill_args_spec kws : forall names vs c, fill_args dflt names kws = Some (vs, c) ->
  exists ns, names = map Some ns /\ vs = map (fun n => match lookup_kw n kws with Some v => v | None => dflt n end) ns /\
    c = length (filter (fun n => match lookup_kw n kws with Some _ => true | None => false end) ns).
Proof.
  induction names as [|[n|] names IH]; intros vs c; cbn [fill_args].
  - intros [= <- <-]. exists []. auto.
  - destruct (fill_args dflt names kws) as [[us d]|]; [|discriminate]. destruct (IH us d eq_refl) as (ns & -> & -> & ->).
    destruct (lookup_kw n kws) as [v|] eqn:E; intros [= <- <-]; exists (n :: ns); cbn [map filter]; rewrite E; auto.
  - discriminate.
Qed.
Lemma skipn_repeat {A} (x : A) k n : skipn k (repeat x n) = repeat x (n - k).
Proof. revert n; induction k as [|k IH]; intros [|n]; cbn [skipn repeat Nat.sub]; auto. Qed.
Lemma repeat_none_map (n : nat) (l ns : list pname) : repeat None n ++ map Some l = map Some ns -> n = 0%nat /\ l = ns.
Proof.
  destruct n as [|n]; cbn [repeat app]; [|destruct ns; discriminate]. intros H. split; [reflexivity|].
  revert ns H. induction l as [|x l IH]; intros [|y ns]; cbn [map]; try discriminate; intros H; [reflexivity|]. inversion H. f_equal. auto.
Qed.
(** all the keyword arguments are used *)
Lemma all_used kws ns : NoDup (map fst kws) -> NoDup ns ->
  (length kws <= length (filter (fun n => match @lookup_kw V n kws with Some _ => true | None => false end) ns))%nat ->
  forall n, In n (map fst kws) -> In n ns.
Proof.
  intros Hk Hn Hl n Hin. set (fl := filter _ ns) in *.
  assert (Hfl : NoDup fl) by (apply NoDup_filter, Hn).
  assert (Inc : incl fl (map fst kws)).
  { intros x Hx. apply filter_In in Hx. destruct Hx as [_ Hx]. destruct (lookup_kw x kws) eqn:E; [|discriminate].
    apply lookup_kw_in in E. apply (in_map fst) in E. exact E. }
  assert (Inc' : incl (map fst kws) fl) by (apply NoDup_length_incl; [exact Hfl|rewrite map_length; exact Hl|exact Inc]).
  apply Inc' in Hin. apply filter_In in Hin. apply Hin.
Qed.

(** methods whose keyword expression is the end of the parameter list *)
Lemma aligned_faithful m d : params m = d ++ kwnames m -> NoDup (params m) -> faithful m.
Proof.
  intros Hp Hnd pos kws vs Hk. unfold call. destruct (Nat.ltb_spec (length (params m)) (length pos)); [discriminate|].
  destruct (fill_args _ _ _) as [[us c]|] eqn:E; [|discriminate]. destruct (Nat.ltb_spec c (length kws)) as [|Hc]; [discriminate|].
  intros [= <-]. destruct (fill_args_spec _ _ _ _ E) as (ns & En & -> & ->).
  unfold arg_names in En. rewrite skipn_app, skipn_repeat, repeat_length in En.
  assert (Ld : (length (params m) - length (kwnames m))%nat = length d) by (rewrite Hp, app_length; lia). rewrite Ld in En.
  rewrite skipn_map in En. apply repeat_none_map in En. destruct En as [Ed En].
  assert (Hd : (length d <= length pos)%nat) by lia.
  assert (Es : skipn (length pos) (params m) = ns).
  { rewrite Hp, skipn_app, <- En. rewrite skipn_all2 by exact Hd. reflexivity. }
  assert (Eall : params m = firstn (length pos) (params m) ++ ns) by (rewrite <- Es, firstn_skipn; reflexivity).
  assert (Lf : length (firstn (length pos) (params m)) = length pos) by (apply firstn_length_le; lia).
  assert (Hnn : NoDup ns /\ forall x, In x ns -> ~ In x (firstn (length pos) (params m))).
  { rewrite Eall in Hnd. apply NoDup_app in Hnd || idtac.
    split.
    - clear - Hnd. revert Hnd. generalize (firstn (length pos) (params m)). intros l. induction l; cbn; auto. intros H; inversion H; auto.
    - intros x Hx Hy. clear - Hnd Hx Hy. revert Hnd Hy. generalize (firstn (length pos) (params m)). intros l.
      induction l as [|y l IH]; cbn; [intros _ []|]. intros H [->|Hy]; inversion H; subst; [|auto].
      match goal with Q : ~ In x _ |- _ => apply Q end. apply in_or_app. auto. }
  destruct Hnn as [Hns Hdis].
  set (val := fun n => match lookup_kw n kws with Some v => v | None => dflt n end).
  split; [|split; [|split]].
  - rewrite app_length, map_length. pose proof (f_equal (@length pname) Eall) as EL. rewrite app_length, Lf in EL. symmetry. exact EL.
  - intros k v Hv. rewrite nth_error_app1; [exact Hv|]. apply nth_error_Some. congruence.
  - intros n v Hin. assert (Hn : In n ns).
    { apply (all_used kws ns Hk Hns Hc). apply (in_map fst) in Hin. exact Hin. }
    unfold got. rewrite Eall. 
    assert (Comb : forall (l : list pname) (q : list V) (l' : list pname) (q' : list V), length l = length q -> combine (l ++ l') (q ++ q') = combine l q ++ combine l' q').
    { induction l as [|x l IH]; intros [|y q] l' q' Hl; cbn [length] in Hl; try discriminate; [reflexivity|]. cbn. rewrite IH by lia. reflexivity. }
    rewrite Comb by exact Lf.
    assert (Skip : forall l1 l2 : list (pname * V), ~ In n (map fst l1) -> lookup_kw n (l1 ++ l2) = lookup_kw n l2).
    { induction l1 as [|[x y] l1 IH]; intros l2 Hn'; [reflexivity|]. cbn [app lookup_kw map fst In] in *. destruct (pname_dec n x); [subst; tauto|]. apply IH. tauto. }
    rewrite Skip.
    + apply lookup_kw_nodup.
      * replace (map fst (combine ns (map val ns))) with ns; [exact Hns|]. clear. induction ns; cbn; congruence.
      * assert (Ev : val n = v) by (unfold val; rewrite (lookup_kw_nodup n v kws Hk Hin); reflexivity).
        rewrite <- Ev. clear - Hn. induction ns as [|x ns IH]; [destruct Hn|]. cbn. destruct Hn as [->|Hn]; auto.
    + intros Hx. assert (Hx' : In n (firstn (length pos) (params m))).
      { clear - Hx. revert Hx. generalize (firstn (length pos) (params m)). intros l. revert pos.
        induction l as [|x l IH]; intros [|y pos]; cbn [combine map fst In]; try tauto. intros [->|H]; [auto|right; eapply IH; exact H]. }
      exact (Hdis n Hn Hx').
  - intros k n Hkn Hge Hnot. rewrite nth_error_app2 by exact Hge. rewrite Eall in Hkn.
    rewrite nth_error_app2 in Hkn by (rewrite Lf; exact Hge). rewrite Lf in Hkn.
    rewrite nth_error_map, Hkn. cbn [option_map]. unfold val. apply lookup_kw_none in Hnot. rewrite Hnot. reflexivity.
Qed.
Ltac nodup_names := repeat (constructor; [cbn [In]; let H := fresh in intros H; repeat (destruct H as [H|H]; [discriminate|]); exact H|]); constructor.
Theorem C80_keywords : faithful m_step_sync /\ faithful m_sync_in /\ faithful m_step_cond.
Proof.
  split; [|split].
  - apply (aligned_faithful m_step_sync [self; opts]); [reflexivity|]. cbn. nodup_names.
  - apply (aligned_faithful m_sync_in [self]); [reflexivity|]. cbn. nodup_names.
  - apply (aligned_faithful m_step_cond [self; opts]); [reflexivity|]. cbn. nodup_names.
Qed.

(** C80: init: arguments given by position, and Courant numbers and chemicals given by name, arrive where they should *)
Theorem C80_init_partial pos kws vs : NoDup (map fst kws) -> call dflt m_init pos kws = Some vs ->
  length vs = 9%nat /\ (forall k v, nth_error pos k = Some v -> nth_error vs k = Some v) /\
  (forall n v, In (n, v) kws -> In n [Cx; Cy; Cz; ambient_chem] -> got m_init vs n = Some v).
Proof.
  intros Hk H.
  (* the same call of a method whose parameters are named as the keyword expression says *)
  set (m' := {| params := [self; p; th; rv; rhod; Cx; Cy; Cz; ambient_chem]; kwnames := kwnames m_init |}).
  assert (F : faithful m') by (apply (aligned_faithful m' [self; p]); [reflexivity|cbn; nodup_names]).
  assert (H' : call dflt m' pos kws = Some vs) by exact H.
  destruct (F pos kws vs Hk H') as (L & P & N & _). split; [exact L|]. split; [exact P|].
  intros n v Hin Hn. specialize (N n v Hin). unfold got in *. cbn [params m' m_init] in *.
  destruct vs as [|v0 [|v1 [|v2 [|v3 [|v4 vs]]]]]; try discriminate L. cbn [combine lookup_kw] in *.
  destruct Hn as [<-|[<-|[<-|[<-|[]]]]]; cbn in N |- *; exact N.
Qed.
(** C80 does not hold for init: its keyword expression has no p, so th, rv and rhod name the next parameter each. A call with
    rhod given by name leaves the density empty and uses it as the pressure; a call with th, rv and rhod given by name is an error;
    the pressure cannot be given by name. *)
Theorem C80_init_refuted (s0 t q r : V) :
  (exists vs, call dflt m_init [s0; t; q] [(rhod, r)] = Some vs /\ got m_init vs rhod = Some (dflt rv) /\ got m_init vs p = Some r) /\
  call dflt m_init [s0] [(th, t); (rv, q); (rhod, r)] = None /\
  (forall pos kws v, In (p, v) kws -> NoDup (map fst kws) -> call dflt m_init pos kws = None).
Proof.
  split; [|split].
  - eexists. split; [reflexivity|split; reflexivity].
  - reflexivity.
  - intros pos kws v Hin Hnd. destruct (call dflt m_init pos kws) as [vs|] eqn:E; [|reflexivity]. exfalso.
    unfold call in E. destruct (_ <? _)%nat; [discriminate|]. destruct (fill_args _ _ _) as [[us c]|] eqn:Ef; [|discriminate].
    destruct (Nat.ltb_spec c (length kws)) as [|Hc]; [discriminate|]. destruct (fill_args_spec _ _ _ _ Ef) as (ns & En & _ & Ec). subst c.
    assert (Hsub : forall x, In x ns -> In x (kwnames m_init)).
    { intros x Hx. assert (Hin' : In (Some x) (skipn (length pos) (arg_names m_init))) by (rewrite En; apply in_map, Hx).
      assert (Hin2 : In (Some x) (arg_names m_init)) by (rewrite <- (firstn_skipn (length pos) (arg_names m_init)); apply in_or_app; right; exact Hin').
      cbn in Hin2. cbn. repeat (destruct Hin2 as [Hin2|Hin2]; [try discriminate; inversion Hin2; subst; tauto|]). destruct Hin2. }
    assert (Hnd2 : NoDup ns).
    { assert (Q : NoDup (map Some ns)).
      { rewrite <- En. remember (arg_names m_init) as l. assert (Hl : exists d, l = [None; None] ++ map Some (kwnames m_init)) by (exists tt; subst; reflexivity).
        destruct Hl as [_ ->]. 
        assert (Hkn : NoDup (map Some (kwnames m_init))).
        { cbn. repeat (constructor; [cbn [In]; intros H0; repeat (destruct H0 as [H0|H0]; [discriminate|]); exact H0|]). constructor. }
        destruct (length pos) as [|[|n]]; [cbn [skipn app] in En; destruct ns; discriminate|cbn [skipn app] in En; destruct ns; discriminate|].
        cbn [skipn app]. clear - Hkn. generalize dependent (map Some (kwnames m_init)). intros l Hl. revert n.
        induction l as [|x l IH]; intros [|n]; cbn [skipn]; auto. inversion Hl; subst. apply IH; assumption. }
      clear - Q. induction ns as [|x ns IH]; [constructor|]. cbn in Q. inversion Q; subst. constructor; [|auto].
      intros Hx. match goal with H : ~ In _ _ |- _ => apply H end. apply in_map, Hx. }
    assert (Hp : In p ns) by (apply (all_used kws ns Hnd Hnd2 Hc); apply (in_map fst) in Hin; exact Hin).
    apply Hsub in Hp. cbn in Hp. repeat (destruct Hp as [Hp|Hp]; [discriminate|]). exact Hp.
Qed.
End Keywords.

(** C80: profiles assigned from Python: after any history of assignments, the options hold what the last one assigned *)
Definition assigned (set : bool -> list R -> list R -> option (list R)) (old : list R) (hist : list (bool * list R)) : list R :=
  fold_left (fun o a => match set (fst a) (snd a) o with Some o' => o' | None => o end) hist old.
Theorem C80_profiles set : set = set_w_LS \/ set = set_SGS_mix_len ->
  forall old hist vec, assigned set old (hist ++ [(true, vec)]) = vec.
Proof. intros [-> | ->] old hist vec; unfold assigned; rewrite fold_left_app; reflexivity. Qed.
(** C80 does not hold for kernel_parameters, nor for dry_distros of the two-moment scheme: assignments accumulate *)
Theorem C80_accumulate_refuted :
  assigned set_kp [] [(true, [1%R]); (true, [2%R])] = [1%R; 2%R] /\
  (forall old vec, set_kp true vec old = Some vec <-> old = []) /\
  (forall modes old, b2m_set_dd modes old = modes <-> old = []).
Proof.
  assert (A : forall T (old vec : list T), old ++ vec = vec <-> old = []).
  { intros T old vec. split; [|intros ->; reflexivity]. intros H. apply (f_equal (@length T)) in H. rewrite app_length in H. destruct old; [reflexivity|cbn in H; lia]. }
  split; [reflexivity|]. split; intros.
  - unfold set_kp. rewrite <- (A R old vec). split; [intros [= H]; exact H|intros ->; reflexivity].
  - unfold b2m_set_dd. apply A.
Qed.

(** C80: operator< of (kappa, rd_insol) is a strict total order *)
Theorem C80_order :
  (forall a, key_ltb a a = false) /\
  (forall a b c, key_ltb a b = true -> key_ltb b c = true -> key_ltb a c = true) /\
  (forall a b, equivalent a b = true <-> a = b).
Proof.
  assert (T : forall a b, key_ltb a b = true <-> (fst a < fst b \/ (fst a = fst b /\ snd a < snd b))%R).
  { intros [x y] [x' y']. unfold key_ltb; cbn [fst snd]. destruct (Reqb x x') eqn:E.
    - apply Reqb_true in E. subst. rewrite Rltb_true. split; [auto|]. intros [H|[_ H]]; [lra|exact H].
    - apply Reqb_false in E. rewrite Rltb_true. split; [auto|]. intros [H|[H _]]; [exact H|congruence]. }
  split; [|split].
  - intros a. destruct (key_ltb a a) eqn:E; [|reflexivity]. apply T in E. lra.
  - intros a b c H1 H2. apply T in H1, H2. apply T. lra.
  - intros [x y] [x' y']. unfold equivalent. rewrite andb_true_iff, !negb_true_iff. split.
    + intros [H1 H2]. destruct (Rtotal_order x x') as [L|[->|L]].
      * assert (key_ltb (x, y) (x', y') = true) by (apply T; auto). congruence.
      * destruct (Rtotal_order y y') as [L|[->|L]]; [|reflexivity|].
        -- assert (key_ltb (x', y) (x', y') = true) by (apply T; auto). congruence.
        -- assert (key_ltb (x', y') (x', y) = true) by (apply T; auto). congruence.
      * assert (key_ltb (x', y') (x, y) = true) by (apply T; auto). congruence.
    + intros E. inversion E; subst. split; (destruct (key_ltb _ _) eqn:Q; [apply T in Q; cbn in Q; lra|reflexivity]).
Qed.
Lemma emplace_in {T} k (v : T) : forall m x, ~ In k (map fst m) -> In x (emplace k v m) <-> x = (k, v) \/ In x m.
Proof.
  destruct C80_order as (_ & _ & Q). induction m as [|[k' v'] r IH]; intros x Hk; cbn [emplace]; [cbn; intuition|].
  cbn [map fst In] in Hk. destruct (equivalent k k') eqn:E; [apply Q in E; exfalso; auto|].
  destruct (key_ltb k k'); cbn [In]; [intuition|]. rewrite IH by tauto. intuition.
Qed.
(** C80: dry_distros and src_dry_distros: after an assignment there is one entry for each item of the dict, and no others; they are
    in the order of operator< *)
Theorem C80_dict T (dict old : list ((R * R) * T)) : NoDup (map fst dict) ->
  (forall x, In x (set_dd dict old) <-> In x dict) /\ length (set_dd dict old) = length dict.
Proof.
  intros Hd. unfold set_dd.
  assert (Len : forall k (v : T) m, ~ In k (map fst m) -> length (emplace k v m) = S (length m)).
  { destruct C80_order as (_ & _ & Q). induction m as [|[k' v'] r IH]; intros Hk; cbn [emplace]; [reflexivity|].
    cbn [map fst In] in Hk. destruct (equivalent k k') eqn:E; [apply Q in E; exfalso; auto|].
    destruct (key_ltb k k'); cbn [length]; [reflexivity|]. rewrite IH by tauto. reflexivity. }
  assert (G : forall d (m : list ((R * R) * T)), NoDup (map fst d) -> (forall k, In k (map fst d) -> ~ In k (map fst m)) ->
    (forall x, In x (fold_left (fun m kv => emplace (fst kv) (snd kv) m) d m) <-> In x d \/ In x m) /\
    length (fold_left (fun m kv => emplace (fst kv) (snd kv) m) d m) = (length d + length m)%nat).
  { induction d as [|[k v] d IH]; intros m Hn Hm; cbn [fold_left].
    - split; [cbn; tauto|reflexivity].
    - cbn [map fst] in Hn. inversion Hn; subst. assert (Hk : ~ In k (map fst m)) by (apply Hm; left; reflexivity).
      destruct (IH (emplace k v m)) as [I1 I2]; [assumption| |].
      + intros k' Hk' Hin. apply in_map_iff in Hin. destruct Hin as ([k2 v2] & E2 & Hin). cbn in E2. subst k2.
        apply emplace_in in Hin; [|exact Hk]. destruct Hin as [E2|Hin]; [inversion E2; subst; auto|].
        apply (Hm k'); [right; exact Hk'|]. apply (in_map fst) in Hin. exact Hin.
      + cbn [fst snd]. split.
        * intros x. rewrite I1, emplace_in by exact Hk. cbn [In]. intuition.
        * rewrite I2, Len by exact Hk. cbn [length]. lia. }
  destruct (G dict [] Hd ltac:(intros k _ [])) as [G1 G2]. split.
  - intros x. rewrite G1. cbn. tauto.
  - rewrite G2. cbn. lia.
Qed.
(** C80: the entries are in the order of operator<, in which they are initialised *)
Theorem C80_sorted T (dict old : list ((R * R) * T)) :
  StronglySorted (fun a b => key_ltb (fst a) (fst b) = true) (set_dd dict old).
Proof.
  destruct C80_order as (_ & Tr & Q). unfold set_dd.
  assert (G : forall d (m : list ((R * R) * T)), StronglySorted (fun a b => key_ltb (fst a) (fst b) = true) m ->
    StronglySorted (fun a b => key_ltb (fst a) (fst b) = true) (fold_left (fun m kv => emplace (fst kv) (snd kv) m) d m)).
  { assert (E1 : forall k (v : T) m, StronglySorted (fun a b => key_ltb (fst a) (fst b) = true) m ->
      StronglySorted (fun a b => key_ltb (fst a) (fst b) = true) (emplace k v m) /\
      (forall k0, key_ltb k0 k = true -> Forall (fun b => key_ltb k0 (fst b) = true) m -> Forall (fun b => key_ltb k0 (fst b) = true) (emplace k v m))).
    { intros k v. induction m as [|[k' v'] r IH]; intros Hs; cbn [emplace].
      - split; [repeat constructor|]. intros k0 H0 _. repeat constructor. exact H0.
      - inversion Hs as [|? ? Hs' Hf]; subst. destruct (IH Hs') as [I1 I2].
        destruct (equivalent k k') eqn:E; [split; [exact Hs|auto]|]. destruct (key_ltb k k') eqn:L.
        + split.
          * constructor; [exact Hs|]. constructor; [exact L|]. eapply Forall_impl; [|exact Hf]. cbn. intros b Hb. eapply Tr; eassumption.
          * intros k0 H0 Hf0. constructor; [exact H0|exact Hf0].
        + assert (L' : key_ltb k' k = true).
          { unfold equivalent in E. rewrite L in E. cbn in E. destruct (key_ltb k' k); [reflexivity|discriminate]. }
          split.
          * constructor; [exact I1|]. apply I2; [exact L'|exact Hf].
          * intros k0 H0 Hf0. inversion Hf0; subst. constructor; [assumption|]. apply I2; assumption. }
    induction d as [|[k v] d IH]; intros m Hm; cbn [fold_left]; [exact Hm|]. apply IH. apply E1, Hm. }
  apply G. constructor.
Qed.
(** C80, instance *)
Theorem C80_instance :
  call (fun _ => 0%nat) m_step_sync [1; 2; 3; 4]%nat [(Cz, 7%nat); (Cx, 6%nat)] = Some [1; 2; 3; 4; 0; 6; 0; 7; 0; 0]%nat /\
  call (fun _ => 0%nat) m_init [1; 2; 3; 4]%nat [(Cz, 7%nat); (Cx, 6%nat)] = Some [1; 2; 3; 4; 0; 6; 0; 7; 0]%nat /\
  call (fun _ => 0%nat) m_step_cond [1; 2; 3]%nat [(th, 5%nat)] = None.
Proof. repeat split. Qed.

Print Assumptions C79_fields_partial.
Print Assumptions C79_profiles_partial.
Print Assumptions C79_parcel.
Print Assumptions C79_only.
Print Assumptions C79_refused_partial.
Print Assumptions C79_dimensions_refuted.
Print Assumptions C79_size_refuted.
Print Assumptions C79_profile_halo_refuted.
Print Assumptions C79_one_element_stride_refuted.
Print Assumptions C79_one_cell_refuted.
Print Assumptions C79_written_partial.
Print Assumptions C79_outbuf.
Print Assumptions C79_instance.
Print Assumptions C80_keywords.
Print Assumptions C80_init_partial.
Print Assumptions C80_init_refuted.
Print Assumptions C80_profiles.
Print Assumptions C80_accumulate_refuted.
Print Assumptions C80_order.
Print Assumptions C80_dict.
Print Assumptions C80_sorted.
Print Assumptions C80_instance.
