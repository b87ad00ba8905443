(** C82: the tables of collision efficiencies that the library comes with. *)
From Coq Require Import List Arith NArith ZArith Lia Reals Lra Psatz Bool.
From Flocq Require Import Core.
From Verif Require Import Base BaseProofs KernelModel KernelProps KernelFloat EffHall EffHallDavis EffVohlDavis EffHallPinskySc
  EffHallPinsky1000 EffHallPinskyCb EffModel.
Import ListNotations.
Local Open Scope R_scope.

(** kernels with a table *)
Definition tabulated (k : kernel_name) : Prop := match k with Golovin | Geometric | Long => False | _ => True end.
(** those based on Hall's efficiencies *)
Definition of_Hall (k : kernel_name) : Prop := tabulated k /\ k <> VohlDavis.
(** the efficiency used for droplets of radii r1 and r2 [m], in double precision *)
Definition efficiency (tie : Z -> bool) (k : kernel_name) (r1 r2 : R) : option R := interpolated_efficiency (double tie) 0 (shipped k) r1 r2.
(** micrometres *)
Definition um : R := / 1000000.

(** ** checking a property of all entries of a triangular table by computation *)
Fixpoint tri {A} (P : nat -> nat -> A -> bool) (M m : nat) (l : list A) : bool :=
  match l with [] => true | x :: r => P M m x && (if (m =? M)%nat then tri P (S M) 0 r else tri P M (S m) r) end.
Lemma tri_spec {A} (P : nat -> nat -> A -> bool) d l : forall M0 m0, (m0 <= M0)%nat -> tri P M0 m0 l = true ->
  forall k M m, (k < length l)%nat -> (m <= M)%nat -> (M * (M + 1) + 2 * m = M0 * (M0 + 1) + 2 * m0 + 2 * k)%nat -> P M m (nth k l d) = true.
Proof.
  induction l as [|x r IH]; intros M0 m0 H0 H k M m Hk Hm E; [cbn in Hk; lia|].
  cbn [tri] in H. apply andb_true_iff in H. destruct H as [HP HR]. destruct k as [|k].
  - assert (U : forall a b c d, (b <= a)%nat -> (a * (a + 1) + 2 * b = c * (c + 1) + 2 * d)%nat -> (c <= a)%nat).
    { clear. intros a b c d Hb E. destruct (Nat.le_gt_cases c a) as [|Hc]; [assumption|exfalso].
      assert (a + 1 <= c)%nat by lia. assert ((a + 1) * (a + 2) <= c * (c + 1))%nat by (apply Nat.mul_le_mono; lia). nia. }
    assert (M = M0) by (apply Nat.le_antisymm; [apply (U M0 m0 M m); lia|apply (U M m M0 m0); lia]). subst M0.
    assert (m = m0) by lia. subst m0. exact HP.
  - cbn [nth length] in *. destruct (Nat.eqb_spec m0 M0) as [->|Hn].
    + apply (IH (S M0) 0%nat ltac:(lia) HR k M m ltac:(lia) Hm). lia.
    + apply (IH M0 (S m0) ltac:(lia) HR k M m ltac:(lia) Hm). lia.
Qed.
(** the entries of a table *)
Definition entryN (t : list N) (i j : nat) : N := nth (Nat.max i j * (Nat.max i j + 1) / 2 + Nat.min i j) t 0%N.
Lemma entry_N t i j : entry (map (fun n => N2R n / 1000000) t) i j = N2R (entryN t i j) / 1000000.
Proof.
  unfold entry, entryN. set (k := (_ / 2 + _)%nat). cbv zeta.
  transitivity (nth k (map (fun n => N2R n / 1000000) t) ((fun n => N2R n / 1000000) 0%N)); [f_equal; unfold N2R; cbn [Z.of_N]; lra|].
  exact (map_nth (fun n => N2R n / 1000000) t 0%N k).
Qed.
Lemma twice_half M : (2 * (M * (M + 1) / 2) = M * (M + 1))%nat.
Proof.
  pose proof (Nat.div_mod_eq (M * (M + 1)) 2). assert (Z : (M * (M + 1) mod 2 = 0)%nat); [|lia].
  rewrite Nat.add_1_r. destruct (Nat.Even_or_Odd M) as [[q ->]|[q ->]].
  - replace (2 * q * S (2 * q))%nat with ((q * S (2 * q)) * 2)%nat by ring. apply Nat.mod_mul. discriminate.
  - replace ((2 * q + 1) * S (2 * q + 1))%nat with (((2 * q + 1) * (q + 1)) * 2)%nat by ring. apply Nat.mod_mul. discriminate.
Qed.
Lemma tri_entry (P : nat -> nat -> N -> bool) t : length t = table_size -> tri P 0 0 t = true ->
  forall i j, (i <= 200)%nat -> (j <= 200)%nat -> P (Nat.max i j) (Nat.min i j) (entryN t i j) = true.
Proof.
  intros L H i j Hi Hj. unfold entryN. set (M := Nat.max i j). set (m := Nat.min i j).
  assert (m <= M)%nat by (unfold m, M; lia). assert (M <= 200)%nat by (unfold M; lia).
  assert (E := twice_half M).
  apply (tri_spec P 0%N t 0 0 ltac:(lia) H); [rewrite L; apply triangle_lt; lia|assumption|lia].
Qed.

(** ** what is checked *)
(** at most 4; at most 1 unless the smaller radius is above 35 and the greater one below 100 micrometres; 1 if both are at least 100 *)
Definition P_range (M m : nat) (x : N) : bool :=
  (x <=? 4000000)%N && ((x <=? 1000000)%N || ((35 <? m)%nat && (M <? 100)%nat)) && ((m <? 100)%nat || (x =? 1000000)%N).
(** no collection of small droplets by big drops (node 120 is 300 micrometres) *)
Definition P_gap (M m : nat) (x : N) : bool := (M <? 120)%nat || (14 <? m)%nat || (x =? 0)%N.
Fixpoint agree (from M m : nat) (l l' : list N) : bool :=
  match l, l' with
  | x :: r, y :: r' => ((M <? from)%nat || (x =? y)%N) && (if (m =? M)%nat then agree from (S M) 0 r r' else agree from M (S m) r r')
  | [], [] => true
  | _, _ => false
  end.
Lemma agree_tri from l : forall l' M m, agree from M m l l' = true ->
  tri (fun M m p => (M <? from)%nat || (fst p =? snd p)%N) M m (combine l l') = true.
Proof.
  induction l as [|x r IH]; intros [|y r'] M m H; try reflexivity; try discriminate. cbn [agree combine tri fst snd] in *.
  apply andb_true_iff in H. destruct H as [-> H]. cbn [andb]. destruct (m =? M)%nat; apply IH, H.
Qed.
Definition size_ok (t : list N) : bool := (N.of_nat (length t) =? 20301)%N.
Definition check_all (t1 t2 t3 t4 t5 t6 : list N) : bool :=
  forallb (fun t => size_ok t && tri P_range 0 0 t) [t1; t2; t3; t4; t5; t6] && forallb (fun t => tri P_gap 0 0 t) [t1; t2; t4; t5; t6] &&
  agree 31 0 0 t2 t1 && forallb (fun t => agree 22 0 0 t t1) [t4; t5; t6].
Lemma checked : check_all eff_Hall eff_HallDavis eff_VohlDavis eff_HallPinskySc eff_HallPinsky1000 eff_HallPinskyCb = true.
Proof. vm_compute. reflexivity. Qed.

(** ** from the checks to the efficiencies *)
Lemma ok_size t : size_ok t = true -> length t = table_size.
Proof. unfold size_ok, table_size. intros H. apply N.eqb_eq in H. lia. Qed.
Definition pick (t1 t2 t3 t4 t5 t6 : list N) (k : kernel_name) : list N :=
  match k with
  | Hall | OnishiHall => t1 | HallDavis | OnishiHallDavis => t2 | VohlDavis => t3 | HallPinskySc => t4 | HallPinsky1000 => t5 | HallPinskyCb => t6
  | Golovin | Geometric | Long => []
  end.
Lemma pick_checks t1 t2 t3 t4 t5 t6 k : check_all t1 t2 t3 t4 t5 t6 = true -> tabulated k ->
  length (pick t1 t2 t3 t4 t5 t6 k) = table_size /\ tri P_range 0 0 (pick t1 t2 t3 t4 t5 t6 k) = true /\
  (k <> VohlDavis -> tri P_gap 0 0 (pick t1 t2 t3 t4 t5 t6 k) = true).
Proof.
  intros C H. unfold check_all in C. cbn [forallb] in C. rewrite !andb_true_r in C.
  repeat match goal with C : _ && _ = true |- _ => apply andb_true_iff in C; destruct C end.
  destruct k; try (exfalso; exact H); unfold pick; (split; [apply ok_size; assumption|split; [assumption|]]); intros NV; try assumption; exfalso; apply NV; reflexivity.
Qed.
Lemma pick_agree t1 t2 t3 t4 t5 t6 k from : check_all t1 t2 t3 t4 t5 t6 = true ->
  (k = HallDavis \/ k = OnishiHallDavis) /\ from = 31%nat \/ (k = HallPinskySc \/ k = HallPinsky1000 \/ k = HallPinskyCb) /\ from = 22%nat ->
  agree from 0 0 (pick t1 t2 t3 t4 t5 t6 k) t1 = true.
Proof.
  intros C H. unfold check_all in C. cbn [forallb] in C. rewrite !andb_true_r in C.
  repeat match goal with C : _ && _ = true |- _ => apply andb_true_iff in C; destruct C end.
  destruct H as [([-> | ->] & ->)|([-> |[-> | ->]] & ->)]; unfold pick; assumption.
Qed.
Lemma picked k : shipped_millionths k = pick eff_Hall eff_HallDavis eff_VohlDavis eff_HallPinskySc eff_HallPinsky1000 eff_HallPinskyCb k.
Proof. destruct k; exact eq_refl. Qed.
Opaque eff_Hall eff_HallDavis eff_VohlDavis eff_HallPinskySc eff_HallPinsky1000 eff_HallPinskyCb.
Lemma shipped_checks k : tabulated k -> length (shipped_millionths k) = table_size /\ tri P_range 0 0 (shipped_millionths k) = true /\
  (k <> VohlDavis -> tri P_gap 0 0 (shipped_millionths k) = true).
Proof. rewrite picked. apply pick_checks. exact checked. Qed.
Lemma shipped_agree k from :
  (k = HallDavis \/ k = OnishiHallDavis) /\ from = 31%nat \/ (k = HallPinskySc \/ k = HallPinsky1000 \/ k = HallPinskyCb) /\ from = 22%nat ->
  agree from 0 0 (shipped_millionths k) (shipped_millionths Hall) = true.
Proof. rewrite !picked. apply pick_agree. exact checked. Qed.
Opaque shipped_millionths.
Lemma shipped_length k : tabulated k -> length (shipped k) = table_size.
Proof. intros H. unfold shipped. rewrite map_length. apply (shipped_checks k H). Qed.

(** the nodes depend on the radii only *)
Lemma nodes rnd r1 r2 : 0 <= r1 -> 0 <= r2 -> 0 <= rnd (1100 - 1 / 1000000) < 1100 ->
  exists x1 x2 i j,
    in_range (rnd (1100 - 1 / 1000000)) r1 x1 /\ in_range (rnd (1100 - 1 / 1000000)) r2 x2 /\ (i < 200)%nat /\ (j < 200)%nat /\
    node i <= x1 < node (S i) /\ node j <= x2 < node (S j) /\
    forall user table, length table = table_size ->
      interpolated_efficiency rnd (length user) (user ++ table) r1 r2 =
        Some (bilinear table i j ((x1 - node i) / (node (S i) - node i)) ((x2 - node j) / (node (S j) - node j))).
Proof.
  intros H1 H2 Hr.
  assert (Q : forall r, 0 <= r -> in_range (rnd (1100 - 1 / 1000000)) r (limited rnd (r * 1000000)) /\ 0 <= limited rnd (r * 1000000) < 1100).
  { intros r Hp. unfold limited, in_range, r_max. destruct (Rleb 1100 (r * 1000000)) eqn:E.
    - apply Rleb_true in E. split; [right; split; [exact E|reflexivity]|exact Hr].
    - apply Rleb_false in E. split; [left; split; [lra|reflexivity]|lra]. }
  destruct (Q r1 H1) as (R1 & B1). destruct (Q r2 H2) as (R2 & B2). unfold interpolated_efficiency.
  set (x1 := limited rnd (r1 * 1000000)) in *. set (x2 := limited rnd (r2 * 1000000)) in *.
  destruct (left_node_spec x1 B1) as (i & Hi & Ni & Ni' & Bi & Ki & Ki'). destruct (left_node_spec x2 B2) as (j & Hj & Nj & Nj' & Bj & Kj & Kj').
  exists x1, x2, i, j. split; [exact R1|]. split; [exact R2|]. split; [exact Hi|]. split; [exact Hj|]. split; [exact Bi|]. split; [exact Bj|].
  intros user table L. cbv zeta. unfold at_node. rewrite Ki, Ki', Kj, Kj'. rewrite !vector_index_entry by (exact L || lia). rewrite Ni, Ni', Nj, Nj'.
  replace (INR (node_dist x1)) with (node (S i) - node i) by (rewrite <- Ni, <- Ni', plus_INR; lra).
  replace (INR (node_dist x2)) with (node (S j) - node j) by (rewrite <- Nj, <- Nj', plus_INR; lra).
  f_equal. unfold bilinear, lerp. field. lra.
Qed.
Lemma node_mono a b : (a <= b)%nat -> node a <= node b.
Proof.
  intros Hab. destruct (Nat.le_gt_cases b 100) as [Hb|Hb].
  - rewrite !node_le_100 by lia. now apply le_INR.
  - rewrite (node_ge_100 b) by lia. assert (0 <= INR (b - 100)) by apply pos_INR. destruct (Nat.le_gt_cases a 100) as [Ha|Ha].
    + rewrite node_le_100 by lia. apply le_INR in Ha. rewrite (INR_Z 100 100 eq_refl) in Ha. lra.
    + rewrite node_ge_100 by lia. assert (INR (a - 100) <= INR (b - 100)) by (apply le_INR; lia). lra.
Qed.
(** a radius at or above a node, or below it *)
Lemma above_node top r x i n : 1099 <= top -> (n < 200)%nat -> in_range top r x -> node i <= x < node (S i) -> node n * um <= r -> (n <= i)%nat.
Proof.
  intros Ht Hn Hr Hi H. destruct (Nat.le_gt_cases n i) as [|Hl]; [assumption|exfalso].
  pose proof (node_mono (S i) n ltac:(lia)) as N. pose proof (node_mono n 199 ltac:(lia)) as N9.
  assert (E9 : node 199 = 1090) by (rewrite node_ge_100 by lia; rewrite (INR_Z (199 - 100) 99 eq_refl); lra). unfold um in H.
  destruct Hr as [(A & ->)|(A & ->)]; lra.
Qed.
Lemma below_node top r x i n : 1099 <= top -> (n < 200)%nat -> in_range top r x -> node i <= x < node (S i) -> r < node n * um -> (S i <= n)%nat.
Proof.
  intros Ht Hn Hr Hi H. destruct (Nat.le_gt_cases (S i) n) as [|Hl]; [assumption|exfalso].
  pose proof (node_mono n i ltac:(lia)) as N. pose proof (node_mono n 199 ltac:(lia)) as N9.
  assert (E9 : node 199 = 1090) by (rewrite node_ge_100 by lia; rewrite (INR_Z (199 - 100) 99 eq_refl); lra). unfold um in H.
  destruct Hr as [(A & ->)|(A & ->)]; lra.
Qed.
Lemma double_top tie : 1099 <= double tie (1100 - 1 / 1000000).
Proof.
  assert (V : Valid_exp (FLT_exp (-1074) 53)) by (apply FLT_exp_valid; reflexivity).
  assert (G : generic_format radix2 (FLT_exp (-1074) 53) 1099).
  { replace 1099 with (F2R (Float radix2 1099 0)) by (unfold F2R; cbn [Fnum Fexp]; change (bpow radix2 0) with 1; lra). apply generic_format_F2R. intros _. unfold cexp.
    assert (Em : mag radix2 (F2R (Float radix2 1099 0)) = 11%Z :> Z).
    { apply mag_unique. unfold F2R. cbn [Fnum Fexp]. change (bpow radix2 0) with 1. rewrite Rabs_pos_eq by lra. change (bpow radix2 (11 - 1)) with 1024. change (bpow radix2 11) with 2048. lra. }
    rewrite Em. vm_compute. discriminate. }
  unfold double. rewrite <- (round_generic radix2 (FLT_exp (-1074) 53) (Znearest tie) 1099 G) at 1. apply round_le; [exact V|apply valid_rnd_N|]. lra.
Qed.

(** the form in which the theorems below use these facts *)
Lemma efficiency_form tie r1 r2 : 0 <= r1 -> 0 <= r2 -> exists i j s t,
  (i < 200)%nat /\ (j < 200)%nat /\ 0 <= s <= 1 /\ 0 <= t <= 1 /\
  (forall n, (n < 200)%nat -> (node n * um <= r1 -> (n <= i)%nat) /\ (r1 < node n * um -> (S i <= n)%nat) /\
                             (node n * um <= r2 -> (n <= j)%nat) /\ (r2 < node n * um -> (S j <= n)%nat)) /\
  forall k, tabulated k -> efficiency tie k r1 r2 = Some (bilinear (shipped k) i j s t).
Proof.
  intros H1 H2. destruct (nodes (double tie) r1 r2 H1 H2 (double_limit tie)) as (x1 & x2 & i & j & R1 & R2 & Hi & Hj & Bi & Bj & E).
  exists i, j, ((x1 - node i) / (node (S i) - node i)), ((x2 - node j) / (node (S j) - node j)).
  split; [exact Hi|]. split; [exact Hj|]. split; [apply frac_bounds, Bi|]. split; [apply frac_bounds, Bj|]. split.
  - intros n Hn. pose proof (double_top tie) as Ht. split; [apply (above_node _ _ _ _ _ Ht Hn R1 Bi)|]. split; [apply (below_node _ _ _ _ _ Ht Hn R1 Bi)|].
    split; [apply (above_node _ _ _ _ _ Ht Hn R2 Bj)|apply (below_node _ _ _ _ _ Ht Hn R2 Bj)].
  - intros k Hk. exact (E [] (shipped k) (shipped_length k Hk)).
Qed.
Lemma bilinear_bounds t i j a b lo hi : 0 <= a <= 1 -> 0 <= b <= 1 ->
  lo <= entry t i j <= hi -> lo <= entry t (S i) j <= hi -> lo <= entry t i (S j) <= hi -> lo <= entry t (S i) (S j) <= hi ->
  lo <= bilinear t i j a b <= hi.
Proof. intros. unfold bilinear. apply lerp_bounds; try assumption; apply lerp_bounds; assumption. Qed.
Lemma range_entry k i j : tabulated k -> (i <= 200)%nat -> (j <= 200)%nat ->
  0 <= entry (shipped k) i j <= 4 /\ ((Nat.min i j <= 35)%nat \/ (100 <= Nat.max i j)%nat -> entry (shipped k) i j <= 1) /\
  ((100 <= Nat.min i j)%nat -> entry (shipped k) i j = 1).
Proof.
  intros Hk Hi Hj. destruct (shipped_checks k Hk) as (L & C & _). pose proof (tri_entry _ _ L C i j Hi Hj) as Q. unfold shipped. rewrite entry_N.
  set (x := entryN _ i j) in *. clearbody x. unfold P_range in Q. apply andb_true_iff in Q. destruct Q as [Q Q3]. apply andb_true_iff in Q. destruct Q as [Q1 Q2].
  apply N.leb_le in Q1. pose proof (N2R_nonneg x) as Nx. apply N2R_le in Q1. replace (N2R 4000000) with 4000000 in Q1 by (unfold N2R; cbn; lra).
  split; [lra|]. split.
  - intros H. apply orb_true_iff in Q2. destruct Q2 as [Q2|Q2].
    + apply N.leb_le in Q2. apply N2R_le in Q2. replace (N2R 1000000) with 1000000 in Q2 by (unfold N2R; cbn; lra). lra.
    + apply andb_true_iff in Q2. destruct Q2 as [A B]. apply Nat.ltb_lt in A, B. lia.
  - intros H. apply orb_true_iff in Q3. destruct Q3 as [Q3|Q3]; [apply Nat.ltb_lt in Q3; lia|]. apply N.eqb_eq in Q3. rewrite Q3.
    replace (N2R 1000000) with 1000000 by (unfold N2R; cbn; lra). lra.
Qed.

(** C82, range: with every kernel that uses a table and for all radii, the efficiency is found in the table; it is at most 4, and at
    most 1 unless both radii are between 35 and 100 micrometres; two drops of at least 100 micrometres collide with efficiency 1 *)
Theorem C82_range : forall tie k r1 r2, tabulated k -> 0 <= r1 -> 0 <= r2 ->
  exists e, efficiency tie k r1 r2 = Some e /\ 0 <= e <= 4 /\
    (Rmin r1 r2 < 35 * um \/ 100 * um <= Rmax r1 r2 -> e <= 1) /\ (100 * um <= Rmin r1 r2 -> e = 1).
Proof.
  intros tie k r1 r2 Hk H1 H2. destruct (efficiency_form tie r1 r2 H1 H2) as (i & j & s & t & Hi & Hj & Hs & Ht & Hn & E).
  exists (bilinear (shipped k) i j s t). split; [apply E, Hk|].
  assert (N35 : node 35 = 35) by (rewrite node_le_100 by lia; rewrite (INR_Z 35 35 eq_refl); reflexivity).
  assert (N100 : node 100 = 100) by (rewrite node_le_100 by lia; rewrite (INR_Z 100 100 eq_refl); reflexivity).
  destruct (Hn 35%nat ltac:(lia)) as (A1 & A2 & A3 & A4). destruct (Hn 100%nat ltac:(lia)) as (B1 & B2 & B3 & B4). rewrite N35 in *. rewrite N100 in *.
  split; [|split].
  - apply bilinear_bounds; try assumption; apply (range_entry k); auto; lia.
  - intros H. apply (bilinear_bounds (shipped k) i j s t 0 1 Hs Ht).
    all: (split; [apply (range_entry k); auto; lia|]; apply (range_entry k); [exact Hk|lia|lia|]).
    all: destruct H as [H|H]; [left|right].
    all: first [revert H; unfold Rmin; destruct (Rle_dec r1 r2); intros H; [specialize (A2 H)|specialize (A4 H)]; lia
               |revert H; unfold Rmax; destruct (Rle_dec r1 r2); intros H; [specialize (B3 H)|specialize (B1 H)]; lia].
  - intros H. assert (100 <= i)%nat by (apply B1; pose proof (Rmin_l r1 r2); lra). assert (100 <= j)%nat by (apply B3; pose proof (Rmin_r r1 r2); lra).
    assert (Q : forall a b, (100 <= a <= 200)%nat -> (100 <= b <= 200)%nat -> entry (shipped k) a b = 1).
    { intros a b Ha Hb. apply (range_entry k a b Hk); lia. }
    unfold bilinear, lerp. rewrite !Q by lia. ring.
Qed.

(** C82, small droplets: with all kernels based on Hall's efficiencies, drops of 300 micrometres or more never collect droplets
    below 14 micrometres *)
Lemma gap_entry k i j : of_Hall k -> (i <= 200)%nat -> (j <= 200)%nat -> (120 <= Nat.max i j)%nat -> (Nat.min i j <= 14)%nat -> entry (shipped k) i j = 0.
Proof.
  intros (Hk & HV) Hi Hj HM Hm. destruct (shipped_checks k Hk) as (L & _ & C). pose proof (tri_entry _ _ L (C HV) i j Hi Hj) as Q. unfold shipped. rewrite entry_N.
  set (x := entryN _ i j) in *. clearbody x. unfold P_gap in Q. rewrite !orb_true_iff in Q. destruct Q as [[Q|Q]|Q].
  - apply Nat.ltb_lt in Q. lia.
  - apply Nat.ltb_lt in Q. lia.
  - apply N.eqb_eq in Q. rewrite Q. unfold N2R. cbn [Z.of_N]. lra.
Qed.
Lemma gap_efficiency tie k r1 r2 : of_Hall k -> 0 <= r1 -> 0 <= r2 -> 300 * um <= Rmax r1 r2 -> Rmin r1 r2 < 14 * um -> efficiency tie k r1 r2 = Some 0.
Proof.
  intros Hk H1 H2 HM Hm. destruct (efficiency_form tie r1 r2 H1 H2) as (i & j & s & t & Hi & Hj & Hs & Ht & Hn & E).
  rewrite (E k (proj1 Hk)). f_equal.
  assert (N14 : node 14 = 14) by (rewrite node_le_100 by lia; rewrite (INR_Z 14 14 eq_refl); reflexivity).
  assert (N120 : node 120 = 300) by (rewrite node_ge_100 by lia; rewrite (INR_Z (120 - 100) 20 eq_refl); lra).
  destruct (Hn 14%nat ltac:(lia)) as (A1 & A2 & A3 & A4). destruct (Hn 120%nat ltac:(lia)) as (B1 & B2 & B3 & B4). rewrite N14 in *. rewrite N120 in *.
  assert (Q : (120 <= i /\ S j <= 14 \/ 120 <= j /\ S i <= 14)%nat).
  { revert HM Hm. unfold Rmax, Rmin. destruct (Rle_dec r1 r2); intros HM Hm; [right|left]; auto. }
  unfold bilinear, lerp. rewrite !(gap_entry k) by (assumption || lia). ring.
Qed.

(** C82, variants: from some radius of the greater droplet on, the variants of Hall's table are Hall's table *)
Definition same_from (k : kernel_name) : option R :=
  match k with HallDavis => Some (31 * um) | HallPinskySc | HallPinsky1000 | HallPinskyCb => Some (22 * um) | _ => None end.
Lemma agree_entry k from i j : (k = HallDavis \/ k = OnishiHallDavis) /\ from = 31%nat \/ (k = HallPinskySc \/ k = HallPinsky1000 \/ k = HallPinskyCb) /\ from = 22%nat ->
  (i <= 200)%nat -> (j <= 200)%nat -> (from <= Nat.max i j)%nat -> entry (shipped k) i j = entry (shipped Hall) i j.
Proof.
  intros Hk Hi Hj Hf. pose proof (agree_tri _ _ _ _ _ (shipped_agree k from Hk)) as C.
  assert (Tk : tabulated k) by (destruct Hk as [([-> | ->] & _)|([-> |[-> | ->]] & _)]; exact I).
  destruct (shipped_checks k Tk) as (L & _). destruct (shipped_checks Hall I) as (L' & _).
  unfold shipped. rewrite !entry_N. f_equal. f_equal. unfold entryN.
  set (M := Nat.max i j) in *. set (m := Nat.min i j). assert (m <= M)%nat by (unfold m, M; lia). assert (M <= 200)%nat by (unfold M; lia).
  assert (E : (2 * (M * (M + 1) / 2) = M * (M + 1))%nat) by apply twice_half.
  assert (Q := tri_spec _ (0%N, 0%N) _ 0 0 (le_n 0) C (M * (M + 1) / 2 + m) M m).
  assert (B : (M * (M + 1) / 2 + m < table_size)%nat) by (apply triangle_lt; lia).
  cbv beta in Q. rewrite combine_nth in Q by (rewrite L, L'; reflexivity). cbn [fst snd] in Q.
  specialize (Q ltac:(rewrite combine_length, L, L'; lia) ltac:(lia) ltac:(lia)). apply orb_true_iff in Q. destruct Q as [Q|Q].
  - apply Nat.ltb_lt in Q. lia.
  - apply N.eqb_eq in Q. exact Q.
Qed.
Lemma same_efficiency tie k from r1 r2 : (k = HallDavis \/ k = OnishiHallDavis) /\ from = 31%nat \/ (k = HallPinskySc \/ k = HallPinsky1000 \/ k = HallPinskyCb) /\ from = 22%nat ->
  0 <= r1 -> 0 <= r2 -> INR from * um <= Rmax r1 r2 -> efficiency tie k r1 r2 = efficiency tie Hall r1 r2.
Proof.
  intros Hk H1 H2 HM. destruct (efficiency_form tie r1 r2 H1 H2) as (i & j & s & t & Hi & Hj & Hs & Ht & Hn & E).
  assert (Tk : tabulated k) by (destruct Hk as [([-> | ->] & _)|([-> |[-> | ->]] & _)]; exact I).
  assert (Hf : (from <= 31)%nat) by (destruct Hk as [(_ & ->)|(_ & ->)]; lia).
  rewrite (E k Tk), (E Hall I). f_equal. destruct (Hn from ltac:(lia)) as (B1 & B2 & B3 & B4). rewrite node_le_100 in * by lia.
  assert (Q : (from <= i \/ from <= j)%nat). { revert HM. unfold Rmax. destruct (Rle_dec r1 r2); intros HM; [right|left]; auto. }
  unfold bilinear, lerp. rewrite !(agree_entry k from) by (exact Hk || lia). reflexivity.
Qed.

(** ** the kernels themselves *)
(** one parameter of the user before the table does not matter *)
Lemma shifted_efficiency tie k Re r1 r2 : tabulated k -> 0 <= r1 -> 0 <= r2 ->
  interpolated_efficiency (double tie) 1 (Re :: shipped k) r1 r2 = efficiency tie k r1 r2.
Proof.
  intros Hk H1 H2. destruct (nodes (double tie) r1 r2 H1 H2 (double_limit tie)) as (x1 & x2 & i & j & _ & _ & _ & _ & _ & _ & E).
  unfold efficiency. pose proof (E [Re] (shipped k) (shipped_length k Hk)) as A. pose proof (E [] (shipped k) (shipped_length k Hk)) as B.
  cbn [app length] in A, B. rewrite A, B. reflexivity.
Qed.
Definition radius (a : ksd) : R := sqrt (k_rw2 a).

(** with a kernel of Hall, Davis, Vohl or Pinsky, the value exists and is between zero and four times that of the geometric kernel;
    at most once if the smaller droplet is below 35 or the greater at least 100 micrometres; exactly once from 100 micrometres on *)
Theorem C82_kernel : forall tie k turb user u air a b,
  init_kernel k turb user shipped = Some u -> tabulated k -> k <> OnishiHall -> k <> OnishiHallDavis -> 0 <= k_rw2 a -> 0 <= k_rw2 b ->
  exists v, calc (double tie) u air a b = Some v /\ 0 <= v <= 4 * geometric a b /\
    (Rmin (radius a) (radius b) < 35 * um \/ 100 * um <= Rmax (radius a) (radius b) -> v <= geometric a b) /\
    (100 * um <= Rmin (radius a) (radius b) -> v = geometric a b).
Proof.
  intros tie k turb user u air a b Hi Hk NO NO' Ha Hb.
  assert (U : u = UsesTable (shipped k)).
  { destruct k; try (exfalso; exact Hk); try (exfalso; now apply NO); try (exfalso; now apply NO'); destruct user; cbn [init_kernel] in Hi; congruence. }
  subst u. cbn [calc]. unfold geometric_with_efficiencies.
  destruct (C82_range tie k (radius a) (radius b) Hk (sqrt_pos _) (sqrt_pos _)) as (e & E & B & B1 & B2). unfold efficiency, radius in E. rewrite E.
  exists (e * geometric a b). split; [reflexivity|]. pose proof (geometric_nonneg a b Ha Hb) as G.
  split; [split; [apply Rmult_le_pos; lra|apply Rmult_le_compat_r; lra]|]. split.
  - intros H. specialize (B1 H). apply Rle_trans with (1 * geometric a b); [apply Rmult_le_compat_r; lra|lra].
  - intros H. rewrite (B2 H). ring.
Qed.
(** with any kernel based on Hall's efficiencies, with turbulence or without *)
Theorem C82_gap : forall tie k turb user u air a b v,
  init_kernel k turb user shipped = Some u -> of_Hall k -> 300 * um <= Rmax (radius a) (radius b) -> Rmin (radius a) (radius b) < 14 * um ->
  calc (double tie) u air a b = Some v -> v = 0.
Proof.
  intros tie k turb user u air a b v Hi Hk HM Hm Hc. pose proof (gap_efficiency tie k _ _ Hk (sqrt_pos _) (sqrt_pos _) HM Hm) as G.
  destruct k; try (exfalso; exact (proj1 Hk)); try (exfalso; now apply (proj2 Hk)).
  all: destruct user as [|Re [|? ?]]; cbn [init_kernel] in Hi; try discriminate.
  all: try (injection Hi as <-; cbn [calc] in Hc; unfold geometric_with_efficiencies in Hc; unfold efficiency in G; rewrite G in Hc; injection Hc as <-; ring).
  all: destruct turb; [|discriminate]; injection Hi as <-; cbn [calc app] in Hc; unfold onishi in Hc; cbn [nth_error obind] in Hc.
  all: destruct (onishi_nograv _ _ _ _ _ _) as [ng|]; [|discriminate]; cbn [obind] in Hc.
  all: rewrite shifted_efficiency in Hc by (exact I || apply sqrt_pos); rewrite G in Hc; cbn [obind] in Hc.
  all: destruct (wang _ _ _) as [w|]; [|discriminate]; cbn [obind] in Hc; injection Hc as <-; ring.
Qed.
(** the variants by Davis and by Pinsky give what Hall's kernel gives when the greater droplet has at least 31 or 22 micrometres *)
Theorem C82_variants : forall tie k r u u' user turb air a b,
  same_from k = Some r -> init_kernel k turb user shipped = Some u -> init_kernel Hall turb user shipped = Some u' ->
  r <= Rmax (radius a) (radius b) -> calc (double tie) u air a b = calc (double tie) u' air a b.
Proof.
  intros tie k r u u' user turb air a b Hs Hi Hi' HM.
  assert (Q : exists from, ((k = HallDavis \/ k = OnishiHallDavis) /\ from = 31%nat \/ (k = HallPinskySc \/ k = HallPinsky1000 \/ k = HallPinskyCb) /\ from = 22%nat) /\ INR from * um = r).
  { destruct k; try discriminate; injection Hs as <-; [exists 31%nat|exists 22%nat..]; (split; [tauto|]).
    - rewrite (INR_Z 31 31 eq_refl). reflexivity.
    - rewrite (INR_Z 22 22 eq_refl). reflexivity.
    - rewrite (INR_Z 22 22 eq_refl). reflexivity.
    - rewrite (INR_Z 22 22 eq_refl). reflexivity. }
  destruct Q as (from & Q & <-). destruct user as [|? ?]; [|discriminate Hi'].
  pose proof (same_efficiency tie k from _ _ Q (sqrt_pos _) (sqrt_pos _) HM) as E. unfold efficiency in E.
  assert (U : u = UsesTable (shipped k)) by (destruct k; try discriminate Hs; cbn [init_kernel] in Hi; congruence).
  assert (U' : u' = UsesTable (shipped Hall)) by (cbn [init_kernel] in Hi'; congruence).
  subst u u'. cbn [calc]. unfold geometric_with_efficiencies. rewrite E. reflexivity.
Qed.
(** the same for the turbulent kernels with the two tables they can have *)
Theorem C82_variants_turbulent : forall tie u u' user turb air a b,
  init_kernel OnishiHallDavis turb user shipped = Some u -> init_kernel OnishiHall turb user shipped = Some u' ->
  31 * um <= Rmax (radius a) (radius b) -> calc (double tie) u air a b = calc (double tie) u' air a b.
Proof.
  intros tie u u' user turb air a b Hi Hi' HM. destruct user as [|Re [|? ?]]; try discriminate Hi. cbn [init_kernel] in Hi, Hi'. destruct turb; [|discriminate].
  injection Hi as <-. injection Hi' as <-. cbn [calc app]. unfold onishi. cbn [nth_error obind].
  destruct (onishi_nograv _ _ _ _ _ _) as [ng|]; [|reflexivity]. cbn [obind]. rewrite !shifted_efficiency by (exact I || apply sqrt_pos).
  assert (E : efficiency tie OnishiHallDavis (sqrt (k_rw2 a)) (sqrt (k_rw2 b)) = efficiency tie Hall (sqrt (k_rw2 a)) (sqrt (k_rw2 b))).
  { apply (same_efficiency tie OnishiHallDavis 31 _ _ ltac:(tauto) (sqrt_pos _) (sqrt_pos _)). rewrite (INR_Z 31 31 eq_refl). exact HM. }
  rewrite E. reflexivity.
Qed.
(** no kernel, whatever the name, with parameters of the user that are not negative, gives a negative value *)
Theorem C82_nonneg : forall tie k turb user u air a b v,
  init_kernel k turb user shipped = Some u -> (forall x, In x user -> 0 <= x) -> 0 < k_rw2 a -> 0 < k_rw2 b ->
  calc (double tie) u air a b = Some v -> 0 <= v.
Proof.
  intros tie k turb user u air a b v Hi HU Ha Hb Hc.
  pose (table := fun k' => match k' with Golovin | Geometric | Long => repeat 0 table_size | _ => shipped k' end).
  refine (C58_nonneg (double tie) k turb user table u air a b v _ _ HU (double_limit tie) Ha Hb Hc).
  - rewrite <- Hi. destruct k; reflexivity.
  - intros k'. assert (T : tabulated k' -> length (shipped k') = table_size /\ forall x, In x (shipped k') -> 0 <= x).
    { intros Hk. split; [apply shipped_length, Hk|]. intros x Hx. unfold shipped in Hx. apply in_map_iff in Hx. destruct Hx as (n & <- & _). pose proof (N2R_nonneg n). lra. }
    assert (Z : length (repeat 0 table_size) = table_size /\ forall x, In x (repeat 0 table_size) -> 0 <= x).
    { split; [apply repeat_length|]. intros x Hx. apply repeat_spec in Hx. lra. }
    unfold table. destruct k'; first [exact Z|apply T; exact I].
Qed.
(** and in single precision every pair with a drop of 1.1 mm or more makes the code read outside of each of these tables *)
Theorem C82_single_precision_refuted : forall tie k turb user u air a b,
  init_kernel k turb user shipped = Some u -> tabulated k -> k <> OnishiHall -> k <> OnishiHallDavis ->
  1100 * um <= radius a -> calc (single tie) u air a b = None.
Proof.
  intros tie k turb user u air a b Hi Hk NO NO' Ha.
  assert (U : u = UsesTable (shipped k)).
  { destruct k; try (exfalso; exact Hk); try (exfalso; now apply NO); try (exfalso; now apply NO'); destruct user; cbn [init_kernel] in Hi; congruence. }
  subst u. cbn [calc]. unfold geometric_with_efficiencies.
  pose proof (C59_single_precision_refuted tie [] (shipped k) (radius a) (radius b) (shipped_length k Hk) ltac:(unfold um in Ha; lra) (sqrt_pos _)) as E.
  cbn [app length] in E. unfold radius in E. rewrite E. reflexivity.
Qed.

(** ** values *)
Lemma at_table_radius tie k i j n : tabulated k -> (i < 200)%nat -> (j < 200)%nat -> entryN (shipped_millionths k) i j = n ->
  efficiency tie k (node i * um) (node j * um) = Some (N2R n / 1000000).
Proof.
  intros Hk Hi Hj <-. destruct (table_max (shipped k)) as (hi & Hhi).
  assert (T : forall x, In x (shipped k) -> 0 <= x <= hi).
  { intros x Hx. split; [|apply Hhi, Hx]. unfold shipped in Hx. apply in_map_iff in Hx. destruct Hx as (m & <- & _). pose proof (N2R_nonneg m). lra. }
  assert (P : forall i, 0 <= node i * um).
  { intros q. apply Rmult_le_pos; [|unfold um; lra]. pose proof (node_mono 0 q ltac:(lia)) as Q. rewrite node_le_100 in Q by lia. cbn [INR] in Q. lra. }
  destruct (C59_efficiency (double tie) [] (shipped k) _ _ 0 hi (shipped_length k Hk) (P i) (P j) (double_limit tie) T) as (_ & _ & E).
  cbn [app length] in E. unfold efficiency. rewrite (E i j) by (lia || (unfold um; lra)).
  unfold shipped. rewrite entry_N. reflexivity.
Qed.
Transparent eff_Hall eff_HallDavis eff_VohlDavis eff_HallPinskySc eff_HallPinsky1000 eff_HallPinskyCb shipped_millionths.
Lemma some_entries :
  entryN (shipped_millionths Hall) 70 70 = 4000000%N /\ entryN (shipped_millionths Hall) 20 10 = 72000%N /\
  entryN (shipped_millionths HallDavis) 20 10 = 56734%N /\ entryN (shipped_millionths Hall) 21 10 = 113990%N /\
  entryN (shipped_millionths HallPinskyCb) 21 10 = 268000%N /\ entryN (shipped_millionths HallPinskyCb) 22 10 = 152691%N /\
  entryN (shipped_millionths Hall) 120 15 = 970000%N /\ entryN (shipped_millionths VohlDavis) 120 10 = 837471%N.
Proof. vm_compute. repeat split. Qed.
Opaque eff_Hall eff_HallDavis eff_VohlDavis eff_HallPinskySc eff_HallPinsky1000 eff_HallPinskyCb shipped_millionths.
(** The bound of 4 is attained; below the radii of [C82_variants] the variants differ; droplets of 15 micrometres are collected, and
    Vohl's table has no gap; a pair of concrete droplets meets the hypotheses of [C82_gap] and of [C82_kernel]. *)
Theorem C82_instance : forall tie,
  efficiency tie Hall (70 * um) (70 * um) = Some 4 /\
  efficiency tie Hall (20 * um) (10 * um) = Some 0.072 /\ efficiency tie HallDavis (20 * um) (10 * um) = Some 0.056734 /\
  efficiency tie Hall (21 * um) (10 * um) = Some 0.11399 /\ efficiency tie HallPinskyCb (21 * um) (10 * um) = Some 0.268 /\
  efficiency tie HallPinskyCb (22 * um) (10 * um) = Some 0.152691 /\
  efficiency tie Hall (300 * um) (15 * um) = Some 0.97 /\ efficiency tie VohlDavis (300 * um) (10 * um) = Some 0.837471 /\
  (exists u, init_kernel Hall false [] shipped = Some u /\
     calc (double tie) u {| k_rhod := 1; k_eta := 0.00001; k_diss := 0 |}
       {| k_n := 5%N; k_rw2 := (300 * um) ^ 2; k_vt := 2 |} {| k_n := 7%N; k_rw2 := (10 * um) ^ 2; k_vt := 0.01 |} = Some 0).
Proof.
  intros tie. destruct some_entries as (E1 & E2 & E3 & E4 & E5 & E6 & E7 & E8).
  assert (N : forall i, (i <= 100)%nat -> node i = IZR (Z.of_nat i)) by (intros i Hi; rewrite node_le_100 by lia; apply INR_IZR_INZ).
  assert (N120 : node 120 = 300) by (rewrite node_ge_100 by lia; rewrite (INR_Z (120 - 100) 20 eq_refl); lra).
  assert (N70 := N 70%nat ltac:(lia)). assert (N20 := N 20%nat ltac:(lia)). assert (N21 := N 21%nat ltac:(lia)). assert (N22 := N 22%nat ltac:(lia)).
  assert (N10 := N 10%nat ltac:(lia)). assert (N15 := N 15%nat ltac:(lia)). cbn [Z.of_nat Pos.of_succ_nat Pos.succ] in N70, N20, N21, N22, N10, N15.
  pose proof (at_table_radius tie Hall 70 70 _ I ltac:(lia) ltac:(lia) E1) as V1. pose proof (at_table_radius tie Hall 20 10 _ I ltac:(lia) ltac:(lia) E2) as V2.
  pose proof (at_table_radius tie HallDavis 20 10 _ I ltac:(lia) ltac:(lia) E3) as V3. pose proof (at_table_radius tie Hall 21 10 _ I ltac:(lia) ltac:(lia) E4) as V4.
  pose proof (at_table_radius tie HallPinskyCb 21 10 _ I ltac:(lia) ltac:(lia) E5) as V5. pose proof (at_table_radius tie HallPinskyCb 22 10 _ I ltac:(lia) ltac:(lia) E6) as V6.
  pose proof (at_table_radius tie Hall 120 15 _ I ltac:(lia) ltac:(lia) E7) as V7. pose proof (at_table_radius tie VohlDavis 120 10 _ I ltac:(lia) ltac:(lia) E8) as V8.
  rewrite N70 in V1. rewrite N20, N10 in V2, V3. rewrite N21, N10 in V4, V5. rewrite N22, N10 in V6. rewrite N120, N15 in V7. rewrite N120, N10 in V8.
  split; [rewrite V1; f_equal; unfold N2R; cbn [Z.of_N]; lra|]. split; [rewrite V2; f_equal; unfold N2R; cbn [Z.of_N]; lra|].
  split; [rewrite V3; f_equal; unfold N2R; cbn [Z.of_N]; lra|]. split; [rewrite V4; f_equal; unfold N2R; cbn [Z.of_N]; lra|].
  split; [rewrite V5; f_equal; unfold N2R; cbn [Z.of_N]; lra|]. split; [rewrite V6; f_equal; unfold N2R; cbn [Z.of_N]; lra|].
  split; [rewrite V7; f_equal; unfold N2R; cbn [Z.of_N]; lra|]. split; [rewrite V8; f_equal; unfold N2R; cbn [Z.of_N]; lra|].
  exists (UsesTable (shipped Hall)). split; [reflexivity|].
  assert (H1 : sqrt ((300 * um) ^ 2) = 300 * um) by (apply sqrt_pow2; unfold um; lra).
  assert (H2 : sqrt ((10 * um) ^ 2) = 10 * um) by (apply sqrt_pow2; unfold um; lra).
  cbn [calc]. unfold geometric_with_efficiencies. cbn [k_rw2]. rewrite H1, H2.
  assert (G : efficiency tie Hall (300 * um) (10 * um) = Some 0).
  { apply gap_efficiency; try (unfold um; lra); [split; [exact I|discriminate]| |].
    - rewrite Rmax_left by (unfold um; lra). lra.
    - rewrite Rmin_right by (unfold um; lra). unfold um. lra. }
  unfold efficiency in G. rewrite G. f_equal. ring.
Qed.

Print Assumptions C82_range.
Print Assumptions C82_kernel.
Print Assumptions C82_gap.
Print Assumptions C82_variants.
Print Assumptions C82_variants_turbulent.
Print Assumptions C82_nonneg.
Print Assumptions C82_single_precision_refuted.
Print Assumptions C82_instance.
