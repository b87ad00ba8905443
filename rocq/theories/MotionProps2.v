(** C17, continued: distance travelled, closed walls, counterexamples *)
From Coq Require Import List Arith NArith ZArith Lia Reals Lra Bool.
From Verif Require Import Base BaseProofs SpaceModel SpaceProofs SpaceProps GridProps CoalModel MotionModel MotionProps.
Import ListNotations.
Local Open Scope R_scope.

(** ** Specification *)
(** all Courant numbers are at most one in absolute value *)
Definition courant_le_1 (f : flow) : Prop :=
  forall i j k, Rabs (fu f i j k) <= 1 /\ Rabs (fv f i j k) <= 1 /\ Rabs (fw f i j k) <= 1.
(** no flow through a plane of faces *)
Definition closed_x (f : flow) (I : Z) : Prop := forall j k, fu f I j k = 0.
Definition closed_y (f : flow) (J : nat) : Prop := forall i k, fv f i J k = 0.
Definition closed_z (f : flow) (K : nat) : Prop := forall i j, fw f i j K = 0.
(** a and b are not on different sides of w *)
Definition same_side (w a b : R) : Prop := (a <= w -> b <= w) /\ (w <= a -> w <= b).
(** the super-droplet domain is the whole grid in y and z *)
Definition full_domain (o : aopts) : Prop :=
  a_z0 o = 0 /\ a_z1 o = INR (a_nz o) * a_dz o /\
  (a_dims o = 3%nat -> a_y0 o = 0 /\ a_y1 o = INR (a_ny o) * a_dy o).
(** the scheme of this step: Euler, or predictor-corrector when that was configured *)
Definition explicit_scheme (o : aopts) (s : scheme) : Prop := s = Euler \/ (s = PredCorr /\ a_cfg o = PredCorr).

(** ** proofs *)
Lemma floor_span d x : 0 < d -> exists i, spanZ d i x.
Proof.
  intros Hd. exists (Int_part (x / d)). pose proof (Int_part_spec (x / d)) as [H1 H2].
  unfold spanZ. assert (E : x = d * (x / d)) by (field; lra). rewrite E at 2 3. split; nra.
Qed.
Lemma floor_span_nat d x : 0 < d -> 0 <= x -> exists i, in_span d i x.
Proof.
  intros Hd Hx. destruct (floor_span d x Hd) as (i & H).
  assert (0 <= i)%Z.
  { destruct (Z.le_gt_cases 0 i); auto. assert (IZR i <= -1) by (apply (IZR_le _ (-1)); lia). unfold spanZ in H. nra. }
  exists (Z.to_nat i). unfold in_span, spanZ in *. rewrite INR_IZR_INZ, Z2Nat.id by lia. exact H.
Qed.
Lemma cell_exists o x y z : setup o -> (a_dims o = 3%nat -> 0 <= y) -> 0 <= z -> exists i j k, in_cell o i j k x y z.
Proof.
  intros S Hy Hz. destruct (floor_span (a_dx o) x (su_dx _ S)) as (i & Hi).
  destruct (floor_span_nat (a_dz o) z (su_dz _ S) Hz) as (k & Hk).
  unfold in_cell. destruct (Nat.eqb_spec (a_dims o) 3) as [D|D].
  - destruct (floor_span_nat (a_dy o) y (su_dy _ S) (Hy D)) as (j & Hj). exists i, j, k. auto.
  - exists i, 0%nat, k. auto.
Qed.

(** what adve does, for both explicit schemes: either one displacement, or the mean of two *)
Inductive moves (o : aopts) (f : flow) (x y z x' y' z' : R) : Prop :=
| moves_once i j k : in_cell o i j k x y z ->
    x' = x + dX o f i j k x -> (a_dims o = 3%nat -> y' = y + dY o f i j k y) -> z' = z + dZ o f i j k z ->
    moves o f x y z x' y' z'
| moves_twice i j k ym zm i' j' k' : in_cell o i j k x y z ->
    (a_dims o = 3%nat -> wrapped (a_y0 o) (a_y1 o) (y + dY o f i j k y) ym) -> moved_back o (z + dZ o f i j k z) zm ->
    in_cell o i' j' k' (x + dX o f i j k x) ym zm ->
    x' = x + (dX o f i j k x + dX o f i' j' k' (x + dX o f i j k x)) / 2 ->
    (a_dims o = 3%nat -> y' = y + (dY o f i j k y + dY o f i' j' k' ym) / 2) ->
    z' = z + ((zm - z) + dZ o f i' j' k' zm) / 2 ->
    moves o f x y z x' y' z'.

Lemma adve_moves o f cx cy cz s x y z c0 i0 j0 k0 :
  setup o -> stored o f cx cy cz -> inside o x y z -> explicit_scheme o s -> courant_le_1 f ->
  (a_dims o = 3%nat -> a_dy o <= a_y1 o - a_y0 o) ->
  let p := adve o cx cy cz s (re_index o (mk_part x y z c0 i0 j0 k0)) in
  moves o f x y z (px p) (py p) (pz p).
Proof.
  intros S ST IN SC CO HY p.
  destruct (cell_exists o x y z S) as (i & j & k & CE).
  { intros D. destruct IN as (_ & IY & _). specialize (IY D). destruct (su_y _ S D). lra. }
  { destruct IN as (_ & _ & IZ). destruct (su_z _ S). lra. }
  destruct SC as [->|(-> & CF)].
  - destruct (C17_euler o f cx cy cz x y z i j k S ST IN CE c0 i0 j0 k0) as (E1 & E2 & E3 & _).
    fold p in E1, E2, E3. apply (moves_once o f x y z _ _ _ i j k); auto.
    intros D. rewrite E2, D. reflexivity.
  - assert (B : bounded o f).
    { split.
      - intros. apply Rle_trans with 1; [apply CO|lra].
      - intros D i1 j1 k1. specialize (HY D). destruct (CO i1 j1 k1) as (_ & H & _). pose proof (su_dy _ S).
        pose proof (Rabs_pos (fv f i1 j1 k1)). nra. }
    set (ym := if (a_dims o =? 3)%nat then periodic (a_y0 o) (a_y1 o) (y + dY o f i j k y) else y).
    assert (W : a_dims o = 3%nat -> wrapped (a_y0 o) (a_y1 o) (y + dY o f i j k y) ym).
    { intros D. unfold ym. rewrite D. cbn [Nat.eqb].
      destruct (su_y _ S D) as (Y0 & Y1 & Y2). destruct IN as (_ & IY & _). specialize (IY D). specialize (HY D).
      assert (HD : Rabs (dY o f i j k y) <= a_dy o).
      { unfold dY. pose proof (su_dy _ S). rewrite Rabs_mult, (Rabs_pos_eq (a_dy o)) by lra.
        apply Rle_trans with (a_dy o * 1); [|lra]. apply Rmult_le_compat_l; [lra|].
        destruct CE as (_ & _ & CY). rewrite D in CY. cbn [Nat.eqb] in CY.
        apply lin_abs; auto; apply CO. }
      apply Rabs_le_both in HD.
      destruct (C08_periodic_into_domain (a_y0 o) (a_y1 o) (y + dY o f i j k y)) as (P1 & (m & P2) & _); [lra|lra|].
      split; [exact P1|]. exists m. exact P2. }
    pose proof (moved_back_spec o (z + dZ o f i j k z) S) as M.
    pose proof (z_back_inside o (z + dZ o f i j k z) S) as Z.
    set (zm := z_back o (z + dZ o f i j k z)) in *.
    destruct (cell_exists o (x + dX o f i j k x) ym zm S) as (i' & j' & k' & CE').
    { intros D. destruct (W D) as (H & _). destruct (su_y _ S D). lra. }
    { destruct (su_z _ S). lra. }
    assert (EP : p = adve o cx cy cz PredCorr (mk_part x y z (pijk (re_index o (mk_part x y z c0 i0 j0 k0)))
        (pi (re_index o (mk_part x y z c0 i0 j0 k0))) (pj (re_index o (mk_part x y z c0 i0 j0 k0)))
        (pk (re_index o (mk_part x y z c0 i0 j0 k0))))) by reflexivity.
    destruct (C17_pred_corr o f cx cy cz x y z i j k S CF ST B IN CE
      (pijk (re_index o (mk_part x y z c0 i0 j0 k0)))
        (pi (re_index o (mk_part x y z c0 i0 j0 k0))) (pj (re_index o (mk_part x y z c0 i0 j0 k0)))
        (pk (re_index o (mk_part x y z c0 i0 j0 k0))) ym zm i' j' k' W M CE') as (E1 & E2 & E3 & _).
    rewrite <- EP in E1, E2, E3.
    apply (moves_twice o f x y z _ _ _ i j k ym zm i' j' k'); auto.
    intros D. rewrite E2, D. reflexivity.
Qed.

Lemma d_le o f i j k x y z : setup o -> courant_le_1 f -> in_cell o i j k x y z ->
  Rabs (dX o f i j k x) <= a_dx o /\ (a_dims o = 3%nat -> Rabs (dY o f i j k y) <= a_dy o) /\ Rabs (dZ o f i j k z) <= a_dz o.
Proof.
  intros S CO (CX & CZ & CY). pose proof (su_dx _ S). pose proof (su_dy _ S). pose proof (su_dz _ S).
  assert (G : forall d v, 0 < d -> Rabs v <= 1 -> Rabs (d * v) <= d).
  { intros. rewrite Rabs_mult, (Rabs_pos_eq d) by lra. pose proof (Rabs_pos v). nra. }
  repeat split.
  - apply G; auto. apply lin_abs; auto; apply CO.
  - intros D. rewrite D in CY. apply G; auto. apply lin_abs; auto; apply CO.
  - apply G; auto. apply lin_abs; auto; apply CO.
Qed.

(** C17. With Courant numbers of magnitude at most one no super-droplet travels further than one cell size. *)
Theorem C17_at_most_one_cell :
  forall o f cx cy cz s x y z c0 i0 j0 k0,
    setup o -> stored o f cx cy cz -> inside o x y z -> explicit_scheme o s -> courant_le_1 f ->
    (a_dims o = 3%nat -> a_dy o <= a_y1 o - a_y0 o) ->
    let p := adve o cx cy cz s (re_index o (mk_part x y z c0 i0 j0 k0)) in
    Rabs (px p - x) <= a_dx o /\ (a_dims o = 3%nat -> Rabs (py p - y) <= a_dy o) /\ Rabs (pz p - z) <= a_dz o.
Proof.
  intros o f cx cy cz s x y z c0 i0 j0 k0 S ST IN SC CO HY p.
  pose proof (adve_moves o f cx cy cz s x y z c0 i0 j0 k0 S ST IN SC CO HY) as M. fold p in M.
  pose proof (su_dx _ S). pose proof (su_dy _ S). pose proof (su_dz _ S).
  destruct M as [i j k CE EX EY EZ|i j k ym zm i' j' k' CE W MB CE' EX EY EZ].
  - destruct (d_le o f i j k x y z S CO CE) as (H1' & H2' & H3'). rewrite EX, EZ. repeat split.
    + replace (x + dX o f i j k x - x) with (dX o f i j k x) by ring. auto.
    + intros D. rewrite (EY D). replace (y + dY o f i j k y - y) with (dY o f i j k y) by ring. auto.
    + replace (z + dZ o f i j k z - z) with (dZ o f i j k z) by ring. auto.
  - destruct (d_le o f i j k x y z S CO CE) as (A1 & A2 & A3).
    destruct (d_le o f i' j' k' _ ym zm S CO CE') as (B1 & B2 & B3).
    apply Rabs_le_both in A1. apply Rabs_le_both in B1. apply Rabs_le_both in A3. apply Rabs_le_both in B3.
    rewrite EX, EZ. repeat split.
    + apply Rabs_le. split; lra.
    + intros D. rewrite (EY D). specialize (A2 D). specialize (B2 D). apply Rabs_le_both in A2. apply Rabs_le_both in B2.
      apply Rabs_le. split; lra.
    + assert (- a_dz o <= zm - z <= a_dz o).
      { destruct MB as (M1 & M2 & M3). destruct IN as (_ & _ & IZ). destruct (su_z _ S) as (Z0 & Z1 & Z2).
        replace (/ 10 ^ 8) with (1 / 100000000) in * by field.
        destruct (Rle_dec (a_z1 o) (z + dZ o f i j k z)); [rewrite M2 by auto; lra|].
        destruct (Rle_dec (z + dZ o f i j k z) (a_z0 o)); [rewrite M3 by auto; lra|].
        rewrite M1 by lra. lra. }
      apply Rabs_le. split; lra.
Qed.
Print Assumptions C17_at_most_one_cell.

(** one application of the interpolated displacement does not cross a closed plane of faces *)
Lemma euler_side d (i I : Z) x l r : 0 < d -> spanZ d i x -> -1 <= l <= 1 -> -1 <= r <= 1 ->
  (I = i -> l = 0) -> (I = (i + 1)%Z -> r = 0) -> same_side (IZR I * d) x (x + d * lin d (IZR i) x l r).
Proof.
  intros Hd Hx Hl Hr E1 E2.
  pose proof (lin_bounds d (IZR i) x l r (-1) 1 Hd Hx Hl Hr) as B.
  assert (EL : d * lin d (IZR i) x l r = d * l + (x - d * IZR i) * (r - l)) by (unfold lin; field; lra).
  unfold spanZ in Hx. set (L := lin d (IZR i) x l r) in *.
  destruct (Z.lt_trichotomy I i) as [H|[H|H]].
  - assert (HI : IZR I <= IZR i - 1) by (rewrite <- (minus_IZR i 1); apply IZR_le; lia).
    split; intros; nra.
  - subst I. rewrite (E1 eq_refl) in EL. split; intros.
    + assert (x = IZR i * d) by lra. rewrite EL. subst x. lra.
    + rewrite EL. nra.
  - destruct (Z.eq_dec I (i + 1)) as [->|H'].
    + rewrite (E2 eq_refl) in EL. rewrite plus_IZR in *. split; intros; rewrite EL; nra.
    + assert (HI : IZR i + 2 <= IZR I) by (rewrite <- (plus_IZR i 2); apply IZR_le; lia).
      split; intros; nra.
Qed.

Lemma same_side_mean w a b c : same_side w a b -> same_side w b c -> same_side w a ((a + c) / 2).
Proof. intros [H1 H2] [H3 H4]. split; intros; [specialize (H1 H); specialize (H3 H1)|specialize (H2 H); specialize (H4 H2)]; lra. Qed.

(** C17. With Courant numbers of magnitude at most one no super-droplet crosses a plane of faces through which there
    is no flow: planes across x (also the side walls of the domain); interior planes across y, and the side walls if
    both are closed; planes across z, including bottom and top. *)
Theorem C17_walls :
  forall o f cx cy cz s x y z c0 i0 j0 k0,
    setup o -> full_domain o -> stored o f cx cy cz -> inside o x y z -> explicit_scheme o s -> courant_le_1 f ->
    let p := adve o cx cy cz s (re_index o (mk_part x y z c0 i0 j0 k0)) in
    (forall I, closed_x f I -> same_side (IZR I * a_dx o) x (px p)) /\
    (a_dims o = 3%nat ->
       (forall J, closed_y f J -> (0 < J < a_ny o)%nat -> same_side (INR J * a_dy o) y (py p)) /\
       (closed_y f 0 -> closed_y f (a_ny o) -> 0 <= py p <= INR (a_ny o) * a_dy o)) /\
    (forall K, closed_z f K ->
       ((0 < K)%nat -> z <= INR K * a_dz o -> pz p <= INR K * a_dz o) /\
       ((K < a_nz o)%nat -> INR K * a_dz o <= z -> INR K * a_dz o <= pz p)).
Proof.
  intros o f cx cy cz s x y z c0 i0 j0 k0 S FD ST IN SC CO p.
  pose proof (su_dx _ S) as Hdx. pose proof (su_dy _ S) as Hdy. pose proof (su_dz _ S) as Hdz.
  destruct FD as (FZ0 & FZ1 & FY).
  assert (HY : a_dims o = 3%nat -> a_dy o <= a_y1 o - a_y0 o).
  { intros D. destruct (FY D) as (-> & ->). pose proof (su_grid _ S) as G. rewrite D in G. cbn in G.
    assert (1 <= INR (a_ny o)) by (apply (le_INR 1); lia). nra. }
  pose proof (adve_moves o f cx cy cz s x y z c0 i0 j0 k0 S ST IN SC CO HY) as M. fold p in M.
  assert (BU : forall i j k, -1 <= fu f i j k <= 1) by (intros; apply Rabs_le_both, CO).
  assert (BV : forall i j k, -1 <= fv f i j k <= 1) by (intros; apply Rabs_le_both, CO).
  assert (BW : forall i j k, -1 <= fw f i j k <= 1) by (intros; apply Rabs_le_both, CO).
  assert (SX : forall I i j k x y z, closed_x f I -> in_cell o i j k x y z -> same_side (IZR I * a_dx o) x (x + dX o f i j k x)).
  { intros I i1 j1 k1 x1 y1 z1 HC (C1 & _). unfold dX. apply euler_side; auto; intros ->; apply HC. }
  assert (SY : a_dims o = 3%nat -> forall J i j k x y z, closed_y f J -> in_cell o i j k x y z ->
     same_side (INR J * a_dy o) y (y + dY o f i j k y)).
  { intros D J i1 j1 k1 x1 y1 z1 HC (_ & _ & C1). rewrite D in C1. cbn [Nat.eqb] in C1. unfold dY. rewrite !INR_IZR_INZ.
    apply euler_side; auto.
    - unfold spanZ. rewrite <- INR_IZR_INZ. exact C1.
    - intros E. apply Nat2Z.inj in E. subst. apply HC.
    - intros E. assert (J = j1 + 1)%nat by lia. subst. apply HC. }
  assert (SZ : forall K i j k x y z, closed_z f K -> in_cell o i j k x y z -> same_side (INR K * a_dz o) z (z + dZ o f i j k z)).
  { intros K i1 j1 k1 x1 y1 z1 HC (_ & C1 & _). unfold dZ. rewrite !INR_IZR_INZ. apply euler_side; auto.
    - unfold spanZ. rewrite <- INR_IZR_INZ. exact C1.
    - intros E. apply Nat2Z.inj in E. subst. apply HC.
    - intros E. assert (K = k1 + 1)%nat by lia. subst. apply HC. }
  assert (HZ : forall K, (K < a_nz o)%nat -> INR K * a_dz o + a_dz o <= a_z1 o).
  { intros K HK. rewrite FZ1. assert (INR K + 1 <= INR (a_nz o)) by (rewrite <- S_INR; apply le_INR; lia). nra. }
  destruct M as [i j k CE EX EY EZ|i j k ym zm i' j' k' CE W MB CE' EX EY EZ].
  - rewrite EX, EZ. split; [|split].
    + intros I HC. eapply SX; eauto.
    + intros D. rewrite (EY D). split.
      * intros J HC _. eapply SY; eauto.
      * intros C0 C1. pose proof (SY D _ _ _ _ _ _ _ C0 CE) as [_ H1]. pose proof (SY D _ _ _ _ _ _ _ C1 CE) as [H2 _].
        destruct IN as (_ & IY & _). specialize (IY D). destruct (FY D) as (Y0 & Y1). rewrite Y0, Y1 in IY.
        change (INR 0) with 0 in H1. split; [|apply H2; lra]. rewrite Rmult_0_l in H1. apply H1. lra.
    + intros K HC. pose proof (SZ _ _ _ _ _ _ _ HC CE) as [H1 H2]. split; intros; auto.
  - rewrite EX, EZ. split; [|split].
    + intros I HC. pose proof (SX _ _ _ _ _ _ _ HC CE) as H1. pose proof (SX _ _ _ _ _ _ _ HC CE') as H2.
      pose proof (same_side_mean _ _ _ _ H1 H2) as H3.
      replace (x + (dX o f i j k x + dX o f i' j' k' (x + dX o f i j k x)) / 2)
        with ((x + (x + dX o f i j k x + dX o f i' j' k' (x + dX o f i j k x))) / 2) by field. exact H3.
    + intros D. rewrite (EY D). specialize (W D). destruct (FY D) as (Y0 & Y1). rewrite Y0, Y1 in W.
      destruct IN as (_ & IY & _). specialize (IY D). rewrite Y0, Y1 in IY.
      destruct (d_le o f i j k x y z S CO CE) as (_ & A & _). specialize (A D). apply Rabs_le_both in A.
      destruct (d_le o f i' j' k' _ ym zm S CO CE') as (_ & B & _). specialize (B D). apply Rabs_le_both in B.
      set (ys := y + dY o f i j k y) in *. set (d' := dY o f i' j' k' ym) in *.
      replace (y + (dY o f i j k y + d') / 2) with ((y + (ys + d')) / 2) by (unfold ys; field).
      assert (Hny : a_dy o <= INR (a_ny o) * a_dy o).
      { specialize (HY D). rewrite Y0, Y1 in HY. lra. }
      assert (WI : 0 <= ys < INR (a_ny o) * a_dy o -> ym = ys).
      { intros H. apply (wrapped_unique 0 (INR (a_ny o) * a_dy o) ys); auto; [lra|]. split; auto. exists 0%Z. ring. }
      assert (WH : ys = INR (a_ny o) * a_dy o -> ym = 0).
      { intros H. apply (wrapped_unique 0 (INR (a_ny o) * a_dy o) ys); auto; [lra|]. split; [lra|]. exists (-1)%Z. rewrite H. ring. }
      split.
      * intros J HC HJ. pose proof (SY D _ _ _ _ _ _ _ HC CE) as H1. fold ys in H1.
        assert (J1 : 1 <= INR J) by (apply (le_INR 1); lia).
        assert (J2 : INR J + 1 <= INR (a_ny o)) by (rewrite <- S_INR; apply le_INR; lia).
        destruct (Rlt_dec ys 0) as [Hn|Hn].
        { destruct H1 as [H1 H2]. split; intros H; [nra|]. specialize (H2 H). nra. }
        destruct (Rle_dec (INR (a_ny o) * a_dy o) ys) as [Hp|Hp].
        { destruct H1 as [H1 H2]. split; intros H; [specialize (H1 H); nra|]. nra. }
        rewrite (WI ltac:(lra)) in *. pose proof (SY D _ _ _ _ _ _ _ HC CE') as H2. fold d' in H2.
        apply same_side_mean with ys; auto.
        unfold d'. rewrite (WI ltac:(lra)). exact H2.
      * intros C0 C1. pose proof (SY D _ _ _ _ _ _ _ C0 CE) as [_ H1]. pose proof (SY D _ _ _ _ _ _ _ C1 CE) as [H2 _].
        fold ys in H1, H2. change (INR 0) with 0 in H1. rewrite Rmult_0_l in H1.
        specialize (H1 ltac:(lra)). specialize (H2 ltac:(lra)).
        destruct (Req_dec ys (INR (a_ny o) * a_dy o)) as [Hp|Hp].
        { pose proof (SY D _ _ _ _ _ _ _ C0 CE') as [H3 H4]. fold d' in H3, H4.
          change (INR 0) with 0 in H3, H4. rewrite Rmult_0_l in H3, H4. rewrite (WH Hp) in H3, H4.
          specialize (H3 ltac:(lra)). specialize (H4 ltac:(lra)). lra. }
        pose proof (SY D _ _ _ _ _ _ _ C0 CE') as [_ H3]. pose proof (SY D _ _ _ _ _ _ _ C1 CE') as [H4 _].
        fold d' in H3, H4. change (INR 0) with 0 in H3. rewrite Rmult_0_l in H3.
        rewrite (WI ltac:(lra)) in H3, H4.
        specialize (H3 ltac:(lra)). specialize (H4 ltac:(lra)). lra.
    + intros K HC. pose proof (SZ _ _ _ _ _ _ _ HC CE) as [H1 H2]. pose proof (SZ _ _ _ _ _ _ _ HC CE') as [H3 H4].
      set (zs := z + dZ o f i j k z) in *. set (d' := dZ o f i' j' k' zm) in *.
      replace (z + (zm - z + d') / 2) with ((z + (zm + d')) / 2) by field.
      destruct MB as (M1 & M2 & M3). replace (/ 10 ^ 8) with (1 / 100000000) in * by field.
      pose proof (su_grid _ S) as G.
      assert (Hnz : a_dz o <= a_z1 o). { pose proof (HZ 0%nat) as H. change (INR 0) with 0 in H.
        assert (0 < a_nz o)%nat by (destruct (su_dims _ S) as [D|D]; rewrite D in G; cbn in G; lia). specialize (H H0). lra. }
      assert (MC : (zs <= a_z0 o /\ zm = a_z0 o + 1 / 100000000 * a_dz o) \/ (a_z1 o <= zs /\ zm = a_z1 o - 1 / 100000000 * a_dz o) \/ zm = zs).
      { destruct (Rle_dec (a_z1 o) zs); [right; left; auto|]. destruct (Rle_dec zs (a_z0 o)); [left; auto|].
        right; right. apply M1. lra. }
      rewrite FZ0 in MC. split; intros HK Hz.
      * specialize (H1 Hz). assert (1 <= INR K) by (apply (le_INR 1); lia).
        assert (zm <= INR K * a_dz o). { destruct MC as [(A & B)|[(A & B)|A]]; [nra|lra|lra]. }
        specialize (H3 H0). lra.
      * specialize (H2 Hz). specialize (HZ K HK).
        assert (INR K * a_dz o <= zm). { destruct MC as [(A & B)|[(A & B)|A]]; lra. }
        specialize (H4 H). lra.
Qed.
Print Assumptions C17_walls.

(** ** where C17 fails *)
Lemma coord_val d x i : 0 < d -> INR i * d <= x < (INR i + 1) * d -> cell_coord d x = i.
Proof. intros. apply cell_coord_nat; auto. Qed.

(** The implicit scheme does not have these two properties: with Courant numbers well below one a super-droplet can travel
    three cells, through a closed wall and out of the domain. *)
Definition imp_o : aopts := mk_aopts 2 4 0 1 1 1 1 0 0 0 1 Implicit.
Definition imp_u (i : Z) : R := if (i =? 2)%Z then - (2 / 5) else if (i =? 3)%Z then 1 / 2 else 0.
Definition imp_f : flow := mk_flow (fun i _ _ => imp_u i) (fun _ _ _ => 0) (fun _ _ _ => 0).
Theorem C17_implicit_refuted :
  exists o f cx cy cz x y z c0 i0 j0 k0,
    setup o /\ full_domain o /\ stored o f cx cy cz /\ inside o x y z /\ courant_le_1 f /\ closed_x f 1 /\
    let p := adve o cx cy cz Implicit (re_index o (mk_part x y z c0 i0 j0 k0)) in
    1 * a_dx o < x /\ px p < 1 * a_dx o /\ Rabs (px p - x) > 3 * a_dx o.
Proof.
  exists imp_o, imp_f, (fun c => imp_u (Z.of_nat c)), (fun _ => 0), (fun _ => 0), (21 / 10), 0, (1 / 2), 0%nat, 0%nat, 0%nat, 0%nat.
  assert (S : setup imp_o).
  { constructor; cbn; auto; try lra; try lia; intros; discriminate. }
  assert (ST : stored imp_o imp_f (fun c => imp_u (Z.of_nat c)) (fun _ => 0) (fun _ => 0)).
  { unfold stored. cbn [imp_o imp_f halo_size a_cfg a_dims a_ny a_nz a_nx fu fv fw]. intros i j k H1 H2 H3. repeat split; intros.
    f_equal. lia. }
  assert (IN : inside imp_o (21 / 10) 0 (1 / 2)).
  { unfold inside. cbn. repeat split; try lra; intros; discriminate. }
  assert (CE : in_cell imp_o 2 0 0 (21 / 10) 0 (1 / 2)).
  { unfold in_cell, spanZ, in_span. cbn. repeat split; lra. }
  split; [exact S|]. split. { unfold full_domain. cbn. repeat split; try lra; intros; discriminate. }
  split; [exact ST|]. split; [exact IN|]. split.
  { intros i j k. cbn. unfold imp_u. destruct (i =? 2)%Z, (i =? 3)%Z; repeat split; unfold Rabs; destruct Rcase_abs; lra. }
  split. { intros j k. reflexivity. }
  cbv zeta.
  destruct (C17_implicit _ _ _ _ _ _ _ _ _ _ _ S ST IN CE 0%nat 0%nat 0%nat 0%nat) as (HX & _).
  set (p := adve _ _ _ _ _ _) in *.
  assert (E : px p = -1).
  { apply HX; cbn; unfold imp_u; cbn [Z.eqb Pos.eqb Z.add Pos.add Pos.succ]; [cbn; lra|]. unfold dX, lin. cbn. unfold imp_u. cbn. field. }
  rewrite E. cbn. repeat split; try lra. rewrite Rabs_left; lra.
Qed.
Print Assumptions C17_implicit_refuted.

(** In one dimension there is no interpolation: the Courant number of the left face is used throughout the cell. *)
Theorem C17_1D_refuted :
  (forall o cx cy cz x y z i c0 i0 j0 k0, a_dims o = 1%nat -> a_nz o = 0%nat -> a_cfg o = Euler -> 0 < a_dx o ->
     in_span (a_dx o) i x ->
     px (adve o cx cy cz Euler (re_index o (mk_part x y z c0 i0 j0 k0))) = x + a_dx o * cx i) /\
  (* for instance at 3/4 of the cell, with zero on the left face and one on the right face *)
  (let o := mk_aopts 1 1 0 0 1 1 1 0 0 0 0 Euler in
   let cx := fun c => if (c =? 0)%nat then 0 else 1 in
   px (adve o cx (fun _ => 0) (fun _ => 0) Euler (re_index o (mk_part (3 / 4) 0 0 0 0 0 0))) = 3 / 4 /\
   3 / 4 + 1 * lin 1 (INR 0) (3 / 4) (cx 0%nat) (cx 1%nat) = 3 / 2).
Proof.
  assert (H : forall o cx cy cz x y z i c0 i0 j0 k0, a_dims o = 1%nat -> a_nz o = 0%nat -> a_cfg o = Euler -> 0 < a_dx o ->
     in_span (a_dx o) i x ->
     px (adve o cx cy cz Euler (re_index o (mk_part x y z c0 i0 j0 k0))) = x + a_dx o * cx i).
  { intros o cx cy cz x y z i c0 i0 j0 k0 D Z CF Hd Hs.
    unfold adve. rewrite D. unfold adve_calc. rewrite D. unfold re_index, hskpng_ijk, halo_x, halo_size. rewrite D, CF.
    cbn [px pijk pi ravel lft_ix rgt_ix]. rewrite (cell_coord_nat (a_dx o) x i Hd Hs).
    unfold adve_helper_expl, lft_ix. rewrite Z, !Nat.add_0_r. ring. }
  split; [exact H|]. split.
  - rewrite (H _ _ _ _ _ _ _ 0%nat); cbn; try reflexivity; try lra; unfold in_span; cbn; lra.
  - unfold lin. cbn. field.
Qed.
Print Assumptions C17_1D_refuted.

(** a concrete non-trivial three-dimensional case in the scope of the theorems *)
Definition c17_o : aopts := mk_aopts 3 4 3 5 10 10 10 0 30 0 50 PredCorr.
Definition c17_f : flow := mk_flow (fun i _ _ => if Z.even i then 1 / 2 else - (1 / 3))
  (fun _ j _ => if Nat.even j then 1 / 4 else 1 / 2) (fun _ _ k => if (k =? 0)%nat then 0 else - (1 / 2)).
(** the arrays holding it *)
Definition c17_cx (c : nat) : R := fu c17_f (Z.of_nat (c / 15) - 2) 0 0.
Definition c17_cy (c : nat) : R := fv c17_f 0 ((c / 5) mod 4) 0.
Definition c17_cz (c : nat) : R := fw c17_f 0 0 (c mod 6).
Theorem C17_instance :
  setup c17_o /\ full_domain c17_o /\ inside c17_o 39 1 3 /\ stored c17_o c17_f c17_cx c17_cy c17_cz /\
  bounded c17_o c17_f /\ courant_le_1 c17_f /\ in_cell c17_o 3 0 0 39 1 3 /\ closed_z c17_f 0 /\ explicit_scheme c17_o PredCorr.
Proof.
  assert (S : setup c17_o).
  { constructor; cbn; auto; try lra; try lia. }
  assert (CO : courant_le_1 c17_f).
  { intros i j k. cbn. destruct (Z.even i), (Nat.even j), (k =? 0)%nat; repeat split; unfold Rabs; destruct Rcase_abs; lra. }
  split; [exact S|]. split. { unfold full_domain. cbn. repeat split; try lra. }
  split. { unfold inside. cbn. repeat split; try lra. }
  split.
  { unfold stored. cbn [c17_o a_cfg a_dims a_ny a_nz a_nx halo_size]. intros i j k H1 H2 H3. change (Z.of_nat 2) with 2%Z in *.
    unfold c17_cx, c17_cy, c17_cz. set (I := Z.to_nat (i + 2)). repeat split; intros.
    - cbn [c17_f fu]. replace ((I * 3 + j) * 5 + k)%nat with (I * 15 + (j * 5 + k))%nat by ring.
      rewrite Nat.div_add_l, Nat.div_small by lia. replace (Z.of_nat (I + 0) - 2)%Z with i by lia. reflexivity.
    - cbn [c17_f fv]. rewrite Nat.div_add_l, (Nat.div_small k) by lia.
      replace (I * (3 + 1) + j + 0)%nat with (j + I * 4)%nat by ring.
      rewrite Nat.mod_add by lia. rewrite Nat.mod_small by lia. reflexivity.
    - cbn [c17_f fw]. replace ((I * 3 + j) * (5 + 1) + k)%nat with (k + (I * 3 + j) * 6)%nat by ring.
      rewrite Nat.mod_add by lia. rewrite Nat.mod_small by lia. reflexivity. }
  split. { split; [intros; apply Rle_trans with 1; [apply CO|lra]|].
    intros _ i j k. destruct (CO i j k) as (_ & H & _). cbn [c17_o a_dy a_y0 a_y1]. lra. }
  split; [exact CO|]. split. { unfold in_cell, spanZ, in_span. cbn. repeat split; lra. }
  split. { intros i j. reflexivity. } right. auto.
Qed.

Print Assumptions C17_instance.
