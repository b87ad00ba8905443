(** C83: Courant numbers in the halos of MPI processes, and the edges of the neighbours' domains. *)
From Coq Require Import List Arith ZArith Reals Bool Lia Lra.
From Verif Require Import DistModel CourModel CourProofs.
Import ListNotations.

(** ** Specification *)
(** a grid of one, two or three dimensions (ny and nz are zero if the dimension is absent) *)
Definition dims_ok (G : grid) : Prop :=
  (g_dims G = 1 /\ g_ny G = 0 /\ g_nz G = 0) \/ (g_dims G = 2 /\ g_ny G = 0 /\ 0 < g_nz G) \/ (g_dims G = 3 /\ 0 < g_ny G /\ 0 < g_nz G).
(** the arrays that the grid has *)
Definition has (G : grid) (v : var) : Prop := match v with VX => 1 <= g_dims G | VZ => 2 <= g_dims G | VY => 3 <= g_dims G | VD => False end.
(** how many columns of values there are in the x direction: one more for courant_x *)
Definition columns (v : var) (nx : nat) : nat := match v with VX => nx + 1 | _ => nx end.
(** how many values there are in a column *)
Definition in_column (G : grid) (v : var) : nat :=
  let ny := if g_dims G <? 3 then 1 else g_ny G in
  match v with
  | VX => if g_dims G <? 2 then 1 else ny * g_nz G
  | VY => (g_ny G + 1) * g_nz G
  | _ => ny * (g_nz G + 1)
  end.
(** processes next to each other, as [particles_ctor.ipp] makes them; none narrower than the halo *)
Record processes (size : nat) (G : grid) (open : bool) (c : nat -> rankg) : Prop := {
  pr_size : 2 <= size; pr_dims : dims_ok G;
  pr_bcond : forall r, r < size -> (g_bL (c r), g_bR (c r)) = bcond_of open r size;
  pr_nx : forall r, r < size -> 0 < g_nx (c r) /\ g_halo G <= g_nx (c r) }.
(** cells in x in the processes before number r *)
Fixpoint before (c : nat -> rankg) (r : nat) : nat := match r with O => 0 | S r => before c r + g_nx (c r) end.
(** the arrays of process r hold columns of the field F of the whole domain, apart from the halo *)
Definition holds (G : grid) (c : nat -> rankg) (F : var -> Z -> nat -> R) (r : nat) (m : var -> nat -> R) : Prop :=
  forall v i q, has G v -> i < columns v (g_nx (c r)) -> q < in_column G v ->
    m v ((g_halo G + i) * in_column G v + q) = F v (Z.of_nat (before c r) + Z.of_nat i)%Z q.
(** the same with the halo (with an open boundary, only on sides with a neighbour) *)
Definition holds_with_halo (G : grid) (c : nat -> rankg) (F : var -> Z -> nat -> R) (r : nat) (m : var -> nat -> R) : Prop :=
  forall v i q, has G v -> i < g_halo G + columns v (g_nx (c r)) + g_halo G -> q < in_column G v ->
    (i < g_halo G -> g_bL (c r) = true) -> (g_halo G + columns v (g_nx (c r)) <= i -> g_bR (c r) = true) ->
    m v (i * in_column G v + q) = F v (Z.of_nat (before c r) + Z.of_nat i - Z.of_nat (g_halo G))%Z q.

(** ** what the plans consist of *)
Definition tag_of (v : var) : Z := match v with VX => cx_tag | VY => cy_tag | _ => cz_tag end.
Definition citem (G : grid) (left : bool) (v : var) : item :=
  let t := (if left then 2 else 1)%Z in
  match v with
  | VX => mk_item left (t * cx_tag) VX (fun nx => if left then cx_lft_internal G else cx_rgt_internal G nx)
            (fun nx => if left then cx_rgt_halo G nx else cx_lft_halo) (halo_x G)
  | VY => mk_item left (t * cy_tag) VY (fun nx => if left then cy_lft_internal G else cy_rgt_internal G nx)
            (fun nx => if left then cy_rgt_halo G nx else cy_lft_halo) (halo_y G)
  | _ => mk_item left (t * cz_tag) VZ (fun nx => if left then cz_lft_internal G else cz_rgt_internal G nx)
            (fun nx => if left then cz_rgt_halo G nx else cz_lft_halo) (halo_z G)
  end.
Lemma turn_items G left it : In it (turn G left) <-> exists v, has G v /\ it = citem G left v.
Proof.
  unfold turn. rewrite !in_app_iff. split.
  - intros [H|[H|H]].
    + destruct (Nat.ltb_spec 0 (g_dims G)); [|destruct H]. destruct H as [<-|[]]. exists VX. split; [cbn; lia|reflexivity].
    + destruct (Nat.ltb_spec 1 (g_dims G)); [|destruct H]. destruct H as [<-|[]]. exists VZ. split; [cbn; lia|reflexivity].
    + destruct (Nat.ltb_spec 2 (g_dims G)); [|destruct H]. destruct H as [<-|[]]. exists VY. split; [cbn; lia|reflexivity].
  - intros (v & Hv & ->). destruct v; cbn [has] in Hv; [left|right; right|right; left|destruct Hv].
    + destruct (Nat.ltb_spec 0 (g_dims G)); [left; reflexivity|lia].
    + destruct (Nat.ltb_spec 2 (g_dims G)); [left; reflexivity|lia].
    + destruct (Nat.ltb_spec 1 (g_dims G)); [left; reflexivity|lia].
Qed.
Lemma courant_items G it : In it (courants_plan G) <-> g_halo G <> 0 /\ exists left v, has G v /\ it = citem G left v.
Proof.
  unfold courants_plan. destruct (Nat.eqb_spec (g_halo G) 0) as [E|E].
  - split; [intros []|intros (H & _); contradiction].
  - rewrite in_app_iff, !turn_items. split.
    + intros [(v & H)|(v & H)]; (split; [exact E|]); [exists false, v|exists true, v]; exact H.
    + intros (_ & [|] & v & H); [right|left]; exists v; exact H.
Qed.
(** where values are taken from and put to, in columns *)
Lemma from_columns G left v nx : dims_ok G -> has G v -> 0 < nx ->
  i_from (citem G left v) nx = (if left then g_halo G + (columns v nx - nx) else nx) * in_column G v.
Proof.
  intros D H Hx. destruct v; cbn [has] in H; try contradiction; cbn [citem i_from]; destruct left; unfold cx_lft_internal, cx_rgt_internal, cy_lft_internal, cy_rgt_internal, cz_lft_internal, cz_rgt_internal, n_cell, halo_y, halo_z, m1, in_column, columns.
  all: destruct D as [(E & E1 & E2)|[(E & E1 & E2)|(E & E1 & E2)]]; rewrite E in *; cbn [Nat.ltb Nat.leb] in *; try lia.
  all: try rewrite E1; try rewrite E2; cbn [Nat.eqb]; try lia.
  all: try (destruct (Nat.eqb_spec nx 0); [lia|]); try (destruct (Nat.eqb_spec (g_nz G) 0); [lia|]); try (destruct (Nat.eqb_spec (g_ny G) 0); [lia|]); try nia.
Qed.
Lemma to_columns G left v nx : dims_ok G -> has G v ->
  i_to (citem G left v) nx = (if left then g_halo G + columns v nx else 0) * in_column G v.
Proof.
  intros D H. destruct v; cbn [has] in H; try contradiction; cbn [citem i_to]; destruct left; unfold cx_rgt_halo, cx_lft_halo, cy_rgt_halo, cy_lft_halo, cz_rgt_halo, cz_lft_halo, size_x, size_y, size_z, halo_x, halo_y, halo_z, in_column, columns.
  all: destruct D as [(E & E1 & E2)|[(E & E1 & E2)|(E & E1 & E2)]]; rewrite E in *; cbn [Nat.ltb Nat.leb] in *; try lia.
  all: try nia.
Qed.
Lemma count_columns G left v : dims_ok G -> has G v -> i_count (citem G left v) = g_halo G * in_column G v.
Proof.
  intros D H. destruct v; cbn [has] in H; try contradiction; cbn [citem i_count]; unfold halo_x, halo_y, halo_z, in_column.
  all: destruct D as [(E & E1 & E2)|[(E & E1 & E2)|(E & E1 & E2)]]; rewrite E in *; cbn [Nat.ltb Nat.leb] in *; try lia.
Qed.
Lemma citem_var G left v : has G v -> i_var (citem G left v) = v.
Proof. destruct v; [reflexivity..|intros []]. Qed.
Lemma citem_left G left v : i_left (citem G left v) = left.
Proof. destruct v; reflexivity. Qed.
(** the sizes of arrays, in columns *)
Lemma size_columns G v nx : dims_ok G -> has G v ->
  match v with VX => size_x G nx | VY => size_y G nx | _ => size_z G nx end = (g_halo G + columns v nx + g_halo G) * in_column G v.
Proof.
  intros D H. destruct v; cbn [has] in H; try contradiction; unfold size_x, size_y, size_z, in_column, columns.
  all: destruct D as [(E & E1 & E2)|[(E & E1 & E2)|(E & E1 & E2)]]; rewrite E in *; cbn [Nat.ltb Nat.leb] in *; try lia.
Qed.

(** ** the value of an element at the end *)
Lemma missed size plan c m0 r v j k : (forall it, In it plan -> i_var it = v -> recv_guard c it r = true -> j < i_to it (g_nx (c r)) \/ i_to it (g_nx (c r)) + i_count it <= j) ->
  mem_after size plan c m0 r k v j = m0 r v j.
Proof.
  intros H. induction k as [|k IH]; [reflexivity|]. cbn [mem_after]. destruct (nth_error plan k) as [it|] eqn:E; [|exact IH].
  destruct (recv_guard c it r) eqn:Eg; [|exact IH]. unfold set_var. destruct (var_eqb_spec v (i_var it)) as [Ev|Ev]; [|exact IH].
  rewrite write_out; [rewrite <- Ev; exact IH|]. rewrite data_length. apply H; [now apply nth_error_In in E|now symmetry|exact Eg].
Qed.
Lemma received size plan c m0 r it j : In it plan -> recv_guard c it r = true -> i_to it (g_nx (c r)) <= j < i_to it (g_nx (c r)) + i_count it ->
  (forall it', In it' plan -> i_var it' = i_var it -> recv_guard c it' r = true -> it' = it \/ j < i_to it' (g_nx (c r)) \/ i_to it' (g_nx (c r)) + i_count it' <= j) ->
  mem_after size plan c m0 r (length plan) (i_var it) j =
    m0 (from_of size it r) (i_var it) (i_from it (g_nx (c (from_of size it r))) + (j - i_to it (g_nx (c r)))).
Proof.
  intros Hin Hg Hj Hd. destruct (In_nth_error _ _ Hin) as (k0 & Hk0). assert (Hlt : k0 < length plan) by (apply nth_error_Some; congruence).
  assert (Q : forall k, k0 < k -> mem_after size plan c m0 r k (i_var it) j = m0 (from_of size it r) (i_var it) (i_from it (g_nx (c (from_of size it r))) + (j - i_to it (g_nx (c r))))).
  { assert (W : forall f, write (i_to it (g_nx (c r))) (data c m0 it (from_of size it r)) f j = m0 (from_of size it r) (i_var it) (i_from it (g_nx (c (from_of size it r))) + (j - i_to it (g_nx (c r))))).
    { intros f. rewrite write_in by (rewrite data_length; lia). apply data_nth. lia. }
    induction k as [|k IH]; intros Hk; [lia|]. cbn [mem_after]. destruct (Nat.eq_dec k k0) as [->|Hne].
    - rewrite Hk0, Hg. unfold set_var. destruct (var_eqb_spec (i_var it) (i_var it)); [apply W|congruence].
    - specialize (IH ltac:(lia)). destruct (nth_error plan k) as [it'|] eqn:E; [|exact IH]. destruct (recv_guard c it' r) eqn:Eg; [|exact IH].
      unfold set_var. destruct (var_eqb_spec (i_var it) (i_var it')) as [Ev|Ev]; [|exact IH].
      destruct (Hd it' (nth_error_In _ _ E) (eq_sym Ev) Eg) as [->|Ho]; [apply W|].
      rewrite write_out; [rewrite <- Ev; exact IH|]. rewrite data_length. exact Ho. }
  now apply Q.
Qed.

  Lemma columns_le v nx : nx <= columns v nx <= nx + 1.
  Proof. destruct v; cbn; lia. Qed.
  Lemma columns_extra v nx nx' : columns v nx - nx = columns v nx' - nx'.
  Proof. destruct v; cbn; lia. Qed.

(** ** the ring of processes *)
Section Processes.
  Variables (size : nat) (G : grid) (open : bool) (c : nat -> rankg).
  Hypothesis PR : processes size G open c.
  Let Hs := pr_size _ _ _ _ PR.
  Let D := pr_dims _ _ _ _ PR.

  Lemma bL r : r < size -> g_bL (c r) = negb open || negb (r =? 0).
  Proof.
    intros Hr. pose proof (pr_bcond _ _ _ _ PR r Hr) as E. unfold bcond_of in E. destruct open; [|injection E; intros; now subst].
    destruct (r =? 0); [|destruct (r =? size - 1)]; injection E; intros _ ->; reflexivity.
  Qed.
  Lemma bR r : r < size -> g_bR (c r) = negb open || negb (r =? size - 1).
  Proof.
    intros Hr. pose proof (pr_bcond _ _ _ _ PR r Hr) as E. unfold bcond_of in E. destruct open; [|injection E; intros; now subst].
    destruct (Nat.eqb_spec r 0) as [->|H0].
    - injection E; intros -> _. destruct (Nat.eqb_spec 0 (size - 1)); [pose proof (pr_size _ _ _ _ PR); lia|reflexivity].
    - destruct (r =? size - 1); injection E; intros -> _; reflexivity.
  Qed.
  Lemma ring_ok r : r < size -> g_bR (c r) = g_bL (c (rgt_rank size r)).
  Proof.
    intros Hr. rewrite bR by assumption. rewrite bL by (apply rgt_lt; assumption). f_equal. f_equal. pose proof (pr_size _ _ _ _ PR) as H2. unfold rgt_rank.
    destruct (Nat.ltb_spec r (size - 1)); destruct (Nat.eqb_spec r (size - 1)); try lia.
    - destruct (Nat.eqb_spec (r + 1) 0); [lia|reflexivity].
    - reflexivity.
  Qed.
  Lemma courants_ok : plan_ok size (courants_plan G) c.
  Proof.
    constructor.
    - unfold courants_plan. destruct (g_halo G =? 0); [constructor|]. unfold turn.
      destruct (0 <? g_dims G), (1 <? g_dims G), (2 <? g_dims G); cbn; unfold cx_tag, cy_tag, cz_tag; repeat constructor; cbn; intuition discriminate.
    - exact ring_ok.
    - intros a b r Ha Hb Ev Hr _ _. apply courant_items in Ha, Hb. destruct Ha as (Hh & la & va & Hva & ->). destruct Hb as (_ & lb & vb & Hvb & ->).
      rewrite !citem_var in Ev by assumption. subst vb. destruct (pr_nx _ _ _ _ PR r Hr) as (Hx & Hhx).
      rewrite from_columns, to_columns, !count_columns by assumption. pose proof (columns_le va (g_nx (c r))).
      destruct la, lb; rewrite <- ?Nat.mul_add_distr_r; [left|right|left|right]; apply Nat.mul_le_mono_r; lia.
  Qed.

  Lemma before_rgt r : r < size -> (r < size - 1 -> before c (rgt_rank size r) = before c r + g_nx (c r)) /\
    (r = size - 1 -> before c (rgt_rank size r) = 0 /\ before c size = before c r + g_nx (c r)).
  Proof.
    intros Hr. split; intros H.
    - unfold rgt_rank. destruct (Nat.ltb_spec r (size - 1)); [|lia]. now rewrite Nat.add_1_r.
    - unfold rgt_rank. destruct (Nat.ltb_spec r (size - 1)); [lia|]. split; [reflexivity|]. replace size with (S r) at 1 by lia. reflexivity.
  Qed.
  Lemma in_column_pos v : has G v -> 0 < in_column G v.
  Proof.
    intros H. destruct v; cbn [has] in H; try contradiction; unfold in_column; destruct D as [(E & E1 & E2)|[(E & E1 & E2)|(E & E1 & E2)]]; rewrite E in *; cbn [Nat.ltb Nat.leb]; lia.
  Qed.

  (** all processes hold one field: the halo becomes that of the field *)
  Lemma halo_filled F m0 r : (open = false -> forall v x q, F v (x + Z.of_nat (before c size))%Z q = F v x q) ->
    (forall s, s < size -> holds G c F s (m0 s)) -> r < size ->
    holds_with_halo G c F r (mem_after size (courants_plan G) c m0 r (length (courants_plan G))).
  Proof.
    intros Per HF Hr v i q Hv Hi Hq HL HR. set (h := g_halo G) in *. set (S := in_column G v) in *. set (nx := g_nx (c r)) in *.
    destruct (pr_nx _ _ _ _ PR r Hr) as (Hx & Hhx). fold h nx in Hx, Hhx. pose proof (columns_le v nx) as Hc.
    assert (Cmp : forall a b, a < b -> a * S + q < b * S) by (intros a b Hab; nia).
    assert (Cmp' : forall a b, a <= b -> a * S <= b * S + q) by (intros a b Hab; nia).
    assert (Outs : forall left, recv_guard c (citem G left v) r = true ->
              (if left then i < h + columns v nx else h <= i) ->
              i * S + q < i_to (citem G left v) nx \/ i_to (citem G left v) nx + i_count (citem G left v) <= i * S + q).
    { intros left _ Hl. rewrite to_columns, count_columns by assumption. fold h S. destruct left; [left|right].
      - apply Cmp. exact Hl.
      - rewrite Nat.mul_0_l, Nat.add_0_l. apply Cmp'. exact Hl. }
    destruct (Nat.lt_ge_cases i h) as [Hi1|Hi1]; [|destruct (Nat.lt_ge_cases i (h + columns v nx)) as [Hi2|Hi2]].
    - (* left halo: from the left neighbour *)
      assert (Hin : In (citem G false v) (courants_plan G)) by (apply courant_items; split; [fold h; lia|exists false, v; split; [exact Hv|reflexivity]]).
      assert (Hg : recv_guard c (citem G false v) r = true) by (unfold recv_guard; rewrite citem_left; now apply HL).
      assert (E : mem_after size (courants_plan G) c m0 r (length (courants_plan G)) (i_var (citem G false v)) (i * S + q) = m0 (from_of size (citem G false v) r) (i_var (citem G false v)) (i_from (citem G false v) (g_nx (c (from_of size (citem G false v) r))) + (i * S + q - i_to (citem G false v) (g_nx (c r))))).
      { apply received; [exact Hin|exact Hg| |].
        - rewrite to_columns, count_columns by assumption. fold h S. rewrite Nat.mul_0_l, Nat.add_0_l. split; [lia|]. now apply Cmp.
        - intros it' Hin' Ev Hg'. apply courant_items in Hin'. destruct Hin' as (_ & left & v' & Hv' & ->). rewrite !citem_var in Ev by assumption. subst v'.
          destruct left; [right; apply (Outs true Hg'); lia|left; reflexivity]. }
      rewrite citem_var in E by assumption. rewrite E. clear E. unfold from_of. rewrite citem_left. set (l := lft_rank size r) in *.
      assert (Hl : l < size) by (apply lft_lt; assumption). destruct (pr_nx _ _ _ _ PR l Hl) as (Hx' & Hhx'). fold h in Hhx'. pose proof (columns_le v (g_nx (c l))).
      rewrite from_columns, to_columns by assumption. fold h S. rewrite Nat.mul_0_l, Nat.sub_0_r.
      replace (g_nx (c l) * S + (i * S + q)) with ((h + (g_nx (c l) + i - h)) * S + q) by (replace (h + (g_nx (c l) + i - h)) with (g_nx (c l) + i) by lia; ring).
      etransitivity; [exact (HF l Hl v (g_nx (c l) + i - h) q Hv ltac:(lia) Hq)|].
      assert (Er : rgt_rank size l = r) by (apply rgt_lft; assumption). destruct (before_rgt l Hl) as (B1 & B2). rewrite Er in B1, B2.
      destruct (Nat.eq_dec l (size - 1)) as [El|El].
      + destruct (B2 El) as (B3 & B4). assert (Hopen : open = false).
        { destruct (Bool.bool_dec open false) as [Ho|Ho]; [exact Ho|exfalso]. apply Bool.not_false_is_true in Ho. assert (R0 : r = 0) by (unfold l, lft_rank in El; destruct (Nat.ltb_spec 0 r); lia).
          pose proof (HL Hi1) as X. pose proof (bL r Hr) as Y. rewrite X, Ho, R0 in Y. discriminate Y. }
        rewrite <- (Per Hopen v (Z.of_nat (before c r) + Z.of_nat i - Z.of_nat h)%Z q). f_equal. lia.
      + specialize (B1 ltac:(lia)). f_equal. lia.
    - (* inside *)
      rewrite missed.
      + replace i with (h + (i - h)) by lia. etransitivity; [exact (HF r Hr v (i - h) q Hv ltac:(fold nx; lia) Hq)|]. f_equal. lia.
      + intros it Hin Ev Hg. apply courant_items in Hin. destruct Hin as (_ & left & v' & Hv' & ->). rewrite citem_var in Ev by assumption. subst v'.
        apply (Outs left Hg). destruct left; lia.
    - (* right halo *)
      assert (Hin : In (citem G true v) (courants_plan G)) by (apply courant_items; split; [fold h; lia|exists true, v; split; [exact Hv|reflexivity]]).
      assert (Hg : recv_guard c (citem G true v) r = true) by (unfold recv_guard; rewrite citem_left; now apply HR).
      assert (E : mem_after size (courants_plan G) c m0 r (length (courants_plan G)) (i_var (citem G true v)) (i * S + q) = m0 (from_of size (citem G true v) r) (i_var (citem G true v)) (i_from (citem G true v) (g_nx (c (from_of size (citem G true v) r))) + (i * S + q - i_to (citem G true v) (g_nx (c r))))).
      { apply received; [exact Hin|exact Hg| |].
        - rewrite to_columns, count_columns by assumption. fold h S nx. split; [now apply Cmp'|]. rewrite <- Nat.mul_add_distr_r. now apply Cmp.
        - intros it' Hin' Ev Hg'. apply courant_items in Hin'. destruct Hin' as (_ & left & v' & Hv' & ->). rewrite !citem_var in Ev by assumption. subst v'.
          destruct left; [left; reflexivity|right; apply (Outs false Hg'); lia]. }
      rewrite citem_var in E by assumption. rewrite E. clear E. unfold from_of. rewrite citem_left. set (l := rgt_rank size r) in *.
      assert (Hl : l < size) by (apply rgt_lt; assumption). destruct (pr_nx _ _ _ _ PR l Hl) as (Hx' & Hhx'). fold h in Hhx'. pose proof (columns_le v (g_nx (c l))).
      rewrite from_columns, to_columns by assumption. fold h S nx. rewrite (columns_extra v (g_nx (c l)) nx).
      set (e := columns v nx - nx) in *. assert (He : columns v (g_nx (c l)) = g_nx (c l) + e) by (pose proof (columns_extra v (g_nx (c l)) nx); lia).
      set (t := i - (h + columns v nx)). assert (Ei : i = h + columns v nx + t) by lia. assert (Ht : t < h) by lia.
      replace ((h + e) * S + (i * S + q - (h + columns v nx) * S)) with ((h + (e + t)) * S + q).
      2:{ rewrite Ei. rewrite !Nat.mul_add_distr_r. lia. }
      etransitivity; [exact (HF l Hl v (e + t) q Hv ltac:(lia) Hq)|].
      destruct (before_rgt r Hr) as (B1 & B2). fold l nx in B1, B2.
      destruct (Nat.eq_dec r (size - 1)) as [El|El].
      + destruct (B2 El) as (B3 & B4). assert (Hopen : open = false).
        { destruct (Bool.bool_dec open false) as [Ho|Ho]; [exact Ho|exfalso]. apply Bool.not_false_is_true in Ho. pose proof (HR Hi2) as X. pose proof (bR r Hr) as Y. rewrite X, Ho in Y. rewrite El, Nat.eqb_refl in Y. discriminate Y. }
        rewrite B3. rewrite <- (Per Hopen v (Z.of_nat 0 + Z.of_nat (e + t))%Z q). f_equal. lia.
      + rewrite (B1 ltac:(lia)). f_equal. lia.
  Qed.
End Processes.

(** ** Theorems *)
(** C83, no deadlock: with any number of processes, every schedule of calls and of the MPI library comes to an end after at most
    4 (number of exchanges) (number of processes) steps, and it can only end when all calls have returned; then no message is left *)
Theorem C83_ends : forall size G open c m0 N g,
  processes size G open c -> csteps size (courants_plan G) c N (cstart m0) g ->
  N <= 4 * length (courants_plan G) * size /\
  ((forall g', ~ cstep size (courants_plan G) c g g') -> finished size (courants_plan G) g /\ cnet g = []).
Proof.
  intros size G open c m0 N g PR H. pose proof (courants_ok _ _ _ _ PR) as OK. pose proof (inv_start size (courants_plan G) c m0) as I0.
  pose proof (inv_steps _ _ _ m0 OK _ _ _ H I0) as I. split.
  - pose proof (steps_bound _ _ _ m0 OK _ _ _ H I0) as B. rewrite measure_start in B. lia.
  - intros Hst. assert (F : finished size (courants_plan G) g).
    { assert (Dec : finished size (courants_plan G) g \/ ~ finished size (courants_plan G) g).
      { unfold finished. clear. induction size as [|s IH]; [left; intros; lia|]. destruct IH as [IH|IH].
        - destruct (Nat.eq_dec (cpc g s) (2 * length (courants_plan G))) as [E|E].
          + left. intros r Hr. destruct (Nat.eq_dec r s) as [->|]; [exact E|apply IH; lia].
          + right. intros Q. apply E, Q. lia.
        - right. intros Q. apply IH. intros r Hr. apply Q. lia. }
      destruct Dec as [F|F]; [exact F|exfalso]. destruct (progress _ _ _ m0 OK g I F) as (g' & Hg'). exact (Hst g' Hg'). }
    split; [exact F|]. exact (final_net _ _ _ m0 g I F).
Qed.
(** C83, result: if the arrays of the processes together hold a field of the whole domain (periodic in x unless the walls are open),
    then, for every schedule, each process has the values of that field also in its halo *)
Theorem C83_halo : forall size G open c F m0 N g,
  processes size G open c ->
  (open = false -> forall v x q, F v (x + Z.of_nat (before c size))%Z q = F v x q) ->
  (forall r, r < size -> holds G c F r (m0 r)) ->
  csteps size (courants_plan G) c N (cstart m0) g -> (forall g', ~ cstep size (courants_plan G) c g g') ->
  forall r, r < size -> holds_with_halo G c F r (cmem g r).
Proof.
  intros size G open c F m0 N g PR Per HF H Hst r Hr. destruct (C83_ends _ _ _ _ _ _ _ PR H) as (_ & E). destruct (E Hst) as (Fin & _).
  pose proof (courants_ok _ _ _ _ PR) as OK. pose proof (inv_steps _ _ _ m0 OK _ _ _ H (inv_start size (courants_plan G) c m0)) as I.
  intros v i q Hv Hi Hq HL HR. rewrite (final_mem _ _ _ m0 g I Fin r v _ Hr). exact (halo_filled _ _ _ _ PR F m0 r Per HF Hr v i q Hv Hi Hq HL HR).
Qed.
(** C83, nothing else is written, and every access is within the arrays *)
Theorem C83_only_halo : forall size G open c m0 N g,
  processes size G open c -> csteps size (courants_plan G) c N (cstart m0) g ->
  forall r v j, r < size ->
    (has G v -> (g_bL (c r) = true -> g_halo G * in_column G v <= j) /\ (g_bR (c r) = true -> j < (g_halo G + columns v (g_nx (c r))) * in_column G v)) ->
    cmem g r v j = m0 r v j.
Proof.
  intros size G open c m0 N g PR H r v j Hr Hout. pose proof (courants_ok _ _ _ _ PR) as OK. pose proof (inv_steps _ _ _ m0 OK _ _ _ H (inv_start size (courants_plan G) c m0)) as I.
  rewrite (inv_mem _ _ _ _ _ I r v j Hr). apply missed. intros it Hin Ev Hg. apply courant_items in Hin. destruct Hin as (_ & left & v' & Hv' & ->).
  rewrite citem_var in Ev by assumption. subst v'. unfold recv_guard in Hg. rewrite citem_left in Hg. pose proof (pr_dims _ _ _ _ PR) as D.
  rewrite to_columns, count_columns by assumption. destruct left; [left|right].
  - apply (Hout Hv'), Hg.
  - rewrite Nat.mul_0_l, Nat.add_0_l. apply (Hout Hv'), Hg.
Qed.

Theorem C83_in_bounds : forall size G open c r it,
  processes size G open c -> r < size -> In it (courants_plan G) ->
  let array := match i_var it with VX => size_x G | VY => size_y G | _ => size_z G end in
  i_from it (g_nx (c r)) + i_count it <= array (g_nx (c r)) /\ i_to it (g_nx (c r)) + i_count it <= array (g_nx (c r)).
Proof.
  intros size G open c r it PR Hr Hin. apply courant_items in Hin. destruct Hin as (_ & left & v & Hv & ->). cbv zeta. rewrite citem_var by assumption.
  pose proof (pr_dims _ _ _ _ PR) as D. destruct (pr_nx _ _ _ _ PR r Hr) as (Hx & Hh). pose proof (columns_le v (g_nx (c r))) as Hc.
  pose proof (size_columns G v (g_nx (c r)) D Hv) as Es.
  assert (Es' : (match v with VX => size_x G | VY => size_y G | _ => size_z G end) (g_nx (c r)) = (g_halo G + columns v (g_nx (c r)) + g_halo G) * in_column G v) by (destruct v; exact Es).
  rewrite Es', from_columns, to_columns, count_columns by assumption. rewrite <- !Nat.mul_add_distr_r. split; apply Nat.mul_le_mono_r; destruct left; lia.
Qed.

(** C83, domains: each process learns where the neighbours' domains end *)
Lemma domains_ok size G open c : processes size G open c -> plan_ok size domains_plan c.
Proof.
  intros PR. constructor.
  - cbn. repeat constructor; cbn; intuition discriminate.
  - exact (ring_ok _ _ _ _ PR).
  - intros a b r Ha Hb _ _ _ _. cbn in Ha, Hb. destruct Ha as [<-|[<-|[]]], Hb as [<-|[<-|[]]]; cbn; lia.
Qed.
(** element 0 of VD is x0, 1 is x1, 2 is lft_x1, 3 is rgt_x0 *)
Theorem C83_domains : forall size G open c m0 N g,
  processes size G open c -> csteps size domains_plan c N (cstart m0) g ->
  N <= 8 * size /\
  ((forall g', ~ cstep size domains_plan c g g') ->
   forall r, r < size ->
     (g_bL (c r) = true -> cmem g r VD 2 = m0 (lft_rank size r) VD 1) /\ (g_bR (c r) = true -> cmem g r VD 3 = m0 (rgt_rank size r) VD 0) /\
     cmem g r VD 0 = m0 r VD 0 /\ cmem g r VD 1 = m0 r VD 1).
Proof.
  intros size G open c m0 N g PR H. pose proof (domains_ok _ _ _ _ PR) as OK. pose proof (inv_start size domains_plan c m0) as I0.
  pose proof (inv_steps _ _ _ m0 OK _ _ _ H I0) as I. split.
  - pose proof (steps_bound _ _ _ m0 OK _ _ _ H I0) as B. rewrite measure_start in B. cbn [length domains_plan] in B. lia.
  - intros Hst r Hr. assert (F : finished size domains_plan g).
    { assert (Dec : finished size domains_plan g \/ ~ finished size domains_plan g).
      { unfold finished. clear. induction size as [|s IH]; [left; intros; lia|]. destruct IH as [IH|IH].
        - destruct (Nat.eq_dec (cpc g s) (2 * length domains_plan)) as [E|E].
          + left. intros r Hr. destruct (Nat.eq_dec r s) as [->|]; [exact E|apply IH; lia].
          + right. intros Q. apply E, Q. lia.
        - right. intros Q. apply IH. intros r Hr. apply Q. lia. }
      destruct Dec as [F|F]; [exact F|exfalso]. destruct (progress _ _ _ m0 OK g I F) as (g' & Hg'). exact (Hst g' Hg'). }
    rewrite !(final_mem _ _ _ m0 g I F r VD _ Hr). cbn [length domains_plan mem_after nth_error]. unfold recv_guard, from_of. cbn [i_left].
    split; [|split; [|split]].
    + intros ->. destruct (g_bR (c r)); reflexivity.
    + intros ->. destruct (g_bL (c r)); reflexivity.
    + destruct (g_bL (c r)), (g_bR (c r)); reflexivity.
    + destruct (g_bL (c r)), (g_bR (c r)); reflexivity.
Qed.

(** C83, buffers after init: MPI_Isend is never waited for.  In init the exchange of domain edges follows that of Courant numbers; once a
    process has got through both, MPI no longer reads its arrays of Courant numbers (the host may pass new ones) *)
Definition init_plan (G : grid) : list item := courants_plan G ++ domains_plan.
Lemma init_ok size G open c : processes size G open c -> plan_ok size (init_plan G) c.
Proof.
  intros PR. constructor.
  - unfold init_plan, courants_plan. destruct (g_halo G =? 0); [cbn; repeat constructor; cbn; intuition discriminate|]. unfold turn.
    destruct (0 <? g_dims G), (1 <? g_dims G), (2 <? g_dims G); cbn; unfold cx_tag, cy_tag, cz_tag; repeat constructor; cbn; intuition discriminate.
  - exact (ring_ok _ _ _ _ PR).
  - intros a b r Ha Hb Ev Hr Ga Gb. unfold init_plan in Ha, Hb. apply in_app_or in Ha, Hb.
    assert (V : forall x, In x (courants_plan G) -> i_var x <> VD).
    { intros x Hx. apply courant_items in Hx. destruct Hx as (_ & left & v & Hv & ->). rewrite citem_var by assumption. intros ->. exact Hv. }
    assert (V' : forall x, In x domains_plan -> i_var x = VD) by (intros x [<-|[<-|[]]]; reflexivity).
    destruct Ha as [Ha|Ha], Hb as [Hb|Hb].
    + exact (po_apart _ _ _ (courants_ok _ _ _ _ PR) a b r Ha Hb Ev Hr Ga Gb).
    + exfalso. apply (V a Ha). rewrite Ev. now apply V'.
    + exfalso. apply (V b Hb). rewrite <- Ev. now apply V'.
    + exact (po_apart _ _ _ (domains_ok _ _ _ _ PR) a b r Ha Hb Ev Hr Ga Gb).
Qed.
Theorem C83_init_buffers : forall size G open c m0 N g r,
  processes size G open c -> csteps size (init_plan G) c N (cstart m0) g -> r < size -> cpc g r = 2 * length (init_plan G) ->
  forall m, In m (cnet g) -> m_src m = r -> m_var m = VD.
Proof.
  intros size G open c m0 N g r PR H Hr Hp m Hm Er. pose proof (init_ok _ _ _ _ PR) as OK.
  pose proof (inv_steps _ _ _ m0 OK _ _ _ H (inv_start size (init_plan G) c m0)) as I.
  destruct (inv_msg _ _ _ _ _ I m Hm) as (k & it & A1 & A2 & A3 & A4 & A5 & A6 & A7 & A8 & A9 & A10 & A11). rewrite Er in *.
  assert (L : length (init_plan G) = length (courants_plan G) + 2) by (unfold init_plan; rewrite app_length; reflexivity).
  destruct (Nat.lt_ge_cases k (length (courants_plan G))) as [Hk|Hk].
  - exfalso.
    (* the destination has sent something of the second part to r *)
    assert (Q : forall b : bool, (if b then g_bR (c r) else g_bL (c r)) = true -> from_of size (mk_item b 0 VD (fun _ => 0) (fun _ => 0) 0) r = m_dst m -> False).
    { intros b Gb Eb.
      assert (Hit2 : nth_error (init_plan G) (length (courants_plan G) + (if b then 1 else 0)) = Some (if b then mk_item true 1 VD (fun _ => 0) (fun _ => 3) 1 else mk_item false 0 VD (fun _ => 1) (fun _ => 2) 1)).
      { unfold init_plan. rewrite nth_error_app2 by lia. replace (length (courants_plan G) + (if b then 1 else 0) - length (courants_plan G)) with (if b then 1 else 0) by lia. destruct b; reflexivity. }
      pose proof (inv_after _ _ _ _ _ I r _ _ Hr Hit2) as X. rewrite Hp, L in X.
      assert (G2 : recv_guard c (if b then mk_item true 1 VD (fun _ => 0) (fun _ => 3) 1 else mk_item false 0 VD (fun _ => 1) (fun _ => 2) 1) r = true) by (destruct b; exact Gb).
      specialize (X G2 ltac:(destruct b; lia)).
      assert (E2 : from_of size (if b then mk_item true 1 VD (fun _ => 0) (fun _ => 3) 1 else mk_item false 0 VD (fun _ => 1) (fun _ => 2) 1) r = m_dst m) by (rewrite <- Eb; destruct b; reflexivity).
      rewrite E2 in X. lia. }
    unfold send_guard in A3. unfold to_of in A4. destruct (i_left it).
    + apply (Q false A3). cbn. now rewrite A4.
    + apply (Q true A3). cbn. now rewrite A4.
  - unfold init_plan in A1. rewrite nth_error_app2 in A1 by lia. rewrite A6. apply nth_error_In in A1. destruct A1 as [<-|[<-|[]]]; reflexivity.
Qed.

(** ** Executions, to show that the hypotheses can be met *)
Inductive act := Go (r : nat) | Rd (i : nat).
Fixpoint take_first (p : msg -> bool) (l : list msg) : option (list msg * msg * list msg) :=
  match l with
  | [] => None
  | m :: l => if p m then Some ([], m, l) else match take_first p l with Some (l1, x, l2) => Some (m :: l1, x, l2) | None => None end
  end.
Lemma take_first_spec p l l1 m l2 : take_first p l = Some (l1, m, l2) -> l = l1 ++ m :: l2 /\ p m = true /\ forall x, In x l1 -> p x = false.
Proof.
  revert l1 m l2. induction l as [|a l IH]; intros l1 m l2 H; [discriminate|]. cbn in H. destruct (p a) eqn:E.
  - injection H as <- <- <-. split; [reflexivity|]. split; [exact E|]. intros x [].
  - destruct (take_first p l) as [[[l1' x] l2']|]; [|discriminate]. injection H as <- <- <-. destruct (IH _ _ _ eq_refl) as (-> & Hx & Hn).
    split; [reflexivity|]. split; [exact Hx|]. intros y [<-|Hy]; auto.
Qed.
Section Exec.
  Variables (size : nat) (plan : list item) (c : nat -> rankg).
  Definition do_act (a : act) (g : csys) : option csys :=
    match a with
    | Go r =>
      if r <? size then
        let k := cpc g r / 2 in
        match nth_error plan k with
        | None => None
        | Some it =>
          if Nat.eqb (cpc g r) (2 * k) then
            Some (mk_csys (updf (cpc g) r (2 * k + 1)) (cmem g) (if send_guard c it r then cnet g ++ [sent size c it r] else cnet g))
          else if Nat.eqb (cpc g r) (2 * k + 1) then
            if recv_guard c it r then
              match take_first (accepts size it r) (cnet g) with
              | Some (l1, m, l2) =>
                match m_data m with
                | Some d => if length d <=? i_count it then
                    Some (mk_csys (updf (cpc g) r (2 * k + 2)) (updf (cmem g) r (set_var (i_var it) (write (i_to it (g_nx (c r))) d (cmem g r (i_var it))) (cmem g r))) (l1 ++ l2)) else None
                | None => None
                end
              | None => None
              end
            else Some (mk_csys (updf (cpc g) r (2 * k + 2)) (cmem g) (cnet g))
          else None
        end
      else None
    | Rd i =>
      match nth_error (cnet g) i with
      | Some m => match m_data m with
                  | None => Some (mk_csys (cpc g) (cmem g) (firstn i (cnet g) ++ with_data m (map (cmem g (m_src m) (m_var m)) (seq (m_off m) (m_cnt m))) :: skipn (S i) (cnet g)))
                  | Some _ => None
                  end
      | None => None
      end
    end.
  Fixpoint do_acts (l : list act) (g : csys) : option csys :=
    match l with [] => Some g | a :: l => match do_act a g with Some g' => do_acts l g' | None => None end end.
  Lemma do_act_step a g g' : do_act a g = Some g' -> cstep size plan c g g'.
  Proof.
    destruct a as [r|i]; cbn [do_act].
    - destruct (Nat.ltb_spec r size) as [Hr|]; [|discriminate]. set (k := cpc g r / 2). destruct (nth_error plan k) as [it|] eqn:Hit; [|discriminate].
      destruct (Nat.eqb_spec (cpc g r) (2 * k)) as [Hp|_].
      + destruct (send_guard c it r) eqn:Hg; intros [= <-]; [now apply c_send|now apply (c_no_send size plan c g r k it)].
      + destruct (Nat.eqb_spec (cpc g r) (2 * k + 1)) as [Hp|_]; [|discriminate]. destruct (recv_guard c it r) eqn:Hg.
        * destruct (take_first _ _) as [[[l1 m] l2]|] eqn:Et; [|discriminate]. destruct (take_first_spec _ _ _ _ _ Et) as (E & Hm & Hn).
          destruct (m_data m) as [d|] eqn:Ed; [|discriminate]. destruct (Nat.leb_spec (length d) (i_count it)); [|discriminate]. intros [= <-].
          now apply (c_recv size plan c g r k it l1 m l2 d).
        * intros [= <-]. now apply (c_no_recv size plan c g r k it).
    - destruct (nth_error (cnet g) i) as [m|] eqn:E; [|discriminate]. destruct (m_data m) eqn:Ed; [discriminate|]. intros [= <-].
      apply c_read; [|exact Ed]. clear Ed. revert i E. induction (cnet g) as [|a l IH]; intros [|i] E; cbn in E; try discriminate.
      + injection E as ->. reflexivity.
      + cbn. f_equal. now apply IH.
  Qed.
  Lemma do_acts_steps l : forall g g', do_acts l g = Some g' -> csteps size plan c (length l) g g'.
  Proof.
    induction l as [|a l IH]; intros g g' H; cbn in H; [injection H as <-; constructor|]. destruct (do_act a g) as [g1|] eqn:E; [|discriminate].
    apply cs_S with g1; [now apply (do_act_step a)|now apply IH].
  Qed.
End Exec.

(** two processes in one dimension, periodic, nx cells each *)
Definition line : grid := mk_grid 1 0 0 2.
Definition two (nx : nat) (r : nat) : rankg := mk_rankg nx true true.
Lemma two_processes nx : 2 <= nx -> processes 2 line false (two nx).
Proof. intros H. constructor; [lia|left; cbn; lia|reflexivity|]. intros r Hr. cbn. lia. Qed.
(** a field of edge Courant numbers with period 2 nx, and arrays whose halo has the value 7 *)
Definition edge_field (nx : nat) (v : var) (x : Z) (q : nat) : R := IZR (x mod (2 * Z.of_nat nx)).
Definition arrays (nx : nat) (r : nat) (v : var) (j : nat) : R :=
  if (2 <=? j) && (j <? nx + 3) then edge_field nx v (Z.of_nat (before (two nx) r) + Z.of_nat j - 2) 0 else 7%R.
Lemma arrays_hold nx : forall r, holds line (two nx) (edge_field nx) r (arrays nx r).
Proof.
  intros r v i q Hv Hi Hq. destruct v; cbn in Hv; try lia. cbn [in_column line g_dims Nat.ltb Nat.leb] in *. cbn [g_halo columns two g_nx] in *.
  change (if 1 <? 2 then 1 else (if 1 <? 3 then 1 else 0) * 0) with 1 in *. assert (q = 0) by lia. subst q.
  change (g_halo line) with 2. unfold arrays. destruct (Nat.leb_spec 2 ((2 + i) * 1 + 0)); [|lia]. destruct (Nat.ltb_spec ((2 + i) * 1 + 0) (nx + 3)); [|lia]. cbn [andb]. unfold edge_field. apply (f_equal IZR). apply (f_equal (fun a => (a mod (2 * Z.of_nat nx))%Z)). lia.
Qed.
Definition both (k : nat) : list act := [Go 0; Go 1; Rd 0; Rd 1; Go 0; Go 1].
Definition exchange : list act := both 0 ++ both 1.
(** the whole exchange between two processes with three cells each: from the values 0..3 and 3, 4, 5, 0 in the arrays, the field with
    its halo of two *)
Theorem C83_instance :
  processes 2 line false (two 3) /\ (forall r, r < 2 -> holds line (two 3) (edge_field 3) r (arrays 3 r)) /\
  exists g, csteps 2 (courants_plan line) (two 3) 12 (cstart (arrays 3)) g /\ (forall g', ~ cstep 2 (courants_plan line) (two 3) g g') /\
    map (cmem g 0 VX) (seq 0 8) = [4; 5; 0; 1; 2; 3; 4; 5]%R /\ map (cmem g 1 VX) (seq 0 8) = [1; 2; 3; 4; 5; 0; 1; 2]%R.
Proof.
  split; [apply two_processes; lia|]. split; [intros; apply arrays_hold|].
  destruct (do_acts 2 (courants_plan line) (two 3) exchange (cstart (arrays 3))) as [g|] eqn:E; [|vm_compute in E; discriminate].
  exists g. split; [exact (do_acts_steps _ _ _ _ _ _ E)|].
  assert (Fin : (cpc g 0 = 4 /\ cpc g 1 = 4) /\ cnet g = []) by (vm_compute in E; injection E as <-; repeat split; reflexivity).
  split.
  - intros g' H. destruct Fin as ((F0 & F1) & Fn). assert (P : forall r k, r < 2 -> cpc g r = 2 * k \/ cpc g r = 2 * k + 1 -> nth_error (courants_plan line) k = None).
    { intros r k Hr Hk. apply nth_error_None. cbn. destruct r as [|[|r]]; lia. }
    inversion H; subst; try (rewrite (P r k) in *; [discriminate|assumption|tauto]). rewrite Fn in H0. destruct l1; discriminate.
  - vm_compute in E. injection E as <-. split; cbn -[IZR]; reflexivity.
Qed.
(** with a single cell per process the halo of two gets values from the halo of the neighbour, here 7 instead of 0 *)
Theorem C83_narrow_refuted :
  exists c F m0 N g,
    (forall r, r < 2 -> (g_bL (c r), g_bR (c r)) = bcond_of false r 2 /\ 0 < g_nx (c r)) /\
    (forall v x q, F v (x + Z.of_nat (before c 2))%Z q = F v x q) /\ (forall r, r < 2 -> holds line c F r (m0 r)) /\
    csteps 2 (courants_plan line) c N (cstart m0) g /\ (forall r, r < 2 -> cpc g r = 2 * length (courants_plan line)) /\
    cmem g 0 VX 0 <> F VX (-2)%Z 0 /\ ~ holds_with_halo line c F 0 (cmem g 0).
Proof.
  destruct (do_acts 2 (courants_plan line) (two 1) exchange (cstart (arrays 1))) as [g|] eqn:E; [|vm_compute in E; discriminate].
  exists (two 1), (edge_field 1), (arrays 1), 12, g. split; [intros; cbn; split; [reflexivity|lia]|].
  split; [intros v x q; unfold edge_field; f_equal; replace (Z.of_nat (before (two 1) 2)) with 2%Z by reflexivity; replace (2 * Z.of_nat 1)%Z with 2%Z by reflexivity; rewrite <- (Z.mul_1_l 2) at 1; apply Z_mod_plus_full|].
  split; [intros; apply arrays_hold|]. split; [exact (do_acts_steps _ _ _ _ _ _ E)|].
  assert (V : cmem g 0 VX 0 = 7%R) by (vm_compute in E; injection E as <-; reflexivity).
  split; [intros r Hr; vm_compute in E; injection E as <-; destruct r as [|[|r]]; [reflexivity..|lia]|].
  assert (W : edge_field 1 VX (-2) 0 = 0%R) by reflexivity.
  split; [rewrite V, W; lra|]. intros Q. specialize (Q VX 0 0). cbn [has line g_dims g_halo columns two g_nx in_column Nat.ltb Nat.leb before g_bL g_bR] in Q.
  specialize (Q ltac:(lia) ltac:(lia) ltac:(lia) ltac:(reflexivity) ltac:(reflexivity)). change (0 * 1 + 0) with 0 in Q.
  change (Z.of_nat 0 + Z.of_nat 0 - Z.of_nat 2)%Z with (-2)%Z in Q. rewrite V, W in Q. lra.
Qed.
(** without the second exchange, a process may have returned while MPI has still to read its array *)
Theorem C83_buffer_refuted :
  exists N g, csteps 2 (courants_plan line) (two 3) N (cstart (arrays 3)) g /\ cpc g 0 = 2 * length (courants_plan line) /\
    exists m, In m (cnet g) /\ m_src m = 0 /\ m_var m = VX /\ m_data m = None.
Proof.
  destruct (do_acts 2 (courants_plan line) (two 3) (both 0 ++ [Go 1; Go 0; Rd 0; Go 0]) (cstart (arrays 3))) as [g|] eqn:E; [|vm_compute in E; discriminate].
  exists 10, g. split; [exact (do_acts_steps _ _ _ _ _ _ E)|]. vm_compute in E. injection E as <-. split; [reflexivity|]. cbn. eexists. split; [left; reflexivity|]. repeat split.
Qed.

Print Assumptions C83_ends.
Print Assumptions C83_halo.
Print Assumptions C83_only_halo.
Print Assumptions C83_in_bounds.
Print Assumptions C83_domains.
Print Assumptions C83_init_buffers.
Print Assumptions C83_instance.
Print Assumptions C83_narrow_refuted.
Print Assumptions C83_buffer_refuted.
