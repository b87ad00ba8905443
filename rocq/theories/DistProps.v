(** C15: decomposition of the domain among devices. *)
From Coq Require Import List Arith NArith ZArith Reals Bool Lia Lra Psatz.
From Verif Require Import Base BaseProofs DistModel.
Import ListNotations.
Local Open Scope R_scope.

(** the options of device r, the number of columns before it, and the position in the whole domain of a point
    with local coordinate x *)
Definition dev (o : dopts) (size r : nat) : dopts := fst (distmem_opts o r size).
Definition before (o : dopts) (size r : nat) : nat := snd (distmem_opts o r size).
Definition globally (o : dopts) (size r : nat) (x : R) : R := x + INR (before o size r) * d_dx o.

Definition q_of (o : dopts) (size : nat) : nat := (d_nx o / size)%nat.

Lemma dev_eq o size r :
  let bfr := (r * get_dev_nx (d_nx o) 0 size)%nat in
  let nx := get_dev_nx (d_nx o) r size in
  let x0 := if (r =? 0)%nat then d_x0 o else 0 in
  let x1 := if (r =? size - 1)%nat then d_x1 o - INR bfr * d_dx o else INR nx * d_dx o in
  let s0 := d_src_x0 o - INR bfr * d_dx o in
  let s1 := d_src_x1 o - INR bfr * d_dx o in
  d_nx (dev o size r) = nx /\ before o size r = bfr /\ d_x0 (dev o size r) = x0 /\ d_x1 (dev o size r) = x1 /\
  d_dx (dev o size r) = d_dx o /\
  d_src_x0 (dev o size r) = (if Rleb s1 x0 || Rleb x1 s0 then 0 else if Rltb s0 x0 then x0 else s0) /\
  d_src_x1 (dev o size r) = (if Rleb s1 x0 || Rleb x1 s0 then 0 else if Rltb x1 s1 then x1 else s1) /\
  d_n_sd_max (dev o size r) = (d_n_sd_max o / N.of_nat size + 1)%N /\
  d_rlx_sd_per_bin (dev o size r) = d_rlx_sd_per_bin o / INR size.
Proof.
  cbv zeta. unfold dev, before, distmem_opts.
  destruct (Rleb _ _ || Rleb _ _); cbn; auto 20.
Qed.

Lemma before_eq o size r : (0 < size)%nat -> (r < size)%nat -> before o size r = (r * q_of o size)%nat.
Proof.
  intros Hs Hr. destruct (dev_eq o size r) as [_ [-> _]]. unfold get_dev_nx, q_of.
  destruct (Nat.ltb_spec 0 (size - 1)); auto. assert (size = 1)%nat by lia. subst. assert (r = 0)%nat by lia. subst. reflexivity.
Qed.
Lemma nx_eq o size r : (0 < size)%nat -> (r < size)%nat ->
  d_nx (dev o size r) = if (r <? size - 1)%nat then q_of o size else (d_nx o - r * q_of o size)%nat.
Proof. intros Hs Hr. destruct (dev_eq o size r) as [-> _]. reflexivity. Qed.

Lemma q_mul o size : (0 < size)%nat -> (size * q_of o size <= d_nx o)%nat.
Proof. intros H. unfold q_of. apply Nat.mul_div_le. lia. Qed.
Lemma q_pos o size : (0 < size)%nat -> (size <= d_nx o)%nat -> (1 <= q_of o size)%nat.
Proof. intros H H1. unfold q_of. apply Nat.div_le_lower_bound; lia. Qed.

(** The columns of the whole domain are shared out: the ranges of columns of consecutive devices are adjacent,
    the first starts at 0 and the last ends at nx, and every device has at least one column. *)
Theorem C15_columns : forall o size, device_count_ok (d_nx o) size = true ->
  before o size 0 = 0%nat /\
  (forall r, (r + 1 < size)%nat -> before o size (r + 1) = (before o size r + d_nx (dev o size r))%nat) /\
  (before o size (size - 1) + d_nx (dev o size (size - 1)) = d_nx o)%nat /\
  (forall r, (r < size)%nat -> (1 <= d_nx (dev o size r))%nat).
Proof.
  intros o size H. unfold device_count_ok in H. apply andb_prop in H. destruct H as [H1 H2].
  apply Nat.ltb_lt in H1. apply Nat.leb_le in H2.
  pose proof (q_mul o size H1). pose proof (q_pos o size H1 H2).
  split; [|split; [|split]].
  - rewrite before_eq by lia. reflexivity.
  - intros r Hr. rewrite !before_eq, nx_eq by lia. destruct (Nat.ltb_spec r (size - 1)); lia.
  - rewrite before_eq, nx_eq by lia. destruct (Nat.ltb_spec (size - 1) (size - 1)); [lia|].
    assert ((size - 1) * q_of o size <= d_nx o)%nat by nia. lia.
  - intros r Hr. rewrite nx_eq by lia. destruct (Nat.ltb_spec r (size - 1)); [lia|].
    assert (r = size - 1)%nat as -> by lia. nia.
Qed.

(** Every column belongs to exactly one device. *)
Theorem C15_every_column_once : forall o size k, device_count_ok (d_nx o) size = true -> (k < d_nx o)%nat ->
  exists! r, (r < size)%nat /\ (before o size r <= k < before o size r + d_nx (dev o size r))%nat.
Proof.
  intros o size k H Hk. unfold device_count_ok in H. apply andb_prop in H. destruct H as [H1 H2].
  apply Nat.ltb_lt in H1. apply Nat.leb_le in H2.
  pose proof (q_mul o size H1) as Hq. pose proof (q_pos o size H1 H2) as Hp.
  set (q := q_of o size) in *.
  set (r := if (k / q <? size - 1)%nat then (k / q)%nat else (size - 1)%nat).
  assert (Hr : (r < size)%nat) by (subst r; destruct (Nat.ltb_spec (k / q) (size - 1)); lia).
  assert (Hkq : (q * (k / q) <= k)%nat) by (apply Nat.mul_div_le; lia).
  assert (Hkq' : (k < q * S (k / q))%nat) by (apply Nat.mul_succ_div_gt; lia).
  exists r. split.
  - split; auto. rewrite before_eq, nx_eq by lia. fold q. subst r.
    destruct (Nat.ltb_spec (k / q) (size - 1)).
    + destruct (Nat.ltb_spec (k / q) (size - 1)); [|lia]. nia.
    + destruct (Nat.ltb_spec (size - 1) (size - 1)); [lia|].
      assert ((size - 1) * q <= d_nx o)%nat by nia. nia.
  - intros r' [Hr' Hin]. rewrite before_eq, nx_eq in Hin by lia. fold q in Hin. subst r.
    destruct (Nat.ltb_spec r' (size - 1)).
    + assert (k / q = r')%nat. { symmetry. apply Nat.div_unique with (k - r' * q)%nat; nia. }
      subst r'. destruct (Nat.ltb_spec (k / q) (size - 1)); lia.
    + assert (r' = size - 1)%nat as -> by lia.
      destruct (Nat.ltb_spec (k / q) (size - 1)); [|lia]. nia.
Qed.

(** The edges of adjacent devices coincide in the whole domain; the outermost ones are those of the domain. *)
Theorem C15_edges : forall o size, (0 < size)%nat ->
  globally o size 0 (d_x0 (dev o size 0)) = d_x0 o /\
  globally o size (size - 1) (d_x1 (dev o size (size - 1))) = d_x1 o /\
  forall r, (r + 1 < size)%nat ->
    globally o size r (d_x1 (dev o size r)) = globally o size (r + 1) (d_x0 (dev o size (r + 1))).
Proof.
  intros o size Hs. unfold globally. split; [|split].
  - rewrite before_eq by lia. destruct (dev_eq o size 0) as [_ [_ [-> _]]]. cbn. ring.
  - destruct (dev_eq o size (size - 1)) as [_ [-> [_ [-> _]]]]. rewrite Nat.eqb_refl. ring.
  - intros r Hr. rewrite !before_eq by lia.
    destruct (dev_eq o size r) as [E1 [_ [_ [-> _]]]]. rewrite <- E1, nx_eq by lia.
    destruct (dev_eq o size (r + 1)) as [_ [_ [-> _]]].
    destruct (Nat.eqb_spec r (size - 1)); [lia|]. destruct (Nat.eqb_spec (r + 1) 0); [lia|].
    destruct (Nat.ltb_spec r (size - 1)); [|lia].
    rewrite !mult_INR, plus_INR. change (INR 1) with 1. ring.
Qed.

(** left edges of the devices in the whole domain; the edge number [size] is the right end *)
Definition edge (o : dopts) (size r : nat) : R :=
  if (r =? 0)%nat then d_x0 o else if (r =? size)%nat then d_x1 o else INR (r * q_of o size) * d_dx o.

Lemma edges o size r : (0 < size)%nat -> (r < size)%nat ->
  globally o size r (d_x0 (dev o size r)) = edge o size r /\
  globally o size r (d_x1 (dev o size r)) = edge o size (S r).
Proof.
  intros Hs Hr. unfold globally, edge. rewrite before_eq by lia.
  destruct (dev_eq o size r) as [E1 [E2 [-> [-> _]]]]. rewrite before_eq in E2 by lia. rewrite <- E1, <- E2, nx_eq by lia. split.
  - destruct (Nat.eqb_spec r 0); [subst; cbn; ring|]. destruct (Nat.eqb_spec r size); [lia|ring].
  - destruct (Nat.eqb_spec (S r) 0); [lia|]. destruct (Nat.eqb_spec r (size - 1)), (Nat.eqb_spec (S r) size); try lia.
    + ring.
    + destruct (Nat.ltb_spec r (size - 1)); [|lia]. rewrite !mult_INR, S_INR. ring.
Qed.

(** the first device reaches beyond x0 and the last begins before x1 *)
Definition ends_fit (o : dopts) (size : nat) : Prop :=
  0 < d_dx o /\ 0 <= d_x0 o < d_x1 o /\
  ((1 < size)%nat -> d_x0 o < INR (q_of o size) * d_dx o /\ INR ((size - 1) * q_of o size) * d_dx o < d_x1 o).

Lemma edge_incr o size r : (0 < size)%nat -> (size <= d_nx o)%nat -> ends_fit o size -> (r < size)%nat ->
  edge o size r < edge o size (S r).
Proof.
  intros Hs Hn [Hdx [[H0 H1] H2]] Hr. pose proof (q_pos o size Hs Hn) as Hq. unfold edge.
  destruct (Nat.eqb_spec r 0) as [->|Hr0].
  - destruct (Nat.eqb_spec 1 0); [lia|]. destruct (Nat.eqb_spec 1 size) as [<-|]; auto.
    replace (1 * q_of o size)%nat with (q_of o size) by lia. apply H2. lia.
  - destruct (Nat.eqb_spec r size); [lia|]. destruct (Nat.eqb_spec (S r) 0); [lia|].
    assert (H2' := H2 ltac:(lia)). destruct (Nat.eqb_spec (S r) size).
    + replace r with (size - 1)%nat by lia. apply H2'.
    + apply Rmult_lt_compat_r; auto. apply lt_INR. nia.
Qed.
Lemma edge_mono o size r s : (0 < size)%nat -> (size <= d_nx o)%nat -> ends_fit o size ->
  (r <= s)%nat -> (s <= size)%nat -> edge o size r <= edge o size s.
Proof.
  intros Hs Hn He Hrs. induction Hrs as [|s Hrs IH]; intros H; [lra|].
  pose proof (edge_incr o size s Hs Hn He ltac:(lia)). specialize (IH ltac:(lia)). lra.
Qed.
Lemma edge_find o size X : (0 < size)%nat -> (size <= d_nx o)%nat -> ends_fit o size ->
  d_x0 o <= X < d_x1 o -> exists! r, (r < size)%nat /\ edge o size r <= X < edge o size (S r).
Proof.
  intros Hs Hn He HX.
  assert (F : forall n, (n <= size)%nat -> X < edge o size n -> exists r, (r < n)%nat /\ edge o size r <= X < edge o size (S r)).
  { induction n as [|n IH]; intros Hle Hlt.
    - unfold edge in Hlt. cbn in Hlt. lra.
    - destruct (Rlt_le_dec X (edge o size n)) as [Hl|Hl].
      + destruct IH as [r [A B]]; [lia|auto|]. exists r. split; [lia|auto].
      + exists n. split; [lia|lra]. }
  destruct (F size ltac:(lia)) as [r [A B]].
  { unfold edge. rewrite Nat.eqb_refl. destruct (Nat.eqb_spec size 0); [lia|lra]. }
  exists r. split; auto. intros r' [A' B'].
  destruct (Nat.lt_trichotomy r r') as [L|[L|L]]; auto; exfalso.
  - pose proof (edge_mono o size (S r) r' Hs Hn He ltac:(lia) ltac:(lia)). lra.
  - pose proof (edge_mono o size (S r') r Hs Hn He ltac:(lia) ltac:(lia)). lra.
Qed.
Lemma edge_in o size r X : (0 < size)%nat -> (size <= d_nx o)%nat -> ends_fit o size -> (r < size)%nat ->
  edge o size r <= X < edge o size (S r) -> d_x0 o <= X < d_x1 o.
Proof.
  intros Hs Hn He Hr HX.
  pose proof (edge_mono o size 0 r Hs Hn He ltac:(lia) ltac:(lia)) as A.
  pose proof (edge_mono o size (S r) size Hs Hn He ltac:(lia) ltac:(lia)) as B.
  unfold edge at 1 in A. cbn in A. unfold edge at 2 in B. rewrite Nat.eqb_refl in B.
  destruct (Nat.eqb_spec size 0); [lia|]. lra.
Qed.

(** X lies in [a,b) of device r's coordinates *)
Definition owns (o : dopts) (size r : nat) (a b X : R) : Prop :=
  globally o size r a <= X < globally o size r b.

(** The sub-domains partition the domain: a point belongs to the domain iff it belongs to the sub-domain of a
    device, and that device is unique - provided that x0 lies in the share of the first device and x1 in that of
    the last. *)
Theorem C15_domain_partial : forall o size X, device_count_ok (d_nx o) size = true -> ends_fit o size ->
  (d_x0 o <= X < d_x1 o <->
   exists! r, (r < size)%nat /\ owns o size r (d_x0 (dev o size r)) (d_x1 (dev o size r)) X).
Proof.
  intros o size X H He. unfold device_count_ok in H. apply andb_prop in H. destruct H as [H1 H2].
  apply Nat.ltb_lt in H1. apply Nat.leb_le in H2. unfold owns. split.
  - intros HX. destruct (edge_find o size X H1 H2 He HX) as [r [[A B] U]].
    exists r. split; [split; auto; destruct (edges o size r H1 A) as [-> ->]; auto|].
    intros r' [A' B']. destruct (edges o size r' H1 A') as [E1 E2]. rewrite E1, E2 in B'. auto.
  - intros [r [[A B] _]]. destruct (edges o size r H1 A) as [E1 E2]. rewrite E1, E2 in B. eapply edge_in; eauto.
Qed.

(** The source region is shared out likewise. *)
Theorem C15_source_partial : forall o size X, device_count_ok (d_nx o) size = true -> ends_fit o size ->
  (d_x0 o <= X < d_x1 o /\ d_src_x0 o <= X < d_src_x1 o <->
   exists! r, (r < size)%nat /\ owns o size r (d_src_x0 (dev o size r)) (d_src_x1 (dev o size r)) X).
Proof.
  intros o size X H He. pose proof H as Hok. unfold device_count_ok in H. apply andb_prop in H. destruct H as [H1 H2].
  apply Nat.ltb_lt in H1. apply Nat.leb_le in H2.
  assert (Key : forall r, (r < size)%nat ->
    (owns o size r (d_src_x0 (dev o size r)) (d_src_x1 (dev o size r)) X <->
     edge o size r <= X < edge o size (S r) /\ d_src_x0 o <= X < d_src_x1 o)).
  { intros r Hr. destruct (edges o size r H1 Hr) as [E1 E2].
    unfold owns, globally in *.
    destruct (dev_eq o size r) as [_ [Eb [Ex0 [Ex1 [_ [Es0 [Es1 _]]]]]]].
    rewrite <- Eb, <- Ex0 in *. rewrite <- Ex1 in Es0, Es1.
    rewrite Es0, Es1. rewrite <- E1, <- E2. set (B := INR (before o size r) * d_dx o) in *.
    pose proof (edge_incr o size r H1 H2 He Hr) as Hlt. rewrite <- E1, <- E2 in Hlt.
    destruct (Rleb (d_src_x1 o - B) (d_x0 (dev o size r))) eqn:C1; cbn [orb].
    - apply Rleb_true in C1. split; intros; exfalso; lra.
    - apply Rleb_false in C1. destruct (Rleb (d_x1 (dev o size r)) (d_src_x0 o - B)) eqn:C2.
      + apply Rleb_true in C2. split; intros; exfalso; lra.
      + apply Rleb_false in C2.
        destruct (Rltb (d_src_x0 o - B) (d_x0 (dev o size r))) eqn:C3; [apply Rltb_true in C3|apply Rltb_false in C3];
        (destruct (Rltb (d_x1 (dev o size r)) (d_src_x1 o - B)) eqn:C4; [apply Rltb_true in C4|apply Rltb_false in C4]);
        split; intros; repeat split; lra. }
  split.
  - intros [HX HS]. destruct (edge_find o size X H1 H2 He HX) as [r [[A B] U]].
    exists r. split; [split; auto; apply Key; auto|].
    intros r' [A' B']. apply U. split; auto. apply Key in B'; tauto.
  - intros [r [[A B] _]]. apply Key in B; auto. destruct B as [B C]. split; auto. eapply edge_in; eauto.
Qed.

(** Without that proviso the sub-domains do not partition the domain: a domain that ends (x1 = 1.5) before the
    share of the last of two devices begins is accepted, the first device takes the columns up to x = 2 for part of the
    domain, and the right end of the second lies left of its left end. *)
Theorem C15_short_domain_refuted :
  let o := mk_dopts 4 1 0 (3 / 2) 0 0 10 1 in
  device_count_ok (d_nx o) 2 = true /\ d_x0 o < d_x1 o /\
  (exists X, ~ (d_x0 o <= X < d_x1 o) /\ owns o 2 0 (d_x0 (dev o 2 0)) (d_x1 (dev o 2 0)) X) /\
  d_x1 (dev o 2 1) < d_x0 (dev o 2 1).
Proof.
  cbv zeta. split; [reflexivity|]. split; [cbn; lra|]. split.
  - exists (7 / 4). split; [cbn; lra|]. set (o := mk_dopts 4 1 0 (3 / 2) 0 0 10 1). unfold owns.
    destruct (edges o 2 0 ltac:(lia) ltac:(lia)) as [-> ->].
    change (edge o 2 0) with 0. change (edge o 2 1) with (INR 2 * 1). cbn. lra.
  - set (o := mk_dopts 4 1 0 (3 / 2) 0 0 10 1).
    destruct (edges o 2 1 ltac:(lia) ltac:(lia)) as [E1 E2]. unfold globally in E1, E2.
    change (edge o 2 1) with (INR 2 * 1) in E1. change (edge o 2 2) with (3 / 2) in E2. cbn [INR] in E1. lra.
Qed.

Lemma lsumN_const (k : N) n : lsumN (repeat k n) = (N.of_nat n * k)%N.
Proof. induction n; [reflexivity|]. cbn [repeat]. change (lsumN (k :: repeat k n)) with (k + lsumN (repeat k n))%N. rewrite IHn. lia. Qed.
Lemma map_const {A B} (b : B) (l : list A) : map (fun _ => b) l = repeat b (length l).
Proof. induction l; cbn; congruence. Qed.

(** Together the devices can hold at least n_sd_max super-droplets, and the numbers of super-droplets per bin
    that relaxation aims at add up to the requested one. *)
Theorem C15_capacity : forall o size, (0 < size)%nat ->
  (d_n_sd_max o <= lsumN (map (fun r => d_n_sd_max (dev o size r)) (seq 0 size)))%N /\
  lsumR (map (fun r => d_rlx_sd_per_bin (dev o size r)) (seq 0 size)) = d_rlx_sd_per_bin o.
Proof.
  intros o size Hs. split.
  - rewrite (map_ext_in _ (fun _ => (d_n_sd_max o / N.of_nat size + 1)%N)).
    + rewrite map_const, lsumN_const, seq_length.
      assert (Hn : N.of_nat size <> 0%N) by lia.
      pose proof (N.div_mod (d_n_sd_max o) (N.of_nat size) Hn).
      pose proof (N.mod_lt (d_n_sd_max o) (N.of_nat size) Hn). lia.
    + intros r _. apply dev_eq.
  - rewrite (map_ext_in _ (fun _ => d_rlx_sd_per_bin o / INR size)).
    + rewrite map_const, seq_length.
      assert (L : forall n x, lsumR (repeat x n) = INR n * x).
      { intros n x. induction n; [cbn; ring|]. rewrite S_INR. cbn [repeat].
        change (lsumR (x :: repeat x n)) with (x + lsumR (repeat x n)). rewrite IHn. ring. }
      rewrite L. field. apply not_0_INR. lia.
    + intros r _. apply dev_eq.
Qed.

(** The hypotheses are met, e.g. by 7 columns on 3 devices with x0 and x1 inside the outermost cells and a source
    spanning two devices. *)
Theorem C15_instance :
  let o := mk_dopts 7 2 1 13 3 9 100 6 in
  device_count_ok (d_nx o) 3 = true /\ ends_fit o 3 /\
  map (fun r => (before o 3 r, d_nx (dev o 3 r))) [0%nat; 1%nat; 2%nat] = [(0, 2); (2, 2); (4, 3)]%nat.
Proof.
  cbv zeta. split; [reflexivity|]. split; [|cbn [map]; rewrite !before_eq, !nx_eq by lia; reflexivity].
  unfold ends_fit, q_of. cbn. repeat split; try lra; intros; lra.
Qed.

Print Assumptions C15_columns.
Print Assumptions C15_every_column_once.
Print Assumptions C15_edges.
Print Assumptions C15_domain_partial.
Print Assumptions C15_source_partial.
Print Assumptions C15_short_domain_refuted.
Print Assumptions C15_capacity.
Print Assumptions C15_instance.
