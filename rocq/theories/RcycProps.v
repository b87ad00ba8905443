(** C05-C07: recycling and removal of zero-multiplicity super-droplets.
    Specification: [attrs] (all attributes of a super-droplet), [survivors] (exactly those with
    non-zero multiplicity, in order) in RcycProofs.v, [split_by] and [total] below. *)
From Coq Require Import List Arith NArith ZArith Lia Reals Lra Permutation Sorted Bool.
From Verif Require Import Base BaseProofs RcycModel RcycProofs.
Import ListNotations.

(** [q] results from [p] by splitting: for each (c,d) in [splits] super-droplet d (with at least two
    droplets) is split in two, one half takes the place of c (which had multiplicity zero) together
    with all attributes of d; every super-droplet not involved is unchanged (attributes of those
    that have and keep multiplicity zero are irrelevant). *)
Definition split_by (nvec nchem : nat) (p q : pop) (splits : list (nat * nat)) : Prop :=
  np q = np p /\
  NoDup (flat_map (fun s => [fst s; snd s]) splits) /\
  (forall c d, In (c, d) splits ->
     c < np p /\ d < np p /\ mult p c = 0%N /\ (2 <= mult p d)%N /\
     mult q d = (mult p d / 2)%N /\ mult q c = (mult p d - mult p d / 2)%N /\
     attrs nvec nchem q c = attrs nvec nchem p d /\ attrs nvec nchem q d = attrs nvec nchem p d) /\
  (forall i, i < np p -> ~ In i (flat_map (fun s => [fst s; snd s]) splits) ->
     mult q i = mult p i /\ (mult p i <> 0%N -> attrs nvec nchem q i = attrs nvec nchem p i)).

(** an extensive quantity: sum over super-droplets of multiplicity times a function of attributes *)
Definition total (nvec nchem : nat) (w : list R -> R) (p : pop) : R :=
  sumR (np p) (fun i => (N2R (mult p i) * w (attrs nvec nchem p i))%R).

(** what the code guarantees about the sort and the launches *)
Definition rcyc_inputs (n_sd_max : nat) (p : pop) (tmp sid : list nat) (sched : nat -> nat -> list nat) : Prop :=
  np p <= n_sd_max /\
  sort_by_key_result (map (fun i => N.to_nat (mult p i)) (seq 0 (np p))) (seq 0 (np p)) tmp sid /\
  (forall l m, Permutation (sched l m) (seq 0 m)).

Lemma xfer_ext {A} (op : A -> A) base len sid l : Permutation sid (seq 0 len) -> 0 < len ->
  forall f f', (forall i, i < len -> f (base + i) = f' (base + i)) ->
   forall i, i < len -> xfer op base sid l f (base + i) = xfer op base sid l f' (base + i).
Proof.
  intros HP Hlen. induction l as [|k l IH]; intros f f' H i Hi; [apply H; auto|].
  cbn. apply IH; auto. intros j Hj. unfold upd. destruct (_ =? _); [|apply H; auto].
  f_equal. apply H. destruct (Nat.lt_ge_cases (length sid - 1 - k) len) as [Hl|Hl].
  - apply perm_bound; auto.
  - rewrite nth_overflow; [auto|]. pose proof (perm_len len sid HP). lia.
Qed.
Lemma xfer_cons {A} (op : A -> A) base sid k l f :
  xfer op base sid (k :: l) f = xfer op base sid l (upd f (base + nth k sid 0) (op (f (base + nth (length sid - 1 - k) sid 0)))).
Proof. reflexivity. Qed.
Lemma xfer_outside {A} (op : A -> A) base len sid l f j : Permutation sid (seq 0 len) -> (forall k, In k l -> k < len) ->
  j < base \/ base + len <= j -> xfer op base sid l f j = f j.
Proof.
  intros HP. revert f. induction l as [|k l IH]; intros f Hl Hj; [reflexivity|].
  rewrite xfer_cons, IH; auto; [|intros; apply Hl; right; auto]. apply upd_other.
  assert (k < len) by (apply Hl; left; auto). pose proof (perm_bound len sid HP k H). lia.
Qed.

Section Stage.
  Variables (nvec nchem : nat) (p : pop) (tmp sid : list nat) (sched : nat -> nat -> list nat).
  Hypothesis Hsort : sort_by_key_result (map (fun i => N.to_nat (mult p i)) (seq 0 (np p))) (seq 0 (np p)) tmp sid.
  Hypothesis Hsched : forall l m, Permutation (sched l m) (seq 0 m).
  Local Notation len := (np p).
  Variable m : nat.
  Hypothesis Hmin : m = Nat.min (find1 (rev tmp)) (count_zero p).
  Let Hm : m <= count_zero p. Proof. lia. Qed.
  Let Hf : m <= find1 (rev tmp). Proof. lia. Qed.

  Definition stage : pop :=
    mk_pop (np p)
      (halve sid (sched (nvec + nchem + 1) m) (xfer (fun x => x - x / 2)%N 0 sid (sched (nvec + nchem) m) (mult p)))
      (fun v => if v <? nvec then xfer (fun x => x) 0 sid (sched v m) (vec p v) else vec p v)
      (fold_left (fun f b => xfer (fun x => x) (b * np p) sid (sched (nvec + b) m) f) (seq 0 nchem) (chem_vec p)).

  Let HP : Permutation sid (seq 0 len) := sid_perm p tmp sid Hsort.
  Let Hml : m <= len. Proof. pose proof (count_zero_le p). lia. Qed.
  Let s k := nth k sid 0.

  Lemma chem_fold b i : b < nchem -> i < len ->
    chem_vec stage (b * len + i) = xfer (fun x => x) (b * len) sid (sched (nvec + b) m) (chem_vec p) (b * len + i).
  Proof.
    intros Hb Hi. unfold stage. cbn [chem_vec].
    assert (Hs : forall l k, In k (sched l m) -> k < len).
    { intros l k Hk. apply (Permutation_in _ (Hsched l m)), in_seq in Hk. lia. }
    assert (forall nb, (forall b, nb <= b -> forall i, i < len ->
        fold_left (fun f b => xfer (fun x => x) (b * len) sid (sched (nvec + b) m) f) (seq 0 nb) (chem_vec p) (b * len + i)
        = chem_vec p (b * len + i)) /\
      (forall b, b < nb -> forall i, i < len ->
        fold_left (fun f b => xfer (fun x => x) (b * len) sid (sched (nvec + b) m) f) (seq 0 nb) (chem_vec p) (b * len + i)
        = xfer (fun x => x) (b * len) sid (sched (nvec + b) m) (chem_vec p) (b * len + i))) as HG.
    { induction nb as [|nb [I1 I2]]; [split; [reflexivity|lia]|].
      rewrite seq_snoc, fold_left_app. cbn [fold_left]. split.
      - intros b0 Hb0 i0 Hi0. rewrite (xfer_outside _ _ len); [apply I1; auto; lia|exact HP|apply Hs|right; nia].
      - intros b0 Hb0 i0 Hi0. destruct (Nat.eq_dec b0 nb) as [->|Hne].
        + apply xfer_ext with (len := len); [exact HP|lia|intros; apply I1; auto|auto].
        + rewrite (xfer_outside _ _ len); [apply I2; auto; lia|exact HP|apply Hs|left; nia]. }
    now apply HG.
  Qed.

  Lemma attrs_stage_gen k k' : k < len -> k' < len ->
    (forall base (f : nat -> R) l, xfer (fun x => x) base sid (sched l m) f (base + s k) = f (base + s k')) ->
    attrs nvec nchem stage (s k) = attrs nvec nchem p (s k').
  Proof.
    intros Hk Hk' H. unfold attrs. f_equal.
    - apply map_ext_in. intros v Hv. apply in_seq in Hv. unfold stage. cbn [vec].
      destruct (Nat.ltb_spec v nvec); [|lia]. apply (H 0).
    - apply map_ext_in. intros b Hb. apply in_seq in Hb. change (np stage) with len.
      rewrite chem_fold; [apply H|lia|apply (perm_bound len sid HP); auto].
  Qed.

  Lemma attrs_clone k : k < m -> m <= len - 1 - k -> attrs nvec nchem stage (s k) = attrs nvec nchem p (s (len - 1 - k)).
  Proof.
    intros Hk Hr. apply attrs_stage_gen; try lia. intros base f l.
    destruct (xfer_spec (fun x : R => x) base len sid HP m (sched l m) f Hml (Hsched l m)) as (_ & H & _).
    now apply H.
  Qed.
  Lemma attrs_rest k : m <= k -> k < len -> attrs nvec nchem stage (s k) = attrs nvec nchem p (s k).
  Proof.
    intros Hk Hr. apply attrs_stage_gen; try lia. intros base f l.
    destruct (xfer_spec (fun x : R => x) base len sid HP m (sched l m) f Hml (Hsched l m)) as (H & _ & _).
    apply H. intros k2 Hk2 E. assert (k = k2); [|lia].
    apply (perm_inj len sid HP); [lia|lia|]. unfold s in E. lia.
  Qed.
  Lemma mult_stage k : k < len ->
    mult stage (s k) =
      if (k <? m) && (k <? len - m) then (mult p (s (len - 1 - k)) - mult p (s (len - 1 - k)) / 2)%N
      else if (m <=? k) && (len - m <=? k) then (mult p (s k) / 2)%N else mult p (s k).
  Proof.
    intros Hk. unfold stage. cbn [mult].
    set (n1 := xfer _ _ _ _ _).
    change (halve sid (sched (nvec + nchem + 1) m) n1 (s k)) with (halve sid (sched (nvec + nchem + 1) m) n1 (nth k sid 0)).
    rewrite (halve_spec len sid m _ n1 HP Hml (Hsched _ m) k Hk). fold (s k).
    destruct (xfer_spec (fun x => x - x / 2)%N 0 len sid HP m (sched (nvec + nchem) m) (mult p) Hml (Hsched _ m)) as (H1 & H2 & H3).
    fold n1 in H1, H2, H3.
    assert (Hrest : m <= k -> n1 (s k) = mult p (s k)).
    { intros Hmk. apply H1. intros k2 Hk2 E. assert (k = k2); [|lia].
      apply (perm_inj len sid HP); [lia|lia|]. unfold s in E. lia. }
    destruct (Nat.ltb_spec k m) as [Ha|Ha].
    - destruct (Nat.ltb_spec k (len - m)) as [Hb|Hb]; cbn [andb].
      + destruct (Nat.leb_spec (len - m) k); [lia|]. apply (H2 k); lia.
      + destruct (Nat.leb_spec m k); [lia|]. cbn [andb]. destruct (Nat.leb_spec (len - m) k); [|lia].
        assert (E0 : mult p (s k) = 0%N) by (apply (zeros_first p tmp sid Hsort k Hk); lia).
        assert (E1 : n1 (s k) = 0%N).
        { apply (H3 (fun x => x = 0%N)); try lia.
          - intros x ->. reflexivity.
          - intros k2 Hk2 _. apply (zeros_first p tmp sid Hsort k2); [lia|lia]. }
        rewrite E0, E1. reflexivity.
    - cbn [andb]. destruct (Nat.leb_spec m k); [|lia]. cbn [andb]. rewrite Hrest by auto. reflexivity.
  Qed.

  Definition the_splits := map (fun k => (s k, s (len - 1 - k))) (seq 0 (Nat.min m (len - m))).

  Lemma donor_pos k : k < m -> k < len - m -> count_zero p <= len - 1 - k.
  Proof.
    intros Hk Hk2. pose proof (count_zero_le p) as Hz.
    destruct (Nat.eq_dec m (count_zero p)) as [E|E]; [lia|].
    (* m = find1 < count_zero: there must be a super-droplet of multiplicity one *)
    assert (Hone : exists i, i < len /\ mult p i = 1%N).
    { destruct (existsb (fun i => mult p i =? 1)%N (seq 0 len)) eqn:Ex.
      - apply existsb_exists in Ex. destruct Ex as (i & Hi & E1). apply in_seq in Hi. apply N.eqb_eq in E1.
        exists i. split; [lia|auto].
      - exfalso. assert (find1 (rev tmp) = length (rev tmp)) as E1.
        { apply find1_none. intros j Hj. rewrite rev_length, (tmp_len p tmp sid Hsort) in Hj.
          rewrite (rev_nth_tmp p tmp sid Hsort) by auto. rewrite (tmp_nth p tmp sid Hsort) by lia.
          intros E1. assert (mult p (nth (np p - 1 - j) sid 0) = 1%N) as E2 by lia.
          assert (HH : existsb (fun i => mult p i =? 1)%N (seq 0 len) = true).
          { apply existsb_exists. eexists. split; [|apply N.eqb_eq; exact E2].
            apply in_seq. pose proof (perm_bound len sid HP (np p - 1 - j)). lia. }
          congruence. }
        rewrite rev_length, (tmp_len p tmp sid Hsort) in E1. lia. }
    pose proof (one_bounds p tmp sid Hsort 0 Hone ltac:(lia)) as [_ H]. lia.
  Qed.
  Lemma donors_splittable k : k < m -> k < len - m -> N.le 2 (mult p (s (len - 1 - k))) /\ mult p (s k) = 0%N.
  Proof.
    intros Hk Hk2. pose proof (donor_pos k Hk Hk2) as Hd. split.
    - apply (splittable p tmp sid Hsort); [lia|]. intros E.
      apply (zeros_first p tmp sid Hsort) in E; [|lia]. lia.
    - apply (zeros_first p tmp sid Hsort); [lia|lia].
  Qed.

  Lemma in_splits_ids i : In i (flat_map (fun t => [fst t; snd t]) the_splits) <->
     exists k, k < m /\ k < len - m /\ (i = s k \/ i = s (len - 1 - k)).
  Proof.
    unfold the_splits. rewrite in_flat_map. split.
    - intros ((c, d) & Hin & Hi). apply in_map_iff in Hin. destruct Hin as (k & E & Hk). apply in_seq in Hk.
      inversion E; subst. exists k. cbn in Hi. intuition lia.
    - intros (k & H1 & H2 & H3). exists (s k, s (len - 1 - k)). split.
      + apply in_map_iff. exists k. split; auto. apply in_seq. lia.
      + cbn. intuition.
  Qed.

  Lemma stage_split : split_by nvec nchem p stage the_splits.
  Proof.
    assert (Hinj : forall a b, a < len -> b < len -> s a = s b -> a = b) by (apply perm_inj; auto).
    split; [reflexivity|]. split; [|split].
    - unfold the_splits.
      assert (HG : forall l, NoDup l -> (forall k, In k l -> k < m /\ k < len - m) ->
         NoDup (flat_map (fun t => [fst t; snd t]) (map (fun k => (s k, s (len - 1 - k))) l))).
      { induction l as [|k l IH]; intros Hnd Hl; [constructor|].
        apply NoDup_cons_iff in Hnd as [Hk Hnd]. cbn [map flat_map app fst snd].
        assert (Hkl := Hl k (or_introl eq_refl)).
        assert (Hout : forall i, (i = s k \/ i = s (len - 1 - k)) ->
            ~ In i (flat_map (fun t => [fst t; snd t]) (map (fun k => (s k, s (len - 1 - k))) l))).
        { intros i Hi Hin. apply in_flat_map in Hin. destruct Hin as ((c, d) & Hin & Hc).
          apply in_map_iff in Hin. destruct Hin as (k2 & E & Hk2). inversion E; subst.
          assert (Hkl2 := Hl k2 (or_intror Hk2)).
          assert (k <> k2) by (intros ->; contradiction).
          cbn in Hc. destruct Hc as [Hc|[Hc|[]]]; destruct Hi as [Hi|Hi]; rewrite Hi in Hc; apply Hinj in Hc; lia. }
        constructor; [|constructor; [apply Hout; auto|apply IH; auto; intros; apply Hl; right; auto]].
        intros [E|Hin]; [apply Hinj in E; lia|]. eapply Hout; [|exact Hin]. auto. }
      apply HG; [apply seq_NoDup|]. intros k Hk. apply in_seq in Hk. lia.
    - intros c d Hin. apply in_map_iff in Hin. destruct Hin as (k & E & Hk). apply in_seq in Hk. inversion E; subst c d.
      assert (Hk1 : k < m) by lia. assert (Hk2 : k < len - m) by lia.
      destruct (donors_splittable k Hk1 Hk2) as [Hd Hc].
      split; [apply (perm_bound len sid HP); lia|]. split; [apply (perm_bound len sid HP); lia|].
      split; [auto|]. split; [auto|].
      rewrite !mult_stage by lia.
      destruct (Nat.ltb_spec k m); [|lia]. destruct (Nat.ltb_spec k (len - m)); [|lia]. cbn [andb].
      destruct (Nat.ltb_spec (len - 1 - k) m); [lia|]. cbn [andb].
      destruct (Nat.leb_spec m (len - 1 - k)); [|lia]. destruct (Nat.leb_spec (len - m) (len - 1 - k)); [|lia]. cbn [andb].
      split; [reflexivity|]. split; [reflexivity|].
      split; [apply attrs_clone; lia|apply attrs_rest; lia].
    - intros i Hi Hni. destruct (perm_surj len sid HP i Hi) as (k & Hk & E).
      change (nth k sid 0) with (s k) in E. subst i. rewrite mult_stage by auto.
      destruct (Nat.ltb_spec k m) as [Ha|Ha].
      + destruct (Nat.ltb_spec k (len - m)) as [Hb|Hb].
        { exfalso. apply Hni, in_splits_ids. exists k. auto. }
        cbn [andb]. destruct (Nat.leb_spec m k); [lia|]. cbn [andb]. split; [reflexivity|].
        intros Hnz. exfalso. apply Hnz. apply (zeros_first p tmp sid Hsort); [auto|lia].
      + cbn [andb]. destruct (Nat.leb_spec m k); [|lia]. destruct (Nat.leb_spec (len - m) k) as [Hb|Hb].
        { exfalso. apply Hni, in_splits_ids. exists (len - 1 - k). split; [lia|]. split; [lia|]. right. f_equal. lia. }
        cbn [andb]. split; [reflexivity|]. intros _. apply attrs_rest; auto.
  Qed.
End Stage.

(** extensive totals under a split *)
Lemma split_total nvec nchem p q splits w : split_by nvec nchem p q splits -> total nvec nchem w q = total nvec nchem w p.
Proof.
  intros (Enp & Hnd & Hs & Hr). unfold total. rewrite Enp.
  (* remove the pairs one by one: define hybrid weights *)
  set (fq := fun i => (N2R (mult q i) * w (attrs nvec nchem q i))%R).
  set (fp := fun i => (N2R (mult p i) * w (attrs nvec nchem p i))%R).
  assert (HG : forall l, (forall c d, In (c, d) l -> In (c, d) splits) -> NoDup (flat_map (fun s => [fst s; snd s]) l) ->
     sumR (np p) (fun i => if in_dec Nat.eq_dec i (flat_map (fun s => [fst s; snd s]) l) then fq i else fp i)
     = sumR (np p) fp).
  { induction l as [|[c d] l IH]; intros Hl Hnd2; [apply sumR_ext; reflexivity|].
    cbn [flat_map app fst snd] in *. apply NoDup_cons_iff in Hnd2 as [Hc Hnd2]. apply NoDup_cons_iff in Hnd2 as [Hd Hnd2].
    rewrite <- IH; auto; [|intros; apply Hl; right; auto].
    destruct (Hs c d (Hl c d (or_introl eq_refl))) as (Lc & Ld & Zc & Td & Md & Mc & Ac & Ad).
    set (L := flat_map (fun s => [fst s; snd s]) l) in *.
    assert (Hcd : c <> d) by (intros ->; apply Hc; left; auto).
    assert (HcL : ~ In c L) by (intros H; apply Hc; right; auto).
    assert (Hsum : forall (g h : nat -> R) m, (forall i, i <> c -> i <> d -> g i = h i) ->
        (sumR m g - sumR m h = (if c <? m then g c - h c else 0) + (if d <? m then g d - h d else 0))%R).
    { intros g h m Hgh. induction m as [|m IHm]; [cbn; ring|]. cbn [sumR].
      replace (sumR m g + g m - (sumR m h + h m))%R with ((sumR m g - sumR m h) + (g m - h m))%R by ring.
      rewrite IHm. destruct (Nat.eq_dec m c) as [->|Hc']; [|destruct (Nat.eq_dec m d) as [->|Hd']].
      - destruct (Nat.ltb_spec c c); [lia|]. destruct (Nat.ltb_spec c (S c)); [|lia].
        destruct (Nat.ltb_spec d c); destruct (Nat.ltb_spec d (S c)); try lia; ring.
      - destruct (Nat.ltb_spec d d); [lia|]. destruct (Nat.ltb_spec d (S d)); [|lia].
        destruct (Nat.ltb_spec c d); destruct (Nat.ltb_spec c (S d)); try lia; ring.
      - rewrite (Hgh m) by auto.
        destruct (Nat.ltb_spec c m); destruct (Nat.ltb_spec c (S m)); try lia;
        destruct (Nat.ltb_spec d m); destruct (Nat.ltb_spec d (S m)); try lia; ring. }
    apply Rminus_diag_uniq. rewrite Hsum.
    - destruct (Nat.ltb_spec c (np p)); [|lia]. destruct (Nat.ltb_spec d (np p)); [|lia].
      destruct (in_dec Nat.eq_dec c (c :: d :: L)) as [_|Hx]; [|exfalso; apply Hx; left; auto].
      destruct (in_dec Nat.eq_dec d (c :: d :: L)) as [_|Hx]; [|exfalso; apply Hx; right; left; auto].
      destruct (in_dec Nat.eq_dec c L); [contradiction|]. destruct (in_dec Nat.eq_dec d L); [contradiction|].
      unfold fq, fp. rewrite Ac, Ad, Md, Mc, Zc.
      assert (mult p d / 2 <= mult p d)%N by (apply N.div_le_upper_bound; lia).
      rewrite N2R_sub by auto. change (N2R 0) with 0%R. ring.
    - intros i Hic Hid.
      destruct (in_dec Nat.eq_dec i (c :: d :: L)) as [H|H]; destruct (in_dec Nat.eq_dec i L) as [H'|H']; auto.
      + destruct H as [->|[->|H]]; [congruence|congruence|contradiction].
      + exfalso. apply H. right; right; auto. }
  rewrite <- (HG splits); auto. apply sumR_ext. intros i Hi.
  destruct (in_dec Nat.eq_dec i _) as [H|H]; [reflexivity|].
  destruct (Hr i Hi H) as [Em Ea]. unfold fq, fp. rewrite Em.
  destruct (N.eq_dec (mult p i) 0) as [->|Hnz]; [change (N2R 0) with 0%R; ring|]. rewrite Ea by auto. reflexivity.
Qed.

Lemma survivors_total nvec nchem q p' w : survivors nvec nchem q p' -> total nvec nchem w p' = total nvec nchem w q.
Proof.
  intros (keep & HSS & Hin & Enp & Hk). unfold total.
  set (f := fun i => (N2R (mult q i) * w (attrs nvec nchem q i))%R).
  rewrite (sumR_ext _ _ (fun k => f (nth k keep 0))).
  2:{ intros k Hk'. destruct (Hk k Hk') as [-> ->]. reflexivity. }
  rewrite Enp.
  rewrite (sumR_seq (length keep)).
  rewrite <- (map_map (fun k => nth k keep 0) f), map_nth_seq.
  (* keep is a permutation of the filter *)
  assert (HPk : Permutation keep (filter (fun i => negb (mult q i =? 0)%N) (seq 0 (np q)))).
  { apply NoDup_Permutation.
    - clear -HSS. induction HSS as [|a l H IH HF]; constructor; auto.
      intros Ha. rewrite Forall_forall in HF. specialize (HF a Ha). lia.
    - apply NoDup_filter, seq_NoDup.
    - intros i. rewrite Hin, filter_In, in_seq, negb_true_iff, N.eqb_neq. intuition lia. }
  rewrite (lsumR_perm _ _ (Permutation_map f HPk)).
  rewrite (sumR_seq (np q)). generalize (seq 0 (np q)). induction l as [|i l IH]; [reflexivity|].
  cbn [filter map]. destruct (N.eqb_spec (mult q i) 0) as [E|E]; cbn [negb map].
  - rewrite IH. unfold f at 2. unfold lsumR. cbn [fold_right]. rewrite E. change (N2R 0) with 0%R. ring.
  - unfold lsumR in *. cbn [fold_right]. now rewrite IH.
Qed.

Lemma split_none nvec nchem p : split_by nvec nchem p p [].
Proof. split; [reflexivity|]. split; [constructor|]. split; [intros c d []|]. auto. Qed.

(** C05. Recycling: the population is first transformed by splitting, then possibly zero-multiplicity
    super-droplets are removed; it never fails. *)
Theorem C05_recycling_splits_and_removes :
  forall gar garn n_sd_max nvec nchem pcm tmp sid sched p,
    rcyc_inputs n_sd_max p tmp sid sched ->
    exists p' q splits,
      rcyc gar garn n_sd_max nvec nchem pcm tmp sid sched p = Some p' /\
      split_by nvec nchem p q splits /\
      (p' = q \/ survivors nvec nchem q p') /\
      (* nothing is done when there is nothing to recycle *)
      ((forall i, i < np p -> mult p i <> 0%N) -> p' = p).
Proof.
  intros gar garn nmax nvec nchem pcm tmp sid sched p (Hmax & Hsort & Hsched).
  unfold rcyc. destruct (Nat.eqb_spec (count_zero p) 0) as [E0|E0].
  { exists p, p, []. split; [reflexivity|]. split; [apply split_none|]. auto. }
  assert (Hnz : (forall i, i < np p -> mult p i <> 0%N) -> False).
  { intros H. apply E0. unfold count_zero. rewrite (filter_ext_in _ (fun _ => false)).
    - generalize (seq 0 (np p)). induction l; auto.
    - intros i Hi. apply in_seq in Hi. apply N.eqb_neq. apply H. lia. }
  destruct pcm.
  { destruct (remove_n0_survivors gar garn nmax nvec nchem p Hmax) as (p' & E & HS & _).
    exists p', p, []. split; [exact E|]. split; [apply split_none|]. split; [right; exact HS|]. intros; exfalso; auto. }
  destruct (Nat.eqb_spec (find1 (rev tmp)) 0) as [E1|E1].
  { destruct (remove_n0_survivors gar garn nmax nvec nchem p Hmax) as (p' & E & HS & _).
    exists p', p, []. split; [exact E|]. split; [apply split_none|]. split; [right; exact HS|]. intros; exfalso; auto. }
  set (m := if find1 (rev tmp) <? count_zero p then find1 (rev tmp) else count_zero p).
  assert (Hmin : m = Nat.min (find1 (rev tmp)) (count_zero p)).
  { unfold m. destruct (Nat.ltb_spec (find1 (rev tmp)) (count_zero p)); lia. }
  pose proof (stage_split nvec nchem p tmp sid sched Hsort Hsched m Hmin) as HS.
  set (q := stage nvec nchem p sid sched m) in *.
  fold (stage nvec nchem p sid sched m). fold q.
  destruct (Nat.ltb_spec m (count_zero p)) as [Hlt|Hge].
  - assert (Hq : np q <= nmax) by exact Hmax.
    destruct (remove_n0_survivors gar garn nmax nvec nchem q Hq) as (p' & E & HSv & _).
    exists p', q, (the_splits p sid m). split; [exact E|]. split; [exact HS|]. split; [auto|]. intros; exfalso; auto.
  - exists q, q, (the_splits p sid m). split; [reflexivity|]. split; [exact HS|]. split; [auto|]. intros; exfalso; auto.
Qed.
Print Assumptions C05_recycling_splits_and_removes.

(** C05. Every extensive quantity, in particular the number of real droplets (w = 1), is unchanged by
    the end-of-step clean-up, with recycling on or off. *)
Theorem C05_totals_conserved :
  forall gar garn n_sd_max nvec nchem pcm tmp sid sched opt_rcyc p w,
    rcyc_inputs n_sd_max p tmp sid sched ->
    exists p', clean_up gar garn n_sd_max nvec nchem pcm tmp sid sched opt_rcyc p = Some p' /\
      total nvec nchem w p' = total nvec nchem w p.
Proof.
  intros gar garn nmax nvec nchem pcm tmp sid sched opt p w H. unfold clean_up. destruct opt.
  - destruct (C05_recycling_splits_and_removes gar garn nmax nvec nchem pcm tmp sid sched p H)
      as (p' & q & splits & E & HS & Hp & _).
    exists p'. split; [exact E|]. rewrite <- (split_total _ _ _ _ _ w HS).
    destruct Hp as [->|Hp]; [reflexivity|]. now apply survivors_total.
  - destruct H as (Hmax & _). destruct (remove_n0_survivors gar garn nmax nvec nchem p Hmax) as (p' & E & HS & _).
    exists p'. split; [exact E|]. now apply survivors_total.
Qed.
Print Assumptions C05_totals_conserved.

(** C07. Removal keeps exactly the super-droplets with non-zero multiplicity, in order and with all
    attributes; it fails only if there are more of them than n_sd_max. *)
Theorem C07_removal_exact :
  forall gar garn n_sd_max nvec nchem q,
    np q <= n_sd_max ->
    exists p', remove_n0 gar garn n_sd_max nvec nchem q = Some p' /\ survivors nvec nchem q p' /\ np p' <= np q.
Proof. intros. now apply remove_n0_survivors. Qed.
Print Assumptions C07_removal_exact.

(** ** C06 *)
Definition has_one (p : pop) : Prop := exists i, i < np p /\ mult p i = 1%N.
Definition number_of_zeros (p : pop) : nat := length (filter (fun i => (mult p i =? 0)%N) (seq 0 (np p))).

Lemma survivors_nonzero nvec nchem q p' : survivors nvec nchem q p' -> forall k, k < np p' -> mult p' k <> 0%N.
Proof.
  intros (keep & _ & Hin & Enp & Hk) k Hlt. destruct (Hk k Hlt) as [-> _].
  apply Hin. apply nth_In. lia.
Qed.
Lemma no_one_find1 p tmp sid :
  sort_by_key_result (map (fun i => N.to_nat (mult p i)) (seq 0 (np p))) (seq 0 (np p)) tmp sid ->
  ~ has_one p -> find1 (rev tmp) = np p.
Proof.
  intros Hsort Hno. rewrite find1_none; [rewrite rev_length; apply (tmp_len p tmp sid Hsort)|].
  intros j Hj. rewrite rev_length, (tmp_len p tmp sid Hsort) in Hj.
  rewrite (rev_nth_tmp p tmp sid Hsort) by auto. rewrite (tmp_nth p tmp sid Hsort) by lia.
  intros E1. apply Hno. exists (nth (np p - 1 - j) sid 0). split; [|lia].
  apply (perm_bound (np p) sid (sid_perm p tmp sid Hsort)). lia.
Qed.
Lemma has_one_dec p : has_one p \/ ~ has_one p.
Proof.
  destruct (existsb (fun i => mult p i =? 1)%N (seq 0 (np p))) eqn:Ex.
  - left. apply existsb_exists in Ex. destruct Ex as (i & Hi & E1). apply in_seq in Hi. apply N.eqb_eq in E1.
    exists i. split; [lia|auto].
  - right. intros (i & Hi & E).
    assert (existsb (fun i => mult p i =? 1)%N (seq 0 (np p)) = true); [|congruence].
    apply existsb_exists. exists i. split; [apply in_seq; lia|now apply N.eqb_eq].
Qed.

(** Exactly when the clean-up leaves no super-droplet of zero multiplicity: recycling switched off, or
    constant-multiplicity mode, or some super-droplet has multiplicity one, or at most half of the
    super-droplets have multiplicity zero. *)
Theorem C06_no_zero_left_iff_partial :
  forall gar garn n_sd_max nvec nchem pcm tmp sid sched opt_rcyc p p',
    rcyc_inputs n_sd_max p tmp sid sched ->
    clean_up gar garn n_sd_max nvec nchem pcm tmp sid sched opt_rcyc p = Some p' ->
    ((forall k, k < np p' -> mult p' k <> 0%N) <->
     (opt_rcyc = false \/ pcm = true \/ has_one p \/ 2 * number_of_zeros p <= np p)).
Proof.
  intros gar garn nmax nvec nchem pcm tmp sid sched opt p p' (Hmax & Hsort & Hsched) Hrun.
  assert (Hrem : forall q, np q <= nmax -> remove_n0 gar garn nmax nvec nchem q = Some p' ->
     forall k, k < np p' -> mult p' k <> 0%N).
  { intros q Hq E. destruct (remove_n0_survivors gar garn nmax nvec nchem q Hq) as (p2 & E2 & HS & _).
    rewrite E in E2. inversion E2; subst p2. eapply survivors_nonzero; eauto. }
  unfold clean_up in Hrun. destruct opt; [|split; [auto|intros _; eapply Hrem; eauto]].
  unfold rcyc in Hrun. fold (number_of_zeros p) in *. change (count_zero p) with (number_of_zeros p) in Hrun.
  set (z := number_of_zeros p) in *.
  destruct (Nat.eqb_spec z 0) as [E0|E0].
  { inversion Hrun; subst p'. split; [intros _; right; right; right; lia|].
    intros _ k Hk Ek. destruct (perm_surj (np p) sid (sid_perm p tmp sid Hsort) k Hk) as (q & Hq & Eq).
    assert (q < count_zero p); [|unfold z, number_of_zeros in E0; unfold count_zero in *; lia].
    apply (zeros_first p tmp sid Hsort); [auto|]. now rewrite Eq. }
  destruct pcm; [split; [auto|intros _; eapply Hrem; eauto]|].
  pose proof (sid_perm p tmp sid Hsort) as HP.
  pose proof (count_zero_le p) as Hzl. change (count_zero p) with z in Hzl.
  destruct (Nat.eqb_spec (find1 (rev tmp)) 0) as [E1|E1].
  { split; [|intros _; eapply Hrem; eauto]. intros _. right; right; left.
    destruct (has_one_dec p) as [H|H]; auto. rewrite (no_one_find1 p tmp sid Hsort H) in E1. lia. }
  set (m := if find1 (rev tmp) <? z then find1 (rev tmp) else z) in *.
  assert (Hmin : m = Nat.min (find1 (rev tmp)) (count_zero p)).
  { change (count_zero p) with z. unfold m. destruct (Nat.ltb_spec (find1 (rev tmp)) z); lia. }
  fold (stage nvec nchem p sid sched m) in Hrun. set (q := stage nvec nchem p sid sched m) in *.
  destruct (Nat.ltb_spec m z) as [Hlt|Hge].
  { split; [|intros _; eapply (Hrem q); eauto]. intros _. right; right; left.
    destruct (has_one_dec p) as [H|H]; auto. rewrite (no_one_find1 p tmp sid Hsort H) in Hmin.
    change (count_zero p) with z in Hmin. lia. }
  assert (Emz : m = z) by (change (count_zero p) with z in Hmin; lia).
  inversion Hrun; subst p'. split.
  - intros Hnz. right; right. destruct (has_one_dec p) as [H|H]; [auto|right].
    destruct (Nat.le_gt_cases (2 * z) (np p)) as [Hle|Hgt]; [auto|exfalso].
    assert (Hk : m - 1 < np p) by lia.
    apply (Hnz (nth (m - 1) sid 0)); [apply (perm_bound (np p) sid HP); auto|].
    pose proof (mult_stage nvec nchem p tmp sid sched Hsort Hsched m Hmin (m - 1) Hk) as HM.
    unfold q. rewrite HM.
    destruct (Nat.ltb_spec (m - 1) (np p - m)); [lia|]. rewrite andb_false_r.
    destruct (Nat.leb_spec m (m - 1)); [lia|]. cbn [andb].
    apply (zeros_first p tmp sid Hsort); [auto|]. change (count_zero p) with z. lia.
  - intros Hcase. assert (H2 : 2 * z <= np p).
    { destruct Hcase as [H|[H|[H|H]]]; [discriminate|discriminate| |auto].
      pose proof (one_bounds p tmp sid Hsort 0 H ltac:(lia)) as [_ Hb]. change (count_zero p) with z in Hb.
      change (count_zero p) with z in Hmin. lia. }
    intros i Hi. destruct (perm_surj (np p) sid HP i Hi) as (k & Hk & E). subst i.
    pose proof (mult_stage nvec nchem p tmp sid sched Hsort Hsched m Hmin k Hk) as HM.
    unfold q. rewrite HM.
    destruct (Nat.ltb_spec k m) as [Ha|Ha].
    + destruct (Nat.ltb_spec k (np p - m)); [|lia]. cbn [andb].
      destruct (donors_splittable p tmp sid Hsort m Hmin k Ha ltac:(lia)) as [Hd _].
      set (x := mult p (nth (np p - 1 - k) sid 0)) in *.
      assert (x / 2 < x)%N by (apply N.div_lt; lia). lia.
    + cbn [andb]. destruct (Nat.leb_spec m k); [|lia]. cbn [andb].
      assert (Hnz : mult p (nth k sid 0) <> 0%N).
      { intros E. apply (zeros_first p tmp sid Hsort) in E; [|auto]. change (count_zero p) with z in E. lia. }
      destruct (Nat.leb_spec (np p - m) k) as [Hb|Hb]; [|auto].
      destruct (donors_splittable p tmp sid Hsort m Hmin (np p - 1 - k) ltac:(lia) ltac:(lia)) as [Hd _].
      replace (np p - 1 - (np p - 1 - k)) with k in Hd by lia.
      intros E. assert (Hx : N.le 1 (N.div (mult p (nth k sid 0)) 2)); [|rewrite E in Hx; lia]. apply N.div_le_lower_bound; lia.
Qed.
Print Assumptions C06_no_zero_left_iff_partial.

(** The property is false of the code: multiplicities 0,0,5 with recycling on become 3,0,2. *)
Definition ex_pop : pop :=
  mk_pop 3 (fun i => nth i [0; 0; 5]%N 0%N) (fun v i => INR (10 * v + i)) (fun i => INR i).
Definition ex_sched (l m : nat) := seq 0 m.
Lemma ex_rcyc_inputs : rcyc_inputs 3 ex_pop [0;0;5] [0;1;2] ex_sched.
Proof.
  split; [cbn; lia|]. split; [|intros; apply Permutation_refl].
  split; [reflexivity|]. split; [reflexivity|]. split; [cbn; apply Permutation_refl|].
  repeat constructor.
Qed.
Theorem C06_no_zero_left_refuted :
  exists p p' tmp sid sched gar garn,
    rcyc_inputs 3 p tmp sid sched /\ np p = 3 /\ mult p 2 = 5%N /\
    clean_up gar garn 3 2 1 false tmp sid sched true p = Some p' /\
    np p' = 3 /\ mult p' 0 = 3%N /\ mult p' 1 = 0%N /\ mult p' 2 = 2%N.
Proof.
  exists ex_pop. eexists. exists [0;0;5], [0;1;2], ex_sched, (fun _ => 0%R), (fun _ => 0%N).
  split; [exact ex_rcyc_inputs|]. split; [reflexivity|]. split; [reflexivity|].
  split; [unfold clean_up, rcyc; reflexivity|]. repeat split.
Qed.
Print Assumptions C06_no_zero_left_refuted.

(** an instance of recycling with enough donors, and of removal *)
Theorem C05_instance :
  exists p', rcyc (fun _ => 0%R) (fun _ => 0%N) 4 1 1 false [0;3;4;7] [1;3;0;2] ex_sched
      (mk_pop 4 (fun i => nth i [4;0;7;3]%N 0%N) (fun v i => INR i) (fun i => INR i)) = Some p' /\
    map (mult p') (seq 0 4) = [4;4;3;3]%N /\ vec p' 0 1 = INR 2.
Proof. eexists. split; [reflexivity|]. split; reflexivity. Qed.
Theorem C07_instance :
  exists p', remove_n0 (fun _ => 0%R) (fun _ => 0%N) 4 1 2
      (mk_pop 4 (fun i => nth i [4;0;0;3]%N 0%N) (fun v i => INR i) (fun i => INR i)) = Some p' /\
    np p' = 2 /\ mult p' 1 = 3%N /\ vec p' 0 1 = INR 3 /\ chem_vec p' 3 = INR 7.
Proof. eexists. split; [reflexivity|]. repeat split. Qed.

Print Assumptions C05_instance.
Print Assumptions C07_instance.
