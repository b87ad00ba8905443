From Coq Require Import List Arith NArith ZArith Lia Reals Lra Permutation Sorted Bool.
From Verif Require Import Base BaseProofs RcycModel.
Import ListNotations.

Lemma filter_len_le {A} (f : A -> bool) l : length (filter f l) <= length l.
Proof. induction l as [|a l IH]; cbn; [lia|]. destruct (f a); cbn; lia. Qed.
Lemma perm_filter {A} (f : A -> bool) l l' : Permutation l l' -> Permutation (filter f l) (filter f l').
Proof.
  induction 1 as [|x l l' H IH|x y l|l l2 l3 H1 IH1 H2 IH2]; cbn; auto.
  - destruct (f x); auto.
  - destruct (f x), (f y); auto. apply perm_swap.
  - etransitivity; eauto.
Qed.

(** all attributes of super-droplet [i] *)
Definition attrs (nvec nchem : nat) (p : pop) (i : nat) : list R :=
  map (fun v => vec p v i) (seq 0 nvec) ++ map (fun b => chem_vec p (b * np p + i)) (seq 0 nchem).

(** [p'] consists of exactly the super-droplets of [q] with non-zero multiplicity, in order *)
Definition survivors (nvec nchem : nat) (q p' : pop) : Prop :=
  exists keep,
    StronglySorted lt keep /\
    (forall i, In i keep <-> i < np q /\ mult q i <> 0%N) /\
    np p' = length keep /\
    (forall k, k < np p' -> mult p' k = mult q (nth k keep 0) /\
                            attrs nvec nchem p' k = attrs nvec nchem q (nth k keep 0)).

(** ** removal *)
Lemma seq_StronglySorted a n : StronglySorted lt (seq a n).
Proof.
  revert a. induction n as [|n IH]; intros a; cbn; constructor; auto.
  apply Forall_forall. intros x Hx. apply in_seq in Hx. lia.
Qed.
Lemma filter_StronglySorted {A} (R : A -> A -> Prop) f l : StronglySorted R l -> StronglySorted R (filter f l).
Proof.
  induction 1 as [|a l H IH HF]; cbn; [constructor|]. destruct (f a); auto. constructor; auto.
  apply Forall_forall. intros x Hx. apply filter_In in Hx. rewrite Forall_forall in HF. apply HF. tauto.
Qed.
Lemma in_kept st len i : In i (kept st len) <-> i < len /\ st i <> 0%N.
Proof.
  unfold kept. rewrite filter_In, in_seq, negb_true_iff, N.eqb_neq. lia.
Qed.
Lemma kept_length st len : length (kept st len) <= len.
Proof.
  unfold kept. etransitivity; [apply filter_len_le|]. now rewrite seq_length.
Qed.
Lemma kept_bound st len k : k < length (kept st len) -> nth k (kept st len) 0 < len.
Proof. intros H. apply (nth_In _ 0) in H. apply in_kept in H. tauto. Qed.

Lemma remove_chem_spec gar np_ st : forall nb (f : nat -> R),
  forall b k, b < nb -> k < length (kept st np_) ->
    remove_chem gar np_ st nb f (b * length (kept st np_) + k) = f (b * np_ + nth k (kept st np_) 0).
Proof.
  set (K := length (kept st np_)). pose proof (kept_length st np_) as HK. fold K in HK.
  (* generalised: after processing, blocks below hold the filtered data, and what lies beyond block nb is
     shifted *)
  assert (forall nb f,
    (forall b k, b < nb -> k < K -> remove_chem gar np_ st nb f (b * K + k) = f (b * np_ + nth k (kept st np_) 0)) /\
    (forall j, remove_chem gar np_ st nb f (nb * K + j) = f (nb * np_ + j))) as HG.
  { induction nb as [|nb IH]; intros f; [split; [lia|reflexivity]|].
    cbn [remove_chem]. unfold remove_if.
    set (f' := fun j => if (j <? nb * np_) || _ then _ else _).
    destruct (IH (erase (nb * np_ + K) (nb * np_ + np_) f')) as [H1 H2]. split.
    - intros b k Hb Hk. destruct (Nat.eq_dec b nb) as [->|Hne].
      + rewrite H2. unfold erase.
        destruct (Nat.ltb_spec (nb * np_ + k) (nb * np_ + K)); [|lia].
        unfold f'. destruct (Nat.ltb_spec (nb * np_ + k) (nb * np_)); [lia|].
        destruct (Nat.leb_spec (nb * np_ + np_) (nb * np_ + k)); [lia|]. cbn [orb].
        replace (nb * np_ + k - nb * np_) with k by lia. fold K.
        destruct (Nat.ltb_spec k K); [reflexivity|lia].
      + rewrite H1 by lia. unfold erase. pose proof (kept_bound st np_ k Hk) as Hn.
        assert (b * np_ + nth k (kept st np_) 0 < nb * np_) by nia.
        destruct (Nat.ltb_spec (b * np_ + nth k (kept st np_) 0) (nb * np_ + K)); [|lia].
        unfold f'. destruct (Nat.ltb_spec (b * np_ + nth k (kept st np_) 0) (nb * np_)); [reflexivity|lia].
    - intros j. replace (S nb * K + j) with (nb * K + (K + j)) by lia. rewrite H2. unfold erase.
      destruct (Nat.ltb_spec (nb * np_ + (K + j)) (nb * np_ + K)); [lia|].
      replace (nb * np_ + (K + j) + (nb * np_ + np_ - (nb * np_ + K))) with (S nb * np_ + j) by lia.
      unfold f'. destruct (Nat.ltb_spec (S nb * np_ + j) (nb * np_)); [lia|].
      destruct (Nat.leb_spec (nb * np_ + np_) (S nb * np_ + j)); [reflexivity|lia]. }
  intros nb f. apply HG.
Qed.

Lemma remove_vecs_spec gar nvec p :
  np (remove_vecs gar nvec p) = np p /\ mult (remove_vecs gar nvec p) = mult p /\
  chem_vec (remove_vecs gar nvec p) = chem_vec p /\
  forall v, vec (remove_vecs gar nvec p) v =
            if v <? nvec then fst (remove_if gar 0 (np p) (mult p) (vec p v)) else vec p v.
Proof.
  induction nvec as [|m IH]; [cbn; auto|].
  unfold remove_vecs in *. rewrite seq_snoc, fold_left_app. cbn [fold_left].
  destruct IH as (E1 & E2 & E3 & E4). cbn [np mult chem_vec vec]. split; [auto|]. split; [auto|]. split; [auto|].
  intros v. rewrite E1, E2, !E4. destruct (Nat.eqb_spec v m) as [->|Hne].
  - destruct (Nat.ltb_spec m m); [lia|]. destruct (Nat.ltb_spec m (S m)); [reflexivity|lia].
  - destruct (Nat.ltb_spec v m); destruct (Nat.ltb_spec v (S m)); auto; lia.
Qed.

Lemma remove_n0_survivors gar garn nmax nvec nchem q :
  np q <= nmax ->
  exists p', remove_n0 gar garn nmax nvec nchem q = Some p' /\ survivors nvec nchem q p' /\ np p' <= np q.
Proof.
  intros Hmax. unfold remove_n0.
  set (p1 := mk_pop _ _ _ _). destruct (remove_vecs_spec gar nvec p1) as (E1 & E2 & E3 & E4).
  unfold remove_n. destruct (remove_if garn 0 _ _ _) as [n' k] eqn:ER.
  unfold remove_if in ER. rewrite E1, E2 in ER. cbn [p1 np mult] in ER. inversion ER as [[En Ek]]. clear ER.
  pose proof (kept_length (mult q) (np q)) as HL.
  unfold resize_npart. cbn [np].
  destruct (Nat.ltb_spec nmax (length (kept (mult q) (np q)))); [lia|].
  eexists. split; [reflexivity|]. split; [|cbn [np]; lia].
  exists (kept (mult q) (np q)). split; [apply filter_StronglySorted, seq_StronglySorted|].
  split; [intros; apply in_kept|]. split; [reflexivity|].
  cbn [np mult]. intros j Hj. split.
  - try (change (j <? 0) with false; cbn [orb Nat.add]). destruct (Nat.leb_spec (np q) j); [lia|].
    rewrite Nat.sub_0_r. destruct (Nat.ltb_spec j (length (kept (mult q) (np q)))); [reflexivity|lia].
  - unfold attrs. cbn [np vec chem_vec]. f_equal.
    + apply map_ext_in. intros v Hv. apply in_seq in Hv. rewrite E4.
      destruct (Nat.ltb_spec v nvec); [|lia]. unfold remove_if. cbn [fst p1 np mult vec].
      try (change (j <? 0) with false; cbn [orb Nat.add]). destruct (Nat.leb_spec (np q) j); [lia|].
      rewrite Nat.sub_0_r. destruct (Nat.ltb_spec j (length (kept (mult q) (np q)))); [reflexivity|lia].
    + apply map_ext_in. intros b Hb. apply in_seq in Hb. rewrite E3. cbn [p1 chem_vec].
      apply remove_chem_spec; lia.
Qed.

(** ** the element-wise transfers *)
Section Xfer.
  Context {A : Type} (op : A -> A) (base len : nat) (sid : list nat).
  Hypothesis HP : Permutation sid (seq 0 len).
  Let s k := nth k sid 0.

  Lemma xfer_gen m : m <= len -> forall l, NoDup l -> (forall k, In k l -> k < m) -> forall f,
    (forall j, (forall k, In k l -> j <> base + s k) -> xfer op base sid l f j = f j) /\
    (forall k, In k l -> m <= len - 1 - k -> xfer op base sid l f (base + s k) = op (f (base + s (len - 1 - k)))) /\
    (forall Q : A -> Prop, (forall x, Q x -> Q (op x)) ->
       (forall k, k < m -> len - 1 - k < m -> Q (f (base + s k))) ->
       (forall k, k < m -> len - 1 - k < m -> Q (xfer op base sid l f (base + s k)))).
  Proof.
    intros Hm. pose proof (perm_len len sid HP) as HL.
    induction l as [|k l IH]; intros Hnd Hl f.
    - split; [reflexivity|]. split; [intros k []|]. intros Q _ H. exact H.
    - apply NoDup_cons_iff in Hnd as [Hk Hnd'].
      assert (Hlt : k < m) by (apply Hl; left; auto).
      set (f1 := upd f (base + s k) (op (f (base + s (len - 1 - k))))).
      assert (E : xfer op base sid (k :: l) f = xfer op base sid l f1).
      { unfold f1, s. rewrite <- HL. reflexivity. }
      rewrite E. destruct (IH Hnd' ltac:(intros; apply Hl; right; auto) f1) as (I1 & I2 & I3).
      assert (Hinj : forall a b, a < len -> b < len -> s a = s b -> a = b) by (apply perm_inj; auto).
      split; [|split].
      + intros j Hj. rewrite I1 by (intros; apply Hj; right; auto).
        unfold f1. apply upd_other. apply Hj. left; auto.
      + intros k' [<-|Hk'] Hge.
        * rewrite I1.
          -- unfold f1. apply upd_same.
          -- intros k2 Hk2 Es. assert (s k = s k2) by lia. apply Hinj in H; [subst; auto|lia|].
             assert (k2 < m) by (apply Hl; right; auto). lia.
        * rewrite I2 by auto. unfold f1. rewrite upd_other; [reflexivity|].
          intros Es. assert (s (len - 1 - k') = s k) by lia. apply Hinj in H; lia.
      + intros Q HQ H k' Hk' Hr. apply I3; auto. intros k2 Hk2 Hr2. unfold f1, upd.
        destruct (Nat.eqb_spec (base + s k2) (base + s k)) as [Es|_]; [|apply H; auto].
        assert (s k2 = s k) by lia. apply Hinj in H0; [|lia|lia]. subst k2.
        apply HQ, H; [lia|]. replace (len - 1 - (len - 1 - k)) with k by lia. lia.
  Qed.

  Lemma xfer_spec m l f : m <= len -> Permutation l (seq 0 m) ->
    (forall j, (forall k, k < m -> j <> base + s k) -> xfer op base sid l f j = f j) /\
    (forall k, k < m -> m <= len - 1 - k -> xfer op base sid l f (base + s k) = op (f (base + s (len - 1 - k)))) /\
    (forall Q : A -> Prop, (forall x, Q x -> Q (op x)) ->
       (forall k, k < m -> len - 1 - k < m -> Q (f (base + s k))) ->
       (forall k, k < m -> len - 1 - k < m -> Q (xfer op base sid l f (base + s k)))).
  Proof.
    intros Hm Hl.
    assert (Hin : forall k, In k l <-> k < m).
    { intros k. split; intros H.
      - apply (Permutation_in _ Hl) in H. apply in_seq in H. lia.
      - apply (Permutation_in _ (Permutation_sym Hl)). apply in_seq. lia. }
    destruct (xfer_gen m Hm l) with (f := f) as (I1 & I2 & I3).
    { apply (Permutation_NoDup (Permutation_sym Hl)), seq_NoDup. }
    { intros k. apply Hin. }
    split; [|split; [|exact I3]].
    - intros j Hj. apply I1. intros k Hk. apply Hj. now apply Hin.
    - intros k Hk. apply I2. now apply Hin.
  Qed.
End Xfer.

Lemma halve_spec len sid m l f : Permutation sid (seq 0 len) -> m <= len -> Permutation l (seq 0 m) ->
  forall q, q < len ->
    halve sid l f (nth q sid 0) = if len - m <=? q then N.div (f (nth q sid 0)) 2 else f (nth q sid 0).
Proof.
  intros HP Hm Hl.
  pose proof (perm_len len sid HP) as HL.
  assert (Hinj : forall a b, a < len -> b < len -> nth a sid 0 = nth b sid 0 -> a = b) by (apply perm_inj; auto).
  assert (HG : forall l, NoDup l -> (forall k, In k l -> k < len) -> forall f q, q < len ->
     halve sid l f (nth q sid 0) = if in_dec Nat.eq_dec (len - 1 - q) l then N.div (f (nth q sid 0)) 2 else f (nth q sid 0)).
  { clear f l Hl Hm. induction l as [|k l IH]; intros Hnd Hlt f q Hq; [reflexivity|].
    inversion Hnd as [|? ? Hk Hnd']; subst. assert (k < length sid) by (apply Hlt; left; auto).
    set (f1 := upd f (nth (length sid - 1 - k) sid 0) (N.div (f (nth (length sid - 1 - k) sid 0)) 2)).
    change (halve sid (k :: l) f) with (halve sid l f1).
    rewrite IH by (auto; intros; apply Hlt; right; auto). unfold f1, upd.
    destruct (Nat.eqb_spec (nth q sid 0) (nth (length sid - 1 - k) sid 0)) as [E|E].
    - apply Hinj in E; [|lia|lia]. replace (length sid - 1 - q) with k by lia.
      destruct (in_dec Nat.eq_dec k l); [contradiction|].
      destruct (in_dec Nat.eq_dec k (k :: l)) as [_|H']; [|exfalso; apply H'; left; auto]. now subst q.
    - destruct (in_dec Nat.eq_dec (length sid - 1 - q) l) as [Hi|Hi];
        destruct (in_dec Nat.eq_dec (length sid - 1 - q) (k :: l)) as [Hi'|Hi']; auto.
      + exfalso. apply Hi'. right; auto.
      + exfalso. destruct Hi' as [Ek|Hi']; [|auto]. apply E. f_equal. lia. }
  intros q Hq. rewrite HG; auto.
  - destruct (in_dec Nat.eq_dec (len - 1 - q) l) as [Hi|Hi]; destruct (Nat.leb_spec (len - m) q) as [H|H]; auto.
    + apply (Permutation_in _ Hl), in_seq in Hi. lia.
    + exfalso. apply Hi. apply (Permutation_in _ (Permutation_sym Hl)), in_seq. lia.
  - apply (Permutation_NoDup (Permutation_sym Hl)), seq_NoDup.
  - intros k Hk. apply (Permutation_in _ Hl), in_seq in Hk. lia.
Qed.

(** ** the sorted multiplicities *)
Lemma find1_spec l : (exists k, k < length l /\ nth k l 0 = 1) -> find1 l < length l /\ nth (find1 l) l 0 = 1 /\
     forall j, j < find1 l -> nth j l 0 <> 1.
Proof.
  induction l as [|x l IH]; intros (k & Hk & E); cbn in *; [lia|].
  destruct (Nat.eqb_spec x 1) as [->|Hx].
  - split; [lia|]. split; [reflexivity|lia].
  - destruct k as [|k]; [congruence|]. destruct IH as (I1 & I2 & I3); [exists k; split; [lia|auto]|].
    split; [lia|]. split; [auto|]. intros [|j] Hj; [auto|]. apply I3. lia.
Qed.
Lemma find1_none l : (forall k, k < length l -> nth k l 0 <> 1) -> find1 l = length l.
Proof.
  induction l as [|x l IH]; intros H; [reflexivity|]. cbn.
  destruct (Nat.eqb_spec x 1) as [->|Hx]; [exfalso; apply (H 0); cbn; lia|].
  f_equal. apply IH. intros k Hk. apply (H (S k)). cbn. lia.
Qed.
Lemma find1_le l : find1 l <= length l.
Proof. induction l as [|x l IH]; cbn; [lia|]. destruct (x =? 1); lia. Qed.

Section Sorted.
  Variables (p : pop) (tmp sid : list nat).
  Let len := np p.
  Hypothesis Hsort : sort_by_key_result (map (fun i => N.to_nat (mult p i)) (seq 0 (np p))) (seq 0 (np p)) tmp sid.

  Lemma sid_perm : Permutation sid (seq 0 len).
  Proof.
    destruct Hsort as (E1 & E2 & HPm & _).
    apply (Permutation_map snd) in HPm.
    assert (HS : forall (A B : Type) (l : list A) (l' : list B), length l = length l' -> map snd (combine l l') = l').
    { intros A B. induction l as [|a l IH]; intros [|b l'] H; cbn in *; try lia; auto. f_equal; auto. }
    rewrite !HS in HPm by auto. now symmetry.
  Qed.
  Lemma tmp_len : length tmp = len.
  Proof. destruct Hsort as (_ & E2 & _). rewrite E2, (perm_len len sid sid_perm). reflexivity. Qed.
  Lemma tmp_nth q : q < len -> nth q tmp 0 = N.to_nat (mult p (nth q sid 0)).
  Proof.
    intros Hq. destruct Hsort as (E1 & E2 & HPm & _).
    assert (Hin : In (nth q tmp 0, nth q sid 0) (combine tmp sid)).
    { rewrite <- combine_nth by auto. apply nth_In. rewrite combine_length, E2.
      rewrite (perm_len len sid sid_perm). lia. }
    apply (Permutation_in _ (Permutation_sym HPm)) in Hin.
    apply (In_nth _ _ (0, 0)) in Hin. destruct Hin as (k & Hk & E).
    rewrite combine_length, map_length, seq_length, Nat.min_id in Hk.
    rewrite combine_nth in E by auto. inversion E as [[Ea Eb]].
    rewrite (nth_map_lt (fun i => N.to_nat (mult p i)) (seq 0 (np p)) k 0 0) in * by (rewrite seq_length; lia).
    rewrite seq_nth in * by lia. cbn [Nat.add] in *. congruence.
  Qed.
  Lemma tmp_mono i j : i <= j -> j < len -> nth i tmp 0 <= nth j tmp 0.
  Proof. intros. destruct Hsort as (_ & _ & _ & HS). apply Sorted_nth_le; auto. rewrite tmp_len. lia. Qed.

  (** zeros are exactly the first [count_zero p] positions *)
  Lemma zeros_first q : q < len -> (q < count_zero p <-> mult p (nth q sid 0) = 0%N).
  Proof.
    assert (Hcz : count_zero p = length (filter (fun k => N.eqb (mult p (nth k sid 0)) 0) (seq 0 len))).
    { unfold count_zero. fold len.
      rewrite <- (Permutation_length (perm_filter (fun i => (mult p i =? 0)%N) _ _ sid_perm)).
      rewrite <- (map_nth_seq sid 0) at 1. rewrite (perm_len len sid sid_perm).
      generalize (seq 0 len). induction l as [|a l IH]; [reflexivity|]. cbn [map filter].
      destruct (N.eqb (mult p (nth a sid 0)) 0); cbn [length]; auto. }
    assert (Hpre : forall k q, q <= k -> k <= len ->
       (forall j, j < q -> mult p (nth j sid 0) = 0%N) -> (forall j, q <= j -> j < k -> mult p (nth j sid 0) <> 0%N) ->
       length (filter (fun k => N.eqb (mult p (nth k sid 0)) 0) (seq 0 k)) = q).
    { induction k as [|k IH]; intros q0 Hq Hk Hz Hnz; [cbn; lia|].
      rewrite seq_snoc, filter_app, app_length. cbn [filter].
      destruct (Nat.eq_dec q0 (S k)) as [->|Hne].
      - rewrite (IH k ltac:(lia) ltac:(lia)); [|intros; apply Hz; lia|intros; lia]. rewrite (Hz k) by lia. cbn. lia.
      - rewrite (IH q0 ltac:(lia) ltac:(lia)); [|exact Hz|intros; apply Hnz; lia].
        destruct (N.eqb_spec (mult p (nth k sid 0)) 0) as [E|E]; [exfalso; apply (Hnz k); auto; lia|cbn; lia]. }
    (* the number of leading zeros *)
    assert (Hex : exists z, z <= len /\ (forall j, j < z -> mult p (nth j sid 0) = 0%N) /\
                            (forall j, z <= j -> j < len -> mult p (nth j sid 0) <> 0%N)).
    { assert (forall k, k <= len -> exists z, z <= k /\ (forall j, j < z -> mult p (nth j sid 0) = 0%N) /\
                            (forall j, z <= j -> j < k -> mult p (nth j sid 0) <> 0%N)) as HH.
      { induction k as [|k IH]; intros Hk; [exists 0; repeat split; lia|].
        destruct IH as (z & Hz & H1 & H2); [lia|].
        destruct (N.eq_dec (mult p (nth k sid 0)) 0) as [E|E].
        - exists (S k). split; [lia|]. split; [|lia].
          intros j Hj. assert (Hm := tmp_mono j k ltac:(lia) ltac:(lia)). rewrite !tmp_nth in Hm by lia. lia.
        - exists z. split; [lia|]. split; [auto|]. intros j Hj1 Hj2.
          destruct (Nat.eq_dec j k) as [->|]; [auto|apply H2; lia]. }
      apply HH. lia. }
    destruct Hex as (z & Hz & H1 & H2). intros Hq. rewrite Hcz, (Hpre len z) by (auto; lia).
    split; [apply H1|]. intros E. destruct (Nat.lt_ge_cases q z); auto. exfalso. apply (H2 q); auto.
  Qed.
  Lemma count_zero_le : count_zero p <= len.
  Proof. unfold count_zero. etransitivity; [apply filter_len_le|]. now rewrite seq_length. Qed.

  (** every super-droplet among the first [find1] from the end is splittable or zero *)
  Lemma rev_nth_tmp k : k < len -> nth k (rev tmp) 0 = nth (len - 1 - k) tmp 0.
  Proof.
    intros Hk. rewrite rev_nth by (rewrite tmp_len; auto). rewrite tmp_len. f_equal. lia.
  Qed.
  Lemma splittable k : k < find1 (rev tmp) -> mult p (nth (len - 1 - k) sid 0) <> 0%N ->
     N.le 2 (mult p (nth (len - 1 - k) sid 0)).
  Proof.
    intros Hk Hnz.
    assert (Hlen : k < len) by (pose proof (find1_le (rev tmp)); rewrite rev_length, tmp_len in *; lia).
    assert (nth k (rev tmp) 0 <> 1) as H1.
    { clear Hnz. revert k Hk Hlen. generalize (rev tmp).
      induction l as [|x l IH]; intros k Hk Hlen; cbn in Hk; [lia|].
      destruct (Nat.eqb_spec x 1); [lia|]. destruct k as [|k]; cbn; [auto|]. apply IH; lia. }
    rewrite rev_nth_tmp, tmp_nth in H1 by lia. lia.
  Qed.
  (** if there is a super-droplet of multiplicity one, all counted as splittable are *)
  Lemma one_bounds k : (exists i, i < len /\ mult p i = 1%N) -> k < find1 (rev tmp) ->
     N.le 2 (mult p (nth (len - 1 - k) sid 0)) /\ find1 (rev tmp) + count_zero p < len.
  Proof.
    intros (i & Hi & E1) Hk.
    destruct (perm_surj len sid sid_perm i Hi) as (q & Hq & Eq).
    assert (Hex : exists k, k < length (rev tmp) /\ nth k (rev tmp) 0 = 1).
    { exists (len - 1 - q). rewrite rev_length, tmp_len. split; [lia|].
      rewrite rev_nth_tmp by lia. replace (len - 1 - (len - 1 - q)) with q by lia.
      rewrite tmp_nth by auto. rewrite Eq, E1. reflexivity. }
    destruct (find1_spec _ Hex) as (F1 & F2 & F3). rewrite rev_length, tmp_len in F1.
    set (F := find1 (rev tmp)) in *.
    rewrite rev_nth_tmp in F2 by auto.
    split.
    - apply splittable; auto. intros E0.
      assert (Hm := tmp_mono (len - 1 - F) (len - 1 - k) ltac:(lia) ltac:(lia)).
      rewrite F2, tmp_nth in Hm by lia. rewrite E0 in Hm. cbn in Hm. lia.
    - rewrite tmp_nth in F2 by lia.
      destruct (Nat.lt_ge_cases (len - 1 - F) (count_zero p)) as [H|H]; [|lia].
      apply zeros_first in H; [|lia]. rewrite H in F2. cbn in F2. lia.
  Qed.
End Sorted.
