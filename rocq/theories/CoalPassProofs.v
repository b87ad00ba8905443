(** the whole coalescence pass: closed form, pairs, sums *)
From Coq Require Import List Arith NArith ZArith Lia Reals Lra Permutation Sorted Bool.
From Verif Require Import Base BaseProofs HskpngModel HskpngProofs CoalModel CoalProofs CoalPairProofs.
Import ListNotations.

(** ** counting pairs in a cell *)
Lemma filter_ext_in' {A} (f g : A -> bool) l : (forall a, In a l -> f a = g a) -> filter f l = filter g l.
Proof. apply filter_ext_in. Qed.
Lemma filter_none {A} (f : A -> bool) l : (forall a, In a l -> f a = false) -> filter f l = [].
Proof.
  induction l as [|x l IH]; intros H; [reflexivity|]. cbn [filter].
  rewrite (H x) by (left; auto). apply IH. intros; apply H; right; auto.
Qed.
Lemma evens_count m k : k < m -> length (filter (fun j => Nat.even j && (S j <? m)) (seq 0 k)) = (S k) / 2.
Proof.
  induction k as [|k IH]; intros Hk; [reflexivity|].
  rewrite seq_snoc, filter_app, app_length, IH by lia. cbn [filter].
  replace (S k <? m) with true by (symmetry; apply Nat.ltb_lt; lia). rewrite andb_true_r.
  destruct (Nat.even k) eqn:E; cbn [length].
  - apply Nat.even_spec in E. destruct E as [q ->].
    replace (S (2 * q)) with (1 + q * 2) by lia. replace (S (1 + q * 2)) with (0 + (S q) * 2) by lia.
    rewrite !Nat.div_add by lia. cbn [Nat.div Nat.divmod fst]. lia.
  - assert (Nat.odd k = true) as E2 by (rewrite <- Nat.negb_even, E; reflexivity).
    apply Nat.odd_spec in E2. destruct E2 as [q ->].
    replace (S (2 * q + 1)) with (0 + (S q) * 2) by lia. replace (S (0 + (S q) * 2)) with (1 + (S q) * 2) by lia.
    rewrite !Nat.div_add by lia. cbn [Nat.div Nat.divmod fst]. lia.
Qed.
Lemma evens_count_all m : length (filter (fun j => Nat.even j && (S j <? m)) (seq 0 m)) = m / 2.
Proof.
  destruct m as [|k]; [reflexivity|].
  rewrite seq_snoc, filter_app, app_length, evens_count by lia. cbn [filter].
  rewrite Nat.ltb_irrefl, andb_false_r. cbn [length]. lia.
Qed.

(** a sum over positions in which paired entries cancel *)
Lemma paired_sum_zero (m : nat) (pr : nat -> bool) (d : nat -> R) :
  (forall p, pr p = true -> pr (S p) = false /\ S p < m) ->
  (forall p, p < m -> pr p = false -> (p = 0 \/ pr (pred p) = false) -> d p = 0%R) ->
  (forall p, pr p = true -> (d p + d (S p) = 0)%R) ->
  sumR m d = 0%R.
Proof.
  intros H1 H2 H3.
  assert (forall k, k <= m ->
    sumR k d = if (match k with O => false | S q => pr q end) then d (pred k) else 0%R) as HG.
  { induction k as [|k IH]; intros Hk; [reflexivity|]. cbn [sumR pred]. rewrite IH by lia.
    destruct k as [|q].
    - destruct (pr 0) eqn:E; [lra|]. rewrite H2; auto; try lra; lia.
    - cbn [pred]. destruct (pr q) eqn:Eq.
      + destruct (H1 q Eq) as [-> _]. rewrite H3 by auto. reflexivity.
      + destruct (pr (S q)) eqn:E; [lra|]. rewrite (H2 (S q)); auto; try lra; lia. }
  rewrite HG by lia. destruct m as [|q]; [reflexivity|].
  destruct (pr q) eqn:E; [|reflexivity]. destruct (H1 q E). lia.
Qed.

Section Pass.
  Variable kernel : nat -> sd -> sd -> R.
  Variable dt : R.
  Variable dv : nat -> R.
  Variable o : copts.
  Variable n_cell : nat.
  Variable garbage_n : nat -> nat.
  Variable garbage_r : nat -> R.
  Variable ijk : list nat.
  Variables sorted_id sorted_ijk : list nat.
  Hypothesis Hsort : sort_helper true ijk sorted_ijk sorted_id.
  Let np := length ijk.
  Hypothesis Hnp : 0 < np.
  Hypothesis Hcell : forall c, In c ijk -> c < n_cell.
  Variable sched : nat -> list nat.
  Hypothesis Hsched : forall k, Permutation (sched k) (seq 0 (np - 1)).
  Variable u01 : nat -> R.
  Variable sds : nat -> sd.

  Lemma HP : Permutation sorted_id (seq 0 np).
  Proof. now apply sort_helper_spec in Hsort. Qed.
  Lemma HE : sorted_ijk = map (fun id => nth id ijk 0) sorted_id.
  Proof. now apply sort_helper_spec in Hsort. Qed.
  Lemma HSs : Sorted le sorted_ijk.
  Proof. now apply sort_helper_spec in Hsort. Qed.
  Lemma Hl : length sorted_ijk = np.
  Proof. rewrite HE, map_length. apply perm_len, HP. Qed.
  Lemma HPi : Permutation sorted_ijk ijk.
  Proof. rewrite HE, HP. unfold np. now rewrite map_nth_seq. Qed.
  Lemma Hcell' : forall c, In c sorted_ijk -> c < n_cell.
  Proof. intros c Hc. apply Hcell. eapply Permutation_in; [exact HPi|auto]. Qed.
  Lemma sijk_sid p : p < np -> sijk sorted_ijk p = nth (sid sorted_id p) ijk 0.
  Proof.
    intros Hp. unfold sijk, sid. rewrite HE.
    apply (nth_map_lt (fun id => nth id ijk 0)). rewrite (perm_len np sorted_id HP). exact Hp.
  Qed.

  Notation sid := (sid sorted_id).
  Notation sijk := (sijk sorted_ijk).
  Notation pairb := (pairb n_cell garbage_n sorted_ijk np).
  Notation prevb := (prevb n_cell garbage_n sorted_ijk np).
  Notation off := (off n_cell garbage_n sorted_ijk).
  Notation cnt := (count_occ Nat.eq_dec sorted_ijk).
  Notation cpair := (collider_pair kernel dt dv o n_cell garbage_r sorted_ijk).
  Notation run := (coal kernel dt dv o n_cell garbage_n garbage_r sorted_id sorted_ijk np sched u01 sds).

  Definition fin (p : nat) : sd * sd :=
    let '(a1, b1, ka, kb, _) := cpair (sijk p) (sds (sid p)) (sds (sid (S p))) (u01 p) in
    fold_left (fun ab f => app_f f ka kb ab) (follow_ups o) (a1, b1).

  Definition flag (p : nat) : bool :=
    snd (cpair (sijk p) (sds (sid p)) (sds (sid (S p))) (u01 p)).

  Lemma coal_closed :
    exists st, run = Some st /\
      (forall p, p < np -> arr st (sid p) =
          if pairb p then fst (fin p) else if prevb p then snd (fin (pred p)) else sds (sid p)) /\
      (forall id, np <= id -> arr st id = sds id) /\
      inc st = existsb (fun p => pairb p && flag p) (seq 0 (np - 1)).
  Proof.
    unfold coal. destruct np as [|m] eqn:Em; [lia|]. rewrite <- Em in *.
    destruct (first_launch kernel dt dv o n_cell garbage_n garbage_r sorted_id sorted_ijk np
               HP Hl HSs Hcell' sds u01 (sched 0) (Hsched 0)) as (HA & HC & HC2 & HI & HO).
    set (st := fold_left _ (sched 0) _) in *.
    assert (HC3 : forall p, pairb p = true -> col st (S p) =
       cf_col kernel dt dv o n_cell garbage_n garbage_r sorted_id sorted_ijk np sds u01 (S p)).
    { intros p Hp. apply HC2. exact Hp. }
    assert (Hkb : forall p, (res_kb kernel dt dv o n_cell garbage_r sorted_id sorted_ijk sds u01 p <= 0)%R).
    { intros p. unfold res_kb, res. apply cpair_kb. }
    destruct (all_follow kernel dt dv o n_cell garbage_n garbage_r sorted_id sorted_ijk np
               HP Hl HSs Hcell' sds u01 (col st) HC HC3 Hkb (follow_ups o)
               (fun p => (res_a kernel dt dv o n_cell garbage_r sorted_id sorted_ijk sds u01 p,
                        res_b kernel dt dv o n_cell garbage_r sorted_id sorted_ijk sds u01 p))
               (arr st) sched 1%nat) as [HF HFO].
    { intros f Hf. eapply quiet_follow_ups; eauto. }
    { exact Hsched. }
    { intros p Hp. rewrite HA by auto. reflexivity. }
    { exact HO. }
    eexists. split; [reflexivity|]. cbn [arr inc]. split; [|split].
    - intros p Hp. rewrite HF by auto. unfold view, fin.
      pose proof (res_eta kernel dt dv o n_cell garbage_r sorted_id sorted_ijk sds u01) as HR.
      unfold res in HR at 1.
      destruct (CoalProofs.pairb n_cell garbage_n sorted_ijk np p) eqn:E1.
      { rewrite (HR p). reflexivity. }
      destruct (CoalProofs.prevb n_cell garbage_n sorted_ijk np p) eqn:E2; [|reflexivity].
      rewrite (HR (pred p)). reflexivity.
    - exact HFO.
    - rewrite HI. reflexivity.
  Qed.

  Lemma same_cell_ids p : pairb p = true -> nth (sid p) ijk 0 = nth (sid (S p)) ijk 0.
  Proof.
    intros H. pose proof (pair_S_lt _ _ _ _ _ H).
    rewrite <- !sijk_sid by lia. now apply pair_same in H.
  Qed.

  (** ** number of pairs per cell *)
  Lemma pairs_in_cell c :
    length (filter (fun p => pairb p && (sijk p =? c)) (seq 0 np)) = cnt c / 2.
  Proof.
    destruct (in_dec Nat.eq_dec c sorted_ijk) as [Hin|Hni].
    2:{ rewrite (proj1 (count_occ_not_In Nat.eq_dec sorted_ijk c) Hni).
        rewrite filter_none; [reflexivity|]. intros p Hp. apply in_seq in Hp.
        destruct (Nat.eqb_spec (sijk p) c) as [E|E]; [|apply andb_false_r].
        exfalso. apply Hni. rewrite <- E. unfold CoalModel.sijk. apply nth_In. rewrite Hl. lia. }
    assert (Hc : c < n_cell) by (now apply Hcell').
    pose proof (off_cnt_le n_cell garbage_n sorted_ijk np Hl HSs Hcell' c Hc) as Hoc.
    replace (seq 0 np) with (seq 0 (off c) ++ seq (off c) (cnt c) ++ seq (off c + cnt c) (np - (off c + cnt c))).
    2:{ rewrite <- !seq_app. f_equal. lia. }
    rewrite !filter_app, !app_length.
    rewrite (filter_none _ (seq 0 (off c))), (filter_none _ (seq (off c + cnt c) _)).
    - cbn [length]. rewrite Nat.add_0_r. cbn [Nat.add].
      rewrite <- evens_count_all.
      replace (seq (off c) (cnt c)) with (map (fun j => off c + j) (seq 0 (cnt c))).
      2:{ clear. generalize (off c), (cnt c). intros a m. revert a. induction m as [|m IH]; intros a; [reflexivity|].
          cbn [seq map]. rewrite Nat.add_0_r. f_equal. rewrite <- (IH (S a)), <- seq_shift, map_map.
          apply map_ext. intros j. lia. }
      assert (forall (f : nat -> bool) (g : nat -> nat) l,
        length (filter f (map g l)) = length (filter (fun j => f (g j)) l)) as Hfm.
      { clear. intros f g l. induction l as [|x l IH]; [reflexivity|]. cbn [map filter].
        destruct (f (g x)); cbn [length]; auto. }
      rewrite Hfm. f_equal. apply filter_ext_in. intros j Hj. apply in_seq in Hj.
      assert (Ecell : sijk (off c + j) = c).
      { apply (in_cell n_cell garbage_n sorted_ijk np Hl HSs Hcell'); lia. }
      unfold CoalProofs.pairb, cix. rewrite Ecell, Nat.eqb_refl, andb_true_r.
      replace (off c + j - off c) with j by lia.
      destruct (Nat.ltb_spec (S j) (cnt c)) as [Hj2|Hj2].
      + assert (sijk (S (off c + j)) = c) as ->.
        { apply (in_cell n_cell garbage_n sorted_ijk np Hl HSs Hcell'); lia. }
        rewrite Nat.eqb_refl. replace (S (off c + j) <? np) with true; [now rewrite andb_true_r|].
        symmetry. apply Nat.ltb_lt. lia.
      + destruct (Nat.ltb_spec (S (off c + j)) np) as [Hl2|Hl2].
        2:{ cbn. now rewrite andb_false_r. }
        cbn [andb]. f_equal.
        destruct (Nat.eqb_spec c (sijk (S (off c + j)))) as [E|E]; [|reflexivity].
        exfalso. pose proof (off_le n_cell garbage_n sorted_ijk np Hl HSs Hcell' _ Hl2) as Ho.
        rewrite <- E in Ho. lia.
    - intros p Hp. apply in_seq in Hp.
      destruct (Nat.eqb_spec (sijk p) c) as [E|E]; [|apply andb_false_r].
      exfalso. pose proof (off_le n_cell garbage_n sorted_ijk np Hl HSs Hcell' p) as Ho.
      rewrite E in Ho. lia.
    - intros p Hp. apply in_seq in Hp.
      destruct (Nat.eqb_spec (sijk p) c) as [E|E]; [|apply andb_false_r].
      exfalso. pose proof (off_le n_cell garbage_n sorted_ijk np Hl HSs Hcell' p) as Ho.
      rewrite E in Ho. lia.
  Qed.

  (** ** the list of pairs *)
  Definition pairs : list (nat * nat * nat) :=
    map (fun p => (p, sid p, sid (S p))) (filter pairb (seq 0 np)).

  Lemma pairs_positions_nodup l :
    NoDup l -> (forall p, In p l -> pairb p = true) -> NoDup (flat_map (fun p => [p; S p]) l).
  Proof.
    induction l as [|p l IH]; intros HN HF; [constructor|].
    inversion HN as [|? ? Hni HN']; subst. cbn.
    assert (forall q, In q (flat_map (fun p => [p; S p]) l) -> exists r, In r l /\ (q = r \/ q = S r)) as Hin.
    { intros q Hq. apply in_flat_map in Hq. destruct Hq as (r & Hr & Hq). exists r. split; auto.
      cbn in Hq. intuition. }
    assert (Hp := HF p (or_introl eq_refl)).
    constructor; [|constructor].
    - cbn. intros [E|H]; [lia|]. apply Hin in H. destruct H as (r & Hr & [E|E]); subst; [contradiction|].
      assert (pairb r = true) by (apply HF; right; auto). rewrite pair_not_next in Hp; auto; [discriminate|..].
      + exact Hl. + exact HSs. + exact Hcell'.
    - intros H. apply Hin in H. destruct H as (r & Hr & [E|E]).
      + subst. assert (pairb (S p) = true) by (apply HF; right; auto).
        rewrite pair_not_next in H; auto; [discriminate|..]. exact Hl. exact HSs. exact Hcell'.
      + inversion E; subst. contradiction.
    - apply IH; auto. intros; apply HF; right; auto.
  Qed.

  Lemma NoDup_map_in {A B} (f : A -> B) l :
    NoDup l -> (forall x y, In x l -> In y l -> f x = f y -> x = y) -> NoDup (map f l).
  Proof.
    induction l as [|x l IH]; intros HN HI; [constructor|].
    inversion HN as [|? ? Hni HN']; subst. cbn. constructor.
    - intros H. apply in_map_iff in H. destruct H as (y & E & Hy).
      apply HI in E; [|right; auto|left; auto]. subst. contradiction.
    - apply IH; auto. intros; apply HI; auto; right; auto.
  Qed.

  Lemma pairs_nodup : NoDup (flat_map (fun t => [snd (fst t); snd t]) pairs).
  Proof.
    unfold pairs. set (l := filter _ _).
    assert (Hlf : forall p, In p l -> pairb p = true /\ S p < np).
    { intros p Hp. apply filter_In in Hp. destruct Hp as [_ Hp]. split; auto.
      now apply pair_S_lt in Hp. }
    assert (flat_map (fun t => [snd (fst t); snd t]) (map (fun p => (p, sid p, sid (S p))) l)
            = map sid (flat_map (fun p => [p; S p]) l)) as ->.
    { clear. induction l as [|p l IH]; cbn; [reflexivity|]. now rewrite IH. }
    apply NoDup_map_in.
    - apply pairs_positions_nodup; [apply NoDup_filter, seq_NoDup|]. intros p Hp. now apply Hlf.
    - intros x y Hx Hy E. apply in_flat_map in Hx, Hy.
      destruct Hx as (p & Hp & Hx), Hy as (q & Hq & Hy).
      apply Hlf in Hp as [_ Hp]. apply Hlf in Hq as [_ Hq]. cbn in Hx, Hy.
      apply (perm_inj np sorted_id HP); auto; intuition lia.
  Qed.

  Lemma pairs_seeds_nodup : NoDup (map (fun t => fst (fst t)) pairs).
  Proof.
    unfold pairs. rewrite map_map. cbn. rewrite map_id. apply NoDup_filter, seq_NoDup.
  Qed.

  Lemma pairs_count c :
    length (filter (fun t => nth (snd t) ijk 0 =? c) pairs) = count_occ Nat.eq_dec ijk c / 2.
  Proof.
    rewrite <- (proj1 (Permutation_count_occ Nat.eq_dec _ _) HPi c).
    rewrite <- pairs_in_cell. unfold pairs.
    assert (forall (f : nat -> bool) (g h : nat -> bool) l,
      (forall p, In p l -> g p = true -> h p = f p) ->
      length (filter h (filter g l)) = length (filter (fun p => g p && f p) l)) as HG.
    { clear. intros f g h l. induction l as [|x l IH]; intros H; [reflexivity|]. cbn [filter].
      destruct (g x) eqn:E; cbn [andb filter].
      - rewrite (H x) by (auto; left; auto). destruct (f x); cbn [length]; rewrite IH; auto;
          intros; apply H; auto; right; auto.
      - apply IH. intros; apply H; auto; right; auto. }
    assert (forall (h : nat * nat * nat -> bool) (g : nat -> nat * nat * nat) l,
      length (filter h (map g l)) = length (filter (fun p => h (g p)) l)) as HM.
    { clear. intros h g l. induction l as [|x l IH]; [reflexivity|]. cbn [map filter].
      destruct (h (g x)); cbn [length]; auto. }
    rewrite HM. apply HG. intros p Hp Hpr. cbn [snd].
    pose proof (pair_S_lt _ _ _ _ _ Hpr). rewrite <- sijk_sid by lia.
    pose proof (pair_same _ _ _ _ _ Hpr) as E. now rewrite E.
  Qed.

  Lemma in_pairs p i j : In (p, i, j) pairs <-> (pairb p = true /\ i = sid p /\ j = sid (S p)).
  Proof.
    unfold pairs. rewrite in_map_iff. split.
    - intros (q & E & Hq). apply filter_In in Hq. inversion E; subst. tauto.
    - intros (H & -> & ->). exists p. split; auto. apply filter_In. split; auto.
      apply in_seq. apply pair_S_lt in H. lia.
  Qed.

  (** ** sums over a cell *)
  Lemma cell_sum_preserved (w : sd -> R) st c :
    (forall p, p < np -> arr st (sid p) =
          if pairb p then fst (fin p) else if prevb p then snd (fin (pred p)) else sds (sid p)) ->
    (forall p, pairb p = true ->
       (w (fst (fin p)) + w (snd (fin p)) = w (sds (sid p)) + w (sds (sid (S p))))%R) ->
    sumR np (fun id => if nth id ijk 0 =? c then w (arr st id) else 0%R) =
    sumR np (fun id => if nth id ijk 0 =? c then w (sds id) else 0%R).
  Proof.
    intros HA HW.
    rewrite <- (sumR_perm np sorted_id (fun id => if nth id ijk 0 =? c then w (arr st id) else 0%R) HP).
    rewrite <- (sumR_perm np sorted_id (fun id => if nth id ijk 0 =? c then w (sds id) else 0%R) HP).
    fold sid.
    set (f := fun p => if nth (nth p sorted_id 0) ijk 0 =? c then w (arr st (nth p sorted_id 0)) else 0%R).
    set (g := fun p => if nth (nth p sorted_id 0) ijk 0 =? c then w (sds (nth p sorted_id 0)) else 0%R).
    assert (sumR np (fun p => f p + - 1 * g p)%R = 0%R) as H0.
    { apply (paired_sum_zero np pairb).
      - intros p Hp. split; [|now apply pair_S_lt in Hp].
        apply pair_not_next; auto. exact Hl. exact HSs. exact Hcell'.
      - intros p Hp Hpp Hpv. unfold f, g. change (nth p sorted_id 0) with (sid p).
        rewrite HA, Hpp by auto.
        assert (prevb p = false) as ->.
        { destruct p; [reflexivity|]. destruct Hpv as [Hpv|Hpv]; [discriminate|]. exact Hpv. }
        destruct (_ =? c); lra.
      - intros p Hp. unfold f, g.
        change (nth p sorted_id 0) with (sid p). change (nth (S p) sorted_id 0) with (sid (S p)).
        rewrite <- (same_cell_ids p Hp). pose proof (pair_S_lt _ _ _ _ _ Hp).
        rewrite !HA by lia. rewrite Hp.
        rewrite (pair_not_next n_cell garbage_n sorted_ijk np Hl HSs Hcell' p Hp).
        cbn [CoalProofs.prevb pred]. rewrite Hp. specialize (HW p Hp).
        destruct (_ =? c); lra. }
    rewrite sumR_plus, sumR_scal in H0. unfold f, g in *. lra.
  Qed.
End Pass.
