From Coq Require Import List Arith NArith ZArith Lia Reals Lra Permutation Sorted Bool.
From Verif Require Import Base BaseProofs HskpngModel HskpngProofs CoalModel.
Import ListNotations.

Lemma scatter_notin {A} (kv : list (nat * A)) init k :
  ~ In k (map fst kv) -> scatter init kv k = init k.
Proof.
  revert init. unfold scatter. induction kv as [|[k' v] kv IH]; cbn; intros init H; [reflexivity|].
  rewrite IH by tauto. apply upd_other. intros ->. tauto.
Qed.
Lemma scatter_in {A} (kv : list (nat * A)) init k v :
  NoDup (map fst kv) -> In (k, v) kv -> scatter init kv k = v.
Proof.
  revert init. induction kv as [|[k' v'] kv IH]; cbn; intros init HN H; [contradiction|].
  inversion HN as [|? ? Hni HN']; subst.
  destruct H as [E|H].
  - inversion E; subst. unfold scatter. cbn. fold (scatter (upd init k v) kv).
    rewrite scatter_notin by auto. apply upd_same.
  - unfold scatter. cbn. fold (scatter (upd init k' v') kv). now apply IH.
Qed.

Section Coal.
  Variable kernel : nat -> sd -> sd -> R.
  Variable dt : R.
  Variable dv : nat -> R.
  Variable o : copts.
  Variable n_cell : nat.
  Variable garbage_n : nat -> nat.
  Variable garbage_r : nat -> R.
  Variables sorted_id sorted_ijk : list nat.
  Variable np : nat.
  Hypothesis Hlid : Permutation sorted_id (seq 0 np).
  Hypothesis Hlijk : length sorted_ijk = np.
  Hypothesis HS : Sorted le sorted_ijk.
  Hypothesis Hcell : forall c, In c sorted_ijk -> c < n_cell.

  Notation sid := (sid sorted_id).
  Notation sijk := (sijk sorted_ijk).
  Notation off := (off n_cell garbage_n sorted_ijk).
  Notation scl := (scl n_cell garbage_r sorted_ijk).
  Notation cnt := (count_occ Nat.eq_dec sorted_ijk).

  Lemma keys_nodup : NoDup (map fst (counts sorted_ijk)).
  Proof. apply StronglySorted_lt_NoDup, run_lengths_sorted, HS. Qed.

  Lemma keys_full c : count_n sorted_ijk = n_cell -> c < n_cell -> In c sorted_ijk.
  Proof.
    intros Hc Hl. apply run_lengths_keys.
    assert (incl (seq 0 n_cell) (map fst (counts sorted_ijk))) as Hi.
    { apply NoDup_length_incl; [apply keys_nodup| |].
      - rewrite seq_length, map_length. unfold count_n in Hc. lia.
      - intros k Hk. apply (proj1 (run_lengths_keys _ _)) in Hk. apply Hcell in Hk.
        apply in_seq. lia. }
    apply Hi, in_seq. lia.
  Qed.

  Lemma count_grid_spec c : c < n_cell -> count_grid n_cell garbage_n sorted_ijk c = cnt c.
  Proof.
    intros Hc. unfold count_grid.
    destruct (in_dec Nat.eq_dec c sorted_ijk) as [Hin|Hni].
    - apply scatter_in; [apply keys_nodup|]. apply run_lengths_in; auto.
    - rewrite scatter_notin.
      + destruct (Nat.eqb_spec (count_n sorted_ijk) n_cell) as [E|E].
        * exfalso. apply Hni. now apply keys_full.
        * symmetry. now apply count_occ_not_In.
      + intros H. apply Hni. now apply run_lengths_keys.
  Qed.

  Lemma scl_spec c : In c sorted_ijk -> scl c = scale_factor (cnt c).
  Proof.
    intros Hin. unfold CoalModel.scl. apply scatter_in.
    - rewrite map_map. cbn. apply keys_nodup.
    - apply in_map_iff. exists (c, cnt c). split; auto. apply run_lengths_in; auto.
  Qed.

  Lemma off_spec c : c <= n_cell -> off c = lt_cnt sorted_ijk c.
  Proof.
    intros Hc. unfold CoalModel.off. rewrite lt_cnt_sum. apply sumnat_ext.
    intros i Hi. apply count_grid_spec. lia.
  Qed.

  Lemma sijk_lt p : p < np -> sijk p < n_cell.
  Proof. intros Hp. apply Hcell. unfold CoalModel.sijk. apply nth_In. lia. Qed.

  Definition cix (p : nat) : nat := p - off (sijk p).
  Definition pairb (p : nat) : bool :=
    (S p <? np) && (Nat.even (cix p) && (sijk p =? sijk (S p))).

  Lemma off_le p : p < np -> off (sijk p) <= p < off (sijk p) + cnt (sijk p).
  Proof.
    intros Hp. rewrite off_spec by (pose proof (sijk_lt p Hp); lia).
    pose proof (sorted_position sorted_ijk p HS) as H. rewrite Hlijk in H.
    specialize (H Hp). rewrite lt_cnt_S in H. exact H.
  Qed.
  Lemma in_cell p c : c < n_cell -> p < np -> off c <= p < off c + cnt c -> sijk p = c.
  Proof.
    intros Hc Hp H. rewrite off_spec in H by lia. apply sorted_position_inv; auto; [lia|].
    now rewrite lt_cnt_S.
  Qed.
  Lemma off_cnt_le c : c < n_cell -> off c + cnt c <= np.
  Proof.
    intros Hc. rewrite off_spec by lia. rewrite <- lt_cnt_S, <- Hlijk. apply lt_cnt_le.
  Qed.

  Lemma cix_next_same p : S p < np -> sijk p = sijk (S p) -> cix (S p) = S (cix p).
  Proof.
    intros Hp E. unfold cix. rewrite <- E. pose proof (off_le p). lia.
  Qed.
  Lemma cix_next_diff p : S p < np -> sijk p <> sijk (S p) -> cix (S p) = 0.
  Proof.
    intros Hp E. unfold cix.
    assert (sijk p <= sijk (S p)) as Hle.
    { apply Sorted_nth_le; auto; lia. }
    assert (off (S (sijk p)) <= off (sijk (S p))) as Hm.
    { rewrite !off_spec; [apply lt_cnt_mono; lia| |];
      pose proof (sijk_lt (S p) Hp); pose proof (sijk_lt p); lia. }
    assert (off (S (sijk p)) = off (sijk p) + cnt (sijk p)) as Hs.
    { rewrite !off_spec by (pose proof (sijk_lt p); lia). apply lt_cnt_S. }
    pose proof (off_le p). lia.
  Qed.
  (** the test made by the code is the test of belonging to the same cell *)
  Lemma same_cell_test p : S p < np -> (S (cix p) =? cix (S p)) = (sijk p =? sijk (S p)).
  Proof.
    intros Hp. destruct (Nat.eqb_spec (sijk p) (sijk (S p))) as [E|E].
    - rewrite (cix_next_same p Hp E). apply Nat.eqb_refl.
    - rewrite (cix_next_diff p Hp E). reflexivity.
  Qed.
  Lemma pair_not_next p : pairb p = true -> pairb (S p) = false.
  Proof.
    unfold pairb. rewrite !andb_true_iff. intros (H1 & H2 & H3).
    apply Nat.ltb_lt in H1. apply Nat.eqb_eq in H3.
    rewrite (cix_next_same p H1 H3), Nat.even_succ, <- Nat.negb_even, H2. cbn.
    now rewrite andb_false_r.
  Qed.
  Lemma pair_S_lt p : pairb p = true -> S p < np.
  Proof. unfold pairb. rewrite !andb_true_iff. intros (H1 & _). now apply Nat.ltb_lt in H1. Qed.
  Lemma pair_same p : pairb p = true -> sijk p = sijk (S p).
  Proof. unfold pairb. rewrite !andb_true_iff. intros (_ & _ & H). now apply Nat.eqb_eq in H. Qed.

  (** [pairb] of the previous position *)
  Definition prevb (p : nat) : bool := match p with O => false | S q => pairb q end.
  Definition own (p : nat) : nat := if prevb p then pred p else p.

  Lemma prev_not_pair p : prevb p = true -> pairb p = false.
  Proof. destruct p as [|q]; cbn; [discriminate|]. apply pair_not_next. Qed.
  Lemma odd_has_prev p : p < np -> Nat.odd (cix p) = true -> prevb p = true.
  Proof.
    intros Hp Ho. destruct p as [|q].
    - unfold cix in Ho. cbn in Ho. discriminate.
    - cbn. unfold pairb.
      destruct (Nat.eq_dec (sijk q) (sijk (S q))) as [E|E].
      + rewrite (cix_next_same q Hp E) in Ho. rewrite Nat.odd_succ in Ho. rewrite Ho.
        apply Nat.ltb_lt in Hp. rewrite Hp. apply Nat.eqb_eq in E. now rewrite E.
      + rewrite (cix_next_diff q Hp E) in Ho. discriminate.
  Qed.

  Variable sds : nat -> sd.
  Variable u01 : nat -> R.
  Notation cpair := (collider_pair kernel dt dv o n_cell garbage_r sorted_ijk).

  Definition res (p : nat) : sd * sd * R * R * bool :=
    cpair (sijk p) (sds (sid p)) (sds (sid (S p))) (u01 p).
  Definition res_a p := fst (fst (fst (fst (res p)))).
  Definition res_b p := snd (fst (fst (fst (res p)))).
  Definition res_ka p := snd (fst (fst (res p))).
  Definition res_kb p := snd (fst (res p)).
  Definition res_f p := snd (res p).
  Lemma res_eta p : res p = (res_a p, res_b p, res_ka p, res_kb p, res_f p).
  Proof. unfold res_a, res_b, res_ka, res_kb, res_f. now destruct (res p) as [[[[? ?] ?] ?] ?]. Qed.

  (** closed form of the outcome of the first launch *)
  Definition cf_arr (p : nat) : sd :=
    if pairb p then res_a p else if prevb p then res_b (pred p) else sds (sid p).
  Definition cf_col (p : nat) : R :=
    if pairb p then res_ka p else if prevb p then res_kb (pred p) else 0%R.

  Lemma sid_inj p q : p < np -> q < np -> sid p = sid q -> p = q.
  Proof. intros Hp Hq. apply (perm_inj np sorted_id Hlid); auto. Qed.

  Definition memb (x : nat) (l : list nat) : bool := existsb (Nat.eqb x) l.
  Lemma memb_In x l : memb x l = true <-> In x l.
  Proof.
    unfold memb. rewrite existsb_exists. split.
    - intros (y & Hy & E). apply Nat.eqb_eq in E. now subst.
    - intros H. exists x. split; auto. apply Nat.eqb_refl.
  Qed.
  Lemma memb_snoc x l i : memb x (l ++ [i]) = memb x l || (x =? i).
  Proof. unfold memb. rewrite existsb_app. cbn. now rewrite orb_false_r. Qed.

  Definition Inv (l : list nat) (st : cst) : Prop :=
    (forall p, p < np -> arr st (sid p) = if memb (own p) l then cf_arr p else sds (sid p)) /\
    (forall p, p < np -> col st p = if memb (own p) l then cf_col p else u01 p) /\
    inc st = existsb (fun p => pairb p && res_f p) l /\
    (forall id, (forall p, p < np -> sid p <> id) -> arr st id = sds id).

  Lemma own_self p : prevb p = false -> own p = p.
  Proof. unfold own. now intros ->. Qed.
  Lemma own_next p : pairb p = true -> own (S p) = p.
  Proof. intros H. unfold own. cbn. now rewrite H. Qed.
  Lemma own_inv p i : own p = i -> (p = i /\ prevb p = false) \/ (p = S i /\ pairb i = true).
  Proof.
    unfold own. destruct (prevb p) eqn:E; intros <-; [right|left; auto].
    destruct p; cbn in *; [discriminate|auto].
  Qed.

  Notation cstep := (collider_step kernel dt dv o n_cell garbage_n garbage_r sorted_id sorted_ijk).

  Lemma step_odd st i : Nat.odd (cix i) = true -> cstep st i = st.
  Proof. intros H. unfold collider_step. fold (cix i). now rewrite H. Qed.
  Lemma step_single st i : S i < np -> Nat.odd (cix i) = false -> pairb i = false ->
    cstep st i = mk_cst (arr st) (upd (col st) i 0%R) (inc st).
  Proof.
    intros Hi Ho Hp. unfold collider_step. fold (cix i) (cix (S i)). rewrite Ho, same_cell_test by auto.
    unfold pairb in Hp. apply Nat.ltb_lt in Hi. rewrite Hi, <- Nat.negb_odd, Ho in Hp. cbn in Hp.
    now rewrite Hp.
  Qed.
  Lemma step_pair st i : pairb i = true ->
    cstep st i =
      let '(a', b', ka, kb, f) := cpair (sijk i) (arr st (sid i)) (arr st (sid (S i))) (col st i) in
      mk_cst (upd (upd (arr st) (sid i) a') (sid (S i)) b')
             (upd (upd (col st) (S i) kb) i ka) (inc st || f).
  Proof.
    intros Hp. unfold collider_step. fold (cix i) (cix (S i)).
    pose proof Hp as Hp'. unfold pairb in Hp'. rewrite !andb_true_iff in Hp'.
    destruct Hp' as (H1 & H2 & H3). apply Nat.ltb_lt in H1.
    rewrite <- Nat.negb_even, H2, same_cell_test, H3 by auto. reflexivity.
  Qed.

  Lemma inv_step l st i :
    Inv l st -> ~ In i l -> S i < np -> Inv (l ++ [i]) (cstep st i).
  Proof.
    intros (HA & HC & HI & HO) Hni Hi.
    assert (Hm : memb i l = false).
    { destruct (memb i l) eqn:E; auto. apply memb_In in E. contradiction. }
    destruct (pairb i) eqn:Hp.
    - (* pair *)
      rewrite step_pair by auto.
      assert (Hpi : prevb i = false).
      { destruct (prevb i) eqn:E; auto. apply prev_not_pair in E. congruence. }
      assert (Ea : arr st (sid i) = sds (sid i)).
      { rewrite HA by lia. now rewrite own_self, Hm. }
      assert (Eb : arr st (sid (S i)) = sds (sid (S i))).
      { rewrite HA by lia. now rewrite own_next, Hm. }
      assert (Ec : col st i = u01 i).
      { rewrite HC by lia. now rewrite own_self, Hm. }
      rewrite Ea, Eb, Ec. fold (res i). rewrite res_eta.
      repeat split; cbn [arr col inc].
      + intros p Hpn. rewrite memb_snoc.
        destruct (Nat.eqb_spec (own p) i) as [E|E].
        * rewrite orb_true_r. destruct (own_inv p i E) as [[-> _]|[-> _]]; unfold cf_arr.
          -- rewrite upd_other by (intros E2; apply sid_inj in E2; lia).
             rewrite upd_same, Hp. reflexivity.
          -- rewrite upd_same. rewrite (pair_not_next i Hp). cbn. now rewrite Hp.
        * rewrite orb_false_r. rewrite !upd_other; [apply HA; auto| |];
            intros E2; apply sid_inj in E2; try lia; subst p; apply E.
          -- now apply own_self.
          -- now apply own_next.
      + intros p Hpn. rewrite memb_snoc.
        destruct (Nat.eqb_spec (own p) i) as [E|E].
        * rewrite orb_true_r. destruct (own_inv p i E) as [[-> _]|[-> _]]; unfold cf_col.
          -- rewrite upd_same, Hp. reflexivity.
          -- rewrite upd_other, upd_same by lia. rewrite (pair_not_next i Hp). cbn. now rewrite Hp.
        * rewrite orb_false_r. rewrite !upd_other; [apply HC; auto| |];
            intros ->; apply E.
          -- now apply own_next.
          -- now apply own_self.
      + rewrite existsb_app, HI. cbn. now rewrite Hp, orb_false_r.
      + intros id Hid. rewrite !upd_other; [apply HO; auto| |]; intros ->;
          eapply Hid; try reflexivity; lia.
    - destruct (Nat.odd (cix i)) eqn:Ho.
      + (* second member of a pair *)
        rewrite step_odd by auto.
        assert (Hpv : prevb i = true) by (apply odd_has_prev; auto; lia).
        assert (Hown : forall p, own p =? i = false).
        { intros p. apply Nat.eqb_neq. intros E.
          destruct (own_inv p i E) as [[-> E2]|[-> E2]]; congruence. }
        repeat split.
        * intros p Hpn. rewrite memb_snoc, Hown, orb_false_r. auto.
        * intros p Hpn. rewrite memb_snoc, Hown, orb_false_r. auto.
        * rewrite existsb_app, HI. cbn. now rewrite Hp, !orb_false_r.
        * auto.
      + (* without a partner *)
        rewrite step_single by auto.
        assert (Hpv : prevb i = false).
        { destruct (prevb i) eqn:E; auto. exfalso. destruct i as [|q]; cbn in E; [discriminate|].
          pose proof (pair_S_lt q E). pose proof (pair_same q E).
          unfold pairb in E. rewrite !andb_true_iff in E. destruct E as (_ & E & _).
          rewrite (cix_next_same q) in Ho by auto. rewrite Nat.odd_succ in Ho. congruence. }
        repeat split; cbn [arr col inc].
        * intros p Hpn. rewrite memb_snoc, HA by auto.
          destruct (Nat.eqb_spec (own p) i) as [E|E]; [|now rewrite orb_false_r].
          rewrite orb_true_r. destruct (own_inv p i E) as [[-> _]|[-> E2]]; [|congruence].
          rewrite own_self, Hm by auto. unfold cf_arr. now rewrite Hp, Hpv.
        * intros p Hpn. rewrite memb_snoc.
          destruct (Nat.eqb_spec (own p) i) as [E|E].
          -- rewrite orb_true_r. destruct (own_inv p i E) as [[-> _]|[-> E2]]; [|congruence].
             rewrite upd_same. unfold cf_col. now rewrite Hp, Hpv.
          -- rewrite orb_false_r. rewrite upd_other; [auto|]. intros ->. apply E. now apply own_self.
        * rewrite existsb_app, HI. cbn. now rewrite Hp, !orb_false_r.
        * auto.
  Qed.

  Lemma inv_fold l l' st :
    Inv l st -> NoDup (l ++ l') -> (forall i, In i l' -> S i < np) ->
    Inv (l ++ l') (fold_left cstep l' st).
  Proof.
    revert l st. induction l' as [|i l' IH]; cbn; intros l st HI HN Hb; [now rewrite app_nil_r|].
    replace (l ++ i :: l') with ((l ++ [i]) ++ l') in * by (rewrite <- app_assoc; reflexivity).
    apply IH; auto. apply inv_step; auto.
    rewrite <- app_assoc in HN. cbn in HN. apply NoDup_remove_2 in HN.
    intros Hin. apply HN. apply in_or_app. auto.
  Qed.

  Lemma first_launch sched :
    Permutation sched (seq 0 (np - 1)) ->
    let st := fold_left cstep sched (mk_cst sds u01 false) in
    (forall p, p < np -> arr st (sid p) = cf_arr p) /\
    (forall p, S p < np -> col st p = cf_col p) /\
    (forall p, prevb p = true -> col st p = cf_col p) /\
    inc st = existsb (fun p => pairb p && res_f p) (seq 0 (np - 1)) /\
    (forall id, np <= id -> arr st id = sds id).
  Proof.
    intros HP st.
    assert (HI : Inv sched st).
    { apply (inv_fold [] sched); cbn.
      - repeat split; auto.
      - eapply Permutation_NoDup; [symmetry; exact HP|]. apply seq_NoDup.
      - intros i Hi. apply (Permutation_in _ HP) in Hi. apply in_seq in Hi. lia. }
    destruct HI as (HA & HC & HF & HO).
    assert (Hmem : forall p, S (own p) < np -> memb (own p) sched = true).
    { intros p Hp. apply memb_In. eapply Permutation_in; [symmetry; exact HP|]. apply in_seq. lia. }
    assert (Hprev : forall p, prevb p = true -> p < np /\ S (own p) < np).
    { intros p Hp. unfold own. rewrite Hp. destruct p as [|q]; cbn in *; [discriminate|].
      pose proof (pair_S_lt q Hp). lia. }
    repeat split.
    - intros p Hp. rewrite HA by auto.
      destruct (memb (own p) sched) eqn:E; [reflexivity|].
      unfold cf_arr.
      destruct (prevb p) eqn:Epv.
      { destruct (Hprev p Epv) as [_ H]. rewrite Hmem in E by auto. discriminate. }
      destruct (pairb p) eqn:Ep; [|reflexivity].
      rewrite Hmem in E; [discriminate|]. rewrite own_self by auto. now apply pair_S_lt.
    - intros p Hp. rewrite HC by lia. rewrite Hmem; auto.
      unfold own. destruct (prevb p) eqn:E; [|lia]. destruct p; cbn in *; lia.
    - intros p Hp. destruct (Hprev p Hp). rewrite HC by auto. now rewrite Hmem.
    - rewrite HF. clear -HP. apply Bool.eq_iff_eq_true. rewrite !existsb_exists.
      split; intros (p & Hp & E); exists p; split; auto.
      + eapply Permutation_in; [exact HP|auto].
      + eapply Permutation_in; [symmetry; exact HP|auto].
    - intros id Hid. apply HO. intros p Hp. pose proof (perm_bound np sorted_id Hlid p Hp).
      unfold CoalModel.sid. lia.
  Qed.

  (** *** follow-up launches *)
  Definition pstate := nat -> sd * sd.
  (** view of the array given current states of the pairs *)
  Definition view (P : pstate) (p : nat) : sd :=
    if pairb p then fst (P p) else if prevb p then snd (P (pred p)) else sds (sid p).

  Definition quiet (f : R -> R -> sd -> sd -> option (sd * sd)) : Prop :=
    forall ca cb a b, (ca <= 0)%R -> f ca cb a b = None.
  Definition app_f (f : R -> R -> sd -> sd -> option (sd * sd)) ca cb (ab : sd * sd) : sd * sd :=
    match f ca cb (fst ab) (snd ab) with Some x => x | None => ab end.

  Variable cl : nat -> R.
  Hypothesis Hcl : forall p, S p < np -> cl p = cf_col p.
  Hypothesis Hcl2 : forall p, pairb p = true -> cl (S p) = cf_col (S p).
  Hypothesis Hkb : forall p, (res_kb p <= 0)%R.

  Notation fstep := (follow_step sorted_id).

  Definition FInv f (P : pstate) (l : list nat) (a : nat -> sd) : Prop :=
    (forall p, p < np -> a (sid p) =
       view (fun q => if memb q l then app_f f (res_ka q) (res_kb q) (P q) else P q) p) /\
    (forall id, np <= id -> a id = sds id).

  Lemma view_ext P Q p : (forall q, pairb q = true -> P q = Q q) -> view P p = view Q p.
  Proof.
    intros H. unfold view. destruct (pairb p) eqn:E; [now rewrite H|].
    destruct (prevb p) eqn:E2; [|reflexivity]. destruct p; cbn in *; [discriminate|]. now rewrite H.
  Qed.

  Lemma finv_step f P l a i :
    quiet f -> FInv f P l a -> ~ In i l -> S i < np -> FInv f P (l ++ [i]) (fstep f cl a i).
  Proof.
    intros Hq [HA HO] Hni Hi.
    assert (Hm : memb i l = false).
    { destruct (memb i l) eqn:E; auto. apply memb_In in E. contradiction. }
    unfold follow_step.
    destruct (pairb i) eqn:Hp.
    - assert (Hpi : prevb i = false).
      { destruct (prevb i) eqn:E; auto. apply prev_not_pair in E. congruence. }
      assert (Hnx := pair_not_next i Hp).
      assert (Ea : a (sid i) = fst (P i)).
      { rewrite HA by lia. unfold view. now rewrite Hp, Hm. }
      assert (Eb : a (sid (S i)) = snd (P i)).
      { rewrite HA by lia. unfold view. rewrite Hnx. cbn. now rewrite Hp, Hm. }
      rewrite Ea, Eb, (Hcl i Hi), (Hcl2 i Hp).
      unfold cf_col at 1. rewrite Hp. unfold cf_col. rewrite Hnx. cbn [prevb pred]. rewrite Hp.
      split.
      + intros p Hpn.
        assert (Hgen : p <> i -> p <> S i ->
          view (fun q => if memb q (l ++ [i]) then app_f f (res_ka q) (res_kb q) (P q) else P q) p =
          a (sid p)).
        { intros N1 N2. rewrite HA by auto. unfold view.
          destruct (pairb p) eqn:E1.
          - rewrite memb_snoc. apply Nat.eqb_neq in N1. now rewrite N1, orb_false_r.
          - destruct (prevb p) eqn:E2; [|reflexivity].
            rewrite memb_snoc. assert (pred p <> i) as N3 by (destruct p; cbn in *; [discriminate|lia]).
            apply Nat.eqb_neq in N3. now rewrite N3, orb_false_r. }
        assert (Hvi : view (fun q => if memb q (l ++ [i]) then app_f f (res_ka q) (res_kb q) (P q) else P q) i
                    = fst (app_f f (res_ka i) (res_kb i) (P i))).
        { unfold view. now rewrite Hp, memb_snoc, Nat.eqb_refl, orb_true_r. }
        assert (Hvs : view (fun q => if memb q (l ++ [i]) then app_f f (res_ka q) (res_kb q) (P q) else P q) (S i)
                    = snd (app_f f (res_ka i) (res_kb i) (P i))).
        { unfold view. rewrite Hnx. cbn [prevb pred]. now rewrite Hp, memb_snoc, Nat.eqb_refl, orb_true_r. }
        destruct (Nat.eq_dec p i) as [->|N1]; [|destruct (Nat.eq_dec p (S i)) as [->|N2]].
        * rewrite Hvi. unfold app_f. destruct (f (res_ka i) (res_kb i) (fst (P i)) (snd (P i))) as [[x y]|].
          -- rewrite upd_other by (intros E2; apply sid_inj in E2; lia). now rewrite upd_same.
          -- exact Ea.
        * rewrite Hvs. unfold app_f. destruct (f (res_ka i) (res_kb i) (fst (P i)) (snd (P i))) as [[x y]|].
          -- now rewrite upd_same.
          -- exact Eb.
        * rewrite Hgen by auto. destruct (f (res_ka i) (res_kb i) (fst (P i)) (snd (P i))) as [[x y]|]; [|reflexivity].
          rewrite !upd_other; auto; intros E2; apply sid_inj in E2; lia.
      + intros id Hid. destruct (f (res_ka i) (res_kb i) (fst (P i)) (snd (P i))) as [[x y]|]; [|auto].
        pose proof (perm_bound np sorted_id Hlid i ltac:(lia)).
        pose proof (perm_bound np sorted_id Hlid (S i) ltac:(lia)).
        rewrite !upd_other; auto; unfold CoalModel.sid; lia.
    - assert (cl i <= 0)%R as Hc.
      { rewrite Hcl by auto. unfold cf_col. rewrite Hp. destruct (prevb i); [apply Hkb|lra]. }
      rewrite Hq by auto. split; [|exact HO].
      intros p Hpn. rewrite HA by auto. apply view_ext. intros q Eq.
      rewrite memb_snoc. assert (q <> i) as N by congruence. apply Nat.eqb_neq in N.
      now rewrite N, orb_false_r.
  Qed.

  Lemma finv_fold f P l l' a :
    quiet f -> FInv f P l a -> NoDup (l ++ l') -> (forall i, In i l' -> S i < np) ->
    FInv f P (l ++ l') (fold_left (fstep f cl) l' a).
  Proof.
    intros Hq. revert l a. induction l' as [|i l' IH]; cbn; intros l a HI HN Hb; [now rewrite app_nil_r|].
    replace (l ++ i :: l') with ((l ++ [i]) ++ l') in * by (rewrite <- app_assoc; reflexivity).
    apply IH; auto. apply finv_step; auto.
    rewrite <- app_assoc in HN. cbn in HN. apply NoDup_remove_2 in HN.
    intros Hin. apply HN. apply in_or_app. auto.
  Qed.

  Lemma one_follow f P a sched :
    quiet f -> Permutation sched (seq 0 (np - 1)) ->
    (forall p, p < np -> a (sid p) = view P p) -> (forall id, np <= id -> a id = sds id) ->
    let a' := fold_left (fstep f cl) sched a in
    (forall p, p < np -> a' (sid p) = view (fun q => app_f f (res_ka q) (res_kb q) (P q)) p) /\
    (forall id, np <= id -> a' id = sds id).
  Proof.
    intros Hq HP HA HO a'.
    assert (HI : FInv f P sched a').
    { apply (finv_fold f P [] sched); cbn; auto.
      - split; auto.
      - eapply Permutation_NoDup; [symmetry; exact HP|]. apply seq_NoDup.
      - intros i Hi. apply (Permutation_in _ HP) in Hi. apply in_seq in Hi. lia. }
    destruct HI as [HA' HO']. split; auto. intros p Hp. rewrite HA' by auto.
    apply view_ext. intros q Eq. pose proof (pair_S_lt q Eq).
    replace (memb q sched) with true; [reflexivity|]. symmetry. apply memb_In.
    eapply Permutation_in; [symmetry; exact HP|]. apply in_seq. lia.
  Qed.

  Lemma all_follow fs P a sched k :
    (forall f, In f fs -> quiet f) -> (forall j, Permutation (sched j) (seq 0 (np - 1))) ->
    (forall p, p < np -> a (sid p) = view P p) -> (forall id, np <= id -> a id = sds id) ->
    let a' := snd (fold_left
          (fun (ka : nat * (nat -> sd)) f =>
             (S (fst ka), fold_left (fstep f cl) (sched (fst ka)) (snd ka)))
          fs (k, a)) in
    (forall p, p < np -> a' (sid p) =
       view (fun q => fold_left (fun ab f => app_f f (res_ka q) (res_kb q) ab) fs (P q)) p) /\
    (forall id, np <= id -> a' id = sds id).
  Proof.
    revert P a k. induction fs as [|f fs IH]; intros P a k Hq HP HA HO; cbn; [auto|].
    destruct (one_follow f P a (sched k)) as [H1 H2]; auto.
    { apply Hq; left; auto. }
    apply (IH (fun q => app_f f (res_ka q) (res_kb q) (P q))); auto.
    intros g Hg. apply Hq. right; auto.
  Qed.
End Coal.

Lemma quiet_follow_ups o f : In f (follow_ups o) -> quiet f.
Proof.
  unfold follow_ups. rewrite !in_app_iff.
  assert (Hle : forall ca, (ca <= 0)%R -> Rleb ca 0 = true) by (intros; now apply Rleb_true).
  intros [H|[H|[H|H]]].
  - destruct (chem_switch o); [|contradiction]. apply in_map_iff in H. destruct H as (k & <- & _).
    intros ca cb a b Hc. unfold summator. now rewrite Hle.
  - destruct (mix_kappa_on o); [|contradiction]. destruct H as [<-|[]].
    intros ca cb a b Hc. unfold weighted_summator. now rewrite Hle.
  - destruct (diag_incloud_time o); [|contradiction]. destruct H as [<-|[]].
    intros ca cb a b Hc. unfold selector. now rewrite Hle.
  - destruct (act_sstp o); [|contradiction]. destruct H as [<-|[]].
    intros ca cb a b Hc. unfold invalidator. now rewrite Hle.
Qed.
