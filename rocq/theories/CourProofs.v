(** Exchange between MPI processes, for any plan: invariant over all interleavings, progress, bound on the number of steps. *)
From Coq Require Import List Arith ZArith Reals Bool Lia.
From Verif Require Import DistModel CourModel.
Import ListNotations.

Lemma updf_same {A} (f : nat -> A) i v : updf f i v i = v.
Proof. unfold updf. now rewrite Nat.eqb_refl. Qed.
Lemma updf_other {A} (f : nat -> A) i v j : j <> i -> updf f i v j = f j.
Proof. intros H. unfold updf. destruct (Nat.eqb_spec j i); [contradiction|reflexivity]. Qed.
Lemma var_eqb_spec a b : reflect (a = b) (var_eqb a b).
Proof. destruct a, b; constructor; congruence. Qed.
Lemma write_in off d f j : off <= j < off + length d -> write off d f j = nth (j - off) d 0%R.
Proof. intros H. unfold write. destruct (Nat.leb_spec off j), (Nat.ltb_spec j (off + length d)); cbn; reflexivity || lia. Qed.
Lemma write_out off d f j : j < off \/ off + length d <= j -> write off d f j = f j.
Proof. intros H. unfold write. destruct (Nat.leb_spec off j), (Nat.ltb_spec j (off + length d)); cbn; reflexivity || lia. Qed.
Lemma first_match {A} (p : A -> bool) l x : In x l -> p x = true -> exists l1 y l2, l = l1 ++ y :: l2 /\ p y = true /\ forall z, In z l1 -> p z = false.
Proof.
  induction l as [|a l IH]; intros Hx Hp; [destruct Hx|]. destruct (p a) eqn:E.
  - exists [], a, l. split; [reflexivity|]. split; [exact E|]. intros z [].
  - destruct Hx as [->|Hx]; [congruence|]. destruct (IH Hx Hp) as (l1 & y & l2 & -> & Hy & Hn).
    exists (a :: l1), y, l2. split; [reflexivity|]. split; [exact Hy|]. intros z [<-|Hz]; auto.
Qed.

Section Ring.
  Variable (size : nat) (plan : list item) (c : nat -> rankg) (m0 : nat -> var -> nat -> R).
  Notation lft := (lft_rank size).
  Notation rgt := (rgt_rank size).
  Notation n := (length plan).
  Notation sguard := (send_guard c).
  Notation rguard := (recv_guard c).

  (** what makes a plan work *)
  Record plan_ok : Prop := {
    po_tags : NoDup (map i_tag plan);
    po_ring : forall r, r < size -> g_bR (c r) = g_bL (c (rgt r));
    po_apart : forall a b r, In a plan -> In b plan -> i_var a = i_var b -> r < size -> sguard a r = true -> rguard b r = true ->
      i_from a (g_nx (c r)) + i_count a <= i_to b (g_nx (c r)) \/ i_to b (g_nx (c r)) + i_count b <= i_from a (g_nx (c r)) }.
  Hypothesis OK : plan_ok.

  Lemma lft_lt r : r < size -> lft r < size.
  Proof. unfold lft_rank. destruct (Nat.ltb_spec 0 r); lia. Qed.
  Lemma rgt_lt r : r < size -> rgt r < size.
  Proof. unfold rgt_rank. destruct (Nat.ltb_spec r (size - 1)); lia. Qed.
  Lemma rgt_lft r : r < size -> rgt (lft r) = r.
  Proof.
    intros H. unfold lft_rank, rgt_rank. destruct (Nat.ltb_spec 0 r).
    - destruct (Nat.ltb_spec (r - 1) (size - 1)); lia.
    - destruct (Nat.ltb_spec (size - 1) (size - 1)); lia.
  Qed.
  Lemma lft_rgt r : r < size -> lft (rgt r) = r.
  Proof.
    intros H. unfold lft_rank, rgt_rank. destruct (Nat.ltb_spec r (size - 1)).
    - destruct (Nat.ltb_spec 0 (r + 1)); lia.
    - destruct (Nat.ltb_spec 0 0); lia.
  Qed.
  Lemma to_lt it r : r < size -> to_of size it r < size.
  Proof. intros H. unfold to_of. destruct (i_left it); [now apply lft_lt|now apply rgt_lt]. Qed.
  Lemma from_lt it r : r < size -> from_of size it r < size.
  Proof. intros H. unfold from_of. destruct (i_left it); [now apply rgt_lt|now apply lft_lt]. Qed.
  Lemma from_to it r : r < size -> from_of size it (to_of size it r) = r.
  Proof. intros H. unfold from_of, to_of. destruct (i_left it); [now apply rgt_lft|now apply lft_rgt]. Qed.
  Lemma to_from it r : r < size -> to_of size it (from_of size it r) = r.
  Proof. intros H. unfold from_of, to_of. destruct (i_left it); [now apply lft_rgt|now apply rgt_lft]. Qed.
  Lemma guard_to it r : r < size -> rguard it (to_of size it r) = sguard it r.
  Proof.
    intros H. unfold recv_guard, send_guard, to_of. destruct (i_left it).
    - rewrite (po_ring OK) by now apply lft_lt. now rewrite rgt_lft.
    - symmetry. now apply (po_ring OK).
  Qed.
  Lemma tag_inj k k' it it' : nth_error plan k = Some it -> nth_error plan k' = Some it' -> i_tag it = i_tag it' -> k = k' /\ it = it'.
  Proof.
    intros H H' E. assert (k = k').
    { apply (proj1 (NoDup_nth_error _) (po_tags OK)).
      - rewrite map_length. apply nth_error_Some. congruence.
      - rewrite !nth_error_map, H, H'. cbn. now f_equal. }
    subst k'. split; [reflexivity|congruence].
  Qed.

  (** the data of an item as they were at the beginning *)
  Definition data (it : item) (s : nat) : list R := map (m0 s (i_var it)) (seq (i_from it (g_nx (c s))) (i_count it)).
  Lemma data_length it s : length (data it s) = i_count it.
  Proof. unfold data. now rewrite map_length, seq_length. Qed.
  Lemma data_nth it s j : j < i_count it -> nth j (data it s) 0%R = m0 s (i_var it) (i_from it (g_nx (c s)) + j).
  Proof.
    intros H. unfold data. rewrite (nth_indep _ _ (m0 s (i_var it) 0)) by (rewrite map_length, seq_length; lia).
    rewrite map_nth. now rewrite seq_nth by lia.
  Qed.
  (** memory after the first [k] receives *)
  Fixpoint mem_after (r k : nat) : var -> nat -> R :=
    match k with
    | O => m0 r
    | S k => match nth_error plan k with
             | Some it => if rguard it r
                          then set_var (i_var it) (write (i_to it (g_nx (c r))) (data it (from_of size it r)) (mem_after r k (i_var it))) (mem_after r k)
                          else mem_after r k
             | None => mem_after r k
             end
    end.
  (** the buffers that are sent keep their initial contents *)
  Lemma mem_after_send r a j : r < size -> In a plan -> sguard a r = true -> i_from a (g_nx (c r)) <= j < i_from a (g_nx (c r)) + i_count a ->
    forall k, mem_after r k (i_var a) j = m0 r (i_var a) j.
  Proof.
    intros Hr Ha Hg Hj k. induction k as [|k IH]; [reflexivity|]. cbn [mem_after]. destruct (nth_error plan k) as [b|] eqn:Eb; [|exact IH].
    destruct (rguard b r) eqn:Gb; [|exact IH]. unfold set_var. destruct (var_eqb_spec (i_var a) (i_var b)) as [E|E]; [|exact IH].
    rewrite write_out; [rewrite <- E; exact IH|]. rewrite data_length.
    destruct (po_apart OK a b r Ha (nth_error_In _ _ Eb) E Hr Hg Gb); lia.
  Qed.

  Record Inv (g : csys) : Prop := {
    inv_pc : forall r, r < size -> cpc g r <= 2 * n;
    inv_mem : forall r v j, r < size -> cmem g r v j = mem_after r (cpc g r / 2) v j;
    inv_msg : forall m, In m (cnet g) -> exists k it, nth_error plan k = Some it /\ m_src m < size /\ sguard it (m_src m) = true /\
      m_dst m = to_of size it (m_src m) /\ m_tag m = i_tag it /\ m_var m = i_var it /\ m_off m = i_from it (g_nx (c (m_src m))) /\ m_cnt m = i_count it /\
      2 * k < cpc g (m_src m) /\ cpc g (m_dst m) <= 2 * k + 1 /\ (m_data m = None \/ m_data m = Some (data it (m_src m)));
    inv_sent : forall s k it, s < size -> nth_error plan k = Some it -> sguard it s = true -> 2 * k < cpc g s -> cpc g (to_of size it s) <= 2 * k + 1 ->
      exists m, In m (cnet g) /\ m_src m = s /\ m_dst m = to_of size it s /\ m_tag m = i_tag it;
    inv_nodup : NoDup (map (fun m => (m_src m, m_tag m)) (cnet g));
    inv_after : forall r k it, r < size -> nth_error plan k = Some it -> rguard it r = true -> 2 * k + 1 < cpc g r -> 2 * k < cpc g (from_of size it r) }.

  Lemma pc_lt (g : csys) (r : nat) k it : nth_error plan k = Some it -> 2 * k + 2 <= 2 * n.
  Proof. intros H. assert (k < n) by (apply nth_error_Some; congruence). lia. Qed.
  Lemma half_even k : (2 * k) / 2 = k.
  Proof. rewrite Nat.mul_comm. apply Nat.div_mul. discriminate. Qed.
  Lemma half_odd k : (2 * k + 1) / 2 = k.
  Proof. rewrite Nat.mul_comm, Nat.div_add_l by discriminate. cbn. lia. Qed.

  Lemma inv_start : Inv (cstart m0).
  Proof.
    constructor; cbn.
    - intros; lia.
    - intros. reflexivity.
    - intros m [].
    - intros. lia.
    - constructor.
    - intros. lia.
  Qed.
  (** a program counter moves from p to p + 1, messages and memories as described: the parts of the invariant on counters *)
  Lemma updf_cases (f : nat -> nat) i v j : (j = i /\ updf f i v j = v) \/ (j <> i /\ updf f i v j = f j).
  Proof. destruct (Nat.eq_dec j i) as [->|H]; [left; split; [reflexivity|apply updf_same]|right; split; [exact H|now apply updf_other]]. Qed.

  Lemma inv_send g r k it b : Inv g -> r < size -> cpc g r = 2 * k -> nth_error plan k = Some it -> sguard it r = b ->
    Inv (mk_csys (updf (cpc g) r (2 * k + 1)) (cmem g) (cnet g ++ (if b then [sent size c it r] else []))).
  Proof.
    intros I Hr Hp Hit Hg. pose proof (pc_lt g r k it Hit) as Hn.
    constructor; cbn [cpc cmem cnet].
    - intros s Hs. destruct (updf_cases (cpc g) r (2 * k + 1) s) as [(-> & ->)|(_ & ->)]; [lia|now apply (inv_pc g I)].
    - intros s v j Hs. rewrite (inv_mem g I s v j Hs). destruct (updf_cases (cpc g) r (2 * k + 1) s) as [(-> & ->)|(_ & ->)]; [|reflexivity].
      now rewrite Hp, half_odd, half_even.
    - intros m Hm. apply in_app_or in Hm. destruct Hm as [Hm|Hm].
      + destruct (inv_msg g I m Hm) as (k' & it' & A1 & A2 & A3 & A4 & A5 & A6 & A7 & A8 & A9 & A10 & A11). exists k', it'.
        do 8 (split; [assumption|]). split; [|split; [|assumption]].
        * destruct (updf_cases (cpc g) r (2 * k + 1) (m_src m)) as [(E & ->)|(_ & ->)]; [rewrite E in A9; lia|exact A9].
        * destruct (updf_cases (cpc g) r (2 * k + 1) (m_dst m)) as [(E & ->)|(_ & ->)]; [rewrite E in A10; lia|exact A10].
      + destruct b; [|destruct Hm]. destruct Hm as [<-|[]]. exists k, it. cbn [sent m_src m_dst m_tag m_var m_off m_cnt m_data].
        do 8 (split; [first [assumption|reflexivity]|]). rewrite updf_same. split; [lia|]. split; [|left; reflexivity].
        destruct (updf_cases (cpc g) r (2 * k + 1) (to_of size it r)) as [(E & ->)|(_ & ->)]; [lia|].
        destruct (Nat.le_gt_cases (cpc g (to_of size it r)) (2 * k + 1)) as [|Hgt]; [assumption|exfalso].
        assert (Q := inv_after g I (to_of size it r) k it (to_lt it r Hr) Hit). rewrite guard_to, from_to in Q by assumption.
        specialize (Q Hg Hgt). lia.
    - intros s k' it' Hs Hit' Hg' Hlt Hle.
      destruct (Nat.eq_dec s r) as [->|Hne].
      + rewrite updf_same in Hlt. destruct (Nat.eq_dec k' k) as [->|Hk].
        * assert (it' = it) by congruence. subst it'. replace b with true by congruence. exists (sent size c it r).
          split; [apply in_or_app; right; cbn; left; reflexivity|]. repeat split.
        * assert (Hd : cpc g (to_of size it' r) <= 2 * k' + 1).
          { destruct (updf_cases (cpc g) r (2 * k + 1) (to_of size it' r)) as [(E & E')|(_ & E')]; rewrite E' in Hle; [rewrite E; lia|exact Hle]. }
          destruct (inv_sent g I r k' it' Hs Hit' Hg' ltac:(lia) Hd) as (m & Hm & B). exists m. split; [apply in_or_app; now left|exact B].
      + rewrite updf_other in Hlt by assumption.
        assert (Hd : cpc g (to_of size it' s) <= 2 * k' + 1).
        { destruct (updf_cases (cpc g) r (2 * k + 1) (to_of size it' s)) as [(E & E')|(_ & E')]; rewrite E' in Hle; [rewrite E; lia|exact Hle]. }
        destruct (inv_sent g I s k' it' Hs Hit' Hg' Hlt Hd) as (m & Hm & B). exists m. split; [apply in_or_app; now left|exact B].
    - rewrite map_app. destruct b; [|cbn; rewrite app_nil_r; exact (inv_nodup g I)]. cbn [map sent m_src m_tag].
      apply (Permutation.Permutation_NoDup (l := (r, i_tag it) :: map (fun m => (m_src m, m_tag m)) (cnet g))).
      + apply Permutation.Permutation_cons_append.
      + constructor; [|exact (inv_nodup g I)]. intros Hin. apply in_map_iff in Hin. destruct Hin as (m & E & Hm). injection E as E1 E2.
        destruct (inv_msg g I m Hm) as (k' & it' & A1 & A2 & A3 & A4 & A5 & A6 & A7 & A8 & A9 & A10 & A11).
        destruct (tag_inj k' k it' it A1 Hit ltac:(congruence)) as (-> & ->). rewrite E1 in A9. lia.
    - intros s k' it' Hs Hit' Hg' Hlt.
      assert (Q : 2 * k' + 1 < cpc g s). { destruct (updf_cases (cpc g) r (2 * k + 1) s) as [(-> & E)|(_ & E)]; rewrite E in Hlt; lia. }
      pose proof (inv_after g I s k' it' Hs Hit' Hg' Q) as B.
      destruct (updf_cases (cpc g) r (2 * k + 1) (from_of size it' s)) as [(E & ->)|(_ & ->)]; [rewrite E in B; lia|exact B].
  Qed.

  Lemma inv_read g l1 m l2 : Inv g -> cnet g = l1 ++ m :: l2 -> m_data m = None ->
    Inv (mk_csys (cpc g) (cmem g) (l1 ++ with_data m (map (cmem g (m_src m) (m_var m)) (seq (m_off m) (m_cnt m))) :: l2)).
  Proof.
    intros I E Hd. assert (Hm : In m (cnet g)) by (rewrite E; apply in_or_app; right; left; reflexivity).
    destruct (inv_msg g I m Hm) as (k & it & A1 & A2 & A3 & A4 & A5 & A6 & A7 & A8 & A9 & A10 & A11).
    assert (D : map (cmem g (m_src m) (m_var m)) (seq (m_off m) (m_cnt m)) = data it (m_src m)).
    { unfold data. rewrite A6, A7, A8. apply map_ext_in. intros j Hj. apply in_seq in Hj. rewrite (inv_mem g I) by assumption.
      apply mem_after_send; try assumption. now apply nth_error_In in A1. }
    rewrite D. constructor; cbn [cpc cmem cnet]; try apply I.
    - intros m' Hm'. apply in_app_or in Hm'. destruct Hm' as [Hm'|[<-|Hm']].
      + apply (inv_msg g I). rewrite E. apply in_or_app. now left.
      + exists k, it. cbn [with_data m_src m_dst m_tag m_var m_off m_cnt m_data]. repeat (split; [assumption|]). right. reflexivity.
      + apply (inv_msg g I). rewrite E. apply in_or_app. right. now right.
    - intros s k' it' Hs Hit' Hg' Hlt Hle. destruct (inv_sent g I s k' it' Hs Hit' Hg' Hlt Hle) as (m' & Hm' & B). rewrite E in Hm'.
      apply in_app_or in Hm'. destruct Hm' as [Hm'|[<-|Hm']].
      + exists m'. split; [apply in_or_app; now left|exact B].
      + eexists. split; [apply in_or_app; right; left; reflexivity|exact B].
      + exists m'. split; [apply in_or_app; right; now right|exact B].
    - pose proof (inv_nodup g I) as Nd. rewrite E in Nd. rewrite map_app in *. exact Nd.
  Qed.

  Lemma accepted g r k it m : Inv g -> r < size -> nth_error plan k = Some it -> In m (cnet g) -> accepts size it r m = true ->
    m_src m = from_of size it r /\ m_dst m = r /\ sguard it (m_src m) = true /\ 2 * k < cpc g (m_src m) /\ cpc g r <= 2 * k + 1 /\ (m_data m = None \/ m_data m = Some (data it (m_src m))).
  Proof.
    intros I Hr Hit Hm Ha. unfold accepts in Ha. apply andb_true_iff in Ha. destruct Ha as [Ha Ht]. apply andb_true_iff in Ha. destruct Ha as [Hs Hd].
    apply Nat.eqb_eq in Hs, Hd. apply Z.eqb_eq in Ht.
    destruct (inv_msg g I m Hm) as (k' & it' & A1 & A2 & A3 & A4 & A5 & A6 & A7 & A8 & A9 & A10 & A11).
    destruct (tag_inj k' k it' it A1 Hit ltac:(congruence)) as (-> & ->). rewrite Hd in A10. tauto.
  Qed.

  Lemma inv_recv g r k it l1 m l2 d : Inv g -> r < size -> cpc g r = 2 * k + 1 -> nth_error plan k = Some it -> rguard it r = true ->
    cnet g = l1 ++ m :: l2 -> accepts size it r m = true -> m_data m = Some d ->
    Inv (mk_csys (updf (cpc g) r (2 * k + 2))
           (updf (cmem g) r (set_var (i_var it) (write (i_to it (g_nx (c r))) d (cmem g r (i_var it))) (cmem g r))) (l1 ++ l2)).
  Proof.
    intros I Hr Hp Hit Hg E Ha Hd. pose proof (pc_lt g r k it Hit) as Hn.
    assert (Hm : In m (cnet g)) by (rewrite E; apply in_or_app; right; left; reflexivity).
    destruct (accepted g r k it m I Hr Hit Hm Ha) as (S1 & S2 & S3 & S4 & S5 & S6).
    assert (D : d = data it (from_of size it r)) by (rewrite <- S1; destruct S6; congruence).
    assert (Sub : forall x, In x (l1 ++ l2) -> In x (cnet g)).
    { intros x Hx. rewrite E. apply in_app_or in Hx. apply in_or_app. destruct Hx; [now left|right; now right]. }
    pose proof (inv_nodup g I) as Nd. rewrite E, map_app in Nd. cbn [map] in Nd. apply NoDup_remove in Nd. destruct Nd as [Nd Nin]. rewrite <- map_app in Nd, Nin.
    constructor; cbn [cpc cmem cnet].
    - intros s Hs. destruct (updf_cases (cpc g) r (2 * k + 2) s) as [(-> & ->)|(_ & ->)]; [lia|now apply (inv_pc g I)].
    - intros s v j Hs. destruct (Nat.eq_dec s r) as [->|Hne].
      + rewrite !updf_same. replace ((2 * k + 2) / 2) with (S k) by (replace (2 * k + 2) with (2 * S k) by lia; symmetry; apply half_even).
        cbn [mem_after]. rewrite Hit, Hg, D. unfold set_var.
        assert (M : forall v j, cmem g r v j = mem_after r k v j) by (intros v' j'; rewrite (inv_mem g I) by assumption; now rewrite Hp, half_odd).
        destruct (var_eqb v (i_var it)); [|apply M]. unfold write. destruct (_ && _); [reflexivity|apply M].
      + rewrite !updf_other by assumption. now apply (inv_mem g I).
    - intros m' Hm'. destruct (inv_msg g I m' (Sub _ Hm')) as (k' & it' & A1 & A2 & A3 & A4 & A5 & A6 & A7 & A8 & A9 & A10 & A11). exists k', it'.
      do 8 (split; [assumption|]). split; [|split; [|assumption]].
      + destruct (updf_cases (cpc g) r (2 * k + 2) (m_src m')) as [(E' & ->)|(_ & ->)]; [rewrite E' in A9; lia|exact A9].
      + destruct (updf_cases (cpc g) r (2 * k + 2) (m_dst m')) as [(E' & ->)|(_ & ->)]; [|exact A10]. rewrite E' in A10.
        destruct (Nat.eq_dec k' k) as [->|Hk]; [exfalso|lia]. assert (it' = it) by congruence. subst it'. apply Nin. apply in_map_iff. exists m'. split; [|exact Hm'].
        f_equal.
        * rewrite S1, <- E', A4. now rewrite from_to.
        * unfold accepts in Ha. apply andb_true_iff in Ha. destruct Ha as [_ Ha]. apply Z.eqb_eq in Ha. congruence.
    - intros s k' it' Hs Hit' Hg' Hlt Hle.
      assert (Hd' : cpc g (to_of size it' s) <= 2 * k' + 1).
      { destruct (updf_cases (cpc g) r (2 * k + 2) (to_of size it' s)) as [(E' & E'')|(_ & E'')]; rewrite E'' in Hle; [rewrite E'; lia|exact Hle]. }
      assert (Hl' : 2 * k' < cpc g s).
      { destruct (Nat.eq_dec s r) as [->|Hne]; [rewrite updf_same in Hlt|now rewrite updf_other in Hlt].
        destruct (Nat.eq_dec k' (k + 1)) as [->|]; lia. }
      destruct (inv_sent g I s k' it' Hs Hit' Hg' Hl' Hd') as (m' & Hm' & B1 & B2 & B3). rewrite E in Hm'. apply in_app_or in Hm'. destruct Hm' as [Hm'|[<-|Hm']].
      + exists m'. split; [apply in_or_app; now left|tauto].
      + exfalso. assert (Et : i_tag it' = i_tag it).
        { unfold accepts in Ha. apply andb_true_iff in Ha. destruct Ha as [_ Ha]. apply Z.eqb_eq in Ha. congruence. }
        destruct (tag_inj k' k it' it Hit' Hit Et) as (-> & ->). rewrite <- B2, S2, updf_same in Hle. lia.
      + exists m'. split; [apply in_or_app; now right|tauto].
    - exact Nd.
    - intros s k' it' Hs Hit' Hg' Hlt. destruct (Nat.eq_dec s r) as [->|Hne].
      + rewrite updf_same in Hlt. destruct (Nat.eq_dec k' k) as [->|Hk].
        * assert (it' = it) by congruence. subst it'. rewrite <- S1.
          destruct (updf_cases (cpc g) r (2 * k + 2) (m_src m)) as [(_ & ->)|(_ & ->)]; lia.
        * pose proof (inv_after g I r k' it' Hs Hit' Hg' ltac:(lia)) as B.
          destruct (updf_cases (cpc g) r (2 * k + 2) (from_of size it' r)) as [(E' & ->)|(_ & ->)]; [rewrite E' in B; lia|exact B].
      + rewrite updf_other in Hlt by assumption. pose proof (inv_after g I s k' it' Hs Hit' Hg' Hlt) as B.
        destruct (updf_cases (cpc g) r (2 * k + 2) (from_of size it' s)) as [(E' & ->)|(_ & ->)]; [rewrite E' in B; lia|exact B].
  Qed.
  Lemma inv_no_recv g r k it : Inv g -> r < size -> cpc g r = 2 * k + 1 -> nth_error plan k = Some it -> rguard it r = false ->
    Inv (mk_csys (updf (cpc g) r (2 * k + 2)) (cmem g) (cnet g)).
  Proof.
    intros I Hr Hp Hit Hg. pose proof (pc_lt g r k it Hit) as Hn. constructor; cbn [cpc cmem cnet].
    - intros s Hs. destruct (updf_cases (cpc g) r (2 * k + 2) s) as [(-> & ->)|(_ & ->)]; [lia|now apply (inv_pc g I)].
    - intros s v j Hs. rewrite (inv_mem g I s v j Hs). destruct (updf_cases (cpc g) r (2 * k + 2) s) as [(-> & ->)|(_ & ->)]; [|reflexivity].
      rewrite Hp, half_odd. replace ((2 * k + 2) / 2) with (S k) by (replace (2 * k + 2) with (2 * S k) by lia; symmetry; apply half_even).
      cbn [mem_after]. now rewrite Hit, Hg.
    - intros m Hm. destruct (inv_msg g I m Hm) as (k' & it' & A1 & A2 & A3 & A4 & A5 & A6 & A7 & A8 & A9 & A10 & A11). exists k', it'.
      do 8 (split; [assumption|]). split; [|split; [|assumption]].
      + destruct (updf_cases (cpc g) r (2 * k + 2) (m_src m)) as [(E' & ->)|(_ & ->)]; [rewrite E' in A9; lia|exact A9].
      + destruct (updf_cases (cpc g) r (2 * k + 2) (m_dst m)) as [(E' & ->)|(_ & ->)]; [|exact A10]. rewrite E' in A10.
        destruct (Nat.eq_dec k' k) as [->|Hk]; [exfalso|lia]. assert (it' = it) by congruence. subst it'.
        assert (Q := guard_to it (m_src m) A2). rewrite <- A4, E' in Q. congruence.
    - intros s k' it' Hs Hit' Hg' Hlt Hle.
      assert (Hd' : cpc g (to_of size it' s) <= 2 * k' + 1).
      { destruct (updf_cases (cpc g) r (2 * k + 2) (to_of size it' s)) as [(E' & E'')|(_ & E'')]; rewrite E'' in Hle; [rewrite E'; lia|exact Hle]. }
      assert (Hl' : 2 * k' < cpc g s).
      { destruct (Nat.eq_dec s r) as [->|Hne]; [rewrite updf_same in Hlt|now rewrite updf_other in Hlt]. destruct (Nat.eq_dec k' (k + 1)) as [->|]; lia. }
      exact (inv_sent g I s k' it' Hs Hit' Hg' Hl' Hd').
    - exact (inv_nodup g I).
    - intros s k' it' Hs Hit' Hg' Hlt.
      assert (Q : 2 * k' + 1 < cpc g s).
      { destruct (Nat.eq_dec s r) as [->|Hne]; [rewrite updf_same in Hlt|now rewrite updf_other in Hlt].
        destruct (Nat.eq_dec k' k) as [->|Hk]; [exfalso; congruence|lia]. }
      pose proof (inv_after g I s k' it' Hs Hit' Hg' Q) as B.
      destruct (updf_cases (cpc g) r (2 * k + 2) (from_of size it' s)) as [(E' & ->)|(_ & ->)]; [rewrite E' in B; lia|exact B].
  Qed.
  Lemma inv_step g g' : Inv g -> cstep size plan c g g' -> Inv g'.
  Proof.
    intros I H. destruct H.
    - exact (inv_send g r k it true I H H0 H1 H2).
    - pose proof (inv_send g r k it false I H H0 H1 H2) as Q. cbn [app] in Q. now rewrite app_nil_r in Q.
    - now apply inv_read.
    - now apply (inv_recv g r k it l1 m l2 d).
    - now apply (inv_no_recv g r k it).
  Qed.
  Lemma inv_steps N g g' : csteps size plan c N g g' -> Inv g -> Inv g'.
  Proof. induction 1 as [|? ? ? ? H _ IH]; intros I; [exact I|]. apply IH. now apply (inv_step _ _ I). Qed.

  (** ** progress *)
  Lemma smallest (f : nat -> nat) s : 0 < s -> exists r, r < s /\ forall q, q < s -> f r <= f q.
  Proof.
    induction s as [|s IH]; intros H; [lia|]. destruct s as [|s].
    - exists 0. split; [lia|]. intros q Hq. assert (q = 0) by lia. now subst.
    - destruct IH as (r & Hr & Hm); [lia|]. destruct (Nat.le_gt_cases (f r) (f (S s))) as [Hle|Hgt].
      + exists r. split; [lia|]. intros q Hq. destruct (Nat.eq_dec q (S s)) as [->|]; [exact Hle|apply Hm; lia].
      + exists (S s). split; [lia|]. intros q Hq. destruct (Nat.eq_dec q (S s)) as [->|]; [lia|]. specialize (Hm q ltac:(lia)). lia.
  Qed.
  Lemma progress g : Inv g -> ~ finished size plan g -> exists g', cstep size plan c g g'.
  Proof.
    intros I Hnf. destruct (Nat.eq_dec size 0) as [Hz|Hz]; [exfalso; apply Hnf; intros r Hr; lia|].
    destruct (smallest (cpc g) size ltac:(lia)) as (r & Hr & Hmin).
    assert (Hlt : cpc g r < 2 * n).
    { destruct (Nat.le_gt_cases (2 * n) (cpc g r)) as [Hle|]; [exfalso|assumption]. apply Hnf. intros q Hq. pose proof (Hmin q Hq). pose proof (inv_pc g I q Hq). lia. }
    assert (Hk : exists k, k < n /\ (cpc g r = 2 * k \/ cpc g r = 2 * k + 1)).
    { exists (cpc g r / 2). pose proof (Nat.div_mod_eq (cpc g r) 2). pose proof (Nat.mod_upper_bound (cpc g r) 2 ltac:(discriminate)).
      split; [|lia]. apply Nat.div_lt_upper_bound; lia. }
    destruct Hk as (k & Hk & Hp). destruct (nth_error plan k) as [it|] eqn:Hit; [|apply nth_error_None in Hit; lia].
    destruct Hp as [Hp|Hp].
    - destruct (sguard it r) eqn:Hg; eexists; [now apply c_send with (r := r) (k := k) (it := it)|now apply c_no_send with (r := r) (k := k) (it := it)].
    - destruct (rguard it r) eqn:Hg; [|eexists; now apply c_no_recv with (r := r) (k := k) (it := it)].
      set (s := from_of size it r). assert (Hs : s < size) by now apply from_lt.
      assert (Hsg : sguard it s = true) by (rewrite <- guard_to by assumption; unfold s; now rewrite to_from).
      assert (Hsp : 2 * k < cpc g s) by (pose proof (Hmin s Hs); lia).
      destruct (inv_sent g I s k it Hs Hit Hsg Hsp) as (m & Hm & B1 & B2 & B3); [unfold s; rewrite to_from by assumption; lia|].
      assert (Hacc : accepts size it r m = true).
      { unfold accepts. rewrite B1, B2, B3. unfold s. rewrite to_from by assumption. now rewrite !Nat.eqb_refl, Z.eqb_refl. }
      destruct (first_match (accepts size it r) (cnet g) m Hm Hacc) as (l1 & m1 & l2 & E & Hm1 & Hn).
      destruct (accepted g r k it m1 I Hr Hit ltac:(rewrite E; apply in_or_app; right; left; reflexivity) Hm1) as (_ & _ & _ & _ & _ & [Hd|Hd]).
      + eexists. now apply c_read with (l1 := l1) (m := m1) (l2 := l2).
      + eexists. apply c_recv with (r := r) (k := k) (it := it) (l1 := l1) (m := m1) (l2 := l2) (d := data it (m_src m1)); try assumption.
        rewrite data_length. lia.
  Qed.

  (** ** the end *)
  Lemma final_mem g : Inv g -> finished size plan g -> forall r v j, r < size -> cmem g r v j = mem_after r n v j.
  Proof. intros I F r v j Hr. rewrite (inv_mem g I r v j Hr), (F r Hr). now rewrite half_even. Qed.
  Lemma final_net g : Inv g -> finished size plan g -> cnet g = [].
  Proof.
    intros I F. destruct (cnet g) as [|m l] eqn:E; [reflexivity|exfalso].
    destruct (inv_msg g I m ltac:(rewrite E; left; reflexivity)) as (k & it & A1 & A2 & A3 & A4 & A5 & A6 & A7 & A8 & A9 & A10 & A11).
    assert (Hd : m_dst m < size) by (rewrite A4; now apply to_lt). rewrite (F _ Hd) in A10. pose proof (pc_lt g 0 k it A1). lia.
  Qed.

  (** ** the number of steps *)
  Fixpoint left_over (pcs : nat -> nat) (s : nat) : nat := match s with O => 0 | S s => (2 * n - pcs s) + left_over pcs s end.
  Definition unread (l : list msg) : nat := length (filter (fun m => match m_data m with None => true | _ => false end) l).
  Definition measure (g : csys) : nat := 2 * left_over (cpc g) size + unread (cnet g).
  Lemma left_over_same f f' s : (forall q, q < s -> f q = f' q) -> left_over f s = left_over f' s.
  Proof. induction s as [|s IH]; intros H; [reflexivity|]. cbn. rewrite (H s) by lia. rewrite IH; [reflexivity|]. intros q Hq. apply H. lia. Qed.
  Lemma left_over_upd f r v s : r < s -> left_over (updf f r v) s + (2 * n - f r) = left_over f s + (2 * n - v).
  Proof.
    induction s as [|s IH]; intros H; [lia|]. cbn [left_over]. destruct (Nat.eq_dec r s) as [->|Hne].
    - rewrite updf_same. rewrite (left_over_same (updf f s v) f s); [lia|]. intros q Hq. apply updf_other. lia.
    - rewrite updf_other by lia. specialize (IH ltac:(lia)). lia.
  Qed.
  Lemma unread_app l l' : unread (l ++ l') = unread l + unread l'.
  Proof. unfold unread. now rewrite filter_app, app_length. Qed.
  Lemma measure_step g g' : Inv g -> cstep size plan c g g' -> S (measure g') <= measure g.
  Proof.
    intros I H. pose proof (inv_pc g I) as HP. unfold measure. destruct H; cbn [cpc cnet].
    - rewrite unread_app. pose proof (left_over_upd (cpc g) r (2 * k + 1) size H) as L. pose proof (pc_lt g r k it H1). specialize (HP r H). rewrite H0 in L. change (unread [sent size c it r]) with 1. lia.
    - pose proof (left_over_upd (cpc g) r (2 * k + 1) size H) as L. pose proof (pc_lt g r k it H1). specialize (HP r H). rewrite H0 in L. lia.
    - rewrite H, !unread_app. assert (E1 : unread (m :: l2) = S (unread l2)) by (unfold unread; cbn [filter]; rewrite H0; reflexivity).
      rewrite E1. match goal with |- context [unread (?x :: l2)] => assert (E2 : unread (x :: l2) = unread l2) by reflexivity; rewrite E2 end. lia.
    - rewrite H3, !unread_app. assert (E1 : unread (m :: l2) = unread l2) by (unfold unread; cbn [filter]; rewrite H6; reflexivity). rewrite E1.
      pose proof (left_over_upd (cpc g) r (2 * k + 2) size H) as L. pose proof (pc_lt g r k it H1). specialize (HP r H). rewrite H0 in L. lia.
    - pose proof (left_over_upd (cpc g) r (2 * k + 2) size H) as L. pose proof (pc_lt g r k it H1). specialize (HP r H). rewrite H0 in L. lia.
  Qed.
  Lemma steps_bound N g g' : csteps size plan c N g g' -> Inv g -> N + measure g' <= measure g.
  Proof.
    induction 1 as [|N g g' g'' H _ IH]; intros I; [lia|]. pose proof (measure_step g g' I H). specialize (IH (inv_step _ _ I H)). lia.
  Qed.
  Lemma measure_start : measure (cstart m0) = 4 * n * size.
  Proof.
    unfold measure, cstart, unread. cbn [cpc cnet filter length]. assert (E : forall s, left_over (fun _ => 0) s = 2 * n * s) by (induction s as [|s IH]; cbn [left_over]; lia).
    rewrite E. lia.
  Qed.
End Ring.
