From Coq Require Import List Arith Lia Permutation Sorted Bool.
From Verif Require Import Base BaseProofs HskpngModel.
Import ListNotations.

(** ** sorting *)
Lemma combine_map_fst {A B} (l : list A) (l' : list B) :
  length l = length l' -> map fst (combine l l') = l.
Proof. revert l'; induction l as [|x l IH]; intros [|y l'] H; cbn in *; try lia; auto. f_equal; auto. Qed.
Lemma combine_map_snd {A B} (l : list A) (l' : list B) :
  length l = length l' -> map snd (combine l l') = l'.
Proof. revert l'; induction l as [|x l IH]; intros [|y l'] H; cbn in *; try lia; auto. f_equal; auto. Qed.

Lemma in_combine_map {B} (f : B -> nat) ids k v :
  In (k, v) (combine (map f ids) ids) -> k = f v.
Proof.
  induction ids as [|x ids IH]; cbn; intros H; [contradiction|].
  destruct H as [H|H]; [inversion H; reflexivity|auto].
Qed.

Lemma combine_eq_map {B} (f : B -> nat) keys ids :
  length keys = length ids -> (forall k v, In (k, v) (combine keys ids) -> k = f v) -> keys = map f ids.
Proof.
  revert ids; induction keys as [|k keys IH]; intros [|v ids] Hl H; cbn in *; try lia; auto.
  f_equal; [apply H; auto|]. apply IH; [lia|]. intros; apply H; auto.
Qed.

Lemma sort_by_key_ids {B} (f : B -> nat) ids keys' ids' :
  sort_by_key_result (map f ids) ids keys' ids' ->
  Permutation ids' ids /\ keys' = map f ids' /\ Sorted le keys'.
Proof.
  intros (Hl & Hl' & HP & HS). split; [|split; [|exact HS]].
  - apply (Permutation_map snd) in HP. rewrite !combine_map_snd in HP by auto. now symmetry.
  - apply combine_eq_map; auto. intros k v Hin.
    apply Permutation_sym in HP. apply (Permutation_in _ HP) in Hin.
    eapply in_combine_map; eauto.
Qed.

Lemma sort_helper_spec sh ijk sijk sid :
  sort_helper sh ijk sijk sid ->
  Permutation sid (seq 0 (length ijk)) /\ sijk = map (fun id => nth id ijk 0) sid /\ Sorted le sijk.
Proof.
  unfold sort_helper. destruct sh.
  - intros (un & un' & ids & Hun & H1 & H2).
    apply sort_by_key_ids in H2 as (HP & HE & HS). repeat split; auto.
    rewrite HP. destruct H1 as (Hl & Hl' & HP1 & _).
    apply (Permutation_map snd) in HP1. rewrite !combine_map_snd in HP1 by auto. now symmetry.
  - intros H. rewrite <- (map_nth_seq ijk 0) in H at 1.
    apply sort_by_key_ids in H. exact H.
Qed.

(** ** counting *)
Definition lt_cnt (l : list nat) (c : nat) : nat := length (filter (fun x => x <? c) l).

Lemma lt_cnt_S l c : lt_cnt l (S c) = lt_cnt l c + count_occ Nat.eq_dec l c.
Proof.
  unfold lt_cnt. induction l as [|x l IH]; [reflexivity|]. cbn [filter count_occ].
  destruct (Nat.ltb_spec x (S c)), (Nat.ltb_spec x c), (Nat.eq_dec x c); cbn [length]; lia.
Qed.
Lemma lt_cnt_sum l c : lt_cnt l c = sumnat c (fun k => count_occ Nat.eq_dec l k).
Proof.
  induction c as [|c IH].
  - unfold lt_cnt. cbn. clear. induction l as [|x l IH]; cbn; auto.
  - cbn. rewrite <- IH. apply lt_cnt_S.
Qed.
Lemma lt_cnt_mono l c d : c <= d -> lt_cnt l c <= lt_cnt l d.
Proof. intros H. induction H as [|d H IH]; [lia|]. rewrite lt_cnt_S. lia. Qed.

Lemma sorted_position l p :
  Sorted le l -> p < length l ->
  lt_cnt l (nth p l 0) <= p < lt_cnt l (S (nth p l 0)).
Proof.
  intros HS. apply Sorted_StronglySorted in HS; [|intros a b c; lia].
  revert p. induction HS as [|x l HS IH HF]; cbn [length]; intros p Hp; [lia|].
  rewrite Forall_forall in HF. destruct p as [|p].
  - cbn [nth]. unfold lt_cnt. cbn [filter]. rewrite Nat.ltb_irrefl.
    replace (x <? S x) with true by (symmetry; apply Nat.ltb_lt; lia).
    assert (filter (fun y => y <? x) l = []) as ->.
    { clear -HF. induction l as [|y l IH]; [reflexivity|]. cbn [filter].
      assert (x <= y) by (apply HF; left; auto).
      destruct (Nat.ltb_spec y x); [lia|]. apply IH. intros; apply HF; right; auto. }
    cbn. lia.
  - cbn [nth]. assert (Hp' : p < length l) by lia.
    specialize (IH p Hp').
    assert (x <= nth p l 0) by (apply HF, nth_In; lia).
    unfold lt_cnt in *. cbn [filter].
    replace (x <? S (nth p l 0)) with true by (symmetry; apply Nat.ltb_lt; lia).
    destruct (x <? nth p l 0); cbn [length]; lia.
Qed.
Lemma sorted_position_inv l p c :
  Sorted le l -> p < length l -> lt_cnt l c <= p < lt_cnt l (S c) -> nth p l 0 = c.
Proof.
  intros HS Hp H. pose proof (sorted_position l p HS Hp) as H'.
  destruct (Nat.lt_trichotomy (nth p l 0) c) as [Hc|[Hc|Hc]]; auto; exfalso.
  - pose proof (lt_cnt_mono l (S (nth p l 0)) c). lia.
  - pose proof (lt_cnt_mono l (S c) (nth p l 0)). lia.
Qed.
Lemma lt_cnt_le l c : lt_cnt l c <= length l.
Proof. unfold lt_cnt. induction l as [|x l IH]; cbn [filter length]; auto. destruct (x <? c); cbn [length]; lia. Qed.

(** ** run lengths *)
Lemma run_lengths_flat l : flat_map (fun e => repeat (fst e) (snd e)) (run_lengths l) = l.
Proof.
  induction l as [|k l IH]; cbn; [reflexivity|].
  destruct (run_lengths l) as [|[k' c] r]; cbn in *; [now rewrite <- IH|].
  destruct (Nat.eqb_spec k k'); subst; cbn; rewrite <- ?IH; reflexivity.
Qed.
Lemma run_lengths_hd k l : exists c r, run_lengths (k :: l) = (k, S c) :: r.
Proof.
  cbn. destruct (run_lengths l) as [|[k' c] r]; [eauto|].
  destruct (Nat.eqb_spec k k'); subst; eauto.
Qed.
Lemma run_lengths_pos l e : In e (run_lengths l) -> 0 < snd e.
Proof.
  revert e. induction l as [|k l IH]; cbn; intros e He; [contradiction|].
  destruct (run_lengths l) as [|[k' c] r]; cbn in *.
  - destruct He as [<-|[]]; cbn; lia.
  - destruct (Nat.eqb_spec k k'); cbn in He.
    + destruct He as [<-|He]; cbn; [lia|]. apply IH; auto.
    + destruct He as [<-|He]; cbn; [lia|]. apply IH; auto.
Qed.
Lemma run_lengths_keys l k : In k (map fst (run_lengths l)) <-> In k l.
Proof.
  rewrite <- (run_lengths_flat l) at 2. rewrite in_map_iff, in_flat_map. split.
  - intros ([k' c] & Hk & Hin). cbn in Hk; subst k'. exists (k, c). split; auto.
    pose proof (run_lengths_pos _ _ Hin) as Hc; cbn in *. destruct c; [lia|]. left; auto.
  - intros ([k' c] & Hin & Hk). cbn in Hk. apply repeat_spec in Hk. subst. exists (k', c); auto.
Qed.
Lemma run_lengths_sorted l : Sorted le l -> StronglySorted lt (map fst (run_lengths l)).
Proof.
  intros HS. apply Sorted_StronglySorted in HS; [|intros a b c; lia].
  induction HS as [|x l HS IH HF]; cbn; [constructor|].
  pose proof (run_lengths_keys l) as Hk.
  destruct (run_lengths l) as [|[k' c] r]; cbn in *; [repeat constructor|].
  inversion IH as [|? ? IH1 IH2]; subst. rewrite Forall_forall in *.
  assert (x <= k') by (apply HF, Hk; auto).
  destruct (Nat.eqb_spec x k'); cbn.
  - constructor; auto. now rewrite Forall_forall.
  - constructor; [constructor; auto; now rewrite Forall_forall|].
    rewrite Forall_forall. intros y [<-|Hy]; [lia|]. specialize (IH2 y Hy). lia.
Qed.
Lemma StronglySorted_lt_NoDup l : StronglySorted lt l -> NoDup l.
Proof.
  induction 1 as [|x l HS IH HF]; constructor; auto.
  rewrite Forall_forall in HF. intros Hin. apply HF in Hin. lia.
Qed.
Lemma count_occ_app (l l' : list nat) k :
  count_occ Nat.eq_dec (l ++ l') k = count_occ Nat.eq_dec l k + count_occ Nat.eq_dec l' k.
Proof. induction l as [|x l IH]; cbn; auto. destruct (Nat.eq_dec x k); lia. Qed.
Lemma count_occ_repeat k c k' : count_occ Nat.eq_dec (repeat k c) k' = if Nat.eq_dec k k' then c else 0.
Proof. induction c as [|c IH]; cbn; destruct (Nat.eq_dec k k'); auto. Qed.
Lemma count_flat r k :
  NoDup (map fst r) -> forall c, In (k, c) r ->
  count_occ Nat.eq_dec (flat_map (fun e => repeat (fst e) (snd e)) r) k = c.
Proof.
  induction r as [|[k' c'] r IH]; cbn; intros HN c Hin; [contradiction|].
  inversion HN as [|? ? Hni HN']; subst.
  rewrite count_occ_app, count_occ_repeat. destruct Hin as [E|Hin].
  - inversion E; subst. destruct (Nat.eq_dec k k); [|congruence].
    assert (count_occ Nat.eq_dec (flat_map (fun e => repeat (fst e) (snd e)) r) k = 0) as ->; [|lia].
    apply count_occ_not_In. rewrite in_flat_map. intros ([k2 c2] & Hin & Hk). cbn in Hk.
    apply repeat_spec in Hk. subst. apply Hni. apply in_map_iff. exists (k2, c2); auto.
  - destruct (Nat.eq_dec k' k); [|rewrite (IH HN' c Hin); lia].
    subst. exfalso. apply Hni. apply in_map_iff. exists (k, c); auto.
Qed.
Lemma run_lengths_count l k c :
  Sorted le l -> In (k, c) (run_lengths l) -> c = count_occ Nat.eq_dec l k.
Proof.
  intros HS Hin. rewrite <- (run_lengths_flat l). symmetry. apply count_flat; auto.
  apply StronglySorted_lt_NoDup, run_lengths_sorted; auto.
Qed.
Lemma run_lengths_in l k : Sorted le l -> In k l -> In (k, count_occ Nat.eq_dec l k) (run_lengths l).
Proof.
  intros HS Hin. apply run_lengths_keys in Hin. apply in_map_iff in Hin.
  destruct Hin as ([k' c] & Hk & Hin). cbn in Hk; subst.
  now rewrite <- (run_lengths_count l k c HS Hin).
Qed.
