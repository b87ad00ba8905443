From Coq Require Import List Arith NArith ZArith Lia Reals Lra Permutation Bool.
From Verif Require Import Base BaseProofs SpaceModel.
Import ListNotations.
Local Open Scope R_scope.

Lemma Int_part_spec r : IZR (Int_part r) <= r < IZR (Int_part r) + 1.
Proof. destruct (base_Int_part r). lra. Qed.
Lemma truncZ_nonneg x : 0 <= x -> IZR (truncZ x) <= x < IZR (truncZ x) + 1 /\ (0 <= truncZ x)%Z.
Proof.
  intros H. unfold truncZ. destruct (Rle_dec 0 x); [|contradiction].
  pose proof (Int_part_spec x). split; [auto|].
  assert (IZR (-1) < IZR (Int_part x)) by (cbn; lra). apply lt_IZR in H1. lia.
Qed.
Lemma truncZ_unique x k : (0 <= k)%Z -> IZR k <= x < IZR k + 1 -> truncZ x = k.
Proof.
  intros Hk H. assert (0 <= x) by (apply IZR_le in Hk; lra).
  destruct (truncZ_nonneg x H0) as [H1 _].
  assert (IZR k < IZR (truncZ x + 1)) by (rewrite plus_IZR; lra).
  assert (IZR (truncZ x) < IZR (k + 1)) by (rewrite plus_IZR; lra).
  apply lt_IZR in H2. apply lt_IZR in H3. lia.
Qed.

Lemma fmod_range x y : 0 <= x -> 0 < y -> 0 <= fmod x y < y.
Proof.
  intros Hx Hy. unfold fmod.
  assert (0 <= x / y) by (apply Rmult_le_pos; [auto|left; apply Rinv_0_lt_compat; auto]).
  destruct (truncZ_nonneg _ H) as [[H1 H2] _]. set (t := IZR (truncZ (x / y))) in *.
  assert (E : x = y * (x / y)) by (field; lra).
  assert (y * t <= y * (x / y)) by (apply Rmult_le_compat_l; lra).
  assert (y * (x / y) < y * (t + 1)) by (apply Rmult_lt_compat_l; lra).
  rewrite <- E in *. lra.
Qed.

Lemma cpow_three_halves r : 0 <= r -> cpow r (3 / 2) = sqrt r ^ 3.
Proof.
  intros H. unfold cpow. destruct (Req_EM_T r 0) as [->|Hn].
  - destruct (Req_EM_T (3/2) 0); [lra|]. rewrite sqrt_0. ring.
  - replace (3 / 2) with (/ 2 + 1) by lra. rewrite Rpower_plus, Rpower_sqrt, Rpower_1 by lra.
    rewrite <- (sqrt_sqrt r) at 2 by auto. ring.
Qed.
Lemma cpow_one r : 0 <= r -> cpow r 1 = r.
Proof.
  intros H. unfold cpow. destruct (Req_EM_T r 0) as [->|Hn].
  - destruct (Req_EM_T 1 0); lra.
  - apply Rpower_1. lra.
Qed.

(** ** lists of ids *)
Lemma combine_seq_nth {A} (l : list A) d i : (i < length l)%nat ->
  nth i (combine (seq 0 (length l)) l) (0%nat, d) = (i, nth i l d).
Proof.
  intros H. rewrite combine_nth by now rewrite seq_length. rewrite seq_nth by auto. reflexivity.
Qed.
Lemma in_ids_where cond l d i : In i (ids_where cond l) <-> (i < length l)%nat /\ cond (nth i l d) = true.
Proof.
  unfold ids_where. rewrite in_map_iff. split.
  - intros ([j s] & E & Hin). apply filter_In in Hin. destruct Hin as [Hin Hc]. cbn in *. subst j.
    apply (In_nth _ _ (0%nat, d)) in Hin. destruct Hin as (k & Hk & E).
    rewrite combine_length, seq_length, Nat.min_id in Hk. rewrite combine_seq_nth in E by auto.
    inversion E; subst. auto.
  - intros [Hi Hc]. exists (i, nth i l d). split; [reflexivity|]. apply filter_In. split; [|exact Hc].
    rewrite <- (combine_seq_nth l d i Hi). apply nth_In. rewrite combine_length, seq_length, Nat.min_id. auto.
Qed.
Lemma flag_ids_map cond (f : bsd -> bsd) l :
  flag_ids (ids_where cond l) (map f l) = map (fun s => if cond s then set_n (f s) 0%N else f s) l.
Proof.
  unfold flag_ids. rewrite map_length.
  destruct l as [|s0 l']; [reflexivity|]. set (l := s0 :: l').
  apply (nth_ext _ _ s0 s0).
  { rewrite !map_length, combine_length, seq_length, map_length. apply Nat.min_id. }
  intros i Hi. rewrite map_length, combine_length, seq_length, map_length, Nat.min_id in Hi.
  rewrite (nth_map_lt _ _ i (0%nat, f s0) s0) by (rewrite combine_length, seq_length, map_length, Nat.min_id; auto).
  rewrite (nth_map_lt (fun s => if cond s then set_n (f s) 0%N else f s) l i s0 s0) by auto.
  rewrite combine_nth by (rewrite seq_length, map_length; auto).
  rewrite seq_nth by auto. cbn [fst snd Nat.add].
  rewrite (nth_map_lt f l i s0 (f s0)) by auto.
  destruct (existsb (Nat.eqb i) (ids_where cond l)) eqn:E.
  - apply existsb_exists in E. destruct E as (j & Hj & Ej). apply Nat.eqb_eq in Ej. subst j.
    apply (in_ids_where cond l s0) in Hj. destruct Hj as [_ ->]. reflexivity.
  - destruct (cond (nth i l s0)) eqn:Ec; [|reflexivity].
    exfalso. assert (In i (ids_where cond l)) by (apply (in_ids_where cond l s0); auto).
    assert (existsb (Nat.eqb i) (ids_where cond l) = true); [|congruence].
    apply existsb_exists. exists i. split; [auto|apply Nat.eqb_refl].
Qed.
