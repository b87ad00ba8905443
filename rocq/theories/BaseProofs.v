From Coq Require Import List Arith NArith ZArith Lia Reals Lra Permutation Sorted Bool Psatz.
From Verif Require Import Base.
Import ListNotations.

Lemma upd_same {A} (f : nat -> A) i v : upd f i v i = v.
Proof. unfold upd. now rewrite Nat.eqb_refl. Qed.
Lemma upd_other {A} (f : nat -> A) i j v : j <> i -> upd f i v j = f j.
Proof. intros H. unfold upd. apply Nat.eqb_neq in H. now rewrite H. Qed.

Lemma Rltb_true a b : Rltb a b = true <-> (a < b)%R.
Proof. unfold Rltb. destruct (Rlt_dec a b); split; intros; auto; try discriminate; contradiction. Qed.
Lemma Rltb_false a b : Rltb a b = false <-> (b <= a)%R.
Proof. unfold Rltb. destruct (Rlt_dec a b); split; intros; auto; try discriminate; lra. Qed.
Lemma Rleb_true a b : Rleb a b = true <-> (a <= b)%R.
Proof. unfold Rleb. destruct (Rle_dec a b); split; intros; auto; try discriminate; contradiction. Qed.
Lemma Rleb_false a b : Rleb a b = false <-> (b < a)%R.
Proof. unfold Rleb. destruct (Rle_dec a b); split; intros; auto; try discriminate; lra. Qed.
Lemma Reqb_true a b : Reqb a b = true <-> a = b.
Proof. unfold Reqb. destruct (Req_EM_T a b); split; intros; auto; try discriminate; contradiction. Qed.
Lemma Reqb_false a b : Reqb a b = false <-> a <> b.
Proof. unfold Reqb. destruct (Req_EM_T a b); split; intros; auto; try discriminate; contradiction. Qed.

Lemma cmin_Rmin a b : cmin a b = Rmin a b.
Proof. unfold cmin, Rltb, Rmin. destruct (Rlt_dec b a), (Rle_dec a b); lra. Qed.
Lemma cmax_Rmax a b : cmax a b = Rmax a b.
Proof. unfold cmax, Rltb, Rmax. destruct (Rlt_dec a b), (Rle_dec a b); lra. Qed.

Lemma sumR_ext m f g : (forall i, i < m -> f i = g i) -> sumR m f = sumR m g.
Proof. induction m as [|m IH]; intros H; cbn; [reflexivity|]. rewrite IH, H; auto. Qed.
Lemma sumR_plus m f g : sumR m (fun i => f i + g i)%R = (sumR m f + sumR m g)%R.
Proof. induction m as [|m IH]; cbn; [lra|]. rewrite IH; lra. Qed.
Lemma sumR_scal m c f : sumR m (fun i => c * f i)%R = (c * sumR m f)%R.
Proof. induction m as [|m IH]; cbn; [lra|]. rewrite IH; lra. Qed.
Lemma sumR_0 m f : (forall i, i < m -> f i = 0%R) -> sumR m f = 0%R.
Proof. induction m as [|m IH]; intros H; cbn; [reflexivity|]. rewrite IH, H; auto; lra. Qed.
Lemma sumR_const m c : sumR m (fun _ => c) = (INR m * c)%R.
Proof. induction m as [|m IH]; [cbn; lra|]. cbn [sumR]. rewrite IH, S_INR. lra. Qed.
Lemma sumR_le m f g : (forall i, i < m -> (f i <= g i)%R) -> (sumR m f <= sumR m g)%R.
Proof.
  induction m as [|m IH]; intros H; cbn; [lra|].
  assert (sumR m f <= sumR m g)%R by (apply IH; intros; apply H; lia).
  assert (f m <= g m)%R by (apply H; lia). lra.
Qed.
Lemma sumR_nonneg m f : (forall i, i < m -> (0 <= f i)%R) -> (0 <= sumR m f)%R.
Proof. intros H. rewrite <- (sumR_0 m (fun _ => 0%R)) by auto. now apply sumR_le. Qed.
Lemma sumR_telescope m (f : nat -> R) :
  sumR m (fun i => f (S i) - f i)%R = (f m - f 0%nat)%R.
Proof. induction m as [|m IH]; cbn; [lra|]. rewrite IH; lra. Qed.
Lemma sumR_S_front m f : sumR (S m) f = (f 0%nat + sumR m (fun i => f (S i)))%R.
Proof. induction m as [|m IH]; [cbn; lra|]. cbn [sumR] in *. rewrite IH. lra. Qed.

Lemma sumN_ext m f g : (forall i, i < m -> f i = g i) -> sumN m f = sumN m g.
Proof. induction m as [|m IH]; intros H; cbn; [reflexivity|]. rewrite IH, H; auto. Qed.
Lemma sumnat_ext m f g : (forall i, i < m -> f i = g i) -> sumnat m f = sumnat m g.
Proof. induction m as [|m IH]; intros H; cbn; [reflexivity|]. rewrite IH, H; auto. Qed.

(** sums over ranges versus sums over lists *)
Lemma lsumR_app l l' : lsumR (l ++ l') = (lsumR l + lsumR l')%R.
Proof. unfold lsumR; induction l as [|x l IH]; cbn [app fold_right]; [lra|]. rewrite IH; lra. Qed.
Lemma lsumN_app l l' : lsumN (l ++ l') = (lsumN l + lsumN l')%N.
Proof. unfold lsumN; induction l as [|x l IH]; cbn [app fold_right]; [lia|]. rewrite IH; lia. Qed.
Lemma lsumR_perm l l' : Permutation l l' -> lsumR l = lsumR l'.
Proof. unfold lsumR; induction 1; cbn; lra. Qed.
Lemma lsumN_perm l l' : Permutation l l' -> lsumN l = lsumN l'.
Proof. unfold lsumN; induction 1; cbn [fold_right]; lia. Qed.

Lemma seq_snoc n : seq 0 (S n) = seq 0 n ++ [n].
Proof. rewrite <- (Nat.add_1_r n), seq_app. reflexivity. Qed.

Lemma sumR_seq m f : sumR m f = lsumR (map f (seq 0 m)).
Proof.
  induction m as [|m IH]; [reflexivity|].
  rewrite seq_snoc, map_app, lsumR_app, <- IH. cbn. lra.
Qed.
Lemma sumN_seq m f : sumN m f = lsumN (map f (seq 0 m)).
Proof.
  induction m as [|m IH]; [reflexivity|].
  rewrite seq_snoc, map_app, lsumN_app, <- IH. cbn [sumN map lsumN fold_right]. lia.
Qed.

Lemma map_nth_seq {A} (l : list A) d : map (fun i => nth i l d) (seq 0 (length l)) = l.
Proof.
  induction l as [|x l IH]; cbn; [reflexivity|]. f_equal.
  rewrite <- seq_shift, map_map. exact IH.
Qed.

(** reindexing a sum along a permutation of the index range *)
Lemma sumR_perm m (p : list nat) f :
  Permutation p (seq 0 m) -> sumR m (fun i => f (nth i p 0)) = sumR m f.
Proof.
  intros HP. rewrite !sumR_seq.
  assert (Hl : length p = m) by (apply Permutation_length in HP; now rewrite seq_length in HP).
  rewrite <- (map_map (fun i => nth i p 0) f).
  rewrite <- Hl at 1. rewrite map_nth_seq.
  apply lsumR_perm. now apply Permutation_map.
Qed.
Lemma sumN_perm m (p : list nat) f :
  Permutation p (seq 0 m) -> sumN m (fun i => f (nth i p 0)) = sumN m f.
Proof.
  intros HP. rewrite !sumN_seq.
  assert (Hl : length p = m) by (apply Permutation_length in HP; now rewrite seq_length in HP).
  rewrite <- (map_map (fun i => nth i p 0) f).
  rewrite <- Hl at 1. rewrite map_nth_seq.
  apply lsumN_perm. now apply Permutation_map.
Qed.

Section Perm_nth.
  Variables (m : nat) (p : list nat) (HP : Permutation p (seq 0 m)).
  Lemma perm_len : length p = m.
  Proof. apply Permutation_length in HP. now rewrite seq_length in HP. Qed.
  Lemma perm_bound i : i < m -> nth i p 0 < m.
  Proof.
    intros Hi. assert (In (nth i p 0) (seq 0 m)) as Hin.
    { eapply Permutation_in; [exact HP|]. apply nth_In. now rewrite perm_len. }
    apply in_seq in Hin. lia.
  Qed.
  Lemma perm_inj i j : i < m -> j < m -> nth i p 0 = nth j p 0 -> i = j.
  Proof.
    intros Hi Hj E. assert (ND : NoDup p).
    { eapply Permutation_NoDup; [symmetry; exact HP|]. apply seq_NoDup. }
    rewrite (NoDup_nth p 0) in ND. apply ND in E; auto; now rewrite perm_len.
  Qed.
  Lemma perm_surj k : k < m -> exists i, i < m /\ nth i p 0 = k.
  Proof.
    intros Hk. assert (In k p) as Hin.
    { eapply Permutation_in; [symmetry; exact HP|]. apply in_seq. lia. }
    apply (In_nth _ _ 0) in Hin. destruct Hin as [i [Hi E]]. rewrite perm_len in Hi. eauto.
  Qed.
End Perm_nth.

(** cbrt *)
Lemma cbrt_cube_nonneg x : (0 <= x)%R -> (0 <= cbrt x /\ cbrt x * cbrt x * cbrt x = x)%R.
Proof.
  intros Hx. unfold cbrt. destruct (Rlt_dec 0 x) as [H|H].
  - split. { left. unfold Rpower. apply exp_pos. }
    rewrite <- !Rpower_plus. replace (/3 + /3 + /3)%R with 1%R by field. now apply Rpower_1.
  - destruct (Rlt_dec x 0); [lra|]. assert (x = 0)%R by lra. subst. split; lra.
Qed.

Lemma cube_lt a b : (0 <= a)%R -> (a < b)%R -> (a*a*a < b*b*b)%R.
Proof.
  intros Ha H. assert (0 < (b-a)*(a*a+a*b+b*b))%R; [|lra].
  apply Rmult_lt_0_compat; [lra|]. assert (0 < b*b)%R by (apply Rmult_lt_0_compat; lra).
  assert (0 <= a*a)%R by (apply Rmult_le_pos; lra).
  assert (0 <= a*b)%R by (apply Rmult_le_pos; lra). lra.
Qed.
Lemma cube_inj a b : (0 <= a)%R -> (0 <= b)%R -> (a*a*a = b*b*b)%R -> a = b.
Proof.
  intros Ha Hb E. destruct (Rtotal_order a b) as [H|[H|H]]; auto; exfalso.
  - pose proof (cube_lt a b Ha H). lra.
  - pose proof (cube_lt b a Hb H). lra.
Qed.

Lemma isort_Sorted {A} (l : list (nat * A)) : Sorted le (map fst (isort l)).
Proof.
  induction l as [|[k v] l IH]; cbn; [constructor|].
  fold (isort l). revert IH. generalize (isort l) as s. clear l.
  induction s as [|[k' v'] s IH]; cbn; intros Hs; [repeat constructor|].
  destruct (Nat.leb_spec k k'); cbn.
  - constructor; auto.
  - apply Sorted_inv in Hs as [Hs Hd]. constructor; [auto|].
    destruct s as [|[k2 v2] s]; cbn; [constructor; lia|].
    destruct (Nat.leb_spec k k2); constructor; cbn in *; try lia; inversion Hd; lia.
Qed.
Lemma ins_perm {A} k (v:A) l : Permutation (ins k v l) ((k,v) :: l).
Proof.
  induction l as [|[k' v'] l IH]; cbn; [reflexivity|].
  destruct (Nat.leb k k'); [reflexivity|]. rewrite IH. apply perm_swap.
Qed.
Lemma isort_perm {A} (l : list (nat * A)) : Permutation (isort l) l.
Proof.
  induction l as [|[k v] l IH]; cbn; [reflexivity|].
  fold (isort l). rewrite ins_perm. now constructor.
Qed.

Lemma Sorted_nth_le (l : list nat) i j :
  Sorted le l -> i <= j -> j < length l -> nth i l 0 <= nth j l 0.
Proof.
  intros HS. apply Sorted_StronglySorted in HS; [|intros a b c; lia].
  revert i j. induction HS as [|x l HS IH HF]; cbn; intros i j Hij Hj; [lia|].
  destruct i as [|i], j as [|j]; try lia.
  - rewrite Forall_forall in HF. apply HF. apply nth_In. lia.
  - apply IH; lia.
Qed.

(** truncation *)
Lemma truncN_spec x : (0 <= x)%R -> (INR (N.to_nat (truncN x)) <= x < INR (N.to_nat (truncN x)) + 1)%R.
Proof.
  intros Hx. unfold truncN. pose proof (base_Int_part x) as [H1 H2].
  assert (0 <= Int_part x)%Z as Hp.
  { assert (-1 < Int_part x)%Z; [|lia]. apply lt_IZR. lra. }
  rewrite INR_IZR_INZ. rewrite <- (Z2Nat.id (Int_part x)) in H1, H2 by lia.
  rewrite Z_N_nat. lra.
Qed.

Lemma N2R_plus a b : N2R (a + b) = (N2R a + N2R b)%R.
Proof. unfold N2R. now rewrite N2Z.inj_add, plus_IZR. Qed.
Lemma N2R_mult a b : N2R (a * b) = (N2R a * N2R b)%R.
Proof. unfold N2R. now rewrite N2Z.inj_mul, mult_IZR. Qed.
Lemma N2R_sub a b : (b <= a)%N -> N2R (a - b) = (N2R a - N2R b)%R.
Proof. intros H. unfold N2R. now rewrite N2Z.inj_sub, minus_IZR. Qed.
Lemma N2R_nonneg a : (0 <= N2R a)%R.
Proof. unfold N2R. apply IZR_le. lia. Qed.
Lemma N2R_lt a b : (a < b)%N <-> (N2R a < N2R b)%R.
Proof. unfold N2R. split; intros H. - apply IZR_lt. lia. - apply lt_IZR in H. lia. Qed.
Lemma N2R_le a b : (a <= b)%N <-> (N2R a <= N2R b)%R.
Proof. unfold N2R. split; intros H. - apply IZR_le. lia. - apply le_IZR in H. lia. Qed.
Lemma N2R_inj a b : N2R a = N2R b -> a = b.
Proof. unfold N2R. intros H. apply eq_IZR in H. lia. Qed.
Lemma N2R_truncN x : (0 <= x)%R -> (N2R (truncN x) <= x < N2R (truncN x) + 1)%R.
Proof.
  intros Hx. pose proof (truncN_spec x Hx) as H. unfold N2R.
  rewrite INR_IZR_INZ, N_nat_Z in H. exact H.
Qed.
Lemma truncN_unique x k : (N2R k <= x < N2R k + 1)%R -> truncN x = k.
Proof.
  intros [H1 H2]. assert (0 <= x)%R as Hx by (pose proof (N2R_nonneg k); lra).
  pose proof (N2R_truncN x Hx) as [H3 H4].
  assert (truncN x < k + 1)%N by (apply N2R_lt; rewrite N2R_plus; change (N2R 1) with 1%R; lra).
  assert (k < truncN x + 1)%N by (apply N2R_lt; rewrite N2R_plus; change (N2R 1) with 1%R; lra).
  lia.
Qed.

Lemma wrap64_small z : (0 <= z < W64)%Z -> wrap64 z = Z.to_N z.
Proof. intros H. unfold wrap64. now rewrite Z.mod_small. Qed.

Lemma nth_map_lt {A B} (f : A -> B) l i (da : A) (db : B) :
  i < length l -> nth i (map f l) db = f (nth i l da).
Proof.
  revert i; induction l as [|x l IH]; cbn; intros i Hi; [lia|].
  destruct i; auto. apply IH. lia.
Qed.

(** ** reals *)
Local Open Scope R_scope.
Lemma Rmin_cases a b : (a <= b /\ Rmin a b = a) \/ (b <= a /\ Rmin a b = b).
Proof. unfold Rmin. destruct (Rle_dec a b); [left|right]; split; auto; lra. Qed.
Lemma Rmax_cases a b : (a <= b /\ Rmax a b = b) \/ (b <= a /\ Rmax a b = a).
Proof. unfold Rmax. destruct (Rle_dec a b); [left|right]; split; auto; lra. Qed.
Ltac minmax := repeat match goal with
  | |- context [Rmax ?p ?q] => lazymatch p with context [Rmin _ _] => fail | context [Rmax _ _] => fail | _ => 
       lazymatch q with context [Rmin _ _] => fail | context [Rmax _ _] => fail | _ => destruct (Rmax_cases p q) as [[? ->]|[? ->]] end end
  | |- context [Rmin ?p ?q] => lazymatch p with context [Rmin _ _] => fail | context [Rmax _ _] => fail | _ => 
       lazymatch q with context [Rmin _ _] => fail | context [Rmax _ _] => fail | _ => destruct (Rmin_cases p q) as [[? ->]|[? ->]] end end
  end.
(** sum over all cells *)
Lemma sumR_scal_l m c f : sumR m (fun i => c * f i) = c * sumR m f.
Proof. induction m; cbn; [ring|]. rewrite IHm. ring. Qed.
Lemma sumR_block a b f : sumR (a * b) f = sumR a (fun i => sumR b (fun k => f (i * b + k)%nat)).
Proof.
  induction a as [|a IH]; [reflexivity|].
  cbn [Nat.mul]. rewrite Nat.add_comm. cbn [sumR]. rewrite <- IH.
  generalize (a * b)%nat. intros m. clear IH. induction b as [|b IHb]; [cbn; rewrite Nat.add_0_r; ring|].
  cbn [sumR]. rewrite Nat.add_succ_r. cbn [sumR]. rewrite IHb. ring.
Qed.
