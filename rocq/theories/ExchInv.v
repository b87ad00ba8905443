(** Every interleaving of the exchange computes, in each process, the same thing as if the messages had been
    available at once. *)
From Coq Require Import List Arith NArith ZArith Reals Bool Lia Relations Permutation.
From Verif Require Import Base BaseProofs DistModel ExchProofs.
Import ListNotations.
Local Open Scope nat_scope.

Section ring.
Variables (size ix nv : nat) (c : nat -> rankc) (l0 : nat -> local).
Variables (P : nat -> nat) (f : nat -> nat -> N) (F : nat -> nat -> nat -> R).
Hypothesis Hsize : 1 <= size.
Hypothesis Hns : forall i, i < size -> ns (l0 i) = map (f i) (seq 0 (P i)).
Hypothesis Hcols : forall i, i < size -> cols (l0 i) = tab nv (P i) (F i).
Hypothesis Hnp : forall i, i < size -> n_part (l0 i) = P i.
Hypothesis Hthrew : forall i, i < size -> threw (l0 i) = false.
Hypothesis Hlft : forall i, i < size -> valid_ids (P i) (lft_id (c i)).
Hypothesis Hrgt : forall i, i < size -> valid_ids (P i) (rgt_id (c i)).
Hypothesis Hdisj : forall i k, i < size -> In k (lft_id (c i)) -> In k (rgt_id (c i)) -> False.
Hypothesis Hring : forall i, i < size -> bcR (c i) = bcL (c (rgt_rank size i)).

Notation lftr := (lft_rank size).
Notation rgtr := (rgt_rank size).

Lemma lftr_lt i : i < size -> lftr i < size.
Proof. unfold lft_rank. destruct (Nat.ltb_spec 0 i); lia. Qed.
Lemma rgtr_lt i : i < size -> rgtr i < size.
Proof. unfold rgt_rank. destruct (Nat.ltb_spec i (size - 1)); lia. Qed.
Lemma rgt_lft i : i < size -> rgtr (lftr i) = i.
Proof.
  intros H. unfold lft_rank, rgt_rank. destruct (Nat.ltb_spec 0 i).
  - destruct (Nat.ltb_spec (i - 1) (size - 1)); lia.
  - destruct (Nat.ltb_spec (size - 1) (size - 1)); lia.
Qed.
Lemma lft_rgt i : i < size -> lftr (rgtr i) = i.
Proof.
  intros H. unfold lft_rank, rgt_rank. destruct (Nat.ltb_spec i (size - 1)).
  - destruct (Nat.ltb_spec 0 (i + 1)); lia.
  - destruct (Nat.ltb_spec 0 0); lia.
Qed.

(** contents of the messages *)
Definition FL (i : nat) : nat -> nat -> R := F_remote ix (lft_id (c i)) (cx0 (c i)) (lft_x1 (c i)) (F i).
Definition FR (i : nat) : nat -> nat -> R := F_remote ix (rgt_id (c i)) (cx1 (c i)) (rgt_x0 (c i)) (F i).
Definition content (t : tag) (i : nat) : msg :=
  match t with
  | NL => MN (map (f i) (lft_id (c i)))
  | RL => MR (flat_map (fun v => map (FL i v) (lft_id (c i))) (seq 0 nv))
  | NR => MN (map (f i) (rgt_id (c i)))
  | RR => MR (flat_map (fun v => map (FR i v) (rgt_id (c i))) (seq 0 nv))
  end.

(** the run of one process, given the messages *)
Definition set_in (s : local) (m : msg) : local := match m with MN l => set_in_n s l | MR l => set_in_r s l end.
Definition oracle (i : nat) (a : instr) (s : local) : local :=
  match a with WaitRecv t => set_in s (content t (source size t i)) | _ => s end.
Fixpoint ideal (i k : nat) : local :=
  match k with
  | 0 => l0 i
  | S k => match nth_error prog k with
           | Some (gd, a) => if gd (bcL (c i)) (bcR (c i)) then exec (c i) ix a (oracle i a (ideal i k)) else ideal i k
           | None => ideal i k
           end
  end.

(** ** which instruction writes which field *)
Definition w_ns a := match a with UnpackN | Flag_lft | Flag_rgt => true | _ => false end.
Definition w_cols a := match a with UnpackR | Remote_lft | Remote_rgt => true | _ => false end.
Definition w_np a := match a with UnpackN => true | _ => false end.
Definition w_copied a := match a with WaitRecv NL | WaitRecv NR => true | _ => false end.
Definition w_out_n a := match a with PackN_lft | PackN_rgt => true | _ => false end.
Definition w_out_r a := match a with PackR_lft | PackR_rgt => true | _ => false end.
Definition w_in_n a := match a with WaitRecv NL | WaitRecv NR => true | _ => false end.
Definition w_in_r a := match a with WaitRecv RL | WaitRecv RR => true | _ => false end.
Definition w_threw a := match a with Resize => true | _ => false end.
Definition clean (w : instr -> bool) (k j : nat) : bool :=
  forallb (fun q => match nth_error prog q with Some (_, a) => negb (w a) | None => true end) (seq k (j - k)).

Lemma unpack_real_other x s k :
  ns (unpack_real x ix k s) = ns s /\ n_part (unpack_real x ix k s) = n_part s /\
  n_part_old (unpack_real x ix k s) = n_part_old s /\ n_copied (unpack_real x ix k s) = n_copied s /\
  out_n (unpack_real x ix k s) = out_n s /\ out_r (unpack_real x ix k s) = out_r s /\
  in_n (unpack_real x ix k s) = in_n s /\ in_r (unpack_real x ix k s) = in_r s /\
  threw (unpack_real x ix k s) = threw s.
Proof. unfold unpack_real. destruct (k =? 0); cbn; auto 10. Qed.

Lemma keep {A} (field : local -> A) (w : instr -> bool) :
  (forall x a s, w a = false -> field (exec x ix a s) = field s) ->
  (forall a i s, w a = false -> field (oracle i a s) = field s) ->
  forall i k j, k <= j -> clean w k j = true -> field (ideal i j) = field (ideal i k).
Proof.
  intros He Ho i k j Hkj. induction Hkj as [|j Hkj IH]; auto.
  unfold clean. replace (S j - k) with (S (j - k)) by lia. rewrite seq_S, forallb_app. cbn [forallb].
  intros H. apply andb_prop in H. destruct H as [H1 H2]. rewrite andb_true_r in H2.
  replace (k + (j - k)) with j in H2 by lia.
  transitivity (field (ideal i j)); [|apply IH, H1].
  cbn [ideal]. destruct (nth_error prog j) as [[gd a]|]; auto.
  apply negb_true_iff in H2. destruct (gd _ _); auto. rewrite He, Ho; auto.
Qed.

Ltac framed := intros; repeat match goal with
  | a : instr |- _ => destruct a | t : tag |- _ => destruct t end; cbn in *; try discriminate; auto;
  try apply unpack_real_other.
Definition keep_ns := keep ns w_ns ltac:(framed) ltac:(framed).
Definition keep_cols := keep cols w_cols ltac:(framed) ltac:(framed).
Definition keep_np := keep n_part w_np ltac:(framed) ltac:(framed).
Definition keep_npo := keep n_part_old w_np ltac:(framed) ltac:(framed).
Definition keep_copied := keep n_copied w_copied ltac:(framed) ltac:(framed).
Definition keep_out_n := keep out_n w_out_n ltac:(framed) ltac:(framed).
Definition keep_out_r := keep out_r w_out_r ltac:(framed) ltac:(framed).
Definition keep_in_n := keep in_n w_in_n ltac:(framed) ltac:(framed).
Definition keep_in_r := keep in_r w_in_r ltac:(framed) ltac:(framed).
Definition keep_threw := keep threw w_threw ltac:(framed) ltac:(framed).

Ltac small k := let H := fresh in
  assert (H : k <= 31) by lia; do 32 (destruct k as [|k]; [try (exfalso; lia); try reflexivity|]); exfalso; lia.
(** one instruction *)
Lemma ideal_step i k gd a : nth_error prog k = Some (gd, a) ->
  ideal i (S k) = if gd (bcL (c i)) (bcR (c i)) then exec (c i) ix a (oracle i a (ideal i k)) else ideal i k.
Proof. intros H. cbn [ideal]. now rewrite H. Qed.

(** ** stages of one process *)
Definition inA (i : nat) : list nat := if bcR (c i) then lft_id (c (rgtr i)) else [].
Definition inB (i : nat) : list nat := if bcL (c i) then rgt_id (c (lftr i)) else [].
Definition F1 (i : nat) := if bcL (c i) then FL i else F i.
Definition F2 (i : nat) := if bcR (c i) then F_remote ix (rgt_id (c i)) (cx1 (c i)) (rgt_x0 (c i)) (F1 i) else F1 i.
Definition tol (i : nat) := tolerance_away (cx0 (c i)) (cx1 (c i)).
Definition F3 (i : nat) := F_app ix (P i) (tol i) (inA i) (FL (rgtr i)) (F2 i).
Definition PA (i : nat) := P i + length (inA i).
Definition F4 (i : nat) := F_app ix (PA i) (tol i) (inB i) (FR (lftr i)) (F3 i).
Definition PB (i : nat) := PA i + length (inB i).
Definition f1 (i : nat) : nat -> N := fun k => if k <? P i then f i k else f (rgtr i) (nth (k - P i) (inA i) 0).
Definition f2 (i : nat) : nat -> N := fun k => if k <? PA i then f1 i k else f (lftr i) (nth (k - PA i) (inB i) 0).
Definition f3 (i : nat) : nat -> N := fun k =>
  if (bcL (c i) && existsb (Nat.eqb k) (lft_id (c i))) || (bcR (c i) && existsb (Nat.eqb k) (rgt_id (c i)))
  then 0%N else f2 i k.

Lemma tab_ext n m G H : (forall v k, v < n -> k < m -> G v k = H v k) -> tab n m G = tab n m H.
Proof.
  intros E. unfold tab. apply map_ext_in. intros v Hv. apply map_ext_in. intros k Hk.
  apply in_seq in Hv, Hk. apply E; lia.
Qed.
Lemma F_app_nil jx n m np t G H : tab n np (F_app jx m t [] G H) = tab n np (F_app jx m t [] G H). Proof. reflexivity. Qed.

Lemma st_ns0 i k : i < size -> k <= 8 -> ns (ideal i k) = map (f i) (seq 0 (P i)).
Proof. intros Hi Hk. rewrite (keep_ns i 0 k); [apply Hns, Hi|lia|small k]. Qed.
Lemma st_np0 i k : i < size -> k <= 8 -> n_part (ideal i k) = P i.
Proof. intros Hi Hk. rewrite (keep_np i 0 k); [apply Hnp, Hi|lia|small k]. Qed.
Lemma st_cols0 i k : i < size -> k <= 3 -> cols (ideal i k) = tab nv (P i) (F i).
Proof. intros Hi Hk. rewrite (keep_cols i 0 k); [apply Hcols, Hi|lia|small k]. Qed.
Lemma st_threw0 i k : i < size -> k <= 26 -> threw (ideal i k) = false.
Proof. intros Hi Hk. rewrite (keep_threw i 0 k); [apply Hthrew, Hi|lia|small k]. Qed.

Lemma st_outNL i k : i < size -> bcL (c i) = true -> 1 <= k <= 10 ->
  out_n (ideal i k) = map (f i) (lft_id (c i)).
Proof.
  intros Hi HL Hk. rewrite (keep_out_n i 1 k); [|lia|small k].
  rewrite (ideal_step i 0 _ _ eq_refl). cbv beta. rewrite HL. cbn [oracle exec set_out_n out_n].
  rewrite st_ns0 by (auto; lia). apply gather_tab; auto.
Qed.
Lemma st_cols1 i k : i < size -> 4 <= k <= 11 -> cols (ideal i k) = tab nv (P i) (F1 i).
Proof.
  intros Hi Hk. rewrite (keep_cols i 4 k); [|lia|small k].
  rewrite (ideal_step i 3 _ _ eq_refl). cbv beta. unfold F1. destruct (bcL (c i)).
  - cbn [oracle exec set_cols cols]. rewrite st_cols0 by (auto; lia). apply bcnd_remote_tab.
  - apply st_cols0; auto; lia.
Qed.
Lemma st_outRL i k : i < size -> bcL (c i) = true -> 5 <= k <= 17 ->
  out_r (ideal i k) = flat_map (fun v => map (FL i v) (lft_id (c i))) (seq 0 nv).
Proof.
  intros Hi HL Hk. rewrite (keep_out_r i 5 k); [|lia|small k].
  rewrite (ideal_step i 4 _ _ eq_refl). cbv beta. rewrite HL. cbn [oracle exec set_out_r out_r].
  rewrite st_cols1 by (auto; lia). unfold F1. rewrite HL. apply pack_real_tab; auto.
Qed.
(** process with no right neighbour: the left buffers stay *)
Lemma st_outNL' i k : i < size -> bcL (c i) = true -> bcR (c i) = false -> 1 <= k ->
  out_n (ideal i k) = map (f i) (lft_id (c i)).
Proof.
  intros Hi HL HR Hk. induction Hk as [|k Hk IH]; [apply st_outNL; auto; lia|].
  destruct (Nat.eq_dec k 10) as [->|Hne].
  - rewrite (ideal_step i 10 _ _ eq_refl). cbv beta. rewrite HR. exact IH.
  - rewrite <- IH. apply keep_out_n; [lia|]. unfold clean. replace (S k - k) with 1 by lia. cbn [seq forallb].
    destruct (nth_error prog k) as [[g a]|] eqn:E; auto.
    assert (k < length prog) by (apply nth_error_Some; rewrite E; discriminate); change (length prog) with 31 in *.
    do 31 (destruct k as [|k]; [try (exfalso; lia); inversion E; reflexivity|]); exfalso; lia.
Qed.
Lemma st_outRL' i k : i < size -> bcL (c i) = true -> bcR (c i) = false -> 5 <= k ->
  out_r (ideal i k) = flat_map (fun v => map (FL i v) (lft_id (c i))) (seq 0 nv).
Proof.
  intros Hi HL HR Hk. induction Hk as [|k Hk IH]; [apply st_outRL; auto; lia|].
  destruct (Nat.eq_dec k 17) as [->|Hne].
  - rewrite (ideal_step i 17 _ _ eq_refl). cbv beta. rewrite HR. exact IH.
  - rewrite <- IH. apply keep_out_r; [lia|]. unfold clean. replace (S k - k) with 1 by lia. cbn [seq forallb].
    destruct (nth_error prog k) as [[g a]|] eqn:E; auto.
    assert (k < length prog) by (apply nth_error_Some; rewrite E; discriminate); change (length prog) with 31 in *.
    do 31 (destruct k as [|k]; [try (exfalso; lia); inversion E; reflexivity|]); exfalso; lia.
Qed.

Lemma st_8 i : i < size -> bcR (c i) = true ->
  in_n (ideal i 8) = map (f (rgtr i)) (inA i) /\ n_copied (ideal i 8) = length (inA i).
Proof.
  intros Hi HR. rewrite (ideal_step i 7 _ _ eq_refl). cbv beta. rewrite HR. unfold inA. rewrite HR.
  cbn. now rewrite map_length.
Qed.
Lemma st_9 i : i < size ->
  ns (ideal i 9) = map (f i) (seq 0 (P i)) ++ map (f (rgtr i)) (inA i) /\ n_part (ideal i 9) = PA i /\
  (bcR (c i) = true -> n_part_old (ideal i 9) = P i).
Proof.
  intros Hi. rewrite (ideal_step i 8 _ _ eq_refl). cbv beta. destruct (bcR (c i)) eqn:HR.
  - destruct (st_8 i Hi HR) as [E1 E2]. cbn [oracle exec]. rewrite E2.
    rewrite (unpack_n_tab _ (P i) (f i) (f (rgtr i)) (inA i)); auto.
    + apply st_ns0; auto.
    + apply st_np0; auto.
  - unfold PA, inA. rewrite HR. cbn [length map]. rewrite app_nil_r, Nat.add_0_r.
    split; [apply st_ns0; auto|split; [apply st_np0; auto|discriminate]].
Qed.
Lemma st_ns1 i k : i < size -> 9 <= k <= 19 -> ns (ideal i k) = map (f1 i) (seq 0 (PA i)).
Proof.
  intros Hi Hk. rewrite (keep_ns i 9 k); [|lia|small k].
  destruct (st_9 i Hi) as [-> _]. apply map_app_seq.
Qed.
Lemma st_np1 i k : i < size -> 9 <= k <= 19 -> n_part (ideal i k) = PA i.
Proof. intros Hi Hk. rewrite (keep_np i 9 k); [|lia|small k]. now apply st_9. Qed.
Lemma st_npo1 i k : i < size -> bcR (c i) = true -> 9 <= k <= 19 -> n_part_old (ideal i k) = P i.
Proof. intros Hi HR Hk. rewrite (keep_npo i 9 k); [|lia|small k]. now apply st_9. Qed.
Lemma st_copied1 i k : i < size -> bcR (c i) = true -> 8 <= k <= 18 -> n_copied (ideal i k) = length (inA i).
Proof. intros Hi HR Hk. rewrite (keep_copied i 8 k); [|lia|small k]. now apply st_8. Qed.
Lemma st_outNR i k : i < size -> bcR (c i) = true -> 11 <= k <= 31 ->
  out_n (ideal i k) = map (f i) (rgt_id (c i)).
Proof.
  intros Hi HR Hk. rewrite (keep_out_n i 11 k); [|lia|small k].
  rewrite (ideal_step i 10 _ _ eq_refl). cbv beta. rewrite HR. cbn [oracle exec set_out_n out_n].
  rewrite st_ns1 by (auto; lia).
  pose proof (Hrgt i Hi) as V. unfold valid_ids in V. rewrite Forall_forall in V.
  rewrite gather_tab.
  - apply map_ext_in. intros k' Hk'. unfold f1. specialize (V k' Hk').
    destruct (Nat.ltb_spec k' (P i)); auto; lia.
  - unfold valid_ids. rewrite Forall_forall. intros k' Hk'. specialize (V k' Hk'). unfold PA. lia.
Qed.
Lemma st_cols2 i k : i < size -> 12 <= k <= 13 -> cols (ideal i k) = tab nv (P i) (F2 i).
Proof.
  intros Hi Hk. rewrite (keep_cols i 12 k); [|lia|small k].
  rewrite (ideal_step i 11 _ _ eq_refl). cbv beta. unfold F2. destruct (bcR (c i)).
  - cbn [oracle exec set_cols cols]. rewrite st_cols1 by (auto; lia). apply bcnd_remote_tab.
  - apply st_cols1; auto; lia.
Qed.
Lemma st_inr13 i : i < size -> bcR (c i) = true ->
  in_r (ideal i 13) = flat_map (fun v => map (FL (rgtr i) v) (inA i)) (seq 0 nv).
Proof.
  intros Hi HR. rewrite (ideal_step i 12 _ _ eq_refl). cbv beta. rewrite HR. unfold inA. rewrite HR. reflexivity.
Qed.
Lemma st_cols3 i k : i < size -> 14 <= k <= 25 -> cols (ideal i k) = tab nv (PA i) (F3 i).
Proof.
  intros Hi Hk. rewrite (keep_cols i 14 k); [|lia|small k].
  rewrite (ideal_step i 13 _ _ eq_refl). cbv beta. destruct (bcR (c i)) eqn:HR.
  - cbn [oracle exec]. rewrite st_copied1 by (auto; lia).
    rewrite (unpack_real_tab ix nv (c i) _ (P i) (F2 i) (FL (rgtr i)) (inA i)).
    + reflexivity.
    + apply st_cols2; auto.
    + apply st_npo1; auto; lia.
    + rewrite st_np1 by (auto; lia). reflexivity.
    + apply st_inr13; auto.
  - rewrite st_cols2 by auto. unfold PA, F3, inA. rewrite HR. cbn [length]. rewrite Nat.add_0_r.
    apply tab_ext. intros v q _ Hq. unfold F_app. destruct (Nat.ltb_spec q (P i)); auto; lia.
Qed.
Lemma st_outRR i k : i < size -> bcR (c i) = true -> 18 <= k <= 31 ->
  out_r (ideal i k) = flat_map (fun v => map (FR i v) (rgt_id (c i))) (seq 0 nv).
Proof.
  intros Hi HR Hk. rewrite (keep_out_r i 18 k); [|lia|small k].
  rewrite (ideal_step i 17 _ _ eq_refl). cbv beta. rewrite HR. cbn [oracle exec set_out_r out_r].
  rewrite st_cols3 by (auto; lia).
  pose proof (Hrgt i Hi) as V. unfold valid_ids in V. rewrite Forall_forall in V.
  rewrite pack_real_tab.
  - rewrite !flat_map_concat_map. f_equal. apply map_ext. intros v. apply map_ext_in. intros q Hq.
    specialize (V q Hq). unfold F3, F_app. destruct (Nat.ltb_spec q (P i)); [|lia].
    assert (E1 : F1 i v q = F i v q).
    { unfold F1. destruct (bcL (c i)); auto. unfold FL, F_remote.
      replace (existsb (Nat.eqb q) (lft_id (c i))) with false; [now rewrite andb_false_r|].
      symmetry; apply not_true_iff_false; intros E; apply existsb_exists in E; destruct E as [y [Hy Ey]].
      apply Nat.eqb_eq in Ey; subst y. eapply Hdisj; eauto. }
    unfold F2, FR. rewrite HR. unfold F_remote. now rewrite E1.
  - unfold valid_ids. rewrite Forall_forall. intros k' Hk'. specialize (V k' Hk'). unfold PA. lia.
Qed.
Lemma st_19 i : i < size -> bcL (c i) = true ->
  in_n (ideal i 19) = map (f (lftr i)) (inB i) /\ n_copied (ideal i 19) = length (inB i).
Proof.
  intros Hi HL. rewrite (ideal_step i 18 _ _ eq_refl). cbv beta. rewrite HL. unfold inB. rewrite HL.
  cbn. now rewrite map_length.
Qed.
Lemma st_20 i : i < size ->
  ns (ideal i 20) = map (f2 i) (seq 0 (PB i)) /\ n_part (ideal i 20) = PB i /\
  (bcL (c i) = true -> n_part_old (ideal i 20) = PA i).
Proof.
  intros Hi. rewrite (ideal_step i 19 _ _ eq_refl). cbv beta. destruct (bcL (c i)) eqn:HL.
  - destruct (st_19 i Hi HL) as [E1 E2]. cbn [oracle exec]. rewrite E2.
    rewrite (unpack_n_tab _ (PA i) (f1 i) (f (lftr i)) (inB i)); auto.
    + cbn. split; [apply map_app_seq|auto].
    + apply st_ns1; auto; lia.
    + apply st_np1; auto; lia.
  - unfold PB, inB. rewrite HL. cbn [length]. rewrite Nat.add_0_r.
    split; [|split; [apply st_np1; auto; lia|discriminate]].
    rewrite st_ns1 by (auto; lia). apply map_ext_in. intros q Hq. apply in_seq in Hq. unfold f2.
    destruct (Nat.ltb_spec q (PA i)); auto; lia.
Qed.
Lemma st_np2 i k : i < size -> 20 <= k <= 31 -> n_part (ideal i k) = PB i.
Proof. intros Hi Hk. rewrite (keep_np i 20 k); [|lia|small k]. now apply st_20. Qed.
Lemma st_ns3 i k : i < size -> 24 <= k <= 31 -> ns (ideal i k) = map (f3 i) (seq 0 (PB i)).
Proof.
  intros Hi Hk. rewrite (keep_ns i 24 k); [|lia|small k].
  rewrite (ideal_step i 23 _ _ eq_refl), (ideal_step i 22 _ _ eq_refl). cbv beta.
  assert (E : ns (ideal i 22) = map (f2 i) (seq 0 (PB i))).
  { rewrite (keep_ns i 20 22); [|lia|reflexivity]. now apply st_20. }
  unfold f3. destruct (bcL (c i)), (bcR (c i)); cbn [oracle exec set_ns ns andb orb]; rewrite E; unfold flag;
    rewrite ?at_ids_tab; apply map_ext; intros q; auto.
  - destruct (existsb _ (lft_id _)), (existsb _ (rgt_id _)); auto.
  - destruct (existsb _ (lft_id _)); auto.
Qed.
Lemma st_inr25 i : i < size -> bcL (c i) = true ->
  in_r (ideal i 25) = flat_map (fun v => map (FR (lftr i) v) (inB i)) (seq 0 nv).
Proof.
  intros Hi HL. rewrite (ideal_step i 24 _ _ eq_refl). cbv beta. rewrite HL. unfold inB. rewrite HL. reflexivity.
Qed.
Lemma st_cols4 i k : i < size -> 26 <= k <= 31 -> cols (ideal i k) = tab nv (PB i) (F4 i).
Proof.
  intros Hi Hk. rewrite (keep_cols i 26 k); [|lia|small k].
  rewrite (ideal_step i 25 _ _ eq_refl). cbv beta. destruct (bcL (c i)) eqn:HL.
  - cbn [oracle exec]. rewrite (keep_copied i 19 25); [|lia|reflexivity].
    destruct (st_19 i Hi HL) as [_ ->].
    rewrite (unpack_real_tab ix nv (c i) _ (PA i) (F3 i) (FR (lftr i)) (inB i)).
    + reflexivity.
    + apply st_cols3; auto; lia.
    + rewrite (keep_npo i 20 25); [|lia|reflexivity]. now apply st_20.
    + rewrite st_np2 by (auto; lia). reflexivity.
    + apply st_inr25; auto.
  - rewrite st_cols3 by (auto; lia). unfold PB, F4, inB. rewrite HL. cbn [length]. rewrite Nat.add_0_r.
    apply tab_ext. intros v q _ Hq. unfold F_app. destruct (Nat.ltb_spec q (PA i)); auto; lia.
Qed.
Lemma st_threw i k : i < size -> 27 <= k <= 31 ->
  threw (ideal i k) = (bcL (c i) || bcR (c i)) && (n_sd_max (c i) <? PB i).
Proof.
  intros Hi Hk. rewrite (keep_threw i 27 k); [|lia|small k].
  rewrite (ideal_step i 26 _ _ eq_refl). cbv beta. destruct (bcL (c i) || bcR (c i)); cbn [andb].
  - cbn [oracle exec set_threw threw]. rewrite st_np2 by (auto; lia). reflexivity.
  - apply st_threw0; auto; lia.
Qed.

(** ** The invariant of the whole system *)
Definition core (s : local) : local := set_in_n (set_in_r s []) [].
Definition cN (t : tag) (i : nat) : list N := match content t i with MN l => l | MR _ => [] end.
Definition cR (t : tag) (i : nat) : list R := match content t i with MR l => l | MN _ => [] end.

Definition uses_n a := match a with UnpackN | WaitRecv NL | WaitRecv NR => true | _ => false end.
Definition uses_r a := match a with UnpackR => true | _ => false end.
Lemma exec_core x a s s' : core s = core s' -> (uses_n a = true -> in_n s = in_n s') ->
  (uses_r a = true -> in_r s = in_r s') -> core (exec x ix a s) = core (exec x ix a s').
Proof.
  intros E Hn Hr. destruct s as [a1 a2 a3 a4 a5 a6 a7 a8 a9 a10], s' as [b1 b2 b3 b4 b5 b6 b7 b8 b9 b10]. cbv [core set_in_n set_in_r ns cols n_part n_part_old n_copied out_n out_r in_n in_r threw] in E.
  injection E as -> -> -> -> -> -> -> ->.
  destruct a; try reflexivity; try (destruct t; try reflexivity);
    try (specialize (Hn eq_refl); cbn in Hn; subst; reflexivity).
  specialize (Hr eq_refl). cbn in Hr. subst. cbn. unfold unpack_real. cbn. destruct (_ =? 0); reflexivity.
Qed.

Record Inv (g : sys) : Prop := {
  i_pc : forall i, i < size -> pc g i <= 31;
  i_loc : forall i, i < size -> core (loc g i) = core (ideal i (pc g i));
  i_net : forall i t m, i < size -> net g i t = Some m -> posted_send c g i t = true /\ m = content t i;
  i_rcv : forall i t, i < size -> recvd g i t = true -> posted_recv c g i t = true;
  i_wr : forall i k gd t, i < size -> k < pc g i -> nth_error prog k = Some (gd, WaitRecv t) ->
           gd (bcL (c i)) (bcR (c i)) = true -> recvd g i t = true;
  i_ws : forall i k gd t, i < size -> k < pc g i -> nth_error prog k = Some (gd, WaitSend t) ->
           gd (bcL (c i)) (bcR (c i)) = true -> net g i t <> None;
  i_nl : forall i, i < size -> recvd g i NL = true -> recvd g i NR = false -> in_n (loc g i) = cN NL (rgtr i);
  i_nr : forall i, i < size -> recvd g i NR = true -> in_n (loc g i) = cN NR (lftr i);
  i_rl : forall i, i < size -> recvd g i RL = true -> recvd g i RR = false -> in_r (loc g i) = cR RL (rgtr i);
  i_rr : forall i, i < size -> recvd g i RR = true -> in_r (loc g i) = cR RR (lftr i)
}.

Lemma inv_start : Inv (mk_sys (fun _ => 0) l0 (fun _ _ => None) (fun _ _ => false)).
Proof. constructor; cbn; intros; try discriminate; auto; lia. Qed.

Lemma prog_lt k x : nth_error prog k = Some x -> k < 31.
Proof. intros E. change 31 with (length prog). apply nth_error_Some. rewrite E. discriminate. Qed.

(** a receive not yet posted has not happened *)
Lemma not_rcv g i t : Inv g -> i < size -> pc g i <= at_irecv t -> recvd g i t = false.
Proof.
  intros I Hi H. destruct (recvd g i t) eqn:E; auto. apply (i_rcv g I) in E; auto.
  unfold posted_recv in E. apply andb_prop in E. destruct E as [E _]. apply Nat.ltb_lt in E. lia.
Qed.

(** what the library reads from a send buffer *)
Lemma out_ok g i t : Inv g -> i < size -> posted_send c g i t = true -> net g i t = None ->
  (if is_n t then MN (out_n (loc g i)) else MR (out_r (loc g i))) = content t i.
Proof.
  intros I Hi Hp Hn. unfold posted_send in Hp. apply andb_prop in Hp. destruct Hp as [Hpc Hg].
  apply Nat.ltb_lt in Hpc. pose proof (i_pc g I i Hi) as H31.
  pose proof (i_loc g I i Hi) as Ec.
  assert (En : out_n (loc g i) = out_n (ideal i (pc g i))) by exact (f_equal out_n Ec).
  assert (Er : out_r (loc g i) = out_r (ideal i (pc g i))) by exact (f_equal out_r Ec).
  destruct t; cbn in Hg, Hpc; cbn [is_n content].
  - rewrite En. destruct (bcR (c i)) eqn:HR.
    + rewrite st_outNL; auto. split; [lia|]. destruct (le_lt_dec (pc g i) 9); [lia|]. exfalso.
      apply (i_ws g I i 9 andb NL Hi); auto. now rewrite Hg, HR.
    + rewrite st_outNL'; auto; lia.
  - rewrite Er. destruct (bcR (c i)) eqn:HR.
    + rewrite st_outRL; auto. split; [lia|]. destruct (le_lt_dec (pc g i) 16); [lia|]. exfalso.
      apply (i_ws g I i 16 andb RL Hi); auto. now rewrite Hg, HR.
    + rewrite st_outRL'; auto; lia.
  - rewrite En, st_outNR; auto; lia.
  - rewrite Er, st_outRR; auto; lia.
Qed.

Lemma updf_eq {A} (h : nat -> A) i v : updf h i v i = v.
Proof. unfold updf. now rewrite Nat.eqb_refl. Qed.
Lemma updf_ne {A} (h : nat -> A) i j v : j <> i -> updf h i v j = h j.
Proof. intros H. unfold updf. apply Nat.eqb_neq in H. now rewrite H. Qed.
Lemma tag_eqb_eq a b : tag_eqb a b = true <-> a = b.
Proof. destruct a, b; cbn; split; intros; congruence. Qed.

(** advancing the program counter of one process *)
Lemma posted_mono g g' : (forall i, pc g i <= pc g' i) ->
  (forall i t, posted_send c g i t = true -> posted_send c g' i t = true) /\
  (forall i t, posted_recv c g i t = true -> posted_recv c g' i t = true).
Proof.
  intros H. split; intros i t E; unfold posted_send, posted_recv in *; apply andb_prop in E; destruct E as [E1 E2];
    rewrite E2, andb_true_r; apply Nat.ltb_lt; apply Nat.ltb_lt in E1; specialize (H i); lia.
Qed.

Lemma advance g i gd a l' : Inv g -> i < size -> nth_error prog (pc g i) = Some (gd, a) ->
  core l' = core (ideal i (S (pc g i))) -> in_n l' = in_n (loc g i) -> in_r l' = in_r (loc g i) ->
  (gd (bcL (c i)) (bcR (c i)) = true -> enabled size g i a = true) ->
  Inv (mk_sys (updf (pc g) i (S (pc g i))) (updf (loc g) i l') (net g) (recvd g)).
Proof.
  intros I Hi Hp Hc Hin Hir He. pose proof (prog_lt _ _ Hp) as Hk.
  assert (Hmono : forall j, pc g j <= updf (pc g) i (S (pc g i)) j).
  { intros j. unfold updf. destruct (Nat.eqb_spec j i); subst; lia. }
  destruct (posted_mono g (mk_sys (updf (pc g) i (S (pc g i))) (updf (loc g) i l') (net g) (recvd g)) Hmono) as [M1 M2].
  constructor; cbn [pc loc net recvd].
  - intros j Hj. unfold updf. destruct (Nat.eqb_spec j i); [lia|]. now apply (i_pc g I).
  - intros j Hj. unfold updf. destruct (Nat.eqb_spec j i); [subst; auto|]. now apply (i_loc g I).
  - intros j t m Hj E. destruct (i_net g I j t m Hj E). auto.
  - intros j t Hj E. apply M2. now apply (i_rcv g I).
  - intros j k gd' t Hj Hlt E1 E2. unfold updf in Hlt. destruct (Nat.eqb_spec j i) as [->|].
    + destruct (Nat.eq_dec k (pc g i)) as [->|]; [|eapply (i_wr g I); eauto; lia].
      rewrite Hp in E1. inversion E1; subst. now apply He in E2.
    + eapply (i_wr g I); eauto.
  - intros j k gd' t Hj Hlt E1 E2. unfold updf in Hlt. destruct (Nat.eqb_spec j i) as [->|].
    + destruct (Nat.eq_dec k (pc g i)) as [->|]; [|eapply (i_ws g I); eauto; lia].
      rewrite Hp in E1. inversion E1; subst. apply He in E2. cbn in E2. destruct (net g i t); congruence.
    + eapply (i_ws g I); eauto.
  - intros j Hj E1 E2. unfold updf. destruct (Nat.eqb_spec j i); [subst; rewrite Hin|]; now apply (i_nl g I).
  - intros j Hj E1. unfold updf. destruct (Nat.eqb_spec j i); [subst; rewrite Hin|]; now apply (i_nr g I).
  - intros j Hj E1 E2. unfold updf. destruct (Nat.eqb_spec j i); [subst; rewrite Hir|]; now apply (i_rl g I).
  - intros j Hj E1. unfold updf. destruct (Nat.eqb_spec j i); [subst; rewrite Hir|]; now apply (i_rr g I).
Qed.

Lemma exec_in x a s : in_n (exec x ix a s) = in_n s /\ in_r (exec x ix a s) = in_r s.
Proof. destruct a as [| | | | | |t|t|t|t| | | | |]; try (destruct t); try (split; reflexivity). cbn. split; apply unpack_real_other. Qed.
Lemma core_oracle i a s : core (oracle i a s) = core s.
Proof. destruct a; try reflexivity. destruct t; reflexivity. Qed.

Lemma inv_instr g i gd a : Inv g -> i < size -> nth_error prog (pc g i) = Some (gd, a) ->
  gd (bcL (c i)) (bcR (c i)) = true -> enabled size g i a = true ->
  Inv (mk_sys (updf (pc g) i (S (pc g i))) (updf (loc g) i (exec (c i) ix a (loc g i))) (net g) (recvd g)).
Proof.
  intros I Hi Hp Hg He. apply advance with gd a; auto; try apply exec_in.
  rewrite (ideal_step i _ _ _ Hp), Hg. apply exec_core.
  - rewrite core_oracle. now apply (i_loc g I).
  - intros U. pose proof (prog_lt _ _ Hp) as Hk. remember (pc g i) as k eqn:Ek.
    assert (Hk' : (k = 7 /\ a = WaitRecv NL) \/ (k = 8 /\ a = UnpackN) \/ (k = 18 /\ a = WaitRecv NR) \/ (k = 19 /\ a = UnpackN)).
    { clear - Hp U Hk. do 31 (destruct k as [|k]; [cbn in Hp; inversion Hp; subst; cbn in U; try discriminate U; auto|]); lia. }
    destruct Hk' as [[-> ->]|[[-> ->]|[[-> ->]|[-> ->]]]]; cbn in Hp; inversion Hp; subst gd; cbn in Hg.
    + cbn in He. rewrite (i_nl g I i Hi He); [reflexivity|]. apply not_rcv; auto. cbn. lia.
    + assert (R1 : recvd g i NL = true) by (eapply (i_wr g I i 7); eauto; [lia|reflexivity|exact Hg]).
      rewrite (i_nl g I i Hi R1) by (apply not_rcv; auto; cbn; lia).
      cbn [oracle]. destruct (st_8 i Hi Hg) as [-> _]. unfold inA, cN. rewrite Hg. reflexivity.
    + cbn in He. rewrite (i_nr g I i Hi He). reflexivity.
    + assert (R1 : recvd g i NR = true) by (eapply (i_wr g I i 18); eauto; [lia|reflexivity|exact Hg]).
      rewrite (i_nr g I i Hi R1). cbn [oracle]. destruct (st_19 i Hi Hg) as [-> _]. unfold inB, cN. rewrite Hg. reflexivity.
  - intros U. pose proof (prog_lt _ _ Hp) as Hk. remember (pc g i) as k eqn:Ek.
    assert (Hk' : (k = 13 /\ a = UnpackR) \/ (k = 25 /\ a = UnpackR)).
    { clear - Hp U Hk. do 31 (destruct k as [|k]; [cbn in Hp; inversion Hp; subst; cbn in U; try discriminate U; auto|]); lia. }
    destruct Hk' as [[-> ->]|[-> ->]]; cbn in Hp; inversion Hp; subst gd; cbn in Hg.
    + assert (R1 : recvd g i RL = true) by (eapply (i_wr g I i 12); eauto; [lia|reflexivity|exact Hg]).
      rewrite (i_rl g I i Hi R1) by (apply not_rcv; auto; cbn; lia).
      cbn [oracle]. rewrite st_inr13 by auto. unfold inA, cR. rewrite Hg. reflexivity.
    + assert (R1 : recvd g i RR = true) by (eapply (i_wr g I i 24); eauto; [lia|reflexivity|exact Hg]).
      rewrite (i_rr g I i Hi R1). cbn [oracle]. rewrite st_inr25 by auto. unfold inB, cR. rewrite Hg. reflexivity.
Qed.

Lemma inv_skip g i gd a : Inv g -> i < size -> nth_error prog (pc g i) = Some (gd, a) ->
  gd (bcL (c i)) (bcR (c i)) = false ->
  Inv (mk_sys (updf (pc g) i (S (pc g i))) (loc g) (net g) (recvd g)).
Proof.
  intros I Hi Hp Hg.
  pose proof (advance g i gd a (loc g i) I Hi Hp) as A.
  assert (J : Inv (mk_sys (updf (pc g) i (S (pc g i))) (updf (loc g) i (loc g i)) (net g) (recvd g))).
  { apply A; auto. 2:congruence. rewrite (ideal_step i _ _ _ Hp), Hg. now apply (i_loc g I). }
  destruct J. constructor; cbn [pc loc net recvd] in *; auto; intros j Hj.
  - specialize (i_loc0 j Hj). unfold updf in *. destruct (Nat.eqb_spec j i); subst; auto.
  - specialize (i_nl0 j Hj). unfold updf in *. destruct (Nat.eqb_spec j i); subst; auto.
  - specialize (i_nr0 j Hj). unfold updf in *. destruct (Nat.eqb_spec j i); subst; auto.
  - specialize (i_rl0 j Hj). unfold updf in *. destruct (Nat.eqb_spec j i); subst; auto.
  - specialize (i_rr0 j Hj). unfold updf in *. destruct (Nat.eqb_spec j i); subst; auto.
Qed.

Lemma inv_read g i t : Inv g -> i < size -> posted_send c g i t = true -> net g i t = None ->
  Inv (mk_sys (pc g) (loc g)
         (updt (net g) i t (Some (if is_n t then MN (out_n (loc g i)) else MR (out_r (loc g i))))) (recvd g)).
Proof.
  intros I Hi Hp Hn. pose proof (out_ok g i t I Hi Hp Hn) as E. destruct I.
  constructor; cbn [pc loc net recvd]; auto.
  - intros j u m Hj. unfold updt. destruct (Nat.eqb_spec j i) as [->|]; cbn [andb].
    + destruct (tag_eqb u t) eqn:Et; [|intros H; now apply i_net0].
      apply tag_eqb_eq in Et. subst u. intros H. inversion H. subst m. auto.
    + intros H; now apply i_net0.
  - intros j k gd u Hj Hlt E1 E2. unfold updt. destruct ((j =? i) && tag_eqb u t); [discriminate|]. eapply i_ws0; eauto.
Qed.

Lemma content_kind t i : content t i = if is_n t then MN (cN t i) else MR (cR t i).
Proof. destruct t; reflexivity. Qed.

Lemma source_lt t i : i < size -> source size t i < size.
Proof. intros H. unfold source. destruct (to_left t); [now apply rgtr_lt|now apply lftr_lt]. Qed.

Lemma inv_write g j t m : Inv g -> j < size -> posted_recv c g j t = true -> recvd g j t = false ->
  net g (source size t j) t = Some m ->
  Inv (mk_sys (pc g) (updf (loc g) j (match m with MN l => set_in_n (loc g j) l | MR l => set_in_r (loc g j) l end))
         (net g) (updt (recvd g) j t true)).
Proof.
  intros I Hj Hp Hr Hn.
  pose proof (i_pc g I j Hj) as H31.
  destruct (i_net g I _ _ _ (source_lt t j Hj) Hn) as [_ ->].
  rewrite content_kind. set (l' := match _ with MN l => _ | MR l => _ end).
  assert (Hcore : core l' = core (loc g j)) by (subst l'; destruct t; reflexivity).
  assert (HNR : t = NL -> recvd g j NR = false).
  { intros ->. destruct (recvd g j NR) eqn:E; auto. exfalso.
    apply (i_rcv g I) in E; auto. unfold posted_recv in E, Hp. apply andb_prop in E. destruct E as [E _].
    apply andb_prop in Hp. destruct Hp as [_ Hg].
    apply Nat.ltb_lt in E. cbn in E, Hg.
    rewrite (i_wr g I j 7 (fun _ r => r) NL Hj) in Hr; auto; try discriminate. lia. }
  assert (HRR : t = RL -> recvd g j RR = false).
  { intros ->. destruct (recvd g j RR) eqn:E; auto. exfalso.
    apply (i_rcv g I) in E; auto. unfold posted_recv in E, Hp. apply andb_prop in E. destruct E as [E _].
    apply andb_prop in Hp. destruct Hp as [_ Hg].
    apply Nat.ltb_lt in E. cbn in E, Hg.
    rewrite (i_wr g I j 12 (fun _ r => r) RL Hj) in Hr; auto; try discriminate. lia. }
  destruct I. constructor; cbn [pc loc net recvd]; auto.
  - intros q Hq. unfold updf. destruct (Nat.eqb_spec q j); [subst; rewrite Hcore; auto|auto].
  - intros q u Hq. unfold updt. destruct (Nat.eqb_spec q j) as [->|]; cbn [andb]; [|apply i_rcv0; auto].
    destruct (tag_eqb u t) eqn:Et; [|apply i_rcv0; auto]. apply tag_eqb_eq in Et. subst u. auto.
  - intros q k gd u Hq Hlt E1 E2. unfold updt. destruct ((q =? j) && tag_eqb u t); auto. eapply i_wr0; eauto.
  - intros q Hq. unfold updt, updf. destruct (Nat.eqb_spec q j) as [->|]; cbn [andb]; [|apply i_nl0; auto].
    subst l'. destruct t; cbn in *; auto; try discriminate.
  - intros q Hq. unfold updt, updf. destruct (Nat.eqb_spec q j) as [->|]; cbn [andb]; [|apply i_nr0; auto].
    subst l'. destruct t; cbn in *; auto; try (rewrite HNR by auto; discriminate).
  - intros q Hq. unfold updt, updf. destruct (Nat.eqb_spec q j) as [->|]; cbn [andb]; [|apply i_rl0; auto].
    subst l'. destruct t; cbn in *; auto; try discriminate.
  - intros q Hq. unfold updt, updf. destruct (Nat.eqb_spec q j) as [->|]; cbn [andb]; [|apply i_rr0; auto].
    subst l'. destruct t; cbn in *; auto; try (rewrite HRR by auto; discriminate).
Qed.

Hypothesis Hfit : forall i t, i < size -> guard (c i) (at_irecv t) = true -> fits (c i) (content t (source size t i)) = true.

Definition GInv (x : gstate) : Prop := match x with Run g => Inv g | Abort => False end.
Lemma inv_step x y : GInv x -> step size ix c x y -> GInv y.
Proof.
  intros I S. destruct S; cbn in *.
  - eapply inv_instr; eauto.
  - eapply inv_skip; eauto.
  - eapply inv_read; eauto.
  - eapply inv_write; eauto.
  - exfalso. destruct (i_net g I _ _ _ (source_lt t j H) H2) as [_ ->].
    unfold posted_recv in H0. apply andb_prop in H0. rewrite Hfit in H3; try tauto. discriminate.
Qed.
Lemma inv_reach y : clos_refl_trans_1n _ (step size ix c) (start l0) y -> GInv y.
Proof.
  assert (H : forall x, clos_refl_trans_1n _ (step size ix c) x y -> GInv x -> GInv y).
  { intros x H. induction H; auto. intros I. apply IHclos_refl_trans_1n. eapply inv_step; eauto. }
  intros E. apply (H _ E). apply inv_start.
Qed.

(** ** No deadlock *)
Definition unfinished (g : sys) (i : nat) : bool := (pc g i <? 31) && negb (threw (loc g i)).
Lemma min_exists (Q : nat -> bool) (m : nat -> nat) n : (exists i, i < n /\ Q i = true) ->
  exists i, i < n /\ Q i = true /\ forall j, j < n -> Q j = true -> m i <= m j.
Proof.
  induction n as [|n IH]; intros [i [Hi Q1]]; [lia|].
  destruct (existsb Q (seq 0 n)) eqn:E.
  - apply existsb_exists in E. destruct E as [i' [Hi' Q']]. apply in_seq in Hi'.
    destruct IH as [k [Hk [Qk Mk]]]; [exists i'; split; auto; lia|].
    destruct (Q n) eqn:Qn.
    + destruct (le_lt_dec (m k) (m n)).
      * exists k. repeat split; auto. intros j Hj Qj. destruct (Nat.eq_dec j n); [subst; lia|apply Mk; auto; lia].
      * exists n. repeat split; auto. intros j Hj Qj. destruct (Nat.eq_dec j n); [subst; lia|].
        specialize (Mk j ltac:(lia) Qj). lia.
    + exists k. repeat split; auto. intros j Hj Qj. destruct (Nat.eq_dec j n); [subst; congruence|apply Mk; auto; lia].
  - assert (forall j, j < n -> Q j = false).
    { intros j Hj. apply not_true_iff_false. intros Qj. apply not_true_iff_false in E. apply E.
      apply existsb_exists. exists j. split; auto. apply in_seq. lia. }
    assert (i = n). { destruct (Nat.eq_dec i n); auto. rewrite H in Q1 by lia. discriminate. }
    subst i. exists n. repeat split; auto. intros j Hj Qj. destruct (Nat.eq_dec j n); [subst; lia|].
    rewrite H in Qj by lia. discriminate.
Qed.

Lemma threw_pc g i : Inv g -> i < size -> threw (loc g i) = true -> 27 <= pc g i.
Proof.
  intros I Hi H. destruct (le_lt_dec 27 (pc g i)); auto.
  pose proof (f_equal threw (i_loc g I i Hi)) as E. cbn in E. rewrite st_threw0 in E by (auto; lia). congruence.
Qed.

Lemma no_deadlock g : Inv g -> (exists i, i < size /\ unfinished g i = true) ->
  exists y, step size ix c (Run g) y.
Proof.
  intros I Hex. destruct (min_exists (unfinished g) (pc g) size Hex) as [i [Hi [Hu Hm]]].
  assert (Hall : forall j, j < size -> pc g i <= pc g j \/ 27 <= pc g j).
  { intros j Hj. destruct (unfinished g j) eqn:E; [left; auto|right].
    unfold unfinished in E. apply andb_false_iff in E. destruct E as [E|E].
    - apply Nat.ltb_ge in E. lia.
    - apply negb_false_iff in E. eapply threw_pc; eauto. }
  clear Hm Hex. unfold unfinished in Hu. apply andb_prop in Hu. destruct Hu as [Hk Ht].
  apply Nat.ltb_lt in Hk. apply negb_true_iff in Ht.
  destruct (nth_error prog (pc g i)) as [[gd a]|] eqn:Hp.
  2:{ apply nth_error_None in Hp. change (length prog) with 31 in Hp. lia. }
  destruct (gd (bcL (c i)) (bcR (c i))) eqn:Hg; [|eexists; eapply st_skip; eauto].
  destruct (enabled size g i a) eqn:He; [eexists; eapply st_instr; eauto|].
  destruct a; try discriminate He; cbn in He.
  - (* waiting for a message *)
    assert (W : (at_irecv t < pc g i) /\ guard (c i) (at_irecv t) = true /\ at_isend t < pc g i /\ pc g i < 27 /\
                guard (c (source size t i)) (at_isend t) = true).
    { clear - Hp Hg Hk Hring Hi Hsize. remember (pc g i) as k eqn:Ek. clear Ek.
      do 31 (destruct k as [|k]; [cbn in Hp; inversion Hp; subst; cbn in Hg; cbn; repeat split; try lia; auto;
        try (rewrite <- Hring by auto; auto);
        try (rewrite Hring by (apply lftr_lt; auto); rewrite rgt_lft; auto)|]). lia. }
    destruct W as [W1 [W2 [W3 [W4 W5]]]].
    assert (Hpr : posted_recv c g i t = true) by (unfold posted_recv; rewrite W2, andb_true_r; now apply Nat.ltb_lt).
    assert (Hps : posted_send c g (source size t i) t = true).
    { unfold posted_send. rewrite W5, andb_true_r. apply Nat.ltb_lt.
      destruct (Hall (source size t i) (source_lt t i Hi)); lia. }
    destruct (net g (source size t i) t) as [m|] eqn:En.
    + destruct (fits (c i) m) eqn:Ef; [eexists; eapply st_write; eauto|eexists; eapply st_overrun; eauto].
    + eexists. apply st_read with (i := source size t i) (t := t); auto. now apply source_lt.
  - (* waiting for a send buffer *)
    assert (W : at_isend t < pc g i /\ guard (c i) (at_isend t) = true).
    { clear - Hp Hg Hk. remember (pc g i) as k eqn:Ek. clear Ek.
      do 31 (destruct k as [|k]; [cbn in Hp; inversion Hp; subst; cbn in Hg; cbn; try (apply andb_prop in Hg; destruct Hg); repeat split; try lia; auto|]). lia. }
    destruct W as [W1 W2]. destruct (net g i t) as [m|] eqn:En; [discriminate|].
    eexists. apply st_read with (i := i) (t := t); auto. unfold posted_send. rewrite W2, andb_true_r. now apply Nat.ltb_lt.
Qed.

(** ** Every run ends *)
Definition w_of (g : sys) (i : nat) : nat :=
  (31 - pc g i) + list_sum (map (fun t => if net g i t then 0 else 1) [NL; RL; NR; RR])
  + list_sum (map (fun t => if recvd g i t then 0 else 1) [NL; RL; NR; RR]).
Definition weight (x : gstate) : nat :=
  match x with Run g => S (list_sum (map (w_of g) (seq 0 size))) | Abort => 0 end.
Lemma list_sum_lt (h h' : nat -> nat) i n : i < n -> h' i < h i -> (forall j, j < n -> j <> i -> h' j = h j) ->
  list_sum (map h' (seq 0 n)) < list_sum (map h (seq 0 n)).
Proof.
  intros Hi Hlt He. replace n with (i + S (n - i - 1)) by lia.
  rewrite seq_app, !map_app, !list_sum_app. cbn [seq map Nat.add].
  change (list_sum (?a :: ?l)) with (a + list_sum l).
  rewrite (map_ext_in h' h (seq 0 i)) by (intros j Hj; apply in_seq in Hj; apply He; lia).
  rewrite (map_ext_in h' h (seq (S i) _)) by (intros j Hj; apply in_seq in Hj; apply He; lia).
  cbn. lia.
Qed.
Lemma step_weight x y : step size ix c x y -> weight y < weight x.
Proof.
  intros S. destruct S; cbn [weight].
  - apply -> Nat.succ_lt_mono. apply list_sum_lt with i; auto; unfold w_of; cbn [pc net recvd].
    + rewrite updf_eq. apply prog_lt in H0. lia.
    + intros j Hj Hne. now rewrite updf_ne.
  - apply -> Nat.succ_lt_mono. apply list_sum_lt with i; auto; unfold w_of; cbn [pc net recvd].
    + rewrite updf_eq. apply prog_lt in H0. lia.
    + intros j Hj Hne. now rewrite updf_ne.
  - apply -> Nat.succ_lt_mono. apply list_sum_lt with i; auto; unfold w_of; cbn [pc net recvd].
    + unfold updt. rewrite Nat.eqb_refl. destruct t; cbn; rewrite H1; cbn; lia.
    + intros j Hj Hne. unfold updt. apply Nat.eqb_neq in Hne. rewrite Hne. reflexivity.
  - apply -> Nat.succ_lt_mono. apply list_sum_lt with j; auto; unfold w_of; cbn [pc net recvd].
    + unfold updt. rewrite Nat.eqb_refl. destruct t; cbn; rewrite H1; cbn; lia.
    + intros q Hq Hne. unfold updt. apply Nat.eqb_neq in Hne. rewrite Hne. reflexivity.
  - lia.
Qed.

(** ** the end of every run *)
Lemma final_state y : clos_refl_trans_1n _ (step size ix c) (start l0) y -> (forall z, ~ step size ix c y z) ->
  exists g, y = Run g /\ forall i, i < size ->
    ns (loc g i) = map (f3 i) (seq 0 (PB i)) /\ cols (loc g i) = tab nv (PB i) (F4 i) /\
    threw (loc g i) = (bcL (c i) || bcR (c i)) && (n_sd_max (c i) <? PB i).
Proof.
  intros Hr Hs. pose proof (inv_reach y Hr) as I. destruct y as [g|]; [|destruct I]. cbn in I.
  exists g. split; auto. intros i Hi.
  assert (Hf : unfinished g i = false).
  { apply not_true_iff_false. intros E. destruct (no_deadlock g I) as [z Hz]; [eauto|]. exact (Hs z Hz). }
  assert (Hpc : 27 <= pc g i <= 31).
  { split; [|now apply (i_pc g I)]. unfold unfinished in Hf. apply andb_false_iff in Hf. destruct Hf as [E|E].
    - apply Nat.ltb_ge in E. lia.
    - apply negb_false_iff in E. eapply threw_pc; eauto. }
  pose proof (i_loc g I i Hi) as E.
  pose proof (f_equal ns E) as E1. pose proof (f_equal cols E) as E2. pose proof (f_equal threw E) as E3.
  cbn in E1, E2, E3. rewrite E1, E2, E3. split; [|split].
  - apply st_ns3; auto; lia.
  - apply st_cols4; auto; lia.
  - apply st_threw; auto; lia.
Qed.
End ring.
