(** Sums over the super-droplets of a cell *)
From Coq Require Import List Arith NArith ZArith Lia Reals Lra Permutation Sorted Bool.
From Verif Require Import Base BaseProofs HskpngModel HskpngProofs ThermoModel SpaceModel MomsModel.
Import ListNotations.
Local Open Scope R_scope.

(** sum of [w] over the super-droplets [i < np] of cell [c] *)
Definition cellsum (np : nat) (ijk : nat -> nat) (w : nat -> R) (c : nat) : R :=
  sumR np (fun i => if (ijk i =? c)%nat then w i else 0).
Definition occupied (np : nat) (ijk : nat -> nat) (c : nat) : Prop := exists i, (i < np)%nat /\ ijk i = c.
(** an admissible result of sorting super-droplets by cell *)
Definition sorted_pop (np : nat) (ijk : nat -> nat) (sijk sid : list nat) : Prop :=
  exists sh, sort_helper sh (map ijk (seq 0 np)) sijk sid.

Fixpoint lookup (c : nat) (l : list (nat * R)) : option R :=
  match l with [] => None | (k, v) :: r => if (k =? c)%nat then Some v else lookup c r end.
Definition keysum (keys : list nat) (vals : list R) (c : nat) : R :=
  lsumR (map (fun kv => if (fst kv =? c)%nat then snd kv else 0) (combine keys vals)).

Lemma run_sums_head keys vals : length keys = length vals ->
  match run_sums keys vals with [] => keys = [] | (k, _) :: _ => exists r, keys = k :: r end.
Proof.
  revert vals; induction keys as [|k keys IH]; intros [|v vals] H; cbn in *; try lia; [reflexivity|].
  specialize (IH vals ltac:(lia)). destruct (run_sums keys vals) as [|(k', s) rest].
  - subst. eauto.
  - destruct (Nat.eqb_spec k k') as [->|]; eauto.
Qed.

Lemma run_sums_spec keys vals : length keys = length vals -> Sorted le keys ->
  NoDup (map fst (run_sums keys vals)) /\
  (forall c, In c (map fst (run_sums keys vals)) <-> In c keys) /\
  (forall c, In c keys -> lookup c (run_sums keys vals) = Some (keysum keys vals c)) /\
  (forall c, ~ In c keys -> lookup c (run_sums keys vals) = None).
Proof.
  revert vals; induction keys as [|k keys IH]; intros [|v vals] Hl HS; cbn [length] in Hl; try lia.
  { cbn. repeat split; auto; try tauto. constructor. }
  assert (Hl' : length keys = length vals) by lia.
  assert (HS' : Sorted le keys) by (inversion HS; assumption).
  assert (Hmin : forall x, In x keys -> (k <= x)%nat).
  { apply Sorted_StronglySorted in HS; [|intros a b d; lia]. inversion HS; subst. apply Forall_forall; assumption. }
  destruct (IH vals Hl' HS') as (I1 & I2 & I3 & I4).
  pose proof (run_sums_head keys vals Hl') as Hh.
  assert (Hks : forall c, keysum (k :: keys) (v :: vals) c = (if (k =? c)%nat then v else 0) + keysum keys vals c).
  { intros c. reflexivity. }
  assert (Hks0 : forall c, ~ In c keys -> keysum keys vals c = 0).
  { intros c Hc. unfold keysum. clear - Hc Hl'. revert vals Hl' Hc. induction keys as [|x keys IH]; intros [|y vals] Hl Hc; cbn in *; try lia; auto.
    destruct (Nat.eqb_spec x c); [exfalso; auto|]. rewrite IH; auto; lra. }
  cbn [run_sums]. destruct (run_sums keys vals) as [|(k', s) rest] eqn:E.
  - subst keys. cbn [map fst lookup In]. split; [constructor; [auto|constructor]|]. split; [tauto|]. split.
    + intros c [<-|[]]. rewrite Nat.eqb_refl. rewrite Hks, Nat.eqb_refl. f_equal. rewrite Hks0 by auto. lra.
    + intros c Hc. destruct (Nat.eqb_spec k c); [exfalso; auto|reflexivity].
  - destruct Hh as (r & Hr). destruct (Nat.eqb_spec k k') as [<-|Hne].
    + assert (Hin : In k keys) by (rewrite Hr; left; reflexivity).
      assert (Hs : s = keysum keys vals k).
      { specialize (I3 k Hin). cbn in I3. rewrite Nat.eqb_refl in I3. congruence. }
      split; [exact I1|]. split.
      { intros c. rewrite I2. cbn. intuition congruence. }
      split.
      * intros c Hc. rewrite Hks. cbn [lookup]. destruct (Nat.eqb_spec k c) as [<-|Hkc].
        { f_equal. rewrite Hs. reflexivity. }
        { destruct Hc as [Hc|Hc]; [congruence|]. specialize (I3 c Hc). cbn in I3.
          destruct (Nat.eqb_spec k c); [congruence|]. rewrite I3. f_equal. lra. }
      * intros c Hc. cbn [lookup]. destruct (Nat.eqb_spec k c); [exfalso; apply Hc; left; congruence|].
        assert (Hn : ~ In c keys) by (intros H; apply Hc; right; exact H).
        specialize (I4 c Hn). cbn in I4. destruct (Nat.eqb_spec k c); [congruence|exact I4].
    + assert (Hnot : ~ In k keys).
      { intros H. assert (k' <= k)%nat; [|assert (k <= k')%nat by (apply Hmin; rewrite Hr; left; reflexivity); lia].
        rewrite Hr in HS', H. apply Sorted_StronglySorted in HS'; [|intros a b d; lia]. inversion HS' as [|? ? ? F]; subst.
        destruct H as [->|H]; [lia|]. rewrite Forall_forall in F. apply F; exact H. }
      split.
      { cbn [map fst]. constructor; [|exact I1]. intros H. apply Hnot. apply I2. exact H. }
      split.
      { intros c. cbn [map fst In]. specialize (I2 c). cbn [map fst In] in I2. rewrite I2. cbn. tauto. }
      split.
      * intros c Hc. rewrite Hks. cbn [lookup]. destruct (Nat.eqb_spec k c) as [<-|Hkc].
        { f_equal. rewrite Hks0 by exact Hnot. lra. }
        { destruct Hc as [Hc|Hc]; [congruence|]. specialize (I3 c Hc). cbn [lookup] in I3. rewrite I3. f_equal. lra. }
      * intros c Hc. cbn [lookup]. destruct (Nat.eqb_spec k c); [exfalso; apply Hc; left; congruence|].
        specialize (I4 c (fun H => Hc (or_intror H))). exact I4.
Qed.

Lemma scatter_spec f kvs base c : NoDup (map fst kvs) ->
  scatter f kvs base c = match lookup c kvs with Some v => f (base c) v | None => base c end.
Proof.
  unfold scatter. revert base. induction kvs as [|(k, v) kvs IH]; intros base ND; [reflexivity|].
  cbn [fold_left fst snd lookup map] in *. inversion ND as [|? ? Hni ND']; subst. rewrite IH by exact ND'.
  assert (L : forall l, ~ In k (map fst l) -> lookup k l = None).
  { clear. intros l. induction l as [|(a, b) l IHl]; cbn; intros H; [reflexivity|].
    destruct (Nat.eqb_spec a k); [exfalso; auto|]. apply IHl. auto. }
  destruct (Nat.eqb_spec k c) as [<-|Hne].
  - rewrite (L _ Hni). unfold upd. rewrite Nat.eqb_refl. reflexivity.
  - unfold upd. destruct (Nat.eqb_spec c k); [congruence|]. reflexivity.
Qed.

Lemma lookup_map g c (kvs : list (nat * R)) :
  lookup c (map (fun kv => (fst kv, g (fst kv) (snd kv))) kvs) =
  match lookup c kvs with Some v => Some (g c v) | None => None end.
Proof.
  induction kvs as [|(k, v) kvs IH]; [reflexivity|]. cbn. destruct (Nat.eqb_spec k c) as [->|]; auto.
Qed.

Lemma lsumR_map_perm {A} (f : A -> R) l l' : Permutation l l' -> lsumR (map f l) = lsumR (map f l').
Proof. intros H. apply lsumR_perm, Permutation_map, H. Qed.
Lemma lsumR_seq n f : lsumR (map f (seq 0 n)) = sumR n f.
Proof.
  symmetry. apply sumR_seq.
Qed.

Section Sorted.
  Variables (np : nat) (ijk : nat -> nat) (sijk sid : list nat).
  Hypothesis Hs : sorted_pop np ijk sijk sid.

  Lemma sorted_facts : Permutation sid (seq 0 np) /\ sijk = map ijk sid /\ Sorted le sijk.
  Proof.
    destruct Hs as [sh H]. apply sort_helper_spec in H. destruct H as (HP & HE & HS).
    rewrite map_length, seq_length in HP. split; [exact HP|]. split; [|exact HS]. rewrite HE.
    apply map_ext_in. intros i Hi. apply (Permutation_in _ HP), in_seq in Hi.
    rewrite nth_indep with (d' := ijk 0) by (rewrite map_length, seq_length; lia).
    rewrite map_nth, seq_nth by lia. reflexivity.
  Qed.

  Lemma occupied_in c : In c sijk <-> occupied np ijk c.
  Proof.
    destruct sorted_facts as (HP & HE & _). rewrite HE, in_map_iff. unfold occupied. split.
    - intros (i & E & Hi). apply (Permutation_in _ HP), in_seq in Hi. exists i. split; [lia|exact E].
    - intros (i & Hi & E). exists i. split; [exact E|]. apply (Permutation_in _ (Permutation_sym HP)), in_seq. lia.
  Qed.
  Lemma occupied_dec c : {occupied np ijk c} + {~ occupied np ijk c}.
  Proof.
    destruct (in_dec Nat.eq_dec c sijk) as [H|H]; [left|right]; rewrite <- occupied_in; exact H.
  Qed.

  Lemma keysum_cellsum w c : keysum sijk (map w sid) c = cellsum np ijk w c.
  Proof.
    destruct sorted_facts as (HP & HE & _). unfold keysum, cellsum. rewrite HE.
    replace (map (fun kv : nat * R => if (fst kv =? c)%nat then snd kv else 0) (combine (map ijk sid) (map w sid)))
      with (map (fun i => if (ijk i =? c)%nat then w i else 0) sid).
    - rewrite (lsumR_map_perm _ _ _ HP). apply lsumR_seq.
    - clear. induction sid as [|x l IH]; [reflexivity|]. cbn. f_equal. exact IH.
  Qed.

  Lemma sums_spec w : NoDup (map fst (run_sums sijk (map w sid))) /\
    (forall c, In c (map fst (run_sums sijk (map w sid))) <-> occupied np ijk c) /\
    (forall c, occupied np ijk c -> lookup c (run_sums sijk (map w sid)) = Some (cellsum np ijk w c)) /\
    (forall c, ~ occupied np ijk c -> lookup c (run_sums sijk (map w sid)) = None).
  Proof.
    destruct sorted_facts as (HP & HE & HS).
    assert (Hl : length sijk = length (map w sid)) by (rewrite HE, !map_length; reflexivity).
    destruct (run_sums_spec sijk (map w sid) Hl HS) as (R1 & R2 & R3 & R4).
    split; [exact R1|]. split; [intros c; rewrite R2; apply occupied_in|]. split; intros c Hc.
    - rewrite R3 by (apply occupied_in; exact Hc). rewrite keysum_cellsum. reflexivity.
    - apply R4. rewrite occupied_in. exact Hc.
  Qed.

  (** scattering per-cell results: only occupied cells are changed, each by the result for that cell *)
  Lemma scatter_sums f g w base c :
    scatter f (map (fun kv => (fst kv, g (fst kv) (snd kv))) (run_sums sijk (map w sid))) base c =
    if occupied_dec c then f (base c) (g c (cellsum np ijk w c)) else base c.
  Proof.
    destruct (sums_spec w) as (R1 & R2 & R3 & R4).
    rewrite scatter_spec.
    - rewrite lookup_map. destruct (occupied_dec c) as [H|H]; [rewrite R3 by exact H|rewrite R4 by exact H]; reflexivity.
    - rewrite map_map. exact R1.
  Qed.
  Lemma scatter_sums_plain f w base c :
    scatter f (run_sums sijk (map w sid)) base c =
    if occupied_dec c then f (base c) (cellsum np ijk w c) else base c.
  Proof.
    destruct (sums_spec w) as (R1 & R2 & R3 & R4). rewrite scatter_spec by exact R1.
    destruct (occupied_dec c) as [H|H]; [rewrite R3 by exact H|rewrite R4 by exact H]; reflexivity.
  Qed.

  Definition per_air (specific : bool) (dv rhod : nat -> R) (c : nat) (x : R) : R :=
    if specific then x / dv c / rhod c else x.
  Lemma moms_calc_alt sp dv rhod nf x xp :
    moms_calc sp dv rhod sijk sid nf x xp =
    map (fun kv => (fst kv, per_air sp dv rhod (fst kv) (snd kv)))
      (run_sums sijk (map (fun id => moment_counter xp (nf id) (x id)) sid)).
  Proof.
    unfold moms_calc, per_air. destruct sp; [reflexivity|].
    rewrite <- (map_id (run_sums _ _)) at 1. apply map_ext. intros (k, v). reflexivity.
  Qed.
  Lemma scatter_moms sp dv rhod nf x xp f base c :
    scatter f (moms_calc sp dv rhod sijk sid nf x xp) base c =
    if occupied_dec c then f (base c) (per_air sp dv rhod c (cellsum np ijk (fun i => moment_counter xp (nf i) (x i)) c)) else base c.
  Proof. rewrite moms_calc_alt. apply (scatter_sums f (per_air sp dv rhod)). Qed.

  Lemma moms_length sp dv rhod nf x xp nc : (forall i, (i < np)%nat -> (ijk i < nc)%nat) ->
    length (moms_calc sp dv rhod sijk sid nf x xp) = nc -> forall c, (c < nc)%nat -> occupied np ijk c.
  Proof.
    intros Hb Hl c Hc. rewrite moms_calc_alt, map_length in Hl.
    destruct (sums_spec (fun id => moment_counter xp (nf id) (x id))) as (R1 & R2 & _).
    set (ks := map fst (run_sums sijk (map (fun id => moment_counter xp (nf id) (x id)) sid))) in *.
    apply R2. assert (HI : incl ks (seq 0 nc)).
    { intros k Hk. apply R2 in Hk. destruct Hk as (i & Hi & <-). apply in_seq. specialize (Hb i Hi). lia. }
    apply (NoDup_length_incl R1) in HI; [|rewrite seq_length; unfold ks; rewrite map_length; lia].
    apply HI, in_seq. lia.
  Qed.
End Sorted.

Lemma cellsum_ext np ijk w w' c : (forall i, (i < np)%nat -> ijk i = c -> w i = w' i) -> cellsum np ijk w c = cellsum np ijk w' c.
Proof.
  unfold cellsum. intros H. induction np as [|k IH]; [reflexivity|]. cbn. rewrite IH by (intros; apply H; auto; lia).
  destruct (Nat.eqb_spec (ijk k) c); [rewrite (H k) by (auto; lia)|]; reflexivity.
Qed.
Lemma cellsum_plus np ijk w w' c : cellsum np ijk (fun i => w i + w' i) c = cellsum np ijk w c + cellsum np ijk w' c.
Proof.
  unfold cellsum. induction np as [|k IH]; cbn; [lra|]. rewrite IH. destruct (ijk k =? c)%nat; lra.
Qed.
Lemma cellsum_scal np ijk w a c : cellsum np ijk (fun i => a * w i) c = a * cellsum np ijk w c.
Proof.
  unfold cellsum. induction np as [|k IH]; cbn; [lra|]. rewrite IH. destruct (ijk k =? c)%nat; lra.
Qed.
Lemma cellsum_empty np ijk w c : ~ occupied np ijk c -> cellsum np ijk w c = 0.
Proof.
  intros H. unfold cellsum. induction np as [|k IH]; [reflexivity|]. cbn. rewrite IH.
  - destruct (Nat.eqb_spec (ijk k) c) as [E|]; [|lra]. exfalso. apply H. exists k. split; [lia|exact E].
  - intros (i & Hi & E). apply H. exists i. split; [lia|exact E].
Qed.
