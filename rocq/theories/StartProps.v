(** * C100: how simulations start, alone and in parallel *)
From Coq Require Import String Ascii List Arith ZArith Bool Lia Decimal DecimalNat DecimalString.
From Verif Require Import StartModel.
From Verif Require CourModel.
Import ListNotations.
Local Open Scope string_scope.

(** ** Specification *)
(** a number as a launcher writes it *)
Definition dec (n : nat) : string := NilZero.string_of_uint (Nat.to_uint n).
(** the launchers recognised: the variables with rank and size *)
Inductive launcher := mpich | openmpi | lam | mvapich2.
Definition rank_var (l : launcher) : string :=
  match l with mpich => "PMI_RANK" | openmpi => "OMPI_COMM_WORLD_RANK" | lam => "LAMRANK" | mvapich2 => "MV2_COMM_WORLD_RANK" end.
Definition size_var (l : launcher) : string :=
  match l with mpich => "PMI_SIZE" | openmpi => "OMPI_COMM_WORLD_SIZE" | lam => "LAMSIZE" | mvapich2 => "MV2_COMM_WORLD_SIZE" end.
(** the environment is the one that launcher [l] gives to process [r] of [n] *)
Definition launched_by (l : launcher) (r n : nat) (e : env) : Prop := e (rank_var l) = Some (dec r) /\ e (size_var l) = Some (dec n).
(** no launcher sets a rank without a size *)
Definition complete (e : env) : Prop := forall l, e (rank_var l) <> None -> e (size_var l) <> None.
(** nothing in the environment tells of other processes *)
Definition alone (e : env) : Prop := forall l, e (rank_var l) = None \/ exists r, launched_by l r 1 e.

(** a simulation of [P] processes, process r having D r sub-domains (devices, or one). The sub-domain to the right of
    sub-domain d of process r, the last one being followed by the first *)
Definition right_of (P : nat) (D : nat -> nat) (p : nat * nat) : nat * nat :=
  let (r, d) := p in if (S d <? D r)%nat then (r, S d) else if (S r <? P)%nat then (S r, O) else (O, O).
(** how two neighbours must be joined: at the walls of the domain openly if asked for; within one process through the copies
    between devices (in memory if there is only one sub-domain); between processes through MPI *)
Definition joint (osw : bool) (P : nat) (D : nat -> nat) (p : nat * nat) : bcond :=
  let q := right_of P D p in
  if osw && (match q with (O, O) => true | _ => false end) then open
  else if Nat.eqb (fst p) (fst q) then (if (D (fst p) =? 1)%nat then sharedmem else distmem_cuda) else distmem_mpi.

(** ** atoi reads what launchers write *)
Lemma digits_uint d : forall a, atoi_digits (Z.of_nat a) (NilEmpty.string_of_uint d) = Z.of_nat (Nat.of_uint_acc d a).
Proof.
  induction d as [|d IH|d IH|d IH|d IH|d IH|d IH|d IH|d IH|d IH|d IH]; intros a; [reflexivity|..];
  (cbn [NilEmpty.string_of_uint atoi_digits Nat.of_uint_acc];
   match goal with |- context[digit ?c] => let v := eval vm_compute in (digit c) in change (digit c) with v end;
   rewrite <- IH; f_equal; rewrite ?Nat.tail_mul_spec; lia).
Qed.
Lemma atoi_dec n : atoi (dec n) = Z.of_nat n.
Proof.
  unfold dec. pose proof (Unsigned.of_to n) as O. unfold Nat.of_uint in O.
  destruct (Nat.to_uint n) as [|d|d|d|d|d|d|d|d|d|d] eqn:E; [cbn in O; subst n; reflexivity|..];
  (rewrite <- O, <- digits_uint; reflexivity).
Qed.

(** ** Recognition *)
Lemma ran_def e : ran_with_mpi e =
  or_else (or_else (or_else (one_launcher e (rank_var mpich) (size_var mpich)) (one_launcher e (rank_var openmpi) (size_var openmpi)))
    (one_launcher e (rank_var lam) (size_var lam))) (one_launcher e (rank_var mvapich2) (size_var mvapich2)).
Proof. reflexivity. Qed.
Lemma one_complete e l : complete e -> exists b, one_launcher e (rank_var l) (size_var l) = Some b.
Proof.
  intros C. unfold one_launcher. specialize (C l). destruct (e (rank_var l)); [|eauto]. destruct (e (size_var l)); [eauto|].
  exfalso. apply C; congruence.
Qed.
Lemma one_launched e l r n : launched_by l r n e -> one_launcher e (rank_var l) (size_var l) = Some (1 <? Z.of_nat n)%Z.
Proof. intros [A B]. unfold one_launcher. now rewrite A, B, atoi_dec. Qed.

Theorem C100_launch_seen e l r n :
  complete e -> launched_by l r n e -> (1 < n)%nat -> ran_with_mpi e = Some true.
Proof.
  intros C L N. pose proof (one_launched _ _ _ _ L) as X.
  replace (1 <? Z.of_nat n)%Z with true in X by (symmetry; apply Z.ltb_lt; lia).
  rewrite ran_def. destruct (one_complete e mpich C) as [a A], (one_complete e openmpi C) as [b B], (one_complete e lam C) as [c Cc], (one_complete e mvapich2 C) as [d Dd].
  rewrite A, B, Cc, Dd. destruct l; rewrite X in *; injection A || idtac; 
  [injection A as <-|injection B as <-|injection Cc as <-|injection Dd as <-]; destruct a || idtac; try destruct b; try destruct c; try destruct d; reflexivity.
Qed.
Theorem C100_alone_seen e : alone e -> ran_with_mpi e = Some false.
Proof.
  intros A. assert (X : forall l, one_launcher e (rank_var l) (size_var l) = Some false).
  { intros l. destruct (A l) as [N|[r L]]; [unfold one_launcher; now rewrite N|now rewrite (one_launched _ _ _ _ L)]. }
  rewrite ran_def, !X. reflexivity.
Qed.

(** ** Refusals *)
(** a library without MPI never starts in a parallel run; Python never does *)
Theorem C100_refused B osw H b l r n :
  complete (h_env H) -> launched_by l r n (h_env H) -> (1 < n)%nat -> h_devs H <> Some O ->
  py_factory B osw H b = Throws /\ (b_mpi B = false -> factory B osw H b = Throws).
Proof.
  intros C L N D. pose proof (C100_launch_seen _ _ _ _ C L N) as R. split; [unfold py_factory; now rewrite R|].
  intros M. assert (K : forall x, ctor B osw H x = Throws) by (intros x; unfold ctor; now rewrite M, R).
  destruct b; cbn [factory]; [reflexivity|apply K|destruct (b_openmp B); [apply K|reflexivity]|destruct (b_cuda B); [apply K|reflexivity]|].
  destruct (b_multi B); [|reflexivity]. unfold ctor_multi. destruct (h_devs H) as [k|]; [|reflexivity].
  rewrite M, K. cbn [andb]. destruct (Nat.ltb_spec 0 k) as [|Y]; [reflexivity|]. exfalso. apply D. f_equal. lia.
Qed.
(** what is created is what was asked for, and it was compiled in *)
Theorem C100_backend B osw H b b' ends : factory B osw H b = Object b' ends ->
  b' = b /\ match b with undefined => False | serial => True | OpenMP => b_openmp B = true | CUDA => b_cuda B = true | multi_CUDA => b_multi B = true end.
Proof.
  assert (K : forall x, ctor B osw H x = Object b' ends -> b' = x).
  { intros x. unfold ctor. destruct (b_mpi B); [|destruct (ran_with_mpi _) as [[]|]]; intros E; try discriminate; now injection E. }
  destruct b; cbn [factory].
  - discriminate.
  - intros E. split; [now apply K|exact I].
  - destruct (b_openmp B); [|discriminate]. intros E. split; [now apply K|reflexivity].
  - destruct (b_cuda B); [|discriminate]. intros E. split; [now apply K|reflexivity].
  - destruct (b_multi B); [|discriminate]. unfold ctor_multi. destruct (h_devs H) as [k|]; [|discriminate].
    destruct (b_mpi B && negb (h_threads H)); [discriminate|].
    destruct (ctor B osw H CUDA) as [| |x [|bc [|]]]; try discriminate.
    + destruct (0 <? k)%nat; [discriminate|]. intros E. injection E as <- _. now split.
    + destruct (0 <? k)%nat; [discriminate|]. intros E. injection E as <- _. now split.
    + intros E. injection E as <- _. now split.
Qed.
(** and in a process that is alone nothing that was compiled in is refused, but for the refusals of the multi-GPU backend *)
Theorem C100_not_refused B osw H b :
  alone (h_env H) -> h_devs H <> None -> h_threads H = true ->
  match b with undefined => False | serial => True | OpenMP => b_openmp B = true | CUDA => b_cuda B = true | multi_CUDA => b_multi B = true end ->
  exists ends, factory B osw H b = Object b ends.
Proof.
  intros A D T. pose proof (C100_alone_seen _ A) as R.
  assert (K : forall x, exists bc, ctor B osw H x = Object x [bc]) by (intros x; unfold ctor; rewrite R; destruct (b_mpi B); eauto).
  destruct b; cbn [factory]; intros X; [now destruct X|..]; rewrite ?X.
  - destruct (K serial) as [bc ->]. eauto.
  - destruct (K OpenMP) as [bc ->]. eauto.
  - destruct (K CUDA) as [bc ->]. eauto.
  - unfold ctor_multi. destruct (h_devs H) as [k|]; [|now destruct D]. rewrite T, andb_false_r. destruct (K CUDA) as [bc ->]. eauto.
Qed.

(** ** Ends of sub-domains *)
Lemma nth_map_seq {A} (f : nat -> A) n d x : (d < n)%nat -> nth d (map f (seq 0 n)) x = f d.
Proof. intros L. rewrite nth_indep with (d' := f O) by (rewrite map_length, seq_length; lia). rewrite map_nth with (f := f), seq_nth by lia. reflexivity. Qed.

(** the ends of all sub-domains of a run, if it is of one kind of backend everywhere *)
Definition starts (B : build) (osw : bool) (b : backend) (Hs : nat -> host) (P : nat) (ends : nat -> list (bcond * bcond)) : Prop :=
  forall r, (r < P)%nat -> h_size (Hs r) = P /\ h_rank (Hs r) = r /\ factory B osw (Hs r) b = Object b (ends r) /\ ends r <> [].
Lemma ends_spec B osw b H P r es x : h_size H = P -> h_rank H = r -> (r < P)%nat -> (b_mpi B = true \/ P = 1%nat) ->
  factory B osw H b = Object b es -> forall d, (d < length es)%nat -> nth d es x = dev_ends osw (bcond_ctor osw r P) d (length es).
Proof.
  intros HS HR RP M F.
  assert (K : forall y es', ctor B osw H y = Object y es' -> es' = [bcond_ctor osw r P]).
  { intros y es'. unfold ctor. destruct (b_mpi B) eqn:EM.
    - intros E. injection E as <-. now rewrite HS, HR.
    - destruct M as [|M]; [discriminate|]. destruct (ran_with_mpi _) as [[]|]; intros E; try discriminate. injection E as <-.
      replace r with O by lia. now rewrite M. }
  assert (K1 : forall y, ctor B osw H y = Object y es -> forall d, (d < length es)%nat -> nth d es x = dev_ends osw (bcond_ctor osw r P) d (length es)).
  { intros y E. rewrite (K _ _ E). cbn [length]. intros d L. replace d with O by lia. reflexivity. }
  destruct b; cbn [factory] in F.
  - discriminate.
  - eauto.
  - destruct (b_openmp B); [eauto|discriminate].
  - destruct (b_cuda B); [eauto|discriminate].
  - destruct (b_multi B); [|discriminate]. unfold ctor_multi in F. destruct (h_devs H) as [k|]; [|discriminate].
    destruct (b_mpi B && negb (h_threads H)); [discriminate|].
    assert (Y : forall z, ctor B osw H CUDA = z -> z = Undef \/ z = Throws \/ exists l, z = Object CUDA l).
    { intros z <-. unfold ctor. destruct (b_mpi B); [eauto|]. destruct (ran_with_mpi _) as [[]|]; eauto. }
    destruct (ctor B osw H CUDA) as [| |y l] eqn:E.
    + destruct (0 <? k)%nat; [discriminate|]. injection F as <-. intros d L. cbn in L. lia.
    + destruct (0 <? k)%nat; [discriminate|]. injection F as <-. intros d L. cbn in L. lia.
    + destruct (Y _ eq_refl) as [Q|[Q|[l' Q]]]; try discriminate. injection Q as -> <-. rewrite (K _ _ E) in F. injection F as <-.
      rewrite map_length, seq_length. intros d L. exact (nth_map_seq (fun d0 => dev_ends osw (bcond_ctor osw r P) d0 k) k d x L).
Qed.

Theorem C100_ends_fit B osw b Hs P ends x :
  (b_mpi B = true \/ P = 1%nat) -> starts B osw b Hs P ends ->
  let D := fun r => length (ends r) in
  forall r d, (r < P)%nat -> (d < D r)%nat ->
    let '(r', d') := right_of P D (r, d) in
    snd (nth d (ends r) x) = joint osw P D (r, d) /\ fst (nth d' (ends r') x) = joint osw P D (r, d).
Proof.
  intros M S D r d LR LD.
  assert (E : forall r d, (r < P)%nat -> (d < D r)%nat -> nth d (ends r) x = dev_ends osw (bcond_ctor osw r P) d (D r)).
  { intros q k Lq Lk. destruct (S q Lq) as (A1 & A2 & A3 & _). now apply (ends_spec B osw b (Hs q) P q (ends q) x). }
  assert (Pos : forall r, (r < P)%nat -> (0 < D r)%nat).
  { intros q Lq. destruct (S q Lq) as (_ & _ & _ & A). unfold D. destruct (ends q); [now destruct A|cbn; lia]. }
  clearbody D. clear S M.
  destruct (right_of P D (r, d)) as [r' d'] eqn:ER.
  assert (LR' : (r' < P)%nat /\ (d' < D r')%nat).
  { unfold right_of in ER. destruct (Nat.ltb_spec (S d) (D r)); [injection ER as <- <-; lia|].
    destruct (Nat.ltb_spec (S r) P); injection ER as <- <-; split; try lia; apply Pos; lia. }
  rewrite (E r d LR LD), (E r' d' (proj1 LR') (proj2 LR')). unfold joint. rewrite ER. cbn [fst snd]. clear E.
  pose proof (Pos r LR) as P1. clear Pos. unfold right_of in ER. unfold dev_ends, bcond_ctor.
  destruct (Nat.ltb_spec (S d) (D r)) as [A|A].
  - injection ER as <- <-. rewrite Nat.eqb_refl. cbn [andb fst snd].
    replace (1 <? D r)%nat with true by (symmetry; apply Nat.ltb_lt; lia).
    replace (D r =? 1)%nat with false by (symmetry; apply Nat.eqb_neq; lia).
    replace (S d =? 0)%nat with false by reflexivity.
    replace (d =? D r - 1)%nat with false by (symmetry; apply Nat.eqb_neq; lia).
    destruct osw, (1 <? P)%nat, (r =? 0)%nat, (r =? P - 1)%nat, (d =? 0)%nat, (S d =? D r - 1)%nat, r; cbn; split; reflexivity.
  - assert (ED : d = (D r - 1)%nat) by lia.
    destruct (Nat.ltb_spec (S r) P) as [A2|A2]; injection ER as <- <-.
    + replace (1 <? P)%nat with true by (symmetry; apply Nat.ltb_lt; lia).
      replace (r =? S r)%nat with false by (symmetry; apply Nat.eqb_neq; lia).
      replace (r =? P - 1)%nat with false by (symmetry; apply Nat.eqb_neq; lia).
      rewrite andb_false_r. replace (S r =? 0)%nat with false by reflexivity. rewrite Nat.eqb_refl, ED, Nat.eqb_refl.
      assert (Z0 : (1 <? D r)%nat = true -> (D r - 1 =? 0)%nat = false) by (rewrite Nat.ltb_lt, Nat.eqb_neq; lia).
      assert (Z1 : (1 <? D (S r))%nat = true -> (0 =? D (S r) - 1)%nat = false) by (rewrite Nat.ltb_lt, Nat.eqb_neq; lia).
      destruct (1 <? D r)%nat eqn:G1; [rewrite (Z0 eq_refl)|]; destruct (1 <? D (S r))%nat eqn:G2; try rewrite (Z1 eq_refl);
      destruct osw, (r =? 0)%nat, (S r =? P - 1)%nat; cbn; split; reflexivity.
    + assert (EP : P = S r) by lia. subst P. replace (S r - 1)%nat with r by lia. rewrite andb_true_r, Nat.eqb_refl, ED, Nat.eqb_refl. rewrite Nat.eqb_refl.
      assert (Z0 : (1 <? D r)%nat = true -> (D r - 1 =? 0)%nat = false) by (rewrite Nat.ltb_lt, Nat.eqb_neq; lia).
      assert (Z2 : (D r =? 1)%nat = negb (1 <? D r)%nat) by (destruct (Nat.eqb_spec (D r) 1), (Nat.ltb_spec 1 (D r)); cbn; lia).
      destruct r as [|r].
      * cbn [Nat.eqb]. rewrite Z2. destruct (1 <? D 0)%nat eqn:G1; [rewrite (Z0 eq_refl)|]; destruct osw; cbn; split; reflexivity.
      * replace (1 <? S (S r))%nat with true by reflexivity. replace (S r =? 0)%nat with false by reflexivity.
        destruct (1 <? D (S r))%nat eqn:G1; [rewrite (Z0 eq_refl)|]; destruct (1 <? D 0)%nat eqn:G2;
        destruct osw; cbn; split; reflexivity.
Qed.

(** the ends agree with those assumed in the exchanges between processes (CourModel) *)
Theorem C100_ends_as_exchanged osw r P : (1 < P)%nat -> (r < P)%nat ->
  CourModel.bcond_of osw r P = (is_mpi (fst (bcond_ctor osw r P)), is_mpi (snd (bcond_ctor osw r P))).
Proof.
  intros A L. unfold CourModel.bcond_of, bcond_ctor. replace (1 <? P)%nat with true by (symmetry; apply Nat.ltb_lt; lia).
  destruct osw; [|reflexivity]. cbn [negb]. destruct (r =? 0)%nat; [reflexivity|]. destruct (r =? P - 1)%nat; reflexivity.
Qed.

(** ** What is not so *)
Definition set (k v : string) (e : env) : env := fun x => if String.eqb x k then Some v else e x.
Definition nothing : env := fun _ => None.
(** a launcher that tells processes apart by other variables (here PMIx): without MPI in the library each process silently simulates
    the whole domain, whatever its rank is *)
Theorem C100_other_launchers_refuted :
  forall n r, (1 < n)%nat -> (r < n)%nat ->
  let H := mk_host (set "PMIX_RANK" (dec r) (set "SLURM_NTASKS" (dec n) (set "SLURM_PROCID" (dec r) nothing))) r n true None in
  factory (mk_build false false false true) false H OpenMP = Object OpenMP [(sharedmem, sharedmem)] /\
  py_factory (mk_build false false false true) false H OpenMP = Object OpenMP [(sharedmem, sharedmem)].
Proof. intros n r _ _. split; reflexivity. Qed.
(** a rank without a size is undefined behaviour, even if another launcher's variables are complete *)
Theorem C100_rank_alone_refuted :
  let H := mk_host (set "PMI_RANK" (dec 1) (set "OMPI_COMM_WORLD_RANK" (dec 1) (set "OMPI_COMM_WORLD_SIZE" (dec 2) nothing))) 1 2 true None in
  factory (mk_build false false false true) false H OpenMP = Undef.
Proof. reflexivity. Qed.

(** ** An instance: 12 processes of OpenMPI; with MPI and two, then three devices in each *)
Definition env12 (r : nat) : env := set (rank_var openmpi) (dec r) (set (size_var openmpi) (dec 12) nothing).
Lemma env12_launched r : launched_by openmpi r 12 (env12 r) /\ complete (env12 r).
Proof. split; [split; reflexivity|]. intros [] H; first [discriminate | now destruct H]. Qed.
Definition hosts12 (r : nat) : host := mk_host (env12 r) r 12 true (Some (if (r <? 6)%nat then 2 else 3)%nat).
Theorem C100_instance :
  (forall r, factory (mk_build false true true true) true (hosts12 r) CUDA = Throws) /\
  (forall r, py_factory (mk_build true true true true) true (hosts12 r) serial = Throws) /\
  exists ends, starts (mk_build true true true true) true multi_CUDA hosts12 12 ends /\
    ends O = [(open, distmem_cuda); (distmem_cuda, distmem_mpi)] /\
    ends 7%nat = [(distmem_mpi, distmem_cuda); (distmem_cuda, distmem_cuda); (distmem_cuda, distmem_mpi)] /\
    ends 11%nat = [(distmem_mpi, distmem_cuda); (distmem_cuda, distmem_cuda); (distmem_cuda, open)].
Proof.
  split; [|split].
  - intros r. destruct (env12_launched r) as [L C].
    refine (proj2 (C100_refused (mk_build false true true true) true (hosts12 r) CUDA openmpi r 12 C L _ _) eq_refl); [lia|cbn [h_devs hosts12]; destruct (r <? 6)%nat; discriminate].
  - intros r. destruct (env12_launched r) as [L C].
    refine (proj1 (C100_refused (mk_build true true true true) true (hosts12 r) serial openmpi r 12 C L _ _)); [lia|cbn [h_devs hosts12]; destruct (r <? 6)%nat; discriminate].
  - exists (fun r => match factory (mk_build true true true true) true (hosts12 r) multi_CUDA with Object _ es => es | _ => [] end).
    split; [|repeat split].
    intros r Lr. repeat split; do 12 (destruct r as [|r]; [try reflexivity; discriminate|]); lia.
Qed.
Print Assumptions C100_launch_seen.
Print Assumptions C100_alone_seen.
Print Assumptions C100_refused.
Print Assumptions C100_backend.
Print Assumptions C100_not_refused.
Print Assumptions C100_ends_fit.
Print Assumptions C100_ends_as_exchanged.
Print Assumptions C100_other_launchers_refuted.
Print Assumptions C100_rank_alone_refuted.
Print Assumptions C100_instance.
