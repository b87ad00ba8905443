(** C91: whole runs of the kinematic model with super-droplets: which command lines are carried out, when others are refused, and which processes run. *)
From Coq Require Import String List Arith NArith ZArith Lia Reals Lra Bool.
From Verif Require Import Base BaseProofs ProtoModel ProtoProps ProtoProps2 SanityProps ProtoProps3 LgrModel.
From Verif Require KinModel KinDrive KernelModel.
Import ListNotations.
Local Open Scope R_scope.

(** * Specification *)
Local Open Scope string_scope.
(** names with which the kinematic model works *)
Definition kernels_usable : list string :=
  ["geometric"; "long"; "hall"; "hall_davis_no_waals"; "golovin"; "vohl_davis_no_waals"; "hall_pinsky_cumulonimbus"; "hall_pinsky_stratocumulus"].
(** ... of those it offers (--help) *)
Definition kernels_offered : list string := kernels_usable ++ ["onishi_hall"; "onishi_hall_davis_no_waals"].
Definition velocities : list string := ["khvorostyanov_spherical"; "khvorostyanov_nonspherical"; "beard76"; "beard77"; "beard77fast"].
Definition schemes : list string := ["implicit"; "euler"; "pred_corr"].
Record sensible (b : build) (s : KinModel.setup) (c : cmd) : Prop := {
  s_backend : backend c = "serial" \/ (backend c = "OpenMP" /\ with_OpenMP b = true) \/ (backend c = "CUDA" /\ with_CUDA b = true);
  s_conc : g_sd_conc c <> 0%N;
  s_sstp : (1 <= g_sstp_cond c)%Z;
  s_dt : KinModel.dt_s s <> 0;
  s_kernel : In (kernel c) kernels_usable;
  s_velocity : In (terminal_velocity c) velocities;
  s_chem : chem_switch c = lgrngn_chem c;                        (* chemistry is allowed by the driver that has trace gases, and by it only *)
  s_mpi : chem_switch c = true -> with_MPI b = false;
  s_chem_opts : (0 < g_nt c)%nat -> chem_dsl c = true \/ chem_dsc c = true \/ chem_rct c = true -> chem_switch c = true;
  s_scheme : asserts b = true -> In (adve_scheme c) schemes
}.
Local Close Scope string_scope.
(** the grid has at least two points in each direction and positive extent *)
Definition gridded (s : KinModel.setup) (c : cmd) : Prop :=
  (2 <= g_nx c)%Z /\ (2 <= g_nz c)%Z /\ 0 < KinModel.X_dom s /\ 0 < KinModel.Z_dom s.
(** precipitation is suppressed in step k *)
Definition spinning_up (c : cmd) (k : nat) : Prop := coal c = true /\ sedi c = true /\ (Z.of_nat k < g_spinup c)%Z.
(** the calls made before step k *)
Definition before_step (big : bool) (c : cmd) (raised : nat -> bool) (k : nat) : list call :=
  Init (init_args big c) :: flat_map (step_calls c raised) (seq 0 k).
(** what the two calls of step k do *)
Definition sync_ops (b : build) (s : KinModel.setup) (big : bool) (c : cmd) (raised : nat -> bool) (k : nat) : list op :=
  ops_of (opts_init_of b s c) (before_step big c raised k) (StepSync (sync_args c) (opts_at c k)).
Definition async_ops (b : build) (s : KinModel.setup) (big : bool) (c : cmd) (raised : nat -> bool) (k : nat) : list op :=
  ops_of (opts_init_of b s c) (before_step big c raised k ++ [StepSync (sync_args c) (opts_at c k)]) (StepAsync (opts_at c k) (raised k)).

(** * Proofs *)
Lemma existsb_In x l : existsb (fun v => String.eqb x v) l = true <-> In x l.
Proof.
  rewrite existsb_exists. split.
  - intros (v & H & E). apply String.eqb_eq in E. now subst.
  - intros H. exists x. split; [exact H|apply String.eqb_refl].
Qed.
Ltac str :=
  repeat match goal with
  | |- context [String.eqb ?a ?b] => destruct (String.eqb_spec a b)
  end.
Lemma backend_spec b c : factory b (backend_of c) = true <->
  (backend c = "serial" \/ (backend c = "OpenMP" /\ with_OpenMP b = true) \/ (backend c = "CUDA" /\ with_CUDA b = true))%string.
Proof.
  unfold backend_of. str; cbn [factory]; intuition congruence.
Qed.
Lemma kernel_spec c o table : coal_sw o = true -> turb_coal_sw o = false ->
  ((match kernel_of c with Some _ => false | None => true end) = false /\ kernel_fine c o table = true <-> In (kernel c) kernels_usable).
Proof.
  intros H1 H2. unfold kernel_fine. rewrite H1, H2. cbn [negb orb]. unfold kernel_of, kernels_usable. cbn [In]. cbv zeta.
  str; cbn [KernelModel.init_kernel]; intuition congruence.
Qed.

(** the options of a step *)
Lemma solver_opts c k : exists rh, KinModel.opts (KinModel.solver_at (solver_of c) k) =
  let off := coal c && sedi c && (Z.of_nat k <? g_spinup c)%Z in
  KinModel.Lgrngn (if off then false else coal c) (if off then false else sedi c) rh.
Proof.
  unfold solver_of. set (s0 := KinModel.fresh _ _ _).
  destruct (coal c && sedi c) eqn:E.
  - assert (ES : KinModel.spinup (KinModel.hook_ante_loop s0) = g_spinup c).
    { unfold KinModel.hook_ante_loop. cbn. rewrite E. reflexivity. }
    assert (EV : KinModel.saved (KinModel.hook_ante_loop s0) = (coal c, sedi c)) by reflexivity.
    assert (EO : KinModel.opts (KinModel.hook_ante_loop s0) = if (0 <? g_spinup c)%Z then KinModel.Lgrngn false false (101 / 100) else KinModel.Lgrngn (coal c) (sedi c) 44).
    { unfold KinModel.hook_ante_loop. cbn. rewrite E. cbn. destruct (0 <? g_spinup c)%Z; reflexivity. }
    destruct (Z.ltb_spec (Z.of_nat k) (g_spinup c)) as [L|L]; cbn [andb].
    + destruct (KinDrive.solver_before (KinModel.hook_ante_loop s0) k) as (-> & _); [rewrite ES; exact L|]. rewrite EO.
      replace (0 <? g_spinup c)%Z with true by (symmetry; apply Z.ltb_lt; lia). eexists. reflexivity.
    + destruct (Z.ltb_spec (g_spinup c) 0) as [N|N].
      * destruct (KinDrive.solver_never (KinModel.hook_ante_loop s0) k) as (-> & _); [rewrite ES; exact N|]. rewrite EO.
        replace (0 <? g_spinup c)%Z with false by (symmetry; apply Z.ltb_ge; lia). eexists. reflexivity.
      * destruct (KinDrive.solver_after (KinModel.hook_ante_loop s0) k) as (-> & _); [rewrite ES; lia|]. rewrite ES, EV, EO.
        destruct (Z.eqb_spec (g_spinup c) 0) as [->|NE]; [eexists; reflexivity|].
        replace (0 <? g_spinup c)%Z with true by (symmetry; apply Z.ltb_lt; lia). eexists. reflexivity.
  - cbn [andb].
    assert (ES : KinModel.spinup (KinModel.hook_ante_loop s0) = 0%Z).
    { unfold KinModel.hook_ante_loop. cbn. rewrite E. reflexivity. }
    destruct (KinDrive.solver_after (KinModel.hook_ante_loop s0) k) as (-> & _); [rewrite ES; lia|]. rewrite ES. cbn [Z.eqb].
    exists 44. unfold KinModel.hook_ante_loop. cbn. rewrite E. reflexivity.
Qed.
Lemma opts_coal c k : o_coal (opts_at c k) = if coal c && sedi c && (Z.of_nat k <? g_spinup c)%Z then false else coal c.
Proof. unfold opts_at. destruct (solver_opts c k) as (rh & ->). reflexivity. Qed.
Lemma opts_sedi c k : o_sedi (opts_at c k) = if coal c && sedi c && (Z.of_nat k <? g_spinup c)%Z then false else sedi c.
Proof. unfold opts_at. destruct (solver_opts c k) as (rh & ->). reflexivity. Qed.
Lemma opts_rest c k : let p := opts_at c k in
  o_adve p = adve c /\ o_subs p = false /\ o_cond p = cond c /\ o_src p = false /\ o_rlx p = false /\ o_rcyc p = rcyc c /\
  o_turb_adve p = false /\ o_turb_cond p = false /\ o_turb_coal p = false /\ o_ice_nucl p = false /\
  o_chem_dsl p = chem_dsl c /\ o_chem_dsc p = chem_dsc c /\ o_chem_rct p = rct_at c k /\ o_dt p = -1.
Proof. cbv zeta. unfold opts_at. destruct (solver_opts c k) as (rh & ->). cbv zeta. repeat split. Qed.
Lemma spin_spec c k : (coal c && sedi c && (Z.of_nat k <? g_spinup c)%Z = true) <-> spinning_up c k.
Proof. unfold spinning_up. rewrite !andb_true_iff, Z.ltb_lt. tauto. Qed.
(** reactions *)
Lemma spin_of c : KinModel.spinup (solver_of c) = if coal c && sedi c then g_spinup c else 0%Z.
Proof. unfold solver_of, KinModel.hook_ante_loop. cbn. destruct (coal c && sedi c); reflexivity. Qed.
Lemma rct_spec c k : rct_at c k = chem_rct c ||
  (lgrngn_chem c && chem_switch c && coal c && sedi c && (0 <? g_spinup c)%Z && (g_spinup c <=? Z.of_nat k)%Z).
Proof.
  assert (M : forall v x, set_chem c v x = if lgrngn_chem c && chem_switch c && v then true else x).
  { intros v x. unfold set_chem. destruct (lgrngn_chem c), (chem_switch c), v; reflexivity. }
  assert (EN : forall t, ends_spinup c t = coal c && sedi c && negb (g_spinup c =? 0)%Z && (g_spinup c =? t)%Z).
  { intros t. unfold ends_spinup. rewrite spin_of. destruct (coal c && sedi c); cbn [andb]; reflexivity. }
  induction k as [|k IH]; cbn [rct_at]; rewrite EN, !M, ?IH; clear M EN.
  - change (Z.of_nat 0) with 0%Z. generalize (g_spinup c) as sp. intros sp.
    destruct (Z.eqb_spec sp 0), (Z.ltb_spec 0 sp), (Z.leb_spec sp 0); try lia;
      destruct (lgrngn_chem c), (chem_switch c), (coal c), (sedi c), (chem_rct c); reflexivity.
  - generalize (g_spinup c) as sp. intros sp.
    destruct (Z.eqb_spec sp 0), (Z.eqb_spec sp (Z.of_nat (S k))), (Z.ltb_spec 0 sp), (Z.leb_spec sp (Z.of_nat k)), (Z.leb_spec sp (Z.of_nat (S k))); try lia;
      destruct (lgrngn_chem c), (chem_switch c), (coal c), (sedi c), (chem_rct c); reflexivity.
Qed.

Local Arguments vt_known : simpl never.
Local Arguments kernel_of : simpl never.
(** the library's checks *)
Section Run.
Variables (b : build) (s : KinModel.setup) (c : cmd).
Hypothesis G : gridded s c.
Let o := opts_init_of b s c.

Lemma dx_pos : 0 < KinModel.dx s (g_nx c) /\ 0 < KinModel.dz s (g_nz c).
Proof.
  destruct G as (G1 & G2 & G3 & G4). unfold KinModel.dx, KinModel.dz.
  apply IZR_le in G1, G2. split; apply Rdiv_lt_0_compat; lra.
Qed.
Lemma ext_x : (2 <= Z.to_nat (g_nx c))%nat /\ (2 <= Z.to_nat (g_nz c))%nat /\ INR (Z.to_nat (g_nx c)) = IZR (g_nx c) /\ INR (Z.to_nat (g_nz c)) = IZR (g_nz c).
Proof.
  destruct G as (G1 & G2 & _). split; [lia|]. split; [lia|]. split; rewrite INR_IZR_INZ, Z2Nat.id by lia; reflexivity.
Qed.
Lemma dims2 : dims o = 2%nat.
Proof.
  rewrite dims_eq. unfold n_dims, nz1. cbn [o opts_init_of nx ny nz]. destruct ext_x as (H1 & H2 & _).
  destruct (Nat.eqb_spec (Z.to_nat (g_nx c)) 0), (Nat.eqb_spec (Z.to_nat (g_nz c)) 0); try lia. reflexivity.
Qed.
Lemma init_fine big : init_rejects o (init_args big c) = false <->
  (chem_switch c = lgrngn_chem c /\ (chem_switch c = true -> with_MPI b = false) /\ KinModel.dt_s s <> 0 /\ g_sd_conc c <> 0%N /\
   vt_known c = true /\ (match kernel_of c with Some _ => false | None => true end) = false /\ (1 <= g_sstp_cond c)%Z).
Proof.
  rewrite rejects_spec. pose proof dims2 as D. pose proof ext_x as (N1 & N2 & I1 & I2). pose proof dx_pos as (P1 & P2). split.
  - intros (H & _ & _). destruct H. cbn in c_dt, c_one_init, c_coal, c_sstp, c_chem, c_chem_excl.
    unfold on in *. destruct (c_coal eq_refl) as (V & K).
    split. { unfold gases in c_chem. destruct (chem_switch c), (lgrngn_chem c); try reflexivity; discriminate. }
    split. { intros E. destruct (c_chem_excl E) as (_ & _ & _ & M). now destruct (with_MPI b). }
    split; [exact c_dt|]. split. { intros E. apply c_one_init. auto. }
    split. { destruct (vt_known c); [reflexivity|]. exfalso. apply V. reflexivity. }
    split; [|exact c_sstp]. destruct (kernel_of c); [reflexivity|]. exfalso. now apply K.
  - intros (H1 & H2 & H3 & H4 & H5 & H6 & H7). split; [|split; [exact I|unfold mul64; cbn [o opts_init_of sd_const_multi]; rewrite Z.mul_0_r; reflexivity]].
    constructor; unfold on; rewrite ?D; cbn; rewrite ?H5, ?H6; try (intros HH; discriminate HH); try (intros [HH|HH]; discriminate HH); auto.
    + right. repeat split; auto; try lia; discriminate.
    + unfold gases. rewrite H1. now destruct (lgrngn_chem c).
    + intros HH. rewrite (H2 HH). repeat split; auto; discriminate.
    + intros _. unfold extent. cbn. lra.
    + intros _. unfold extent. rewrite Nat.max_r by lia. rewrite I2. unfold KinModel.part_z0, KinModel.part_z1.
      assert (2 <= IZR (g_nz c)) by (destruct G as (_ & Gz & _); now apply IZR_le). nra.
    + intros _. unfold extent. rewrite Nat.max_r by lia. rewrite I1. unfold KinModel.part_x0.
      assert (2 <= IZR (g_nx c)) by (destruct G as (Gz & _); now apply IZR_le). nra.
    + intros (HH & _). contradiction.
    + intros _. split; discriminate.
    + intros _. split; [discriminate|lia].
    + tauto.
    + tauto.
Qed.
Lemma sync_fine : sync_rejects o (sync_args c) = false <-> chem_switch c = lgrngn_chem c.
Proof.
  rewrite sync_rejects_spec. split.
  - intros [_ _ H _]. cbn in H. unfold gases in H. destruct (chem_switch c), (lgrngn_chem c); try reflexivity; discriminate.
  - intros H. constructor; unfold on; cbn.
    + auto.
    + left. repeat split; discriminate.
    + unfold gases. rewrite H. now destruct (lgrngn_chem c).
    + split; [discriminate|]. intros [HH|[HH|HH]]; discriminate.
Qed.
Definition asks (k : nat) : Prop := chem_dsl c = true \/ chem_dsc c = true \/ rct_at c k = true.
Lemma cond_fine k : cond_ok o (opts_at c k) <-> (asks k -> chem_switch c = true).
Proof.
  destruct (opts_rest c k) as (_ & _ & _ & _ & _ & _ & _ & E1 & _ & _ & E2 & E3 & E4 & E5). unfold cond_ok, dt_ok, asks. rewrite E1, E2, E3, E4, E5.
  cbn [o opts_init_of chem_sw turb_cond_sw]. split.
  - intros (_ & H & _). exact H.
  - intros H. split; [discriminate|]. split; [exact H|]. left. lra.
Qed.
Lemma async_fine k : (asks k -> chem_switch c = true) -> async_ok o (opts_at c k).
Proof.
  intros H. destruct (opts_rest c k) as (_ & E0 & _ & E6 & E7 & _ & E8 & E1 & _ & _ & E2 & E3 & E4 & E5). unfold async_ok, async_rejects, dt_ok, src_used.
  rewrite E0, E2, E3, E4, E5, E6, E7, E8. cbn [o opts_init_of chem_sw coal_sw sedi_sw subs_sw turb_adve_sw]. split.
  - rewrite !andb_false_r. cbn [negb andb orb]. rewrite !orb_false_r. destruct (chem_switch c); [apply andb_false_r|]. cbn [negb]. rewrite andb_true_r.
    unfold asks in H. destruct (chem_dsl c), (chem_dsc c), (rct_at c k); try reflexivity; exfalso; (assert (false = true) by (apply H; auto)); discriminate.
  - split; [left; lra|]. split; [intros (HH & _); discriminate|discriminate].
Qed.

(** what the calls lead to *)
Definition fine_step (k : nat) : Prop := asks k -> chem_switch c = true.
Lemma steps_wf raised n : chem_switch c = lgrngn_chem c -> (forall k, (k < n)%nat -> fine_step k) ->
  Forall (well_formed o) (flat_map (step_calls c raised) (seq 0 n)).
Proof.
  intros H1 H2. apply Forall_forall. intros x Hx. apply in_flat_map in Hx. destruct Hx as (k & Hk & Hx). apply in_seq in Hk.
  assert (F : fine_step k) by (apply H2; lia). destruct Hx as [<-|[<-|[]]]; cbn [well_formed].
  - split; [apply sync_fine, H1|apply cond_fine, F].
  - apply async_fine, F.
Qed.
Lemma phase_steps raised n ph : ph = Idle \/ n = O ->
  fold_left (fun ph c => match next ph c with Some ph' => ph' | None => ph end) (flat_map (step_calls c raised) (seq 0 n)) ph = ph.
Proof.
  intros [->| ->]; [|reflexivity]. generalize 0%nat. induction n as [|n IH]; intros m; [reflexivity|]. cbn [seq flat_map step_calls app fold_left next]. apply IH.
Qed.
Lemma phase_before big raised k : phase_after (before_step big c raised k) = Idle.
Proof. unfold phase_after, before_step. cbn [fold_left next]. apply phase_steps. now left. Qed.

Lemma make_app fine l m st n : make o fine (l ++ m) st n =
  match make o fine l st n with (st', None) => make o fine m st' (n + length l) | r => r end.
Proof.
  revert st n. induction l as [|x l IH]; intros st n; cbn [app make length]. { now rewrite Nat.add_0_r. }
  destruct (returns o fine x st); [|reflexivity]. rewrite IH. now rewrite Nat.add_succ_r.
Qed.
Lemma make_run fine l st n : snd (make o fine l st n) = None -> fst (make o fine l st n) = ProtoModel.run o l st.
Proof.
  revert st n. induction l as [|x l IH]; intros st n; cbn [make]; [reflexivity|].
  destruct (returns o fine x st); [|discriminate]. intros H. now rewrite IH.
Qed.
(** after a successful init, a call that is in order and acceptable returns *)
Lemma make_in_order fine h x n : Forall (well_formed o) h -> well_formed o x -> next (phase_after h) x <> None -> (forall a, x <> Init a) ->
  make o fine [x] (ProtoModel.run o h (ProtoModel.fresh o)) n = (ProtoModel.run o (h ++ [x]) (ProtoModel.fresh o), None).
Proof.
  intros H1 H2 H3 H4. destruct (C13_accepted_iff_in_order o h x H1 H2) as ((_ & A) & _). specialize (A H3). unfold accepted in A.
  cbn [make]. unfold returns. rewrite A. rewrite run_snoc. destruct x; cbn [andb]; try reflexivity. exfalso. now apply (H4 a).
Qed.
Lemma make_steps fine big raised n : init_rejects o (init_args big c) = false -> fine = true -> (forall k, (k < n)%nat -> fine_step k) ->
  make o fine (before_step big c raised n) (ProtoModel.fresh o) 0 = (ProtoModel.run o (before_step big c raised n) (ProtoModel.fresh o), None).
Proof.
  intros HI -> HF. assert (HC : chem_switch c = lgrngn_chem c) by (apply (init_fine big) in HI; tauto).
  assert (W : forall k, (k <= n)%nat -> Forall (well_formed o) (before_step big c raised k)).
  { intros k Hk. constructor; [exact HI|]. apply steps_wf; [exact HC|]. intros i Hi. apply HF. lia. }
  induction n as [|n IH].
  - unfold before_step, ProtoModel.run. cbn [seq flat_map make fold_left]. unfold returns. cbn [exec]. unfold ProtoModel.init. cbn [ProtoModel.fresh init_called]. rewrite HI. reflexivity.
  - assert (E : before_step big c raised (S n) = (before_step big c raised n ++ [StepSync (sync_args c) (opts_at c n)]) ++ [StepAsync (opts_at c n) (raised n)]).
    { unfold before_step. rewrite seq_S, flat_map_app. cbn [app flat_map step_calls Nat.add]. rewrite <- app_assoc. reflexivity. }
    assert (Fn : fine_step n) by (apply HF; lia).
    assert (Wn := W n ltac:(lia)).
    assert (W1 : well_formed o (StepSync (sync_args c) (opts_at c n))) by (split; [apply sync_fine, HC|apply cond_fine, Fn]).
    rewrite E, !make_app, IH; [|intros k Hk; apply HF; lia|intros k Hk; apply W; lia].
    rewrite make_in_order; [|exact Wn|exact W1|rewrite phase_before; discriminate|discriminate].
    rewrite make_in_order; [reflexivity| | | |discriminate].
    + apply Forall_app. split; [exact Wn|]. constructor; [exact W1|constructor].
    + exact (async_fine n Fn).
    + unfold phase_after. rewrite fold_left_app. fold (phase_after (before_step big c raised n)). rewrite phase_before. discriminate.
Qed.
End Run.
Section Whole.
Variables (b : build) (s : KinModel.setup) (c : cmd) (table : KernelModel.kernel_name -> list R) (big : bool) (raised : nat -> bool).
Hypothesis G : gridded s c.
Let o := opts_init_of b s c.
Definition unasked : Prop := chem_switch c = false /\ asks c 0.
Lemma fine_all : (asks c 0 -> chem_switch c = true) -> forall k, fine_step c k.
Proof.
  intros H k Hk. destruct (chem_switch c) eqn:E; [reflexivity|]. apply H. unfold asks in *. rewrite rct_spec, E in *.
  rewrite ?andb_false_r in *. cbn [andb] in *. exact Hk.
Qed.
Lemma made : snd (make o (kernel_fine c o table) (calls_of big c raised) (ProtoModel.fresh o) 0) =
  if negb (init_rejects o (init_args big c)) && kernel_fine c o table then
    (if (g_nt c =? 0)%nat then None else if chem_switch c || negb (chem_dsl c || chem_dsc c || rct_at c 0) then None
     else if returns o (kernel_fine c o table) (StepSync (sync_args c) (opts_at c 0)) (ProtoModel.run o (before_step big c raised 0) (ProtoModel.fresh o)) then Some 2%nat else Some 1%nat)
  else Some 0%nat.
Proof.
  change (calls_of big c raised) with (before_step big c raised (g_nt c)).
  destruct (init_rejects o (init_args big c)) eqn:EI; cbn [negb andb].
  { unfold before_step. cbn [make]. unfold returns. cbn [exec]. unfold ProtoModel.init. cbn [ProtoModel.fresh init_called]. rewrite EI. reflexivity. }
  destruct (kernel_fine c o table) eqn:EK.
  2:{ unfold before_step. cbn [make]. unfold returns at 1. rewrite andb_false_r. reflexivity. }
  destruct (Nat.eqb_spec (g_nt c) 0) as [E0|E0].
  { rewrite E0. unfold o. rewrite (make_steps b s c G); auto. intros k Hk. lia. }
  assert (D : (chem_switch c || negb (chem_dsl c || chem_dsc c || rct_at c 0) = true) <-> (asks c 0 -> chem_switch c = true)).
  { unfold asks. destruct (chem_switch c), (chem_dsl c), (chem_dsc c), (rct_at c 0); cbn; intuition congruence. }
  destruct (chem_switch c || negb (chem_dsl c || chem_dsc c || rct_at c 0)) eqn:ED.
  { unfold o. rewrite (make_steps b s c G); auto. intros k _. apply fine_all. now apply D. }
  assert (ES : before_step big c raised (g_nt c) = before_step big c raised 0 ++ step_calls c raised 0 ++ flat_map (step_calls c raised) (seq 1 (g_nt c - 1))).
  { unfold before_step. destruct (g_nt c) as [|n]; [congruence|]. cbn [seq flat_map app]. rewrite Nat.sub_succ, Nat.sub_0_r. reflexivity. }
  rewrite ES. unfold o. rewrite make_app, (make_steps b s c G true big raised 0 EI eq_refl) by (intros; lia). fold o.
  set (st := ProtoModel.run o (before_step big c raised 0) (ProtoModel.fresh o)). cbn [step_calls app make].
  destruct (returns o true (StepSync (sync_args c) (opts_at c 0)) st); [|reflexivity].
  assert (R : async_rejects o (opts_at c 0) = true).
  { unfold async_rejects. destruct (opts_rest c 0) as (_ & _ & _ & _ & _ & _ & _ & _ & _ & _ & -> & -> & -> & _). cbn [o opts_init_of chem_sw].
    apply orb_false_iff in ED. destruct ED as (-> & ED). apply negb_false_iff in ED. rewrite ED. reflexivity. }
  assert (RA : forall st', returns o true (StepAsync (opts_at c 0) (raised 0%nat)) st' = false).
  { intros st'. unfold returns. cbn [exec]. unfold step_async. rewrite R. destruct (negb (now_async st')); reflexivity. }
  rewrite RA. reflexivity.
Qed.
Lemma C91_iff : run_program b s table big c raised = Finished <-> sensible b s c.
Proof.
  unfold run_program. fold o. rewrite made. pose proof (init_fine b s c G big) as HI. fold o in HI.
  pose proof (backend_spec b c) as HB. pose proof (kernel_spec c o table eq_refl eq_refl) as HK.
  assert (HV : vt_known c = true <-> In (terminal_velocity c) velocities) by apply existsb_In.
  assert (HS : scheme_known c = true <-> In (adve_scheme c) schemes) by apply existsb_In.
  assert (HR : rct_at c 0 = chem_rct c).
  { rewrite rct_spec. destruct (Z.ltb_spec 0 (g_spinup c)), (Z.leb_spec (g_spinup c) (Z.of_nat 0)); try lia; rewrite ?andb_false_r, ?orb_false_r; reflexivity. }
  split.
  - destruct (asserts b && negb _) eqn:A1; [discriminate|]. destruct (asserts b && (_ || _)) eqn:A2; [discriminate|].
    destruct (factory b (backend_of c)) eqn:A3; cbn [negb]; [|discriminate]. destruct (asserts b && lgrngn_chem c && negb (chem_switch c)) eqn:A4; [discriminate|].
    destruct (init_rejects o (init_args big c)) eqn:EI; cbn [negb andb]; [discriminate|]. destruct (kernel_fine c o table) eqn:EK; [|discriminate].
    intros HF. destruct (proj1 HI eq_refl) as (J1 & J2 & J3 & J4 & J5 & J6 & J7).
    constructor; auto; try tauto.
    + intros Hn. destruct (Nat.eqb_spec (g_nt c) 0); [lia|]. rewrite HR in HF.
      destruct (chem_switch c); [auto|]. intros HA. cbn [orb] in HF.
      assert (E : chem_dsl c || chem_dsc c || chem_rct c = true) by (destruct HA as [-> |[-> | ->]]; rewrite ?orb_true_r; reflexivity).
      rewrite E in HF. cbn [negb] in HF. destruct (returns _ _ _ _) in HF; discriminate.
    + intros HA. rewrite HA in A1. apply HS. destruct (scheme_known c); [reflexivity|discriminate].
  - intros [S1 S2 S3 S4 S5 S6 S7 S8 S9 S10]. apply HB in S1. apply HK in S5. destruct S5 as (S5 & S5'). apply HV in S6.
    assert (EI : init_rejects o (init_args big c) = false) by (apply HI; tauto). rewrite EI, S5', S1, S6. cbn [negb andb].
    assert (A1 : asserts b && negb (scheme_known c && true && match kernel_of c with Some _ => true | None => false end) = false).
    { destruct (asserts b); [|reflexivity]. rewrite (proj2 HS (S10 eq_refl)). destruct (kernel_of c); [reflexivity|discriminate]. }
    rewrite A1.
    assert (A2 : match backend_of c with None => true | _ => false end || Reqb (KinModel.dt_s s) 0 = false).
    { destruct (backend_of c); [|discriminate]. cbn [orb]. unfold Reqb. destruct (Req_EM_T (KinModel.dt_s s) 0); [contradiction|reflexivity]. }
    rewrite A2, andb_false_r. rewrite S7. replace (asserts b && lgrngn_chem c && negb (lgrngn_chem c)) with false by (destruct (asserts b), (lgrngn_chem c); reflexivity).
    destruct (Nat.eqb_spec (g_nt c) 0) as [E0|E0]; [reflexivity|]. rewrite HR.
    assert (E : lgrngn_chem c || negb (chem_dsl c || chem_dsc c || chem_rct c) = true); [|rewrite E; reflexivity].
    rewrite <- S7. destruct (chem_switch c) eqn:EC; [reflexivity|]. cbn [orb].
    destruct (chem_dsl c) eqn:E1, (chem_dsc c) eqn:E2, (chem_rct c) eqn:E3; try reflexivity; exfalso;
      (assert (HH : false = true); [apply S9; [lia|auto]|discriminate]).
Qed.
Lemma C91_first n : run_program b s table big c raised = Thrown n -> (n <= 2)%nat /\ ((0 < n)%nat -> chem_switch c = false /\ asks c 0).
Proof.
  unfold run_program. fold o. rewrite made. repeat (destruct (asserts b && _); [discriminate|]). destruct (negb (factory _ _)); [discriminate|].
  repeat (destruct (asserts b && _ && _); [discriminate|]). destruct (negb (init_rejects _ _) && _); [|intros H; injection H as <-; split; [lia|lia]].
  destruct (g_nt c =? 0)%nat; [discriminate|]. destruct (_ || negb _) eqn:E; [discriminate|].
  apply orb_false_iff in E. destruct E as (E1 & E2). apply negb_false_iff in E2.
  assert (A : asks c 0) by (unfold asks; apply orb_prop in E2; destruct E2 as [E2|E2]; [apply orb_prop in E2; tauto|tauto]).
  destruct (returns _ _ _ _); intros H; injection H as <-; (split; [lia|auto]).
Qed.
End Whole.
Lemma scheme_sync o h a p : accepted o h (StepSync a p) -> a_cx a = false ->
  scheme_pc (ProtoModel.run o (h ++ [StepSync a p]) (ProtoModel.fresh o)) = scheme_pc (ProtoModel.run o h (ProtoModel.fresh o)).
Proof.
  intros HA HC. destruct (ops_sync o h a p HA) as (A1 & A2 & -> & _). change [SyncIn a; StepCond p] with ([SyncIn a] ++ [StepCond p]).
  rewrite app_assoc, run_snoc. unfold accepted in A2. set (s1 := ProtoModel.run o (h ++ [SyncIn a]) (ProtoModel.fresh o)) in *.
  assert (E1 : scheme_pc s1 = scheme_pc (ProtoModel.run o h (ProtoModel.fresh o))).
  { unfold s1. rewrite run_snoc. unfold accepted in A1. cbn [exec] in *. unfold sync_in in *. set (t := ProtoModel.run o h (ProtoModel.fresh o)) in *.
    destruct (negb (init_called t)); [discriminate|]. destruct (now_async t); [discriminate|]. destruct (sync_rejects o a); [discriminate|].
    rewrite HC. rewrite andb_false_r. reflexivity. }
  rewrite <- E1. clearbody s1. cbn [exec] in *. unfold step_cond in *. destruct (negb (now_cond s1)); [discriminate|]. destruct (_ && _); [discriminate|].
  destruct (adjust_timesteps o (o_dt p) _) as [s2|] eqn:E4; [|discriminate]. destruct (chem_throws o p s2); [discriminate|].
  apply adjust_spec in E4. destruct E4 as (_ & _ & _ & _ & _ & _ & _ & E4 & _). exact E4.
Qed.
Lemma adj_same s0 o d : d <= 0 -> adj s0 o d = s0.
Proof. intros H. unfold adj. unfold Rltb. destruct (Rlt_dec 0 d); [lra|reflexivity]. Qed.

(** what the operations of a step may be *)
Ltac in_parts H :=
  repeat match type of H with
  | In _ (if ?b then _ else _) => destruct b eqn:?
  | In _ (_ ++ _) => apply in_app_or in H; destruct H as [H|H]
  | In _ (map _ _) => apply in_map_iff in H; destruct H as (? & H & _)
  | In _ (flat_map _ _) => apply in_flat_map in H; destruct H as (? & _ & H)
  | In _ (_ :: _) => destruct H as [H|H]
  | In _ [] => destruct H
  end.
Lemma ops1_what x p s1 : In x (async_ops1 p s1) ->
  match x with
  | OpAdve pc => o_adve p = true /\ pc = scheme_pc s1
  | OpCoal _ t => t = o_turb_coal p
  | OpTurbVel _ => o_turb_adve p = true \/ o_turb_cond p = true
  | OpTurbDotSs => o_turb_cond p = true
  | OpRcyc => False
  | _ => True end.
Proof. intros H. unfold async_ops1, coal_ops in H. in_parts H; try (subst x; auto). Qed.
Lemma rest_what o x p s1 mid :
  Forall (fun x => ((exists k, x = OpSrc k) /\ src_used o p) \/ (x = OpRlx (IZR (supstp_rlx o) * dt s1) /\ o_rlx p = true)) mid ->
  In x (mid ++ async_ops2 o p) ->
  match x with OpAdve _ | OpCoal _ _ | OpTurbVel _ | OpTurbDotSs => False | OpRcyc => o_rcyc p = true | _ => True end.
Proof.
  intros F H. apply in_app_or in H. destruct H as [H|H].
  - rewrite Forall_forall in F. destruct (F _ H) as [((k & ->) & _)|(-> & _)]; exact I.
  - unfold async_ops2 in H. destruct (o_rcyc p) eqn:?; in_parts H; try (subst x; auto).
Qed.
Lemma cond_what o x p s1 : In x (cond_ops o p s1) -> match x with OpCoal _ _ | OpTurbVel _ | OpTurbDotSs => False | _ => True end.
Proof. intros H. unfold cond_ops, cond_ops1 in H. in_parts H; try (subst x; exact I). Qed.
Lemma skipn_In (A : Type) n (l : list A) x : In x (skipn n l) -> In x l.
Proof. intros H. rewrite <- (firstn_skipn n l). apply in_or_app. now right. Qed.

(** * Theorems *)
(** A run of the kinematic model with super-droplets comes to its end exactly for sensible command lines. *)
Theorem C91_carried_out : forall b s c table big raised, gridded s c ->
  (run_program b s table big c raised = Finished <-> sensible b s c).
Proof. intros. now apply C91_iff. Qed.

(** Others are refused before the first step is over: by an assertion, when the particles are created or initialised, or (options of chemistry without
    --chem_switch) in the first step. *)
Theorem C91_refused_early : forall b s c table big raised n, gridded s c ->
  run_program b s table big c raised = Thrown n ->
  n = 0%nat \/ ((n = 1%nat \/ n = 2%nat) /\ chem_switch c = false /\ (chem_dsl c = true \/ chem_dsc c = true \/ chem_rct c = true)).
Proof.
  intros b s c table big raised n G H. destruct (C91_first b s c table big raised G n H) as (A & B).
  destruct n as [|n]; [now left|]. right. destruct (B ltac:(lia)) as (B1 & B2). split; [lia|]. split; [exact B1|].
  unfold asks in B2. rewrite rct_spec, B1 in B2. rewrite ?andb_false_r in B2. cbn [andb] in B2. rewrite orb_false_r in B2. exact B2.
Qed.

(** In a run that comes to its end every step performs exactly the processes asked for. *)
Theorem C91_processes_partial : forall b s c table big raised k, gridded s c ->
  run_program b s table big c raised = Finished -> (k < g_nt c)%nat ->
  let dt := KinModel.dt_s s in
  let sy := sync_ops b s big c raised k in
  let asy := async_ops b s big c raised k in
  (* condensation in equal substeps that add up to the time step *)
  cond_lens sy = (if cond c then repeat (dt / IZR (g_sstp_cond c)) (Z.to_nat (g_sstp_cond c)) else []) /\
  (* chemistry likewise; reactions are also on once a spin-up has ended *)
  chem_lens sy = (if chem_dsl c || chem_dsc c || rct_at c k then repeat (dt / IZR (g_sstp_chem c)) (Z.to_nat (g_sstp_chem c)) else []) /\
  (rct_at c k = true <-> chem_rct c = true \/ (chem_switch c = true /\ coal c = true /\ sedi c = true /\ (0 < g_spinup c <= Z.of_nat k)%Z)) /\
  (* advection with the scheme asked for *)
  (forall pc, In (OpAdve pc) asy <-> adve c = true /\ (pc = true <-> adve_scheme c = "pred_corr"%string)) /\
  (* sedimentation and collisions, except during the spin-up *)
  (forall d, In (OpSedi d) asy <-> sedi c = true /\ ~ spinning_up c k /\ d = dt) /\
  (coal c = true /\ ~ spinning_up c k -> coal_lens asy = repeat (dt / IZR (g_sstp_coal c)) (Z.to_nat (g_sstp_coal c))) /\
  (coal c = false \/ spinning_up c k -> coal_lens asy = []) /\
  (* recycling *)
  (In OpRcyc asy <-> rcyc c = true) /\
  (* and nothing else *)
  (forall x, In x (sy ++ asy) -> match x with
     | OpSubs _ | OpSrc _ | OpRlx _ | OpIceNucl _ | OpIceDep _ _ | OpTurbAdve _ | OpTurbVel _ | OpTurbDotSs | OpCoal _ true => False
     | _ => True end).
Proof.
  intros b s c table big raised k G HF Hk. cbv zeta. apply C91_iff in HF; [|exact G].
  set (o := opts_init_of b s c).
  assert (HI : init_rejects o (init_args big c) = false).
  { apply (init_fine b s c G big). destruct HF as [_ H2 H3 H4 H5 H6 H7 H8 _ _]. pose proof (kernel_spec c o table eq_refl eq_refl) as HK. apply existsb_In in H6. tauto. }
  assert (HC : chem_switch c = lgrngn_chem c) by (destruct HF; assumption).
  assert (HA : forall i, fine_step c i).
  { apply fine_all. unfold asks. intros H. apply (s_chem_opts b s c HF); [lia|]. rewrite rct_spec in H.
    destruct (Z.ltb_spec 0 (g_spinup c)), (Z.leb_spec (g_spinup c) (Z.of_nat 0)); try lia; rewrite ?andb_false_r, ?orb_false_r in H; exact H. }
  assert (W : forall i, Forall (well_formed o) (before_step big c raised i)).
  { intros i. constructor; [exact HI|]. apply (steps_wf b s c); auto. }
  assert (W1 : well_formed o (StepSync (sync_args c) (opts_at c k))) by (split; [now apply sync_fine|apply cond_fine, HA]).
  assert (W2 : well_formed o (StepAsync (opts_at c k) (raised k))) by (apply async_fine, HA).
  assert (A1 : accepted o (before_step big c raised k) (StepSync (sync_args c) (opts_at c k))).
  { apply (C13_accepted_iff_in_order o _ _ (W k) W1). rewrite phase_before. discriminate. }
  assert (W3 : Forall (well_formed o) (before_step big c raised k ++ [StepSync (sync_args c) (opts_at c k)])).
  { apply Forall_app. split; [apply W|]. constructor; [exact W1|constructor]. }
  assert (A2 : accepted o (before_step big c raised k ++ [StepSync (sync_args c) (opts_at c k)]) (StepAsync (opts_at c k) (raised k))).
  { apply (C13_accepted_iff_in_order o _ _ W3 W2). unfold phase_after. rewrite fold_left_app. fold (phase_after (before_step big c raised k)).
    rewrite phase_before. discriminate. }
  unfold sync_ops, async_ops. fold o.
  destruct (opts_rest c k) as (R1 & R2 & R3 & R4 & R5 & R6 & R7 & R8 & R9 & R10 & R11 & R12 & R13 & R14).
  assert (ED : dt_eff o (opts_at c k) = KinModel.dt_s s).
  { unfold dt_eff. rewrite R14. destruct (Rlt_dec 0 (-1)); [lra|reflexivity]. }
  destruct (ops_sync _ _ _ _ A1) as (_ & B2 & _ & EY). destruct (ops_cond _ _ _ B2) as (s2 & EA & EC & _).
  pose proof (adjust_spec _ _ _ _ EA) as (_ & D1 & D2 & _ & D3 & _). rewrite ED in D1. rewrite R14 in D2, D3. rewrite adj_same in D2, D3 by lra.
  cbn [o opts_init_of sstp_cond0 sstp_chem0] in D2, D3.
  assert (Lc : cond_lens (OpSyncIn :: cond_ops o (opts_at c k) s2) = cond_lens (cond_ops o (opts_at c k) s2)) by reflexivity.
  assert (Lh : chem_lens (OpSyncIn :: cond_ops o (opts_at c k) s2) = chem_lens (cond_ops o (opts_at c k) s2)) by reflexivity.
  destruct (ops_async _ _ _ _ A2) as (s1 & mid & F1 & F2 & _ & F4 & _ & F5 & F6). rewrite ED in F1. rewrite R14, adj_same in F2 by lra.
  cbn [o opts_init_of sstp_coal0] in F2.
  pose proof (C47_what_is_performed _ _ _ _ A2) as P. cbv zeta in P. destruct P as (_ & _ & _ & _ & _ & _ & P1 & P2 & P3 & _ & P4 & P5 & P6).
  rewrite ED in *.
  assert (SC : scheme_pc s1 = pred_corr o).
  { rewrite F4, (scheme_sync o _ _ _ A1 eq_refl). pose proof (phase_run o _ (W k)) as HP. rewrite phase_before in HP.
    apply (scheme_run o _ (W k)). unfold phase_of in HP. clear - HP. set (t := ProtoModel.run _ _ _) in *. clearbody t.
    destruct (now_async t); [discriminate HP|]. destruct (now_cond t); [discriminate HP|]. auto. }
  pose proof (spin_spec c k) as SP.
  split. { rewrite EY, EC, Lc, cond_lens_ops, D1, D2, R3; [reflexivity|rewrite D2; pose proof (s_sstp b s c HF); lia|now left]. }
  split. { rewrite EY, EC, Lh, chem_lens_ops, D1, D3, R11, R12, R13. reflexivity. }
  split. { rewrite rct_spec, orb_true_iff, !andb_true_iff, Z.ltb_lt, Z.leb_le, <- HC. intuition lia. }
  split.
  { intros pc. rewrite F5. assert (Q : In (OpAdve pc) (async_ops1 (opts_at c k) s1 ++ mid ++ async_ops2 o (opts_at c k)) <-> adve c = true /\ pc = pred_corr o).
    { rewrite <- SC, <- R1. split.
      - intros H. apply in_app_or in H. destruct H as [H|H]; [apply (ops1_what _ _ _ H)|]. destruct (rest_what _ _ _ _ _ F6 H).
      - intros (H1 & ->). apply in_or_app. left. unfold async_ops1. do 7 (apply in_or_app; right). apply in_or_app; left. rewrite H1. now left. }
    rewrite Q. cbn [o opts_init_of pred_corr]. unfold scheme_of.
    assert (EQ : (match (if (adve_scheme c =? "implicit")%string then Implicit else if (adve_scheme c =? "euler")%string then Euler
         else if (adve_scheme c =? "pred_corr")%string then PredCorr else Implicit) with PredCorr => true | _ => false end) = (adve_scheme c =? "pred_corr")%string).
    { destruct (String.eqb_spec (adve_scheme c) "implicit") as [->|N1]; [reflexivity|]. destruct (String.eqb_spec (adve_scheme c) "euler") as [->|N2]; [reflexivity|].
      destruct (adve_scheme c =? "pred_corr")%string; reflexivity. }
    rewrite EQ. destruct (String.eqb_spec (adve_scheme c) "pred_corr") as [E|N3]; destruct pc; intuition congruence. }
  split. { intros d. rewrite P5, opts_sedi. destruct (coal c && sedi c && (Z.of_nat k <? g_spinup c)%Z); intuition congruence. }
  assert (CL : coal_lens (ops_of o (before_step big c raised k ++ [StepSync (sync_args c) (opts_at c k)]) (StepAsync (opts_at c k) (raised k))) =
     if o_coal (opts_at c k) then repeat (KinModel.dt_s s / IZR (g_sstp_coal c)) (Z.to_nat (g_sstp_coal c)) else []).
  { rewrite F5. unfold coal_lens. rewrite lens_app. fold (coal_lens (async_ops1 (opts_at c k) s1)). fold (coal_lens (mid ++ async_ops2 o (opts_at c k))).
    rewrite (coal_lens_rest _ _ _ _ _ F6), coal_lens_ops1, app_nil_r, F1, F2. reflexivity. }
  split. { intros (H1 & H2). rewrite CL, opts_coal. destruct (coal c && sedi c && (Z.of_nat k <? g_spinup c)%Z); [exfalso; tauto|]. rewrite H1. reflexivity. }
  split. { intros H. rewrite CL, opts_coal. destruct (coal c && sedi c && (Z.of_nat k <? g_spinup c)%Z) eqn:E; [reflexivity|].
    destruct H as [-> |H]; [reflexivity|]. apply SP in H. discriminate. }
  split.
  { rewrite F5. split.
    - intros H. apply in_app_or in H. destruct H as [H|H]; [destruct (ops1_what _ _ _ H)|].
      rewrite <- R6. apply (rest_what o OpRcyc (opts_at c k) s1 mid F6 H).
    - intros H. apply in_or_app. right. apply in_or_app. right. unfold async_ops2. cbn [o opts_init_of multi_spawn]. rewrite R6, H.
      apply in_or_app. right. apply in_or_app. right. now left. }
  assert (EN : forall x, In x (ops_of o (before_step big c raised k) (StepSync (sync_args c) (opts_at c k)) ++
       ops_of o (before_step big c raised k ++ [StepSync (sync_args c) (opts_at c k)]) (StepAsync (opts_at c k) (raised k))) -> enabled o x).
  { intros x H. apply in_app_or in H. destruct H as [H|H]; unfold ops_of in H; eapply C48_disabled_process_never_runs_partial; eapply skipn_In, H. }
  intros x H. pose proof (EN x H) as E.
  assert (TB : match x with OpCoal _ t => t = false | OpTurbVel _ | OpTurbDotSs => False | _ => True end).
  { apply in_app_or in H. destruct H as [H|H].
    - rewrite EY, EC in H. destruct H as [<-|H]; [exact I|]. apply cond_what in H. destruct x; auto; contradiction.
    - rewrite F5 in H. apply in_app_or in H. destruct H as [H|H].
      + apply ops1_what in H. rewrite R7, R8, R9 in H. destruct x; auto; try (destruct H; discriminate); discriminate H.
      + apply (rest_what o x _ s1 mid F6) in H. destruct x; auto; contradiction. }
  destruct x; try exact I; try contradiction; cbn [enabled o opts_init_of ice_sw subs_sw rlx_sw src_type turb_adve_sw] in E;
    try discriminate E; try (now apply E); try (destruct E; discriminate).
  rewrite TB. exact I.
Qed.

(** Kernels that the program offers but with which no run is possible, with or without collisions *)
Theorem C91_onishi_refuted : forall b s c table big raised, gridded s c ->
  In (kernel c) kernels_offered -> ~ In (kernel c) kernels_usable ->
  run_program b s table big c raised <> Finished.
Proof. intros b s c table big raised G _ H E. apply C91_iff in E; [|exact G]. apply H. destruct E. assumption. Qed.

(** * Concrete cases *)
Local Open Scope string_scope.
Definition ex_cmd (chem : bool) (kern : string) (sstp : Z) (rct : bool) (spin : Z) : cmd :=
  {| lgrngn_chem := chem; g_nx := 76; g_nz := 76; g_nt := 3600; g_spinup := spin; g_relax := true;
     backend := "OpenMP"; g_sd_conc := 64; adve := true; sedi := true; cond := true; coal := true; rcyc := false;
     chem_dsl := false; chem_dsc := chem; chem_rct := rct; chem_switch := chem;
     g_sstp_cond := 10; g_sstp_coal := sstp; g_sstp_chem := 5; kernel := kern; terminal_velocity := "beard77fast"; adve_scheme := "pred_corr" |}.
Definition ex_build : build := {| with_CUDA := false; with_OpenMP := true; with_MPI := false; asserts := true |}.
Definition ex_setup : KinModel.setup :=
  {| KinModel.th_0 := 289; KinModel.rv_0 := 75 / 10000; KinModel.p_0 := 101500; KinModel.w_max := 6 / 10; KinModel.z_0 := 0; KinModel.Z_dom := 1500;
     KinModel.X_dom := 1500; KinModel.dt_s := 1 |}.
Lemma ex_gridded chem kern sstp rct spin : gridded ex_setup (ex_cmd chem kern sstp rct spin).
Proof. unfold gridded. cbn. repeat split; try lia; lra. Qed.
Lemma ex_sensible chem kern sstp rct spin : In kern kernels_usable -> (rct = true -> chem = true) -> sensible ex_build ex_setup (ex_cmd chem kern sstp rct spin).
Proof.
  intros HK HR. constructor; cbn.
  - auto.
  - discriminate.
  - lia.
  - lra.
  - exact HK.
  - tauto.
  - reflexivity.
  - reflexivity.
  - intros _ [H|[H|H]]; auto. discriminate.
  - tauto.
Qed.
(** collisions and sedimentation after a spin-up of an hour *)
Theorem C91_instance : forall table big raised,
  let c := ex_cmd false "hall_davis_no_waals" 2 false 1800 in
  gridded ex_setup c /\ run_program ex_build ex_setup table big c raised = Finished /\ spinning_up c 0 /\ ~ spinning_up c 1800 /\
  coal_lens (async_ops ex_build ex_setup big c raised 0) = [] /\
  coal_lens (async_ops ex_build ex_setup big c raised 1800) = [1 / 2; 1 / 2] /\
  In (OpAdve true) (async_ops ex_build ex_setup big c raised 0) /\
  In (OpSedi 1) (async_ops ex_build ex_setup big c raised 1800).
Proof.
  intros table big raised c. assert (G : gridded ex_setup c) by apply ex_gridded.
  assert (F : run_program ex_build ex_setup table big c raised = Finished).
  { apply C91_carried_out; [exact G|]. apply ex_sensible; [cbn; tauto|discriminate]. }
  assert (S0 : spinning_up c 0) by (unfold spinning_up; cbn; repeat split; lia).
  assert (S1 : ~ spinning_up c 1800). { unfold spinning_up. intros (_ & _ & H). cbn [c ex_cmd g_spinup] in H. lia. }
  split; [exact G|]. split; [exact F|]. split; [exact S0|]. split; [exact S1|].
  assert (K0 : (0 < g_nt c)%nat) by (apply Nat.ltb_lt; reflexivity).
  assert (K1 : (1800 < g_nt c)%nat) by (apply Nat.ltb_lt; reflexivity).
  destruct (C91_processes_partial _ _ _ _ _ _ 0%nat G F K0) as (_ & _ & _ & A & _ & _ & B & _).
  destruct (C91_processes_partial _ _ _ _ _ _ 1800%nat G F K1) as (_ & _ & _ & _ & C & D & _).
  split; [apply B; now right|]. split; [apply D; split; [reflexivity|exact S1]|].
  split; [apply A; split; [reflexivity|split; reflexivity]|]. apply C. split; [reflexivity|]. split; [exact S1|reflexivity].
Qed.
(** an offered kernel *)
Theorem C91_onishi_instance : forall table big raised,
  In "onishi_hall" kernels_offered /\ run_program ex_build ex_setup table big (ex_cmd false "onishi_hall" 1 false 0) raised <> Finished.
Proof.
  intros. split; [cbn; tauto|]. apply C91_onishi_refuted; [apply ex_gridded|cbn; tauto|]. cbn. intuition discriminate.
Qed.
(** A run with --coal=1 and no collision: --sstp_coal=0 is not refused. *)
Theorem C91_no_substeps_refuted : exists b s c, forall table big raised,
  run_program b s table big c raised = Finished /\ coal c = true /\ g_spinup c = 0%Z /\
  forall k, (k < g_nt c)%nat -> coal_lens (async_ops b s big c raised k) = [].
Proof.
  exists ex_build, ex_setup, (ex_cmd false "hall" 0 false 0). intros table big raised. set (c := ex_cmd _ _ _ _ _).
  assert (G : gridded ex_setup c) by apply ex_gridded.
  assert (F : run_program ex_build ex_setup table big c raised = Finished).
  { apply C91_carried_out; [exact G|]. apply ex_sensible; [cbn; tauto|discriminate]. }
  split; [exact F|]. split; [reflexivity|]. split; [reflexivity|]. intros k Hk.
  destruct (C91_processes_partial _ _ _ _ _ _ k G F Hk) as (_ & _ & _ & _ & _ & D & _). rewrite D; [reflexivity|]. split; [reflexivity|].
  unfold spinning_up. intros (_ & _ & H). cbn [c ex_cmd g_spinup] in H. lia.
Qed.
(** Reactions run although --chem_rct=0: the end of the spin-up turns them on. *)
Theorem C91_reactions_refuted : exists b s c, forall table big raised,
  run_program b s table big c raised = Finished /\ chem_rct c = false /\
  forall k, (k < g_nt c)%nat -> (rct_at c k = true <-> (1800 <= k)%nat) /\ o_chem_rct (opts_at c k) = rct_at c k.
Proof.
  exists ex_build, ex_setup, (ex_cmd true "hall" 1 false 1800). intros table big raised. set (c := ex_cmd _ _ _ _ _).
  assert (G : gridded ex_setup c) by apply ex_gridded.
  assert (F : run_program ex_build ex_setup table big c raised = Finished).
  { apply C91_carried_out; [exact G|]. apply ex_sensible; [cbn; tauto|discriminate]. }
  split; [exact F|]. split; [reflexivity|]. intros k Hk.
  destruct (C91_processes_partial _ _ _ _ _ _ k G F Hk) as (_ & _ & A & _). split; [|apply opts_rest].
  rewrite A. cbn [c ex_cmd chem_rct chem_switch coal sedi g_spinup].
  split; [intros [H|(_ & _ & _ & H)]; [discriminate|lia]|]. intros H. right. repeat split; lia.
Qed.
Local Close Scope string_scope.
(** Options of chemistry in the driver without chemistry are refused, but only after droplets have grown in the first step. *)
Lemma late_throw o p t : now_cond t = true -> o_turb_cond p = false -> o_dt p = -1 -> chem_sw o = false -> chem_on p = true -> (0 < sstp_chem0 o)%Z ->
  o_cond p = true -> exact_sstp o = false -> (0 < sstp_cond0 o)%Z ->
  exists l, step_cond o p t = (fst (step_cond o p t), false) /\ done (fst (step_cond o p t)) = done t ++ l /\ In (dt0 o / IZR (sstp_cond0 o)) (cond_lens l).
Proof.
  intros H1 H2 H3 H4 H5 H6 H7 H8 H9. unfold step_cond. rewrite H1, H2. cbn [negb andb]. unfold adjust_timesteps.
  replace (Rltb 0 (o_dt p)) with false by (symmetry; unfold Rltb; rewrite H3; destruct (Rlt_dec 0 (-1)); [lra|reflexivity]). cbn [andb].
  set (s2 := mk_obj _ _ _ _ _ _ _ _ _ _ _ _ _ _).
  assert (E : chem_throws o p s2 = true).
  { unfold chem_throws. rewrite H4, H5. cbn [s2 sstp_chem negb andb]. rewrite H3, adj_same by lra. apply orb_true_iff. left. now apply Z.ltb_lt. }
  rewrite E. exists (ops_before_chem o p s2). split; [reflexivity|]. split; [reflexivity|].
  unfold ops_before_chem, cond_ops1. rewrite H7, H8. cbn [andb s2 dt sstp_cond]. rewrite H3, adj_same by lra.
  unfold cond_lens. apply in_flat_map. exists (OpCondCell (dt0 o / IZR (sstp_cond0 o)) 0). split; [|now left].
  apply in_or_app. left. apply in_or_app. right. apply in_or_app. right. apply in_or_app. right. apply in_or_app. left.
  apply in_flat_map. exists 0%nat. split; [apply in_seq; lia|]. right. left. reflexivity.
Qed.
Theorem C91_after_growth_refuted : exists b s c, gridded s c /\ forall table big raised,
  run_program b s table big c raised = Thrown 1 /\
  exists d, In d (cond_lens (sync_ops b s big c raised 0)).
Proof.
  pose (c := {| lgrngn_chem := false; g_nx := 76; g_nz := 76; g_nt := 3600; g_spinup := 0; g_relax := true;
     backend := "serial"%string; g_sd_conc := 64; adve := true; sedi := true; cond := true; coal := true; rcyc := false;
     chem_dsl := false; chem_dsc := true; chem_rct := false; chem_switch := false;
     g_sstp_cond := 1; g_sstp_coal := 1; g_sstp_chem := 1; kernel := "hall"%string; terminal_velocity := "beard77fast"%string; adve_scheme := "euler"%string |}).
  exists ex_build, ex_setup, c. assert (G : gridded ex_setup c) by (unfold gridded; cbn; repeat split; try lia; lra). split; [exact G|].
  intros table big raised. set (o := opts_init_of ex_build ex_setup c).
  assert (HI : init_rejects o (init_args big c) = false).
  { apply (init_fine ex_build ex_setup c G big). split; [reflexivity|]. split; [reflexivity|]. split; [cbn; lra|]. split; [discriminate|].
    split; [reflexivity|]. split; [reflexivity|]. cbn. lia. }
  assert (HS : sync_rejects o (sync_args c) = false) by (now apply sync_fine).
  set (t0 := ProtoModel.run o (before_step big c raised 0) (ProtoModel.fresh o)).
  assert (T : init_called t0 = true /\ now_async t0 = false).
  { unfold t0, before_step. cbn [seq flat_map]. unfold ProtoModel.run. cbn [fold_left exec]. unfold ProtoModel.init. cbn [ProtoModel.fresh init_called].
    rewrite HI. cbn. split; reflexivity. }
  destruct T as (T1 & T2).
  assert (EX : exec o (StepSync (sync_args c) (opts_at c 0)) t0 = step_cond o (opts_at c 0) (fst (sync_in o (sync_args c) t0)) /\
     now_cond (fst (sync_in o (sync_args c) t0)) = true /\ done (fst (sync_in o (sync_args c) t0)) = done t0 ++ [OpSyncIn]).
  { cbn [exec]. unfold step_sync, sync_in. rewrite T1, T2, HS. cbn. split; [reflexivity|]. split; reflexivity. }
  destruct EX as (E1 & E2 & E3).
  destruct (opts_rest c 0) as (_ & _ & R3 & _ & _ & _ & _ & R8 & _ & _ & R11 & R12 & R13 & R14).
  assert (ON : chem_on (opts_at c 0) = true) by (unfold chem_on; rewrite R12; now rewrite orb_true_r).
  destruct (late_throw o (opts_at c 0) _ E2 R8 R14 eq_refl ON ltac:(cbn; lia) ltac:(rewrite R3; reflexivity) eq_refl ltac:(cbn; lia)) as (l & L1 & L2 & L3).
  split.
  - unfold run_program. fold o.
    replace (asserts ex_build && negb (scheme_known c && vt_known c && match kernel_of c with Some _ => true | None => false end)) with false by reflexivity.
    replace (match backend_of c with None => true | _ => false end) with false by reflexivity.
    replace (Reqb (KinModel.dt_s ex_setup) 0) with false by (symmetry; unfold Reqb; cbn; destruct (Req_EM_T 1 0); [lra|reflexivity]).
    cbn [orb]. rewrite andb_false_r. replace (negb (factory ex_build (backend_of c))) with false by reflexivity.
    replace (asserts ex_build && lgrngn_chem c && negb (chem_switch c)) with false by reflexivity. unfold o.
    rewrite (made ex_build ex_setup c table big raised G). fold o. rewrite HI.
    replace (kernel_fine c o table) with true by reflexivity. cbn [negb andb].
    replace (g_nt c =? 0)%nat with false by (symmetry; apply Nat.eqb_neq; unfold c; cbn [g_nt]; lia).
    replace (chem_switch c || negb (chem_dsl c || chem_dsc c || rct_at c 0)) with false by reflexivity.
    fold t0. unfold returns. rewrite E1, L1. reflexivity.
  - exists (dt0 o / IZR (sstp_cond0 o)). unfold sync_ops. fold o. unfold ops_of. fold t0. rewrite run_snoc. fold t0. rewrite E1, L2, E3, <- app_assoc, skipn_app_len.
    exact L3.
Qed.

Print Assumptions C91_carried_out.
Print Assumptions C91_refused_early.
Print Assumptions C91_processes_partial.
Print Assumptions C91_onishi_refuted.
Print Assumptions C91_instance.
Print Assumptions C91_onishi_instance.
Print Assumptions C91_no_substeps_refuted.
Print Assumptions C91_reactions_refuted.
Print Assumptions C91_after_growth_refuted.
