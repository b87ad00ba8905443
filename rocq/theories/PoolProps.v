(** * C34: temporary vectors are exclusive to their holder, and when there are enough of them
    Specification first: what a user may call ([legal]) and the configurations for which the temporary vectors suffice
    ([enough]); then the theorems. *)
From Coq Require Import List Bool Arith Lia NArith.
Import ListNotations.
From Verif Require Import PoolModel PoolProofs.
Open Scope nat_scope.

(** ** Specification *)
(** Where the user is in the protocol: init called, sync_in done, step_cond done, super-droplets selected since the last
    sync_in or step. *)
Record proto := { inited : bool; cond_next : bool; async_next : bool; selected : bool }.
Definition at_start : proto := {| inited := false; cond_next := false; async_next := false; selected := false |}.

(** number of substeps [k] used in a step when [s] were asked for: the same unless variable timesteps are switched on *)
Definition substeps (c : cfg) (s k : nat) : Prop := k = s \/ variable_dt_switch c = true /\ 1 < s /\ 1 <= k.

(** The calls allowed in a state: the order of calls is kept, the switches in opts_init are respected, and moments are asked
    for only after a selection. *)
Inductive allowed (c : cfg) : proto -> call -> proto -> Prop :=
| ok_init p g : inited p = false -> (no_ccn_at_init c = false -> 1 <= g) ->
    allowed c p (Init g) {| inited := true; cond_next := false; async_next := false; selected := false |}
| ok_sync p : inited p = true -> async_next p = false ->
    allowed c p SyncIn {| inited := true; cond_next := true; async_next := false; selected := false |}
| ok_cond p o : cond_next p = true -> inited p = true ->
    (o_turb_cond o = true -> turb_cond_switch c = true) ->
    (o_dsl o || o_dsc o || o_rct o = true -> chem_switch c = true) ->
    substeps c (sstp_cond c) (k o) -> substeps c (sstp_cond_act c) (a o) ->
    allowed c p (StepCond o) {| inited := true; cond_next := false; async_next := true; selected := false |}
| ok_async p o : async_next p = true -> inited p = true ->
    (o_aturb_cond o = true -> turb_cond_switch c = true) ->
    (o_pred o = true -> pred_corr c = true) ->
    (o_subs o = true -> subs_switch c = true) ->
    (o_src_distro o = true -> src_on c = true) -> (0 < o_src_sizes o -> src_on c = true) ->
    (o_rlx o <> [] -> rlx_switch c = true) ->
    allowed c p (StepAsync o) {| inited := true; cond_next := false; async_next := false; selected := false |}
| ok_select p d : inited p = true -> In d [D_select; D_RH_ge_Sc; D_rw_ge_rc] ->
    allowed c p (Diag d) {| inited := true; cond_next := cond_next p; async_next := async_next p; selected := true |}
| ok_select_ice p : inited p = true -> ice_switch c = true ->
    allowed c p (Diag D_precip_rate_ice) {| inited := true; cond_next := cond_next p; async_next := async_next p; selected := true |}
| ok_moment p d : inited p = true -> selected p = true -> In d [D_select_cons; D_moment; D_mass_dens; D_precip_rate] ->
    allowed c p (Diag d) p
| ok_other p : inited p = true -> allowed c p (Diag D_other) p.

Inductive legal (c : cfg) : proto -> list call -> Prop :=
| legal_nil p : legal c p []
| legal_cons p e q h : allowed c p e q -> legal c q h -> legal c p (e :: h).

(** Condensation is substepped separately for every super-droplet: *)
Definition perparticle_substeps (c : cfg) : Prop := exact_sstp_cond c = true /\ (1 < sstp_cond c \/ 1 < sstp_cond_act c).

(** Options for which the temporary vectors suffice. *)
Definition enough (c : cfg) : Prop :=
  (no_ccn_at_init c = true -> n_dims c = 0) /\
  (perparticle_substeps c -> sstp_cond_mix c = false) /\
  (chem_switch c = true -> no_ccn_at_init c = false -> ~ perparticle_substeps c /\ (pred_corr c = true -> n_dims c = 0)) /\
  (chem_switch c = false ->
     (pred_corr c = true ->
        n_dims c = 0 \/ n_dims c = 3 \/ turb_cond_switch c = true \/ distmem c = true \/ perparticle_substeps c) /\
     (n_dims c = 2 \/ n_dims c = 3 \/ distmem c = true \/ 1 < sstp_cond c \/ 1 < sstp_cond_act c \/
      ice_switch c = true /\ time_dep_ice_nucl c = true)).

(** ** Exclusive use: for all sizes of the pools and all histories of borrowing and giving back *)
Theorem C34_exclusive :
  forall size ops y s t i,
    run ops (fresh size) = Ok y ->
    hold y s = Some i -> i < size (pool_of s) /\ (hold y t = Some i -> pool_of s = pool_of t -> s = t).
Proof.
  intros size ops y s t i Hrun Hs.
  destruct (run_final size ops _ _ (rel_fresh size)) as (A & _). destruct (A y Hrun) as (H' & _ & [[Hl Hf Hi] _ _] & _).
  split; [|intros; eapply Hi; eauto]. rewrite <- Hl. apply nth_error_Some. rewrite (Hf _ _ Hs). discriminate.
Qed.
Print Assumptions C34_exclusive.

(** and the vector held does not change until its holder gives it back or takes another *)
Theorem C34_kept :
  forall ops x y s,
    run ops x = Ok y -> ~ In (Take s) ops -> ~ In (Drop s) ops -> hold y s = hold x s.
Proof.
  induction ops as [|[t|t|t] ops IH]; intros x y s Hrun Ht Hd; cbn [run] in Hrun.
  - now injection Hrun as <-.
  - unfold take in Hrun. destruct (acquire _); [|discriminate]. apply IH with (s := s) in Hrun; [|now intros X; apply Ht; right|now intros X; apply Hd; right].
    rewrite Hrun. cbn [hold]. assert (s <> t) by (intros ->; apply Ht; now left).
    rewrite upd_hold_other by auto. unfold drop. destruct (hold x t); [|reflexivity]. cbn [hold]. now rewrite upd_hold_other.
  - apply IH with (s := s) in Hrun; [|now intros X; apply Ht; right|now intros X; apply Hd; right].
    rewrite Hrun. assert (s <> t) by (intros ->; apply Hd; now left). unfold drop. destruct (hold x t); [|reflexivity].
    cbn [hold]. now rewrite upd_hold_other.
  - destruct (hold x t); [|discriminate]. apply IH with (s := s) in Hrun; auto; [now intros X; apply Ht; right|now intros X; apply Hd; right].
Qed.
Print Assumptions C34_kept.

(** ** Sets of holders between calls *)
Definition bitb (b : bool) (s : slot) (H : N) : N := if b then setb s H else H.
Definition base (nd : nat) (nf v : bool) : N :=
  bitb nf NF (bitb v V (bitb (1 <=? nd) I (bitb (3 <=? nd) J (bitb (2 <=? nd) K 0%N)))).

Lemma nd_cases c : accepted c = true -> n_dims c = 0 \/ n_dims c = 1 \/ n_dims c = 2 \/ n_dims c = 3.
Proof. unfold accepted. rewrite !andb_true_iff. intros H. decompose [and] H. apply Nat.leb_le in H1 || idtac.
  repeat match goal with X : (n_dims c <=? 3) = true |- _ => apply Nat.leb_le in X end. lia.
Qed.

Ltac dim c := match goal with A : accepted c = true |- _ => destruct (nd_cases c A) as [?D|[?D|[?D|?D]]] end.
Ltac case_bools := repeat match goal with b : bool |- _ => destruct b end.
Ltac crunch :=
  repeat match goal with E : _ = true |- _ => rewrite E in *; clear E | E : _ = false |- _ => rewrite E in *; clear E end;
  repeat match goal with E : n_dims _ = _ |- _ => rewrite E in *; clear E end; vm_compute; reflexivity.

Section Leaves.
Variable c : cfg.
Hypothesis Hacc : accepted c = true.
Notation size := (pool_size c).

Lemma size_rc : 4 <= size RC. Proof. unfold pool_size. lia. Qed.
Lemma size_rc_ice : 4 + (if ice_switch c then 2 else 0) <= size RC. Proof. unfold pool_size. lia. Qed.
Lemma size_np : 1 <= size NP. Proof. unfold pool_size. lia. Qed.
Lemma size_sc : 1 <= size SC. Proof. unfold pool_size. lia. Qed.
Lemma size_sp : n_dims c <= size SP /\ 1 <= size SP.
Proof. unfold pool_size. dim c; rewrite D; cbn; destruct (distmem c); cbn; lia. Qed.
Lemma size_rp1 : 1 <= size RP. Proof. unfold pool_size. lia. Qed.

Definition b2n (b : bool) : nat := if b then 1 else 0.

Ltac lf rp rc np sp sc :=
  apply (goodb_good rp rc np sp sc);
  [|try lia; try apply size_rc; try apply size_rc_ice; try apply size_np; try apply size_sp; try apply size_sc ..].

Lemma g_vterm nf v : 1 + b2n nf + b2n v <= size RP -> good size (vterm c) (base (n_dims c) nf v) (base (n_dims c) nf v).
Proof.
  intros Hs. unfold vterm. apply good_when; [intros _|reflexivity].
  lf (1 + b2n nf + b2n v) 4 1 1 1. dim c; rewrite D; case_bools; vm_compute; reflexivity.
Qed.

Lemma g_indices nf v nd : nd = n_dims c -> good size (cell_indices c) (base nd nf v) (base nd nf v).
Proof.
  intros E. lf 0 4 1 nd 1; [|subst nd; apply size_sp]. unfold cell_indices. rewrite <- E.
  assert (N : nd = 0 \/ nd = 1 \/ nd = 2 \/ nd = 3) by (rewrite E; now apply nd_cases). clear E.
  destruct N as [->|[->|[->| ->]]]; case_bools; vm_compute; reflexivity.
Qed.

Lemma g_xyz nf v : 1 + b2n nf + b2n v <= size RP -> good size (init_xyz c) (base (n_dims c) nf v) (base (n_dims c) nf v).
Proof.
  intros Hs. lf (1 + b2n nf + b2n v) 4 1 1 1. unfold init_xyz.
  dim c; rewrite D; case_bools; vm_compute; reflexivity.
Qed.

(** a group of new super-droplets; [pre] says whether any were there before *)
Lemma g_group (pre : bool) v :
  1 + b2n (v || chem_switch c) <= size RP ->
  good size (add_group c) (if pre then base (n_dims c) false v else 0%N)
       (base (n_dims c) false (pre && v || chem_switch c)).
Proof.
  intros Hs. lf (1 + b2n (v || chem_switch c)) 4 1 (n_dims c) 1. unfold add_group, init_T_freeze, cell_indices, init_xyz.
  destruct (ice_switch c && negb (time_dep_ice_nucl c)), (chem_switch c); dim c; rewrite D; case_bools; vm_compute; reflexivity.
Qed.

Lemma g_add nf v m : 1 + b2n nf + b2n v <= size RP ->
  chem_switch c = false -> good size (concat (repeat (add_group c) m)) (base (n_dims c) nf v) (base (n_dims c) nf v).
Proof.
  intros Hs Hc. apply good_repeat. lf (1 + b2n nf + b2n v) 4 1 (n_dims c) 1.
  unfold add_group, init_T_freeze, cell_indices, init_xyz. rewrite Hc.
  destruct (ice_switch c && negb (time_dep_ice_nucl c)); dim c; rewrite D; case_bools; vm_compute; reflexivity.
Qed.

Lemma g_init g : (1 + b2n (chem_switch c) <= size RP) -> (no_ccn_at_init c = false -> 1 <= g) ->
  (no_ccn_at_init c = true -> n_dims c = 0) ->
  exists v, (v = true -> chem_switch c = true /\ no_ccn_at_init c = false) /\ good size (init_prog c g) 0%N (base (n_dims c) false v).
Proof.
  intros Hs Hg Hn. unfold init_prog. destruct (no_ccn_at_init c); cbn [negb when].
  - exists false. split; [discriminate|]. rewrite app_nil_l. assert (D := Hn eq_refl). assert (X := g_vterm false false).
    rewrite D in X. rewrite D. apply X. change (b2n false) with 0. lia.
  - exists (chem_switch c). split; [auto|]. specialize (Hg eq_refl). destruct g as [|g]; [lia|]. cbn [repeat concat].
    apply good_app with (base (n_dims c) false (chem_switch c)); [|apply g_vterm; change (b2n false) with 0; lia].
    eapply good_app; [apply (g_group false false); cbn [orb]; exact Hs|]. cbn [andb orb].
    apply good_repeat. assert (X := g_group true (chem_switch c)). cbn [andb] in X. rewrite orb_diag in X. apply X. exact Hs.
Qed.

(** *** step_cond *)
Definition withs (l : list slot) (H : N) : N := fold_right setb H l.

Lemma g_incloud nf v : 1 + b2n nf + b2n v <= size RP ->
  good size (when (diag_incloud_time c) (local [RC2_incloud] [])) (base (n_dims c) nf v) (base (n_dims c) nf v).
Proof.
  intros Hs. apply good_when; [intros _|reflexivity]. lf (1 + b2n nf + b2n v) 4 1 1 1.
  dim c; rewrite D; case_bools; vm_compute; reflexivity.
Qed.

Lemma g_nucl nf v : 2 + b2n v <= size RP ->
  good size (ice_nucl_melt c) (base (n_dims c) nf v) (base (n_dims c) true v).
Proof.
  intros Hs. lf (2 + b2n v) 4 1 1 1. unfold ice_nucl_melt.
  destruct (time_dep_ice_nucl c); dim c; rewrite D; case_bools; vm_compute; reflexivity.
Qed.

(** per-cell substeps: first, middle and last *)
Definition mid (c : cfg) (v : bool) : N :=
  withs ([LAMBDA_D; LAMBDA_K; RW_MOM3] ++ (if ice_switch c then [ICE] else [])) (base (n_dims c) true v).

Lemma g_first_last tc nf v : 2 + b2n v <= size RP ->
  good size (percell_substep c tc true true) (withs [LAMBDA_D; LAMBDA_K] (base (n_dims c) nf v))
       (withs [LAMBDA_D; LAMBDA_K] (base (n_dims c) true v)).
Proof.
  intros Hs. lf (2 + b2n v) (4 + if ice_switch c then 2 else 0) 1 1 1.
  unfold percell_substep, save_content, update_th_rv.
  destruct (ice_switch c), tc; dim c; rewrite D; case_bools; vm_compute; reflexivity.
Qed.
Lemma g_first tc nf v : 2 + b2n v <= size RP ->
  good size (percell_substep c tc true false) (withs [LAMBDA_D; LAMBDA_K] (base (n_dims c) nf v)) (mid c v).
Proof.
  intros Hs. lf (2 + b2n v) (4 + if ice_switch c then 2 else 0) 1 1 1.
  unfold percell_substep, save_content, update_th_rv, mid.
  destruct (ice_switch c), tc; dim c; rewrite D; case_bools; vm_compute; reflexivity.
Qed.
Lemma g_mid tc v : 2 + b2n v <= size RP ->
  good size (percell_substep c tc false false) (mid c v) (mid c v).
Proof.
  intros Hs. lf (2 + b2n v) (4 + if ice_switch c then 2 else 0) 1 1 1.
  unfold percell_substep, save_content, update_th_rv, mid.
  destruct (ice_switch c), tc; dim c; rewrite D; case_bools; vm_compute; reflexivity.
Qed.
Lemma g_last tc v : 2 + b2n v <= size RP ->
  good size (percell_substep c tc false true) (mid c v) (withs [LAMBDA_D; LAMBDA_K] (base (n_dims c) true v)).
Proof.
  intros Hs. lf (2 + b2n v) (4 + if ice_switch c then 2 else 0) 1 1 1.
  unfold percell_substep, save_content, update_th_rv, mid.
  destruct (ice_switch c), tc; dim c; rewrite D; case_bools; vm_compute; reflexivity.
Qed.

Lemma g_percell tc kk nf v : 1 <= kk -> 2 + b2n v <= size RP ->
  good size (percell c tc kk) (withs [LAMBDA_D; LAMBDA_K] (base (n_dims c) nf v))
       (withs [LAMBDA_D; LAMBDA_K] (base (n_dims c) true v)).
Proof.
  intros Hk Hs. unfold percell. destruct kk as [|[|m]]; [lia| |].
  - cbn [seq map concat Nat.sub Nat.eqb]. rewrite app_nil_r. now apply g_first_last.
  - replace (seq 0 (S (S m))) with (0 :: seq 1 m ++ [S m]) by (rewrite <- seq_S; reflexivity).
    cbn [map concat]. rewrite map_app, concat_app. cbn [map concat]. rewrite app_nil_r.
    replace (S (S m) - 1) with (S m) by lia.
    eapply good_app; [apply g_first; eauto|]. apply good_app with (mid c v).
    + apply good_concat_map. intros i Hi. apply in_seq in Hi. destruct (Nat.eqb_spec i 0); [lia|].
      destruct (Nat.eqb_spec i (S m)); [lia|]. now apply g_mid.
    + rewrite Nat.eqb_refl. cbn [Nat.eqb]. now apply g_last.
Qed.

Lemma exact_no_ice : exact_sstp_cond c = true -> ice_switch c = false.
Proof.
  intros E. revert Hacc. unfold accepted. rewrite E. destruct (ice_switch c); [|reflexivity].
  rewrite !andb_true_iff, ?orb_true_r. cbn. intuition discriminate.
Qed.

Lemma g_perparticle kk nf v : exact_sstp_cond c = true ->
  (if nomix_adaptive c then 4 else 7) + b2n v + b2n (nf && sstp_cond_mix c) <= size RP -> 2 + b2n v <= size RP ->
  good size (perparticle c kk) (withs [LAMBDA_D; LAMBDA_K] (base (n_dims c) nf v))
       (withs [LAMBDA_D; LAMBDA_K] (base (n_dims c) false v)).
Proof.
  intros He Hs Hs2. assert (Hi := exact_no_ice He).
  assert (Hnp : (if adaptive_sstp_cond c then 1 else 0) <= size NP) by (pose proof size_np; destruct (adaptive_sstp_cond c); lia).
  unfold perparticle, sstp_slots, save_content, calc_change, update_th_rv. rewrite Hi.
  destruct (sstp_cond_mix c) eqn:Em; cbn [negb when app].
  - (* with mixing: not adaptive *)
    assert (Ea : adaptive_sstp_cond c = false).
    { revert Hacc. unfold accepted. rewrite He, Em. destruct (adaptive_sstp_cond c); [|reflexivity].
      rewrite !andb_true_iff. cbn. intuition discriminate. }
    assert (En : nomix_adaptive c = false) by (unfold nomix_adaptive; rewrite Ea; apply andb_false_r).
    rewrite En in *. rewrite Ea. cbn [app map]. rewrite andb_true_r in Hs.
    set (h := withs [DRV; DTH; DRHOD; DP; RWX; DRWX; TP; LAMBDA_D; LAMBDA_K] (base (n_dims c) nf v)).
    apply (good_app size [Take DRV; Take DTH; Take DRHOD; Take DP; Take RWX; Take DRWX; Take TP; Use DRV; Use DTH; Use DRHOD; Use DP] _ _ h).
    + lf (7 + b2n v + b2n nf) 4 1 1 1. subst h. dim c; rewrite D; case_bools; vm_compute; reflexivity.
    + eapply good_app; [apply good_repeat|].
      * lf (7 + b2n v + b2n nf) 4 1 1 1. subst h. dim c; rewrite D; case_bools; vm_compute; reflexivity.
      * lf (7 + b2n v + b2n nf) 4 1 1 1. subst h. dim c; rewrite D; case_bools; vm_compute; reflexivity.
  - destruct (adaptive_sstp_cond c) eqn:Ea.
    + lf (max (2 + b2n v) ((if nomix_adaptive c then 4 else 7) + b2n v)) 4 1 1 1.
      destruct (nomix_adaptive c); dim c; rewrite D; case_bools; vm_compute; reflexivity.
    + assert (En : nomix_adaptive c = false) by (unfold nomix_adaptive; rewrite Ea; apply andb_false_r). rewrite En in *.
      cbn [app map].
      set (h := withs [DRV; DTH; DRHOD; DP; RWX; DRWX; TP; DRW_MOM3; LAMBDA_D; LAMBDA_K] (base (n_dims c) false v)).
      apply (good_app size [Take DRW_MOM3; Take NF; Use NF; Use NF; Drop NF; Take DRV; Take DTH; Take DRHOD; Take DP; Take RWX; Take DRWX; Take TP; Use DRV; Use DTH; Use DRHOD; Use DP] _ _ h).
      * lf (7 + b2n v) 4 1 1 1. subst h. dim c; rewrite D; case_bools; vm_compute; reflexivity.
      * eapply good_app; [apply good_repeat|].
        -- lf (7 + b2n v) 4 1 1 1. subst h. dim c; rewrite D; case_bools; vm_compute; reflexivity.
        -- lf (7 + b2n v) 4 1 1 1. subst h. dim c; rewrite D; case_bools; vm_compute; reflexivity.
Qed.

Lemma g_chem dsl dsc rct m nf v : 3 <= size RP ->
  exists v', (v' = true -> v = true) /\
  good size (concat (repeat (chem_substep dsl dsc rct) m)) (base (n_dims c) nf v) (base (n_dims c) nf v').
Proof.
  intros Hs. destruct m as [|m]; [exists v; split; [auto|apply good_nil]|].
  exists false. split; [discriminate|]. cbn [repeat concat]. apply good_app with (base (n_dims c) nf false); [|apply good_repeat].
  - lf 3 4 1 1 1. unfold chem_substep. dim c; rewrite D; case_bools; vm_compute; reflexivity.
  - lf 3 4 1 1 1. unfold chem_substep. dim c; rewrite D; case_bools; vm_compute; reflexivity.
Qed.

(** *** step_async *)
Lemma g_coal v m : 1 + b2n v <= size RP ->
  good size (concat (map (fun i => coal c (i + 1 =? m)) (seq 0 m))) (base (n_dims c) false v) (base (n_dims c) false v).
Proof.
  intros Hs. apply good_concat_map. intros i _. lf (1 + b2n v) 4 1 1 1. unfold coal, vterm.
  destruct (i + 1 =? m), (beard77fast c); dim c; rewrite D; case_bools; vm_compute; reflexivity.
Qed.

Lemma g_turb v : 1 + b2n v <= size RP -> good size (local [TAU; R_NORMAL] []) (base (n_dims c) false v) (base (n_dims c) false v).
Proof. intros Hs. lf (1 + b2n v) 4 1 1 1. dim c; rewrite D; case_bools; vm_compute; reflexivity. Qed.
Lemma g_dot_ss v : 1 + b2n v <= size RP -> good size turb_dot_ss (base (n_dims c) false v) (base (n_dims c) false v).
Proof. intros Hs. lf (1 + b2n v) 4 1 1 1. dim c; rewrite D; case_bools; vm_compute; reflexivity. Qed.

Lemma g_adve pred v : (pred = true -> n_dims c = 0 \/ 3 + b2n v <= size RP) ->
  good size (adve c pred) (base (n_dims c) false v) (base (n_dims c) false v).
Proof.
  intros Hp. unfold adve. apply good_when; [|reflexivity]. intros Hnd. destruct pred.
  - destruct (Hp eq_refl) as [E|Hs]; [rewrite E in Hnd; discriminate|].
    lf (3 + b2n v) 4 1 (n_dims c) 1. unfold adve_calc, cell_indices. dim c; rewrite D in *; try discriminate; case_bools; vm_compute; reflexivity.
  - lf 0 4 1 1 1. unfold adve_calc. dim c; rewrite D in *; try discriminate; case_bools; vm_compute; reflexivity.
Qed.

Lemma g_subs v : 2 <= n_dims c -> good size [Use K] (base (n_dims c) false v) (base (n_dims c) false v).
Proof. intros Hn. lf 0 4 1 1 1. dim c; rewrite D in *; try lia; case_bools; vm_compute; reflexivity. Qed.

Lemma g_src v : 2 + b2n v <= size RP -> good size (src_distro c) (base (n_dims c) false v) (base (n_dims c) false v).
Proof.
  intros Hs. lf (2 + b2n v) 4 1 (n_dims c) 1. unfold src_distro, init_T_freeze, cell_indices, init_xyz.
  destruct (src_matching c), (ice_switch c && negb (time_dep_ice_nucl c)); dim c; rewrite D; case_bools; vm_compute; reflexivity.
Qed.

Lemma g_rlx bins v : 2 <= n_dims c -> chem_switch c = false -> 1 + b2n v <= size RP ->
  good size (rlx c bins) (base (n_dims c) false v) (base (n_dims c) false v).
Proof.
  intros Hn Hc Hs. unfold rlx. rewrite Hc. apply good_concat_map. intros b _. cbn [when app].
  eapply good_app; [apply good_repeat|].
  - lf (1 + b2n v) 4 1 1 1. unfold rlx_bin. dim c; rewrite D in *; try lia; case_bools; vm_compute; reflexivity.
  - lf (1 + b2n v) 4 1 1 1. unfold init_T_freeze, init_xyz.
    destruct (ice_switch c && negb (time_dep_ice_nucl c)); dim c; rewrite D in *; try lia; case_bools; vm_compute; reflexivity.
Qed.

Lemma g_end v : 1 + b2n v <= size RP ->
  good size (bcnd c ++ post_copy c) (base (n_dims c) false v) (base (n_dims c) false v).
Proof.
  intros Hs. lf (1 + b2n v) 4 1 (size SP) 1. unfold bcnd, post_copy, cell_indices, pool_size.
  destruct (distmem c), (periodic_topbot_walls c); dim c; rewrite D; case_bools; vm_compute; reflexivity.
Qed.

Lemma g_diag d nf v : 2 + b2n v <= size RP ->
  (In d [D_select_cons; D_moment; D_mass_dens; D_precip_rate] -> nf = true) ->
  good size (diag_prog c d) (base (n_dims c) nf v) (base (n_dims c) (nf || is_selection d) v).
Proof.
  intros Hs Hd.
  assert (Hnf : nf = true \/ ~ In d [D_select_cons; D_moment; D_mass_dens; D_precip_rate]).
  { destruct nf; [now left|right]. intros X. specialize (Hd X). discriminate. }
  clear Hd.
  lf (2 + b2n v) 4 1 1 1. destruct d; unfold diag_prog, vterm; destruct (beard77fast c);
    (destruct Hnf as [->|Hn]; [|try (exfalso; apply Hn; cbn; tauto)]); dim c; rewrite D; case_bools; vm_compute; reflexivity.
Qed.

Lemma g_drop_nf nf v : good size [Drop NF] (base (n_dims c) nf v) (base (n_dims c) false v).
Proof. lf 0 4 1 1 1. dim c; rewrite D; case_bools; vm_compute; reflexivity. Qed.

Lemma g_mfp nf v : good size [Take LAMBDA_D; Take LAMBDA_K] (base (n_dims c) nf v) (withs [LAMBDA_D; LAMBDA_K] (base (n_dims c) nf v)).
Proof. lf 0 4 1 1 1. dim c; rewrite D; case_bools; vm_compute; reflexivity. Qed.
Lemma g_mfp_drop nf v : good size [Drop LAMBDA_D; Drop LAMBDA_K] (withs [LAMBDA_D; LAMBDA_K] (base (n_dims c) nf v)) (base (n_dims c) nf v).
Proof. lf 0 4 1 1 1. dim c; rewrite D; case_bools; vm_compute; reflexivity. Qed.
End Leaves.

(** ** The temporary vectors suffice *)
Ltac sizes := unfold pool_size, tmp_drp_no;
  repeat match goal with |- context [if ?b then _ else _] => let E := fresh "E" in destruct b eqn:E end.

Lemma perparticle_iff c : perparticle_substeps c <-> exact_sstp_cond c && allow_sstp_cond c = true.
Proof.
  unfold perparticle_substeps, allow_sstp_cond. rewrite andb_true_iff, orb_true_iff, !Nat.ltb_lt. tauto.
Qed.

Lemma mx (b : bool) n m : n <= (if b then max n m else n) /\ (b = true -> m <= (if b then max n m else n)).
Proof. destruct b; split; intros; try discriminate; lia. Qed.

Lemma drp_ge c :
  (n_dims c = 2 -> 2 <= tmp_drp_no c) /\ (allow_sstp_cond c = true -> 2 <= tmp_drp_no c) /\
  (ice_switch c = true -> time_dep_ice_nucl c = true -> 2 <= tmp_drp_no c) /\
  (chem_switch c = true -> 3 <= tmp_drp_no c) /\ (n_dims c = 3 -> 3 <= tmp_drp_no c) /\
  (turb_cond_switch c = true -> 3 <= tmp_drp_no c) /\ (distmem c = true -> 3 <= tmp_drp_no c) /\
  (exact_sstp_cond c && allow_sstp_cond c = true -> (if nomix_adaptive c then 4 else 7) <= tmp_drp_no c) /\
  1 <= tmp_drp_no c.
Proof.
  assert (X : exists a1 a2 a3 a4 a5 a6 a7 a8 a9,
    (1 <= a1 /\ ((n_dims c =? 2) = true -> 2 <= a1)) /\ (a1 <= a2 /\ (allow_sstp_cond c = true -> 2 <= a2)) /\
    (a2 <= a3 /\ (ice_switch c && time_dep_ice_nucl c = true -> 2 <= a3)) /\ (a3 <= a4 /\ (chem_switch c = true -> 3 <= a4)) /\
    (a4 <= a5 /\ ((n_dims c =? 3) = true -> 3 <= a5)) /\ (a5 <= a6 /\ (turb_cond_switch c = true -> 3 <= a6)) /\
    (a6 <= a7 /\ (distmem c = true -> 3 <= a7)) /\
    (a7 <= a8 /\ (allow_sstp_cond c && exact_sstp_cond c && nomix_adaptive c = true -> 4 <= a8)) /\
    (a8 <= a9 /\ (allow_sstp_cond c && exact_sstp_cond c && negb (nomix_adaptive c) = true -> 7 <= a9)) /\ tmp_drp_no c = a9).
  { do 9 eexists. repeat (split; [apply mx|]). reflexivity. }
  destruct X as (a1 & a2 & a3 & a4 & a5 & a6 & a7 & a8 & a9 & (L1 & M1) & (L2 & M2) & (L3 & M3) & (L4 & M4) & (L5 & M5) &
    (L6 & M6) & (L7 & M7) & (L8 & M8) & (L9 & M9) & ->).
  repeat split.
  - intros D. rewrite D in M1. specialize (M1 eq_refl). lia.
  - intros D. specialize (M2 D). lia.
  - intros D1 D2. rewrite D1, D2 in M3. specialize (M3 eq_refl). lia.
  - intros D. specialize (M4 D). lia.
  - intros D. rewrite D in M5. specialize (M5 eq_refl). lia.
  - intros D. specialize (M6 D). lia.
  - intros D. specialize (M7 D). lia.
  - intros D. rewrite andb_comm in D. rewrite D in M8, M9. destruct (nomix_adaptive c); [specialize (M8 eq_refl)|specialize (M9 eq_refl)]; lia.
  - lia.
Qed.
Lemma size_RP c : pool_size c RP = tmp_drp_no c.
Proof. destruct (drp_ge c) as (_ & _ & _ & _ & _ & _ & _ & _ & H). unfold pool_size. lia. Qed.

Lemma size2 c v : accepted c = true -> enough c -> (v = true -> chem_switch c = true /\ no_ccn_at_init c = false) ->
  2 + b2n v <= pool_size c RP.
Proof.
  intros Ha (E1 & E2 & E3 & E4) Hv. rewrite size_RP. destruct (drp_ge c) as (G1 & G2 & G3 & G4 & G5 & G6 & G7 & G8 & G9).
  destruct (chem_switch c) eqn:Ec.
  { specialize (G4 eq_refl). destruct v; unfold b2n; lia. }
  destruct v; [destruct (Hv eq_refl); discriminate|]. change (b2n false) with 0.
  destruct (E4 eq_refl) as (_ & [D|[D|[D|[D|[D|[D1 D2]]]]]]).
  - specialize (G1 D). lia.
  - specialize (G5 D). lia.
  - specialize (G7 D). lia.
  - assert (A : allow_sstp_cond c = true) by (unfold allow_sstp_cond; apply orb_true_iff; left; now apply Nat.ltb_lt).
    specialize (G2 A). lia.
  - assert (A : allow_sstp_cond c = true) by (unfold allow_sstp_cond; apply orb_true_iff; right; now apply Nat.ltb_lt).
    specialize (G2 A). lia.
  - specialize (G3 D1 D2). lia.
Qed.

Lemma size_pp c v : enough c -> perparticle_substeps c -> (v = true -> chem_switch c = true /\ no_ccn_at_init c = false) ->
  (if nomix_adaptive c then 4 else 7) + b2n v <= pool_size c RP.
Proof.
  intros (E1 & E2 & E3 & E4) Hp Hv. destruct v.
  { destruct (Hv eq_refl) as (A & B). destruct (E3 A B). tauto. }
  apply perparticle_iff in Hp. rewrite size_RP. destruct (drp_ge c) as (_ & _ & _ & _ & _ & _ & _ & G8 & _).
  specialize (G8 Hp). change (b2n false) with 0. lia.
Qed.

Lemma size_pred c v : enough c -> pred_corr c = true -> (v = true -> chem_switch c = true /\ no_ccn_at_init c = false) ->
  n_dims c = 0 \/ 3 + b2n v <= pool_size c RP.
Proof.
  intros (E1 & E2 & E3 & E4) Hp Hv. rewrite size_RP. destruct (drp_ge c) as (G1 & G2 & G3 & G4 & G5 & G6 & G7 & G8 & G9).
  destruct v.
  { destruct (Hv eq_refl) as (A & B). destruct (E3 A B). tauto. }
  destruct (no_ccn_at_init c); [left; auto|]. change (b2n false) with 0.
  destruct (chem_switch c) eqn:Ec.
  { left. destruct (E3 eq_refl eq_refl). auto. }
  destruct (E4 eq_refl) as (F & _). destruct (F Hp) as [D|[D|[D|[D|D]]]]; [now left|right..].
  - specialize (G5 D). lia.
  - specialize (G6 D). lia.
  - specialize (G7 D). lia.
  - apply perparticle_iff in D. specialize (G8 D). destruct (nomix_adaptive c); lia.
Qed.

Definition between (c : cfg) (p : proto) (H : N) : Prop :=
  if inited p then
    exists nf v, H = base (n_dims c) nf v /\ (v = true -> chem_switch c = true /\ no_ccn_at_init c = false) /\
                 (selected p = true -> nf = true)
  else H = 0%N.

Lemma acc_facts c : accepted c = true ->
  1 <= sstp_cond c /\ (chem_switch c = true -> src_on c = false /\ rlx_switch c = false) /\
  (rlx_switch c = true -> 2 <= n_dims c) /\ (subs_switch c = true -> 2 <= n_dims c) /\
  (sstp_cond_mix c = true -> adaptive_sstp_cond c = false \/ exact_sstp_cond c = false) /\
  (turb_cond_switch c = true -> 2 <= n_dims c).
Proof.
  unfold accepted. rewrite !andb_true_iff, !negb_true_iff. intros H. decompose [and] H. clear H.
  repeat match goal with X : (_ <=? _) = true |- _ => apply Nat.leb_le in X end.
  repeat match goal with X : _ && (n_dims c <? 2) = false |- _ => apply andb_false_iff in X; rewrite Nat.ltb_ge in X end.
  repeat split; intros.
  - lia.
  - destruct (src_on c); [|reflexivity]. destruct (chem_switch c); discriminate.
  - destruct (rlx_switch c); [|reflexivity]. destruct (chem_switch c); discriminate.
  - intuition congruence.
  - intuition congruence.
  - destruct (adaptive_sstp_cond c); [|now left]. destruct (exact_sstp_cond c); [|now right].
    destruct (sstp_cond_mix c); discriminate.
  - intuition congruence.
Qed.

Lemma substeps_pos c s kk : 1 <= s -> substeps c s kk -> 1 <= kk.
Proof. intros Hs [->|(_ & _ & H)]; lia. Qed.
Lemma substeps_gt c s kk : substeps c s kk -> 1 < kk -> 1 < s.
Proof. intros [->|(_ & H & _)]; lia. Qed.

Lemma step_good c p e q H :
  accepted c = true -> enough c -> allowed c p e q -> between c p H ->
  exists H', good (pool_size c) (prog c e) H H' /\ between c q H'.
Proof.
  intros Ha He Hal Hb. destruct (acc_facts c Ha) as (F1 & F2 & F3 & F4 & F5 & F6).
  assert (Hinit : forall p', inited p' = true -> between c p' H -> exists nf v, H = base (n_dims c) nf v /\
            (v = true -> chem_switch c = true /\ no_ccn_at_init c = false) /\ (selected p' = true -> nf = true) /\
            2 + b2n v <= pool_size c RP).
  { intros p' Hi Hb'. unfold between in Hb'. rewrite Hi in Hb'. destruct Hb' as (nf & v & -> & Hv & Hs).
    exists nf, v. repeat split; auto; try (now apply Hv). now apply size2. }
  destruct Hal.
  - (* Init *)
    unfold between in Hb. rewrite H0 in Hb. subst H. destruct He as (E1 & Er).
    assert (Hs : 1 + b2n (chem_switch c) <= pool_size c RP).
    { rewrite size_RP. destruct (drp_ge c) as (_ & _ & _ & G4 & _ & _ & _ & _ & G9).
      destruct (chem_switch c); unfold b2n; [specialize (G4 eq_refl)|]; lia. }
    destruct (g_init c Ha g Hs H1 E1) as (v & Hv & Hg). exists (base (n_dims c) false v). split; [exact Hg|].
    unfold between. cbn [inited selected]. exists false, v. split; [reflexivity|]. split; [auto|discriminate].
  - (* SyncIn *)
    destruct (Hinit p H0 Hb) as (nf & v & -> & Hv & _ & Hs). eexists. split; [apply (g_drop_nf c Ha)|].
    unfold between. cbn [inited selected]. exists false, v. split; [reflexivity|]. split; [auto|discriminate].
  - (* StepCond *)
    destruct (Hinit p H1 Hb) as (nf & v & -> & Hv & _ & Hs). cbn [prog].
    assert (Hend : exists nf2 v2, (v2 = true -> v = true) /\
              good (pool_size c) (step_cond_prog c o) (base (n_dims c) nf v) (base (n_dims c) nf2 v2)).
    2:{ destruct Hend as (nf2 & v2 & Hvv & Hg). eexists. split; [exact Hg|].
        unfold between. cbn [inited selected]. exists nf2, v2. split; [reflexivity|]. split; [auto|discriminate]. }
    assert (Hs1 : 1 + b2n nf + b2n v <= pool_size c RP) by (destruct nf; unfold b2n in *; lia).
    unfold step_cond_prog.
    (* in-cloud time *)
    assert (A1 := g_incloud c Ha nf v Hs1).
    (* ice *)
    assert (A2 : exists nf1, (ice_switch c = false -> nf1 = nf) /\
              good (pool_size c) (when (ice_switch c && o_ice_nucl o) (ice_nucl_melt c)) (base (n_dims c) nf v) (base (n_dims c) nf1 v)).
    { destruct (ice_switch c && o_ice_nucl o) eqn:E; cbn [when].
      - exists true. split; [|now apply g_nucl]. intros X. rewrite X in E. discriminate.
      - exists nf. split; [auto|apply good_nil]. }
    destruct A2 as (nf1 & Hnf1 & A2).
    (* condensation *)
    assert (A3 : exists nf2, good (pool_size c)
       (when (o_cond o)
         ([Take LAMBDA_D; Take LAMBDA_K]
          ++ (if exact_sstp_cond c && ((1 <? k o) || (1 <? a o)) then perparticle c (k o) else percell c (o_turb_cond o) (k o))
          ++ [Drop LAMBDA_D; Drop LAMBDA_K])) (base (n_dims c) nf1 v) (base (n_dims c) nf2 v)).
    { destruct (o_cond o); cbn [when]; [|exists nf1; apply good_nil].
      destruct (exact_sstp_cond c && ((1 <? k o) || (1 <? a o))) eqn:E.
      - exists false. eapply good_app; [apply (g_mfp c Ha)|]. eapply good_app; [|apply (g_mfp_drop c Ha)].
        apply andb_true_iff in E as (X1 & X2). rewrite orb_true_iff, !Nat.ltb_lt in X2.
        assert (Hp : perparticle_substeps c).
        { split; [exact X1|]. destruct X2 as [X2|X2]; [left|right]; eapply substeps_gt; eauto. }
        assert (Hpp := size_pp c v He Hp Hv). destruct He as (_ & E2 & _). specialize (E2 Hp).
        apply g_perparticle; auto. rewrite E2, andb_false_r. cbn [b2n]. lia.
      - exists true. eapply good_app; [apply (g_mfp c Ha)|]. eapply good_app; [|apply (g_mfp_drop c Ha)].
        apply g_percell; auto. eapply substeps_pos; [exact F1|exact H4]. }
    destruct A3 as (nf2 & A3).
    (* chemistry *)
    destruct (o_dsl o || o_dsc o || o_rct o) eqn:Eo; cbn [when].
    + assert (Hs3 : 3 <= pool_size c RP).
      { rewrite size_RP. destruct (drp_ge c) as (_ & _ & _ & G4 & _). apply G4, H3. reflexivity. }
      destruct (g_chem c Ha (o_dsl o) (o_dsc o) (o_rct o) (kc o) nf2 v Hs3) as (v2 & Hv2 & A4).
      exists nf2, v2. split; [exact Hv2|]. eapply good_app; [exact A1|]. eapply good_app; [exact A2|]. eapply good_app; [exact A3|exact A4].
    + exists nf2, v. split; [auto|]. eapply good_app; [exact A1|]. eapply good_app; [exact A2|]. eapply good_app; [exact A3|apply good_nil].
  - (* StepAsync *)
    destruct (Hinit p H1 Hb) as (nf & v & -> & Hv & _ & Hs). cbn [prog].
    assert (Hs1 : 1 + b2n v <= pool_size c RP) by lia.
    assert (Hs1' : 1 + b2n false + b2n v <= pool_size c RP) by (change (b2n false) with 0; lia).
    exists (base (n_dims c) false v). split.
    2:{ unfold between. cbn [inited selected]. exists false, v. split; [reflexivity|]. split; [auto|discriminate]. }
    unfold step_async_prog.
    eapply good_app; [apply (g_drop_nf c Ha)|].
    eapply good_app; [apply good_when; [intros _; now apply (g_vterm c Ha)|reflexivity]|].
    eapply good_app; [apply good_when; [intros _; now apply (g_coal c Ha)|reflexivity]|].
    eapply good_app; [apply good_when; [intros _; now apply (g_turb c Ha)|reflexivity]|].
    eapply good_app; [apply good_when; [intros _; now apply (g_dot_ss c Ha)|reflexivity]|].
    eapply good_app; [apply good_when; [intros _; apply (g_adve c Ha)|reflexivity]|].
    { intros Hpr. apply size_pred; auto. }
    eapply good_app; [apply good_when; [intros X; apply (g_subs c Ha); auto|reflexivity]|].
    eapply good_app; [apply good_when; [intros _; now apply (g_src c Ha)|reflexivity]|].
    apply good_app with (base (n_dims c) false v).
    { destruct (o_src_sizes o) eqn:En; [apply good_nil|]. apply g_add; auto.
      destruct (chem_switch c) eqn:Ec; [|reflexivity]. destruct (F2 eq_refl) as (X & _).
      rewrite H6 in X by lia. discriminate. }
    apply good_app with (base (n_dims c) false v); [|now apply (g_end c Ha)].
    destruct (o_rlx o) as [|b bs] eqn:Eb; [apply good_nil|]. rewrite <- Eb in *.
    assert (Hrl : rlx_switch c = true) by (apply H7; rewrite Eb; discriminate).
    apply g_rlx; auto. destruct (chem_switch c) eqn:Ec; [|reflexivity]. destruct (F2 eq_refl). congruence.
  - (* selection *)
    destruct (Hinit p H0 Hb) as (nf & v & -> & Hv & _ & Hs). eexists. split.
    + cbn [prog]. apply (g_diag c Ha); auto. intros X. cbn in X, H1.
      destruct H1 as [<-|[<-|[<-|[]]]]; intuition discriminate.
    + unfold between. cbn [inited selected]. exists (nf || is_selection d), v. split; [reflexivity|]. split; [auto|].
      intros _. cbn in H1. destruct H1 as [<-|[<-|[<-|[]]]]; apply orb_true_r.
  - destruct (Hinit p H0 Hb) as (nf & v & -> & Hv & _ & Hs). eexists. split.
    + cbn [prog]. apply (g_diag c Ha); auto. cbn. intuition discriminate.
    + unfold between. cbn [inited selected]. exists (nf || is_selection D_precip_rate_ice), v. split; [reflexivity|]. split; [auto|].
      intros _. apply orb_true_r.
  - destruct (Hinit p H0 Hb) as (nf & v & -> & Hv & Hn & Hs). eexists. split.
    + cbn [prog]. apply (g_diag c Ha); auto.
    + unfold between. rewrite H0. exists (nf || is_selection d), v. split; [reflexivity|]. split; [auto|].
      intros X. rewrite (Hn X). reflexivity.
  - destruct (Hinit p H0 Hb) as (nf & v & -> & Hv & Hn & Hs). eexists. split.
    + cbn [prog]. apply (g_diag c Ha); auto. cbn. intuition discriminate.
    + unfold between. rewrite H0. exists (nf || is_selection D_other), v. split; [reflexivity|]. split; [auto|].
      intros X. rewrite (Hn X). reflexivity.
Qed.

Lemma legal_good c : accepted c = true -> enough c -> forall h p H,
  legal c p h -> between c p H -> exists H', good (pool_size c) (concat (map (prog c) h)) H H'.
Proof.
  intros Ha He. induction h as [|e h IH]; intros p H Hl Hb; inversion Hl as [|p' e' q h' Hal Hl']; subst; cbn [map concat].
  - eexists. apply good_nil.
  - destruct (step_good c p e q H Ha He Hal Hb) as (H1 & Hg & Hb1). destruct (IH _ _ Hl' Hb1) as (H2 & Hg2).
    exists H2. eapply good_app; eauto.
Qed.

(** ** Necessity: histories which fail otherwise *)
Definition idle_cond (c : cfg) (cond : bool) : copts :=
  {| o_cond := cond; o_ice_nucl := false; o_turb_cond := false; o_dsl := false; o_dsc := false; o_rct := false;
     k := sstp_cond c; a := sstp_cond_act c; kc := 0 |}.
Definition only_adve (pred : bool) : aopts :=
  {| o_sedi := false; o_coal := false; o_acond := false; o_turb_adve := false; o_aturb_cond := false; o_adve := true;
     o_pred := pred; o_subs := false; o_src_distro := false; o_src_sizes := 0; o_rlx := []; kcoal := 0 |}.

Lemma legal_cond c cond h : legal c {| inited := true; cond_next := false; async_next := true; selected := false |} h ->
  legal c at_start (Init 1 :: SyncIn :: StepCond (idle_cond c cond) :: h).
Proof.
  intros Hl. eapply legal_cons; [apply ok_init; [reflexivity|intros; lia]|].
  eapply legal_cons; [apply ok_sync; reflexivity|].
  eapply legal_cons; [|exact Hl]. apply ok_cond; cbn [o_turb_cond o_dsl o_dsc o_rct idle_cond k a orb]; try reflexivity; try discriminate; now left.
Qed.
Lemma legal_adve c pred : (pred = true -> pred_corr c = true) ->
  legal c {| inited := true; cond_next := false; async_next := true; selected := false |} [StepAsync (only_adve pred)].
Proof.
  intros Hp. eapply legal_cons; [|apply legal_nil]. apply ok_async; cbn [only_adve o_aturb_cond o_pred o_subs o_src_distro o_src_sizes o_rlx];
    try reflexivity; try discriminate; auto; try lia.
Qed.
Lemma legal_select_cond c : legal c at_start [Init 1; SyncIn; Diag D_select; StepCond (idle_cond c true)].
Proof.
  eapply legal_cons; [apply ok_init; [reflexivity|intros; lia]|].
  eapply legal_cons; [apply ok_sync; reflexivity|].
  eapply legal_cons; [apply ok_select; [reflexivity|cbn; tauto]|].
  eapply legal_cons; [|apply legal_nil]. apply ok_cond; cbn [o_turb_cond o_dsl o_dsc o_rct idle_cond k a orb]; try reflexivity; try discriminate; now left.
Qed.
Lemma legal_activated c : legal c at_start [Init 1; Diag D_rw_ge_rc].
Proof.
  eapply legal_cons; [apply ok_init; [reflexivity|intros; lia]|].
  eapply legal_cons; [apply ok_select; [reflexivity|cbn; tauto]|apply legal_nil].
Qed.

Lemma peak_step p l m H H' N : final l H = Some H' -> N <= peak p m H' -> N <= peak p (l ++ m) H.
Proof. intros F P. rewrite peak_app, F. lia. Qed.
Lemma peak_head p l m H N : N <= peak p l H -> N <= peak p (l ++ m) H.
Proof. intros P. rewrite peak_app. destruct (final l H); lia. Qed.

(** the number of vectors in the pool *)
Lemma drp_eq c : tmp_drp_no c =
  if allow_sstp_cond c && exact_sstp_cond c then (if nomix_adaptive c then 4 else 7)
  else if chem_switch c || (n_dims c =? 3) || turb_cond_switch c || distmem c then 3
  else if (n_dims c =? 2) || allow_sstp_cond c || (ice_switch c && time_dep_ice_nucl c) then 2 else 1.
Proof.
  unfold tmp_drp_no.
  destruct (n_dims c =? 2), (allow_sstp_cond c), (ice_switch c && time_dep_ice_nucl c), (chem_switch c), (n_dims c =? 3),
    (turb_cond_switch c), (distmem c), (exact_sstp_cond c), (nomix_adaptive c); reflexivity.
Qed.

Section Nec.
Variable c : cfg.
Hypothesis Hacc : accepted c = true.
Hypothesis Hall : forall h, legal c at_start h -> exists y, run_history c h = Ok y.

Lemma all_peak h N : legal c at_start h -> N <= peak RP (concat (map (prog c) h)) 0 -> N <= tmp_drp_no c.
Proof.
  intros Hl HN. destruct (Hall h Hl) as (y & Hy). unfold run_history in Hy.
  assert (X : exists y, run (concat (map (prog c) h)) (fresh (pool_size c)) = Ok y) by eauto.
  apply run_fresh_ok in X as (_ & P). specialize (P RP). rewrite size_RP in P. lia.
Qed.

Definition v0 := chem_switch c && negb (no_ccn_at_init c).

Lemma final_init : (no_ccn_at_init c = true -> n_dims c = 0) -> final (init_prog c 1) 0 = Some (base (n_dims c) false v0).
Proof.
  intros Hn. unfold init_prog, v0, add_group, vterm, init_T_freeze, cell_indices, init_xyz.
  destruct (no_ccn_at_init c); [rewrite (Hn eq_refl)|]; cbn [negb andb when]; rewrite ?andb_false_r, ?andb_true_r.
  - destruct (beard77fast c); vm_compute; reflexivity.
  - clear Hn. destruct (beard77fast c), (chem_switch c), (ice_switch c && negb (time_dep_ice_nucl c)); dim c; rewrite D; vm_compute; reflexivity.
Qed.
Lemma final_sync nf v : final sync_in_prog (base (n_dims c) nf v) = Some (base (n_dims c) false v).
Proof. dim c; rewrite D; case_bools; vm_compute; reflexivity. Qed.
Lemma final_select nf v : final (diag_prog c D_select) (base (n_dims c) nf v) = Some (base (n_dims c) true v).
Proof. dim c; rewrite D; case_bools; vm_compute; reflexivity. Qed.
Lemma final_incloud nf v : final (when (diag_incloud_time c) (local [RC2_incloud] [])) (base (n_dims c) nf v) = Some (base (n_dims c) nf v).
Proof. destruct (diag_incloud_time c); dim c; rewrite D; case_bools; vm_compute; reflexivity. Qed.
Lemma final_idle nf v : final (step_cond_prog c (idle_cond c false)) (base (n_dims c) nf v) = Some (base (n_dims c) nf v).
Proof.
  unfold step_cond_prog, idle_cond. cbn [o_ice_nucl o_cond o_dsl o_dsc o_rct]. rewrite andb_false_r. cbn [when orb app]. rewrite app_nil_r.
  apply final_incloud.
Qed.

Lemma need_indices : no_ccn_at_init c = true -> n_dims c = 0.
Proof.
  intros Hn. destruct (Nat.eq_dec (n_dims c) 0) as [|N0]; [auto|exfalso].
  destruct (Hall [Init 1; SyncIn; StepCond (idle_cond c false); StepAsync (only_adve false)]) as (y & Hy).
  { apply legal_cond. apply legal_adve. discriminate. }
  assert (X : exists y, run_history c [Init 1; SyncIn; StepCond (idle_cond c false); StepAsync (only_adve false)] = Ok y) by eauto.
  unfold run_history in X. apply run_fresh_ok in X as ((H' & F) & _). revert F.
  cbn [map concat prog]. unfold init_prog, vterm, step_cond_prog, idle_cond, only_adve, step_async_prog.
  cbn [o_ice_nucl o_cond o_dsl o_dsc o_rct o_sedi o_coal o_acond o_turb_adve o_aturb_cond o_adve o_pred]. rewrite Hn, andb_false_r. cbn [negb when orb app].
  unfold adve, adve_calc. dim c; [congruence|rewrite D..]; destruct (beard77fast c), (diag_incloud_time c); cbn; discriminate.
Qed.

Lemma pp_slots n nf v : 
  n <= (if nomix_adaptive c then 4 else 7) + b2n (sstp_cond_mix c && nf) + b2n v ->
  n <= peak RP (perparticle c (sstp_cond c)) (withs [LAMBDA_D; LAMBDA_K] (base (n_dims c) nf v)).
Proof.
  intros Hn. unfold perparticle. rewrite app_assoc, app_assoc. rewrite <- (app_assoc (when _ _)).
  apply peak_head. unfold sstp_slots, save_content.
  destruct (sstp_cond_mix c), (nomix_adaptive c), (adaptive_sstp_cond c), (ice_switch c); dim c; rewrite D; case_bools; vm_compute; vm_compute in Hn; lia.
Qed.

Lemma pp_branch nf v n : perparticle_substeps c -> 
  n <= peak RP (perparticle c (sstp_cond c)) (withs [LAMBDA_D; LAMBDA_K] (base (n_dims c) nf v)) ->
  n <= peak RP (step_cond_prog c (idle_cond c true)) (base (n_dims c) nf v).
Proof.
  intros Hp Hn. unfold step_cond_prog, idle_cond. cbn [o_ice_nucl o_cond o_dsl o_dsc o_rct k a]. rewrite andb_false_r. cbn [when orb].
  eapply peak_step; [apply final_incloud|]. cbn [app]. change (Take LAMBDA_D :: Take LAMBDA_K :: ?l) with ([Take LAMBDA_D; Take LAMBDA_K] ++ l).
  apply perparticle_iff in Hp. unfold allow_sstp_cond in Hp. rewrite Hp. rewrite app_nil_r.
  eapply peak_step; [apply (g_mfp c Hacc nf v)|]. apply peak_head. exact Hn.
Qed.

Lemma need_cond n : perparticle_substeps c -> n <= (if nomix_adaptive c then 4 else 7) + b2n v0 -> n <= tmp_drp_no c.
Proof.
  intros Hp Hn. apply (all_peak [Init 1; SyncIn; StepCond (idle_cond c true)]); [apply legal_cond, legal_nil|].
  cbn [map concat prog]. eapply peak_step; [apply final_init, need_indices|]. eapply peak_step; [apply final_sync|].
  apply peak_head. apply pp_branch; [exact Hp|]. apply pp_slots. lia.
Qed.
Lemma need_select_cond n : perparticle_substeps c -> sstp_cond_mix c = true ->
  n <= (if nomix_adaptive c then 4 else 7) + 1 + b2n v0 -> n <= tmp_drp_no c.
Proof.
  intros Hp Hm Hn. apply (all_peak [Init 1; SyncIn; Diag D_select; StepCond (idle_cond c true)]); [apply legal_select_cond|].
  cbn [map concat prog]. eapply peak_step; [apply final_init, need_indices|]. eapply peak_step; [apply final_sync|].
  eapply peak_step; [apply final_select|].
  apply peak_head. apply pp_branch; [exact Hp|]. apply pp_slots. rewrite Hm. change (b2n (true && true)) with 1. lia.
Qed.
Lemma need_pred n : pred_corr c = true -> n_dims c <> 0 -> n <= 3 + b2n v0 -> n <= tmp_drp_no c.
Proof.
  intros Hp Hd Hn. apply (all_peak [Init 1; SyncIn; StepCond (idle_cond c false); StepAsync (only_adve true)]).
  { apply legal_cond, legal_adve. auto. }
  cbn [map concat prog]. eapply peak_step; [apply final_init, need_indices|]. eapply peak_step; [apply final_sync|].
  eapply peak_step; [apply final_idle|]. apply peak_head.
  unfold step_async_prog, only_adve. cbn [o_ice_nucl o_cond o_dsl o_dsc o_rct o_sedi o_coal o_acond o_turb_adve o_aturb_cond o_adve o_pred o_subs o_src_distro o_src_sizes o_rlx when orb].
  unfold adve. eapply peak_step; [apply (g_drop_nf c Hacc)|]. cbn [app]. apply peak_head. generalize v0 Hn. clear Hn. intros v Hn.
  unfold local, adve_calc, cell_indices. dim c; [congruence|rewrite D..]; case_bools; vm_compute; vm_compute in Hn; lia.
Qed.
Lemma need_activated : 2 <= tmp_drp_no c.
Proof.
  apply (all_peak [Init 1; Diag D_rw_ge_rc]); [apply legal_activated|].
  cbn [map concat prog]. eapply peak_step; [apply final_init, need_indices|]. apply peak_head. generalize v0. intros v.
  unfold diag_prog. dim c; rewrite D; case_bools; vm_compute; lia.
Qed.

Lemma necessary : enough c.
Proof.
  assert (Hmixx : sstp_cond_mix c = true -> nomix_adaptive c = false).
  { intros Hm. destruct (acc_facts c Hacc) as (_ & _ & _ & _ & F5 & _). unfold nomix_adaptive. destruct (F5 Hm) as [->| ->]; [apply andb_false_r|reflexivity]. }
  assert (Hpp : perparticle_substeps c -> tmp_drp_no c = if nomix_adaptive c then 4 else 7).
  { intros Hp. apply perparticle_iff in Hp. rewrite andb_comm in Hp. rewrite drp_eq, Hp. reflexivity. }
  assert (Hnp : ~ perparticle_substeps c -> allow_sstp_cond c && exact_sstp_cond c = false).
  { intros Hp. destruct (allow_sstp_cond c && exact_sstp_cond c) eqn:E; [|reflexivity]. rewrite andb_comm in E. apply perparticle_iff in E. tauto. }
  assert (Hdec : perparticle_substeps c \/ ~ perparticle_substeps c).
  { destruct (exact_sstp_cond c && allow_sstp_cond c) eqn:E; [left; now apply perparticle_iff|right]. intros X. apply perparticle_iff in X. congruence. }
  assert (H2 : perparticle_substeps c -> sstp_cond_mix c = false).
  { intros Hp. destruct (sstp_cond_mix c) eqn:Em; [exfalso|reflexivity].
    assert (X := need_select_cond 8 Hp Em). rewrite (Hpp Hp), (Hmixx eq_refl) in X. assert (8 <= 7); [apply X|]; lia. }
  split; [exact need_indices|]. split; [exact H2|]. split.
  - intros Ec Hn. assert (Ev : v0 = true) by (unfold v0; now rewrite Ec, Hn).
    assert (N : ~ perparticle_substeps c).
    { intros Hp. assert (X := need_cond (S (if nomix_adaptive c then 4 else 7)) Hp). rewrite (Hpp Hp), Ev in X.
      change (b2n true) with 1 in X. lia. }
    split; [exact N|]. intros Hp. destruct (Nat.eq_dec (n_dims c) 0) as [|Nd]; [auto|exfalso].
    assert (X := need_pred 4 Hp Nd). rewrite Ev, drp_eq, (Hnp N), Ec in X. cbn [orb] in X. change (b2n true) with 1 in X. lia.
  - intros Ec. split.
    + intros Hp. destruct (Nat.eq_dec (n_dims c) 0) as [|Nd]; [auto|]. destruct (Nat.eq_dec (n_dims c) 3) as [|N3]; [auto|].
      destruct (turb_cond_switch c) eqn:Et; [auto|]. destruct (distmem c) eqn:Ed; [auto|].
      destruct Hdec as [|N]; [tauto|exfalso].
      assert (X := need_pred 3 Hp Nd). rewrite drp_eq, (Hnp N), Ec, Et, Ed in X. apply Nat.eqb_neq in N3. rewrite N3 in X. cbn [orb] in X.
      destruct (_ || _ || _) in X; lia.
    + assert (X := need_activated).
      destruct (Nat.eq_dec (n_dims c) 2) as [|N2]; [auto|]. destruct (Nat.eq_dec (n_dims c) 3) as [|N3]; [auto|].
      destruct (distmem c) eqn:Ed; [tauto|]. destruct (lt_dec 1 (sstp_cond c)); [tauto|]. destruct (lt_dec 1 (sstp_cond_act c)); [tauto|].
      right; right; right; right; right. destruct (ice_switch c && time_dep_ice_nucl c) eqn:E; [now apply andb_true_iff in E|exfalso].
      assert (A : allow_sstp_cond c = false).
      { unfold allow_sstp_cond. apply orb_false_iff. rewrite !Nat.ltb_ge. lia. }
      assert (T : turb_cond_switch c = false).
      { destruct (turb_cond_switch c) eqn:Et; [|reflexivity]. destruct (acc_facts c Hacc) as (_ & _ & _ & _ & _ & F6).
        assert (Y := F6 Et). destruct (nd_cases c Hacc) as [|[|[|]]]; lia. }
      apply Nat.eqb_neq in N2, N3. rewrite drp_eq, A, Ec, T, Ed, N2, N3, E in X. cbn [andb orb] in X. lia.
Qed.
End Nec.

(** Exactly the configurations for which no legal history of calls runs out of temporary vectors or uses a vector which
    was already given back (or never taken) *)
Theorem C34_enough :
  forall c, accepted c = true ->
    ((forall h, legal c at_start h -> exists y, run_history c h = Ok y) <-> enough c).
Proof.
  intros c Ha. split; [now apply necessary|]. intros He h Hl.
  destruct (legal_good c Ha He h at_start 0%N Hl eq_refl) as (H' & F & P).
  unfold run_history. apply run_fresh_ok. split; [eauto|exact P].
Qed.
Print Assumptions C34_enough.

(** ** Instances *)
(** a three-dimensional run with default options and 10 substeps of condensation: everything the options allow can be used *)
Definition cfg_3d : cfg :=
  {| n_dims := 3; sstp_cond := 10; sstp_cond_act := 1; sstp_cond_mix := true; exact_sstp_cond := false; adaptive_sstp_cond := false;
     ice_switch := true; time_dep_ice_nucl := true; chem_switch := false; turb_cond_switch := false; distmem := true;
     pred_corr := true; beard77fast := true; diag_incloud_time := true; no_ccn_at_init := false; variable_dt_switch := true;
     subs_switch := true; rlx_switch := false; src_on := true; src_matching := false; periodic_topbot_walls := false |}.
Example C34_enough_case : accepted cfg_3d = true /\ enough cfg_3d /\
  exists y, run_history cfg_3d [Init 3; Diag D_rw_ge_rc; Diag D_moment; SyncIn; StepCond (idle_cond cfg_3d true);
                                Diag D_select; Diag D_mass_dens; StepAsync (only_adve true); SyncIn] = Ok y /\
            hold y I <> None /\ hold y NF = None.
Proof.
  split; [reflexivity|]. split.
  - unfold enough, perparticle_substeps. cbn. repeat split; intros; try discriminate; auto; intuition discriminate.
  - eexists. split; [vm_compute; reflexivity|]. split; vm_compute; [discriminate|reflexivity].
Qed.

(** the default options in a parcel (no dimensions): the temporary vectors do not suffice for diag_rw_ge_rc *)
Definition cfg_0d : cfg :=
  {| n_dims := 0; sstp_cond := 1; sstp_cond_act := 1; sstp_cond_mix := true; exact_sstp_cond := false; adaptive_sstp_cond := false;
     ice_switch := false; time_dep_ice_nucl := false; chem_switch := false; turb_cond_switch := false; distmem := false;
     pred_corr := false; beard77fast := false; diag_incloud_time := false; no_ccn_at_init := false; variable_dt_switch := false;
     subs_switch := false; rlx_switch := false; src_on := false; src_matching := false; periodic_topbot_walls := false |}.
Theorem C34_always_enough_refuted :
  ~ (forall c, accepted c = true -> forall h, legal c at_start h -> exists y, run_history c h = Ok y).
Proof.
  intros H. assert (A : accepted cfg_0d = true) by reflexivity. specialize (H _ A).
  apply (C34_enough cfg_0d A) in H. destruct H as (_ & _ & _ & H). destruct (H eq_refl) as (_ & X). cbn in X. intuition (try discriminate; lia).
Qed.
Print Assumptions C34_always_enough_refuted.

(** The library's own flag does not protect a moment asked for after sync_in: the flag says that super-droplets were selected,
    but the vector with the selection is gone. *)
Theorem C34_stale_selection_refuted :
  ~ (forall c h, accepted c = true -> enough c -> selected_before_counting h false = true ->
                 run_history c (h ++ [Diag D_moment]) <> Null).
Proof.
  intros H. refine (H cfg_3d [Init 1; Diag D_select; SyncIn] eq_refl _ eq_refl _).
  - apply C34_enough_case.
  - vm_compute. reflexivity.
Qed.
Print Assumptions C34_stale_selection_refuted.
