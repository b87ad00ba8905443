(** C42: which configurations init accepts *)
From Coq Require Import List Arith NArith ZArith Lia Reals Lra Bool.
From Verif Require Import Base BaseProofs ProtoModel ProtoProps.
Import ListNotations.
Local Open Scope R_scope.

(** ** Specification: what a consistent configuration is, option by option *)
Definition on (b : bool) : Prop := b = true.
Definition extent (n : nat) (d : R) : R := INR (Nat.max 1 n) * d.
Definition dims (o : oinit) : nat :=
  length (filter (fun n => negb (Nat.eqb n 0)) [nx o; ny o; nz o]).
Record consistent_but (o : oinit) (a : args) : Prop := mk_cons {
  c_fields : on (a_th a) /\ on (a_rv a) /\ on (a_rhod a);
  (* Courant numbers: none, or exactly those of the dimensionality *)
  c_courants : (~ on (a_cx a) /\ ~ on (a_cy a) /\ ~ on (a_cz a)) \/
     ((1 <= dims o)%nat /\ on (a_cx a) /\ (on (a_cy a) <-> dims o = 3%nat) /\ (on (a_cz a) <-> (2 <= dims o)%nat));
  c_chem : a_chem a = if chem_sw o then chem_gas_n else 0%nat;
  c_chem_excl : on (chem_sw o) -> src_type o = src_off /\ (n_dry_distros o <= 1)%nat /\ ~ on (rlx_sw o) /\ ~ on (mpi_build o);
  c_src : src_type o <> src_off -> (2 <= dims o)%nat /\ sd_const_multi o = 0%N;
  c_matching : src_type o = src_matching -> (n_dry_distros o <= 1)%nat;
  c_aerosol : (0 < n_dry_distros o)%nat \/ (0 < n_dry_sizes o)%nat;
  c_tail : on (large_tail o) -> sd_conc o <> 0%N;
  c_box_y : (1 <= dims o)%nat -> 0 <= y0 o < y1 o /\ y1 o <= extent (ny o) (dy o);
  c_box_z : (1 <= dims o)%nat -> 0 <= z0 o < z1 o /\ z1 o <= extent (nz o) (dz o);
  c_box_x0 : (1 <= dims o)%nat -> 0 <= x0 o < extent (nx o) (dx o);
  c_dt : dt0 o <> 0;
  c_one_init : ~ (sd_conc o = 0%N /\ sd_const_multi o = 0%N /\ n_dry_sizes o = 0%nat);
  c_coal : on (coal_sw o) -> ~ on (vt_undefined o) /\ ~ on (kernel_undefined o);
  c_sedi : on (sedi_sw o) -> ~ on (vt_undefined o) /\ nz o <> 0%nat;
  c_subs : on (subs_sw o) -> nz o <> 0%nat /\ n_w_LS o = nz o;
  c_turb : on (turb_adve_sw o) \/ on (turb_cond_sw o) -> nz o <> 0%nat /\ length (SGS_mix_len o) = nz o;
  c_conc_factor : n_conc_factor o <> 0%nat -> (2 <= dims o)%nat /\ n_conc_factor o = nz o /\ on (indep_rhod o);
  c_rlx : on (rlx_sw o) -> (2 <= dims o)%nat /\ rlx_bins o <> 0%N /\ 0 < rlx_sd_per_bin o /\ 0 < rlx_timescale o;
  c_press : on (a_p a) <-> on (const_p o);
  c_sstp : (1 <= sstp_cond0 o)%Z;
  c_adaptive : on (adaptive_sstp o) -> on (exact_sstp o) /\ ~ on (sstp_mix o);
  c_nomix : ~ on (sstp_mix o) -> on (exact_sstp o);
  c_act : (1 < sstp_cond_act0 o)%Z -> ~ on (sstp_mix o) /\ on (exact_sstp o) /\ on (adaptive_sstp o);
  c_ice : on (ice_sw o) -> ~ on (coal_sw o) /\ ~ on (rlx_sw o) /\ src_type o <> src_matching /\ ~ on (turb_cond_sw o) /\ ~ on (exact_sstp o)
}.
(** the clauses the code does not enforce, or not in full *)
Record consistent (o : oinit) (a : args) : Prop := mk_consistent {
  c_but : consistent_but o a;
  c_mix_len : forall l, In l (SGS_mix_len o) -> 0 < l;              (* every mixing length is positive *)
  c_box_x1 : (1 <= dims o)%nat -> x0 o < x1 o <= extent (nx o) (dx o);
  c_not_both : sd_conc o = 0%N \/ sd_const_multi o = 0%N;           (* not both *)
  c_supstp : on (rlx_sw o) -> (1 <= supstp_rlx o)%Z                 (* relaxation interval, in steps *)
}.

Lemma dims_eq o : dims o = n_dims o.
Proof. unfold dims, n_dims, nz1. cbn [filter]. destruct (nx o =? 0)%nat, (ny o =? 0)%nat, (nz o =? 0)%nat; reflexivity. Qed.
Lemma dims_le o : (n_dims o <= 3)%nat.
Proof. unfold n_dims, nz1. destruct (nx o =? 0)%nat, (ny o =? 0)%nat, (nz o =? 0)%nat; lia. Qed.
Lemma extent_eq n d : extent n d = m1r n * d.
Proof. unfold extent, m1r. destruct n; [reflexivity|]. reflexivity. Qed.
Lemma off_spec b : b = false <-> ~ on b.
Proof. unfold on. destruct b; split; congruence. Qed.
Lemma and_f a b : (a && b)%bool = false <-> ~ (on a /\ on b).
Proof. unfold on. destruct a, b; cbn; split; intros H; auto; try discriminate; try (intros [? ?]; discriminate); exfalso; apply H; auto. Qed.
Lemma src_on_spec o : on (src_on o) <-> src_type o <> src_off.
Proof. unfold on, src_on. destruct (src_type o); split; congruence. Qed.
Lemma src_match_spec o : on (src_match o) <-> src_type o = src_matching.
Proof. unfold on, src_match. destruct (src_type o); split; congruence. Qed.
Lemma nneg b : on (negb b) <-> ~ on b. Proof. unfold on. destruct b; cbn; split; congruence. Qed.
Lemma on_or a b : on (a || b)%bool <-> on a \/ on b. Proof. unfold on. apply orb_true_iff. Qed.
Lemma on_and a b : on (a && b)%bool <-> on a /\ on b. Proof. unfold on. apply andb_true_iff. Qed.
Lemma on_nlt a b : on (a <? b)%nat <-> (a < b)%nat. Proof. apply Nat.ltb_lt. Qed.
Lemma on_neq a b : on (a =? b)%nat <-> a = b. Proof. apply Nat.eqb_eq. Qed.
Lemma on_Neq a b : on (a =? b)%N <-> a = b. Proof. apply N.eqb_eq. Qed.
Lemma on_Nlt a b : on (a <? b)%N <-> (a < b)%N. Proof. apply N.ltb_lt. Qed.
Lemma on_Zlt a b : on (a <? b)%Z <-> (a < b)%Z. Proof. apply Z.ltb_lt. Qed.
Lemma on_Rlt a b : on (Rltb a b) <-> a < b. Proof. apply Rltb_true. Qed.
Lemma on_Rle a b : on (Rleb a b) <-> a <= b. Proof. apply Rleb_true. Qed.
Lemma on_Req a b : on (Reqb a b) <-> a = b. Proof. apply Reqb_true. Qed.
Lemma on_dec b : on b \/ ~ on b. Proof. unfold on. destruct b; auto. Qed.

Lemma orb_false_split a b : (a || b)%bool = false <-> a = false /\ b = false. Proof. apply orb_false_iff. Qed.
Ltac onify := repeat rewrite ?off_spec, ?on_and, ?on_or, ?nneg, ?on_nlt, ?on_neq, ?on_Neq, ?on_Nlt, ?on_Zlt, ?on_Rlt, ?on_Rle, ?on_Req, ?src_on_spec, ?src_match_spec, <- ?extent_eq, <- ?dims_eq.
Ltac onify_in H := repeat rewrite ?off_spec, ?on_and, ?on_or, ?nneg, ?on_nlt, ?on_neq, ?on_Neq, ?on_Nlt, ?on_Zlt, ?on_Rlt, ?on_Rle, ?on_Req, ?src_on_spec, ?src_match_spec, <- ?extent_eq, <- ?dims_eq in H.

(** first mixing length positive, or none *)
Definition head_pos (l : list R) : Prop := match l with [] => True | x :: _ => 0 < x end.
Lemma rejects_spec o a : init_rejects o a = false <->
  consistent_but o a /\ head_pos (SGS_mix_len o) /\ mul64 (sd_conc o) (sd_const_multi o) = 0%N.
Proof.
  pose proof (dims_le o) as HD. rewrite <- dims_eq in HD.
  unfold init_rejects, bad_courants, bad_chem. split.
  - intros H.
    apply orb_false_iff in H; destruct H as [H K_ice].
    apply orb_false_iff in H; destruct H as [H K_act].
    apply orb_false_iff in H; destruct H as [H K_mixad].
    apply orb_false_iff in H; destruct H as [H K_nomix].
    apply orb_false_iff in H; destruct H as [H K_adapt].
    apply orb_false_iff in H; destruct H as [H K_sstp].
    apply orb_false_iff in H; destruct H as [H K_cp2].
    apply orb_false_iff in H; destruct H as [H K_cp1].
    apply orb_false_iff in H; destruct H as [H K_rlx5].
    apply orb_false_iff in H; destruct H as [H K_rlx4].
    apply orb_false_iff in H; destruct H as [H K_rlx3].
    apply orb_false_iff in H; destruct H as [H K_rlx2].
    apply orb_false_iff in H; destruct H as [H K_rlx1].
    apply orb_false_iff in H; destruct H as [H K_mpi].
    apply orb_false_iff in H; destruct H as [H K_cf3].
    apply orb_false_iff in H; destruct H as [H K_cf2].
    apply orb_false_iff in H; destruct H as [H K_cf1].
    apply orb_false_iff in H; destruct H as [H K_mix].
    apply orb_false_iff in H; destruct H as [H K_sgs].
    apply orb_false_iff in H; destruct H as [H K_subs2].
    apply orb_false_iff in H; destruct H as [H K_tc].
    apply orb_false_iff in H; destruct H as [H K_ta].
    apply orb_false_iff in H; destruct H as [H K_subs1].
    apply orb_false_iff in H; destruct H as [H K_sedi2].
    apply orb_false_iff in H; destruct H as [H K_sedi1].
    apply orb_false_iff in H; destruct H as [H K_coal].
    apply orb_false_iff in H; destruct H as [H K_none].
    apply orb_false_iff in H; destruct H as [H K_mul].
    apply orb_false_iff in H; destruct H as [H K_dt].
    apply orb_false_iff in H; destruct H as [H K_box].
    apply orb_false_iff in H; destruct H as [H K_multisrc].
    apply orb_false_iff in H; destruct H as [H K_tail].
    apply orb_false_iff in H; destruct H as [H K_nodist].
    apply orb_false_iff in H; destruct H as [H K_distchem].
    apply orb_false_iff in H; destruct H as [H K_srcdims].
    apply orb_false_iff in H; destruct H as [H K_match_].
    apply orb_false_iff in H; destruct H as [H K_chemsrc].
    apply orb_false_iff in H; destruct H as [H K_chem].
    apply orb_false_iff in H; destruct H as [H K_courants].
    onify_in K_chem.
    onify_in K_chemsrc.
    onify_in K_match_.
    onify_in K_srcdims.
    onify_in K_distchem.
    onify_in K_nodist.
    onify_in K_tail.
    onify_in K_multisrc.
    onify_in K_box.
    onify_in K_dt.
    onify_in K_none.
    onify_in K_coal.
    onify_in K_sedi1.
    onify_in K_sedi2.
    onify_in K_subs1.
    onify_in K_ta.
    onify_in K_tc.
    onify_in K_subs2.
    onify_in K_sgs.
    onify_in K_cf1.
    onify_in K_cf2.
    onify_in K_cf3.
    onify_in K_mpi.
    onify_in K_rlx1.
    onify_in K_rlx2.
    onify_in K_rlx3.
    onify_in K_rlx4.
    onify_in K_rlx5.
    onify_in K_cp1.
    onify_in K_cp2.
    onify_in K_sstp.
    onify_in K_adapt.
    onify_in K_nomix.
    onify_in K_mixad.
    onify_in K_act.
    onify_in K_ice.
    onify_in H.
    split; [|split].
    2:{ clear -K_mix. unfold head_pos. destruct (SGS_mix_len o); [exact I|]. onify_in K_mix. lra. }
    2:{ clear -K_mul. apply negb_false_iff, N.eqb_eq in K_mul. exact K_mul. }
    constructor.
    + clear -H. destruct (on_dec (a_th a)), (on_dec (a_rv a)), (on_dec (a_rhod a)); tauto.
    + clear -K_courants HD. rewrite <- !dims_eq in K_courants. unfold on. destruct (a_cx a), (a_cy a), (a_cz a), (dims o) as [|[|[|[|n]]]]; cbn in K_courants; try discriminate K_courants; try lia;
        first [left; repeat split; discriminate | right; repeat split; try lia; try discriminate; reflexivity].
    + clear -K_chem. destruct (on_dec (chem_sw o)) as [E|E]; [rewrite E; destruct (Nat.eq_dec (a_chem a) chem_gas_n); tauto|]; rewrite (proj2 (off_spec _) E); destruct (Nat.eq_dec (a_chem a) 0); tauto.
    + clear -K_chemsrc K_distchem K_rlx5 K_mpi. intros E; split; [destruct (src_type o) eqn:ES; [reflexivity| |]; exfalso; apply K_chemsrc; split; auto; discriminate|]; split; [destruct (le_lt_dec (n_dry_distros o) 1); [auto|tauto]|]; tauto.
    + clear -K_srcdims K_multisrc. intros E; split; [destruct (le_lt_dec 2 (dims o)); [auto|exfalso; apply K_srcdims; split; auto]|]; destruct (N.eq_dec (sd_const_multi o) 0); [auto|]; exfalso; apply K_multisrc; split; [lia|auto].
    + clear -K_match_. intros E; destruct (le_lt_dec (n_dry_distros o) 1); [auto|tauto].
    + clear -K_nodist. destruct (n_dry_distros o), (n_dry_sizes o); try lia; exfalso; apply K_nodist; auto.
    + clear -K_tail. intros E E'; tauto.
    + clear -K_box. intros E; assert (0 < dims o)%nat by lia; destruct (Rle_dec 0 (y0 o)), (Rlt_dec (y0 o) (y1 o)), (Rle_dec (y1 o) (extent (ny o) (dy o))); tauto.
    + clear -K_box. intros E; assert (0 < dims o)%nat by lia; destruct (Rle_dec 0 (z0 o)), (Rlt_dec (z0 o) (z1 o)), (Rle_dec (z1 o) (extent (nz o) (dz o))); tauto.
    + clear -K_box. intros E; assert (0 < dims o)%nat by lia; destruct (Rle_dec 0 (x0 o)), (Rlt_dec (x0 o) (extent (nx o) (dx o))); tauto.
    + clear -K_dt. exact K_dt.
    + clear -K_none. tauto.
    + clear -K_coal. tauto.
    + clear -K_sedi1 K_sedi2. tauto.
    + clear -K_subs1 K_subs2. intros E; destruct (Nat.eq_dec (nz o) (n_w_LS o)); split; auto; tauto.
    + clear -K_ta K_tc K_sgs. intros E; split; [tauto|]; destruct (Nat.eq_dec (nz o) (length (SGS_mix_len o))); auto; tauto.
    + clear -K_cf1 K_cf2 K_cf3. intros E; split; [destruct (le_lt_dec 2 (dims o)); [auto|tauto]|]; split; [destruct (Nat.eq_dec (nz o) (n_conc_factor o)); auto; tauto|]; destruct (on_dec (indep_rhod o)); tauto.
    + clear -K_rlx1 K_rlx2 K_rlx3 K_rlx4. intros E; split; [destruct (le_lt_dec 2 (dims o)); [auto|tauto]|]; split; [tauto|]; split; [destruct (Rle_dec (rlx_sd_per_bin o) 0); [tauto|lra]|destruct (Rle_dec (rlx_timescale o) 0); [tauto|lra]].
    + clear -K_cp1 K_cp2. destruct (on_dec (a_p a)), (on_dec (const_p o)); tauto.
    + clear -K_sstp. lia.
    + clear -K_adapt K_mixad. intros E; destruct (on_dec (exact_sstp o)); tauto.
    + clear -K_nomix. intros E; destruct (on_dec (exact_sstp o)); tauto.
    + clear -K_act. intros E; destruct (on_dec (exact_sstp o)), (on_dec (adaptive_sstp o)); tauto.
    + clear -K_ice. tauto.
  - intros [[c_fields_ c_courants_ c_chem_ c_chem_excl_ c_src_ c_matching_ c_aerosol_ c_tail_ c_box_y_ c_box_z_ c_box_x0_ c_dt_ c_one_init_ c_coal_ c_sedi_ c_subs_ c_turb_ c_conc_factor_ c_rlx_ c_press_ c_sstp_ c_adaptive_ c_nomix_ c_act_ c_ice_] [Hm Hp]].
    repeat (apply orb_false_iff; split).
    + clear -c_fields_. onify; tauto.
    + clear -c_fields_. onify; tauto.
    + clear -c_fields_. onify; tauto.
    + clear -c_courants_ HD. rewrite <- !dims_eq. unfold on in *. destruct (a_cx a), (a_cy a), (a_cz a), (dims o) as [|[|[|[|n]]]]; cbn; try reflexivity; exfalso;
        destruct c_courants_ as [(H1 & H2 & H3)|(H1 & H2 & [H3 H3'] & [H4 H4'])]; try (apply H1; reflexivity); try (apply H2; reflexivity); try (apply H3; reflexivity); try lia; try discriminate;
        try (specialize (H3 eq_refl)); try (specialize (H4 eq_refl)); try (specialize (H3' eq_refl)); try (specialize (H4' ltac:(lia))); try lia; discriminate.
    + clear -c_chem_. rewrite c_chem_; destruct (chem_sw o); reflexivity.
    + clear -c_chem_. rewrite c_chem_; destruct (chem_sw o); reflexivity.
    + clear -c_chem_excl_. onify; tauto.
    + clear -c_matching_. onify; intros [Hd Hx]; apply c_matching_ in Hd; lia.
    + clear -c_src_. onify; intros [Hd Hx]; apply c_src_ in Hd; lia.
    + clear -c_chem_excl_. onify; intros [Hd Hx]; apply c_chem_excl_ in Hx; lia.
    + clear -c_aerosol_. onify; lia.
    + clear -c_tail_. onify; tauto.
    + clear -c_src_. onify; intros [Hd Hx]; apply c_src_ in Hx; lia.
    + clear -c_box_x0_ c_box_y_ c_box_z_. onify; intros [Hd Hx]; assert (Hd1 : (1 <= dims o)%nat) by lia; specialize (c_box_x0_ Hd1); specialize (c_box_y_ Hd1); specialize (c_box_z_ Hd1); destruct Hx as [[[[Hx|Hx]|Hx]|Hx]|Hx]; apply Hx; split; lra.
    + clear -c_dt_. onify; assumption.
    + clear -Hp. rewrite Hp; reflexivity.
    + clear -c_one_init_. onify; tauto.
    + clear -c_coal_. onify; tauto.
    + clear -c_sedi_. onify; tauto.
    + clear -c_sedi_. onify; tauto.
    + clear -c_subs_. onify; tauto.
    + clear -c_turb_. onify; tauto.
    + clear -c_turb_. onify; tauto.
    + clear -c_subs_. onify; intros [Hd Hx]; apply c_subs_ in Hd; intuition congruence.
    + clear -c_turb_. onify; intros [Hd Hx]; apply c_turb_ in Hd; intuition congruence.
    + clear -Hm. unfold head_pos in Hm; destruct (SGS_mix_len o); [reflexivity|]; onify; lra.
    + clear -c_conc_factor_. onify; intros [Hd Hx]; apply c_conc_factor_ in Hd; lia.
    + clear -c_conc_factor_. onify; intros [Hd Hx]; apply c_conc_factor_ in Hd; intuition congruence.
    + clear -c_conc_factor_. onify; tauto.
    + clear -c_chem_excl_. onify; tauto.
    + clear -c_rlx_. onify; intros [Hd Hx]; apply c_rlx_ in Hx; lia.
    + clear -c_rlx_. onify; tauto.
    + clear -c_rlx_. onify; intros [Hd Hx]; apply c_rlx_ in Hd; lra.
    + clear -c_rlx_. onify; intros [Hd Hx]; apply c_rlx_ in Hd; lra.
    + clear -c_chem_excl_. onify; tauto.
    + clear -c_press_. onify; tauto.
    + clear -c_press_. onify; tauto.
    + clear -c_sstp_. onify; lia.
    + clear -c_adaptive_. onify; tauto.
    + clear -c_nomix_. onify; tauto.
    + clear -c_adaptive_. onify; tauto.
    + clear -c_act_. onify; tauto.
    + clear -c_ice_. onify; tauto.
Qed.

(** *** C42, first half: every consistent configuration is accepted. *)
Theorem C42_consistent_accepted :
  forall o a, consistent o a -> accepted o [] (Init a).
Proof.
  intros o a H. unfold accepted. cbn. unfold init. cbn [init_called fresh].
  assert (E : init_rejects o a = false).
  { apply rejects_spec. destruct H as [Hb Hm _ Hn _]. split; [exact Hb|]. split.
    - unfold head_pos. destruct (SGS_mix_len o) as [|x l]; [exact I|]. apply Hm. now left.
    - unfold mul64. destruct Hn as [-> | ->]; [reflexivity|]. rewrite Z.mul_0_r. reflexivity. }
  rewrite E. reflexivity.
Qed.
Print Assumptions C42_consistent_accepted.

(** *** second half, except for four clauses (see the refutations below) *)
Theorem C42_accepted_consistent_partial :
  forall o a, accepted o [] (Init a) ->
    consistent_but o a /\ head_pos (SGS_mix_len o) /\
    ((sd_conc o * sd_const_multi o < 2 ^ 64)%N -> sd_conc o = 0%N \/ sd_const_multi o = 0%N).
Proof.
  intros o a H. unfold accepted in H. cbn in H. unfold init in H. cbn [init_called fresh] in H.
  destruct (init_rejects o a) eqn:E; [discriminate|]. apply rejects_spec in E. destruct E as (A & B & C).
  split; [exact A|]. split; [exact B|]. intros HL. unfold mul64 in C.
  rewrite wrap64_small in C by (unfold W64; lia).
  destruct (N.eq_dec (sd_conc o) 0) as [?|?]; [now left|right]. nia.
Qed.
Print Assumptions C42_accepted_consistent_partial.

(** *** the clauses that are not enforced *)
Definition ex_mix : oinit :=  (* second mixing length negative *)
  mk_oinit 4 0 2 1 1 1 0 4 0 1 0 2 1 1 1 1 1 true 64 0 false 1 0 false false false true true false false
           true false false false false true false 0 [1; -1] 0 false false false src_off 0 0 0 0 1 1 true false false.
Definition ex_x1 : oinit :=   (* x1 beyond the domain *)
  mk_oinit 4 0 4 1 1 1 0 400 0 1 0 4 1 1 2 1 1 true 64 0 false 1 0 false false false true true false false
           false false false false false true false 0 [] 0 false false false src_off 0 0 0 0 1 1 true false false.
Definition ex_both : oinit := (* sd_conc and sd_const_multi both 2^32 *)
  mk_oinit 4 0 4 1 1 1 0 4 0 1 0 4 1 1 2 1 1 true 4294967296 4294967296 false 1 0 false false false true true false false
           false false false false false true false 0 [] 0 false false false src_off 0 0 0 0 1 1 true false false.
Definition ex_rlx0 : oinit := (* relaxation every 0 steps *)
  mk_oinit 4 0 4 1 1 1 0 4 0 1 0 4 1 1 2 1 1 true 64 0 false 1 0 false false false true true false true
           false false false false false true false 0 [] 0 false false false src_off 0 0 10 1 1 0 true false false.
Theorem C42_unchecked_refuted :
  (accepted ex_mix [] (Init ex_a) /\ ~ consistent ex_mix ex_a) /\
  (accepted ex_x1 [] (Init ex_a) /\ ~ consistent ex_x1 ex_a) /\
  (accepted ex_both [] (Init ex_a) /\ ~ consistent ex_both ex_a) /\
  (accepted ex_rlx0 [] (Init ex_a) /\ ~ consistent ex_rlx0 ex_a).
Proof.
  assert (HA : forall o a, init_rejects o a = false -> accepted o [] (Init a)).
  { intros o a H. unfold accepted. cbn. unfold init. cbn [init_called fresh]. rewrite H. reflexivity. }
  split; [|split; [|split]].
  - split. { apply HA. unfold init_rejects. cbn. unfold mul64, wrap64, W64. Rbool. reflexivity. }
    intros [_ H _ _ _]. specialize (H (-1)). cbn in H. assert (0 < -1) by (apply H; tauto). lra.
  - split. { apply HA. exact (proj1 C13_instance). }
    intros [_ _ H _ _]. unfold extent in H. cbn in H. assert (0 < 400 <= (1 + 1 + 1 + 1) * 1) by (apply H; lia). lra.
  - split. { apply HA. unfold init_rejects. cbn. unfold mul64, wrap64, W64. cbn. Rbool. reflexivity. }
    intros [_ _ _ [H|H] _]; discriminate.
  - split. { apply HA. unfold init_rejects. cbn. unfold mul64, wrap64, W64. Rbool. reflexivity. }
    intros [_ _ _ _ H]. cbn in H. specialize (H eq_refl). lia.
Qed.
Print Assumptions C42_unchecked_refuted.

(** a consistent configuration *)
Theorem C42_instance : consistent ex_o ex_a.
Proof.
  assert (HB : consistent_but ex_o ex_a) by (apply (rejects_spec ex_o ex_a); exact (proj1 C13_instance)).
  constructor; [exact HB| | | |].
  - intros l [].
  - intros _. unfold extent. cbn. lra.
  - right. reflexivity.
  - discriminate.
Qed.

Print Assumptions C42_instance.
