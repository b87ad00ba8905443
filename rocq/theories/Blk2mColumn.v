(** * C64: sedimentation of rain in the double-moment bulk scheme *)
From Coq Require Import List Arith NArith ZArith Reals Bool Lia Lra Psatz FunctionalExtensionality.
From Verif Require Import Base BaseProofs ThermoModel ThermoProofs CondModel InitModel Blk2mModel Blk2mProps Blk2mFall.
Import ListNotations.
Open Scope R_scope.

(** ** Specification *)
(** downward mass flux per unit height through the bottom of level [k] of [n], for a quantity [q] falling with speed [v]: upstream values, density times
    fall speed averaged between the two levels, or those of the lowest level; not more than there will be after the time step *)
Definition face_momentum (rhod v : nat -> R) (k : nat) : R :=
  match k with O => rhod O * v O | S j => (rhod j * v j + rhod k * v k) / 2 end.
Definition downflux (n : nat) (rhod q v : nat -> R) (dt dz : R) (dot : nat -> R) (k : nat) : R :=
  if (k <? n)%nat then Rmin (face_momentum rhod v k * q k / dz) (rhod k * (q k + dt * dot k) / dt) else 0.

Section Col.
  Variables (n : nat) (rhod q v : nat -> R) (dt dz : R) (dot : nat -> R).
  Notation F := (downflux n rhod q v dt dz dot).
  Definition after_col (m k : nat) : R := if ((m <=? k) && (k <? n))%nat then dot k + (F (S k) - F k) / rhod k else dot k.
  Lemma flux_out_F mom dot' k : (k < n)%nat -> dot' k = dot k -> mom = - face_momentum rhod v k -> flux_out rhod q dt dz mom dot' k = - F k.
  Proof.
    intros H E ->. unfold flux_out, downflux. replace (k <? n)%nat with true by (symmetry; now apply Nat.ltb_lt). rewrite E, cmin_Rmin. f_equal. f_equal. unfold Rdiv. ring.
  Qed.
  Lemma loop_inv : forall m, (m < n)%nat -> forall s, k_above s = Some m -> k_in s = - F (S m) -> (forall k, k_dot s k = after_col (S m) k) ->
    let s' := col_loop2 rhod q v dt dz m s in k_above s' = Some O /\ k_in s' = - F 1 /\ (forall k, k_dot s' k = after_col 1 k).
  Proof.
    intros m. induction m as [|m IH]; intros Hm s H1 H2 H3; cbn [col_loop2]; [repeat split; assumption|].
    unfold col_body2. rewrite H1. cbv zeta.
    assert (D : k_dot s (S m) = dot (S m)) by (rewrite H3; unfold after_col; replace (S (S m) <=? S m)%nat with false by (symmetry; apply Nat.leb_gt; lia); reflexivity).
    rewrite (flux_out_F _ _ _ Hm D) by (unfold face_momentum; field).
    apply IH; [lia|reflexivity|reflexivity|]. intros k. cbn [k_dot]. unfold upd. destruct (Nat.eqb_spec k (S m)) as [->|NE].
    - rewrite D, H2. unfold after_col. replace (S m <=? S m)%nat with true by (symmetry; apply Nat.leb_le; lia). replace (S m <? n)%nat with true by (symmetry; apply Nat.ltb_lt; lia). cbn [andb]. unfold Rdiv. ring.
    - rewrite H3. unfold after_col. replace (S (S m) <=? k)%nat with (S m <=? k)%nat; [reflexivity|]. destruct (Nat.leb_spec (S m) k), (Nat.leb_spec (S (S m)) k); try reflexivity; lia.
  Qed.
  Lemma column2_eq : (0 < n)%nat -> fst (column2 true n rhod q v dt dz dot) = - F 0 /\ forall k, snd (column2 true n rhod q v dt dz dot) k = after_col 0 k.
  Proof.
    intros Hn. assert (En : exists m, n = S m) by (exists (pred n); lia). destruct En as (m & En). unfold column2. cbn [negb]. 
    assert (E : col_loop2 rhod q v dt dz n {| k_dot := dot; k_in := 0; k_above := None |} = col_loop2 rhod q v dt dz m {| k_dot := dot; k_in := 0; k_above := Some m |}) by (rewrite En; reflexivity).
    rewrite E. destruct (loop_inv m ltac:(lia) {| k_dot := dot; k_in := 0; k_above := Some m |} eq_refl) as (A & B & C).
    - cbn [k_in]. unfold downflux. replace (S m <? n)%nat with false by (symmetry; apply Nat.ltb_ge; lia). ring.
    - intros k. cbn [k_dot]. unfold after_col. replace ((S m <=? k) && (k <? n))%nat with false; [reflexivity|]. symmetry. destruct (Nat.leb_spec (S m) k), (Nat.ltb_spec k n); try reflexivity; lia.
    - set (s := col_loop2 rhod q v dt dz m _) in *. rewrite A.
      assert (D : k_dot s 0%nat = dot 0%nat) by (rewrite C; reflexivity).
      rewrite (flux_out_F (- (rhod 0%nat * v 0%nat)) _ _ Hn D eq_refl). cbn [fst snd]. split; [reflexivity|]. intros k. unfold upd. destruct (Nat.eqb_spec k 0) as [->|NE].
      + rewrite D, B. unfold after_col. replace (0 <? n)%nat with true by (symmetry; apply Nat.ltb_lt; lia). cbn [andb Nat.leb]. unfold Rdiv. ring.
      + rewrite C. unfold after_col. replace (1 <=? k)%nat with (0 <=? k)%nat; [reflexivity|]. destruct (Nat.leb_spec 0 k), (Nat.leb_spec 1 k); try reflexivity; lia.
  Qed.
  Hypotheses (Hdt : 0 < dt) (Hdz : 0 < dz) (Hrho : forall k, (k < n)%nat -> 0 < rhod k) (Hq : forall k, (k < n)%nat -> 0 <= q k) (Hv : forall k, (k < n)%nat -> 0 <= v k)
    (Hb : forall k, (k < n)%nat -> 0 <= q k + dt * dot k).
  Lemma downflux_bounds k : 0 <= F k /\ ((k < n)%nat -> F k <= rhod k * (q k + dt * dot k) / dt).
  Proof.
    unfold downflux. destruct (Nat.ltb_spec k n) as [H|H]; [|split; [lra|intros; lia]]. split; [|intros _; apply Rmin_r].
    assert (I := Rinv_0_lt_compat dt Hdt). assert (J := Rinv_0_lt_compat dz Hdz). assert (R := Hrho k H). apply Rmin_glb.
    - apply Rmult_le_pos; [|lra]. apply Rmult_le_pos; [|now apply Hq]. unfold face_momentum. destruct k as [|j].
      + assert (V := Hv 0%nat H). nra.
      + assert (V := Hv (S j) H). assert (V' := Hv j ltac:(lia)). assert (R' := Hrho j ltac:(lia)). assert (0 <= rhod j * v j) by nra. assert (0 <= rhod (S j) * v (S j)) by nra. lra.
    - apply Rmult_le_pos; [|lra]. apply Rmult_le_pos; [lra|now apply Hb].
  Qed.
  Lemma after_nonneg k : (k < n)%nat -> 0 <= q k + dt * after_col 0 k.
  Proof.
    intros H. unfold after_col. replace ((0 <=? k) && (k <? n))%nat with true by (symmetry; apply andb_true_intro; split; [apply Nat.leb_le; lia|now apply Nat.ltb_lt]).
    destruct (downflux_bounds k) as (_ & B). specialize (B H). destruct (downflux_bounds (S k)) as (A & _). assert (R := Hrho k H).
    replace (q k + dt * (dot k + (F (S k) - F k) / rhod k)) with ((rhod k * (q k + dt * dot k) / dt - F k + F (S k)) * (dt / rhod k)) by (field; lra).
    apply Rmult_le_pos; [lra|]. left. now apply Rdiv_lt_0_compat.
  Qed.
End Col.

(** C64. Rain falls only downwards, at the fall speeds of its mass and number (C65): what leaves a level enters the one below, and the total change is the
    returned flux through the bottom; a level never loses more than it has. *)
Theorem C64_sedimentation :
  forall tgamma erf num_eps o n dot_rr dot_nr rhod rr nr dt dz flux drr' dnr', gamma_like tgamma -> erf_like erf -> 0 < num_eps -> 0 < dt -> 0 < dz -> (0 < n)%nat ->
    (forall k, (k < n)%nat -> 0 < rhod k /\ 0 <= rr k /\ 0 <= nr k /\ 0 <= rr k + dt * dot_rr k /\ 0 <= nr k + dt * dot_nr k) ->
    rhs_columnwise2 tgamma erf num_eps o n dot_rr dot_nr rhod rr nr dt dz = (flux, drr', dnr') ->
    (b_sedi o = false -> flux = 0 /\ drr' = dot_rr /\ dnr' = dot_nr) /\
    (b_sedi o = true ->
      exists Fr Fn, Fr n = 0 /\ Fn n = 0 /\ flux = - Fr O /\
        (forall k, (k < n)%nat ->
          Fr k = Rmin (face_momentum rhod (fun j => v_term_m tgamma erf num_eps (rhod j) (rr j) (nr j)) k * rr k / dz) (rhod k * (rr k + dt * dot_rr k) / dt) /\
          Fn k = Rmin (face_momentum rhod (fun j => v_term_n tgamma erf num_eps (rhod j) (rr j) (nr j)) k * nr k / dz) (rhod k * (nr k + dt * dot_nr k) / dt) /\
          0 <= Fr k /\ 0 <= Fn k /\
          rhod k * (drr' k - dot_rr k) = Fr (S k) - Fr k /\ rhod k * (dnr' k - dot_nr k) = Fn (S k) - Fn k /\
          0 <= rr k + dt * drr' k /\ 0 <= nr k + dt * dnr' k)) /\
    sumR n (fun k => rhod k * (drr' k - dot_rr k)) = flux /\ flux <= 0.
Proof.
  intros tgamma erf num_eps o n dot_rr dot_nr rhod rr nr dt dz flux drr' dnr' HG HE He Hdt Hdz Hn Hk H.
  assert (Main : (b_sedi o = false -> flux = 0 /\ drr' = dot_rr /\ dnr' = dot_nr) /\ (b_sedi o = true ->
      exists Fr Fn, Fr n = 0 /\ Fn n = 0 /\ flux = - Fr O /\
        (forall k, (k < n)%nat ->
          Fr k = Rmin (face_momentum rhod (fun j => v_term_m tgamma erf num_eps (rhod j) (rr j) (nr j)) k * rr k / dz) (rhod k * (rr k + dt * dot_rr k) / dt) /\
          Fn k = Rmin (face_momentum rhod (fun j => v_term_n tgamma erf num_eps (rhod j) (rr j) (nr j)) k * nr k / dz) (rhod k * (nr k + dt * dot_nr k) / dt) /\
          0 <= Fr k /\ 0 <= Fn k /\
          rhod k * (drr' k - dot_rr k) = Fr (S k) - Fr k /\ rhod k * (dnr' k - dot_nr k) = Fn (S k) - Fn k /\
          0 <= rr k + dt * drr' k /\ 0 <= nr k + dt * dnr' k))).
  { unfold rhs_columnwise2 in H. set (vm := fun k : nat => v_term_m tgamma erf num_eps (rhod k) (rr k) (nr k)) in *. set (vn := fun k : nat => v_term_n tgamma erf num_eps (rhod k) (rr k) (nr k)) in *.
    assert (Hvm : forall k, (k < n)%nat -> 0 <= vm k) by (intros k L; apply (C65_fall_speeds tgamma erf num_eps (rhod k) (rr k) (nr k) HG HE He (proj1 (Hk k L)))).
    assert (Hvn : forall k, (k < n)%nat -> 0 <= vn k) by (intros k L; apply (C65_fall_speeds tgamma erf num_eps (rhod k) (rr k) (nr k) HG HE He (proj1 (Hk k L)))).
    clearbody vm vn. split; intros Hs; rewrite Hs in H.
    - unfold column2 in H. cbn [negb] in H. injection H as <- <- <-. repeat split.
    - destruct (column2_eq n rhod rr vm dt dz dot_rr Hn) as (A1 & A2). destruct (column2_eq n rhod nr vn dt dz dot_nr Hn) as (B1 & B2).
      destruct (column2 true n rhod rr vm dt dz dot_rr) as [f1 g1]. destruct (column2 true n rhod nr vn dt dz dot_nr) as [f2 g2]. injection H as <- <- <-. cbn [fst snd] in *.
      exists (downflux n rhod rr vm dt dz dot_rr), (downflux n rhod nr vn dt dz dot_nr).
      assert (Z : forall q v dot, downflux n rhod q v dt dz dot n = 0) by (intros; unfold downflux; rewrite Nat.ltb_irrefl; reflexivity).
      split; [apply Z|]. split; [apply Z|]. split; [exact A1|]. intros k L.
      assert (L' : (k <? n)%nat = true) by now apply Nat.ltb_lt.
      split; [unfold downflux; rewrite L'; reflexivity|]. split; [unfold downflux; rewrite L'; reflexivity|].
      assert (Rp : 0 < rhod k) by apply (Hk k L).
      split; [apply downflux_bounds; try assumption; intros j Hj; apply (Hk j Hj)|]. split; [apply downflux_bounds; try assumption; intros j Hj; apply (Hk j Hj)|].
      split; [rewrite A2; unfold after_col; rewrite L'; cbn [Nat.leb andb]; field; lra|]. split; [rewrite B2; unfold after_col; rewrite L'; cbn [Nat.leb andb]; field; lra|].
      split; [rewrite A2; apply after_nonneg; try assumption; intros j Hj; apply (Hk j Hj)|rewrite B2; apply after_nonneg; try assumption; intros j Hj; apply (Hk j Hj)]. }
  destruct Main as (M1 & M2). split; [exact M1|]. split; [exact M2|]. destruct (b_sedi o).
  - destruct (M2 eq_refl) as (Fr & Fn & Z1 & Z2 & Ef & Hf). split.
    + rewrite (sumR_ext n _ (fun k => Fr (S k) - Fr k)) by (intros k L; apply (Hf k L)). rewrite sumR_telescope, Z1, Ef. ring.
    + rewrite Ef. assert (P := Hf 0%nat Hn). lra.
  - destruct (M1 eq_refl) as (-> & -> & ->). split; [|lra]. apply sumR_0. intros k _. ring.
Qed.
Print Assumptions C64_sedimentation.

(** C64, the claim that rain only leaves: with tendencies that would make rain negative, rain comes in through the bottom of the domain *)
Theorem C64_from_below_refuted :
  forall tgamma erf num_eps, exists o rr nr dot flux drr' dnr', b_sedi o = true /\ 0 < rr /\ 0 < nr /\
    rhs_columnwise2 tgamma erf num_eps o 1 (fun _ => dot) (fun _ => 0) (fun _ => 1) (fun _ => rr) (fun _ => nr) 1 100 = (flux, drr', dnr') /\ 0 < flux.
Proof.
  intros tgamma erf num_eps.
  exists {| b_acti := true; b_cond := true; b_acnv := true; b_accr := true; b_sedi := true; b_RH_max := 44; b_A := 1350; b_b := 247 / 100; b_c := - (179 / 100); b_modes := []; b_th_dry := true; b_const_p := false |}.
  exists (1 / 1000), 1000, (- (2 / 1000)). unfold rhs_columnwise2. cbn [b_sedi].
  destruct (column2_eq 1 (fun _ => 1) (fun _ => 1 / 1000) (fun _ => v_term_m tgamma erf num_eps 1 (1 / 1000) 1000) 1 100 (fun _ => - (2 / 1000)) ltac:(lia)) as (A & _).
  destruct (column2 true 1 (fun _ => 1) (fun _ => 1 / 1000) (fun _ => v_term_m tgamma erf num_eps 1 (1 / 1000) 1000) 1 100 (fun _ => - (2 / 1000))) as [f g].
  destruct (column2 true 1 (fun _ => 1) (fun _ => 1000) _ 1 100 (fun _ => 0)) as [f2 g2]. cbn [fst] in A.
  exists f, g, g2. split; [reflexivity|]. split; [lra|]. split; [lra|]. split; [reflexivity|]. rewrite A. unfold downflux. cbn [Nat.ltb Nat.leb].
  match goal with |- 0 < - Rmin ?x ?y => assert (M := Rmin_r x y); set (z := Rmin x y) in * end. lra.
Qed.
Print Assumptions C64_from_below_refuted.

Theorem C64_instance :
  exists tgamma erf, gamma_like tgamma /\ erf_like erf /\ forall o, b_sedi o = true ->
    exists flux drr' dnr', rhs_columnwise2 tgamma erf (1 / 1000000) o 3 (fun _ => 0) (fun _ => 0) (fun k => 1 - INR k / 10) (fun k => INR k / 1000) (fun k => INR k * 1000) 10 100 = (flux, drr', dnr') /\
      sumR 3 (fun k => (1 - INR k / 10) * (drr' k - 0)) = flux /\ flux <= 0 /\ forall k, (k < 3)%nat -> 0 <= INR k / 1000 + 10 * drr' k.
Proof.
  destruct gamma_exists as (g & Hg). destruct erf_exists as (e & He). exists g, e. split; [exact Hg|]. split; [exact He|]. intros o Ho.
  destruct (rhs_columnwise2 g e (1 / 1000000) o 3 (fun _ => 0) (fun _ => 0) (fun k => 1 - INR k / 10) (fun k => INR k / 1000) (fun k => INR k * 1000) 10 100) as [[flux drr'] dnr'] eqn:E.
  exists flux, drr', dnr'. split; [reflexivity|].
  destruct (C64_sedimentation g e (1 / 1000000) o 3 (fun _ => 0) (fun _ => 0) (fun k => 1 - INR k / 10) (fun k => INR k / 1000) (fun k => INR k * 1000) 10 100 flux drr' dnr' Hg He ltac:(lra) ltac:(lra) ltac:(lra) ltac:(lia)) with (2 := E) as (_ & B & C & D).
  - intros k Hk. assert (P := pos_INR k). assert (Q : INR k < INR 3) by now apply lt_INR. cbn [INR] in Q. repeat split; lra.
  - split; [exact C|]. split; [exact D|]. destruct (B Ho) as (Fr & Fn & _ & _ & _ & F). intros k Hk. apply (F k Hk).
Qed.
Print Assumptions C64_instance.
