(** Bounds of polynomials with rational coefficients on intervals, and rational bounds of logarithms *)
From Coq Require Import List Reals Arith ZArith QArith Qreals Lra Lia Bool.
From Verif Require Import Base BaseProofs VtermModel.
Import ListNotations.
Local Open Scope R_scope.

(** ** polynomials *)
Fixpoint ev (l : list Q) (x : R) : R := match l with [] => 0 | a :: l' => Q2R a + x * ev l' x end.
Fixpoint addp (a b : list Q) : list Q :=
  match a, b with
  | [], _ => b
  | _, [] => a
  | x :: a', y :: b' => Qred (x + y) :: addp a' b'
  end.
Definition scale (c : Q) (l : list Q) : list Q := map (fun a => Qred (c * a)) l.
(** coefficients around [c] *)
Fixpoint sh (c : Q) (l : list Q) : list Q :=
  match l with [] => [] | a :: l' => let m := sh c l' in addp [a] (addp (scale c m) (0%Q :: m)) end.
Fixpoint der (l : list Q) : list Q := match l with [] => [] | a :: l' => addp l' (0%Q :: der l') end.
(** bound of the absolute value where |x| <= h *)
Fixpoint bnd (h : Q) (l : list Q) : Q := match l with [] => 0%Q | a :: l' => Qred (Qabs.Qabs a + h * bnd h l') end.
Definition qneg (l : list Q) : list Q := map Qopp l.

Lemma Q2R_red q : Q2R (Qred q) = Q2R q.
Proof. apply Qeq_eqR, Qred_correct. Qed.
Lemma ev_addp a : forall b x, ev (addp a b) x = ev a x + ev b x.
Proof.
  induction a as [|p a IH]; intros b x; [cbn; lra|]. destruct b as [|q b]; [cbn; lra|].
  cbn [addp ev]. rewrite Q2R_red, Q2R_plus, IH. ring.
Qed.
Lemma ev_scale c l x : ev (scale c l) x = Q2R c * ev l x.
Proof. unfold scale. induction l as [|a l IH]; cbn [map ev]; [ring|]. rewrite Q2R_red, Q2R_mult, IH. ring. Qed.
Lemma Q2R_0 : Q2R 0 = 0.
Proof. unfold Q2R. cbn. lra. Qed.
Lemma ev_sh c l t : ev (sh c l) t = ev l (Q2R c + t).
Proof.
  induction l as [|a l IH]; [reflexivity|]. cbn [sh]. cbv zeta. rewrite ev_addp, ev_addp, ev_scale. cbn [ev].
  rewrite IH, Q2R_0. ring.
Qed.
Lemma ev_qneg l x : ev (qneg l) x = - ev l x.
Proof. unfold qneg. induction l as [|a l IH]; cbn [map ev]; [ring|]. rewrite Q2R_opp, IH. ring. Qed.
Lemma Q2R_abs a : Q2R (Qabs.Qabs a) = Rabs (Q2R a).
Proof.
  apply Qabs.Qabs_case; intros H.
  - apply Qle_Rle in H. rewrite Q2R_0 in H. now rewrite Rabs_pos_eq.
  - apply Qle_Rle in H. rewrite Q2R_0 in H. rewrite Q2R_opp, Rabs_left1; [reflexivity|exact H].
Qed.
Lemma ev_bnd h l : forall t, Rabs t <= Q2R h -> Rabs (ev l t) <= Q2R (bnd h l).
Proof.
  induction l as [|a l IH]; intros t H; cbn [ev bnd].
  - rewrite Q2R_0, Rabs_R0. lra.
  - rewrite Q2R_red, Q2R_plus, Q2R_mult, Q2R_abs. eapply Rle_trans; [apply Rabs_triang|].
    apply Rplus_le_compat_l. rewrite Rabs_mult. apply Rmult_le_compat; try apply Rabs_pos; auto.
Qed.

(** lower bound on [c-h, c+h] *)
Definition lowb (h c : Q) (l : list Q) : Q :=
  match sh c l with [] => 0%Q | a :: m => (a - h * bnd h m)%Q end.
Lemma lowb_ok h c l x : Rabs (x - Q2R c) <= Q2R h -> Q2R (lowb h c l) <= ev l x.
Proof.
  intros H. replace x with (Q2R c + (x - Q2R c)) by ring. rewrite <- ev_sh. unfold lowb.
  destruct (sh c l) as [|a m]; cbn [ev]; [rewrite Q2R_0; lra|].
  unfold Qminus. rewrite Q2R_plus, Q2R_opp, Q2R_mult. assert (B := ev_bnd h m _ H).
  set (t := x - Q2R c) in *. assert (C : Rabs (t * ev m t) <= Q2R h * Q2R (bnd h m)).
  { rewrite Rabs_mult. apply Rmult_le_compat; auto using Rabs_pos. }
  assert (D := Rle_abs (- (t * ev m t))). rewrite Rabs_Ropp in D. lra.
Qed.
(** [n] intervals of half-width [h] from [a] on *)
Fixpoint cover (n : nat) (a h : Q) : list Q :=
  match n with O => [] | S n' => Qred (a + h) :: cover n' (Qred (a + 2 * h)) h end.
Definition above (n : nat) (a h lo : Q) (l : list Q) : bool :=
  forallb (fun c => Qle_bool lo (lowb h c l)) (cover n a h).
Lemma above_ok n : forall a h lo l x, above n a h lo l = true -> Q2R a <= x <= Q2R a + 2 * INR n * Q2R h ->
  (0 < n)%nat -> Q2R lo <= ev l x.
Proof.
  induction n as [|n IH]; intros a h lo l x H B P; [lia|].
  unfold above in H. cbn [cover forallb] in H. apply andb_true_iff in H as [H1 H2].
  rewrite S_INR in B.
  destruct (Rle_dec x (Q2R a + 2 * Q2R h)) as [L|L].
  - apply Qle_bool_iff, Qle_Rle in H1. eapply Rle_trans; [exact H1|]. apply lowb_ok.
    rewrite Q2R_red, Q2R_plus. apply Rabs_le. lra.
  - assert (N : (0 < n)%nat) by (destruct n; [cbn [INR] in B; lra|lia]).
    eapply (IH (Qred (a + 2 * h))); [exact H2| |exact N].
    rewrite Q2R_red, Q2R_plus, Q2R_mult. replace (Q2R 2) with 2 by (unfold Q2R; cbn; lra). lra.
Qed.

Lemma ev_der l x : derivable_pt_lim (ev l) x (ev (der l) x).
Proof.
  revert x. induction l as [|a l IH]; intros x.
  - cbn [der ev]. apply (derivable_pt_lim_const 0).
  - cbn [der]. rewrite ev_addp. cbn [ev]. rewrite Q2R_0.
    replace (ev l x + (0 + x * ev (der l) x)) with (0 + (1 * ev l x + id x * ev (der l) x)) by (unfold id; ring).
    apply (derivable_pt_lim_plus (fct_cte (Q2R a)) (mult_fct id (ev l)));
      [apply derivable_pt_lim_const|apply derivable_pt_lim_mult; [apply derivable_pt_lim_id|apply IH]].
Qed.
(** mean value: bounds of the derivative bound the difference *)
Lemma ev_mvt l a b lo hi : a <= b -> (forall x, a <= x <= b -> lo <= ev (der l) x <= hi) ->
  lo * (b - a) <= ev l b - ev l a <= hi * (b - a).
Proof.
  intros [H| ->] B; [|lra].
  destruct (MVT_cor2 (ev l) (ev (der l)) a b H (fun c _ => ev_der l c)) as (c & E & C). rewrite E.
  specialize (B c (conj (Rlt_le _ _ (proj1 C)) (Rlt_le _ _ (proj2 C)))).
  split; apply Rmult_le_compat_r; lra.
Qed.

(** ** exponentials *)
Lemma exp_1 a : 1 + a <= exp a.
Proof.
  destruct (Req_dec a 0) as [-> |N]; [rewrite exp_0; lra|]. left. now apply exp_ineq1.
Qed.
(** [k] squarings, rounded down to multiples of 10^-9 *)
Definition rdn (q : Q) : Q := Qmake (Z.div (Qnum q * 1000000000) (Zpos (Qden q))) 1000000000.
Lemma rdn_le q : Q2R (rdn q) <= Q2R q.
Proof.
  apply Qle_Rle. unfold rdn, Qle. cbn [Qnum Qden].
  rewrite (Z.mul_comm _ (Zpos (Qden q))). apply Z.mul_div_le. lia.
Qed.
Fixpoint sq (k : nat) (q : Q) : Q := match k with O => q | S k' => rdn (let r := sq k' q in r * r) end.
Lemma sq_ok k q a : (0 <= q)%Q -> Q2R q <= exp a -> (0 <= sq k q)%Q /\ Q2R (sq k q) <= exp (2 ^ k * a).
Proof.
  intros P H. induction k as [|k [IP IH]]; [split; [exact P|]; cbn [sq pow]; now rewrite Rmult_1_l|].
  cbn [sq]. cbv zeta. assert (S0 : (0 <= sq k q * sq k q)%Q) by (apply Qmult_le_0_compat; exact IP).
  split.
  - unfold rdn, Qle. cbn [Qnum Qden]. unfold Qle in S0. cbn [Qnum Qden] in S0. rewrite Z.mul_1_r in *. cbn [Z.mul] in *.
    apply Z.div_pos; lia.
  - eapply Rle_trans; [apply rdn_le|]. rewrite Q2R_mult.
    replace (2 ^ S k * a) with (2 ^ k * a + 2 ^ k * a) by (cbn [pow]; ring). rewrite exp_plus.
    apply Qle_Rle in IP. rewrite Q2R_0 in IP. apply Rmult_le_compat; assumption.
Qed.
(** a rational [b] is below exp [a] *)
Definition below_exp (k : nat) (b a : Q) : bool :=
  let q := (1 + a / inject_Z (2 ^ Z.of_nat k))%Q in Qle_bool 0 q && Qle_bool b (sq k q).
Lemma Q2R_pow2 k : Q2R (inject_Z (2 ^ Z.of_nat k)) = 2 ^ k.
Proof. unfold Q2R, inject_Z. cbn [Qnum Qden]. rewrite <- pow_IZR. field. Qed.
Lemma below_exp_ok k b a : below_exp k b a = true -> Q2R b <= exp (Q2R a).
Proof.
  unfold below_exp. cbv zeta. intros H. apply andb_true_iff in H as [H1 H2].
  apply Qle_bool_iff in H1, H2. apply Qle_Rle in H2. eapply Rle_trans; [exact H2|].
  assert (N : (0 < 2 ^ k)) by (apply pow_lt; lra).
  assert (Z : ~ (inject_Z (2 ^ Z.of_nat k) == 0)%Q) by (intros E; apply Qeq_eqR in E; rewrite Q2R_pow2, Q2R_0 in E; lra).
  destruct (sq_ok k (1 + a / inject_Z (2 ^ Z.of_nat k)) (Q2R a / 2 ^ k) H1) as [_ E].
  - rewrite Q2R_plus, Q2R_div by exact Z. rewrite Q2R_pow2. replace (Q2R 1) with 1 by (unfold Q2R; cbn; lra). apply exp_1.
  - replace (2 ^ k * (Q2R a / 2 ^ k)) with (Q2R a) in E by (field; lra). exact E.
Qed.
Lemma ln_above b x : 0 < b -> b <= exp x -> ln b <= x.
Proof. intros P H. rewrite <- (ln_exp x). destruct H as [H| ->]; [left; now apply ln_increasing|lra]. Qed.
Lemma ln_below b x : 0 < b -> / b <= exp (- x) -> x <= ln b.
Proof.
  intros P H. assert (Q := ln_above (/ b) (- x) (Rinv_0_lt_compat _ P) H). rewrite ln_Rinv in Q by exact P. lra.
Qed.

Ltac q2r := unfold Q2R; cbn [Qnum Qden]; try lra.
Tactic Notation "ln_up" constr(k) constr(b) constr(a) :=
  apply ln_above; [lra|]; let H := fresh in assert (H : Q2R b <= exp (Q2R a)) by (apply (below_exp_ok k); vm_compute; reflexivity);
  unfold Q2R in H; cbn [Qnum Qden] in H.
(** logarithms of the radii used below (of 200 times the radius) *)
Lemma ln_x0 : - (5525 / 1000) <= ln (4 / 1000) <= - (5518 / 1000).
Proof.
  split.
  - apply ln_below; [lra|]. assert (H := below_exp_ok 14 (250 # 1) (5525 # 1000) ltac:(vm_compute; reflexivity)).
    replace (Q2R (250 # 1)) with (/ (4 / 1000)) in H by q2r. replace (Q2R (5525 # 1000)) with (- - (5525 / 1000)) in H by q2r. exact H.
  - apply ln_above; [lra|]. assert (H := below_exp_ok 14 (4 # 1000) (-5518 # 1000) ltac:(vm_compute; reflexivity)).
    replace (Q2R (4 # 1000)) with (4 / 1000) in H by q2r. replace (Q2R (-5518 # 1000)) with (- (5518 / 1000)) in H by q2r. exact H.
Qed.
(** 0.5 um, 3 mm, 1 nm, 2 mm, 1 cm *)
Lemma ln_lo : - (93 / 10) <= ln (1 / 10000).
Proof.
  apply ln_below; [lra|]. assert (H := below_exp_ok 10 (10000 # 1) (93 # 10) ltac:(vm_compute; reflexivity)).
  replace (Q2R (10000 # 1)) with (/ (1 / 10000)) in H by q2r. replace (Q2R (93 # 10)) with (- - (93 / 10)) in H by q2r. exact H.
Qed.
Lemma ln_hi : ln (6 / 10) <= - (1 / 2).
Proof.
  apply ln_above; [lra|]. assert (H := below_exp_ok 10 (6 # 10) (-1 # 2) ltac:(vm_compute; reflexivity)).
  replace (Q2R (6 # 10)) with (6 / 10) in H by q2r. replace (Q2R (-1 # 2)) with (- (1 / 2)) in H by q2r. exact H.
Qed.
Lemma ln_nm : - (155 / 10) <= ln (2 / 10000000).
Proof.
  apply ln_below; [lra|]. assert (H := below_exp_ok 12 (5000000 # 1) (155 # 10) ltac:(vm_compute; reflexivity)).
  replace (Q2R (5000000 # 1)) with (/ (2 / 10000000)) in H by q2r. replace (Q2R (155 # 10)) with (- - (155 / 10)) in H by q2r. exact H.
Qed.
Lemma ln_2mm : ln (4 / 10) <= - (9 / 10).
Proof.
  apply ln_above; [lra|]. assert (H := below_exp_ok 10 (4 # 10) (-9 # 10) ltac:(vm_compute; reflexivity)).
  replace (Q2R (4 # 10)) with (4 / 10) in H by q2r. replace (Q2R (-9 # 10)) with (- (9 / 10)) in H by q2r. exact H.
Qed.
Lemma ln_1cm : ln 2 <= 7 / 10.
Proof.
  apply ln_above; [lra|]. assert (H := below_exp_ok 10 (2 # 1) (7 # 10) ltac:(vm_compute; reflexivity)).
  replace (Q2R (2 # 1)) with 2 in H by q2r. replace (Q2R (7 # 10)) with (7 / 10) in H by q2r. exact H.
Qed.
(** the whole range of the table: 3 mm over 0.5 um *)
Lemma ln_range : ln 6000 <= 88 / 10.
Proof.
  apply ln_above; [lra|]. assert (H := below_exp_ok 10 (6000 # 1) (88 # 10) ltac:(vm_compute; reflexivity)).
  replace (Q2R (6000 # 1)) with 6000 in H by q2r. replace (Q2R (88 # 10)) with (88 / 10) in H by q2r. exact H.
Qed.

(** ** the two polynomials *)
Definition qs : list Q := [105035 # 10000; 108750 # 100000; -133245 # 1000000; -659969 # 100000000]%Q.
Definition ql : list Q := [65639 # 10000; -10391 # 10000; -14001 # 10000; -82736 # 100000; -34277 # 100000;
                            -83072 # 1000000; -10583 # 1000000; -54208 # 100000000]%Q.
Lemma poly_s x : poly m_s x = ev qs x.
Proof. unfold poly, m_s, qs. cbn [poly_from ev pow]. unfold Q2R. cbn [Qnum Qden]. field. Qed.
Lemma poly_l x : poly m_l x = ev ql x.
Proof. unfold poly, m_l, ql. cbn [poly_from ev pow]. unfold Q2R. cbn [Qnum Qden]. field. Qed.

Ltac by_cover n a h lo l x H :=
  let A := fresh in assert (A : above n a h lo l = true) by (vm_compute; reflexivity);
  apply (above_ok n a h lo l x) in A;
  [|unfold Q2R; cbn [Qnum Qden INR]; lra|lia].

Lemma ds_range x : - (155 / 10) <= x <= - (545 / 100) -> 2 / 10 <= ev (der qs) x <= 2.
Proof.
  intros H. split.
  - by_cover 101%nat (-1555 # 100)%Q (5 # 100)%Q (2 # 10)%Q (der qs) x H.
    eapply Rle_trans; [|exact H0]. q2r.
  - by_cover 101%nat (-1555 # 100)%Q (5 # 100)%Q (-2 # 1)%Q (qneg (der qs)) x H. rewrite ev_qneg in H0.
    apply Ropp_le_cancel. eapply Rle_trans; [|exact H0]. q2r.
Qed.
Lemma dl_range x : - (56 / 10) <= x <= - (5 / 10) -> - (2 / 10) <= ev (der ql) x <= 2.
Proof.
  intros H. split.
  - by_cover 51%nat (-56 # 10)%Q (5 # 100)%Q (-2 # 10)%Q (der ql) x H.
    eapply Rle_trans; [|exact H0]. q2r.
  - by_cover 51%nat (-56 # 10)%Q (5 # 100)%Q (-2 # 1)%Q (qneg (der ql)) x H. rewrite ev_qneg in H0.
    apply Ropp_le_cancel. eapply Rle_trans; [|exact H0]. q2r.
Qed.
Lemma dl_pos x : - (56 / 10) <= x <= - (9 / 10) -> 1 / 10 <= ev (der ql) x.
Proof.
  intros H. by_cover 47%nat (-56 # 10)%Q (5 # 100)%Q (1 # 10)%Q (der ql) x H.
  eapply Rle_trans; [|exact H0]. q2r.
Qed.
(** the jump at 20 um *)
Lemma jump x : - (553 / 100) <= x <= - (551 / 100) -> 5 / 1000 <= ev ql x - ev qs x <= 82 / 10000.
Proof.
  intros H.
  assert (E : ev ql x - ev qs x = ev (addp ql (qneg qs)) x) by (rewrite ev_addp, ev_qneg; ring). rewrite E. split.
  - by_cover 10%nat (-553 # 100)%Q (1 # 1000)%Q (5 # 1000)%Q (addp ql (qneg qs)) x H.
    eapply Rle_trans; [|exact H0]. q2r.
  - by_cover 10%nat (-553 # 100)%Q (1 # 1000)%Q (-82 # 10000)%Q (qneg (addp ql (qneg qs))) x H. rewrite ev_qneg in H0.
    apply Ropp_le_cancel. eapply Rle_trans; [|exact H0]. q2r.
Qed.
