(** * C57: the source which adds to existing super-droplets *)
From Coq Require Import List Arith NArith ZArith Reals Bool Lia Lra Permutation.
From Verif Require ThermoModel ThermoProofs.
From Verif Require Import Base BaseProofs SpaceModel SpaceProofs GridProps InitModel InitProofs InitProps SrcProps MatchModel.
Import ListNotations.
Open Scope R_scope.

(** ** Specification *)
(** Log-radius of an existing super-droplet, and whether it is in bin [x] of the [number] equal bins of the distribution *)
Definition old_log (p : osd) : R := ln (q_rd3 p) / 3.
Definition in_bin (D : distro) (number x : nat) (p : osd) : Prop :=
  (x < number)%nat /\
  ln (di_min D) + INR x * (di_range D / INR number) <= old_log p < ln (di_min D) + (INR x + 1) * (di_range D / INR number).
(** sorting by cells, then by radius *)
Definition sorted_order (pop : list osd) (order : list nat) : Prop :=
  Permutation order (seq 0 (length pop)) /\
  forall i j, (i <= j < length order)%nat ->
    let p := old pop (nth i order 0%nat) in let q := old pop (nth j order 0%nat) in
    (q_cell p < q_cell q)%nat \/ (q_cell p = q_cell q /\ q_rd3 p <= q_rd3 q).
(** The last bin with super-droplets of a cell of the source and the first one of the next such cell have different numbers:
    between two super-droplets of different cells in bins of the same number there is always one in another bin. *)
Definition told_apart (o : icfg) (b : box) (D : distro) (number : nat) (pop : list osd) : Prop :=
  forall p q x, In p pop -> In q pop -> in_source o b (q_cell p) = true -> in_source o b (q_cell q) = true ->
    (q_cell p < q_cell q)%nat -> in_bin D number x p -> in_bin D number x q ->
    exists r y, In r pop /\ in_source o b (q_cell r) = true /\ in_bin D number y r /\
      ((q_cell r = q_cell p /\ (x < y)%nat) \/ (q_cell p < q_cell r < q_cell q)%nat \/ (q_cell r = q_cell q /\ (y < x)%nat)).
(** particles added to existing super-droplets of a cell *)
Definition added_to_old (pop : list osd) (n : nat -> N) (c : nat) : R :=
  sumR (length pop) (fun id => if Nat.eqb (q_cell (old pop id)) c then N2R (n id) - N2R (q_n (old pop id)) else 0).

(** ** groups *)
Lemma opt_eqb_spec a b : opt_eqb a b = true <-> a = b.
Proof.
  destruct a as [a|], b as [b|]; cbn; try (split; congruence). rewrite Nat.eqb_eq. split; congruence.
Qed.
Definition run_at (l : list (option nat)) (p : nat) (t : option nat * nat * nat) : Prop :=
  let '(v, q, k) := t in
  (0 < k)%nat /\ (p <= q)%nat /\ (q + k <= p + length l)%nat /\
  (forall i, (q <= i < q + k)%nat -> nth_error l (i - p) = Some v) /\
  ((q + k < p + length l)%nat -> nth_error l (q + k - p) <> Some v).
Lemma runs_spec : forall l p,
  let rs := with_ptr p (reduce_by_key l) in
  (forall t, In t rs -> run_at l p t) /\
  (forall i, (p <= i < p + length l)%nat -> exists v q k, In (v, q, k) rs /\ (q <= i < q + k)%nat) /\
  (match l with [] => rs = [] | x :: _ => exists k s, rs = (x, p, k) :: s end) /\
  (forall l1 t l2 t' l3, rs = l1 ++ t :: l2 ++ t' :: l3 -> (snd (fst t) + snd t <= snd (fst t'))%nat).
Proof.
  induction l as [|x l IH]; intros p; cbv zeta.
  - cbn. split; [intros ? []|]. split; [intros; lia|]. split; [reflexivity|]. intros l1 t l2 t' l3 H. destruct l1; discriminate.
  - specialize (IH (S p)). cbv zeta in IH. destruct IH as (I1 & I2 & I3 & I4). cbn [reduce_by_key].
    destruct (reduce_by_key l) as [|[y k] s] eqn:E.
    + assert (l = []) by (destruct l as [|z l]; [reflexivity|destruct I3 as (? & ? & I3); discriminate]). subst l.
      cbn [with_ptr]. split; [|split; [|split]].
      * intros t [<-|[]]. cbn. repeat split; try lia. intros i Hi. replace (i - p)%nat with 0%nat by lia. reflexivity.
      * intros i Hi. exists x, p, 1%nat. cbn in Hi. split; [now left|lia].
      * now exists 1%nat, [].
      * intros l1 t l2 t' l3 H. destruct l1 as [|? l1]; [|destruct l1; discriminate]. injection H as H1 H2. destruct l2; discriminate.
    + destruct l as [|z l]; [discriminate|]. destruct I3 as (k' & s' & I3). cbn [with_ptr] in I3. injection I3 as Ey Ek Es. subst z.
      destruct (opt_eqb x y) eqn:Exy.
      * apply opt_eqb_spec in Exy. subst y. cbn [with_ptr] in *. replace (p + S k)%nat with (S p + k)%nat by lia.
        assert (Hfirst : run_at (x :: l) (S p) (x, S p, k)) by (apply I1; now left).
        assert (Hrest : forall t, In t (with_ptr (S p + k) s) -> run_at (x :: x :: l) p t).
        { intros t Ht. specialize (I1 t (or_intror Ht)). destruct t as ((v & q) & c). cbn [run_at length] in *.
          destruct I1 as (A & B & C & F & G). repeat split; try lia.
          - intros i Hi. replace (i - p)%nat with (S (i - S p)) by lia. cbn [nth_error]. apply F, Hi.
          - intros H. replace (q + c - p)%nat with (S (q + c - S p)) by lia. cbn [nth_error]. apply G. lia. }
        split; [|split; [|split]].
        -- intros t [<-|Ht]; [|now apply Hrest]. cbn [run_at length] in *. destruct Hfirst as (A & B & C & F & G). repeat split; try lia.
           ++ intros i Hi. destruct (Nat.eq_dec i p) as [->|]; [now rewrite Nat.sub_diag|].
              replace (i - p)%nat with (S (i - S p)) by lia. cbn [nth_error]. apply F. lia.
           ++ intros H. replace (p + S k - p)%nat with (S (S p + k - S p)) by lia. cbn [nth_error]. apply G. lia.
        -- intros i Hi. destruct (Nat.eq_dec i p) as [->|]; [exists x, p, (S k); split; [now left|lia]|].
           cbn [length] in *. destruct (I2 i ltac:(lia)) as (v & q & c & [[= <- <- <-]|Hin] & Hr).
           ++ exists x, p, (S k). split; [now left|lia].
           ++ exists v, q, c. split; [now right|exact Hr].
        -- now exists (S k), (with_ptr (S p + k) s).
        -- intros l1 t l2 t' l3 H. destruct l1 as [|t0 l1]; cbn [app] in H.
           ++ injection H as <- H. cbn [fst snd]. assert (Q := I4 [] (x, S p, k) l2 t' l3 (f_equal (cons (x, S p, k)) H)). cbn [fst snd] in Q. lia.
           ++ injection H as _ H. exact (I4 ((x, S p, k) :: l1) t l2 t' l3 (f_equal (cons (x, S p, k)) H)).
      * cbn [with_ptr]. assert (Hne : x <> y) by (intros ->; rewrite (proj2 (opt_eqb_spec y y) eq_refl) in Exy; discriminate).
        change ((y, (p + 1)%nat, k) :: with_ptr (p + 1 + k) s) with (with_ptr (p + 1) ((y, k) :: s)). replace (p + 1)%nat with (S p) by lia.
        set (rs := with_ptr (S p) ((y, k) :: s)) in *. split; [|split; [|split]].
        -- intros t [<-|Ht].
           ++ cbn. repeat split; try lia. { intros i Hi. replace (i - p)%nat with 0%nat by lia. reflexivity. }
              intros _. replace (p + 1 - p)%nat with 1%nat by lia. cbn. congruence.
           ++ specialize (I1 t Ht). destruct t as ((v & q) & c). cbn [run_at length] in *.
              destruct I1 as (A & B & C & F & G). repeat split; try lia.
              ** intros i Hi. replace (i - p)%nat with (S (i - S p)) by lia. cbn [nth_error]. apply F, Hi.
              ** intros H. replace (q + c - p)%nat with (S (q + c - S p)) by lia. cbn [nth_error]. apply G. lia.
        -- intros i Hi. destruct (Nat.eq_dec i p) as [->|]; [exists x, p, 1%nat; split; [now left|lia]|].
           cbn [length] in *. destruct (I2 i ltac:(lia)) as (v & q & c & Hin & Hr). exists v, q, c. split; [now right|exact Hr].
        -- now exists 1%nat, rs.
        -- intros l1 t l2 t' l3 H. destruct l1 as [|t0 l1]; cbn [app] in H.
           ++ injection H as <- H. cbn [fst snd]. assert (Hin : In t' rs) by (rewrite H; apply in_or_app; right; now left).
              specialize (I1 t' Hin). destruct t' as ((v & q) & c). cbn [run_at] in I1. cbn [fst snd]. lia.
           ++ injection H as _ H. now apply (I4 l1 t l2 t' l3).
Qed.

(** ** unique_by_key keeps everything if equal neighbours are equal altogether *)
Lemma unique_incl l e : In e (unique_by_key l) -> In e l.
Proof.
  revert e. induction l as [|x l IH]; intros e; [tauto|]. cbn [unique_by_key]. intros [->|H]; [now left|right]. apply IH.
  destruct (unique_by_key l) as [|y s]; [destruct H|]. destruct (Nat.eqb (fst x) (fst y)); [now right|exact H].
Qed.
Lemma unique_head x l : exists s, unique_by_key (x :: l) = x :: s.
Proof. cbn [unique_by_key]. eauto. Qed.
Lemma unique_keeps : forall l,
  (forall l1 x y l2, l = l1 ++ x :: y :: l2 -> fst x = fst y -> x = y) -> forall e, In e l -> In e (unique_by_key l).
Proof.
  induction l as [|x l IH]; intros H e; [tauto|]. cbn [unique_by_key].
  assert (IH' : forall e, In e l -> In e (unique_by_key l)).
  { apply IH. intros l1 a b l2 E. apply (H (x :: l1) a b l2). cbn. now rewrite E. }
  intros [->|Hin]; [now left|]. specialize (IH' e Hin). destruct l as [|z l]; [destruct Hin|].
  destruct (unique_head z l) as (s & E). rewrite E in *. destruct (Nat.eqb_spec (fst x) (fst z)) as [Exz|Exz]; [|now right].
  assert (x = z) by (apply (H [] x z l); auto). subst z. destruct IH' as [->|IH']; [now left|now right].
Qed.

(** ** lists *)
Lemma flat_neighbours {A B} (g : A -> list B) :
  (forall a, g a = [] \/ exists x, g a = [x]) ->
  forall l l1 x y l2, flat_map g l = l1 ++ x :: y :: l2 ->
  exists o1 i o2 j o3, l = o1 ++ i :: o2 ++ j :: o3 /\ g i = [x] /\ g j = [y] /\ (forall k, In k o2 -> g k = []).
Proof.
  intros Hg. induction l as [|a l IH]; intros l1 x y l2 E; cbn [flat_map] in E; [destruct l1; discriminate|].
  destruct (Hg a) as [Ea|(z & Ea)]; rewrite Ea in E; cbn [app] in E.
  - destruct (IH _ _ _ _ E) as (o1 & i & o2 & j & o3 & -> & Q). exists (a :: o1), i, o2, j, o3. split; [reflexivity|exact Q].
  - destruct l1 as [|w l1]; cbn [app] in E.
    + injection E as -> E. clear IH.
      assert (F : exists o2 j o3, l = o2 ++ j :: o3 /\ g j = [y] /\ (forall k, In k o2 -> g k = [])).
      { revert E. induction l as [|a' l IH]; cbn [flat_map]; intros E; [discriminate|].
        destruct (Hg a') as [Ea'|(z & Ea')]; rewrite Ea' in E; cbn [app] in E.
        - destruct (IH E) as (o2 & j & o3 & -> & Hj & Hk). exists (a' :: o2), j, o3. repeat split; auto. intros k [<-|Hin]; auto.
        - injection E as -> E. exists [], a', l. repeat split; auto. intros k []. }
      destruct F as (o2 & j & o3 & -> & Hj & Hk). exists [], a, o2, j, o3. auto.
    + injection E as -> E. destruct (IH _ _ _ _ E) as (o1 & i & o2 & j & o3 & -> & Q). exists (a :: o1), i, o2, j, o3. split; [reflexivity|exact Q].
Qed.

Inductive spread {A} (P : A -> A -> Prop) : list A -> Prop :=
| sp_nil : spread P []
| sp_cons : forall a l, (forall x, In x l -> P a x) -> spread P l -> spread P (a :: l).
Lemma spread_of {A} (P : A -> A -> Prop) l :
  (forall l1 t l2 t' l3, l = l1 ++ t :: l2 ++ t' :: l3 -> P t t') -> spread P l.
Proof.
  induction l as [|a l IH]; intros H; constructor.
  - intros x Hx. apply in_split in Hx as (l2 & l3 & ->). apply (H [] a l2 x l3). reflexivity.
  - apply IH. intros l1 t l2 t' l3 ->. apply (H (a :: l1) t l2 t' l3). reflexivity.
Qed.
Lemma spread_filter {A} (P : A -> A -> Prop) f l : spread P l -> spread P (filter f l).
Proof.
  induction 1 as [|a l H Hs IH]; cbn [filter]; [constructor|]. destruct (f a); [|exact IH]. constructor; [|exact IH].
  intros x Hx. apply filter_In in Hx as (Hx & _). now apply H.
Qed.
Lemma choose_spec u : (forall j, 0 <= u j < 1) -> forall rs j, (forall t, In t rs -> (0 < snd t)%nat) ->
  Forall2 (fun p t => (snd (fst t) <= p < snd (fst t) + snd t)%nat) (choose u j rs) rs.
Proof.
  intros Hu. induction rs as [|[[v q] k] rs IH]; intros j H; cbn [choose]; constructor.
  - cbn [fst snd]. split; [lia|]. assert (Hk : (0 < k)%nat) by (apply (H (v, q, k)); now left). apply lt_0_INR in Hk.
    destruct (Hu j) as (U0 & U1). destruct (truncN_spec (u j * INR k)) as (A & B); [apply Rmult_le_pos; lra|].
    assert (u j * INR k < 1 * INR k) by (apply Rmult_lt_compat_r; lra).
    assert (N.to_nat (truncN (u j * INR k)) < k)%nat by (apply INR_lt; lra). lia.
  - apply IH. intros t Ht. apply H. now right.
Qed.
Lemma Forall2_in_l {A B} (P : A -> B -> Prop) l l' x : Forall2 P l l' -> In x l -> exists y, In y l' /\ P x y.
Proof. induction 1 as [|a b l l' H F IH]; intros []; [subst; exists b; split; [now left|exact H]|]. destruct (IH H0) as (y & A1 & A2). exists y. split; [now right|exact A2]. Qed.
Lemma Forall2_in_r {A B} (P : A -> B -> Prop) l l' y : Forall2 P l l' -> In y l' -> exists x, In x l /\ P x y.
Proof. induction 1 as [|a b l l' H F IH]; intros []; [subst; exists a; split; [now left|exact H]|]. destruct (IH H0) as (x & A1 & A2). exists x. split; [now right|exact A2]. Qed.

Lemma filter_cell counts c : (c < length counts)%nat ->
  filter (fun k => Nat.eqb (init_ijk counts (fun _ => 0%nat) k) c) (seq 0 (list_sum counts)) = seq (exscan counts c) (nth c counts 0%nat).
Proof.
  intros Hc. assert (Hle : (exscan counts c + nth c counts 0 <= list_sum counts)%nat).
  { rewrite <- exscan_S by lia. rewrite <- exscan_all. apply exscan_mono. lia. }
  replace (list_sum counts) with (exscan counts c + (nth c counts 0 + (list_sum counts - exscan counts c - nth c counts 0)))%nat by lia.
  rewrite !seq_app, !filter_app. rewrite Nat.add_0_l.
  assert (Hno : forall l, (forall k, In k l -> init_ijk counts (fun _ => 0%nat) k <> c) -> filter (fun k => Nat.eqb (init_ijk counts (fun _ => 0%nat) k) c) l = []).
  { induction l as [|k l IH]; intros H; [reflexivity|]. cbn [filter].
    destruct (Nat.eqb_spec (init_ijk counts (fun _ => 0%nat) k) c) as [E|E]; [exfalso; apply (H k); [now left|exact E]|]. apply IH. intros; apply H; now right. }
  assert (Hyes : forall l, (forall k, In k l -> init_ijk counts (fun _ => 0%nat) k = c) -> filter (fun k => Nat.eqb (init_ijk counts (fun _ => 0%nat) k) c) l = l).
  { induction l as [|k l IH]; intros H; [reflexivity|]. cbn [filter]. rewrite (H k) by now left. rewrite Nat.eqb_refl. f_equal. apply IH. intros; apply H; now right. }
  rewrite Hno, Hyes, Hno; [now rewrite app_nil_r|..].
  - intros k Hk. apply in_seq in Hk. destruct (exscan_find counts (length counts) k) as (c' & Hc' & He); [lia|rewrite exscan_all; lia|].
    rewrite (init_ijk_spec counts _ c' k) by lia. intros ->. lia.
  - intros k Hk. apply in_seq in Hk. apply init_ijk_spec; lia.
  - intros k Hk. apply in_seq in Hk. destruct (exscan_find counts c k) as (c' & Hc' & He); [lia|lia|].
    rewrite (init_ijk_spec counts _ c' k) by lia. lia.
Qed.
Lemma filter_filter {A} (f g : A -> bool) l : filter f (filter g l) = filter g (filter f l).
Proof.
  induction l as [|a l IH]; [reflexivity|]. cbn [filter]. destruct (f a) eqn:F, (g a) eqn:G; cbn [filter]; rewrite ?F, ?G, IH; reflexivity.
Qed.
Lemma filter_ext_in' {A} (f g : A -> bool) l : (forall a, In a l -> f a = g a) -> filter f l = filter g l.
Proof. induction l as [|a l IH]; intros H; [reflexivity|]. cbn [filter]. rewrite (H a) by now left. rewrite IH; [reflexivity|]. intros; apply H; now right. Qed.

(** ** one cell: a sum over bins *)
Lemma bins_sum o D number sup_dt F L c (x : nat -> R) :
  set_up o -> smooth_distribution D F L -> (c < ic_n_cell o)%nat -> (0 < number)%nat -> 0 < sup_dt ->
  (forall i, (i < number)%nat -> ln (di_min D) + INR i * (di_range D / INR number) <= ln (x i) / 3 < ln (di_min D) + (INR i + 1) * (di_range D / INR number)) ->
  Rabs (sumR number (fun i => N2R (amount o D number sup_dt c (x i))) - sup_dt * requested o c (concentration D F)) <=
  INR number / 2 + sup_dt * requested o c (L * di_range D ^ 2 / INR number).
Proof.
  intros Hs (Hr & HL & HF & Hlip & Hpos) Hc Hk0 HW Hx. unfold di_range in *.
  set (lo := ln (di_min D)) in *. set (hi := ln (di_max D)) in *.
  assert (Hlh : lo < hi) by (apply ln_increasing; lra). set (k := number) in *.
  assert (HkR : 0 < INR k) by (apply lt_0_INR; lia).
  set (w := (hi - lo) / INR k) in *. assert (Hw : 0 < w) by (apply Rdiv_lt_0_compat; lra).
  assert (E : sumR k (fun i => N2R (amount o D k sup_dt c (x i))) =
      sumR k (fun i => N2R (truncN (sup_dt * w * (ic_dv o c * scale o c) * di_f D (ln (x i) / 3) + 5 / 10)))).
  { apply sumR_ext. intros i Hi. unfold amount. rewrite n_sd_conc_alt. f_equal. f_equal. f_equal. f_equal.
    unfold s_mult, analysis_multiplier. rewrite N2R_of_nat.
    replace (ln (di_max D / di_min D)) with (hi - lo) by (unfold hi, lo, Rdiv; rewrite ln_mult, ln_Rinv; try lra; apply Rinv_0_lt_compat; lra).
    unfold w. destruct Hs as (X & Y & Z & _ & _ & H0). destruct (Nat.eqb_spec (ic_dims o) 0) as [E0|E0].
    - assert (c = 0)%nat by (rewrite (H0 E0) in Hc; lia). subst c. field. lra.
    - field. repeat split; lra. }
  rewrite E. clear E. assert (Hend : lo + INR k * w = hi) by (unfold w; field; lra).
  assert (HA : 0 <= sup_dt * w * (ic_dv o c * scale o c)).
  { apply Rmult_le_pos; [apply Rmult_le_pos; lra|]. apply Rmult_le_pos; [|now apply scale_nonneg].
    destruct Hs as (_ & _ & _ & H & _). now apply H. }
  assert (Q := rounded_sum F (di_f D) L lo w k (fun i => ln (x i) / 3) (sup_dt * w * (ic_dv o c * scale o c)) Hw HL HA).
  rewrite Hend in Q. specialize (Q HF Hlip Hpos).
  assert (Hin : forall i, (i < k)%nat -> lo + INR i * w <= ln (x i) / 3 <= lo + (INR i + 1) * w) by (intros i Hi; specialize (Hx i Hi); lra).
  specialize (Q Hin). rewrite !requested_scale.
  replace (sup_dt * (concentration D F * ic_dv o c * scale o c)) with (sup_dt * w * (ic_dv o c * scale o c) / w * (F hi - F lo)) by (unfold concentration; fold hi lo; field; lra).
  replace (sup_dt * (L * (hi - lo) ^ 2 / INR k * ic_dv o c * scale o c)) with (sup_dt * w * (ic_dv o c * scale o c) / w * (INR k * (L * w * w))) by (unfold w; field; lra).
  exact Q.
Qed.

Section Facts.
  Variables (o : icfg) (b : box) (D : distro) (number : nat) (sup_dt : R) (d : draws) (u : nat -> R) (pop : list osd) (order : list nat).
  Hypothesis HD : 0 < di_min D < di_max D.
  Hypothesis Hnum : (0 < number)%nat.
  Hypothesis Hd : uniform_draws d.
  Hypothesis Hu : forall j, 0 <= u j < 1.
  Hypothesis Hpop : forall p, In p pop -> 0 < q_rd3 p /\ (q_cell p < ic_n_cell o)%nat.
  Hypothesis Hord : sorted_order pop order.
  Let at_ (i : nat) : nat := nth i order 0%nat.
  Let bin (id : nat) : option nat := bin_of o b D number pop id.
  Let cell (id : nat) : nat := q_cell (old pop id).
  Let w : R := di_range D / INR number.
  Let lo : R := ln (di_min D).

  Lemma range_pos : 0 < di_range D.
  Proof. unfold di_range. assert (ln (di_min D) < ln (di_max D)) by (apply ln_increasing; lra). lra. Qed.
  Lemma numR : 0 < INR number.
  Proof. now apply lt_0_INR. Qed.
  Lemma w_pos : 0 < w.
  Proof. apply Rdiv_lt_0_compat; [apply range_pos|apply numR]. Qed.
  Lemma hi_w : ln (di_max D) = lo + INR number * w.
  Proof. unfold lo, w, di_range. field. apply Rgt_not_eq, numR. Qed.

  Lemma get_bin_spec r count x :
    get_bin_no (s_lo D) (s_hi D) r count = Some x -> count = number ->
    (x < number)%nat /\ lo + INR x * w <= ln r / 3 < lo + (INR x + 1) * w.
  Proof.
    intros H ->. unfold get_bin_no in H. fold lo in H. unfold s_lo, s_hi in H. fold lo in H.
    destruct (Rltb (ln r / 3) lo) eqn:E1; [discriminate|]. destruct (Rleb (ln (di_max D)) (ln r / 3)) eqn:E2; [discriminate|].
    destruct (Nat.eqb number 0) eqn:E3; [discriminate|]. cbn [orb] in H. injection H as <-.
    apply Rltb_false in E1. apply Rleb_false in E2. assert (Hr := range_pos). unfold di_range in Hr. fold lo in Hr.
    set (l := ln r / 3) in *. assert (Hn := numR).
    assert (Ev : (l - lo) / (ln (di_max D) - lo) * INR number = (l - lo) / w).
    { unfold w, di_range. fold lo. field. lra. }
    rewrite Ev. assert (Hw := w_pos). assert (V0 : 0 <= (l - lo) / w) by (apply Rmult_le_pos; [lra|left; now apply Rinv_0_lt_compat]).
    destruct (truncN_spec _ V0) as (A & B). set (x := N.to_nat _) in *. clearbody x.
    assert (El : l = lo + (l - lo) / w * w) by (field; lra).
    assert (X1 : INR x * w <= (l - lo) / w * w) by (apply Rmult_le_compat_r; lra).
    assert (X2 : (l - lo) / w * w < (INR x + 1) * w) by (apply Rmult_lt_compat_r; lra).
    split; [|lra]. apply INR_lt. apply Rmult_lt_reg_r with w; [exact Hw|]. assert (Q := hi_w). lra.
  Qed.
  Lemma get_bin_intro r x : (x < number)%nat -> lo + INR x * w <= ln r / 3 < lo + (INR x + 1) * w ->
    get_bin_no (s_lo D) (s_hi D) r number = Some x.
  Proof.
    intros Hx (A & B). unfold get_bin_no, s_lo, s_hi. fold lo. assert (Hw := w_pos). assert (Hn := numR). assert (Q := hi_w).
    assert (X0 : 0 <= INR x * w) by (apply Rmult_le_pos; [apply pos_INR|lra]).
    assert (X1 : (INR x + 1) * w <= INR number * w) by (apply Rmult_le_compat_r; [lra|]; rewrite <- S_INR; apply le_INR; lia).
    set (l := ln r / 3) in *.
    destruct (Rltb l lo) eqn:E1; [apply Rltb_true in E1; lra|]. destruct (Rleb (ln (di_max D)) l) eqn:E2; [apply Rleb_true in E2; lra|].
    destruct (Nat.eqb_spec number 0) as [E3|E3]; [lia|]. cbn [orb]. f_equal.
    assert (Ev : (l - lo) / (ln (di_max D) - lo) * INR number = (l - lo) / w).
    { unfold w, di_range. fold lo. field. assert (Hr := range_pos). unfold di_range in Hr. fold lo in Hr. lra. }
    rewrite Ev. rewrite <- (Nat2N.id x). f_equal. apply truncN_unique. rewrite N2R_of_nat.
    assert (El : l - lo = (l - lo) / w * w) by (field; lra). split.
    - apply Rmult_le_reg_r with w; lra.
    - apply Rmult_lt_reg_r with w; lra.
  Qed.
  Lemma count_at c : (c < ic_n_cell o)%nat -> nth c (s_counts o b number) 0%nat = if in_source o b c then number else 0%nat.
  Proof. apply counts_src_nth. Qed.
  Lemma get_bin_0 r : get_bin_no (s_lo D) (s_hi D) r 0 = None.
  Proof. unfold get_bin_no. cbn [Nat.eqb]. now rewrite orb_true_r. Qed.
  Lemma bin_spec id x : (id < length pop)%nat ->
    (bin id = Some x <-> in_source o b (cell id) = true /\ in_bin D number x (old pop id)).
  Proof.
    intros Hid. unfold bin, bin_of, cell, in_bin, old_log. fold lo w.
    destruct (Hpop (old pop id)) as (_ & Hc); [now apply nth_In|]. rewrite count_at by exact Hc.
    destruct (in_source o b (q_cell (old pop id))).
    - split; [intros H; split; [reflexivity|now apply (get_bin_spec _ _ _ H)]|intros (_ & H1 & H2); now apply get_bin_intro].
    - rewrite get_bin_0. split; [discriminate|intros (? & _); discriminate].
  Qed.

  Lemma order_len : length order = length pop.
  Proof. destruct Hord as (P & _). apply Permutation_length in P. now rewrite seq_length in P. Qed.
  Lemma at_lt i : (i < length pop)%nat -> (at_ i < length pop)%nat.
  Proof.
    intros Hi. destruct Hord as (P & _). assert (In (at_ i) order) by (apply nth_In; now rewrite order_len).
    apply (Permutation_in _ P) in H. apply in_seq in H. lia.
  Qed.
  Lemma at_onto id : (id < length pop)%nat -> exists i, (i < length pop)%nat /\ at_ i = id.
  Proof.
    intros H. destruct Hord as (P & _). assert (In id order) by (apply (Permutation_in _ (Permutation_sym P)), in_seq; lia).
    apply In_nth with (d := 0%nat) in H0 as (i & Hi & E). exists i. rewrite <- order_len. auto.
  Qed.
  Lemma in_order id : In id order -> (id < length pop)%nat.
  Proof. intros H. destruct Hord as (P & _). apply (Permutation_in _ P) in H. apply in_seq in H. lia. Qed.
  Lemma sorted_at i j : (i <= j < length pop)%nat ->
    (cell (at_ i) < cell (at_ j))%nat \/ (cell (at_ i) = cell (at_ j) /\ old_log (old pop (at_ i)) <= old_log (old pop (at_ j))).
  Proof.
    intros H. destruct Hord as (_ & S). rewrite order_len in S. destruct (S i j H) as [A|(A & B)]; [now left|right].
    split; [exact A|]. unfold old_log. fold (at_ i) (at_ j) in B.
    assert (P : 0 < q_rd3 (old pop (at_ i))) by (apply Hpop, nth_In, at_lt; lia).
    destruct (Rle_lt_or_eq_dec _ _ B) as [Hlt|Heq]; [assert (Q := ln_increasing _ _ P Hlt); lra|rewrite Heq; lra].
  Qed.

  Lemma between i k j x : (i <= k <= j)%nat -> (j < length pop)%nat -> bin (at_ i) = Some x -> bin (at_ j) = Some x ->
    cell (at_ i) = cell (at_ j) -> bin (at_ k) = Some x /\ cell (at_ k) = cell (at_ i).
  Proof.
    intros Hk Hj Bi Bj Hc. assert (Li := at_lt i ltac:(lia)). assert (Lj := at_lt j ltac:(lia)). assert (Lk := at_lt k ltac:(lia)).
    destruct (sorted_at i k ltac:(lia)) as [A|(A & A')]; destruct (sorted_at k j ltac:(lia)) as [B|(B & B')]; try lia.
    apply bin_spec in Bi as (S1 & (N1 & I1)); [|exact Li]. apply bin_spec in Bj as (S2 & (N2 & I2)); [|exact Lj].
    split; [|now symmetry]. apply bin_spec; [exact Lk|]. rewrite <- A. split; [exact S1|]. split; [exact N1|]. lra.
  Qed.

  Hypothesis Happart : told_apart o b D number pop.

  Lemma separated i j x : (i < j < length pop)%nat -> bin (at_ i) = Some x -> bin (at_ j) = Some x ->
    (forall k, (i < k < j)%nat -> bin (at_ k) = None) -> cell (at_ i) = cell (at_ j).
  Proof.
    intros Hij Bi Bj Hno. assert (Li := at_lt i ltac:(lia)). assert (Lj := at_lt j ltac:(lia)).
    assert (Bi' := Bi). assert (Bj' := Bj).
    apply bin_spec in Bi' as (S1 & I1); [|exact Li]. apply bin_spec in Bj' as (S2 & I2); [|exact Lj].
    destruct (sorted_at i j ltac:(lia)) as [A|(A & _)]; [exfalso|exact A].
    destruct (Happart (old pop (at_ i)) (old pop (at_ j)) x) as (r & y & Hr & Sr & Ir & Cases); auto; [now apply nth_In|now apply nth_In|].
    apply In_nth with (d := no_osd) in Hr as (id & Hid & Er). destruct (at_onto id Hid) as (k & Hk & Ek).
    assert (Er' : old pop (at_ k) = r) by (rewrite Ek; exact Er). clear Er.
    assert (Bk : bin (at_ k) = Some y) by (apply bin_spec; [now apply at_lt|]; unfold cell; rewrite Er'; auto).
    assert (Hw := w_pos). destruct I1 as (N1 & I1). destruct I2 as (N2 & I2). destruct Ir as (N3 & I3). fold lo w in I1, I2, I3.
    unfold cell in *. rewrite <- Er' in *.
    assert (Hs : forall a c, (a < c)%nat -> (INR a + 1) * w <= INR c * w).
    { intros a c Hac. apply Rmult_le_compat_r; [lra|]. rewrite <- S_INR. apply le_INR. lia. }
    destruct (lt_dec i k) as [Hik|Hik].
    - destruct (lt_dec k j) as [Hkj|Hkj]; [rewrite (Hno k) in Bk by lia; discriminate|].
      destruct (sorted_at j k ltac:(lia)) as [B|(B & B')]; unfold cell in *; destruct Cases as [(C & C')|[C|(C & C')]]; try lia.
      specialize (Hs y x C'). lra.
    - destruct (sorted_at k i ltac:(lia)) as [B|(B & B')]; unfold cell in *; destruct Cases as [(C & C')|[C|(C & C')]]; try lia.
      specialize (Hs x y C'). lra.
  Qed.

  (** what is found to be matched *)
  Lemma have_match_spec c x : have_match o b D number pop order c (Some x) = true <->
    exists id, (id < length pop)%nat /\ bin id = Some x /\ cell id = c.
  Proof.
    unfold have_match, matched_bins. rewrite existsb_exists.
    assert (Hin : forall e, In e (tmp_bin_no o b D number pop order) <-> exists id, (id < length pop)%nat /\ bin id = Some (fst e) /\ cell id = snd e).
    { intros (y & c'). unfold tmp_bin_no. rewrite in_flat_map. cbn [fst snd]. split.
      - intros (id & Hid & H). exists id. fold (bin id) in H. destruct (bin id) as [z|] eqn:E; [|destruct H]. destruct H as [[= <- <-]|[]].
        split; [now apply in_order|]. auto.
      - intros (id & Hid & E & C). exists id. fold (bin id). rewrite E. split; [|left; unfold cell in C; now rewrite C].
        destruct (at_onto id Hid) as (i & Hi & <-). apply nth_In. now rewrite order_len. }
    split.
    - intros (e & He & E). apply andb_true_iff in E as (E1 & E2). apply Nat.eqb_eq in E1, E2. apply unique_incl, Hin in He. now rewrite E1, E2 in He.
    - intros H. exists (x, c). split; [|now rewrite !Nat.eqb_refl]. apply unique_keeps; [|now apply Hin].
      intros l1 [y1 c1] [y2 c2] l2 E Ey. cbn [fst] in Ey. subst y2. f_equal. unfold tmp_bin_no in E.
      destruct (flat_neighbours (fun id => match bin_of o b D number pop id with Some x0 => [(x0, q_cell (old pop id))] | None => [] end)) with (2 := E) as (o1 & i & o2 & j & o3 & El & Gi & Gj & Gk).
      { intros a. destruct (bin_of o b D number pop a); eauto. }
      fold (bin i) in Gi. fold (bin j) in Gj.
      destruct (bin i) as [yi|] eqn:Bi; [|discriminate]. destruct (bin j) as [yj|] eqn:Bj; [|discriminate].
      injection Gi as -> <-. injection Gj as -> <-.
      assert (Ai : at_ (length o1) = i) by (unfold at_; rewrite El; apply nth_middle).
      assert (Aj : at_ (length o1 + S (length o2)) = j).
      { unfold at_. rewrite El. rewrite app_nth2 by lia. replace (length o1 + S (length o2) - length o1)%nat with (S (length o2)) by lia.
        cbn [nth]. apply nth_middle. }
      assert (Hlen : (length o1 + S (length o2) < length pop)%nat).
      { rewrite <- order_len, El, app_length. cbn [length]. rewrite app_length. cbn [length]. lia. }
      change (cell i = cell j). rewrite <- Ai, <- Aj in *. apply separated with (x := y1); [lia|exact Bi|exact Bj|].
      intros k Hk. assert (In (at_ k) o2).
      { unfold at_. rewrite El, app_nth2 by lia. replace (k - length o1)%nat with (S (k - length o1 - 1)) by lia. cbn [nth].
        rewrite app_nth1 by lia. apply nth_In. lia. }
      specialize (Gk _ H0). cbn beta in Gk. fold (bin (at_ k)) in Gk. destruct (bin (at_ k)); [discriminate|reflexivity].
  Qed.

  (** the choice *)
  Let rs := with_ptr 0 (reduce_by_key (map bin order)).
  Let ch := choose u 0 (in_bins rs).
  Lemma bin_nth i : (i < length pop)%nat -> nth_error (map bin order) i = Some (bin (at_ i)).
  Proof. intros H. rewrite nth_error_map. rewrite (nth_error_nth' order 0%nat) by (now rewrite order_len). reflexivity. Qed.
  Lemma rs_spec v q k : In (v, q, k) rs ->
    (0 < k)%nat /\ (q + k <= length pop)%nat /\ (forall i, (q <= i < q + k)%nat -> bin (at_ i) = v) /\ ((q + k < length pop)%nat -> bin (at_ (q + k)) <> v).
  Proof.
    intros H. destruct (runs_spec (map bin order) 0) as (R1 & _). specialize (R1 _ H). cbn [run_at] in R1.
    rewrite map_length, order_len, !Nat.add_0_l in R1. destruct R1 as (A & _ & C & F & G). repeat split; auto.
    - intros i Hi. specialize (F i Hi). rewrite Nat.sub_0_r, bin_nth in F by lia. now injection F.
    - intros Hl E. apply G; [exact Hl|]. rewrite Nat.sub_0_r, bin_nth by exact Hl. now rewrite E.
  Qed.
  Lemma run_cell x q k : In (Some x, q, k) rs -> forall i j, (q <= i <= j)%nat -> (j < q + k)%nat -> cell (at_ i) = cell (at_ j).
  Proof.
    intros H i j Hi Hj. destruct (rs_spec _ _ _ H) as (A & B & C & _). induction j as [|j IH]; [now replace i with 0%nat by lia|].
    destruct (Nat.eq_dec i (S j)) as [->|]; [reflexivity|]. rewrite IH by lia. apply separated with (x := x); [lia|apply C; lia|apply C; lia|intros; lia].
  Qed.
  Lemma ch_runs : Forall2 (fun p t => (snd (fst t) <= p < snd (fst t) + snd t)%nat) ch (in_bins rs).
  Proof.
    apply choose_spec; [exact Hu|]. intros [[v q] k] Ht. apply filter_In in Ht as (Ht & _). apply (rs_spec _ _ _ Ht).
  Qed.
  Lemma ch_in p : In p ch -> exists x q k, In (Some x, q, k) rs /\ (q <= p < q + k)%nat.
  Proof.
    intros H. destruct (Forall2_in_l _ _ _ _ ch_runs H) as ([[v q] k] & Ht & Hp). apply filter_In in Ht as (Ht & Hv). cbn [fst snd] in *.
    destruct v as [x|]; [|discriminate]. exists x, q, k. auto.
  Qed.
  Lemma ch_onto id x : (id < length pop)%nat -> bin id = Some x -> exists p, In p ch /\ (p < length pop)%nat /\ bin (at_ p) = Some x /\ cell (at_ p) = cell id.
  Proof.
    intros Hid Hb. destruct (at_onto id Hid) as (i & Hi & <-). destruct (runs_spec (map bin order) 0) as (_ & R2 & _).
    rewrite map_length, order_len in R2. destruct (R2 i ltac:(lia)) as (v & q & k & Hin & Hr). fold rs in Hin.
    destruct (rs_spec _ _ _ Hin) as (A & B & C & _). assert (v = Some x) by (rewrite <- Hb; symmetry; now apply C). subst v.
    destruct (Forall2_in_r _ _ _ (Some x, q, k) ch_runs) as (p & Hp & Hr'); [now apply filter_In|]. cbn [fst snd] in Hr'.
    exists p. split; [exact Hp|]. split; [lia|]. split; [apply C; lia|]. destruct (le_dec p i).
    - apply (run_cell x q k Hin); lia.
    - symmetry. apply (run_cell x q k Hin); lia.
  Qed.
  Lemma ch_nodup : NoDup (map (fun p => (bin (at_ p), cell (at_ p))) ch).
  Proof.
    assert (S : spread (fun t t' : option nat * nat * nat => (snd (fst t) + snd t <= snd (fst t'))%nat) (in_bins rs)).
    { apply spread_filter, spread_of. destruct (runs_spec (map bin order) 0) as (_ & _ & _ & R4). exact R4. }
    assert (I : forall t, In t (in_bins rs) -> In t rs /\ exists x, fst (fst t) = Some x).
    { intros t Ht. apply filter_In in Ht as (Ht & Hv). split; [exact Ht|]. destruct (fst (fst t)) as [x|]; [eauto|discriminate]. }
    assert (F := ch_runs). revert S I F. generalize (in_bins rs). clearbody ch. induction ch as [|p l IH]; intros ts S I F; [constructor|].
    inversion F as [|? [[v q] k] ? ts' Hp F' E1 E2]; subst. inversion S as [|? ? S1 S2]; subst.
    cbn [map]. constructor; [|apply (IH ts'); auto; intros t Ht; apply I; now right].
    intros Hin. apply in_map_iff in Hin as (p' & E & Hp'). injection E as Eb Ec.
    destruct (Forall2_in_l _ _ _ _ F' Hp') as ([[v' q'] k'] & Ht' & Hr'). specialize (S1 _ Ht'). cbn [fst snd] in *.
    destruct (I _ (or_introl eq_refl)) as (Iq & x & Ex). destruct (I _ (or_intror Ht')) as (Iq' & x' & Ex'). cbn [fst] in Ex, Ex'. subst v v'.
    destruct (rs_spec _ _ _ Iq) as (A1 & B1 & C1 & D1). destruct (rs_spec _ _ _ Iq') as (A2 & B2 & C2 & D2).
    apply (D1 ltac:(lia)). refine (proj1 (between p (q + k) p' x _ _ _ _ _)); [lia|lia|now apply C1| |now symmetry].
    rewrite Eb. now apply C1.
  Qed.

  (** new ones of a cell *)
  Lemma new_in_cell c : (c < ic_n_cell o)%nat -> in_source o b c = true ->
    map c_rd3 (in_cell c (new_sds o b D number sup_dt d pop order)) =
    map (fun i => s_rd3 o b D number d (exscan (s_counts o b number) c + i) c)
        (filter (fun i => negb (have_match o b D number pop order c (Some i))) (seq 0 number)) /\
    map c_n (in_cell c (new_sds o b D number sup_dt d pop order)) =
    map (amount o D number sup_dt c) (map c_rd3 (in_cell c (new_sds o b D number sup_dt d pop order))).
  Proof.
    intros Hc Hs. set (cnt := s_counts o b number).
    assert (Hlen : length cnt = ic_n_cell o) by apply counts_src_length.
    assert (G : forall l a, 
      let g := map (fun ik : nat * nat => let '(i, k) := ik in let c0 := s_cell o b number k in
           let '(x, y, z) := position o d c0 i in mk_csd c0 (s_rd3 o b D number d k c0) (di_kappa D) (amount o D number sup_dt c0 (s_rd3 o b D number d k c0)) x y z)
        (combine (seq a (length l)) l) in
      map c_rd3 (in_cell c g) = map (fun k => s_rd3 o b D number d k c) (filter (fun k => Nat.eqb (s_cell o b number k) c) l) /\
      map c_n (in_cell c g) = map (amount o D number sup_dt c) (map c_rd3 (in_cell c g))).
    { induction l as [|k l IH]; intros a; [split; reflexivity|]. cbn [length seq combine map]. specialize (IH (S a)). cbv zeta in IH |- *.
      destruct (position o d (s_cell o b number k) a) as ((x & y) & z). cbn [in_cell filter c_cell].
      destruct (Nat.eqb_spec (s_cell o b number k) c) as [E|E]; [|exact IH]. cbn [map c_rd3 c_n]. rewrite E. destruct IH as (IH1 & IH2).
      unfold in_cell in IH1, IH2. split; f_equal; assumption. }
    specialize (G (without_match o b D number d pop order) 0%nat). cbv zeta in G. fold (new_sds o b D number sup_dt d pop order) in G.
    destruct G as (G1 & G2). split; [|exact G2]. rewrite G1. unfold without_match. fold cnt.
    assert (Ecnt : nth c cnt 0%nat = number) by (unfold cnt; rewrite count_at, Hs by exact Hc; reflexivity).
    rewrite filter_filter. unfold s_cell. fold cnt. rewrite filter_cell by (rewrite Hlen; exact Hc). rewrite Ecnt.
    rewrite (filter_ext_in' _ (fun k => negb (have_match o b D number pop order c (Some (k - exscan cnt c)%nat)))).
    2:{ intros k Hk. apply in_seq in Hk. rewrite (init_ijk_spec cnt _ c k) by (rewrite ?Ecnt, ?Hlen; lia). rewrite Ecnt.
        replace (get_bin_no (s_lo D) (s_hi D) (s_rd3 o b D number d k c) number) with (Some (k - exscan cnt c)%nat); [reflexivity|symmetry].
        apply get_bin_intro; [lia|]. unfold s_rd3, rd3_sd_conc. rewrite ln_exp. unfold lnrd_sd_conc. fold cnt. rewrite Ecnt.
        unfold s_lo, s_hi. fold lo. assert (Hn := numR). assert (Hw := w_pos).
        set (i := (k - exscan cnt c)%nat). destruct (Hd k) as ((U0 & U1) & _).
        replace (3 * (lo + (INR i + d_r d k) * (ln (di_max D) - lo) / INR number) / 3) with (lo + (INR i + d_r d k) * w) by (unfold w, di_range; fold lo; field; lra).
        assert (0 <= d_r d k * w) by (apply Rmult_le_pos; lra).
        assert (d_r d k * w < 1 * w) by (apply Rmult_lt_compat_r; lra). lra. }
    generalize (exscan cnt c). intros off. replace (seq off number) with (map (Nat.add off) (seq 0 number)).
    2:{ clear. revert off. induction number as [|n IH]; intros off; [reflexivity|]. rewrite !seq_S, map_app, IH. reflexivity. }
    generalize (seq 0 number). induction l as [|i l IH]; [reflexivity|]. cbn [map filter]. replace (off + i - off)%nat with i by lia.
    destruct (negb (have_match o b D number pop order c (Some i))); cbn [map]; rewrite ?IH; reflexivity.
  Qed.
End Facts.

Lemma sumR_upd m (G : nat -> N -> R) n id v : (id < m)%nat ->
  sumR m (fun i => G i (upd n id v i)) = sumR m (fun i => G i (n i)) + (G id v - G id (n id)).
Proof.
  intros H. induction m as [|m IH]; [lia|]. cbn [sumR]. destruct (Nat.eq_dec id m) as [->|E].
  - rewrite (sumR_ext m (fun i => G i (upd n m v i)) (fun i => G i (n i))) by (intros i Hi; unfold upd; destruct (Nat.eqb_spec i m); [lia|reflexivity]).
    unfold upd. rewrite Nat.eqb_refl. lra.
  - rewrite IH by lia. unfold upd at 1. destruct (Nat.eqb_spec m id); [lia|]. lra.
Qed.
Lemma fold_added pop (amt : nat -> N) c : forall l n, (forall id, In id l -> (id < length pop)%nat) ->
  added_to_old pop (fold_left (fun n id => upd n id (n id + amt id)%N) l n) c =
  added_to_old pop n c + lsumR (map (fun id => if Nat.eqb (q_cell (old pop id)) c then N2R (amt id) else 0) l).
Proof.
  induction l as [|id l IH]; intros n H; cbn [fold_left map lsumR fold_right]; [lra|].
  rewrite IH by (intros; apply H; now right). fold (lsumR (map (fun id => if Nat.eqb (q_cell (old pop id)) c then N2R (amt id) else 0) l)).
  unfold added_to_old. rewrite (sumR_upd (length pop) (fun i v => if Nat.eqb (q_cell (old pop i)) c then N2R v - N2R (q_n (old pop i)) else 0)) by (apply H; now left).
  destruct (Nat.eqb (q_cell (old pop id)) c); rewrite ?N2R_plus; lra.
Qed.
Lemma lsumR_filter {A} (f : A -> bool) (g : A -> R) l : lsumR (map (fun a => if f a then g a else 0) l) = lsumR (map g (filter f l)).
Proof.
  induction l as [|a l IH]; [reflexivity|]. cbn [map lsumR fold_right filter]. fold (lsumR (map (fun a => if f a then g a else 0) l)). rewrite IH.
  destruct (f a); cbn [map lsumR fold_right]; fold (lsumR (map g (filter f l))); lra.
Qed.
Lemma lsumR_perm l l' : Permutation l l' -> lsumR l = lsumR l'.
Proof. induction 1; cbn [lsumR fold_right] in *; unfold lsumR in *; lra. Qed.
Lemma fold_grows (amt : nat -> N) : forall l n id, (n id <= fold_left (fun n i => upd n i (n i + amt i)%N) l n id)%N.
Proof.
  induction l as [|i l IH]; intros n id; cbn [fold_left]; [lia|]. eapply N.le_trans; [|apply IH]. unfold upd. destruct (Nat.eqb_spec id i) as [->|]; lia.
Qed.

(** ** C57 *)
(** Where the last and first bins of neighbouring cells can be told apart: every cell of the region gets the rate times the time
    between additions, partly by increasing multiplicities of super-droplets present in bins and partly by one new
    super-droplet for each empty bin; other cells get nothing; no multiplicity decreases. *)
Theorem C57_matching_partial :
  forall o b D number sup_dt d u pop order F L c,
    set_up o -> smooth_distribution D F L -> uniform_draws d -> (forall j, 0 <= u j < 1) -> (0 < number)%nat -> 0 < sup_dt ->
    (forall p, In p pop -> 0 < q_rd3 p /\ (q_cell p < ic_n_cell o)%nat) -> sorted_order pop order -> told_apart o b D number pop ->
    (c < ic_n_cell o)%nat ->
    let n := n_after o b D number sup_dt u pop order in
    let g := in_cell c (new_sds o b D number sup_dt d pop order) in
    let added := added_to_old pop n c + particles g in
    (forall id, (q_n (old pop id) <= n id)%N) /\
    (in_source o b c = false -> added = 0 /\ g = []) /\
    (in_source o b c = true ->
       Rabs (added - sup_dt * requested o c (concentration D F)) <=
         INR number / 2 + sup_dt * requested o c (L * di_range D ^ 2 / INR number) /\
       exists empty, NoDup empty /\ length g = length empty /\
         (forall x, In x empty <-> (x < number)%nat /\ ~ exists p, In p pop /\ q_cell p = c /\ in_bin D number x p)).
Proof.
  intros o b D number sup_dt d u pop order F L c Hs HDs Hd Hu Hnum Hdt Hpop Hord Hap Hc n g added.
  assert (HD : 0 < di_min D < di_max D) by apply HDs.
  set (amt := fun id => amount o D number sup_dt (q_cell (old pop id)) (q_rd3 (old pop id))).
  assert (Hn : n = fold_left (fun n id => upd n id (n id + amt id)%N) (chosen o b D number u pop order) (fun id => q_n (old pop id))) by reflexivity.
  set (ch := choose u 0 (in_bins (with_ptr 0 (reduce_by_key (map (bin_of o b D number pop) order))))).
  assert (Hch : chosen o b D number u pop order = map (fun p => nth p order 0%nat) ch) by reflexivity.
  assert (Hchlt : forall p, In p ch -> (p < length pop)%nat).
  { intros p Hp. destruct (ch_in o b D number u pop order Hnum Hu Hord p Hp) as (x & q & k & Hin & Hr).
    destruct (rs_spec o b D number pop order Hnum Hord _ _ _ Hin) as (_ & B & _). lia. }
  assert (Hadd : added_to_old pop n c = lsumR (map (fun id => N2R (amt id)) (filter (fun id => Nat.eqb (q_cell (old pop id)) c) (map (fun p => nth p order 0%nat) ch)))).
  { rewrite Hn, Hch, fold_added.
    - rewrite (lsumR_filter (fun id => Nat.eqb (q_cell (old pop id)) c) (fun id => N2R (amt id))).
      unfold added_to_old at 1. rewrite (sumR_ext _ _ (fun _ => 0)) by (intros; destruct (Nat.eqb _ _); lra). rewrite sumR_const. lra.
    - intros id Hid. apply in_map_iff in Hid as (p & <- & Hp). apply (at_lt number pop order Hnum Hord). now apply Hchlt. }
  split; [intros id; rewrite Hn; exact (fold_grows amt (chosen o b D number u pop order) (fun id => q_n (old pop id)) id)|]. split.
  - intros Hout. assert (Hcnt : nth c (s_counts o b number) 0%nat = 0%nat) by (unfold s_counts; rewrite counts_src_nth, Hout by exact Hc; reflexivity).
    assert (Hg : g = []).
    { unfold g, new_sds. destruct (in_cell c _) as [|s l] eqn:E; [reflexivity|exfalso].
      assert (Hin : In s (s :: l)) by now left. rewrite <- E in Hin. apply filter_In in Hin as (Hin & Ec). apply Nat.eqb_eq in Ec.
      apply in_map_iff in Hin as ((i & k) & Es & Hik). apply in_combine_r in Hik. apply filter_In in Hik as (Hk & _).
      assert (Hck : s_cell o b number k = c) by (rewrite <- Es in Ec; cbv zeta in Ec; revert Ec; destruct (position o d (s_cell o b number k) i) as ((x & y) & z); exact (fun e => e)).
      assert (Q : In k (filter (fun k => Nat.eqb (s_cell o b number k) c) (seq 0 (list_sum (s_counts o b number))))) by (apply filter_In; split; [exact Hk|now apply Nat.eqb_eq]).
      unfold s_cell in Q. rewrite filter_cell in Q by (unfold s_counts; now rewrite counts_src_length). rewrite Hcnt in Q. destruct Q. }
    split; [|exact Hg]. unfold added. rewrite Hg, Hadd.
    destruct (filter _ _) as [|id l] eqn:E; [unfold particles; cbn; change (N2R 0) with 0; lra|exfalso].
    assert (Hin : In id (id :: l)) by now left. rewrite <- E in Hin. apply filter_In in Hin as (Hin & Ec). apply Nat.eqb_eq in Ec.
    apply in_map_iff in Hin as (p & Ep & Hp). destruct (ch_in o b D number u pop order Hnum Hu Hord p Hp) as (x & q & k & Hrun & Hr).
    destruct (rs_spec o b D number pop order Hnum Hord _ _ _ Hrun) as (_ & B & C & _). specialize (C p Hr). rewrite Ep in C.
    unfold bin_of in C. rewrite Ec, Hcnt, get_bin_0 in C. discriminate.
  - intros Hin. destruct (new_in_cell o b D number sup_dt d pop order HD Hnum Hd c Hc Hin) as (Hr3 & Hgn). fold g in Hr3, Hgn.
    set (off := exscan (s_counts o b number) c) in *.
    set (emp := filter (fun i => negb (have_match o b D number pop order c (Some i))) (seq 0 number)) in *.
    set (ids := filter (fun id => Nat.eqb (q_cell (old pop id)) c) (map (fun p => nth p order 0%nat) ch)) in *.
    set (xs := map (fun id => q_rd3 (old pop id)) ids ++ map c_rd3 g).
    assert (Hids : forall id, In id ids -> exists p x, In p ch /\ (p < length pop)%nat /\ nth p order 0%nat = id /\ bin_of o b D number pop id = Some x /\ q_cell (old pop id) = c).
    { intros id Hid. apply filter_In in Hid as (Hid & Ec). apply Nat.eqb_eq in Ec. apply in_map_iff in Hid as (p & Ep & Hp).
      destruct (ch_in o b D number u pop order Hnum Hu Hord p Hp) as (x & q & k & Hrun & Hr).
      destruct (rs_spec o b D number pop order Hnum Hord _ _ _ Hrun) as (_ & B & C & _). specialize (C p Hr). rewrite Ep in C.
      exists p, x. repeat split; auto. }
    assert (Hsum : added = lsumR (map (fun r => N2R (amount o D number sup_dt c r)) xs)).
    { unfold added. rewrite Hadd. unfold xs. rewrite map_app, lsumR_app. f_equal.
      - rewrite map_map. f_equal. apply map_ext_in. intros id Hid. destruct (Hids id Hid) as (p & x & _ & _ & _ & _ & Ec). unfold amt. now rewrite Ec.
      - unfold particles. rewrite N2R_lsumN, Hgn, !map_map. reflexivity. }
    set (rb := fun r => match get_bin_no (s_lo D) (s_hi D) r number with Some x => x | None => 0%nat end).
    assert (Hcnt : nth c (s_counts o b number) 0%nat = number) by (unfold s_counts; rewrite counts_src_nth, Hin by exact Hc; reflexivity).
    assert (Hrb_id : forall id x, q_cell (old pop id) = c -> bin_of o b D number pop id = Some x -> rb (q_rd3 (old pop id)) = x).
    { intros id x Ec E. unfold bin_of in E. rewrite Ec, Hcnt in E. unfold rb. now rewrite E. }
    (* bins of new ones *)
    assert (Hn0 := numR number Hnum). assert (Hw := w_pos D number HD Hnum).
    assert (Hnew : forall i, (i < number)%nat -> get_bin_no (s_lo D) (s_hi D) (s_rd3 o b D number d (off + i) c) number = Some i).
    { intros i Hi. apply (get_bin_intro D number HD Hnum); [exact Hi|]. unfold s_rd3, rd3_sd_conc. rewrite ln_exp. unfold lnrd_sd_conc. rewrite Hcnt.
      fold off. replace (off + i - off)%nat with i by lia. unfold s_lo, s_hi. destruct (Hd (off + i)%nat) as ((U0 & U1) & _). set (uu := d_r d (off + i)%nat) in *.
      replace (3 * (ln (di_min D) + (INR i + uu) * (ln (di_max D) - ln (di_min D)) / INR number) / 3) with (ln (di_min D) + (INR i + uu) * (di_range D / INR number)) by (unfold di_range; field; lra).
      assert (0 <= uu * (di_range D / INR number)) by (apply Rmult_le_pos; lra).
      assert (uu * (di_range D / INR number) < 1 * (di_range D / INR number)) by (apply Rmult_lt_compat_r; lra). lra. }
    assert (Hrb_new : map rb (map c_rd3 g) = emp).
    { rewrite Hr3, map_map. rewrite <- (map_id emp) at 2. apply map_ext_in. intros i Hi. apply filter_In in Hi as (Hi & _). apply in_seq in Hi.
      unfold rb. now rewrite Hnew by lia. }
    assert (Hmatch : forall x, have_match o b D number pop order c (Some x) = true <-> exists id, (id < length pop)%nat /\ bin_of o b D number pop id = Some x /\ q_cell (old pop id) = c).
    { intros x. apply (have_match_spec o b D number pop order HD Hnum Hpop Hord Hap). }
    assert (Hperm : Permutation (map rb xs) (seq 0 number)).
    { apply NoDup_Permutation.
      - unfold xs. rewrite map_app, Hrb_new, map_map.
        assert (N1 : NoDup (map (fun id => rb (q_rd3 (old pop id))) ids)).
        { unfold ids. assert (ND := ch_nodup o b D number u pop order HD Hnum Hu Hpop Hord). change (NoDup (map (fun p => (bin_of o b D number pop (nth p order 0%nat), q_cell (old pop (nth p order 0%nat)))) ch)) in ND.
          assert (H1 : forall p, In p ch -> (p < length pop)%nat) by exact Hchlt.
          assert (H2 : forall p, In p ch -> exists x, bin_of o b D number pop (nth p order 0%nat) = Some x).
          { intros p Hp. destruct (ch_in o b D number u pop order Hnum Hu Hord p Hp) as (x & q & k & Hrun & Hr).
            destruct (rs_spec o b D number pop order Hnum Hord _ _ _ Hrun) as (_ & B & C & _). specialize (C p Hr). eauto. }
          clearbody ch. clear - ND H2 Hrb_id. induction ch as [|p l IH]; [constructor|]. cbn [map filter]. cbn [map] in ND. apply NoDup_cons_iff in ND as (Nin & ND').
          specialize (IH ND' (fun q Hq => H2 q (or_intror Hq))).
          destruct (Nat.eqb_spec (q_cell (old pop (nth p order 0%nat))) c) as [Ec|Ec]; [|exact IH]. cbn [map]. constructor; [|exact IH].
          intros Hin. apply Nin. apply in_map_iff in Hin as (id & Eid & Hid). apply filter_In in Hid as (Hid & Ec'). apply Nat.eqb_eq in Ec'.
          apply in_map_iff in Hid as (p' & <- & Hp'). apply in_map_iff. exists p'. split; [|exact Hp'].
          destruct (H2 p (or_introl eq_refl)) as (x & Ex). destruct (H2 p' (or_intror Hp')) as (x' & Ex').
          rewrite (Hrb_id _ _ Ec Ex), (Hrb_id _ _ Ec' Ex') in Eid. now rewrite Ex, Ex', Ec, Ec', Eid. }
        assert (N2 : NoDup emp) by (apply NoDup_filter, seq_NoDup).
        assert (N3 : forall x, In x (map (fun id => rb (q_rd3 (old pop id))) ids) -> ~ In x emp).
        { intros x Hx Hx'. apply in_map_iff in Hx as (id & Eid & Hid). destruct (Hids id Hid) as (p & y & Hp & Hpl & Ep & Eb & Ec).
          rewrite (Hrb_id _ _ Ec Eb) in Eid. subst y. apply filter_In in Hx' as (_ & Hx'). rewrite (proj2 (Hmatch x)) in Hx'; [discriminate|].
          exists id. repeat split; auto. rewrite <- Ep. now apply (at_lt number pop order Hnum Hord). }
        clear - N1 N2 N3. revert N1 N3. generalize (map (fun id => rb (q_rd3 (old pop id))) ids). induction l as [|a l IH]; intros N1 N3; [exact N2|].
        inversion N1; subst. cbn [app]. constructor.
        + intros H. apply in_app_or in H as [H|H]; [contradiction|]. apply (N3 a); [now left|exact H].
        + apply IH; [assumption|]. intros x Hx. apply N3. now right.
      - apply seq_NoDup.
      - intros x. rewrite in_seq. split.
        + intros Hx. unfold xs in Hx. rewrite map_app, Hrb_new, map_map in Hx. apply in_app_or in Hx as [Hx|Hx].
          * apply in_map_iff in Hx as (id & Eid & Hid). destruct (Hids id Hid) as (p & y & Hp & Hpl & Ep & Eb & Ec).
            rewrite (Hrb_id _ _ Ec Eb) in Eid. subst y. unfold bin_of in Eb. rewrite Ec, Hcnt in Eb.
            destruct (get_bin_spec D number HD Hnum _ _ _ Eb eq_refl). lia.
          * apply filter_In in Hx as (Hx & _). apply in_seq in Hx. lia.
        + intros Hx. unfold xs. rewrite map_app, Hrb_new, map_map. apply in_or_app.
          destruct (have_match o b D number pop order c (Some x)) eqn:Em.
          * left. apply Hmatch in Em as (id & Hid & Eb & Ec).
            destruct (ch_onto o b D number u pop order HD Hnum Hu Hpop Hord Hap id x Hid Eb) as (p & Hp & Hpl & Eb' & Ec').
            apply in_map_iff. exists (nth p order 0%nat). cbn beta in Eb', Ec'. rewrite Ec in Ec'. split; [now apply Hrb_id|].
            apply filter_In. split; [now apply (in_map (fun p => nth p order 0%nat))|now apply Nat.eqb_eq].
          * right. apply filter_In. split; [apply in_seq; lia|now rewrite Em]. }
    symmetry in Hperm. apply Permutation_map_inv in Hperm as (l3 & El & Pl).
    assert (Hl3 : length l3 = number) by (rewrite <- (map_length rb l3), <- El; apply seq_length).
    assert (Hxin : forall r, In r xs -> exists x, get_bin_no (s_lo D) (s_hi D) r number = Some x).
    { intros r Hr. apply in_app_or in Hr as [Hr|Hr].
      - apply in_map_iff in Hr as (id & <- & Hid). destruct (Hids id Hid) as (p & y & Hp & Hpl & Ep & Eb & Ec). unfold bin_of in Eb. rewrite Ec, Hcnt in Eb. eauto.
      - rewrite Hr3 in Hr. apply in_map_iff in Hr as (i & <- & Hi). apply filter_In in Hi as (Hi & _). apply in_seq in Hi. exists i. apply Hnew. lia. }
    split.
    + rewrite Hsum, (lsumR_perm _ _ (Permutation_map (fun r => N2R (amount o D number sup_dt c r)) Pl)).
      replace (lsumR (map (fun r => N2R (amount o D number sup_dt c r)) l3)) with (sumR number (fun i => N2R (amount o D number sup_dt c (nth i l3 0)))).
      2:{ change (sumR number (fun i => N2R (amount o D number sup_dt c (nth i l3 0)))) with (sumR number (fun i => N2R (amount o D number sup_dt c (nth (0 + i) l3 0)))).
          rewrite <- (lsumR_map_seq (fun i => N2R (amount o D number sup_dt c (nth i l3 0))) 0 number). f_equal.
          rewrite <- (map_map (fun i => nth i l3 0) (fun r => N2R (amount o D number sup_dt c r))). f_equal.
          rewrite <- Hl3. clear. apply nth_ext with (d := 0) (d' := 0); [now rewrite map_length, seq_length|].
          intros i Hi. rewrite map_length, seq_length in Hi. rewrite (nth_map_lt _ _ _ 0%nat) by (now rewrite seq_length). now rewrite seq_nth. }
      apply (bins_sum o D number sup_dt F L c); auto. intros i Hi.
      assert (Hri : In (nth i l3 0) xs) by (apply (Permutation_in _ Pl) || apply (Permutation_in _ (Permutation_sym Pl)); apply nth_In; lia).
      destruct (Hxin _ Hri) as (x & Ex). assert (Hx : x = i).
      { assert (Q : nth i (map rb l3) 0%nat = i) by (rewrite <- El, seq_nth by exact Hi; reflexivity).
        rewrite (nth_map_lt _ _ _ 0) in Q by lia. unfold rb in Q. now rewrite Ex in Q. }
      subst x. apply (get_bin_spec D number HD Hnum _ _ _ Ex eq_refl).
    + exists emp. split; [apply NoDup_filter, seq_NoDup|]. split; [rewrite <- Hrb_new, !map_length; reflexivity|].
      intros x. unfold emp. rewrite filter_In, in_seq. split.
      * intros (Hx & Em). split; [lia|]. intros (p & Hp & Ec & Hb). apply negb_true_iff in Em.
        apply In_nth with (d := no_osd) in Hp as (id & Hid & Ep). assert (have_match o b D number pop order c (Some x) = true); [|congruence].
        apply Hmatch. exists id. change (nth id pop no_osd) with (old pop id) in Ep. rewrite Ep. repeat split; auto.
        apply (bin_spec o b D number pop HD Hnum Hpop id x Hid). rewrite Ep, Ec. auto.
      * intros (Hx & Hno). split; [lia|]. apply negb_true_iff. destruct (have_match o b D number pop order c (Some x)) eqn:Em; [exfalso|reflexivity].
        apply Hmatch in Em as (id & Hid & Eb & Ec). apply Hno. exists (old pop id). split; [now apply nth_In|]. split; [exact Ec|].
        apply (bin_spec o b D number pop HD Hnum Hpop id x Hid) in Eb. apply Eb.
Qed.
Print Assumptions C57_matching_partial.

(** ** Neighbouring cells are not told apart *)
Definition two : icfg :=
  {| ic_dims := 2; ic_nx := 2; ic_ny := 0; ic_nz := 1; ic_dx := 1; ic_dy := 1; ic_dz := 1;
     ic_x0 := 0; ic_x1 := 2; ic_y0 := 0; ic_y1 := 1; ic_z0 := 0; ic_z1 := 1;
     ic_sd_conc := 1; ic_const_multi := 0; ic_indep := true; ic_factor := []; ic_n_cell := 2;
     ic_rhod := fun _ => 1; ic_dv := fun _ => 1; ic_bin := 1 / 10000 |}.
Definition both : box := {| s_x0 := 0; s_x1 := 2; s_y0 := 0; s_y1 := 1; s_z0 := 0; s_z1 := 1 |}.
(** a super-droplet in a cell with the logarithm of its dry radius given *)
Definition one_at (c : nat) (l : R) : osd := {| q_cell := c; q_rd3 := exp (3 * l); q_n := 1000 |}.
Lemma two_set_up : set_up two.
Proof. unfold set_up, two. cbn. repeat split; intros; try lra; (tauto || discriminate || (exfalso; assumption)). Qed.
Lemma two_in_source c : (c < 2)%nat -> in_source two both c = true.
Proof.
  intros H. replace c with (ravel 2 0 1 c 0 0) by (cbn; lia).
  apply (C56_cells two both c 0 0); [now left|cbn; lra|cbn; lra|cbn; lra| |unfold valid_cell; cbn; lia| ].
  - unfold sensible_box, both. cbn. lra.
  - unfold cell_in_region, centre_within, both, two. cbn. destruct c as [|[|c]]; [| |lia]; cbn; repeat split; try lra; discriminate.
Qed.
Lemma two_amount c r : amount two (flat (6 / 10)) 1 1 c r = 300%N.
Proof.
  unfold amount. rewrite n_sd_conc_alt. unfold s_mult, analysis_multiplier, scale. cbn [two ic_dims ic_dv ic_dx ic_dy ic_dz ic_indep ic_factor Nat.eqb flat di_min di_max di_f].
  replace (exp (-17) / exp (-18)) with (exp 1) by (unfold Rdiv; rewrite <- exp_Ropp, <- exp_plus; f_equal; lra). rewrite ln_exp.
  change (N.of_nat 1) with 1%N. unfold N2R at 1. cbn [Z.of_N].
  replace (1 / 1 * 1 * (1 * 1 * 1) * (1 * 1) * (1 / (1 * 1 * 1)) * 300 + 5 / 10) with (N2R 300 + 5 / 10) by (unfold N2R; cbn [Z.of_N]; lra).
  apply truncN_N2R_half.
Qed.

(** Two cells, one bin, one super-droplet in the bin in each of the cells: the two are taken for one group, only the first cell is
    marked as having a match, and if the second super-droplet is drawn then the first cell gets nothing and the second one twice
    what it should. *)
Theorem C57_cells_mixed_refuted :
  let D := flat (6 / 10) in let pop := [one_at 0 (-17.5); one_at 1 (-17.5)] in
  set_up two /\ smooth_distribution D (fun x => 300 * x) 0 /\ sorted_order pop [0; 1]%nat /\
  in_source two both 0 = true /\ in_source two both 1 = true /\
  requested two 0 300 = 300 /\ requested two 1 300 = 300 /\
  forall d u, uniform_draws d -> 1 / 2 <= u 0%nat < 1 ->
    let n := n_after two both D 1 1 u pop [0; 1]%nat in
    let g := new_sds two both D 1 1 d pop [0; 1]%nat in
    added_to_old pop n 0 + particles (in_cell 0 g) = 0 /\
    added_to_old pop n 1 + particles (in_cell 1 g) = 600.
Proof.
  intros D pop. assert (HD : 0 < di_min D < di_max D) by (destruct (flat_smooth (6 / 10)) as (Q & _); apply Q).
  split; [apply two_set_up|]. split; [apply flat_smooth|]. split.
  { split; [apply Permutation_refl|]. intros i j Hij. cbn [length] in Hij.
    destruct i as [|[|i]], j as [|[|j]]; try lia; cbn; try (right; split; [reflexivity|lra]). left. lia. }
  split; [apply two_in_source; lia|]. split; [apply two_in_source; lia|]. split; [unfold requested, two; cbn; lra|]. split; [unfold requested, two; cbn; lra|].
  intros d u Hd Hu n g.
  assert (Hpop : forall p, In p pop -> 0 < q_rd3 p /\ (q_cell p < ic_n_cell two)%nat).
  { intros p [<-|[<-|[]]]; cbn; split; try lia; apply exp_pos. }
  assert (Hb : forall id, (id < 2)%nat -> bin_of two both D 1 pop id = Some 0%nat).
  { intros id Hid. apply (bin_spec two both D 1 pop HD ltac:(lia) Hpop); [cbn; lia|]. split.
    - apply two_in_source. destruct id as [|[|id]]; cbn; lia.
    - unfold in_bin, old_log, di_range, D, flat. cbn [di_min di_max]. rewrite !ln_exp.
      replace (q_rd3 (old pop id)) with (exp (3 * -17.5)) by (destruct id as [|[|id]]; [reflexivity|reflexivity|lia]).
      rewrite ln_exp. split; [lia|]. cbn [INR]. lra. }
  assert (Em : forall c x, have_match two both D 1 pop [0; 1]%nat c (Some x) = Nat.eqb 0 x && Nat.eqb 0 c).
  { intros c x. unfold have_match, matched_bins, tmp_bin_no. cbn [flat_map]. rewrite !Hb by lia. cbn [app unique_by_key fst Nat.eqb existsb snd old pop nth one_at q_cell].
    now rewrite orb_false_r. }
  assert (Ech : chosen two both D 1 u pop [0; 1]%nat = [1%nat]).
  { unfold chosen. cbn [map]. rewrite !Hb by lia. cbn [reduce_by_key opt_eqb Nat.eqb with_ptr in_bins filter fst choose].
    replace (truncN (u 0%nat * INR 2)) with 1%N by (symmetry; apply truncN_unique; unfold N2R; cbn [Z.of_N INR]; cbn; lra). reflexivity. }
  assert (En : forall id, n id = if Nat.eqb id 1 then (q_n (old pop 1) + 300)%N else q_n (old pop id)).
  { intros id. unfold n, n_after. rewrite Ech. cbn [fold_left]. unfold upd. destruct (Nat.eqb_spec id 1) as [->|]; [|reflexivity]. f_equal. apply two_amount. }
  destruct (new_in_cell two both D 1 1 d pop [0; 1]%nat HD ltac:(lia) Hd 0 ltac:(cbn; lia) ltac:(apply two_in_source; lia)) as (A0 & B0).
  destruct (new_in_cell two both D 1 1 d pop [0; 1]%nat HD ltac:(lia) Hd 1 ltac:(cbn; lia) ltac:(apply two_in_source; lia)) as (A1 & B1).
  cbn [seq filter] in A0, A1. rewrite Em in A0, A1. cbn [Nat.eqb andb negb map] in A0, A1. rewrite A0 in B0. rewrite A1 in B1. cbn [map] in B0, B1. fold g in B0, B1.
  unfold particles. rewrite B0, B1. rewrite two_amount. unfold added_to_old. cbn [length pop sumR].
  rewrite !En. cbn [Nat.eqb old nth pop one_at q_cell q_n lsumN fold_right]. rewrite ?N2R_plus. unfold N2R. cbn [Z.of_N]. lra.
Qed.
Print Assumptions C57_cells_mixed_refuted.

(** The hypotheses of [C57_matching_partial] are met: super-droplets outside of bins, in several bins and in the same bin of one
    cell, none in the first bin of the second. *)
Definition mixture : list osd := [one_at 1 (-17.25); one_at 0 (-17.8); one_at 0 (-19); one_at 1 (-17.1); one_at 0 (-17.6)].
Theorem C57_instance :
  set_up two /\ smooth_distribution (flat (6 / 10)) (fun x => 300 * x) 0 /\ in_source two both 1 = true /\
  (forall p, In p mixture -> 0 < q_rd3 p /\ (q_cell p < ic_n_cell two)%nat) /\
  sorted_order mixture [2; 1; 4; 0; 3]%nat /\ told_apart two both (flat (6 / 10)) 2 mixture /\
  (exists p, In p mixture /\ q_cell p = 1%nat /\ in_bin (flat (6 / 10)) 2 1 p) /\
  (~ exists p, In p mixture /\ q_cell p = 1%nat /\ in_bin (flat (6 / 10)) 2 0 p) /\
  (exists p, In p mixture /\ q_cell p = 0%nat /\ in_bin (flat (6 / 10)) 2 0 p).
Proof.
  assert (IB : forall c l x, in_bin (flat (6 / 10)) 2 x (one_at c l) <-> (x < 2)%nat /\ -18 + INR x / 2 <= l < -18 + (INR x + 1) / 2).
  { intros c l x. unfold in_bin, old_log, di_range, flat, one_at. cbn [di_min di_max q_rd3]. rewrite !ln_exp. cbn [INR]. split; intros (A & B); split; lra || exact A. }
  split; [apply two_set_up|]. split; [apply flat_smooth|]. split; [apply two_in_source; lia|]. split.
  { intros p Hp. unfold mixture in Hp. cbn [In] in Hp. destruct Hp as [<-|[<-|[<-|[<-|[<-|[]]]]]]; cbn; split; try lia; apply exp_pos. }
  split.
  { split.
    - apply NoDup_Permutation; [|apply seq_NoDup|].
      + repeat constructor; cbn; lia.
      + intros x. cbn. lia.
    - intros i j Hij. cbn [length] in Hij. assert (M : forall a b : R, a <= b -> exp (3 * a) <= exp (3 * b)).
      { intros a b [H| ->]; [left; apply exp_increasing; lra|right; reflexivity]. }
      assert (Q : forall i, (i < 5)%nat -> i = 0%nat \/ i = 1%nat \/ i = 2%nat \/ i = 3%nat \/ i = 4%nat) by lia.
      destruct (Q i ltac:(lia)) as [->|[->|[->|[->| ->]]]]; destruct (Q j ltac:(lia)) as [->|[->|[->|[->| ->]]]]; try (exfalso; lia);
        cbn; try (left; lia); right; (split; [reflexivity|apply M; lra]). }
  split.
  { intros p q x Hp Hq _ _ Hlt Hbp Hbq. exfalso. unfold mixture in Hp, Hq. cbn [In] in Hp, Hq.
    destruct Hp as [<-|[<-|[<-|[<-|[<-|[]]]]]]; destruct Hq as [<-|[<-|[<-|[<-|[<-|[]]]]]]; cbn [one_at q_cell] in Hlt; try lia;
      apply IB in Hbp as (Hx & Hbp); apply IB in Hbq as (_ & Hbq); destruct x as [|[|x]]; try lia; cbn [INR] in Hbp, Hbq; lra. }
  split; [|split].
  - exists (one_at 1 (-17.25)). split; [now left|]. split; [reflexivity|]. apply IB. cbn [INR]. split; [lia|lra].
  - intros (p & Hp & Hc & Hb). unfold mixture in Hp. cbn [In] in Hp.
    destruct Hp as [<-|[<-|[<-|[<-|[<-|[]]]]]]; cbn [one_at q_cell] in Hc; try lia; apply IB in Hb as (_ & Hb); cbn [INR] in Hb; lra.
  - exists (one_at 0 (-17.8)). split; [right; now left|]. split; [reflexivity|]. apply IB. cbn [INR]. split; [lia|lra].
Qed.
Print Assumptions C57_instance.
