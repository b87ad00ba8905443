(** C08-C12: boundary conditions, cell indices, faces, volumes *)
From Coq Require Import List Arith NArith ZArith Lia Reals Lra Permutation Bool.
From Verif Require Import Base BaseProofs SpaceModel SpaceProofs.
Import ListNotations.
Local Open Scope R_scope.

(** ** C08 *)
Theorem C08_periodic_into_domain :
  forall a b x, a < b -> a - 10 * (b - a) <= x ->
    a <= periodic a b x < b /\
    (exists k : Z, periodic a b x = x + IZR k * (b - a)) /\
    (a <= x < b -> periodic a b x = x).
Proof.
  intros a b x Hab Hx. unfold periodic.
  assert (HR : 0 <= fmod (x - a + 10 * (b - a)) (b - a) < b - a) by (apply fmod_range; lra).
  assert (HE : exists k : Z, a + fmod (x - a + 10 * (b - a)) (b - a) = x + IZR k * (b - a)).
  { unfold fmod. exists (10 - truncZ ((x - a + 10 * (b - a)) / (b - a)))%Z. rewrite minus_IZR. ring. }
  split; [lra|]. split; [exact HE|].
  intros Hin. destruct HE as (k & E). rewrite E.
  assert (a <= x + IZR k * (b - a) < b) by (rewrite <- E; lra).
  assert (k = 0)%Z as ->; [|ring].
  assert (IZR k < 1) by nra. assert (-1 < IZR k) by nra.
  assert (k < 1)%Z by (apply lt_IZR; lra). assert (-1 < k)%Z by (apply lt_IZR; lra). lia.
Qed.
Print Assumptions C08_periodic_into_domain.

(** the proviso is needed: a position further than ten domain lengths to the left ends up outside *)
Theorem C08_guard_necessary :
  forall a b x, a < b -> a - 11 * (b - a) < x < a - 10 * (b - a) -> periodic a b x < a.
Proof.
  intros a b x Hab Hx. unfold periodic, fmod.
  set (L := b - a) in *. set (q := (x - a + 10 * L) / L).
  assert (Eq : x - a + 10 * L = L * q) by (unfold q; field; unfold L; lra).
  assert (-1 < q < 0).
  { assert (0 < L) by (unfold L; lra). split; nra. }
  unfold truncZ. destruct (Rle_dec 0 q); [lra|].
  assert (Int_part (- q) = 0%Z) as ->.
  { pose proof (Int_part_spec (- q)). assert (-1 < Int_part (-q) < 1)%Z; [|lia].
    split; apply lt_IZR; cbn; lra. }
  change (IZR (- 0)) with 0. rewrite Eq. assert (0 < L) by (unfold L; lra). nra.
Qed.
Print Assumptions C08_guard_necessary.
Theorem C08_instance : 0 - 10 * (1 - 0) <= -1 / 2 /\ (0 < 1).
Proof. lra. Qed.

(** ** C09: specification *)
(** left the domain through an open side wall *)
Definition left_sideways (o : bopts) (s : bsd) : bool :=
  (if distmem o then (lft_open o && Rltb (b_x s) (x0 o)) || (rgt_open o && Rleb (x1 o) (b_x s))
   else open_side_walls o && (Rltb (b_x s) (x0 o) || Rleb (x1 o) (b_x s)))
  || ((n_dims o =? 3)%nat && open_side_walls o && (Rltb (b_y s) (y0 o) || Rleb (y1 o) (b_y s))).
Definition has_vertical_walls (o : bopts) : bool := (1 <? n_dims o)%nat && negb (periodic_topbot o).
Definition left_top (o : bopts) (s : bsd) : bool := has_vertical_walls o && Rleb (z1 o) (b_z s).
Definition left_bottom (o : bopts) (s : bsd) : bool := has_vertical_walls o && Rltb (b_z s) (z0 o).
(** what the puddle counts: those that left through the bottom only *)
Definition fell_out (o : bopts) (s : bsd) : bool := left_bottom o s && negb (left_sideways o s).
Definition fallen_sum (o : bopts) (w : bsd -> R) (l : list bsd) : R :=
  lsumR (map (fun s => if fell_out o s then N2R (b_n s) * w s else 0) l).

Definition moved (o : bopts) (s s' : bsd) : Prop :=
  b_x s' = (if distmem o || open_side_walls o then b_x s else periodic (x0 o) (x1 o) (b_x s)) /\
  b_y s' = (if (n_dims o =? 3)%nat && negb (open_side_walls o) then periodic (y0 o) (y1 o) (b_y s) else b_y s) /\
  b_z s' = (if (1 <? n_dims o)%nat && periodic_topbot o then periodic (z0 o) (z1 o) (b_z s) else b_z s) /\
  b_rw2 s' = b_rw2 s /\ b_rd3 s' = b_rd3 s /\ b_a s' = b_a s /\ b_c s' = b_c s /\ b_rho s' = b_rho s /\
  b_chem s' = b_chem s.

(** ** closed form *)
Definition step_x (o : bopts) (s : bsd) : bsd :=
  if negb (distmem o) then
    if negb (open_side_walls o) then set_x s (periodic (x0 o) (x1 o) (b_x s))
    else if Rleb (x1 o) (b_x s) || Rltb (b_x s) (x0 o) then set_n s 0%N else s
  else
    let s1 := if lft_open o && Rltb (b_x s) (x0 o) then set_n s 0%N else s in
    if rgt_open o && Rleb (x1 o) (b_x s) then set_n s1 0%N else s1.
Definition step_y (o : bopts) (s : bsd) : bsd :=
  if (n_dims o =? 3)%nat then
    if negb (open_side_walls o) then set_y s (periodic (y0 o) (y1 o) (b_y s))
    else if Rleb (y1 o) (b_y s) || Rltb (b_y s) (y0 o) then set_n s 0%N else s
  else s.
Definition step_top (o : bopts) (s : bsd) : bsd := if Rleb (z1 o) (b_z s) then set_n s 0%N else s.
Definition step_bot (o : bopts) (s : bsd) : bsd := if Rltb (b_z s) (z0 o) then set_n s 0%N else s.

Lemma bcnd_x_map o l : fst (fst (bcnd_x o l)) = map (step_x o) l.
Proof.
  unfold bcnd_x, step_x. destruct (distmem o); cbn [negb].
  - cbn [fst]. set (fl := fun s => if lft_open o && Rltb (b_x s) (x0 o) then set_n s 0%N else s).
    assert (E1 : (if lft_open o then flag_ids (ids_where (fun s => Rltb (b_x s) (x0 o)) l) l else l) = map fl l).
    { unfold fl. destruct (lft_open o); cbn [andb].
      - pose proof (flag_ids_map (fun s => Rltb (b_x s) (x0 o)) (fun s => s) l) as H. rewrite map_id in H. exact H.
      - now rewrite map_id. }
    rewrite E1. destruct (rgt_open o); cbn [andb].
    + apply flag_ids_map.
    + reflexivity.
  - destruct (open_side_walls o); reflexivity.
Qed.
Lemma bcnd_y_map o l : bcnd_y o l = map (step_y o) l.
Proof.
  unfold bcnd_y, step_y. destruct (n_dims o =? 3)%nat; [|now rewrite map_id].
  destruct (open_side_walls o); reflexivity.
Qed.

Definition final (o : bopts) (s : bsd) : bsd :=
  let s1 := step_y o (step_x o s) in
  if (1 <? n_dims o)%nat then
    if negb (periodic_topbot o) then step_bot o (step_top o s1)
    else set_z s1 (periodic (z0 o) (z1 o) (b_z s1))
  else s1.

Lemma bcnd_list o l p : (n_dims o <> 0)%nat -> fst (fst (bcnd o l p)) = map (final o) l.
Proof.
  intros Hn. unfold bcnd. destruct (Nat.eqb_spec (n_dims o) 0); [contradiction|].
  pose proof (bcnd_x_map o l) as Hx. destruct (bcnd_x o l) as [[lx lf] rg]. cbn [fst] in *. subst lx.
  rewrite bcnd_y_map. unfold bcnd_z, final.
  destruct (1 <? n_dims o)%nat; [|cbn [fst]; now rewrite !map_map].
  destruct (periodic_topbot o); cbn [negb fst]; [now rewrite !map_map|].
  unfold flag_if. rewrite !map_map. apply map_ext. intros s. reflexivity.
Qed.

Lemma step_x_attrs o s : let s' := step_x o s in
  b_y s' = b_y s /\ b_z s' = b_z s /\ b_rw2 s' = b_rw2 s /\ b_rd3 s' = b_rd3 s /\ b_a s' = b_a s /\
  b_c s' = b_c s /\ b_rho s' = b_rho s /\ b_chem s' = b_chem s.
Proof.
  cbv zeta. unfold step_x. destruct (distmem o), (open_side_walls o), (lft_open o), (rgt_open o); cbn [negb andb orb];
   repeat match goal with |- context [if ?c then _ else _] => destruct c end; cbn; repeat split; reflexivity.
Qed.
Lemma step_y_attrs o s : let s' := step_y o s in
  b_x s' = b_x s /\ b_z s' = b_z s /\ b_rw2 s' = b_rw2 s /\ b_rd3 s' = b_rd3 s /\ b_a s' = b_a s /\
  b_c s' = b_c s /\ b_rho s' = b_rho s /\ b_chem s' = b_chem s.
Proof.
  cbv zeta. unfold step_y. destruct (n_dims o =? 3)%nat, (open_side_walls o); cbn [negb];
   repeat match goal with |- context [if ?c then _ else _] => destruct c end; cbn; repeat split; reflexivity.
Qed.
Lemma side_n o s : b_n (step_y o (step_x o s)) = if left_sideways o s then 0%N else b_n s.
Proof.
  unfold left_sideways.
  assert (Ex : b_n (step_x o s) = if (if distmem o then (lft_open o && Rltb (b_x s) (x0 o)) || (rgt_open o && Rleb (x1 o) (b_x s))
     else open_side_walls o && (Rltb (b_x s) (x0 o) || Rleb (x1 o) (b_x s))) then 0%N else b_n s).
  { unfold step_x. destruct (distmem o); cbn [negb].
    - destruct (lft_open o), (rgt_open o), (Rltb (b_x s) (x0 o)), (Rleb (x1 o) (b_x s)); reflexivity.
    - destruct (open_side_walls o), (Rltb (b_x s) (x0 o)), (Rleb (x1 o) (b_x s)); reflexivity. }
  destruct (step_x_attrs o s) as (Ey & _). unfold step_y.
  destruct (n_dims o =? 3)%nat; cbn [andb]; [|rewrite orb_false_r; exact Ex].
  destruct (open_side_walls o) eqn:Ew; cbn [negb andb].
  - rewrite Ey. destruct (Rleb (y1 o) (b_y s)), (Rltb (b_y s) (y0 o)); cbn [orb];
      rewrite ?orb_true_r, ?orb_false_r; cbn [set_n b_n]; auto.
  - rewrite orb_false_r. cbn [b_n set_y]. exact Ex.
Qed.

Lemma final_n o s : z0 o < z1 o -> b_n (final o s) =
  if left_sideways o s || left_top o s || left_bottom o s then 0%N else b_n s.
Proof.
  intros Hz. unfold final, left_top, left_bottom, has_vertical_walls.
  destruct (step_x_attrs o s) as (_ & Ez1 & _). destruct (step_y_attrs o (step_x o s)) as (_ & Ez2 & _).
  set (s1 := step_y o (step_x o s)) in *. rewrite Ez1 in Ez2.
  assert (En : b_n s1 = if left_sideways o s then 0%N else b_n s) by apply side_n.
  destruct (1 <? n_dims o)%nat; cbn [andb]; [|rewrite !orb_false_r; exact En].
  destruct (periodic_topbot o); cbn [negb andb]; [rewrite !orb_false_r; exact En|].
  unfold step_bot, step_top. rewrite <- Ez2.
  destruct (Rleb (z1 o) (b_z s1)) eqn:E1; cbn [b_z set_n].
  - destruct (Rltb (b_z s1) (z0 o)) eqn:E2.
    + rewrite !orb_true_r. reflexivity.
    + rewrite orb_true_r. reflexivity.
  - destruct (Rltb (b_z s1) (z0 o)) eqn:E2; [rewrite !orb_true_r; reflexivity|].
    rewrite !orb_false_r. exact En.
Qed.

Lemma final_moved o s : moved o s (final o s).
Proof.
  unfold moved, final.
  destruct (step_x_attrs o s) as (A1 & A2 & A3 & A4 & A5 & A6 & A7 & A8).
  destruct (step_y_attrs o (step_x o s)) as (B1 & B2 & B3 & B4 & B5 & B6 & B7 & B8).
  assert (Ex : b_x (step_x o s) = if distmem o || open_side_walls o then b_x s else periodic (x0 o) (x1 o) (b_x s)).
  { unfold step_x. destruct (distmem o), (open_side_walls o), (lft_open o), (rgt_open o); cbn [negb andb orb];
      repeat match goal with |- context [if ?c then _ else _] => destruct c end; reflexivity. }
  assert (Ey : b_y (step_y o (step_x o s)) = if (n_dims o =? 3)%nat && negb (open_side_walls o) then periodic (y0 o) (y1 o) (b_y s) else b_y s).
  { unfold step_y. destruct (n_dims o =? 3)%nat, (open_side_walls o); cbn [negb andb];
      repeat match goal with |- context [if ?c then _ else _] => destruct c end; cbn [b_y set_y set_n]; rewrite ?A1; reflexivity. }
  set (s1 := step_y o (step_x o s)) in *.
  destruct (1 <? n_dims o)%nat; cbn [andb].
  - destruct (periodic_topbot o); cbn [negb].
    + cbn [set_z b_x b_y b_z b_rw2 b_rd3 b_a b_c b_rho b_chem]. rewrite B1, Ex, Ey, B2, A2, B3, A3, B4, A4, B5, A5, B6, A6, B7, A7, B8, A8.
      repeat split; reflexivity.
    + assert (E : forall s, let s' := step_bot o (step_top o s) in b_x s' = b_x s /\ b_y s' = b_y s /\ b_z s' = b_z s /\
         b_rw2 s' = b_rw2 s /\ b_rd3 s' = b_rd3 s /\ b_a s' = b_a s /\ b_c s' = b_c s /\ b_rho s' = b_rho s /\ b_chem s' = b_chem s).
      { intros t. cbv zeta. unfold step_bot, step_top.
        repeat match goal with |- context [if ?c then _ else _] => destruct c end; cbn; repeat split; reflexivity. }
      destruct (E s1) as (-> & -> & -> & -> & -> & -> & -> & -> & ->).
      rewrite B1, Ex, Ey, B2, A2, B3, A3, B4, A4, B5, A5, B6, A6, B7, A7, B8, A8. repeat split; reflexivity.
  - rewrite B1, Ex, Ey, B2, A2, B3, A3, B4, A4, B5, A5, B6, A6, B7, A7, B8, A8. repeat split; reflexivity.
Qed.

(** C09. Exactly the super-droplets outside an open boundary get multiplicity zero; nothing else changes,
    except that positions are wrapped in periodic directions. *)
Theorem C09_exactly_those_outside_are_removed :
  forall o l p d, (n_dims o <> 0)%nat -> z0 o < z1 o ->
    let l' := fst (fst (bcnd o l p)) in
    length l' = length l /\
    forall i, (i < length l)%nat ->
      let s := nth i l d in let s' := nth i l' d in
      b_n s' = (if left_sideways o s || left_top o s || left_bottom o s then 0%N else b_n s) /\
      moved o s s'.
Proof.
  intros o l p d Hn Hz. cbv zeta. rewrite bcnd_list by auto. split; [apply map_length|].
  intros i Hi. rewrite (nth_map_lt (final o) l i d d) by auto.
  split; [now apply final_n|apply final_moved].
Qed.
Print Assumptions C09_exactly_those_outside_are_removed.

Lemma lsumR_ext {A} (f g : A -> R) l : (forall s, In s l -> f s = g s) -> lsumR (map f l) = lsumR (map g l).
Proof.
  intros H. f_equal. now apply map_ext_in.
Qed.

(** C09. The puddle grows by exactly the totals over super-droplets that left through the bottom. *)
Theorem C09_puddle_exact :
  forall o l p, (n_dims o <> 0)%nat -> z0 o < z1 o ->
    (forall s, In s l -> 0 <= b_rw2 s /\ 0 <= b_rd3 s) ->
    let p' := snd (fst (bcnd o l p)) in
    p_liq_vol p' = p_liq_vol p + fallen_sum o (fun s => 4 / 3 * PI * sqrt (b_rw2 s) ^ 3) l /\
    p_dry_vol p' = p_dry_vol p + fallen_sum o (fun s => 4 / 3 * PI * b_rd3 s) l /\
    p_prt_num p' = p_prt_num p + fallen_sum o (fun s => 1) l /\
    p_liq_num p' = p_liq_num p + fallen_sum o (fun s => if Rlt_dec 0 (b_rw2 s) then 1 else 0) l /\
    p_ice_mass p' = p_ice_mass p + (if ice_on o then fallen_sum o (fun s => 4 / 3 * PI * b_a s ^ 2 * b_c s * b_rho s) l else 0) /\
    p_ice_num p' = p_ice_num p + (if ice_on o then fallen_sum o (fun s => if Rlt_dec 0 (b_rw2 s) then 0 else 1) l else 0) /\
    (forall k, (k < 8)%nat ->
      p_chem p' k = p_chem p k + (if chem_on o then fallen_sum o (fun s => b_chem s k) l else 0)).
Proof.
  intros o l p Hn Hz Hpos. cbv zeta. unfold bcnd. destruct (Nat.eqb_spec (n_dims o) 0); [contradiction|].
  pose proof (bcnd_x_map o l) as Hx. destruct (bcnd_x o l) as [[lx lf] rg]. cbn [fst snd] in *. subst lx.
  rewrite bcnd_y_map. unfold bcnd_z.
  assert (Hnone : (has_vertical_walls o = false) -> forall w, fallen_sum o w l = 0).
  { intros H w. unfold fallen_sum, fell_out, left_bottom. rewrite H. cbn [andb].
    clear. induction l as [|s l IH]; [reflexivity|]. cbn [map lsumR fold_right]. unfold lsumR in IH. rewrite IH. lra. }
  unfold has_vertical_walls in Hnone.
  destruct (1 <? n_dims o)%nat eqn:E1.
  2:{ cbn [snd]. rewrite !Hnone by reflexivity. repeat split; intros; try (destruct (ice_on o)); try (destruct (chem_on o)); try rewrite Hnone by reflexivity; lra. }
  destruct (periodic_topbot o) eqn:E2; cbn [negb snd].
  { rewrite !Hnone by reflexivity. repeat split; intros; try (destruct (ice_on o)); try (destruct (chem_on o)); try rewrite Hnone by reflexivity; lra. }
  set (l1 := flag_if _ _).
  assert (HG : forall (f : R -> bsd -> R) (w : bsd -> R),
     (forall s s', b_rw2 s' = b_rw2 s -> b_rd3 s' = b_rd3 s -> b_a s' = b_a s -> b_c s' = b_c s -> b_rho s' = b_rho s -> b_chem s' = b_chem s ->
         forall n, 0 <= b_rw2 s -> 0 <= b_rd3 s -> f n s' = n * w s) ->
     lsumR (map (fun s => f (if Rltb (b_z s) (z0 o) then N2R (b_n s) else 0) s) l1) = fallen_sum o w l).
  { intros f w Hf. unfold l1, flag_if, fallen_sum. rewrite !map_map. apply lsumR_ext. intros s Hs.
    destruct (Hpos s Hs) as [Hp1 Hp2].
    destruct (step_x_attrs o s) as (_ & A2 & A3 & A4 & A5 & A6 & A7 & A8).
    destruct (step_y_attrs o (step_x o s)) as (_ & B2 & B3 & B4 & B5 & B6 & B7 & B8).
    set (s1 := step_y o (step_x o s)) in *. rewrite A2 in B2.
    assert (En : b_n s1 = if left_sideways o s then 0%N else b_n s) by apply side_n.
    set (s2 := if Rleb (z1 o) (b_z s1) then set_n s1 0%N else s1).
    assert (C : b_z s2 = b_z s /\ b_rw2 s2 = b_rw2 s /\ b_rd3 s2 = b_rd3 s /\ b_a s2 = b_a s /\ b_c s2 = b_c s /\ b_rho s2 = b_rho s /\ b_chem s2 = b_chem s).
    { unfold s2. destruct (Rleb (z1 o) (b_z s1)); cbn; repeat split; congruence. }
    destruct C as (C1 & C2 & C3 & C4 & C5 & C6 & C7).
    rewrite (Hf s s2) by auto. rewrite C1.
    unfold fell_out, left_bottom, has_vertical_walls. rewrite E1, E2. cbn [negb andb].
    destruct (Rltb (b_z s) (z0 o)) eqn:E3; cbn [andb]; [|ring].
    assert (E4 : Rleb (z1 o) (b_z s1) = false).
    { rewrite B2. apply Rleb_false. apply Rltb_true in E3. lra. }
    unfold s2. rewrite E4, En. destruct (left_sideways o s); cbn [negb]; [change (N2R 0) with 0; ring|reflexivity]. }
  cbn [p_liq_vol p_dry_vol p_liq_num p_prt_num p_ice_mass p_ice_num p_chem].
  repeat split.
  - f_equal. apply (HG (fun n s => count_vol (3/2) n (b_rw2 s))). intros s s' H1 H2 H3 H4 H5 H6 m Hp1 Hp2.
    unfold count_vol. rewrite H1, cpow_three_halves by auto. ring.
  - f_equal. apply (HG (fun n s => count_vol 1 n (b_rd3 s))). intros s s' H1 H2 H3 H4 H5 H6 m Hp1 Hp2.
    unfold count_vol. rewrite H2, cpow_one by auto. ring.
  - f_equal. apply (HG (fun n s => n)). intros; ring.
  - f_equal. apply (HG (fun n s => count_num 0 n (b_rw2 s))). intros s s' H1 H2 H3 H4 H5 H6 m Hp1 Hp2.
    unfold count_num. rewrite H1. cbn [Nat.eqb andb]. rewrite orb_false_r. destruct (Rlt_dec 0 (b_rw2 s)).
    + replace (Reqb (b_rw2 s) 0) with false by (symmetry; apply Reqb_false; lra). ring.
    + replace (Reqb (b_rw2 s) 0) with true by (symmetry; apply Reqb_true; lra). ring.
  - destruct (ice_on o); [|ring]. f_equal. apply (HG (fun n s => count_ice_mass n (b_a s) (b_c s) (b_rho s))).
    intros s s' H1 H2 H3 H4 H5 H6 m Hp1 Hp2. unfold count_ice_mass. rewrite H3, H4, H5. ring.
  - destruct (ice_on o); [|ring]. f_equal. apply (HG (fun n s => count_num 1 n (b_rw2 s))). intros s s' H1 H2 H3 H4 H5 H6 m Hp1 Hp2.
    unfold count_num. rewrite H1. cbn [Nat.eqb andb orb]. unfold Rltb. destruct (Rlt_dec 0 (b_rw2 s)); ring.
  - intros k Hk. destruct (chem_on o); [|ring]. apply Nat.ltb_lt in Hk. rewrite Hk.
    f_equal. apply (HG (fun n s => count_mass n (b_chem s k))). intros s s' H1 H2 H3 H4 H5 H6 m Hp1 Hp2.
    unfold count_mass. rewrite H6. reflexivity.
Qed.
Print Assumptions C09_puddle_exact.

(** C09, distributed memory: the lists of super-droplets to be sent contain exactly those beyond the
    left / right edge, each once. *)
Theorem C09_ids_to_send_exact :
  forall o l p d, (n_dims o <> 0)%nat -> distmem o = true ->
    let '(lft, rgt) := snd (bcnd o l p) in
    NoDup lft /\ NoDup rgt /\
    (forall i, In i lft <-> (i < length l)%nat /\ b_x (nth i l d) < x0 o) /\
    (forall i, In i rgt <-> (i < length l)%nat /\ x1 o <= b_x (nth i l d)).
Proof.
  intros o l p d Hn Hd. unfold bcnd. destruct (Nat.eqb_spec (n_dims o) 0); [contradiction|].
  unfold bcnd_x. rewrite Hd. cbn [negb]. cbn [snd].
  assert (Hnd : forall c, NoDup (ids_where c l)).
  { intros c. unfold ids_where.
    assert (H : NoDup (map fst (combine (seq 0 (length l)) l))).
    { assert (E : map fst (combine (seq 0 (length l)) l) = seq 0 (length l)); [|rewrite E; apply seq_NoDup].
      generalize 0%nat. clear. induction l as [|a l IH]; intros k; [reflexivity|]. cbn. f_equal. apply IH. }
    revert H. generalize (combine (seq 0 (length l)) l). clear. induction l as [|t l IH]; intros H; [constructor|].
    cbn [map] in H. apply NoDup_cons_iff in H as [H1 H2]. cbn [filter].
    destruct (c (snd t)); [|auto]. cbn [map]. constructor; [|auto].
    intros Hin. apply H1. apply in_map_iff in Hin. destruct Hin as (t' & E & Hin). apply filter_In in Hin.
    apply in_map_iff. exists t'. tauto. }
  split; [apply Hnd|]. split; [apply Hnd|]. split; intros i.
  - rewrite (in_ids_where _ l d). now rewrite Rltb_true.
  - rewrite (in_ids_where _ l d). now rewrite Rleb_true.
Qed.
Print Assumptions C09_ids_to_send_exact.

(** an instance: 2D, open side walls, one droplet stays, one falls out, one leaves sideways and below *)
Definition ex_bopts := mk_bopts 2 0 10 0 1 0 10 true false false false false false false.
Definition ex_bs (x z : R) : bsd := mk_bsd 3 x 0 z 1 1 0 0 0 (fun _ => 0).
Theorem C09_instance :
  left_sideways ex_bopts (ex_bs 5 5) || left_top ex_bopts (ex_bs 5 5) || left_bottom ex_bopts (ex_bs 5 5) = false /\
  fell_out ex_bopts (ex_bs 5 (-1)) = true /\ fell_out ex_bopts (ex_bs 11 (-1)) = false.
Proof.
  unfold fell_out, left_bottom, left_top, left_sideways, has_vertical_walls. cbn.
  unfold Rltb, Rleb.
  repeat match goal with |- context [Rlt_dec ?a ?b] => destruct (Rlt_dec a b); try lra end;
  repeat match goal with |- context [Rle_dec ?a ?b] => destruct (Rle_dec a b); try lra end.
  all: repeat split.
Qed.

Print Assumptions C08_instance.
Print Assumptions C09_instance.
