(** C78: the multi-GPU backend: which options it accepts, and what its outbuf and diag_puddle return. *)
From Coq Require Import List Arith NArith ZArith Reals Bool Lia Lra Psatz.
From Verif Require Import Base BaseProofs DistModel DistProps DiagModel DiagProps McudaDiagModel.
Import ListNotations.
Local Open Scope R_scope.

(** ** Specification *)
(** cells per column *)
Definition column (ny nz : nat) : nat := (m1 ny * m1 nz)%nat.
(** [size] devices sharing out the columns of the grid as the constructor does, with host vectors of one element per cell *)
Definition grid_devices (o : DistModel.dopts) (size ny nz : nat) (ds : list odev) : Prop :=
  length ds = size /\
  forall r d, nth_error ds r = Some d ->
    od_bfr d = n_cell_bfr o size ny nz r /\ length (od_host d) = (d_nx (dev o size r) * column ny nz)%nat.

(** ** Proofs *)
Lemma m1_pos n : (1 <= m1 n)%nat.
Proof. unfold m1. destruct (Nat.eqb_spec n 0); lia. Qed.
Lemma copy_to_length {A} off (src v : list A) : (off + length src <= length v)%nat -> length (copy_to off src v) = length v.
Proof. intros H. unfold copy_to. rewrite !app_length, firstn_length, skipn_length. lia. Qed.
Lemma nth_skipn {A} (d : A) n l k : nth k (skipn n l) d = nth (n + k) l d.
Proof. revert l. induction n; intros l; cbn; auto. destruct l; cbn; [destruct k; auto|apply IHn]. Qed.
Lemma nth_copy_to {A} (d : A) off src v k : (off + length src <= length v)%nat ->
  nth k (copy_to off src v) d = if (off <=? k)%nat && (k <? off + length src)%nat then nth (k - off) src d else nth k v d.
Proof.
  intros H. unfold copy_to. assert (L : length (firstn off v) = off) by (rewrite firstn_length; lia).
  destruct (Nat.leb_spec off k); cbn [andb].
  - rewrite app_nth2 by lia. rewrite L. destruct (Nat.ltb_spec k (off + length src)).
    + rewrite app_nth1 by lia. reflexivity.
    + rewrite app_nth2 by lia. rewrite nth_skipn. f_equal. lia.
  - rewrite app_nth1 by lia. rewrite <- (firstn_skipn off v) at 2. rewrite app_nth1 by lia. reflexivity.
Qed.
Lemma bind_same {A} (f : A -> A) a : bind_call f a = a.
Proof. reflexivity. Qed.
Lemma outbuf_devs ds tot : mcuda_outbuf ds tot = (fold_left (fun t d => copy_to (od_bfr d) (od_host d) t) ds tot, ds).
Proof.
  unfold mcuda_outbuf. replace (map _ ds) with ds; auto.
  induction ds as [|[a b c] ds IH]; cbn [map]; auto. rewrite <- IH. reflexivity.
Qed.
(** copies one after another, in adjacent ranges *)
Lemma copies ds : forall off tot,
  (forall r d, nth_error ds r = Some d -> od_bfr d = (off + list_sum (map (fun d => length (od_host d)) (firstn r ds)))%nat) ->
  (off + list_sum (map (fun d => length (od_host d)) ds) <= length tot)%nat ->
  forall k, nth k (fold_left (fun t d => copy_to (od_bfr d) (od_host d) t) ds tot) 0 =
    if (off <=? k)%nat && (k <? off + list_sum (map (fun d => length (od_host d)) ds))%nat
    then nth (k - off) (concat (map od_host ds)) 0 else nth k tot 0.
Proof.
  induction ds as [|d ds IH]; intros off tot Hb Hl k; cbn [map list_sum fold_right fold_left concat].
  - destruct (Nat.leb_spec off k), (Nat.ltb_spec k (off + 0)); cbn; auto; lia.
  - cbn [map list_sum fold_right] in Hl. fold (list_sum (map (fun d => length (od_host d)) ds)) in *.
    pose proof (Hb 0%nat d eq_refl) as E. cbn in E. rewrite Nat.add_0_r in E.
    rewrite (IH (off + length (od_host d))%nat).
    + rewrite nth_copy_to by lia. rewrite E.
      destruct (Nat.leb_spec (off + length (od_host d)) k), (Nat.leb_spec off k),
        (Nat.ltb_spec k (off + length (od_host d) + list_sum (map (fun d0 : odev => length (od_host d0)) ds))),
        (Nat.ltb_spec k (off + (length (od_host d) + list_sum (map (fun d0 : odev => length (od_host d0)) ds)))),
        (Nat.ltb_spec k (off + length (od_host d))); cbn [andb]; try lia; auto.
      * rewrite app_nth2 by lia. f_equal. lia.
      * rewrite app_nth1 by lia. reflexivity.
    + intros r d' Hr. rewrite (Hb (S r) d' Hr). cbn [firstn map list_sum fold_right]. unfold list_sum. lia.
    + rewrite copy_to_length by lia. lia.
Qed.

Section grid.
Variables (o : DistModel.dopts) (size ny nz : nat) (ds : list odev).
Hypothesis Hok : device_count_ok (d_nx o) size = true.
Hypothesis G : grid_devices o size ny nz ds.
Let h := column ny nz.
Lemma before_sum r : (r <= size)%nat ->
  list_sum (map (fun d => length (od_host d)) (firstn r ds)) = ((if (r <? size)%nat then before o size r else d_nx o) * h)%nat.
Proof.
  destruct (C15_columns o size Hok) as [B0 [BS [BE _]]]. destruct G as [GL Gd].
  assert (Hs : (0 < size)%nat) by (unfold device_count_ok in Hok; apply andb_prop in Hok; destruct Hok as [H _]; now apply Nat.ltb_lt in H).
  induction r as [|r IH]; intros Hr.
  - destruct (Nat.ltb_spec 0 size); [|lia]. rewrite B0. reflexivity.
  - destruct (nth_error ds r) as [d|] eqn:E; [|apply nth_error_None in E; lia].
    assert (ES : firstn (S r) ds = firstn r ds ++ [d]).
    { clear -E. revert ds E. induction r; intros [|a l] E; cbn in *; try discriminate; [congruence|]. f_equal. auto. }
    rewrite ES, map_app, list_sum_app. cbn [map list_sum fold_right]. rewrite Nat.add_0_r.
    rewrite IH by lia. destruct (Gd r d E) as [_ ->]. fold h.
    destruct (Nat.ltb_spec r size); [|lia]. destruct (Nat.ltb_spec (S r) size).
    + pose proof (BS r ltac:(lia)) as E1. replace (r + 1)%nat with (S r) in E1 by lia. rewrite E1. nia.
    + assert (r = size - 1)%nat as -> by lia. rewrite <- BE. nia.
Qed.
Lemma nth_concat_dev r d q : nth_error ds r = Some d -> (q < length (od_host d))%nat ->
  nth (before o size r * h + q) (concat (map od_host ds)) 0 = nth q (od_host d) 0.
Proof.
  intros E Hq. destruct G as [GL _].
  assert (Hr : (r < size)%nat) by (rewrite <- GL; apply nth_error_Some; congruence).
  pose proof (before_sum r ltac:(lia)) as B. destruct (Nat.ltb_spec r size); [|lia]. rewrite <- B.
  clear - E Hq. revert ds E. induction r as [|r IH]; intros [|a l] E; cbn [nth_error] in E; try discriminate.
  - injection E as ->. cbn. rewrite app_nth1 by auto. reflexivity.
  - cbn [firstn map list_sum fold_right concat]. fold (list_sum (map (fun d => length (od_host d)) (firstn r l))).
    rewrite app_nth2 by lia. rewrite <- (IH l E). f_equal. lia.
Qed.
End grid.

(** ** C78 *)
(** The constructor: chemistry, a grid of no columns, an empty or too long domain, more devices than there are or than
    columns are refused, and nothing else is; the devices wanted, or else all there are, are used. *)
Theorem C78_constructor : forall chem nx x0 x1 dx avail wanted k, (0 < avail)%Z ->
  mcuda_ctor chem nx x0 x1 dx avail wanted = Some k <->
  chem = false /\ (0 < nx)%nat /\ x0 < x1 <= INR nx * dx /\ (wanted <= avail)%Z /\
  k = (if (0 <? wanted)%Z then wanted else avail) /\ (k <= Z.of_nat nx)%Z.
Proof.
  intros chem nx x0 x1 dx avail wanted k Ha. unfold mcuda_ctor.
  destruct chem; [split; [discriminate|intros [H _]; discriminate]|].
  destruct (Nat.eqb_spec nx 0); [split; [discriminate|intros [_ [H _]]; lia]|].
  destruct (Rltb x0 x1) eqn:E1; [apply Rltb_true in E1|apply Rltb_false in E1];
    (destruct (Rleb x1 (INR nx * dx)) eqn:E2; [apply Rleb_true in E2|apply Rleb_false in E2]); cbn [andb negb];
    try (split; [discriminate|intros [_ [_ [H _]]]; lra]).
  destruct (Z.ltb_spec 0 wanted).
  - destruct (Z.ltb_spec avail wanted); [split; [discriminate|intros H'; decompose [and] H'; lia]|].
    destruct (Z.ltb_spec (Z.of_nat nx) wanted); [split; [discriminate|intros H'; decompose [and] H'; lia]|].
    split; [intros H'; injection H' as <-|intros H'; decompose [and] H'; congruence]. repeat split; auto; lia.
  - destruct (Z.ltb_spec (Z.of_nat nx) avail); [split; [discriminate|intros H'; decompose [and] H'; lia]|].
    split; [intros H'; injection H' as <-|intros H'; decompose [and] H'; congruence]. repeat split; auto; lia.
Qed.
(** what it accepts can be shared out *)
Theorem C78_accepted : forall o x0 x1 dx avail wanted k, (0 < avail)%Z ->
  mcuda_ctor false (d_nx o) x0 x1 dx avail wanted = Some k -> device_count_ok (d_nx o) (Z.to_nat k) = true.
Proof.
  intros o x0 x1 dx avail wanted k Ha H. apply C78_constructor in H; auto. decompose [and] H.
  unfold device_count_ok. apply andb_true_intro. split; [apply Nat.ltb_lt|apply Nat.leb_le].
  - destruct (Z.ltb_spec 0 wanted); lia.
  - lia.
Qed.

(** What is missing for outbuf: what was diagnosed is not in the host vectors, see below. What holds: every cell of
    the whole grid belongs to one device and the element of the array returned is the one of its host vector. *)
Theorem C78_outbuf_layout_partial : forall o size ny nz ds tot, device_count_ok (d_nx o) size = true ->
  grid_devices o size ny nz ds -> length tot = (d_nx o * column ny nz)%nat ->
  forall i m, (i < d_nx o)%nat -> (m < column ny nz)%nat ->
  exists r d, nth_error ds r = Some d /\ (before o size r <= i < before o size r + d_nx (dev o size r))%nat /\
    nth (i * column ny nz + m) (fst (mcuda_outbuf ds tot)) 0 = nth ((i - before o size r) * column ny nz + m) (od_host d) 0.
Proof.
  intros o size ny nz ds tot Hok G Hl i m Hi Hm. destruct (C15_every_column_once o size i Hok Hi) as [r [[Hr Hb] _]].
  pose proof G as [GL Gd].
  destruct (nth_error ds r) as [d|] eqn:E; [|apply nth_error_None in E; lia].
  exists r, d. split; auto. split; auto. rewrite outbuf_devs. cbn [fst].
  pose proof (before_sum o size ny nz ds Hok G size ltac:(lia)) as T. rewrite firstn_all2 in T by lia.
  destruct (Nat.ltb_spec size size); [lia|].
  rewrite (copies ds 0).
  - rewrite T. cbn [Nat.leb andb]. rewrite Nat.add_0_l. destruct (Nat.ltb_spec (i * column ny nz + m) (d_nx o * column ny nz)); [|nia].
    rewrite Nat.sub_0_r. rewrite <- (nth_concat_dev o size ny nz ds Hok G r d).
    + f_equal. set (h := column ny nz) in *. set (b := before o size r) in *.
      replace i with (b + (i - b))%nat at 1 by lia. rewrite Nat.mul_add_distr_r. lia.
    + exact E.
    + destruct (Gd r d E) as [_ ->]. nia.
  - intros r' d' E'. destruct (Gd r' d' E') as [-> _].
    assert (Hr' : (r' < size)%nat) by (rewrite <- GL; apply nth_error_Some; congruence).
    rewrite (before_sum o size ny nz ds Hok G r') by lia. destruct (Nat.ltb_spec r' size); [|lia].
    unfold n_cell_bfr, before, column. nia.
  - rewrite T. lia.
Qed.

(** What the array contains does not depend on what has been diagnosed ... *)
Theorem C78_outbuf_ignores_refuted : forall ds ds' tot,
  map od_host ds = map od_host ds' -> map od_bfr ds = map od_bfr ds' ->
  fst (mcuda_outbuf ds tot) = fst (mcuda_outbuf ds' tot) /\ map od_host (snd (mcuda_outbuf ds tot)) = map od_host ds.
Proof.
  intros ds ds' tot H1 H2. rewrite !outbuf_devs. cbn [fst snd]. split; auto.
  revert ds' tot H1 H2. induction ds as [|d ds IH]; intros [|d' ds'] tot H1 H2; cbn in *; try discriminate; auto.
  injection H1 as A1 B1. injection H2 as A2 B2. rewrite A1, A2. now apply IH.
Qed.
(** ... so that it is wrong: two devices of three cells each and the super-droplets of C25_instance. The moment in the
    second cell, which one device alone returns, is positive; the multi-GPU backend returns zero, what the host
    vectors were initialized to, however often outbuf is called. *)
Fixpoint outbufs (n : nat) (ds : list odev) (tot : list R) : list R :=
  match n with O => tot | S n => let '(tot, ds) := mcuda_outbuf ds tot in outbufs n ds tot end.
Theorem C78_outbuf_refuted : forall o X fall, d_o o = vent_opts 1 ->
  exists st, diags o X fall sijk33 (seq 0 33) [c_rng r_wet false 0 1; c_rng r_kappa true (1 / 2) 2; c_sd_conc; c_mom m_wet 3] state33 = Some st /\
  fst (outbuf sijk33 (seq 0 33) st) 1%nat = 1 / 10 ^ 12 /\
  forall n, nth 1 (outbufs n [mk_odev st (repeat 0 3) 0; mk_odev st (repeat 0 3) 3] (repeat 0 6)) 0 = 0.
Proof.
  intros o X fall Ho. destruct (C25_instance o X fall Ho) as [st1 [st2 [H1 [H2 [H3 _]]]]].
  exists st2. split; [|split; [exact H3|]].
  - change (diags o X fall sijk33 (seq 0 33) ([c_rng r_wet false 0 1; c_rng r_kappa true (1 / 2) 2; c_sd_conc] ++ [c_mom m_wet 3]) state33 = Some st2).
    assert (A : forall l l' s s' s'', diags o X fall sijk33 (seq 0 33) l s = Some s' -> diags o X fall sijk33 (seq 0 33) l' s' = Some s'' ->
       diags o X fall sijk33 (seq 0 33) (l ++ l') s = Some s'').
    { induction l as [|a l IH]; intros l' s s' s'' A B; cbn [app diags] in *; [congruence|].
      destruct (diag o X fall sijk33 (seq 0 33) a s) eqn:E; [|discriminate]. eauto. }
    eapply A; [exact H1|]. cbn [diags]. now rewrite H2.
  - clear. intros n.
    assert (E : outbufs n [mk_odev st2 (repeat 0 3) 0; mk_odev st2 (repeat 0 3) 3] (repeat 0 6) = repeat 0 6).
    { induction n; cbn [outbufs]; auto. }
    rewrite E. reflexivity.
Qed.

(** diag_puddle: the sum over devices, output by output *)
Theorem C78_puddle : forall ps i, ps <> [] -> (i < 14)%nat ->
  mcuda_puddle ps i = Some (lsumR (map (fun p => at_key p i) ps)).
Proof.
  intros ps i Hne Hi. change 14%nat with n_outputs in Hi. unfold mcuda_puddle.
  assert (A : forall ps x v, x i = Some v -> fold_left add_puddle ps x i = Some (v + lsumR (map (fun p => at_key p i) ps))).
  { clear ps Hne. induction ps as [|p ps IH]; intros x v E; cbn [fold_left map lsumR fold_right].
    - rewrite E. f_equal. ring.
    - rewrite (IH _ (v + at_key p i)).
      + f_equal. unfold lsumR. ring.
      + unfold add_puddle. destruct (Nat.ltb_spec i n_outputs); [|lia]. unfold at_key at 1. now rewrite E. }
  destruct ps as [|p ps].
  - now destruct Hne.
  - cbn [fold_left]. rewrite (A _ _ (at_key p i)).
    + reflexivity.
    + unfold add_puddle. destruct (Nat.ltb_spec i n_outputs); [|lia]. f_equal. unfold at_key at 1, empty_out_map.
      destruct (i <? 8 + 2)%nat; ring.
Qed.

Definition opts_ex : DistModel.dopts := mk_dopts 5 1 0 5 0 5 100 10.
Theorem C78_instance : exists ds,
  mcuda_ctor false 5 0 5 1 4 2 = Some 2%Z /\ grid_devices opts_ex 2 0 3 ds /\ length ds = 2%nat /\
  map od_bfr ds = [0; 6]%nat /\ map (fun d => length (od_host d)) ds = [6; 9]%nat /\
  at_key (mcuda_puddle [fun _ => Some 1; fun _ => Some 2]) 13 = 3.
Proof.
  exists [mk_odev state33 (repeat 0 6) 0; mk_odev state33 (repeat 0 9) 6].
  split; [|split; [|repeat split]].
  - apply C78_constructor; [lia|]. cbn [INR]. repeat split; try lia; try lra. 
  - split; auto. intros [|[|r]] d E; cbn in E; try (destruct r; discriminate); injection E as <-; cbn [od_bfr od_host];
      match goal with |- _ = n_cell_bfr _ _ _ _ ?r /\ _ => destruct (dev_eq opts_ex 2 r) as [E1 [E2 _]] end;
      (split; [unfold n_cell_bfr; fold (before opts_ex 2 0); fold (before opts_ex 2 1); rewrite E2|rewrite E1]; reflexivity).
  - unfold at_key, mcuda_puddle, add_puddle. cbn. ring.
Qed.

Print Assumptions C78_constructor.
Print Assumptions C78_accepted.
Print Assumptions C78_outbuf_layout_partial.
Print Assumptions C78_outbuf_ignores_refuted.
Print Assumptions C78_outbuf_refuted.
Print Assumptions C78_puddle.
Print Assumptions C78_instance.
