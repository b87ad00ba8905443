(** * C86: get_attr: one value per super-droplet, all attributes in the same order, after any history of the storage *)
From Coq Require Import String List Arith NArith Reals Bool Lia Lra.
From Verif Require Import Base BaseProofs ChemModel AttrModel.
Import ListNotations.
Local Open Scope nat_scope.

(** ** Specification: super-droplets as records *)
Record droplet := { d_n : N; d_a : col -> R }.
Fixpoint change {A} (l : list A) (i : nat) (f : A -> A) : list A :=
  match l, i with [], _ => [] | x :: r, O => f x :: r | x :: r, S j => x :: change r j f end.
(** a new super-droplet: terminal velocity and critical radius not known yet (-1), everything else 0 *)
Definition newborn (c : col) : R := match c with a_vt | a_rc2 => Ropp 1 | _ => 0%R end.
(** what each operation means for the super-droplets *)
Definition meaning (pop : list droplet) (p : op) : list droplet :=
  match p with
  | o_grow k => pop ++ repeat {| d_n := 0; d_a := newborn |} k
  | o_shrink k => firstn (length pop - k) pop
  | o_set c i v => change pop i (fun d => {| d_n := d_n d; d_a := fun c' => if col_eqb c c' then v else d_a d c' |})
  | o_set_n i v => change pop i (fun d => {| d_n := v; d_a := d_a d |})
  | o_copy i j => match nth_error pop i with
                  | Some e => change pop j (fun d => {| d_n := d_n d; d_a := d_a e |})
                  | None => pop end
  | o_append l => pop ++ map (fun x => {| d_n := fst x; d_a := snd x |}) l
  | o_remove _ _ => filter (fun d => negb (d_n d =? 0)%N) pop
  end.
(** operations on existing super-droplets and existing vectors *)
Definition allowed (o : aopts) (pop : list droplet) (p : op) : Prop :=
  match p with
  | o_set c i _ => present o c = true /\ i < length pop
  | o_set_n i _ => i < length pop
  | o_copy i j => i < length pop /\ j < length pop
  | _ => True
  end.
Fixpoint proper (o : aopts) (pop : list droplet) (h : list op) : Prop :=
  match h with [] => True | p :: r => allowed o pop p /\ proper o (meaning pop p) r end.
Definition after (h : list op) : list droplet := fold_left meaning h [].

(** ** lists *)
Lemma resize_length {A} n (d : A) l : length (resize n d l) = n.
Proof. unfold resize. rewrite app_length, firstn_length, repeat_length. lia. Qed.
Lemma resize_grow {A} k (d : A) l : resize (length l + k) d l = l ++ repeat d k.
Proof. unfold resize. rewrite firstn_all2 by lia. do 2 f_equal. lia. Qed.
Lemma resize_shrink {A} n (d : A) l : n <= length l -> resize n d l = firstn n l.
Proof. intros H. unfold resize. replace (n - length l) with 0 by lia. apply app_nil_r. Qed.
Lemma put_map {A B} (f : A -> B) (g : A -> A) l i v : (forall x, nth_error l i = Some x -> f (g x) = v) -> map f (change l i g) = put (map f l) i v.
Proof.
  revert i. induction l as [|x l IH]; intros [|i] H; cbn; try reflexivity.
  - f_equal. apply H. reflexivity.
  - f_equal. apply IH. exact H.
Qed.
Lemma change_length {A} (l : list A) i g : length (change l i g) = length l.
Proof. revert i. induction l; intros [|i]; cbn; auto. Qed.
Lemma map_change_same {A B} (f : A -> B) (g : A -> A) l i : (forall x, f (g x) = f x) -> map f (change l i g) = map f l.
Proof. intros H. revert i. induction l as [|x l IH]; intros [|i]; cbn; try reflexivity; f_equal; auto. Qed.
Lemma compact_map {A} (f : droplet -> A) pop : compact (map d_n pop) (map f pop) = map f (filter (fun d => negb (d_n d =? 0)%N) pop).
Proof.
  unfold compact. induction pop as [|d pop IH]; cbn; [reflexivity|].
  destruct (negb (d_n d =? 0)%N); cbn; [f_equal|]; exact IH.
Qed.
Lemma filter_length_le {A} (f : A -> bool) l : length (filter f l) <= length l.
Proof. induction l as [|x l IH]; cbn; [lia|]. destruct (f x); cbn; lia. Qed.
Lemma remove_map {A} (f : droplet -> A) junk d pop m :
  m = length (filter (fun d => negb (d_n d =? 0)%N) pop) ->
  resize m d (remove_if (length pop) junk d (map d_n pop) (map f pop)) = map f (filter (fun d => negb (d_n d =? 0)%N) pop).
Proof.
  intros Hm. unfold remove_if. rewrite !firstn_all2 by (rewrite map_length; lia). rewrite skipn_all2 by (rewrite map_length; lia).
  rewrite app_nil_r, compact_map. set (F := filter _ pop) in *.
  assert (HF : length F <= length pop) by apply filter_length_le.
  rewrite resize_shrink by (rewrite resize_length; lia).
  unfold resize. rewrite firstn_app, firstn_firstn. rewrite Nat.min_l by lia. rewrite firstn_app, map_length.
  replace (m - length F) with 0 by lia. cbn [firstn]. rewrite app_nil_r.
  rewrite firstn_all2 by (rewrite map_length; lia).
  replace (m - _) with 0; [apply app_nil_r|]. rewrite firstn_length, app_length, map_length. lia.
Qed.

(** ** the storage holds the super-droplets *)
Definition stores (o : aopts) (s : store) (pop : list droplet) : Prop :=
  s_np s = length pop /\ s_n s = map d_n pop /\ forall c, s_v s c = if present o c then map (fun d => d_a d c) pop else [].

Lemma stores_empty o : stores o empty_store [].
Proof. split; [reflexivity|]. split; [reflexivity|]. intros c. cbn. destruct (present o c); reflexivity. Qed.

Lemma map_repeat_ {A B} (f : A -> B) x k : map f (repeat x k) = repeat (f x) k.
Proof. induction k; cbn; congruence. Qed.

Lemma firstn_map_ {A B} (f : A -> B) n l : firstn n (map f l) = map f (firstn n l).
Proof. revert l. induction n; intros [|x l]; cbn; congruence. Qed.

Lemma fresh_newborn c : fresh_value c = newborn c.
Proof. destruct c; cbn; try reflexivity; lra. Qed.

Lemma exec_stores o s pop p s' : stores o s pop -> allowed o pop p -> exec o s p = (s', true) -> stores o s' (meaning pop p).
Proof.
  intros (H1 & H2 & H3) HA HE. destruct p as [k|k|c i v|i v|i j|l|junk junk_n]; cbn [exec meaning] in *.
  - unfold resize_npart in HE; cbn [s_np s_n s_v] in HE. destruct (q_n_sd_max o <? s_np s + k); [discriminate|]. injection HE as <-.
    split; [|split]; cbn [s_np s_n s_v].
    + rewrite app_length, repeat_length. lia.
    + rewrite H2, H1, map_app, map_repeat_. rewrite <- (map_length d_n pop) at 1. apply resize_grow.
    + intros c. rewrite H3. destruct (present o c); [|reflexivity]. rewrite H1, map_app, map_repeat_.
      rewrite <- (map_length (fun d => d_a d c) pop) at 1. cbn [d_a]. rewrite (fresh_newborn c). apply resize_grow.
  - unfold resize_npart in HE; cbn [s_np s_n s_v] in HE. destruct (q_n_sd_max o <? s_np s - k); [discriminate|]. injection HE as <-.
    split; [|split]; cbn [s_np s_n s_v].
    + rewrite firstn_length. lia.
    + rewrite H2, H1, resize_shrink by (rewrite map_length; lia). apply firstn_map_.
    + intros c. rewrite H3. destruct (present o c); [|reflexivity]. rewrite H1, resize_shrink by (rewrite map_length; lia). apply firstn_map_.
  - injection HE as <-. split; [|split]; cbn [s_np s_n s_v].
    + rewrite change_length. exact H1.
    + rewrite map_change_same by reflexivity. exact H2.
    + intros c'. rewrite H3. destruct (present o c') eqn:Ep; [|destruct (col_eqb c c'); reflexivity].
      destruct (col_eqb c c') eqn:Ec.
      * symmetry. apply put_map. intros x _. cbn. rewrite Ec. reflexivity.
      * symmetry. apply map_change_same. intros x. cbn. rewrite Ec. reflexivity.
  - injection HE as <-. split; [|split]; cbn [s_np s_n s_v].
    + rewrite change_length. exact H1.
    + rewrite H2. symmetry. apply put_map. reflexivity.
    + intros c'. rewrite H3. destruct (present o c'); [|reflexivity]. symmetry. apply map_change_same. reflexivity.
  - destruct HA as [Hi Hj]. injection HE as <-. destruct (nth_error pop i) as [e|] eqn:Ee; [|apply nth_error_None in Ee; lia].
    split; [|split]; cbn [s_np s_n s_v].
    + rewrite change_length. exact H1.
    + rewrite map_change_same by reflexivity. exact H2.
    + intros c'. rewrite H3. destruct (present o c'); [|reflexivity]. symmetry. apply put_map. intros x _. cbn.
      symmetry. apply nth_error_nth. apply (map_nth_error (fun d => d_a d c') _ _ Ee).
  - injection HE as <-. split; [|split]; cbn [s_np s_n s_v].
    + rewrite app_length, map_length. lia.
    + rewrite H2, map_app, map_map. cbn [d_n]. f_equal. rewrite H1. rewrite <- (map_length d_n pop) at 1 2. rewrite resize_grow.
      rewrite firstn_app, firstn_all, Nat.sub_diag. apply app_nil_r.
    + intros c'. rewrite H3. destruct (present o c'); [|reflexivity]. rewrite map_app, map_map. cbn [d_a]. f_equal. rewrite H1.
      rewrite <- (map_length (fun d => d_a d c') pop) at 1 2. rewrite resize_grow. rewrite firstn_app, firstn_all, Nat.sub_diag. apply app_nil_r.
  - unfold resize_npart in HE; cbn [s_np s_n s_v] in HE.
    assert (HK : length (compact (firstn (s_np s) (s_n s)) (firstn (s_np s) (s_n s))) = length (filter (fun d => negb (d_n d =? 0)%N) pop)).
    { rewrite H2, H1. rewrite !firstn_all2 by (rewrite map_length; lia). rewrite compact_map. apply map_length. }
    rewrite HK in HE. destruct (q_n_sd_max o <? _); [discriminate|]. injection HE as <-. split; [|split]; cbn [s_np s_n s_v].
    + reflexivity.
    + rewrite H2, H1. apply remove_map. reflexivity.
    + intros c. rewrite H3, H2, H1. destruct (present o c); [|reflexivity].
      unfold resize_npart. set (F := filter _ pop).
      assert (Q : forall d : R, resize (length F) d (remove_if (length pop) (junk c) 0%R (map d_n pop) (map (fun d0 => d_a d0 c) pop)) = map (fun d0 => d_a d0 c) F).
      { intros d. rewrite resize_shrink. 
        - etransitivity; [|exact (remove_map (fun d0 => d_a d0 c) (junk c) 0%R pop (length F) eq_refl)]. symmetry. apply resize_shrink.
          unfold remove_if. rewrite app_length, resize_length. assert (length F <= length pop) by apply filter_length_le. lia.
        - unfold remove_if. rewrite app_length, resize_length. assert (length F <= length pop) by apply filter_length_le. lia. }
      apply Q.
Qed.

Lemma execs_stores o h : forall s pop s', stores o s pop -> proper o pop h -> execs o s h = (s', true) -> stores o s' (fold_left meaning h pop).
Proof.
  induction h as [|p h IH]; intros s pop s' HS HP HE; cbn in *; [injection HE as <-; exact HS|].
  destruct HP as [HA HP]. destruct (exec o s p) as [s1 [|]] eqn:E1; [|discriminate].
  apply (IH s1); auto. apply (exec_stores o s); auto.
Qed.

(** ** C86 *)
(** which attributes a super-droplet has: those every super-droplet has; a position and a turbulent velocity along each dimension there is;
    what exact substepping, turbulent condensation, in-cloud time, ice and activation substepping need *)
Definition needed (o : aopts) (c : col) : Prop :=
  In c [a_rd3; a_rw2; a_kpa; a_vt] \/
  (c = a_x \/ c = a_up /\ q_turb_adve o = true) /\ 0 < q_nx o \/
  (c = a_y \/ c = a_vp /\ q_turb_adve o = true) /\ 0 < q_ny o \/
  (c = a_z \/ c = a_wp /\ q_turb_adve o = true) /\ 0 < q_nz o \/
  In c [a_sstp_rv; a_sstp_th; a_sstp_rh] /\ q_exact o = true \/ c = a_sstp_p /\ q_exact o = true /\ q_const_p o = true \/
  In c [a_ssp; a_dot_ssp; a_wp] /\ q_turb_cond o = true \/ c = a_incloud /\ q_incloud o = true \/
  In c [a_rd2_insol; a_ice_a; a_ice_c; a_ice_rho] /\ q_ice o = true \/ c = a_T_freeze /\ q_ice o = true /\ q_time_dep o = false \/
  c = a_rc2 /\ q_act o = true.
Lemma needed_present o c : needed o c <-> present o c = true.
Proof.
  unfold needed. cbn [In]. split.
  - intros H. repeat match goal with H : _ \/ _ |- _ => destruct H | H : _ /\ _ |- _ => destruct H | H : False |- _ => destruct H end; try subst c; try discriminate; try congruence;
    cbn [present]; repeat match goal with H : _ = true |- _ => rewrite H | H : _ = false |- _ => rewrite H end; cbn; try rewrite orb_true_r; try reflexivity;
    match goal with H : 0 < ?n |- _ => destruct (Nat.eqb_spec n 0); [lia|reflexivity] end.
  - destruct c; cbn [present]; intros H;
    rewrite ?orb_true_iff, ?andb_true_iff, ?negb_true_iff, ?Nat.eqb_neq in H;
    repeat match goal with H : _ \/ _ |- _ => destruct H | H : _ /\ _ |- _ => destruct H end;
    repeat match goal with H : ?n <> 0 |- _ => assert (0 < n) by lia; clear H end; tauto.
Qed.
(** Exactly these are kept for every super-droplet, new super-droplets having their initial values, and all of them move with it. *)
Theorem C86_storage o h s : proper o [] h -> execs o empty_store h = (s, true) ->
  s_n s = map d_n (after h) /\
  forall c, (needed o c -> s_v s c = map (fun d => d_a d c) (after h)) /\ (~ needed o c -> s_v s c = []).
Proof.
  intros HP HE. destruct (execs_stores o h _ _ _ (stores_empty o) HP HE) as (_ & H2 & H3). split; [exact H2|].
  intros c. split; intros H; unfold after; rewrite H3.
  - apply needed_present in H. rewrite H. reflexivity.
  - destruct (present o c) eqn:E; [|reflexivity]. exfalso. apply H, needed_present, E.
Qed.
(** After any history without an exception: known attributes give one value per super-droplet, the i-th value of each being that of the
    i-th super-droplet; ice attributes are refused without ice, freezing temperatures also with time-dependent freezing; other names are
    refused; coordinates that do not exist are zeros. *)
Theorem C86_get_attr o h s : proper o [] h -> execs o empty_store h = (s, true) ->
  let pop := after h in
  let all c := values (map (fun d => d_a d c) pop) in
  get_attr o s "rw2" = all a_rw2 /\ get_attr o s "rd3" = all a_rd3 /\ get_attr o s "kappa" = all a_kpa /\
  get_attr o s "x" = (if q_nx o =? 0 then values (repeat 0%R (length pop)) else all a_x) /\
  get_attr o s "y" = (if q_ny o =? 0 then values (repeat 0%R (length pop)) else all a_y) /\
  get_attr o s "z" = (if q_nz o =? 0 then values (repeat 0%R (length pop)) else all a_z) /\
  get_attr o s "ice_a" = (if q_ice o then all a_ice_a else refused) /\
  get_attr o s "ice_c" = (if q_ice o then all a_ice_c else refused) /\
  get_attr o s "ice_rho" = (if q_ice o then all a_ice_rho else refused) /\
  get_attr o s "rd2_insol" = (if q_ice o then all a_rd2_insol else refused) /\
  get_attr o s "T_freeze" = (if q_ice o && negb (q_time_dep o) then all a_T_freeze else refused) /\
  (forall name, ~ In name ["rw2"; "rd3"; "kappa"; "x"; "y"; "z"; "ice_a"; "ice_c"; "ice_rho"; "rd2_insol"; "T_freeze"]%string -> get_attr o s name = refused).
Proof.
  intros HP HE pop all. destruct (execs_stores o h empty_store [] s (stores_empty o) HP HE) as (H1 & H2 & H3). fold pop in H1, H2, H3.
  change (fold_left meaning h []) with pop in *.
  assert (V : forall c, s_v s c = (if present o c then map (fun d => d_a d c) pop else []) ->
    (if s_np s <? length (s_v s c) then overrun else values (s_v s c ++ repeat 0%R (s_np s - length (s_v s c)))) =
    if present o c then all c else values (repeat 0%R (length pop))).
  { intros c E. rewrite E. destruct (present o c).
    - rewrite map_length, H1, Nat.ltb_irrefl, Nat.sub_diag. cbn [repeat]. rewrite app_nil_r. reflexivity.
    - cbn [length app]. rewrite H1, Nat.sub_0_r. replace (length pop <? 0) with false by (symmetry; apply Nat.ltb_ge; lia). reflexivity. }
  assert (G : forall name, existsb (String.eqb name) attr_names = true ->
    get_attr o s name = if negb (q_ice o) && ((name =? "ice_a") || (name =? "ice_c") || (name =? "ice_rho") || (name =? "rd2_insol") || (name =? "T_freeze"))%string then refused
    else if q_time_dep o && (name =? "T_freeze")%string then refused else if present o (attr_col name) then all (attr_col name) else values (repeat 0%R (length pop))).
  { intros name Hn. unfold get_attr. rewrite Hn. cbn [negb]. cbv zeta. rewrite (V _ (H3 _)). reflexivity. }
  repeat match goal with |- _ /\ _ => split end; try (rewrite G by reflexivity; cbn - [all repeat]; destruct (q_ice o), (q_time_dep o); cbn - [all repeat]; try reflexivity;
    destruct (_ =? 0); reflexivity).
  intros name Hn. unfold get_attr. replace (existsb (String.eqb name) attr_names) with false; [reflexivity|].
  symmetry. apply not_true_is_false. intros K. apply existsb_exists in K. destruct K as (x & Hx & E). apply String.eqb_eq in E. subst x.
  apply Hn. unfold attr_names in Hx. cbn [In] in *. intuition auto.
Qed.

(** an exception is thrown exactly when a change of the number of super-droplets exceeds n_sd_max (arrivals are not checked) *)
Theorem C86_limit o h s p : proper o [] (h ++ [p]) -> execs o empty_store h = (s, true) ->
  snd (exec o s p) = false <->
  match p with
  | o_grow _ | o_shrink _ | o_remove _ _ => q_n_sd_max o < length (meaning (after h) p)
  | _ => False
  end.
Proof.
  intros HP HE.
  assert (HQ : proper o [] h).
  { clear HE. revert HP. generalize (@nil droplet). induction h as [|q h IH]; intros pop HP; cbn in *; [exact I|]. destruct HP as [A B]. split; auto. }
  destruct (execs_stores o h empty_store [] s (stores_empty o) HQ HE) as (H1 & H2 & H3). fold (after h) in *. set (pop := after h) in *.
  destruct p as [k|k|c i v|i v|i j|l|junk junk_n]; cbn [exec meaning snd]; try (split; [discriminate|intros []]);
    unfold resize_npart; cbn [s_np s_n s_v].
  - rewrite app_length, repeat_length, H1. destruct (Nat.ltb_spec (q_n_sd_max o) (length pop + k)); cbn; split; try discriminate; try lia; auto.
  - rewrite firstn_length, H1. destruct (Nat.ltb_spec (q_n_sd_max o) (length pop - k)); cbn; split; try discriminate; try lia; auto.
  - rewrite H2, H1, !firstn_all2 by (rewrite map_length; lia). rewrite compact_map, map_length.
    destruct (Nat.ltb_spec (q_n_sd_max o) (length (filter (fun d => negb (d_n d =? 0)%N) pop))); cbn; split; try discriminate; try lia; auto.
Qed.

(** a 2-D run with ice *)
Definition ice_run : aopts := {| q_nx := 4; q_ny := 0; q_nz := 5; q_exact := false; q_const_p := false; q_turb_adve := false; q_turb_cond := false;
  q_incloud := false; q_ice := true; q_time_dep := true; q_act := false; q_n_sd_max := 3 |}.

(** After a refused growth the number of super-droplets stays raised: get_attr then returns more values than there are super-droplets (and
    than n_sd_max). *)
Theorem C86_after_exception_refuted : exists h s l, proper ice_run [] h /\ execs ice_run empty_store h = (s, false) /\
  get_attr ice_run s "rw2" = values l /\ length l = 5 /\ q_n_sd_max ice_run = 3.
Proof.
  exists [o_grow 2; o_grow 3]. eexists. exists [0; 0; 0; 0; 0]%R. split; [cbn; auto|]. split; [reflexivity|]. repeat split; reflexivity.
Qed.
(** Arrivals beyond n_sd_max are not refused; removal then throws with the vectors still longer than the number of super-droplets:
    get_attr writes past the end of its result. *)
Theorem C86_overrun_refuted : exists h s, proper ice_run [] h /\ execs ice_run empty_store h = (s, false) /\ get_attr ice_run s "rw2" = overrun.
Proof.
  exists [o_append (repeat (1%N, fun _ => 1%R) 4 ++ [(0%N, fun _ => 1%R)]); o_remove (fun _ => []) []]. eexists.
  split; [cbn; auto|]. split; reflexivity.
Qed.

(** meets the hypotheses: two super-droplets, a third one with multiplicity 0 in between is removed *)
Definition some_history : list op := [o_grow 3; o_set_n 0 10; o_set_n 2 30; o_set a_rw2 0 1%R; o_set a_rw2 1 2%R; o_set a_rw2 2 3%R;
    o_set a_ice_a 2 4%R; o_remove (fun _ => [7%R; 8%R]) [9%N]].
Theorem C86_instance : exists s, proper ice_run [] some_history /\ execs ice_run empty_store some_history = (s, true) /\ length (after some_history) = 2 /\ get_attr ice_run s "rw2" = values [1; 3]%R /\ get_attr ice_run s "ice_a" = values [0; 4]%R /\ get_attr ice_run s "y" = values [0; 0]%R /\ get_attr ice_run s "T_freeze" = refused /\ get_attr ice_run s "n" = refused.
Proof.
  assert (HP : proper ice_run [] some_history) by (cbn; repeat split; try lia).
  destruct (execs ice_run empty_store some_history) as [s b] eqn:E.
  assert (b = true).
  { transitivity (snd (execs ice_run empty_store some_history)); [rewrite E; reflexivity|]. lazy. reflexivity. }
  subst b. exists s. destruct (C86_get_attr ice_run some_history s HP E) as (A1 & _ & _ & _ & A5 & _ & A7 & _ & _ & _ & A11 & A12).
  assert (L : length (after some_history) = 2) by reflexivity.
  split; [exact HP|]. split; [reflexivity|]. split; [exact L|]. split; [rewrite A1; reflexivity|]. split; [rewrite A7; reflexivity|].
  split; [rewrite A5, L; reflexivity|]. split; [rewrite A11; reflexivity|]. apply A12. cbn [In]. intuition discriminate.
Qed.

(** ** masses of compounds *)
Lemma put_length {A} (l : list A) i v : length (put l i v) = length l.
Proof. revert i. induction l; intros [|i]; cbn; auto. Qed.
Lemma nth_put (l : list R) i v q : nth q (put l i v) 0%R = if (q =? i) && (q <? length l) then v else nth q l 0%R.
Proof.
  revert i q. induction l as [|x l IH]; intros [|i] [|q]; cbn [put nth length]; try reflexivity;
    try (rewrite andb_false_r; reflexivity).
  rewrite IH. reflexivity.
Qed.
Lemma write_length vs : forall l b, length (write_from l b vs) = length l.
Proof. induction vs as [|v vs IH]; intros l b; cbn; [reflexivity|]. rewrite IH. apply put_length. Qed.
Lemma nth_write vs : forall l b q, b + length vs <= length l ->
  nth q (write_from l b vs) 0%R = if (b <=? q) && (q <? b + length vs) then nth (q - b) vs 0%R else nth q l 0%R.
Proof.
  induction vs as [|v vs IH]; intros l b q H; cbn [write_from length] in *.
  - replace ((b <=? q) && (q <? b + 0)) with false; [reflexivity|]. symmetry. destruct (Nat.leb_spec b q), (Nat.ltb_spec q (b + 0)); cbn; try reflexivity; lia.
  - rewrite IH by (rewrite put_length; lia). rewrite nth_put.
    destruct (Nat.leb_spec (S b) q), (Nat.ltb_spec q (S b + length vs)), (Nat.leb_spec b q), (Nat.ltb_spec q (b + S (length vs))),
      (Nat.eqb_spec q b), (Nat.ltb_spec q (length l)); cbn [andb]; try lia; try reflexivity.
    + replace (q - b) with (S (q - S b)) by lia. reflexivity.
    + subst q. rewrite Nat.sub_diag. reflexivity.
Qed.

Definition laid_out (np : nat) (K : packed) : Prop :=
  length (k_ante K) = 3 * np /\ length (k_rhs K) = 4 * np /\ length (k_post K) = 1 * np /\ forall i, k_bgn K i = (i - offset i) * np.
Lemma place i : i < 8 -> (i < 3 /\ offset i = 0 /\ (i <? chem_rhs_beg) = true) \/
  (3 <= i < 7 /\ offset i = 3 /\ (i <? chem_rhs_beg) = false /\ (i <? chem_rhs_fin) = true) \/
  (i = 7 /\ offset i = 7 /\ (i <? chem_rhs_beg) = false /\ (i <? chem_rhs_fin) = false).
Proof.
  intros H. unfold offset, chem_rhs_beg, chem_rhs_fin.
  destruct (Nat.ltb_spec i 3); [left; auto|right]. destruct (Nat.ltb_spec i 7); [left|right]; repeat split; auto; lia.
Qed.
Lemma write_column np K x vs i j : laid_out np K -> length vs = np -> x < 8 -> i < 8 -> j < np ->
  let K' := set_which x (fun l => write_from l (k_bgn K x) vs) K in
  laid_out np K' /\ mass_of K' i j = if i =? x then nth j vs 0%R else mass_of K i j.
Proof.
  intros (L1 & L2 & L3 & LB) Lv Hx Hi Hj K'. 
  assert (B : k_bgn K' = k_bgn K) by (unfold K', set_which; destruct (x <? chem_rhs_beg), (x <? chem_rhs_fin); reflexivity).
  split.
  { unfold laid_out. rewrite B. unfold K', set_which. destruct (x <? chem_rhs_beg), (x <? chem_rhs_fin); cbn [k_ante k_rhs k_post]; rewrite ?write_length; auto. }
  unfold mass_of. rewrite B. set (bx := k_bgn K x) in *. assert (Ex : bx = (x - offset x) * np) by apply LB. rewrite (LB i). clearbody bx.
  unfold which, K', set_which.
  destruct (place x Hx) as [(X1 & X2 & X3)|[(X1 & X2 & X3 & X4)|(X1 & X2 & X3 & X4)]]; rewrite X3, ?X4; rewrite X2 in Ex;
  destruct (place i Hi) as [(I1 & I2 & I3)|[(I1 & I2 & I3 & I4)|(I1 & I2 & I3 & I4)]]; rewrite I3, ?I4, I2; cbn [k_ante k_rhs k_post];
    try (rewrite nth_write by (rewrite Lv; nia); rewrite Lv);
    destruct (Nat.eqb_spec i x) as [E|E]; try lia; try reflexivity.
  all: try (subst i; match goal with |- (if ?c then nth ?q _ _ else _) = _ =>
      replace c with true by (symmetry; apply andb_true_iff; split; [apply Nat.leb_le|apply Nat.ltb_lt]; nia); f_equal; nia end).
  all: match goal with |- (if ?c then _ else _) = _ => replace c with false; [reflexivity|] end;
    symmetry; apply andb_false_iff; rewrite Nat.leb_gt, Nat.ltb_ge; clear - Ex E X1 I1 Hj;
    destruct (Nat.lt_ge_cases i x); [left|right]; nia.
Qed.
Lemma init_chem_aq_spec rho rd3 K i j : i < 8 -> j < length rd3 ->
  mass_of (init_chem_aq rho rd3 (init_chem (length rd3) K)) i j = chem_init rho (nth j rd3 0%R) i.
Proof.
  intros Hi Hj. unfold init_chem_aq. set (np := length rd3) in *.
  assert (L0 : laid_out np (init_chem np K)).
  { unfold laid_out, init_chem; cbn [k_ante k_rhs k_post k_bgn]. rewrite !resize_length. repeat split; reflexivity. }
  set (m := fun i => map (fun r => chem_init rho r i) rd3).
  assert (Lm : forall i, length (m i) = np) by (intros; unfold m; apply map_length).
  assert (Nm : nth j (m i) 0%R = chem_init rho (nth j rd3 0%R) i).
  { unfold m. rewrite nth_indep with (d' := chem_init rho 0%R i) by (rewrite map_length; exact Hj).
    apply (map_nth (fun r => chem_init rho r i)). }
  rewrite <- Nm. generalize dependent (init_chem np K). intros K0 L0.
  change (fold_left (fun K i => set_which i (fun l => write_from l (k_bgn K i) (map (fun r => chem_init rho r i) rd3)) K) (seq 0 chem_all) K0)
    with (fold_left (fun K i => set_which i (fun l => write_from l (k_bgn K i) (m i)) K) (seq 0 chem_all) K0).
  clearbody m np. clear Nm K.
  assert (G : forall l K, laid_out np K -> (forall x, In x l -> x < 8) ->
    mass_of (fold_left (fun K i => set_which i (fun l => write_from l (k_bgn K i) (m i)) K) l K) i j = if existsb (Nat.eqb i) l then nth j (m i) 0%R else mass_of K i j).
  { induction l as [|x l IH]; intros K LK Hl; cbn [fold_left existsb]; [reflexivity|].
    destruct (write_column np K x (m x) i j LK (Lm x) (Hl x (or_introl eq_refl)) Hi Hj) as [L' M']. cbv zeta in L', M'.
    rewrite IH by (auto; intros y Hy; apply Hl; right; exact Hy). rewrite M'. 
    destruct (Nat.eqb_spec i x) as [->|E]; cbn [orb]; [|reflexivity]. destruct (existsb (Nat.eqb x) l); reflexivity. }
  rewrite G; [|exact L0|intros x Hx; apply in_seq in Hx; exact (proj2 Hx)].
  replace (existsb (Nat.eqb i) (seq 0 chem_all)) with true; [reflexivity|]. symmetry. apply existsb_exists. exists i. split; [|apply Nat.eqb_refl].
  apply in_seq. unfold chem_all. lia.
Qed.

(** Whatever was stored before, and however many batches of super-droplets are created at initialisation, the initial composition of every
    super-droplet is that of its own dry particle. *)
Theorem C86_initial_composition rho batches last K0 :
  let '(rd3, K) := init_batches rho [] (batches ++ [last]) K0 in
  rd3 = concat (batches ++ [last]) /\
  forall i j, i < 8 -> j < length rd3 -> mass_of K i j = chem_init rho (nth j rd3 0%R) i.
Proof.
  change (concat (batches ++ [last])) with ([] ++ concat (batches ++ [last])). generalize (@nil R) as rd. revert K0.
  induction batches as [|b batches IH]; intros K0 rd; cbn [app init_batches concat].
  - split; [rewrite app_nil_r; reflexivity|]. intros i j Hi Hj. apply init_chem_aq_spec; assumption.
  - rewrite app_assoc. apply IH.
Qed.
Lemma bgn_same rho rd3 K i : k_bgn (init_chem_aq rho rd3 K) i = k_bgn K i.
Proof.
  unfold init_chem_aq. generalize (seq 0 chem_all). intros l. revert K. induction l as [|x l IH]; intros K; cbn [fold_left]; [reflexivity|].
  rewrite IH. unfold set_which. destruct (x <? chem_rhs_beg), (x <? chem_rhs_fin); reflexivity.
Qed.
Lemma nth_resize n (l : list R) q : q < n -> nth q (resize n 0%R l) 0%R = nth q l 0%R.
Proof.
  intros H. unfold resize. destruct (Nat.lt_ge_cases q (length l)) as [L|L].
  - rewrite app_nth1 by (rewrite firstn_length; lia). rewrite <- (firstn_skipn n l) at 2. rewrite app_nth1 by (rewrite firstn_length; lia). reflexivity.
  - rewrite (nth_overflow l) by lia. rewrite app_nth2 by (rewrite firstn_length; lia). apply nth_repeat.
Qed.
(** adding super-droplets without computing the composition of all again (what sources would do: hence they are refused) gives masses of
    one super-droplet to others *)
Theorem C86_growth_refuted : exists K np np', (forall i j, i < 8 -> j < np -> mass_of K i j = chem_init 1800 (nth j [1; 2]%R 0%R) i) /\ np < np' /\
  exists i j, i < 8 /\ j < np /\ mass_of (init_chem np' K) i j <> mass_of K i j.
Proof.
  set (e := {| k_ante := []; k_rhs := []; k_post := []; k_bgn := fun _ => 0 |}).
  exists (init_chem_aq 1800 [1; 2]%R (init_chem 2 e)), 2, 3.
  assert (H : forall i j, i < 8 -> j < 2 -> mass_of (init_chem_aq 1800 [1; 2]%R (init_chem 2 e)) i j = chem_init 1800 (nth j [1; 2]%R 0%R) i)
    by (intros i j Hi Hj; apply (init_chem_aq_spec 1800 [1; 2]%R e); assumption).
  split; [exact H|]. split; [lia|]. exists 1, 0. split; [lia|]. split; [lia|]. rewrite (H 1 0) by lia.
  set (K := init_chem_aq 1800 [1; 2]%R (init_chem 2 e)) in *.
  assert (E : mass_of (init_chem 3 K) 1 0 = mass_of K 1 1).
  { unfold mass_of. assert (B : k_bgn K 1 = 2) by (unfold K; rewrite bgn_same; reflexivity). rewrite B. clear. clearbody K.
    unfold which, init_chem, offset, chem_rhs_beg, chem_rhs_fin. cbn [Nat.ltb Nat.leb k_ante k_bgn]. apply nth_resize. cbn. lia. }
  rewrite E, (H 1 1) by lia. cbn [nth chem_init]. unfold M_NH3_H2O, M_NH4, M_HSO4. pose proof PI_RGT_0. lra.
Qed.

Print Assumptions C86_get_attr.
Print Assumptions C86_limit.
Print Assumptions C86_after_exception_refuted.
Print Assumptions C86_overrun_refuted.
Print Assumptions C86_instance.
Print Assumptions C86_initial_composition.
Print Assumptions C86_growth_refuted.

Print Assumptions C86_storage.
