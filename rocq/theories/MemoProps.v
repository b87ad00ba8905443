(** C87: what super-droplets remember is right when condensation uses it. *)
From Coq Require Import List Arith NArith ZArith Lia Reals Lra Permutation Bool.
From Verif Require Import Base BaseProofs HskpngModel HskpngProofs HskpngProps CoalModel CoalProofs CoalPairProofs CoalPassProofs CoalProps
  ThermoModel ThermoProofs TomsModel TomsProps CondModel KoehlerModel KoehlerProps MemoModel.
Import ListNotations.
Local Open Scope R_scope.

(** ** Specification *)
(** the critical radius (squared) at temperature rc2_T (in degrees Celsius) of a droplet with this dry radius (cubed) and kappa *)
Definition critical (o : mopts) (rd3 kappa : R) : R := rc2_of (o_prec o) rd3 kappa (o_rc2_T o + 273.15).
Definition knows_its_size (o : mopts) (st : mstate) (i : nat) : Prop :=
  rc2 (m_sd st i) = critical o (rd3 (m_sd st i)) (kpa (m_sd st i)).

(** What super-droplets have last seen, [g], changes with an event: condensation shows to each the air in its cell; a new
    one sees the air in the cell where it appears; the attributes of number i come from number src i when copied. *)
Definition sees (e : event) (st st' : mstate) (g : nat -> air) : nat -> air :=
  match e with
  | E_cond _ _ => fun i => m_air st' (m_cell st' i)
  | E_new _ _ cell => fun i => if (i <? m_np st)%nat then g i else m_air st (cell i)
  | E_copy src _ _ => fun i => g (src i)
  | _ => g
  end.
(** a history: events, the final state, and what each super-droplet has last seen *)
Inductive history (o : mopts) : list event -> mstate -> (nat -> air) -> Prop :=
| h_init np s cell env : history o [] (init o np s cell env) (fun i => env (cell i))
| h_more l st g e st' : history o l st g -> happens o e st = Some st' -> history o (l ++ [e]) st' (sees e st st' g).
(** the same humidity, temperature, density and, if it is constant in time, pressure *)
Definition same_air (o : mopts) (x y : air) : Prop :=
  let '(rv, th, rh, p) := x in let '(rv', th', rh', p') := y in
  rv = rv' /\ th = th' /\ rh = rh' /\ (o_isobaric o = true -> p = p').
Definition remembers (o : mopts) (st : mstate) (g : nat -> air) (i : nat) : Prop := same_air o (m_mem st i) (g i).

(** what the library guarantees about inputs: of the passes of coalescence (as in C01), and copies are of existing
    super-droplets *)
Fixpoint good_passes (o : mopts) (l : list pass_in) (np : nat) (cells : list nat) (s : nat -> sd) : Prop :=
  match l with
  | [] => True
  | p :: l' =>
      sort_helper true cells (i_sijk p) (i_sid p) /\ pass_inputs (i_kernel p) (i_dt p) (i_dv p) (i_ncell p) cells (i_sched p) s /\
      forall s', one_pass o p np s = Some s' -> good_passes o l' np cells s'
  end.
Definition good_event (o : mopts) (e : event) (st : mstate) : Prop :=
  match e with
  | E_coal _ l => good_passes o l (m_np st) (map (m_cell st) (seq 0 (m_np st))) (m_sd st)
  | E_copy src np _ => forall i, (i < np)%nat -> (src i < m_np st)%nat
  | _ => True
  end.
Inductive good_history (o : mopts) : list event -> mstate -> (nat -> air) -> Prop :=
| gh_init np s cell env : good_history o [] (init o np s cell env) (fun i => env (cell i))
| gh_more l st g e st' : good_history o l st g -> good_event o e st -> happens o e st = Some st' ->
    good_history o (l ++ [e]) st' (sees e st st' g).

Definition adds (e : event) : bool := match e with E_new _ _ _ => true | _ => false end.
Definition oxidises (e : event) : bool := match e with E_rct _ => true | _ => false end.
(** coalescence in a timestep too short for activation substeps *)
Definition short_coal (o : mopts) (e : event) : bool := match e with E_coal dt _ => (act_now o dt =? 1)%nat | _ => false end.

(** ** one pass of coalescence *)
Lemma pass_rc2 o kernel dt dv n_cell gn gr ijk sid_ sijk_ sched u01 s st :
  act_sstp o = true ->
  sort_helper true ijk sijk_ sid_ -> pass_inputs kernel dt dv n_cell ijk sched s ->
  coal kernel dt dv o n_cell gn gr sid_ sijk_ (length ijk) sched u01 s = Some st ->
  forall i, (rd3 (arr st i) = rd3 (s i) /\ kpa (arr st i) = kpa (s i) /\ rc2 (arr st i) = rc2 (s i)) \/ rc2 (arr st i) = -1.
Proof.
  intros Ha Hs Hin Hst i.
  destruct (coal_pass_pairs kernel dt dv o n_cell gn gr ijk sid_ sijk_ sched u01 s Hs Hin) as (st' & H1 & H2 & H3 & H4).
  rewrite Hst in H1. injection H1 as <-.
  set (ps := pairs n_cell gn ijk sid_ sijk_) in *. clearbody ps.
  assert (HX : forall c X Y X' Y', merged o c X Y X' Y' -> rd3 X' = rd3 X /\ kpa X' = kpa X /\ rc2 X' = rc2 X).
  { intros c X Y X' Y' M. pose proof (mg_X _ _ _ _ _ _ M) as E. tauto. }
  assert (HY : forall c X Y X' Y', merged o c X Y X' Y' -> rc2 Y' = -1).
  { intros c X Y X' Y' M. pose proof (mg_rc2 _ _ _ _ _ _ M) as E. now rewrite Ha in E. }
  destruct (in_dec Nat.eq_dec i (flat_map (fun t => [snd (fst t); snd t]) ps)) as [Hi|Hi].
  2:{ rewrite H4 by exact Hi. left; auto. }
  apply in_flat_map in Hi. destruct Hi as ([[r a] b] & Hp & Hab). cbn in Hab.
  destruct (H3 r a b Hp) as (c1 & Hcc & [(-> & E1 & E2)|[(Hc & Hle & M)|(Hc & Hlt & M)]]); destruct Hab as [<-|[<-|[]]].
  - rewrite E1; auto.
  - rewrite E2; auto.
  - left. now apply (HX _ _ _ _ _ M).
  - right. now apply (HY _ _ _ _ _ M).
  - right. now apply (HY _ _ _ _ _ M).
  - left. now apply (HX _ _ _ _ _ M).
Qed.

Definition fine (o : mopts) (s : sd) : Prop := rc2 s = critical o (rd3 s) (kpa s) \/ rc2 s = -1.

Lemma act_allow o : (1 < o_sstp_act o)%nat -> allow o = true.
Proof. intros H. unfold allow. apply Nat.ltb_lt in H. rewrite H. apply orb_true_r. Qed.
Lemma coal_invalidates o : (1 < o_sstp_act o)%nat -> act_sstp (coal_opts o) = true.
Proof. intros H. unfold coal_opts. cbn [act_sstp]. rewrite (act_allow o H). apply Nat.ltb_lt in H. now rewrite H. Qed.

Lemma passes_fine o l np cells s s' : (1 < o_sstp_act o)%nat -> length cells = np ->
  good_passes o l np cells s -> passes o l np s = Some s' -> (forall i, (i < np)%nat -> fine o (s i)) ->
  forall i, (i < np)%nat -> fine o (s' i).
Proof.
  intros Ha Hl. revert s. induction l as [|p l IH]; intros s G E F i Hi; cbn in E.
  { injection E as <-. now apply F. }
  destruct G as (G1 & G2 & G3). destruct (one_pass o p np s) as [s1|] eqn:E1; [|discriminate].
  apply (IH s1); auto.
  intros k Hk. unfold one_pass in E1. destruct (coal _ _ _ _ _ _ _ _ _ _ _ _ _) as [c|] eqn:Ec; [|discriminate]. injection E1 as <-.
  rewrite <- Hl in Ec. pose proof (pass_rc2 _ _ _ _ _ _ _ _ _ _ _ _ _ _ (coal_invalidates o Ha) G1 G2 Ec k) as H.
  unfold fine. cbn. destruct H as [(-> & -> & ->)| ->]; [|now right]. now apply F.
Qed.

Lemma refresh_sd_spec o s : fine o s -> rc2 (refresh_sd o s) = critical o (rd3 (refresh_sd o s)) (kpa (refresh_sd o s)).
Proof.
  intros F. unfold refresh_sd. destruct (Reqb (rc2 s) invalid) eqn:E; [reflexivity|].
  destruct F as [F|F]; [exact F|]. exfalso. apply Reqb_false in E. apply E. rewrite F. reflexivity.
Qed.
Lemma refresh_on o act st : act <> 1%nat -> allow o = true ->
  refresh o act st = {| m_np := m_np st; m_sd := (fun i => refresh_sd o (m_sd st i)); m_cell := m_cell st; m_mem := m_mem st; m_air := m_air st |}.
Proof. intros H1 H2. unfold refresh. apply Nat.eqb_neq in H1. now rewrite H1, H2. Qed.
Lemma refresh_parts o act st : m_np (refresh o act st) = m_np st /\ m_cell (refresh o act st) = m_cell st /\
  m_mem (refresh o act st) = m_mem st /\ m_air (refresh o act st) = m_air st.
Proof. unfold refresh. destruct (_ || _); cbn; auto. Qed.
Lemma save_parts o st : m_np (save o st) = m_np st /\ m_cell (save o st) = m_cell st /\ m_sd (save o st) = m_sd st /\ m_air (save o st) = m_air st.
Proof. unfold save. destruct (_ && _); cbn; auto. Qed.

Lemma init_knows o np s cell env i : (1 < o_sstp_act o)%nat -> knows_its_size o (init o np s cell env) i.
Proof.
  intros Ha. unfold knows_its_size, init. destruct (save_parts o (refresh o (o_sstp_act o) {| m_np := np; m_sd := fun i => newborn (s i); m_cell := cell; m_mem := fun _ => blank_air; m_air := env |})) as (_ & _ & -> & _).
  rewrite refresh_on by (auto using act_allow; lia). cbn [m_sd]. apply refresh_sd_spec. right. reflexivity.
Qed.

Lemma happens_fine o e st st' : (1 < o_sstp_act o)%nat -> good_event o e st -> oxidises e = false -> happens o e st = Some st' ->
  (forall i, (i < m_np st)%nat -> fine o (m_sd st i)) -> forall i, (i < m_np st')%nat -> fine o (m_sd st' i).
Proof.
  intros Ha G Hx E F i Hi. destruct e as [env|w env|d|dt l|cell p|k s cell|src np mult]; cbn [happens] in E; try discriminate Hx.
  - injection E as <-. now apply F.
  - injection E as <-. destruct (save_parts o {| m_np := m_np st; m_sd := fun i => set_rw2 (m_sd st i) (w i); m_cell := m_cell st; m_mem := m_mem st; m_air := env |}) as (E1 & _ & E3 & _).
    rewrite E1 in Hi. rewrite E3. exact (F i Hi).
  - destruct (passes o l (m_np st) (m_sd st)) as [s'|] eqn:Ep; [|discriminate]. injection E as <-.
    match type of Hi with context [refresh _ _ ?x] => destruct (refresh_parts o (act_now o dt) x) as (E1 & _) end.
    rewrite E1 in Hi. cbn in Hi.
    assert (Fs : fine o (s' i)).
    { apply (passes_fine o l (m_np st) (map (m_cell st) (seq 0 (m_np st))) (m_sd st)); auto. now rewrite map_length, seq_length. }
    unfold refresh. destruct (_ || _); [exact Fs|]. left. cbn [m_sd]. now apply refresh_sd_spec.
  - injection E as <-. exact (F i Hi).
  - injection E as <-. cbn [m_np m_sd] in Hi |- *. destruct (Nat.ltb_spec i (m_np st)) as [L|L]; [now apply F|]. right. reflexivity.
  - injection E as <-. cbn in Hi, G |- *. exact (F _ (G i Hi)).
Qed.

Lemma happens_knows o e st st' : (1 < o_sstp_act o)%nat -> good_event o e st -> oxidises e = false -> adds e = false -> short_coal o e = false ->
  happens o e st = Some st' -> (forall i, (i < m_np st)%nat -> knows_its_size o st i) -> forall i, (i < m_np st')%nat -> knows_its_size o st' i.
Proof.
  intros Ha G Hx Hn Hs E F i Hi. destruct e as [env|w env|d|dt l|cell p|k s cell|src np mult]; cbn [happens] in E; try discriminate Hx; try discriminate Hn.
  - injection E as <-. now apply F.
  - injection E as <-. unfold knows_its_size. destruct (save_parts o {| m_np := m_np st; m_sd := fun i => set_rw2 (m_sd st i) (w i); m_cell := m_cell st; m_mem := m_mem st; m_air := env |}) as (E1 & _ & E3 & _).
    rewrite E1 in Hi. rewrite E3. exact (F i Hi).
  - destruct (passes o l (m_np st) (m_sd st)) as [s'|] eqn:Ep; [|discriminate]. injection E as <-.
    match type of Hi with context [refresh _ _ ?x] => destruct (refresh_parts o (act_now o dt) x) as (E1 & _) end.
    rewrite E1 in Hi. cbn in Hi.
    assert (Fs : fine o (s' i)).
    { apply (passes_fine o l (m_np st) (map (m_cell st) (seq 0 (m_np st))) (m_sd st)); auto.
      - now rewrite map_length, seq_length.
      - intros k Hk. left. now apply F. }
    cbn in Hs. apply Nat.eqb_neq in Hs. unfold knows_its_size. rewrite refresh_on by auto using act_allow.
    cbn [m_sd]. now apply refresh_sd_spec.
  - injection E as <-. exact (F i Hi).
  - injection E as <-. cbn in Hi, G |- *. exact (F _ (G i Hi)).
Qed.

Lemma save_same o x y : same_air o (save_air o x y) y.
Proof. destruct x as [[[a b] c] d], y as [[[a' b'] c'] d']. cbn. repeat split; auto. intros ->. reflexivity. Qed.

Lemma happens_remembers o e st st' g : allow o = true -> o_exact_sstp o = true -> good_event o e st -> adds e = false ->
  happens o e st = Some st' -> (forall i, (i < m_np st)%nat -> remembers o st g i) ->
  forall i, (i < m_np st')%nat -> remembers o st' (sees e st st' g) i.
Proof.
  intros Ha Hx G Hn E F i Hi. unfold remembers in *.
  destruct e as [env|w env|d|dt l|cell p|k s cell|src np mult]; cbn [happens] in E; try discriminate Hn; cbn [sees].
  - injection E as <-. now apply F.
  - injection E as <-. unfold save. rewrite Ha, Hx. cbn [andb m_mem m_air m_cell]. apply save_same.
  - injection E as <-. now apply F.
  - destruct (passes _ _ _ _) as [s'|] eqn:Ep; [|discriminate]. injection E as <-.
    match type of Hi with context [refresh _ _ ?x] => destruct (refresh_parts o (act_now o dt) x) as (E1 & E2 & E3 & E4) end.
    rewrite E1 in Hi. rewrite E3. now apply F.
  - injection E as <-. now apply F.
  - injection E as <-. cbn in Hi, G |- *. exact (F _ (G i Hi)).
Qed.
Lemma cond_remembers o w env st st' g i : allow o = true -> o_exact_sstp o = true -> happens o (E_cond w env) st = Some st' ->
  remembers o st' (sees (E_cond w env) st st' g) i.
Proof.
  intros Ha Hx E. unfold remembers. cbn in E. injection E as <-. cbn [sees]. unfold save. rewrite Ha, Hx. cbn [andb m_mem m_air m_cell]. apply save_same.
Qed.
Lemma init_remembers o np s cell env i : allow o = true -> o_exact_sstp o = true -> remembers o (init o np s cell env) (fun i => env (cell i)) i.
Proof.
  intros Ha Hx. unfold remembers, init, save. rewrite Ha, Hx. cbn [andb m_mem m_air m_cell].
  destruct (refresh_parts o (o_sstp_act o) {| m_np := np; m_sd := fun i0 => newborn (s i0); m_cell := cell; m_mem := fun _ => blank_air; m_air := env |}) as (_ & -> & -> & ->).
  apply save_same.
Qed.

Lemma forallb_snoc {A} (f : A -> bool) l x : forallb f (l ++ [x]) = forallb f l && f x.
Proof. rewrite forallb_app. cbn. now rewrite andb_true_r. Qed.

Lemma history_fine o l st g : (1 < o_sstp_act o)%nat -> good_history o l st g -> (forall e, In e l -> oxidises e = false) ->
  forall i, (i < m_np st)%nat -> fine o (m_sd st i).
Proof.
  intros Ha H. induction H as [np s cell env|l st g e st' H IH G E]; intros Hx i Hi.
  - left. exact (init_knows o np s cell env i Ha).
  - apply (happens_fine o e st st' Ha G); auto.
    + apply Hx, in_or_app. right. now left.
    + apply IH. intros e' He'. apply Hx, in_or_app. now left.
Qed.

(** ** C87 *)
(** Without sources, relaxation and oxidation, and unless coalescence is run in a timestep too short for more than one
    activation substep, every super-droplet always knows its critical radius. *)
Theorem C87_critical_radius :
  forall o l st g, (1 < o_sstp_act o)%nat -> good_history o l st g ->
    (forall e, In e l -> adds e = false /\ oxidises e = false /\ short_coal o e = false) ->
    forall i, (i < m_np st)%nat -> knows_its_size o st i.
Proof.
  intros o l st g Ha H. induction H as [np s cell env|l st g e st' H IH G E]; intros Hx i Hi.
  - exact (init_knows o np s cell env i Ha).
  - destruct (Hx e) as (X1 & X2 & X3); [apply in_or_app; right; now left|].
    apply (happens_knows o e st st' Ha G); auto.
    apply IH. intros e' He'. apply Hx, in_or_app. now left.
Qed.
Print Assumptions C87_critical_radius.

(** A list of events continued by others *)
Lemma history_split o l1 l2 st g : good_history o (l1 ++ l2) st g ->
  exists st1 g1, good_history o l1 st1 g1 /\ 
    forall (P : mstate -> (nat -> air) -> Prop), P st1 g1 ->
      (forall e st0 g0 st0', In e l2 -> good_event o e st0 -> happens o e st0 = Some st0' -> P st0 g0 -> P st0' (sees e st0 st0' g0)) -> P st g.
Proof.
  revert st g. induction l2 as [|e l2 IH] using rev_ind; intros st g H.
  - rewrite app_nil_r in H. exists st, g. auto.
  - rewrite app_assoc in H. inversion H as [? ? ? ? E|l0 st0 g0 e0 st' H0 G E E1 E2 E3].
    { destruct (l1 ++ l2); discriminate. }
    apply app_inj_tail in E1. destruct E1 as [-> ->]. subst st'.
    destruct (IH _ _ H0) as (st1 & g1 & H1 & K). exists st1, g1. split; [exact H1|].
    intros P HP Hs. apply Hs; auto; [apply in_or_app; right; now left|].
    apply K; [exact HP|]. intros. apply Hs; auto. apply in_or_app. now left.
Qed.

(** With sources and relaxation: a call to coalescence (in a timestep that is not too short) makes every super-droplet
    that exists then know its critical radius, and it knows it until more are added; at any other time what is stored is
    the critical radius or -1. *)
Theorem C87_critical_radius_recovers :
  forall o l1 dt ps l2 st g, (1 < o_sstp_act o)%nat -> good_history o (l1 ++ E_coal dt ps :: l2) st g ->
    act_now o dt <> 1%nat ->
    (forall e, In e l1 -> oxidises e = false) ->
    (forall e, In e l2 -> adds e = false /\ oxidises e = false /\ short_coal o e = false) ->
    forall i, (i < m_np st)%nat -> knows_its_size o st i.
Proof.
  intros o l1 dt ps l2 st g Ha H Hd H1 H2.
  replace (l1 ++ E_coal dt ps :: l2) with ((l1 ++ [E_coal dt ps]) ++ l2) in H by (now rewrite <- app_assoc).
  destruct (history_split o _ l2 st g H) as (st1 & g1 & K1 & K2).
  apply (K2 (fun st _ => forall i, (i < m_np st)%nat -> knows_its_size o st i)).
  - inversion K1 as [? ? ? ? E|l0 st0 g0 e0 st' H0 G E E1 E2 E3]; [destruct l1; discriminate|].
    apply app_inj_tail in E1. destruct E1 as [-> ->]. subst st'. clear K1 K2 E3.
    assert (F := history_fine o l1 st0 g0 Ha H0 H1).
    intros i Hi. cbn in E. destruct (passes o ps (m_np st0) (m_sd st0)) as [s'|] eqn:Ep; [|discriminate]. injection E as <-.
    match type of Hi with context [refresh _ _ ?x] => destruct (refresh_parts o (act_now o dt) x) as (E1 & _) end.
    rewrite E1 in Hi. cbn in Hi.
    unfold knows_its_size. rewrite refresh_on by auto using act_allow. cbn [m_sd]. apply refresh_sd_spec.
    apply (passes_fine o ps (m_np st0) (map (m_cell st0) (seq 0 (m_np st0))) (m_sd st0)); auto. now rewrite map_length, seq_length.
  - intros e st0 g0 st0' He G E HP. destruct (H2 e He) as (X1 & X2 & X3). exact (happens_knows o e st0 st0' Ha G X2 X1 X3 E HP).
Qed.
Print Assumptions C87_critical_radius_recovers.

Theorem C87_critical_radius_or_missing :
  forall o l st g, (1 < o_sstp_act o)%nat -> good_history o l st g -> (forall e, In e l -> oxidises e = false) ->
    forall i, (i < m_np st)%nat -> knows_its_size o st i \/ rc2 (m_sd st i) = -1.
Proof. intros o l st g Ha H Hx i Hi. exact (history_fine o l st g Ha H Hx i Hi). Qed.
Print Assumptions C87_critical_radius_or_missing.

(** Without sources and relaxation, with per-particle substeps, every super-droplet always remembers the air it saw at
    the last condensation (or at the initialisation). *)
Theorem C87_air :
  forall o l st g, (1 < o_sstp_cond o \/ 1 < o_sstp_act o)%nat -> o_exact_sstp o = true -> good_history o l st g ->
    (forall e, In e l -> adds e = false) -> forall i, (i < m_np st)%nat -> remembers o st g i.
Proof.
  intros o l st g Ha He H.
  assert (Al : allow o = true). { unfold allow. destruct Ha as [Ha|Ha]; apply Nat.ltb_lt in Ha; rewrite Ha; [reflexivity|apply orb_true_r]. }
  induction H as [np s cell env|l st g e st' H IH G E]; intros Hx i Hi.
  - now apply init_remembers.
  - apply (happens_remembers o e st st' g Al He G); auto.
    + apply Hx, in_or_app; right; now left.
    + apply IH. intros e' He'. apply Hx, in_or_app. now left.
Qed.
Print Assumptions C87_air.

(** With them, all those that have gone through one condensation do. *)
Theorem C87_air_recovers :
  forall o l1 w env l2 st g, (1 < o_sstp_cond o \/ 1 < o_sstp_act o)%nat -> o_exact_sstp o = true ->
    good_history o (l1 ++ E_cond w env :: l2) st g ->
    (forall e, In e l2 -> adds e = false) -> forall i, (i < m_np st)%nat -> remembers o st g i.
Proof.
  intros o l1 w env l2 st g Ha He H H2.
  assert (Al : allow o = true). { unfold allow. destruct Ha as [Ha|Ha]; apply Nat.ltb_lt in Ha; rewrite Ha; [reflexivity|apply orb_true_r]. }
  replace (l1 ++ E_cond w env :: l2) with ((l1 ++ [E_cond w env]) ++ l2) in H by (now rewrite <- app_assoc).
  destruct (history_split o _ l2 st g H) as (st1 & g1 & K1 & K2).
  apply (K2 (fun st g => forall i, (i < m_np st)%nat -> remembers o st g i)).
  - inversion K1 as [? ? ? ? E|l0 st0 g0 e0 st' H0 G E E1 E2 E3]; [destruct l1; discriminate|].
    apply app_inj_tail in E1. destruct E1 as [-> ->]. subst st'.
    intros i Hi. now apply cond_remembers.
  - intros e st0 g0 st0' Hin G E HP. exact (happens_remembers o e st0 st0' g0 Al He G (H2 e Hin) E HP).
Qed.
Print Assumptions C87_air_recovers.

(** ** where it fails *)
(** A super-droplet added by a source or by relaxation goes into the next condensation with -1 for its critical radius and
    zeros for the air it remembers: nothing in the timestep or at the beginning of the next one fills them in. *)
Lemma run_app o l1 l2 st : run o (l1 ++ l2) st = match run o l1 st with Some st1 => run o l2 st1 | None => None end.
Proof. revert st. induction l1 as [|e l1 IH]; intros st; cbn [app run]; [reflexivity|]. destruct (happens o e st); [apply IH|reflexivity]. Qed.

Lemma happens_np o e st st' : happens o e st = Some st' -> adds e = false -> (forall src np mult, e <> E_copy src np mult) -> m_np st' = m_np st.
Proof.
  intros E Ha Hc. destruct e as [env|w env|d|dt l|cell p|k s cell|src np mult]; cbn [happens] in E; try discriminate Ha.
  - now injection E as <-.
  - injection E as <-. unfold save. destruct (_ && _); reflexivity.
  - now injection E as <-.
  - destruct (passes _ _ _ _); [|discriminate]. injection E as <-. unfold refresh. destruct (_ || _); reflexivity.
  - now injection E as <-.
  - exfalso. now apply (Hc src np mult).
Qed.

Lemma run_np o l st st' : run o l st = Some st' -> (forall e, In e l -> adds e = false /\ (forall src np mult, e <> E_copy src np mult)) -> m_np st' = m_np st.
Proof.
  revert st. induction l as [|e l IH]; intros st E H; cbn in E; [now injection E as <-|].
  destruct (happens o e st) as [s1|] eqn:E1; [|discriminate].
  rewrite (IH s1 E). { destruct (H e (or_introl eq_refl)). eapply happens_np; eauto. } intros e' He'. apply H. now right.
Qed.

Lemma opt_in {A} (x : option A) f e : In e (opt x f) -> exists a, e = f a.
Proof. destruct x as [a|]; cbn; [intros [<-|[]]; now exists a|intros []]. Qed.

(** the state after the motion, where sources start *)
Definition before_sources (r : round) : list event :=
  [E_air (r_air r)] ++ opt (r_cond r) (fun x => E_cond (fst x) (snd x)) ++ opt (r_rct r) E_rct
  ++ opt (r_coal r) (E_coal (r_dt r)) ++ [E_move (r_cell r) (r_pos r)].
Definition sources (r : round) : list event :=
  opt (r_src r) (fun x => E_new (fst (fst x)) (snd (fst x)) (snd x)) ++ opt (r_rlx r) (fun x => E_new (fst (fst x)) (snd (fst x)) (snd x)).
Lemma events_split r : events r = before_sources r ++ sources r ++ [E_copy (r_from r) (r_np r) (r_mult r)].
Proof. unfold events, before_sources, sources. now rewrite <- !app_assoc. Qed.

Definition unset (st : mstate) (i : nat) : Prop := rc2 (m_sd st i) = -1 /\ m_mem st i = (0, 0, 0, 0).
Lemma new_unset o l st st' m : (forall e, In e l -> adds e = true) -> run o l st = Some st' -> (m <= m_np st)%nat ->
  (forall i, (m <= i < m_np st)%nat -> unset st i) -> forall i, (m <= i < m_np st')%nat -> unset st' i.
Proof.
  revert st. induction l as [|e l IH]; intros st Ha E Hm H i Hi; cbn in E; [injection E as <-; now apply H|].
  destruct (happens o e st) as [s1|] eqn:E1; [|discriminate].
  assert (A := Ha e (or_introl eq_refl)). destruct e as [env|w env|d|dt l0|cell p|k s cell|src np mult]; try discriminate A.
  cbn [happens] in E1. injection E1 as <-.
  apply (IH _ (fun e' He' => Ha e' (or_intror He')) E); [cbn; lia| |exact Hi].
  intros j Hj. cbn in Hj. unfold unset. cbn [m_sd m_mem]. destruct (Nat.ltb_spec j (m_np st)) as [L|L]; [apply H; lia|]. split; reflexivity.
Qed.

Theorem C87_source_refuted :
  forall o st r env st1 st', run o (before_sources r ++ sources r) st = Some st1 -> run o (events r ++ [E_air env]) st = Some st' ->
    forall j, (j < m_np st')%nat -> (m_np st <= r_from r j < m_np st1)%nat ->
      rc2 (m_sd st' j) = -1 /\ m_mem st' j = (0, 0, 0, 0).
Proof.
  intros o st r env st1 st' Eb E j Hj Hf. rewrite events_split, <- app_assoc, run_app in E. rewrite run_app in Eb.
  destruct (run o (before_sources r) st) as [s1|] eqn:E1; [|discriminate].
  rewrite <- app_assoc, run_app in E. rewrite Eb in E.
  cbn in E. injection E as <-. cbn in Hj |- *.
  assert (N1 : m_np s1 = m_np st).
  { apply (run_np o _ _ _ E1). intros e He. unfold before_sources in He. repeat (apply in_app_or in He; destruct He as [He|He]);
    try (apply opt_in in He; destruct He as [a ->]); try (destruct He as [<-|[]]); (split; [reflexivity|discriminate]). }
  apply (new_unset o (sources r) s1 st1 (m_np st)) with (i := r_from r j); auto; try lia.
  intros e He. unfold sources in He. apply in_app_or in He. destruct He as [He|He]; apply opt_in in He; destruct He as [a ->]; reflexivity.
Qed.
Print Assumptions C87_source_refuted.

(** Without coalescence it stays so for ever. *)
Theorem C87_never_without_coalescence :
  forall o l st st' i, run o l st = Some st' -> (i < m_np st)%nat -> rc2 (m_sd st i) = -1 ->
    (forall e, In e l -> (forall dt ps, e <> E_coal dt ps) /\ (forall src np mult, e <> E_copy src np mult)) ->
    rc2 (m_sd st' i) = -1.
Proof.
  intros o l. induction l as [|e l IH]; intros st st' i E Hi H Hl; cbn in E; [now injection E as <-|].
  destruct (happens o e st) as [s1|] eqn:E1; [|discriminate].
  assert (K : rc2 (m_sd s1 i) = -1 /\ (i < m_np s1)%nat).
  { destruct (Hl e (or_introl eq_refl)) as [X Y]. destruct e as [env|w env|d|dt l0|cell p|k s cell|src np mult]; cbn [happens] in E1.
    - injection E1 as <-. now split.
    - injection E1 as <-. match goal with |- context [save o ?x] => destruct (save_parts o x) as (P1 & _ & P3 & _) end. rewrite P1, P3. now split.
    - injection E1 as <-. now split.
    - exfalso. now apply (X dt l0).
    - injection E1 as <-. now split.
    - injection E1 as <-. cbn [m_sd m_np]. replace (i <? m_np st)%nat with true by (symmetry; now apply Nat.ltb_lt). split; [exact H|lia].
    - exfalso. now apply (Y src np mult). }
  destruct K as [K1 K2]. apply (IH s1 st' i E K2 K1). intros e' He'. apply Hl. now right.
Qed.
Print Assumptions C87_never_without_coalescence.

Lemma cpow_inj x y a : 0 < x -> 0 < y -> a <> 0 -> cpow x a = cpow y a -> x = y.
Proof.
  intros Hx Hy Ha. rewrite !cpow_pos_eq by assumption. unfold Rpower. intros E. apply exp_inv in E.
  apply Rmult_eq_reg_l in E; [|assumption]. now apply ln_inv.
Qed.
Lemma critical_nonneg o rd kp : 0 <= critical o rd kp.
Proof. unfold critical, rc2_of. apply cpow_nonneg. Qed.

(** Oxidation changes the dry radius but not the stored critical radius. *)
Theorem C87_oxidation_refuted :
  forall o st i, o_prec o = fp_double -> 0 < o_rc2_T o + 273.15 < 791 ->
    let s := m_sd st i in
    0 < rd3 s -> 0 < kpa s -> 14 * kpa s * cbrt ((1 + 10 ^ 8) * rd3 s) < 900000 * kelvin_A (o_rc2_T o + 273.15) ->
    knows_its_size o st i ->
    exists d st', (forall k, 0 <= d k) /\ happens o (E_rct d) st = Some st' /\ ~ knows_its_size o st' i.
Proof.
  intros o st i Hp HT s Hr Hk Hs K. exists (fun _ => 10 ^ 8 * rd3 s). eexists. split; [intros; nra|]. split; [reflexivity|].
  unfold knows_its_size in *. cbn [m_sd set_rd3 rc2 rd3 kpa]. fold s in K |- *. rewrite K. unfold critical, rc2_of. rewrite Hp.
  set (T := o_rc2_T o + 273.15) in *. clearbody T.
  assert (C1 : cbrt (rd3 s) <= cbrt ((1 + 10 ^ 8) * rd3 s)) by (apply cbrt_mono; nra).
  destruct (C37_critical (rd3 s) (kpa s) T) as (B1 & _); auto.
  { eapply Rle_lt_trans; [|exact Hs]. apply Rmult_le_compat_l; [lra|exact C1]. }
  destruct (C37_critical (rd3 s + 10 ^ 8 * rd3 s) (kpa s) T) as (B2 & _); auto; [lra| |].
  { replace (rd3 s + 10 ^ 8 * rd3 s) with ((1 + 10 ^ 8) * rd3 s) by ring. exact Hs. }
  intros X. apply cpow_inj in X; [lra| | |]; lra.
Qed.
Print Assumptions C87_oxidation_refuted.

(** ** concrete histories *)
(** two super-droplets of multiplicities 5 and 2 in one cell *)
Definition x_pass : pass_in := {| i_kernel := fun _ _ _ => 3; i_dt := 1; i_dv := fun _ => 1; i_ncell := 1; i_gn := fun _ => 0%nat; i_gr := fun _ => 0;
  i_sid := [0;1]%nat; i_sijk := [0;0]%nat; i_sched := fun _ => [0%nat]; i_u01 := fun _ => 1/2; i_vt := fun _ => 1 |}.
Definition x_opts : mopts := {| o_sstp_cond := 2; o_sstp_act := 4; o_exact_sstp := true; o_isobaric := false; o_dt0 := 1; o_rc2_T := 10;
  o_distros := 1; o_chem_on := false; o_diag_ict := false; o_prec := fp_double |}.
Definition x_sd (i : nat) : sd := mk_sd (if (i =? 0)%nat then 5 else 2) (1/10^12) (1/10^21) 0 (6/10) (fun _ => 0) 0 0 (0,0,0).

Lemma x_inputs s : (n (s 0%nat) < 2 ^ 64)%N -> (n (s 1%nat) < 2 ^ 64)%N -> 0 <= rw2 (s 0%nat) -> 0 <= rw2 (s 1%nat) ->
  pass_inputs (fun _ _ _ => 3) 1 (fun _ => 1) 1 [0;0]%nat (fun _ => [0%nat]) s.
Proof.
  intros N0 N1 W0 W1. constructor.
  - cbn [length]. lia.
  - intros c [<-|[<-|[]]]; lia.
  - intros k. cbn. apply Permutation_refl.
  - lra.
  - intros; lra.
  - intros; lra.
  - intros i Hi. destruct i as [|[|i]]; [exact N0|exact N1|cbn in Hi; lia].
  - intros i Hi. destruct i as [|[|i]]; [exact W0|exact W1|cbn in Hi; lia].
Qed.
(** they collide, and the one of multiplicity 2 grows *)
Lemma x_collides o s : (1 < o_sstp_act o)%nat -> n (s 0%nat) = 5%N -> n (s 1%nat) = 2%N -> 0 <= rw2 (s 0%nat) -> 0 <= rw2 (s 1%nat) ->
  exists s', one_pass o x_pass 2 s = Some s' /\ rc2 (s' 1%nat) = -1 /\ rd3 (s' 1%nat) = 2 * rd3 (s 0%nat) + rd3 (s 1%nat) /\
    rc2 (s' 0%nat) = rc2 (s 0%nat) /\ rd3 (s' 0%nat) = rd3 (s 0%nat) /\ kpa (s' 0%nat) = kpa (s 0%nat).
Proof.
  intros Ha N0 N1 W0 W1.
  destruct (coal_pass_pairs (fun _ _ _ => 3) 1 (fun _ => 1) (coal_opts o) 1 (fun _ => 0%nat) (fun _ => 0) [0;0]%nat [0;1]%nat [0;0]%nat
    (fun _ => [0%nat]) (fun _ => 1/2) s ex_sort) as (st & H1 & _ & H3 & _).
  { apply x_inputs; try rewrite N0; try rewrite N1; auto; reflexivity. }
  exists (fun k => set_vt (arr st k) 1). unfold one_pass. cbn [x_pass i_kernel i_dt i_dv i_ncell i_gn i_gr i_sid i_sijk i_sched i_u01 i_vt].
  change (length [0;0]%nat) with 2%nat in H1. rewrite H1. split; [reflexivity|]. cbn [set_vt rc2 rd3 kpa].
  assert (Hp : pairs 1 (fun _ => 0%nat) [0;0]%nat [0;1]%nat [0;0]%nat = [(0,0,1)]%nat) by reflexivity.
  rewrite Hp in H3. destruct (H3 0%nat 0%nat 1%nat (or_introl eq_refl)) as (c1 & (f & Hf & Hc) & Hout).
  assert (P3 : pair_probability (fun (_ : nat) (_ _ : sd) => 3) 1 (fun _ : nat => 1) (count_occ Nat.eq_dec [0%nat; 0%nat] (nth 0 [0%nat; 0%nat] 0%nat))
    (nth 0 [0%nat; 0%nat] 0%nat) (s 0%nat) (s 1%nat) = 3).
  { unfold pair_probability. cbn [nth count_occ]. destruct (Nat.eq_dec 0 0) as [_|X]; [|now destruct X].
    change (INR 2) with 2. change (2 / 2)%nat with 1%nat. change (INR 1) with 1. field. }
  rewrite P3 in Hf, Hc. clear P3.
  assert (f = 3%N).
  { destruct Hf as [F1 F2]. assert (E3 : 3 = N2R 3) by (unfold N2R; cbn; lra). rewrite E3 in F1, F2.
    replace (N2R f + 1) with (N2R (f + 1)) in F2 by (rewrite N2R_plus; unfold N2R; cbn; lra).
    apply N2R_le in F1. apply N2R_lt in F2. lia. }
  subst f. assert (Hc3 : c1 = 3%N). { rewrite Hc. destruct (Rlt_dec _ _) as [L|L]; [|reflexivity]. exfalso. unfold N2R in L. cbn in L. lra. }
  rewrite Hc3 in Hout. clear Hc3 Hc Hf. rewrite N0, N1 in Hout.
  destruct Hout as [(X & _)|[(_ & _ & M)|(_ & X & _)]]; [discriminate X| |now vm_compute in X].
  change (limited 3 5 2) with 2%N in M.
  pose proof (mg_rc2 _ _ _ _ _ _ M) as E. rewrite (coal_invalidates o Ha) in E. split; [exact E|].
  pose proof (mg_rd3 _ _ _ _ _ _ M) as E2. split; [rewrite E2; unfold N2R; cbn; lra|].
  pose proof (mg_X _ _ _ _ _ _ M) as E3. tauto.
Qed.

Definition x_init : mstate := init x_opts 2 x_sd (fun _ => 0%nat) (fun _ => (1/100, 300, 1, 100000)).
Lemma x_init_facts : m_np x_init = 2%nat /\ m_cell x_init = (fun _ => 0%nat) /\
  forall i, n (m_sd x_init i) = n (x_sd i) /\ rw2 (m_sd x_init i) = 1/10^12 /\ rd3 (m_sd x_init i) = 1/10^21 /\ kpa (m_sd x_init i) = 6/10.
Proof.
  unfold x_init, init. match goal with |- context [save _ ?x] => destruct (save_parts x_opts x) as (-> & -> & -> & _) end.
  rewrite refresh_on by (try reflexivity; discriminate). cbn [m_np m_cell m_sd]. repeat split; unfold refresh_sd; destruct (Reqb _ _); reflexivity.
Qed.
Lemma act_quarter : act_now x_opts (1/4) = 1%nat.
Proof.
  unfold act_now. cbn [x_opts o_sstp_act o_dt0]. rewrite (proj2 (Rltb_true 0 (1/4))) by lra. change (1 <? 4)%nat with true. cbn [andb].
  change (INR 4) with (1 + 1 + 1 + 1). replace ((1 + 1 + 1 + 1) * (1/4) / 1) with 1 by field. unfold ceilN.
  replace (Int_part (Ropp 1)) with (-1)%Z; [reflexivity|]. destruct (base_Int_part (Ropp 1)) as [B1 B2].
  assert (C1 : IZR (Int_part (Ropp 1)) <= IZR (-1)) by lra. assert (C2 : IZR (-2) < IZR (Int_part (Ropp 1))) by lra. apply le_IZR in C1. apply lt_IZR in C2. lia.
Qed.
Lemma act_full : act_now x_opts 0 = 4%nat.
Proof. unfold act_now. rewrite (proj2 (Rltb_false 0 0)) by lra. reflexivity. Qed.

(** Coalescence in a timestep so short that there is one activation substep leaves those that have collided without
    their critical radius; a later timestep may be long. *)
Theorem C87_short_step_refuted :
  exists o l st g i, (1 < o_sstp_act o)%nat /\ good_history o l st g /\
    (forall e, In e l -> adds e = false /\ oxidises e = false) /\ (i < m_np st)%nat /\
    (1 < act_now o 0)%nat /\ rc2 (m_sd st i) = -1 /\ ~ knows_its_size o st i.
Proof.
  destruct x_init_facts as (I1 & I2 & I3).
  destruct (x_collides x_opts (m_sd x_init)) as (s' & Es & Er & _).
  { cbn. lia. } { destruct (I3 0%nat) as (-> & _). reflexivity. } { destruct (I3 1%nat) as (-> & _). reflexivity. }
  { destruct (I3 0%nat) as (_ & -> & _). lra. } { destruct (I3 1%nat) as (_ & -> & _). lra. }
  set (st := {| m_np := 2; m_sd := s'; m_cell := m_cell x_init; m_mem := m_mem x_init; m_air := m_air x_init |}).
  assert (Eh : happens x_opts (E_coal (1/4) [x_pass]) x_init = Some st).
  { cbn [happens]. rewrite I1. cbn [passes]. rewrite Es. rewrite act_quarter. reflexivity. }
  exists x_opts, ([] ++ [E_coal (1/4) [x_pass]]), st, (sees (E_coal (1/4) [x_pass]) x_init st (fun _ => (1/100, 300, 1, 100000))), 1%nat.
  split; [cbn; lia|]. split; [|split; [|split; [|split; [|split]]]].
  - apply gh_more; [apply gh_init| |exact Eh]. cbn [good_event good_passes]. fold x_init. rewrite I1, I2. cbn [seq map].
    split; [exact ex_sort|]. split; [|exact (fun _ _ => I)].
    apply x_inputs.
    + destruct (I3 0%nat) as (-> & _). reflexivity.
    + destruct (I3 1%nat) as (-> & _). reflexivity.
    + destruct (I3 0%nat) as (_ & -> & _). lra.
    + destruct (I3 1%nat) as (_ & -> & _). lra.
  - intros e [<-|[]]. split; reflexivity.
  - cbn. lia.
  - rewrite act_full. lia.
  - exact Er.
  - unfold knows_its_size. cbn [st m_sd]. rewrite Er. pose proof (critical_nonneg x_opts (rd3 (s' 1%nat)) (kpa (s' 1%nat))). lra.
Qed.
Print Assumptions C87_short_step_refuted.

(** A history with a collision, a new super-droplet, and a second timestep: at the second condensation the old ones know
    their critical radii, the new one does not. *)
Definition x_r (src : bool) : round := {| r_air := fun _ => (1/100, 300, 1, 100000); r_cond := Some (fun _ => 1/10^12, fun _ => (9/1000, 301, 1, 100000)); r_rct := None;
  r_coal := Some [x_pass]; r_dt := 0; r_cell := fun _ => 0%nat; r_pos := fun _ => (0, 0, 0);
  r_src := if src then Some (1%nat, x_sd, fun _ => 0%nat) else None; r_rlx := None; r_from := fun i => i; r_np := 3; r_mult := fun _ => 1%N |}.

Theorem C87_instance :
  exists st g, good_history x_opts (events (x_r true) ++ [E_air (fun _ => (8/1000, 299, 1, 100000))]) st g /\ m_np st = 3%nat /\
    knows_its_size x_opts st 0 /\ knows_its_size x_opts st 1 /\ ~ knows_its_size x_opts st 2 /\
    rd3 (m_sd st 1) = 3/10^21 /\
    m_mem st 0 = (9/1000, 301, 1, 0) /\ remembers x_opts st g 0 /\ remembers x_opts st g 1 /\ ~ remembers x_opts st g 2.
Proof.
  destruct x_init_facts as (I1 & I2 & I3).
  set (e1 := E_air (fun _ => (1/100, 300, 1, 100000))). set (e2 := E_cond (fun _ => 1/10^12) (fun _ => (9/1000, 301, 1, 100000))).
  set (s2 := fun i => MemoModel.set_rw2 (m_sd x_init i) (1/10^12)).
  destruct (x_collides x_opts s2) as (s3 & Es & Er & Ed & Er0 & Ed0 & Ek0).
  { cbn. lia. } { change (n (s2 0%nat)) with (n (m_sd x_init 0)). destruct (I3 0%nat) as (-> & _). reflexivity. } { change (n (s2 1%nat)) with (n (m_sd x_init 1)). destruct (I3 1%nat) as (-> & _). reflexivity. }
  { change (0 <= 1/10^12). lra. } { change (0 <= 1/10^12). lra. }
  set (A2 := fun _ : nat => (9/1000, 301, 1, 100000) : air).
  set (M2 := fun i => save_air x_opts (m_mem x_init i) (9/1000, 301, 1, 100000)).
  set (t1 := {| m_np := 2; m_sd := m_sd x_init; m_cell := fun _ => 0%nat; m_mem := m_mem x_init; m_air := fun _ : nat => (1/100, 300, 1, 100000) |}).
  set (t2 := {| m_np := 2; m_sd := s2; m_cell := fun _ : nat => 0%nat; m_mem := M2; m_air := A2 |}).
  set (t3 := {| m_np := 2; m_sd := (fun i => refresh_sd x_opts (s3 i)); m_cell := fun _ : nat => 0%nat; m_mem := M2; m_air := A2 |}).
  set (t4 := {| m_np := 2; m_sd := (fun i => set_pos (refresh_sd x_opts (s3 i)) (0,0,0)); m_cell := fun _ : nat => 0%nat; m_mem := M2; m_air := A2 |}).
  set (t5 := {| m_np := 3; m_sd := (fun i => if (i <? 2)%nat then set_pos (refresh_sd x_opts (s3 i)) (0,0,0) else newborn (x_sd i));
    m_cell := fun i : nat => if (i <? 2)%nat then 0%nat else 0%nat; m_mem := (fun i => if (i <? 2)%nat then M2 i else blank_air); m_air := A2 |}).
  set (t6 := {| m_np := 3; m_sd := (fun i => set_n (m_sd t5 i) 1); m_cell := m_cell t5; m_mem := m_mem t5; m_air := A2 |}).
  set (t7 := {| m_np := 3; m_sd := m_sd t6; m_cell := m_cell t5; m_mem := m_mem t5; m_air := (fun _ : nat => (8/1000, 299, 1, 100000)) |}).
  assert (H1 : happens x_opts e1 x_init = Some t1) by (cbn [happens e1]; rewrite I1, I2; reflexivity).
  assert (H2 : happens x_opts e2 t1 = Some t2) by reflexivity.
  assert (H3 : happens x_opts (E_coal 0 [x_pass]) t2 = Some t3).
  { cbn [happens]. change (m_np t2) with 2%nat. change (m_sd t2) with s2. cbn [passes]. rewrite Es. rewrite act_full. reflexivity. }
  assert (H4 : happens x_opts (E_move (fun _ => 0%nat) (fun _ => (0,0,0))) t3 = Some t4) by reflexivity.
  assert (H5 : happens x_opts (E_new 1 x_sd (fun _ => 0%nat)) t4 = Some t5) by reflexivity.
  assert (H6 : happens x_opts (E_copy (fun i => i) 3 (fun _ => 1%N)) t5 = Some t6) by reflexivity.
  assert (H7 : happens x_opts (E_air (fun _ => (8/1000, 299, 1, 100000))) t6 = Some t7) by reflexivity.
  set (g0 := fun _ : nat => (1/100, 300, 1, 100000) : air).
  set (g7 := fun i : nat => if (i <? 2)%nat then A2 0%nat else A2 0%nat).
  assert (GH : good_history x_opts (events (x_r true) ++ [E_air (fun _ => (8/1000, 299, 1, 100000))]) t7 g7).
  { change (events (x_r true) ++ [E_air (fun _ => (8/1000, 299, 1, 100000))]) with
      ((((((([] ++ [e1]) ++ [e2]) ++ [E_coal 0 [x_pass]]) ++ [E_move (fun _ => 0%nat) (fun _ => (0,0,0))]) ++ [E_new 1 x_sd (fun _ => 0%nat)])
        ++ [E_copy (fun i => i) 3 (fun _ => 1%N)]) ++ [E_air (fun _ => (8/1000, 299, 1, 100000))]).
    pose proof (gh_init x_opts 2 x_sd (fun _ => 0%nat) (fun _ => (1/100, 300, 1, 100000))) as G. fold x_init in G.
    eapply gh_more in G; [|shelve|exact H1]. eapply gh_more in G; [|shelve|exact H2]. eapply gh_more in G; [|shelve|exact H3].
    eapply gh_more in G; [|shelve|exact H4]. eapply gh_more in G; [|shelve|exact H5]. eapply gh_more in G; [|shelve|exact H6].
    eapply gh_more in G; [|shelve|exact H7]. exact G.
    Unshelve. all: try exact I.
    - cbn [good_event good_passes t2 m_np m_cell m_sd seq map]. split; [exact ex_sort|]. split; [|exact (fun _ _ => I)].
      apply x_inputs; unfold s2; cbn [MemoModel.set_rw2 n rw2]; try lra.
      + destruct (I3 0%nat) as (-> & _). reflexivity.
      + destruct (I3 1%nat) as (-> & _). reflexivity.
    - cbn. intros i Hi. exact Hi. }
  exists t7, g7. split; [exact GH|]. split; [reflexivity|].
  assert (F0 : fine x_opts (s3 0%nat)).
  { unfold fine. rewrite Er0, Ed0, Ek0. unfold s2. cbn [MemoModel.set_rw2 rc2 rd3 kpa]. left. apply (init_knows x_opts 2 x_sd (fun _ => 0%nat) (fun _ => (1/100, 300, 1, 100000)) 0). cbn. lia. }
  split; [exact (refresh_sd_spec _ _ F0)|]. split; [exact (refresh_sd_spec _ (s3 1%nat) (or_intror Er))|].
  split. { unfold knows_its_size. change (rc2 (m_sd t7 2)) with (-1). pose proof (critical_nonneg x_opts (rd3 (m_sd t7 2)) (kpa (m_sd t7 2))). lra. }
  split. { change (rd3 (refresh_sd x_opts (s3 1%nat)) = 3/10^21).
    transitivity (rd3 (s3 1%nat)); [unfold refresh_sd; destruct (Reqb _ _); reflexivity|]. rewrite Ed. unfold s2. cbn [MemoModel.set_rw2 rd3].
    destruct (I3 0%nat) as (_ & _ & -> & _). destruct (I3 1%nat) as (_ & _ & -> & _). lra. }
  assert (M0 : forall i, M2 i = (9/1000, 301, 1, snd (m_mem x_init i))).
  { intros i. unfold M2. destruct (m_mem x_init i) as [[[a b] c] d]. reflexivity. }
  split. { reflexivity. }
  split. { unfold remembers. change (m_mem t7 0) with (M2 0%nat). rewrite M0. cbn. repeat split; discriminate. }
  split. { unfold remembers. change (m_mem t7 1) with (M2 1%nat). rewrite M0. cbn. repeat split; discriminate. }
  unfold remembers. cbn. intros (X & _). lra.
Qed.
Print Assumptions C87_instance.
