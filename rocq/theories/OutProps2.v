(** C90 (second part): names and recorded values. *)
From Coq Require Import String Ascii List Arith ZArith NArith Reals Bool Lra Lia.
From Coq Require DecimalString DecimalNat DecimalZ DecimalPos DecimalFacts.
From Verif Require Import Base BaseProofs ThermoModel TomsModel CondModel KoehlerModel MomsModel MomsProofs CondPassModel DiagModel DiagProps OutModel OutProps.
Import ListNotations.
Local Open Scope R_scope.

(** * Names *)
Lemma tx_inj a b : tx a = tx b -> a = b.
Proof. unfold tx. intros H. rewrite <- (string_of_list_ascii_of_string a), <- (string_of_list_ascii_of_string b), H. reflexivity. Qed.
Lemma uint_text_digits u c : In c (tx (DecimalString.NilZero.string_of_uint u)) -> is_digit c = true.
Proof.
  assert (G : forall v, In c (tx (DecimalString.NilEmpty.string_of_uint v)) -> is_digit c = true).
  { induction v; cbn; [contradiction|..]; intros [<-|I]; auto. }
  unfold DecimalString.NilZero.string_of_uint. destruct u; [cbn; intros [<-|[]]; reflexivity|..]; apply G.
Qed.
Fixpoint zeros (j : nat) (u : Decimal.uint) : Decimal.uint := match j with O => u | S i => Decimal.D0 (zeros i u) end.
Lemma to_uint_not_nil k : Nat.to_uint k <> Decimal.Nil.
Proof. intros H. pose proof (DecimalNat.Unsigned.of_to k) as E. rewrite H in E. subst k. discriminate. Qed.
Lemma zeros_not_nil j u : u <> Decimal.Nil -> zeros j u <> Decimal.Nil. Proof. destruct j; cbn; [auto|discriminate]. Qed.
Lemma zeros_text j u : u <> Decimal.Nil -> repeat "0"%char j ++ tx (DecimalString.NilZero.string_of_uint u) = tx (DecimalString.NilZero.string_of_uint (zeros j u)).
Proof.
  intros N. induction j as [|j IH]; [reflexivity|]. cbn [repeat app]. rewrite IH. pose proof (zeros_not_nil j u N) as Z0. cbn [zeros]. destruct (zeros j u); [congruence|..]; reflexivity.
Qed.
Lemma of_zeros j u : Nat.of_uint (zeros j u) = Nat.of_uint u. Proof. induction j as [|j IH]; [reflexivity|]. exact IH. Qed.
Lemma padded_inj k k' : padded k = padded k' -> k = k'.
Proof.
  unfold padded. cbv zeta. set (j := (3 - _)%nat). set (j' := (3 - _)%nat). clearbody j j'. rewrite !zeros_text by apply to_uint_not_nil. intros H. apply tx_inj in H.
  assert (U : forall i n, DecimalString.NilZero.uint_of_string (DecimalString.NilZero.string_of_uint (zeros i (Nat.to_uint n))) = Some (zeros i (Nat.to_uint n)))
    by (intros i n; apply DecimalString.NilZero.usu, zeros_not_nil, to_uint_not_nil).
  pose proof (U j k) as U1. rewrite H, U in U1. injection U1 as U1. rewrite <- (DecimalNat.Unsigned.of_to k), <- (DecimalNat.Unsigned.of_to k').
  rewrite <- (of_zeros j (Nat.to_uint k)), <- (of_zeros j' (Nat.to_uint k')). congruence.
Qed.
Lemma padded_digits k c : In c (padded k) -> is_digit c = true.
Proof. unfold padded. intros I. apply in_app_or in I. destruct I as [I|I]; [apply repeat_spec in I; subst; reflexivity|]. apply (uint_text_digits _ _ I). Qed.
Lemma decimal_inj m m' : decimal m = decimal m' -> m = m'.
Proof.
  unfold decimal. intros H. apply tx_inj in H. assert (U : forall z, DecimalString.NilZero.int_of_string (DecimalString.NilZero.string_of_int (Z.to_int z)) = Some (Z.to_int z)).
  { intros z. apply DecimalString.NilZero.isi; destruct z; cbn; try discriminate; intros E; injection E as E; exact (DecimalPos.Unsigned.to_uint_nonnil _ E). }
  pose proof (U m) as U1. rewrite H, U in U1. injection U1 as U1. apply DecimalZ.to_int_inj. congruence.
Qed.
Lemma aux_same p k m k' m' : aux_name p k m = aux_name p k' m' -> k = k' /\ m = m'.
Proof.
  unfold aux_name. intros H. apply app_inv_head in H. apply app_inv_head in H. cbn [app tx list_ascii_of_string] in H.
  assert (N : forall j, ~ In "_"%char (padded j)) by (intros j I; apply padded_digits in I; discriminate).
  destruct (first_split _ _ _ _ _ (N k) (N k') H) as (E1 & E2). split; [apply padded_inj, E1|]. injection E2 as E2. apply decimal_inj, E2.
Qed.
(** the prefixes in use *)
Definition prefixes : list string := ["rd"; "rw"; "rw3ofrd"; "chem_S_VI_rw"; "chem_H_rw"]%string.
Lemma aux_pfx p p' k m k' m' : In p prefixes -> In p' prefixes -> aux_name p k m = aux_name p' k' m' -> p = p'.
Proof.
  intros I I'. cbn in I, I'. repeat (destruct I as [<-|I]; [repeat (destruct I' as [<-|I']; [first [reflexivity | intros H; exfalso; discriminate H]|]); contradiction|]). contradiction.
Qed.
(** a name tells the quantity, the range and the moment *)
Theorem C90_names p k m p' k' m' : In p prefixes -> In p' prefixes -> aux_name p k m = aux_name p' k' m' -> p = p' /\ k = k' /\ m = m'.
Proof. intros I I' H. pose proof (aux_pfx _ _ _ _ _ _ I I' H). subst p'. split; [reflexivity|]. exact (aux_same _ _ _ _ _ H). Qed.
Lemma aux_sd_conc p k m : In p prefixes -> aux_name p k m <> tx "sd_conc".
Proof. intros I. cbn in I. repeat (destruct I as [<-|I]; [discriminate|]). contradiction. Qed.

(** * Recorded values *)
(** the statistic of a cell: sum over the super-droplets of the cell that are selected, of the number of droplets times a weight, per unit mass of dry air *)
Definition per_mass (o : dopts) (P : parts) (E : cells) (sel : nat -> bool) (w : nat -> R) (cell : nat) : R :=
  sum_selected P sel (fun i => N2R (p_n P i) * w i) cell / air_mass o E cell.
Definition in_dry (P : parts) (lo hi : R) (i : nat) : bool := within lo hi (dry_radius P i).
Definition in_wet (P : parts) (lo hi : R) (i : nat) : bool := within lo hi (wet_radius P i).
Definition good (l : list request) : Prop := Forall (fun q => let '(lo, hi, ms) := q in 0 <= lo /\ 0 <= hi /\ Forall (fun m => (0 <= m)%Z) ms) l.

Section Run.
  Variables (o : dopts) (X : xattr) (fall : parts -> cells -> nat -> R) (sijk sid : list nat).
  Variables (P : parts) (E : cells).
  Definition ready (st : dst) : Prop := diag_ok sijk sid st /\ g_P st = P /\ g_E st = E.
  Notation D := (diag o X fall sijk sid).
  Notation ex := (exec o X fall sijk sid).

  Lemma exec_app a b st : ex (a ++ b) st =
    match ex a st with Some (l, st1) => match ex b st1 with Some (m, st2) => Some (l ++ m, st2) | None => None end | None => None end.
  Proof.
    revert st. induction a as [|[c|nm] a IH]; intros st; cbn [app exec].
    - destruct (ex b st) as [(m, st2)|]; reflexivity.
    - destruct (D c st); [apply IH|reflexivity].
    - unfold outbuf. rewrite IH. destruct (ex a (hskpng_count sijk sid st)) as [(l, st1)|]; [|reflexivity]. destruct (ex b st1) as [(m, st2)|]; reflexivity.
  Qed.
  Lemma ready_count st : ready st -> ready (hskpng_count sijk sid st).
  Proof. intros H. exact H. Qed.
  Lemma holds_count st S : holds st S -> holds (hskpng_count sijk sid st) S.
  Proof. intros H. exact H. Qed.
  Lemma ready_mom st kvs : ready st -> ready (set_mom st kvs). Proof. intros H. exact H. Qed.
  Lemma holds_mom st kvs S : holds st S -> holds (set_mom st kvs) S. Proof. intros H. exact H. Qed.
  Lemma ready_sel st s : ready st -> ready (set_sel st s). Proof. intros H. exact H. Qed.

  (** a fresh selection by radius *)
  Lemma do_range a lo hi st : ready st -> a = r_dry \/ a = r_wet -> 0 <= lo -> 0 <= hi ->
    exists st', D (c_rng a false lo hi) st = Some st' /\ ready st' /\ holds st' (fun i => within lo hi (rng_value P a i)).
  Proof.
    intros H Ha L1 L2. exists (set_sel st (fun i => range_filter (rng_bound a lo) (rng_bound a hi) (base_sel false st i) (rng_vec (g_P st) a i))).
    assert (N : needs_ice a = false) by (destruct Ha as [-> | ->]; reflexivity).
    assert (G : D (c_rng a false lo hi) st = Some (set_sel st (fun i => range_filter (rng_bound a lo) (rng_bound a hi) (base_sel false st i) (rng_vec (g_P st) a i))))
      by (unfold diag; rewrite N; reflexivity).
    split; [exact G|]. split; [apply ready_sel, H|]. destruct H as (Ok & EP & EE).
    pose proof (select_step o X fall sijk sid (c_rng a false lo hi) st _ (fun _ => true) Ok ltac:(intros _; split; assumption) G (or_intror I)) as HS.
    rewrite <- EP. exact HS.
  Qed.
  Lemma do_all st : ready st -> exists st', D c_all st = Some st' /\ ready st' /\ holds st' (fun _ => true).
  Proof. intros H. eexists. split; [reflexivity|]. split; [apply ready_sel, H|]. intros i. reflexivity. Qed.

  (** a measurement *)
  Definition measured (c : call) (i : nat) : R :=
    match c with c_mom m_dry k => dry_radius P i ^ k | c_mom m_wet k => wet_radius P i ^ k | c_chem s => x_chem X s i | _ => 0 end.
  Definition measures (c : call) : Prop := match c with c_mom m_dry _ | c_mom m_wet _ => True | c_chem _ => d_chem o = true | _ => False end.
  Lemma do_measure c st S : ready st -> holds st S -> measures c ->
    exists st', D c st = Some st' /\ ready st' /\ holds st' S /\ forall cell, (cell < e_nc E)%nat -> fill_outbuf st' cell = per_mass o P E S (measured c) cell.
  Proof.
    intros (Ok & EP & EE) HS M.
    assert (K : exists x xp, D c st = Some (calc o sijk sid true st x xp) /\ forall i n, moment_counter xp n (x i) = n * measured c i).
    { assert (Hw : forall i, 0 <= p_rw2 P i) by (rewrite <- EP; apply Ok). assert (Hd : forall i, 0 <= p_rd3 P i) by (rewrite <- EP; apply Ok).
      destruct c as [| | | | | |a k| | | | | | | | | |s]; try contradiction.
      - exists (mom_vec X (g_P st) a), (mom_power a k). split; [destruct a; try contradiction; reflexivity|]. intros i n. rewrite EP, moment_value by auto. destruct a; try contradiction; reflexivity.
      - exists (x_chem X s), 1. split; [unfold diag; rewrite M; reflexivity|]. intros i n. change 1 with (INR 1). pose proof (moment_value {| x_up := x_chem X s; x_vp := x_vp X; x_wp := x_wp X; x_ict := x_ict X; x_chem := x_chem X |} P m_up 1 i n (Hw i) (Hd i)) as MV'.
        exact (eq_trans MV' (f_equal (Rmult n) (pow_1 _))). }
    destruct K as (x & xp & EQ & MC). exists (calc o sijk sid true st x xp). split; [exact EQ|]. split; [split; [exact Ok|split; [exact EP|exact EE]]|]. split; [exact HS|].
    intros cell Hc. rewrite calc_out by exact Ok. destruct Ok as (_ & _ & _ & _ & Hair). rewrite EE in *. destruct (Hair cell Hc) as (A1 & A2). rewrite per_air_mass by assumption.
    unfold per_mass. f_equal. rewrite (weights st S (fun i n => moment_counter xp n (x i)) cell HS) by (intros i; rewrite MC; ring).
    rewrite EP. unfold sum_selected. apply cellsum_ext. intros i _ _. rewrite MC. reflexivity.
  Qed.
  (** measurements of one selection, recorded *)
  Definition record_all (l : list (call * text)) : list action := flat_map (fun cn => [Call (fst cn); Record (snd cn)]) l.
  Definition recorded (S : nat -> bool) (cn : call * text) (r : text * (nat -> R)) : Prop :=
    fst r = snd cn /\ forall cell, (cell < e_nc E)%nat -> snd r cell = per_mass o P E S (measured (fst cn)) cell.
  Lemma do_records l st S : ready st -> holds st S -> Forall (fun cn => measures (fst cn)) l ->
    exists recs st', ex (record_all l) st = Some (recs, st') /\ ready st' /\ Forall2 (recorded S) l recs.
  Proof.
    intros H HS F. revert st H HS. induction F as [|(c, nm) l M F IH]; intros st H HS.
    - exists [], st. split; [reflexivity|]. split; [exact H|constructor].
    - cbn [fst] in M. destruct (do_measure c st S H HS M) as (st1 & D1 & R1 & H1 & V1).
      destruct (IH (hskpng_count sijk sid st1) (ready_count _ R1) (holds_count _ _ H1)) as (recs & st2 & E2 & R2 & F2).
      exists ((nm, fill_outbuf st1) :: recs), st2. split; [|split; [exact R2|constructor; [split; [reflexivity|exact V1]|exact F2]]].
      cbn [record_all flat_map app fst snd exec]. rewrite D1. unfold outbuf. fold (record_all l). rewrite E2. reflexivity.
  Qed.
  (** a loop over ranges *)
  Definition loop (a : rng_attr) (f : nat -> list Z -> list (call * text)) (k : nat) (l : list request) : list action :=
    ranges (fun k q => let '(lo, hi, ms) := q in Call (c_rng a false lo hi) :: record_all (f k ms)) k l.
  Lemma do_loop a f l k st : ready st -> a = r_dry \/ a = r_wet -> good l ->
    (forall k ms, Forall (fun m => (0 <= m)%Z) ms -> Forall (fun cn => measures (fst cn)) (f k ms)) ->
    exists recs st', ex (loop a f k l) st = Some (concat recs, st') /\ ready st' /\ length recs = length l /\
      forall j lo hi ms, nth_error l j = Some (lo, hi, ms) -> exists rs, nth_error recs j = Some rs /\ Forall2 (recorded (fun i => within lo hi (rng_value P a i))) (f (k + j)%nat ms) rs.
  Proof.
    intros H Ha G Hf. revert k st H. induction G as [|((lo, hi), ms) l (G1 & G2 & G3) G IH]; intros k st H.
    - exists [], st. split; [reflexivity|]. split; [exact H|]. split; [reflexivity|]. intros [|j]; discriminate.
    - destruct (do_range a lo hi st H Ha G1 G2) as (st1 & D1 & R1 & H1). destruct (do_records (f k ms) st1 _ R1 H1 (Hf k ms G3)) as (rs & st2 & E2 & R2 & F2).
      destruct (IH (S k) st2 R2) as (recs & st3 & E3 & R3 & L3 & F3). exists (rs :: recs), st3. split; [|split; [exact R3|split; [cbn; lia|]]].
      + unfold loop. cbn [ranges]. rewrite exec_app. cbn [exec]. rewrite D1, E2. unfold loop in E3. rewrite E3. reflexivity.
      + intros [|j] lo' hi' ms' N; cbn [nth_error] in *.
        * injection N as <- <- <-. exists rs. rewrite Nat.add_0_r. auto.
        * destruct (F3 j lo' hi' ms' N) as (rs' & N' & F'). exists rs'. replace (k + S j)%nat with (S k + j)%nat by lia. auto.
  Qed.
End Run.

(** A loop over the ranges of a request records exactly what it asks for. *)
Definition names_nodup (l : list request) : Prop := Forall (fun q => NoDup (snd q)) l.
Lemma Forall2_in {A B} (Q : A -> B -> Prop) l m x : Forall2 Q l m -> In x l -> exists y, In y m /\ Q x y.
Proof. induction 1 as [|a b l m Hq F IH]; intros I; [contradiction|]. destruct I as [->|I]; [exists b; cbn; auto|]. destruct (IH I) as (y & I1 & I2). exists y. cbn. auto. Qed.
Lemma Forall2_in' {A B} (Q : A -> B -> Prop) l m y : Forall2 Q l m -> In y m -> exists x, In x l /\ Q x y.
Proof. induction 1 as [|a b l m Hq F IH]; intros I; [contradiction|]. destruct I as [->|I]; [exists a; cbn; auto|]. destruct (IH I) as (x & I1 & I2). exists x. cbn. auto. Qed.
Lemma Forall2_names o X P E S l rs : Forall2 (recorded o X P E S) l rs -> map fst rs = map snd l.
Proof. induction 1 as [|cn r l rs (Hn & _) F IH]; [reflexivity|]. cbn. congruence. Qed.

Lemma nodup_app {A} (l m : list A) : NoDup l -> NoDup m -> (forall x, In x l -> In x m -> False) -> NoDup (l ++ m).
Proof.
  induction 1 as [|x l Hx H IH]; intros Hm D; [exact Hm|]. cbn [app]. constructor.
  - intros I. apply in_app_or in I. destruct I as [I|I]; [contradiction|]. apply (D x); [left; reflexivity|exact I].
  - apply IH; [exact Hm|]. intros y I1 I2. apply (D y); [right; exact I1|exact I2].
Qed.
Lemma concat_nodup (f : nat -> list Z -> list (call * text)) :
  (forall j j' ms ms' nm, In nm (map snd (f j ms)) -> In nm (map snd (f j' ms')) -> j = j') ->
  forall (rl : list (list (text * (nat -> R)))) i (ll : list request), length rl = length ll ->
  (forall j lo hi ms, nth_error ll j = Some (lo, hi, ms) -> exists rs, nth_error rl j = Some rs /\ map fst rs = map snd (f (i + j)%nat ms) /\ NoDup (map snd (f (i + j)%nat ms))) ->
  NoDup (map fst (concat rl)) /\ forall nm, In nm (map fst (concat rl)) -> exists j ms, (i <= j)%nat /\ In nm (map snd (f j ms)).
Proof.
  intros DJ. induction rl as [|rs rl IH]; intros i ll L H. { split; [constructor|contradiction]. }
  destruct ll as [|((lo, hi), ms) ll]; [discriminate|]. cbn [concat]. rewrite map_app.
  destruct (H O lo hi ms eq_refl) as (rs' & N' & M' & ND'). injection N' as <-. rewrite Nat.add_0_r in *.
  destruct (IH (S i) ll ltac:(cbn in L; lia)) as (I1 & I2).
  { intros j lo' hi' ms' N. destruct (H (S j) lo' hi' ms' N) as (rs' & N' & X'). exists rs'. split; [exact N'|]. replace (S i + j)%nat with (i + S j)%nat by lia. exact X'. }
  split.
  - apply nodup_app; [rewrite M'; exact ND'|exact I1|]. intros nm J J'. destruct (I2 nm J') as (j & ms' & Lj & J2). rewrite M' in J. pose proof (DJ _ _ _ _ _ J J2). lia.
  - intros nm J. apply in_app_or in J. destruct J as [J|J]. { exists i, ms. split; [lia|]. rewrite <- M'. exact J. }
    destruct (I2 nm J) as (j & ms' & Lj & J2). exists j, ms'. split; [lia|exact J2].
Qed.
Lemma back_names o X P E a (f : nat -> list Z -> list (call * text)) (l : list request) (recs : list (list (text * (nat -> R)))) : length recs = length l ->
  (forall j lo hi ms, nth_error l j = Some (lo, hi, ms) -> exists rs, nth_error recs j = Some rs /\ Forall2 (recorded o X P E (fun i => within lo hi (rng_value P a i))) (f (0 + j)%nat ms) rs) ->
  (forall nm v, In (nm, v) (concat recs) -> exists j lo hi ms, nth_error l j = Some (lo, hi, ms) /\ In nm (map snd (f j ms))) /\
  ((forall j lo hi ms, nth_error l j = Some (lo, hi, ms) -> NoDup (map snd (f j ms))) ->
   (forall j j' ms ms' nm, In nm (map snd (f j ms)) -> In nm (map snd (f j' ms')) -> j = j') -> NoDup (map fst (concat recs))).
Proof.
  intros L F. split.
  - intros nm v I. apply in_concat in I. destruct I as (rs & Ir & Iv). apply In_nth_error in Ir. destruct Ir as (j & Nr).
    destruct (nth_error l j) as [((lo, hi), ms)|] eqn:N; [|apply nth_error_None in N; assert (j < length recs)%nat by (apply nth_error_Some; congruence); lia].
    destruct (F j lo hi ms N) as (rs' & Nr' & F'). assert (rs' = rs) by congruence. subst rs'. exists j, lo, hi, ms. split; [exact N|].
    change (0 + j)%nat with j in F'. rewrite <- (Forall2_names _ _ _ _ _ _ _ F'). apply in_map_iff. exists (nm, v). auto.
  - intros ND DJ. apply (concat_nodup f DJ recs O l L). intros j lo hi ms N. destruct (F j lo hi ms N) as (rs & Nr & F'). exists rs. split; [exact Nr|].
    split; [apply (Forall2_names _ _ _ _ _ _ _ F')|apply (ND j lo hi ms N)].
Qed.

(** The statistics of the Lagrangian model: whatever was measured before, the calls are not refused and change neither droplets nor cells; for every range and moment asked for,
    the statistic is recorded under a name made of the quantity, the number of the range and that of the moment; nothing else is recorded. *)
Theorem C90_recorded o X fall sijk sid st dry wet :
  diag_ok sijk sid st -> good dry -> good wet ->
  let P := g_P st in let E := g_E st in
  exists recs st', exec o X fall sijk sid (diag_acts dry wet) st = Some (recs, st') /\ g_P st' = P /\ g_E st' = E /\
  (* the number of super-droplets that represent any droplets *)
  (exists v, In (tx "sd_conc", v) recs /\ forall cell, (cell < e_nc E)%nat -> v cell = sum_selected P (fun _ => true) (fun i => if (p_n P i =? 0)%N then 0 else 1) cell) /\
  (* moments of the dry radius over ranges of the dry radius *)
  (forall k lo hi ms m, nth_error dry k = Some (lo, hi, ms) -> In m ms -> exists v, In (aux_name "rd" k m, v) recs /\
     forall cell, (cell < e_nc E)%nat -> v cell = per_mass o P E (in_dry P lo hi) (fun i => dry_radius P i ^ Z.to_nat m) cell) /\
  (* moments of the wet radius over ranges of the wet radius *)
  (forall k lo hi ms m, nth_error wet k = Some (lo, hi, ms) -> In m ms -> exists v, In (aux_name "rw" k m, v) recs /\
     forall cell, (cell < e_nc E)%nat -> v cell = per_mass o P E (in_wet P lo hi) (fun i => wet_radius P i ^ Z.to_nat m) cell) /\
  (* the third moment of the wet radius over ranges of the dry radius *)
  (forall k lo hi ms, nth_error dry k = Some (lo, hi, ms) -> exists v, In (aux_name "rw3ofrd" k 3, v) recs /\
     forall cell, (cell < e_nc E)%nat -> v cell = per_mass o P E (in_dry P lo hi) (fun i => wet_radius P i ^ 3) cell) /\
  (* nothing else *)
  (forall nm v, In (nm, v) recs -> nm = tx "sd_conc" \/ exists k lo hi ms m,
     nth_error dry k = Some (lo, hi, ms) /\ (nm = aux_name "rw3ofrd" k 3 \/ In m ms /\ nm = aux_name "rd" k m) \/
     nth_error wet k = Some (lo, hi, ms) /\ In m ms /\ nm = aux_name "rw" k m) /\
  (* no two under the same name, unless a moment is asked for twice *)
  (names_nodup dry -> names_nodup wet -> NoDup (map fst recs)).
Proof.
  intros Ok Gd Gw P E.
  set (fd := fun k (ms : list Z) => map (fun m => (c_mom m_dry (mom_no m), aux_name "rd" k m)) ms).
  set (fw := fun k (ms : list Z) => map (fun m => (c_mom m_wet (mom_no m), aux_name "rw" k m)) ms).
  set (f3 := fun k (ms : list Z) => [(c_mom m_wet 3, aux_name "rw3ofrd" k 3)]).
  assert (A : diag_acts dry wet = [Call c_all; Call c_sd_conc; Record (tx "sd_conc")] ++ loop r_dry fd 0 dry ++ loop r_wet fw 0 wet ++ loop r_dry f3 0 dry).
  { assert (Rec : forall {B} (g : B -> call) (h : B -> text) l, record_all (map (fun x => (g x, h x)) l) = flat_map (fun x => [Call (g x); Record (h x)]) l)
      by (intros B g h l; unfold record_all; induction l as [|x l IH]; [reflexivity|]; cbn [map flat_map fst snd]; rewrite IH; reflexivity).
    assert (Rng : forall f g l, (forall k q, f k q = g k q) -> forall k, ranges f k l = ranges g k l)
      by (intros f g l H; induction l as [|q l IH]; intros k; [reflexivity|]; cbn [ranges]; rewrite H, IH; reflexivity).
    unfold diag_acts, loop. f_equal. f_equal; [|f_equal]; apply Rng; intros k ((lo, hi), ms); unfold fd, fw; rewrite ?Rec; reflexivity. }
  rewrite A. clear A. set (r0 := ready sijk sid P E).
  assert (R0 : r0 st) by (split; [exact Ok|split; reflexivity]).
  destruct (do_all o X fall sijk sid P E st R0) as (st1 & D1 & R1 & H1).
  assert (D2 : exists st2, diag o X fall sijk sid c_sd_conc st1 = Some st2 /\ r0 st2) by (eexists; split; [reflexivity|exact R1]).
  destruct D2 as (st2 & D2 & R2).
  destruct (do_loop o X fall sijk sid P E r_dry fd dry 0 (hskpng_count sijk sid st2) R2 (or_introl eq_refl) Gd) as (rd & st3 & E3 & R3 & L3 & F3).
  { intros k ms _. unfold fd. apply Forall_forall. intros cn I. apply in_map_iff in I. destruct I as (m & <- & _). exact Logic.I. }
  destruct (do_loop o X fall sijk sid P E r_wet fw wet 0 st3 R3 (or_intror eq_refl) Gw) as (rw & st4 & E4 & R4 & L4 & F4).
  { intros k ms _. unfold fw. apply Forall_forall. intros cn I. apply in_map_iff in I. destruct I as (m & <- & _). exact Logic.I. }
  destruct (do_loop o X fall sijk sid P E r_dry f3 dry 0 st4 R4 (or_introl eq_refl) Gd) as (r3 & st5 & E5 & R5 & L5 & F5).
  { intros k ms _. constructor; [exact Logic.I|constructor]. }
  exists ((tx "sd_conc", fill_outbuf st2) :: concat rd ++ concat rw ++ concat r3), st5.
  split. { rewrite exec_app. cbn [exec]. rewrite D1, D2. unfold outbuf. rewrite exec_app, E3, exec_app, E4, E5. reflexivity. }
  split; [apply R5|]. split; [apply R5|].
  assert (Wd : forall lo hi, (fun i => within lo hi (rng_value P r_dry i)) = in_dry P lo hi) by reflexivity.
  assert (Ww : forall lo hi, (fun i => within lo hi (rng_value P r_wet i)) = in_wet P lo hi) by reflexivity.
  split.
  { exists (fill_outbuf st2). split; [left; reflexivity|]. intros cell _.
    pose proof (sd_conc_out o X fall sijk sid c_all [] st st1 st2 (fun _ => true) Ok) as SC. cbn [diags selected select] in SC. rewrite D1 in SC.
    specialize (SC ltac:(constructor; [exact Logic.I|constructor]) Logic.I eq_refl cell D2). destruct R1 as (_ & EP & _). rewrite EP in SC. exact SC. }
  split.
  { intros k lo hi ms m N I. destruct (F3 k lo hi ms N) as (rs & Nr & F). destruct (Forall2_in _ _ _ (c_mom m_dry (mom_no m), aux_name "rd" k m) F) as ((nm, v) & Iv & (En & Ev)).
    { apply in_map_iff. exists m. auto. }
    cbn [fst snd measured] in En, Ev. subst nm. exists v. split; [|exact Ev]. right. apply in_or_app. left. apply in_concat. exists rs. split; [apply nth_error_In in Nr; exact Nr|exact Iv]. }
  split.
  { intros k lo hi ms m N I. destruct (F4 k lo hi ms N) as (rs & Nr & F). destruct (Forall2_in _ _ _ (c_mom m_wet (mom_no m), aux_name "rw" k m) F) as ((nm, v) & Iv & (En & Ev)).
    { apply in_map_iff. exists m. auto. }
    cbn [fst snd measured] in En, Ev. subst nm. exists v. split; [|exact Ev]. right. apply in_or_app. right. apply in_or_app. left. apply in_concat. exists rs. split; [apply nth_error_In in Nr; exact Nr|exact Iv]. }
  split.
  { intros k lo hi ms N. destruct (F5 k lo hi ms N) as (rs & Nr & F). destruct (Forall2_in _ _ _ (c_mom m_wet 3, aux_name "rw3ofrd" k 3) F) as ((nm, v) & Iv & (En & Ev)).
    { left. reflexivity. }
    cbn [fst snd measured] in En, Ev. subst nm. exists v. split; [|exact Ev]. right. apply in_or_app. right. apply in_or_app. right. apply in_concat. exists rs. split; [apply nth_error_In in Nr; exact Nr|exact Iv]. }
  destruct (back_names o X P E r_dry fd dry rd L3 F3) as (Bd & Nd). destruct (back_names o X P E r_wet fw wet rw L4 F4) as (Bw & Nw). destruct (back_names o X P E r_dry f3 dry r3 L5 F5) as (B3 & N3).
  assert (Id : forall nm k ms, In nm (map snd (fd k ms)) <-> exists m, In m ms /\ nm = aux_name "rd" k m).
  { intros nm k ms. unfold fd. rewrite map_map. cbn [snd]. rewrite in_map_iff. split; intros (m & H2 & H3); exists m; auto. }
  assert (Iw : forall nm k ms, In nm (map snd (fw k ms)) <-> exists m, In m ms /\ nm = aux_name "rw" k m).
  { intros nm k ms. unfold fw. rewrite map_map. cbn [snd]. rewrite in_map_iff. split; intros (m & H2 & H3); exists m; auto. }
  assert (I3 : forall nm k ms, In nm (map snd (f3 k ms)) <-> nm = aux_name "rw3ofrd" k 3).
  { intros nm k ms. unfold f3. cbn. split; [intros [H2|[]]; auto|auto]. }
  assert (Pd : In "rd"%string prefixes) by (cbn; auto). assert (Pw : In "rw"%string prefixes) by (cbn; auto). assert (P3 : In "rw3ofrd"%string prefixes) by (cbn; auto).
  split.
  { intros nm v [I|I]; [left; congruence|right]. apply in_app_or in I. destruct I as [I|I]; [|apply in_app_or in I; destruct I as [I|I]].
    - destruct (Bd nm v I) as (k & lo & hi & ms & N & J). apply Id in J. destruct J as (m & J1 & J2). exists k, lo, hi, ms, m. left. split; [exact N|]. right. auto.
    - destruct (Bw nm v I) as (k & lo & hi & ms & N & J). apply Iw in J. destruct J as (m & J1 & J2). exists k, lo, hi, ms, m. right. auto.
    - destruct (B3 nm v I) as (k & lo & hi & ms & N & J). apply I3 in J. exists k, lo, hi, ms, 3%Z. left. split; [exact N|]. left. exact J. }
  intros Nod Now. cbn [map fst]. rewrite !map_app.
  assert (Nm : forall p, (forall k m k' m', aux_name p k m = aux_name p k' m' -> k = k' /\ m = m')) by (intros p k m k' m' H; exact (aux_same p k m k' m' H)).
  assert (Each : forall p (l : list request) j lo hi ms, names_nodup l -> nth_error l j = Some (lo, hi, ms) -> NoDup (map (fun m => aux_name p j m) ms)).
  { intros p l j lo hi ms H N. apply nth_error_In in N. pose proof (proj1 (Forall_forall _ _) H _ N) as H0. cbn [snd] in H0. apply FinFun.Injective_map_NoDup; [|exact H0].
    intros m m' Q. apply (Nm p _ _ _ _ Q). }
  assert (Sd : NoDup (map fst (concat rd))).
  { apply Nd. - intros j lo hi ms N. unfold fd. rewrite map_map. cbn [snd]. exact (Each "rd"%string dry j lo hi ms Nod N).
    - intros j j' ms ms' nm J J'. apply Id in J. apply Id in J'. destruct J as (m & _ & ->), J' as (m' & _ & Q). apply (Nm _ _ _ _ _ Q). }
  assert (Sw : NoDup (map fst (concat rw))).
  { apply Nw. - intros j lo hi ms N. unfold fw. rewrite map_map. cbn [snd]. exact (Each "rw"%string wet j lo hi ms Now N).
    - intros j j' ms ms' nm J J'. apply Iw in J. apply Iw in J'. destruct J as (m & _ & ->), J' as (m' & _ & Q). apply (Nm _ _ _ _ _ Q). }
  assert (S3 : NoDup (map fst (concat r3))).
  { apply N3. - intros j lo hi ms N. cbn. constructor; [intros []|constructor].
    - intros j j' ms ms' nm J J'. apply I3 in J. apply I3 in J'. rewrite J in J'. apply (Nm _ _ _ _ _ J'). }
  assert (Gd' : forall nm, In nm (map fst (concat rd)) -> exists k m, nm = aux_name "rd" k m).
  { intros nm J. apply in_map_iff in J. destruct J as ((nm', v) & <- & J). destruct (Bd nm' v J) as (k & _ & _ & ms & _ & K). apply Id in K. destruct K as (m & _ & K). exists k, m. exact K. }
  assert (Gw' : forall nm, In nm (map fst (concat rw)) -> exists k m, nm = aux_name "rw" k m).
  { intros nm J. apply in_map_iff in J. destruct J as ((nm', v) & <- & J). destruct (Bw nm' v J) as (k & _ & _ & ms & _ & K). apply Iw in K. destruct K as (m & _ & K). exists k, m. exact K. }
  assert (G3' : forall nm, In nm (map fst (concat r3)) -> exists k, nm = aux_name "rw3ofrd" k 3).
  { intros nm J. apply in_map_iff in J. destruct J as ((nm', v) & <- & J). destruct (B3 nm' v J) as (k & _ & _ & ms & _ & K). apply I3 in K. exists k. exact K. }
  constructor.
  - intros J. apply in_app_or in J. destruct J as [J|J]; [|apply in_app_or in J; destruct J as [J|J]].
    + destruct (Gd' _ J) as (k & m & Q). exact (aux_sd_conc _ _ _ Pd (eq_sym Q)).
    + destruct (Gw' _ J) as (k & m & Q). exact (aux_sd_conc _ _ _ Pw (eq_sym Q)).
    + destruct (G3' _ J) as (k & Q). exact (aux_sd_conc _ _ _ P3 (eq_sym Q)).
  - apply nodup_app; [exact Sd|apply nodup_app; [exact Sw|exact S3|]|].
    + intros nm J J'. destruct (Gw' _ J) as (k & m & ->), (G3' _ J') as (k' & Q). pose proof (aux_pfx _ _ _ _ _ _ Pw P3 Q). discriminate.
    + intros nm J J'. destruct (Gd' _ J) as (k & m & ->). apply in_app_or in J'. destruct J' as [J'|J'].
      * destruct (Gw' _ J') as (k' & m' & Q). pose proof (aux_pfx _ _ _ _ _ _ Pd Pw Q). discriminate.
      * destruct (G3' _ J') as (k' & Q). pose proof (aux_pfx _ _ _ _ _ _ Pd P3 Q). discriminate.
Qed.

(** * Chemistry *)
(** The driver with aqueous chemistry: total masses of dissolved compounds over ranges of the dry radius, and masses of S(VI) and H+ over ranges of the wet radius. The numbers of
    compounds are those of the programming interface (0: HNO3, 1: NH3, 2: CO2, 3: SO2, 4: H2O2, 5: O3, 6: S(VI), 7: H+). *)
Lemma loop_ranges a (f : nat -> list Z -> list (call * text)) (g : nat -> request -> list action) l :
  (forall k lo hi ms, g k (lo, hi, ms) = Call (c_rng a false lo hi) :: record_all (f k ms)) -> forall k, ranges g k l = loop a f k l.
Proof. intros H. unfold loop. induction l as [|((lo, hi), ms) l IH]; intros k; [reflexivity|]. cbn [ranges]. rewrite H, IH. reflexivity. Qed.
Theorem C90_chem_partial o X fall sijk sid st dry wet :
  d_chem o = true -> diag_ok sijk sid st -> good dry -> good wet ->
  let P := g_P st in let E := g_E st in
  exists recs st', exec o X fall sijk sid (diag_chem_acts dry ++ diag_pH_acts wet) st = Some (recs, st') /\ g_P st' = P /\ g_E st' = E /\
  (forall k lo hi ms s nm, nth_error dry k = Some (lo, hi, ms) ->
     In (s, nm) [(3, "chem_S_IV_aq"); (6, "chem_S_VI_aq"); (5, "chem_O3_aq"); (4, "chem_H2O2_aq"); (7, "chem_H_aq"); (2, "chem_C_IV_aq"); (1, "chem_N_III_aq"); (0, "chem_N_V_aq")]%nat%string ->
     exists v, In (tx nm, v) recs /\ forall cell, (cell < e_nc E)%nat -> v cell = per_mass o P E (in_dry P lo hi) (x_chem X s) cell) /\
  (forall k lo hi ms m, nth_error wet k = Some (lo, hi, ms) -> In m ms -> exists v v',
     In (aux_name "chem_S_VI_rw" k m, v) recs /\ In (aux_name "chem_H_rw" k m, v') recs /\ forall cell, (cell < e_nc E)%nat ->
     v cell = per_mass o P E (in_wet P lo hi) (x_chem X 6%nat) cell /\ v' cell = per_mass o P E (in_wet P lo hi) (x_chem X 7%nat) cell) /\
  (* but with more than one range of the dry radius, those of all ranges have the same names *)
  (forall k k' lo hi ms, nth_error dry k = Some (lo, hi, ms) -> nth_error dry k' <> None -> k <> k' -> ~ NoDup (map fst recs)).
Proof.
  intros Hch Ok Gd Gw P E.
  set (fd := fun (_ : nat) (_ : list Z) => map (fun sn => (c_chem (fst sn), tx (snd sn))) compounds).
  set (fw := fun k (ms : list Z) => flat_map (fun m => [(c_chem s_S_VI, aux_name "chem_S_VI_rw" k m); (c_chem s_H, aux_name "chem_H_rw" k m)]) ms).
  assert (A1 : diag_chem_acts dry = loop r_dry fd 0 dry). { apply loop_ranges. reflexivity. }
  assert (A2 : diag_pH_acts wet = loop r_wet fw 0 wet).
  { apply loop_ranges. intros k lo hi ms. f_equal. unfold fw, record_all. induction ms as [|m ms IH]; [reflexivity|]. cbn [flat_map app fst snd]. rewrite IH. reflexivity. }
  rewrite A1, A2. clear A1 A2. assert (R0 : ready sijk sid P E st) by (split; [exact Ok|split; reflexivity]).
  destruct (do_loop o X fall sijk sid P E r_dry fd dry 0 st R0 (or_introl eq_refl) Gd) as (rd & st3 & E3 & R3 & L3 & F3).
  { intros k ms _. unfold fd. apply Forall_forall. intros cn I. apply in_map_iff in I. destruct I as (m & <- & _). exact Hch. }
  destruct (do_loop o X fall sijk sid P E r_wet fw wet 0 st3 R3 (or_intror eq_refl) Gw) as (rw & st4 & E4 & R4 & L4 & F4).
  { intros k ms _. unfold fw. apply Forall_forall. intros cn I. apply in_flat_map in I. destruct I as (m & _ & I). cbn in I. destruct I as [<-|[<-|[]]]; exact Hch. }
  exists (concat rd ++ concat rw), st4. split. { rewrite exec_app, E3, E4. reflexivity. }
  split; [apply R4|]. split; [apply R4|]. split; [|split].
  - intros k lo hi ms s nm N I. destruct (F3 k lo hi ms N) as (rs & Nr & F). destruct (Forall2_in _ _ _ (c_chem s, tx nm) F) as ((nm', v) & Iv & (En & Ev)).
    { unfold fd. apply in_map_iff. exists (s, nm). split; [reflexivity|exact I]. }
    cbn [fst snd measured] in En, Ev. subst nm'. exists v. split; [|exact Ev]. apply in_or_app. left. apply in_concat. exists rs. split; [apply nth_error_In in Nr; exact Nr|exact Iv].
  - intros k lo hi ms m N I. destruct (F4 k lo hi ms N) as (rs & Nr & F).
    destruct (Forall2_in _ _ _ (c_chem s_S_VI, aux_name "chem_S_VI_rw" k m) F) as ((nm, v) & Iv & (En & Ev)). { unfold fw. apply in_flat_map. exists m. split; [exact I|left; reflexivity]. }
    destruct (Forall2_in _ _ _ (c_chem s_H, aux_name "chem_H_rw" k m) F) as ((nm', v') & Iv' & (En' & Ev')). { unfold fw. apply in_flat_map. exists m. split; [exact I|right; left; reflexivity]. }
    cbn [fst snd measured] in En, Ev, En', Ev'. subst nm nm'. exists v, v'. split; [|split].
    + apply in_or_app. right. apply in_concat. exists rs. split; [apply nth_error_In in Nr; exact Nr|exact Iv].
    + apply in_or_app. right. apply in_concat. exists rs. split; [apply nth_error_In in Nr; exact Nr|exact Iv'].
    + intros cell Hc. split; [apply Ev|apply Ev']; exact Hc.
  - intros k k' lo hi ms N N' D. destruct (nth_error dry k') as [((lo', hi'), ms')|] eqn:N2; [|congruence]. clear N'.
    destruct (F3 k lo hi ms N) as (rs & Nr & F). destruct (F3 k' lo' hi' ms' N2) as (rs' & Nr' & F'). apply Forall2_names in F. apply Forall2_names in F'.
    assert (G : forall (l : list (list (text * (nat -> R)))) i j a b, (i < j)%nat -> nth_error l i = Some a -> nth_error l j = Some b ->
      In (tx "chem_H_aq") (map fst a) -> In (tx "chem_H_aq") (map fst b) -> forall t, ~ NoDup (map fst (concat l ++ t))).
    { clear. intros l. induction l as [|x l IH]; intros i j a b L Na Nb Ia Ib t ND; [destruct i; discriminate|]. destruct j as [|j]; [lia|]. cbn [nth_error] in Nb.
      cbn [concat] in ND. rewrite <- List.app_assoc, map_app in ND. destruct i as [|i].
      - injection Na as ->. assert (I2 : In (tx "chem_H_aq") (map fst (concat l ++ t))).
        { rewrite map_app. apply in_or_app. left. apply in_map_iff in Ib. destruct Ib as (p & Ep & Ip). apply in_map_iff. exists p. split; [exact Ep|].
          apply in_concat. exists b. split; [apply nth_error_In in Nb; exact Nb|exact Ip]. }
        clear - Ia I2 ND. induction (map fst a) as [|y l' IH']; [contradiction|]. cbn [app] in ND. inversion ND as [|? ? Ny ND']; subst. destruct Ia as [->|Ia].
        + apply Ny. apply in_or_app. right. exact I2. + exact (IH' Ia ND').
      - apply (IH i j a b ltac:(lia) Na Nb Ia Ib t). clear - ND. induction (map fst x) as [|y l' IH']; [exact ND|]. inversion ND. auto. }
    assert (Ia : In (tx "chem_H_aq") (map fst rs)) by (rewrite F; unfold fd; cbn; tauto). assert (Ib : In (tx "chem_H_aq") (map fst rs')) by (rewrite F'; unfold fd; cbn; tauto).
    destruct (Nat.lt_total k k') as [L|[L|L]]; [apply (G rd k k' rs rs' L Nr Nr' Ia Ib)|congruence|apply (G rd k' k rs' rs L Nr' Nr Ib Ia)].
Qed.

(** the default requests of the model, written on the command line, and what is recorded *)
Definition default_wet : string := " .5e-6:25e-6|0,1,2,3; 25e-6:1|0,3,6".
Theorem C90_instance real_of : real_of (tx ".5e-6") = Some (5 / 10 ^ 7) -> real_of (tx "25e-6") = Some (25 / 10 ^ 6) -> real_of (tx "1") = Some 1 ->
  parse_moms real_of (tx default_wet) = Some [(5 / 10 ^ 7, 25 / 10 ^ 6, [0; 1; 2; 3]%Z); (25 / 10 ^ 6, 1, [0; 3; 6]%Z)] /\
  good [(5 / 10 ^ 7, 25 / 10 ^ 6, [0; 1; 2; 3]%Z); (25 / 10 ^ 6, 1, [0; 3; 6]%Z)] /\
  aux_name "rw" 1 6 = tx "rw_rng001_mom6" /\ aux_name "rd" 12 (-1) = tx "rd_rng012_mom-1" /\
  diag_ok [1%nat] [O] field_state.
Proof.
  intros H1 H2 H3. split; [|split; [|split; [|split]]].
  - unfold parse_moms. change (phrase (tx default_wet)) with (Some [(tx ".5e-6", tx "25e-6|0,1,2,3"); (tx "25e-6", tx "1|0,3,6")]). cbn [all]. unfold one. cbn [fst snd].
    change (at_bar (tx "25e-6|0,1,2,3")) with (tx "25e-6", tx "0,1,2,3"). change (at_bar (tx "1|0,3,6")) with (tx "1", tx "0,3,6"). rewrite H1, H2, H3. reflexivity.
  - repeat constructor; try lra; try lia.
  - reflexivity.
  - reflexivity.
  - unfold diag_ok, field_state, one_drop, two_cells; cbn [g_P g_E p_np p_ijk p_rw2 p_rd3 e_nc e_rhod e_dv].
    split; [apply (sorted_pop_id 1 (fun _ => 1%nat)); repeat constructor|]. repeat split; intros; try lra; lia.
Qed.

Print Assumptions C90_names.
Print Assumptions C90_recorded.
Print Assumptions C90_chem_partial.
Print Assumptions C90_instance.
