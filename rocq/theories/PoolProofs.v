(** * Temporary vectors: proofs *)
From Coq Require Import List Bool Arith Lia NArith.
Import ListNotations.
From Verif Require Import PoolModel.
Open Scope nat_scope.

(** ** lists of flags *)
Fixpoint ctrue (l : list bool) : nat := match l with [] => 0 | b :: r => (if b then 1 else 0) + ctrue r end.

Lemma acquire_some l i : acquire l = Some i -> nth_error l i = Some false.
Proof.
  revert i; induction l as [|[] l IH]; cbn; intros i H; try discriminate.
  - destruct (acquire l); cbn in H; [|discriminate]. injection H as <-. cbn. now apply IH.
  - now injection H as <-.
Qed.

Lemma acquire_none l : acquire l = None <-> ctrue l = length l.
Proof.
  induction l as [|[] l IH]; cbn; [tauto| |].
  - destruct (acquire l); cbn; split; intros H; try discriminate; try lia.
    + destruct IH as (_ & IH). assert (Some n = None) by (apply IH; lia). discriminate.
    + destruct IH as (IH & _). rewrite IH; reflexivity.
    + reflexivity.
  - assert (ctrue l <= length l) by (clear; induction l as [|[] l IH]; cbn; lia).
    split; intros H'; [discriminate|lia].
Qed.

Lemma ctrue_le l : ctrue l <= length l.
Proof. induction l as [|[] l IH]; cbn; lia. Qed.

Lemma set_nth_length i b l : length (set_nth i b l) = length l.
Proof. revert i; induction l as [|x l IH]; intros [|i]; cbn; auto. Qed.

Lemma set_nth_same i b l x : nth_error l i = Some x -> nth_error (set_nth i b l) i = Some b.
Proof. revert i; induction l as [|y l IH]; intros [|i] H; cbn in *; try discriminate; auto. Qed.

Lemma set_nth_other i j b l : i <> j -> nth_error (set_nth i b l) j = nth_error l j.
Proof. revert i j; induction l as [|y l IH]; intros [|i] [|j] H; cbn in *; try congruence. apply IH. congruence. Qed.

Lemma ctrue_set_true i l : nth_error l i = Some false -> ctrue (set_nth i true l) = S (ctrue l).
Proof. revert i; induction l as [|[] l IH]; intros [|i] H; cbn in *; try discriminate; auto; now rewrite (IH _ H). Qed.

Lemma ctrue_set_false i l : nth_error l i = Some true -> S (ctrue (set_nth i false l)) = ctrue l.
Proof. revert i; induction l as [|[] l IH]; intros [|i] H; cbn in *; try discriminate; auto; now rewrite <- (IH _ H). Qed.

Lemma ctrue_repeat n : ctrue (repeat false n) = 0.
Proof. induction n; cbn; auto. Qed.

Lemma slot_beq_spec s t : slot_beq s t = true <-> s = t.
Proof. split; [apply internal_slot_dec_bl|apply internal_slot_dec_lb]. Qed.
Lemma pool_beq_spec s t : pool_beq s t = true <-> s = t.
Proof. split; [apply internal_pool_dec_bl|apply internal_pool_dec_lb]. Qed.
Lemma slot_beq_refl s : slot_beq s s = true. Proof. now apply slot_beq_spec. Qed.
Lemma pool_beq_refl s : pool_beq s s = true. Proof. now apply pool_beq_spec. Qed.
Lemma slot_beq_neq s t : s <> t -> slot_beq s t = false.
Proof. intros H. destruct (slot_beq s t) eqn:E; [|reflexivity]. apply slot_beq_spec in E. tauto. Qed.
Lemma pool_beq_neq s t : s <> t -> pool_beq s t = false.
Proof. intros H. destruct (pool_beq s t) eqn:E; [|reflexivity]. apply pool_beq_spec in E. tauto. Qed.

(** ** sets of holders as bit masks *)
Definition all_slots : list slot :=
  [NF; V; DRV; DTH; DRHOD; DP; RWX; DRWX; TP; RH_Sc; RC2_diag; TMP_VT; VT0_BIN; RC2_incloud; RH_SSP; OLD_SVI; COL; R_NORMAL;
   X_OLD; Y_OLD; Z_OLD; NF_bcnd; SORTED_RD3; U01; LAMBDA_D; LAMBDA_K; RW_MOM3; DRW_MOM3; D_ICE; ICE; DRW_freeze; MASS_OLD;
   MASS_NEW; TAU; TAU_RLX; SCL; COUNT_REAL; DSTATE; CONC; CHEM_FLAG; PP_SSTP; UN; I; J; K; LFT; RGT; OFF; PTR; COUNT_K].

Definition ix (s : slot) : N :=
  match s with
  | NF => 0 | V => 1 | DRV => 2 | DTH => 3 | DRHOD => 4 | DP => 5 | RWX => 6 | DRWX => 7 | TP => 8 | RH_Sc => 9
  | RC2_diag => 10 | TMP_VT => 11 | VT0_BIN => 12 | RC2_incloud => 13 | RH_SSP => 14 | OLD_SVI => 15 | COL => 16
  | R_NORMAL => 17 | X_OLD => 18 | Y_OLD => 19 | Z_OLD => 20 | NF_bcnd => 21 | SORTED_RD3 => 22 | U01 => 23
  | LAMBDA_D => 24 | LAMBDA_K => 25 | RW_MOM3 => 26 | DRW_MOM3 => 27 | D_ICE => 28 | ICE => 29 | DRW_freeze => 30
  | MASS_OLD => 31 | MASS_NEW => 32 | TAU => 33 | TAU_RLX => 34 | SCL => 35 | COUNT_REAL => 36 | DSTATE => 37 | CONC => 38
  | CHEM_FLAG => 39 | PP_SSTP => 40 | UN => 41 | I => 42 | J => 43 | K => 44 | LFT => 45 | RGT => 46 | OFF => 47 | PTR => 48
  | COUNT_K => 49
  end%N.

Lemma ix_inj s t : ix s = ix t -> s = t.
Proof. destruct s, t; vm_compute; intros H; try reflexivity; discriminate H. Qed.

Lemma all_slots_in s : In s all_slots.
Proof. destruct s; vm_compute; tauto. Qed.

Lemma all_slots_nodup : NoDup all_slots.
Proof.
  assert (H : forall l : list slot, (fix nd l := match l with [] => true | x :: r => negb (existsb (slot_beq x) r) && nd r end) l = true -> NoDup l).
  { induction l as [|x r IH]; intros H; constructor.
    - apply andb_true_iff in H as (H & _). apply negb_true_iff in H. intros Hin.
      assert (existsb (slot_beq x) r = true) by (apply existsb_exists; exists x; split; [auto|apply slot_beq_refl]). congruence.
    - apply IH. now apply andb_true_iff in H. }
  apply H. vm_compute. reflexivity.
Qed.

Definition cnt (p : pool) (H : N) : nat :=
  length (filter (fun s => pool_beq (pool_of s) p && N.testbit H (ix s)) all_slots).

Definition setb (s : slot) (H : N) := N.setbit H (ix s).
Definition clrb (s : slot) (H : N) := N.clearbit H (ix s).

Lemma setb_spec s t H : N.testbit (setb s H) (ix t) = slot_beq t s || N.testbit H (ix t).
Proof.
  unfold setb. destruct (slot_beq t s) eqn:E.
  - apply slot_beq_spec in E as ->. now rewrite N.setbit_eq.
  - rewrite N.setbit_neq; [reflexivity|]. intros X. apply ix_inj in X. subst. rewrite slot_beq_refl in E. discriminate.
Qed.
Lemma clrb_spec s t H : N.testbit (clrb s H) (ix t) = negb (slot_beq t s) && N.testbit H (ix t).
Proof.
  unfold clrb. destruct (slot_beq t s) eqn:E.
  - apply slot_beq_spec in E as ->. now rewrite N.clearbit_eq.
  - rewrite N.clearbit_neq; [reflexivity|]. intros X. apply ix_inj in X. subst. rewrite slot_beq_refl in E. discriminate.
Qed.

Lemma filter_one (f g : slot -> bool) l s :
  NoDup l -> In s l -> (forall t, t <> s -> f t = g t) -> f s = true -> g s = false ->
  length (filter f l) = S (length (filter g l)).
Proof.
  intros Hn Hin Hfg Hf Hg. induction l as [|t l IH]; [destruct Hin|].
  inversion Hn as [|? ? Hni Hn']; subst. destruct Hin as [->|Hin].
  - cbn. rewrite Hf, Hg. cbn. f_equal. clear IH Hn Hn'. induction l as [|u l IHl]; [reflexivity|].
    cbn. rewrite Hfg by (intros ->; apply Hni; now left). destruct (g u); cbn; rewrite IHl; auto; intros H; apply Hni; now right.
  - cbn. assert (t <> s) by (intros ->; tauto). rewrite Hfg by auto. destruct (g t); cbn; rewrite IH; auto.
Qed.
Lemma filter_same (f g : slot -> bool) l : (forall t, f t = g t) -> length (filter f l) = length (filter g l).
Proof. intros H. induction l as [|t l IH]; [reflexivity|]. cbn. rewrite H. destruct (g t); cbn; auto. Qed.

Lemma cnt_setb_in s H : N.testbit H (ix s) = false -> cnt (pool_of s) (setb s H) = S (cnt (pool_of s) H).
Proof.
  intros Hs. unfold cnt. apply filter_one with s; [apply all_slots_nodup|apply all_slots_in| | |].
  - intros t Ht. rewrite setb_spec, slot_beq_neq by auto. reflexivity.
  - rewrite pool_beq_refl, setb_spec, slot_beq_refl. reflexivity.
  - rewrite Hs. apply andb_false_r.
Qed.
Lemma cnt_setb_out p s H : p <> pool_of s -> cnt p (setb s H) = cnt p H.
Proof.
  intros Hp. apply filter_same. intros t. rewrite setb_spec. destruct (slot_beq t s) eqn:E; [|reflexivity].
  apply slot_beq_spec in E as ->. rewrite pool_beq_neq by auto. reflexivity.
Qed.
Lemma cnt_clrb_in s H : N.testbit H (ix s) = true -> cnt (pool_of s) H = S (cnt (pool_of s) (clrb s H)).
Proof.
  intros Hs. unfold cnt. apply filter_one with s; [apply all_slots_nodup|apply all_slots_in| | |].
  - intros t Ht. rewrite clrb_spec, slot_beq_neq by auto. reflexivity.
  - rewrite pool_beq_refl, Hs. reflexivity.
  - rewrite clrb_spec, slot_beq_refl. apply andb_false_r.
Qed.
Lemma cnt_clrb_out p s H : p <> pool_of s -> cnt p (clrb s H) = cnt p H.
Proof.
  intros Hp. apply filter_same. intros t. rewrite clrb_spec. destruct (slot_beq t s) eqn:E; [|reflexivity].
  apply slot_beq_spec in E as ->. rewrite pool_beq_neq by auto. reflexivity.
Qed.
Lemma cnt_ext p H H' : (forall s, N.testbit H (ix s) = N.testbit H' (ix s)) -> cnt p H = cnt p H'.
Proof. intros E. apply filter_same. intros t. now rewrite E. Qed.

(** ** the invariant *)
Definition held (x : st) (s : slot) : bool := match hold x s with Some _ => true | None => false end.

Record inv (size : pool -> nat) (x : st) : Prop := {
  inv_len : forall p, length (flags x p) = size p;
  inv_flag : forall s i, hold x s = Some i -> nth_error (flags x (pool_of s)) i = Some true;
  inv_inj : forall s t i, hold x s = Some i -> hold x t = Some i -> pool_of s = pool_of t -> s = t
}.

Record rel (size : pool -> nat) (x : st) (H : N) : Prop := {
  rel_inv : inv size x;
  rel_bits : forall s, N.testbit H (ix s) = held x s;
  rel_cnt : forall p, ctrue (flags x p) = cnt p H
}.

Lemma upd_hold_same h s v : upd_hold h s v s = v.
Proof. unfold upd_hold. now rewrite slot_beq_refl. Qed.
Lemma upd_hold_other h s t v : t <> s -> upd_hold h s v t = h t.
Proof. intros N. unfold upd_hold. now rewrite slot_beq_neq. Qed.
Lemma upd_flags_same f p l : upd_flags f p l p = l.
Proof. unfold upd_flags. now rewrite pool_beq_refl. Qed.
Lemma upd_flags_other f p q l : q <> p -> upd_flags f p l q = f q.
Proof. intros N. unfold upd_flags. now rewrite pool_beq_neq. Qed.

Lemma slot_dec (s t : slot) : {s = t} + {s <> t}. Proof. decide equality. Qed.
Lemma pool_dec (s t : pool) : {s = t} + {s <> t}. Proof. decide equality. Qed.

Lemma rel_drop size x H s : rel size x H -> rel size (drop s x) (clrb s H) /\ held (drop s x) s = false.
Proof.
  intros [[Hl Hf Hi] Hb Hc]. unfold drop. destruct (hold x s) as [i|] eqn:E.
  - assert (Hs : nth_error (flags x (pool_of s)) i = Some true) by now apply Hf.
    split; [|unfold held; cbn [hold]; now rewrite upd_hold_same].
    split; [split|..]; cbn [flags hold].
    + intros p. destruct (pool_dec p (pool_of s)) as [->|N].
      * rewrite upd_flags_same, set_nth_length. apply Hl.
      * rewrite upd_flags_other by auto. apply Hl.
    + intros t j. destruct (slot_dec t s) as [->|N]; [rewrite upd_hold_same; discriminate|].
      rewrite upd_hold_other by auto. intros Ht. destruct (pool_dec (pool_of t) (pool_of s)) as [Ep|Np].
      * rewrite Ep, upd_flags_same. rewrite set_nth_other; [rewrite <- Ep; now apply Hf|].
        intros <-. apply N. eapply Hi; eauto.
      * rewrite upd_flags_other by auto. now apply Hf.
    + intros t u j. destruct (slot_dec t s) as [->|N]; [rewrite upd_hold_same; discriminate|].
      destruct (slot_dec u s) as [->|N']; [rewrite (upd_hold_same _ s); discriminate|].
      rewrite !upd_hold_other by auto. apply Hi.
    + intros t. rewrite clrb_spec. unfold held; cbn [hold]. destruct (slot_dec t s) as [->|N].
      * now rewrite slot_beq_refl, upd_hold_same.
      * rewrite slot_beq_neq, upd_hold_other by auto. apply Hb.
    + intros p. assert (Hbs : N.testbit H (ix s) = true) by (rewrite Hb; unfold held; now rewrite E).
      destruct (pool_dec p (pool_of s)) as [->|N].
      * rewrite upd_flags_same. apply ctrue_set_false in Hs. rewrite Hc, (cnt_clrb_in s H Hbs) in Hs. lia.
      * rewrite upd_flags_other, cnt_clrb_out by auto. apply Hc.
  - split; [|unfold held; now rewrite E]. split; [split; auto|..].
    + intros t. rewrite clrb_spec. destruct (slot_beq t s) eqn:Et; [|apply Hb].
      apply slot_beq_spec in Et as ->. unfold held. now rewrite E.
    + intros p. rewrite Hc. apply cnt_ext. intros t. rewrite clrb_spec. destruct (slot_beq t s) eqn:Et; [|reflexivity].
      apply slot_beq_spec in Et as ->. rewrite Hb. unfold held. now rewrite E.
Qed.

Lemma setb_clrb s H : forall t, N.testbit (setb s (clrb s H)) (ix t) = N.testbit (setb s H) (ix t).
Proof. intros t. rewrite !setb_spec, clrb_spec. now destruct (slot_beq t s). Qed.

Lemma rel_take size x H s : rel size x H ->
  match take s x with
  | Some y => rel size y (setb s H) /\ cnt (pool_of s) (setb s H) <= size (pool_of s)
  | None => size (pool_of s) < cnt (pool_of s) (setb s H)
  end.
Proof.
  intros Hr. destruct (rel_drop size x H s Hr) as ([[Hl Hf Hi] Hb Hc] & Hd). unfold take.
  set (y := drop s x) in *. clearbody y. clear Hr x.
  assert (Hbs : N.testbit (clrb s H) (ix s) = false) by now rewrite Hb.
  assert (Hcs : cnt (pool_of s) (setb s H) = S (ctrue (flags y (pool_of s)))).
  { rewrite Hc, <- (cnt_setb_in s (clrb s H) Hbs). apply cnt_ext. intros t. symmetry. apply setb_clrb. }
  destruct (acquire (flags y (pool_of s))) as [i|] eqn:E.
  - apply acquire_some in E. assert (Hct := ctrue_set_true _ _ E).
    assert (Hlen := ctrue_le (set_nth i true (flags y (pool_of s)))). rewrite set_nth_length, Hl, Hct in Hlen.
    split; [|lia]. split; [split|..]; cbn [flags hold].
    + intros p. destruct (pool_dec p (pool_of s)) as [->|N].
      * rewrite upd_flags_same, set_nth_length. apply Hl.
      * rewrite upd_flags_other by auto. apply Hl.
    + intros t j. destruct (slot_dec t s) as [->|N].
      { rewrite upd_hold_same. injection 1 as <-. rewrite upd_flags_same. eapply set_nth_same; eauto. }
      rewrite upd_hold_other by auto. intros Ht. destruct (pool_dec (pool_of t) (pool_of s)) as [Ep|Np].
      * rewrite Ep, upd_flags_same. rewrite set_nth_other; [rewrite <- Ep; now apply Hf|].
        intros <-. apply Hf in Ht. rewrite Ep in Ht. congruence.
      * rewrite upd_flags_other by auto. now apply Hf.
    + intros t u j. destruct (slot_dec t s) as [->|N], (slot_dec u s) as [->|N']; auto.
      * rewrite upd_hold_same, upd_hold_other by auto. injection 1 as <-. intros Hu Ep. apply Hf in Hu.
        rewrite <- Ep in Hu. congruence.
      * rewrite (upd_hold_same _ s), upd_hold_other by auto. intros Ht. injection 1 as <-. intros Ep. apply Hf in Ht.
        rewrite Ep in Ht. congruence.
      * rewrite !upd_hold_other by auto. apply Hi.
    + intros t. rewrite setb_spec. unfold held; cbn [hold]. destruct (slot_dec t s) as [->|N].
      * now rewrite slot_beq_refl, upd_hold_same.
      * rewrite slot_beq_neq, upd_hold_other by auto. cbn [orb]. assert (X := Hb t).
        rewrite clrb_spec, slot_beq_neq in X by auto. exact X.
    + intros p. destruct (pool_dec p (pool_of s)) as [->|N].
      * rewrite upd_flags_same, Hct. lia.
      * rewrite upd_flags_other by auto. rewrite Hc, cnt_clrb_out, cnt_setb_out by auto. reflexivity.
  - apply acquire_none in E. rewrite Hl in E. lia.
Qed.

Lemma rel_fresh size : rel size (fresh size) 0.
Proof.
  split; [split|..].
  - intros p. apply repeat_length.
  - discriminate.
  - discriminate.
  - intros s. unfold held, fresh. cbn [hold]. apply N.bits_0.
  - intros p. cbn [flags fresh]. rewrite ctrue_repeat. destruct p; vm_compute; reflexivity.
Qed.

(** ** runs in terms of sets of holders *)
(** [None] for a use of a vector which is not held *)
Fixpoint final (l : list op) (H : N) : option N :=
  match l with
  | [] => Some H
  | Take s :: r => final r (setb s H)
  | Drop s :: r => final r (clrb s H)
  | Use s :: r => if N.testbit H (ix s) then final r H else None
  end.
(** the largest number of vectors of a pool held after any of the operations up to the first wrong use *)
Fixpoint peak (p : pool) (l : list op) (H : N) : nat :=
  match l with
  | [] => 0
  | Take s :: r => max (if pool_beq (pool_of s) p then cnt p (setb s H) else 0) (peak p r (setb s H))
  | Drop s :: r => peak p r (clrb s H)
  | Use s :: r => if N.testbit H (ix s) then peak p r H else 0
  end.

Lemma run_final size l x H :
  rel size x H ->
  (forall y, run l x = Ok y -> exists H', final l H = Some H' /\ rel size y H' /\ forall p, peak p l H <= size p) /\
  (forall H', final l H = Some H' -> (forall p, peak p l H <= size p) -> exists y, run l x = Ok y).
Proof.
  revert x H. induction l as [|[s|s|s] l IH]; intros x H Hr; cbn [run final peak].
  - split; [|eauto]. intros y [= <-]. exists H. repeat split; auto; try apply Hr. intros; lia.
  - assert (Ht := rel_take size x H s Hr). destruct (take s x) as [y|].
    + destruct Ht as (Hr' & Hle). destruct (IH _ _ Hr') as (A & B). split.
      * intros z Hz. destruct (A z Hz) as (H' & F & R & P). exists H'. repeat split; auto; try apply R.
        intros p. destruct (pool_beq (pool_of s) p) eqn:E; [apply pool_beq_spec in E as <-|]; specialize (P (pool_of s)) as P1;
        [lia|]. specialize (P p). lia.
      * intros H' F P. apply (B H' F). intros p. specialize (P p). lia.
    + split; [discriminate|]. intros H' F P. specialize (P (pool_of s)). rewrite pool_beq_refl in P. lia.
  - destruct (rel_drop size x H s Hr) as (Hr' & _). apply (IH _ _ Hr').
  - rewrite (rel_bits _ _ _ Hr). unfold held. destruct (hold x s); [apply (IH _ _ Hr)|].
    split; discriminate.
Qed.

Lemma run_fresh_ok size l :
  (exists y, run l (fresh size) = Ok y) <-> (exists H', final l 0 = Some H') /\ forall p, peak p l 0 <= size p.
Proof.
  destruct (run_final size l _ _ (rel_fresh size)) as (A & B). split.
  - intros (y & Hy). destruct (A y Hy) as (H' & F & _ & P). eauto.
  - intros ((H' & F) & P). eauto.
Qed.

(** ** composition *)
Definition good (size : pool -> nat) (l : list op) (H H' : N) : Prop :=
  final l H = Some H' /\ forall p, peak p l H <= size p.

Lemma final_app l m H : final (l ++ m) H = match final l H with Some H' => final m H' | None => None end.
Proof.
  revert H; induction l as [|[s|s|s] l IH]; intros H; cbn [app final]; auto.
  destruct (N.testbit H (ix s)); auto.
Qed.
Lemma peak_app p l m H :
  peak p (l ++ m) H = match final l H with Some H' => max (peak p l H) (peak p m H') | None => peak p l H end.
Proof.
  revert H; induction l as [|[s|s|s] l IH]; intros H; cbn [app final peak].
  - reflexivity.
  - rewrite IH. destruct (final l (setb s H)); lia.
  - rewrite IH. reflexivity.
  - destruct (N.testbit H (ix s)); [apply IH|reflexivity].
Qed.

Lemma good_nil size H : good size [] H H.
Proof. split; [reflexivity|intros; cbn; lia]. Qed.
Lemma good_app size l m H H1 H2 : good size l H H1 -> good size m H1 H2 -> good size (l ++ m) H H2.
Proof.
  intros (A & B) (C & D). split; [rewrite final_app, A; exact C|].
  intros p. rewrite peak_app, A. specialize (B p). specialize (D p). lia.
Qed.
Lemma good_mono size size' l H H' : (forall p, size p <= size' p) -> good size l H H' -> good size' l H H'.
Proof. intros M (A & B). split; [exact A|]. intros p. specialize (B p). specialize (M p). lia. Qed.
Lemma good_when size b l H H' : (b = true -> good size l H H') -> (b = false -> H' = H) -> good size (when b l) H H'.
Proof. destruct b; cbn [when]; intros A B; [auto|]. rewrite B by reflexivity. apply good_nil. Qed.
Lemma good_repeat size l n H : good size l H H -> good size (concat (repeat l n)) H H.
Proof. intros G. induction n as [|n IH]; cbn [repeat concat]; [apply good_nil|]. eapply good_app; eauto. Qed.
Lemma good_concat_map {A} size (f : A -> list op) (l : list A) H :
  (forall a, In a l -> good size (f a) H H) -> good size (concat (map f l)) H H.
Proof.
  induction l as [|x l IH]; intros G; cbn [map concat]; [apply good_nil|].
  eapply good_app; [apply G; now left|]. apply IH. intros; apply G; now right.
Qed.

(** sizes of the pools given as five numbers, and a decision procedure for single segments *)
Definition sz (rp rc np sp sc : nat) (p : pool) : nat := match p with RP => rp | RC => rc | NP => np | SP => sp | SC => sc end.

Definition goodb (rp rc np sp sc : nat) (l : list op) (H H' : N) : bool :=
  match final l H with Some X => N.eqb X H' | None => false end
  && (peak RP l H <=? rp) && (peak RC l H <=? rc) && (peak NP l H <=? np) && (peak SP l H <=? sp) && (peak SC l H <=? sc).

Lemma goodb_good rp rc np sp sc l H H' size :
  goodb rp rc np sp sc l H H' = true ->
  rp <= size RP -> rc <= size RC -> np <= size NP -> sp <= size SP -> sc <= size SC ->
  good size l H H'.
Proof.
  unfold goodb. rewrite !andb_true_iff. intros (((((A & B) & C) & D) & E) & F) ? ? ? ? ?.
  apply Nat.leb_le in B, C, D, E, F. split.
  - destruct (final l H); [|discriminate]. apply N.eqb_eq in A. congruence.
  - intros []; lia.
Qed.
