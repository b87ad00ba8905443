(** C90: the statistics asked for on the command line of the kinematic model are the ones recorded, each under its own name. *)
From Coq Require Import String Ascii List Arith ZArith NArith Reals Bool Lra Lia.
From Coq Require DecimalString DecimalNat DecimalZ DecimalFacts.
From Verif Require Import Base BaseProofs ThermoModel TomsModel CondModel KoehlerModel MomsModel MomsProofs CondPassModel DiagModel DiagProps OutModel.
Import ListNotations.
Local Open Scope R_scope.

(** * Specification of the texts *)
(** the text without its white space *)
Definition strip (s : text) : text := filter (fun c => negb (is_space c)) s.
(** a sequence of  a:b  separated by semicolons; one may follow the last *)
Inductive reads : text -> list (text * text) -> Prop :=
| reads_none : reads [] []
| reads_last a b : ~ In ":"%char a -> ~ In ";"%char b -> reads (a ++ ":"%char :: b) [(a, b)]
| reads_item a b t l : ~ In ":"%char a -> ~ In ";"%char b -> reads t l -> reads (a ++ ":"%char :: b ++ ";"%char :: t) ((a, b) :: l).
(** decimal integers that fit in int *)
Definition digit_of (c : ascii) : Z := (Z.of_nat (nat_of_ascii c) - 48)%Z.
Fixpoint value (ds : text) : Z := match ds with [] => 0%Z | c :: r => (digit_of c * 10 ^ Z.of_nat (length r) + value r)%Z end.
Definition an_int (t : text) (z : Z) : Prop := exists ds, ds <> [] /\ (forall c, In c ds -> is_digit c = true) /\
  (t = ds /\ z = value ds \/ t = "+"%char :: ds /\ z = value ds \/ t = "-"%char :: ds /\ z = (- value ds)%Z) /\ (- 2 ^ 31 <= z <= 2 ^ 31 - 1)%Z.
(** one or more of them, separated by commas *)
Inductive integers : text -> list Z -> Prop :=
| ints_one t z : an_int t z -> integers t [z]
| ints_more t z r l : an_int t z -> integers r l -> integers (t ++ ","%char :: r) (z :: l).
(** what a:b asks for; the second case is a request without a bar *)
Definition asks (real_of : text -> option R) (ab : text * text) (q : request) : Prop :=
  let '(a, b) := ab in let '(lo, hi, ms) := q in
  real_of a = Some lo /\
  ((exists u t, b = u ++ "|"%char :: t /\ ~ In "|"%char u /\ real_of u = Some hi /\ integers t ms) \/
   (~ In "|"%char b /\ real_of b = Some hi /\ integers b ms)).

(** * Parsing *)
Lemma strip_skip s : strip (skip s) = strip s.
Proof. induction s as [|c r IH]; [reflexivity|]. cbn [skip strip filter]. destruct (is_space c) eqn:E; cbn [negb]; [exact IH|]. cbn [filter]. rewrite E. reflexivity. Qed.
Lemma skip_length s : (length (skip s) <= length s)%nat.
Proof. induction s as [|c r IH]; [reflexivity|]. cbn [skip]. destruct (is_space c); cbn [length]; lia. Qed.
Lemma skip_cons s c r : skip s = c :: r -> is_space c = false /\ strip s = c :: strip r /\ (S (length r) <= length s)%nat.
Proof.
  intros H. assert (S1 : is_space c = false).
  { revert H. induction s as [|x s IH]; cbn [skip]; [discriminate|]. destruct (is_space x) eqn:E; [exact IH|]. intros H. injection H as <- _. exact E. }
  split; [exact S1|]. split. { rewrite <- strip_skip, H. unfold strip. cbn [filter]. rewrite S1. reflexivity. }
  pose proof (skip_length s) as L. rewrite H in L. exact L.
Qed.
Lemma skip_nil s : skip s = [] <-> strip s = [].
Proof.
  split; intros H. { rewrite <- strip_skip, H. reflexivity. }
  destruct (skip s) as [|c r] eqn:E; [reflexivity|]. destruct (skip_cons s c r E) as (_ & F & _). congruence.
Qed.
Lemma lit_some c s r : lit c s = Some r -> strip s = c :: strip r /\ (S (length r) <= length s)%nat.
Proof.
  unfold lit. destruct (skip s) as [|x q] eqn:E; [discriminate|]. destruct (Ascii.eqb_spec x c) as [->|]; [|discriminate].
  intros H. injection H as <-. destruct (skip_cons s c q E) as (_ & F & L). auto.
Qed.
Lemma lit_none c s : lit c s = None -> forall t, strip s <> c :: t.
Proof.
  unfold lit. destruct (skip s) as [|x q] eqn:E; intros H t F. { apply skip_nil in E. congruence. }
  destruct (Ascii.eqb_spec x c) as [->|N]; [discriminate|]. destruct (skip_cons s x q E) as (_ & F' & _). congruence.
Qed.
Lemma many_but_spec fuel c s : (length s <= fuel)%nat -> let (l, q) := many_but fuel c s in
  strip s = l ++ strip q /\ ~ In c l /\ (strip q = [] \/ exists t, strip q = c :: t) /\ (length q <= length s)%nat.
Proof.
  revert s. induction fuel as [|k IH]; intros s H; cbn [many_but].
  - destruct s; [|cbn in H; lia]. cbn. repeat split; auto.
  - unfold char_but. destruct (lit c s) as [r|] eqn:L.
    + destruct (lit_some c s r L) as (F & _). repeat split; auto. right. eexists. exact F.
    + destruct (skip s) as [|x r] eqn:E. { repeat split; auto. left. apply skip_nil, E. }
      destruct (skip_cons s x r E) as (_ & F & Lr). specialize (IH r ltac:(lia)). destruct (many_but k c r) as [l q].
      destruct IH as (I1 & I2 & I3 & I4). rewrite F, I1. repeat split; auto; [|lia].
      intros [->|I]; [|contradiction]. apply (lit_none c s L (strip r)). exact F.
Qed.
Lemma item_some s a b r : item s = Some ((a, b), r) -> ~ In ":"%char a /\ ~ In ";"%char b /\ (S (length r) <= length s)%nat /\
  (strip s = a ++ ":"%char :: b ++ ";"%char :: strip r \/ strip s = a ++ ":"%char :: b /\ strip r = []).
Proof.
  unfold item. pose proof (many_but_spec (length s) ":" s (le_n _)) as M1. destruct (many_but (length s) ":" s) as [a' s1]. destruct M1 as (A1 & A2 & A3 & A4).
  destruct (lit ":" s1) as [s2|] eqn:L; [|discriminate]. destruct (lit_some _ _ _ L) as (F & L2).
  pose proof (many_but_spec (length s2) ";" s2 (le_n _)) as M2. destruct (many_but (length s2) ";" s2) as [b' s3]. destruct M2 as (B1 & B2 & B3 & B4).
  intros H. injection H as -> -> <-. split; [exact A2|]. split; [exact B2|]. destruct (lit ";" s3) as [s4|] eqn:L4.
  - destruct (lit_some _ _ _ L4) as (F4 & L5). split; [lia|]. left. rewrite A1, F, B1, F4. reflexivity.
  - split; [lia|]. right. destruct B3 as [B3|(t & B3)]; [|destruct (lit_none _ _ L4 _ B3)]. split; [|exact B3]. rewrite A1, F, B1, B3. rewrite List.app_nil_r. reflexivity.
Qed.
Lemma item_none s : item s = None -> ~ In ":"%char (strip s).
Proof.
  unfold item. pose proof (many_but_spec (length s) ":" s (le_n _)) as M1. destruct (many_but (length s) ":" s) as [a' s1]. destruct M1 as (A1 & A2 & A3 & A4).
  destruct (lit ":" s1) as [s2|] eqn:L. { destruct (many_but (length s2) ";" s2). discriminate. }
  intros _ I. rewrite A1 in I. apply in_app_or in I. destruct I as [I|I]; [contradiction|]. destruct A3 as [E|(t & E)]; [rewrite E in I; destruct I|].
  exact (lit_none _ _ L _ E).
Qed.
Lemma first_split (c : ascii) a b a' b' : ~ In c a -> ~ In c a' -> a ++ c :: b = a' ++ c :: b' -> a = a' /\ b = b'.
Proof.
  revert a'. induction a as [|x a IH]; intros [|y a'] H H' E; cbn in E.
  - injection E as ->. auto. - injection E as E1 E2. subst. exfalso. apply H'. left. reflexivity. - injection E as E1 E2. subst. exfalso. apply H. left. reflexivity.
  - injection E as E1 E2. subst y. destruct (IH a') as (-> & ->); auto; intros I; [apply H|apply H']; right; exact I.
Qed.
Lemma no_split (c : ascii) a b t : ~ In c t -> a ++ c :: b <> t.
Proof. intros H <-. apply H, in_or_app. right. left. reflexivity. Qed.
Lemma reads_fun t l : reads t l -> forall l', reads t l' -> l = l'.
Proof.
  induction 1 as [|a b Ha Hb|a b t l Ha Hb R IH]; intros l' R'.
  - inversion R' as [|? ? ? ? E|? ? ? ? ? ? ? E]; [reflexivity| |]; destruct a; discriminate.
  - inversion R' as [E|a' b' Ha' Hb' E|a' b' t' l0 Ha' Hb' R0 E]; subst.
    + destruct a; discriminate.
    + destruct (first_split _ _ _ _ _ Ha' Ha E) as (-> & ->). reflexivity.
    + destruct (first_split _ _ _ _ _ Ha' Ha E) as (-> & E2). destruct (no_split _ _ _ _ Hb E2).
  - inversion R' as [E|a' b' Ha' Hb' E|a' b' t' l0 Ha' Hb' R0 E]; subst.
    + destruct a; discriminate.
    + destruct (first_split _ _ _ _ _ Ha' Ha E) as (-> & E2). destruct (no_split _ _ _ _ Hb' (eq_sym E2)).
    + destruct (first_split _ _ _ _ _ Ha' Ha E) as (-> & E2). destruct (first_split _ _ _ _ _ Hb' Hb E2) as (-> & ->). f_equal. apply IH, R0.
Qed.
Lemma reads_colon t l : reads t l -> t <> [] -> In ":"%char t.
Proof. destruct 1; intros N; [congruence| |]; apply in_or_app; right; left; reflexivity. Qed.
Lemma items_spec fuel s : (length s <= fuel)%nat -> let (l, r) := items fuel s in
  (strip r = [] -> reads (strip s) l) /\ (strip r <> [] -> forall l', ~ reads (strip s) l').
Proof.
  revert s. induction fuel as [|k IH]; intros s H; cbn [items].
  - destruct s; [|cbn in H; lia]. cbn. split; [constructor|congruence].
  - destruct (item s) as [((a, b), r)|] eqn:E.
    + destruct (item_some _ _ _ _ E) as (Ha & Hb & L & C). specialize (IH r ltac:(lia)). destruct (items k r) as [l q]. destruct IH as (I1 & I2). split.
      * intros Q. destruct C as [C|(C & Cr)]; rewrite C.
        { constructor; auto. }
        { specialize (I1 Q). rewrite Cr in I1. pose proof (reads_fun _ _ I1 _ reads_none). subst l. constructor; auto. }
      * intros Q l' R'. destruct C as [C|(C & Cr)].
        { rewrite C in R'. inversion R' as [E0|a' b' Ha' Hb' E0|a' b' t' l0 Ha' Hb' R0 E0]; subst.
          - destruct a; discriminate.
          - destruct (first_split _ _ _ _ _ Ha' Ha E0) as (-> & E2). exact (no_split _ _ _ _ Hb' (eq_sym E2)).
          - destruct (first_split _ _ _ _ _ Ha' Ha E0) as (-> & E2). destruct (first_split _ _ _ _ _ Hb' Hb E2) as (-> & ->). exact (I2 Q _ R0). }
        { apply (I2 Q []). rewrite Cr. constructor. }
    + split; intros Q. { rewrite Q. constructor. } intros l' R'. apply (item_none s E), (reads_colon _ l' R' Q).
Qed.
Lemma phrase_spec s l : phrase s = Some l <-> reads (strip s) l.
Proof.
  unfold phrase. pose proof (items_spec (length s) s (le_n _)) as I. destruct (items (length s) s) as [l' r]. destruct I as (I1 & I2). destruct (skip r) as [|c q] eqn:E.
  - assert (Q : strip r = []) by (apply skip_nil; exact E). specialize (I1 Q). split; [intros H; injection H as <-; exact I1|]. intros R'. f_equal. exact (reads_fun _ _ I1 _ R').
  - split; [discriminate|]. intros R'. destruct (I2) with (l' := l); [|exact R']. intros Q. apply skip_nil in Q. congruence.
Qed.

(** integers *)
Lemma digit_not_space c : is_digit c = true -> is_space c = false.
Proof. unfold is_digit, is_space. intros H. apply andb_true_iff in H. destruct H as (H1 & H2). apply Nat.leb_le in H1. apply Nat.leb_le in H2.
  apply orb_false_iff. split; [apply andb_false_iff; right; apply Nat.leb_gt; lia|apply Nat.eqb_neq; lia]. Qed.
Lemma digits_spec s : let (l, r) := digits s in s = l ++ r /\ (forall c, In c l -> is_digit c = true) /\ (forall c t, r = c :: t -> is_digit c = false).
Proof.
  induction s as [|c s IH]; cbn [digits]. { repeat split; intros; try contradiction; discriminate. }
  destruct (is_digit c) eqn:E.
  - destruct (digits s) as [l r]. destruct IH as (I1 & I2 & I3). subst s. repeat split; auto. intros x [->|I]; auto.
  - repeat split; [contradiction|]. intros x t H. injection H as <- _. exact E.
Qed.
Lemma digits_app ds r : (forall c, In c ds -> is_digit c = true) -> (forall c t, r = c :: t -> is_digit c = false) -> digits (ds ++ r) = (ds, r).
Proof.
  intros H N. induction ds as [|c ds IH]; cbn [app digits]. { destruct r as [|c t]; [reflexivity|]. specialize (N c t eq_refl). cbn [digits]. rewrite N. reflexivity. }
  rewrite (H c) by (left; reflexivity). rewrite IH by (intros x I; apply H; right; exact I). reflexivity.
Qed.
Lemma horner_value ds v : fold_left (fun v c => 10 * v + (Z.of_nat (nat_of_ascii c) - 48))%Z ds v = (v * 10 ^ Z.of_nat (length ds) + value ds)%Z.
Proof.
  revert v. induction ds as [|c ds IH]; intros v; cbn [fold_left value length]. { change (Z.of_nat 0) with 0%Z. rewrite Z.pow_0_r. lia. }
  rewrite IH, Nat2Z.inj_succ, Z.pow_succ_r by lia. unfold digit_of. ring.
Qed.
Definition in_int (z : Z) : Prop := (- 2 ^ 31 <= z <= 2 ^ 31 - 1)%Z.
Lemma number_spec neg s z r : number neg s = Some (z, r) <-> exists ds, s = ds ++ r /\ ds <> [] /\ (forall c, In c ds -> is_digit c = true) /\
  (forall c t, r = c :: t -> is_digit c = false) /\ z = (if neg then (- value ds)%Z else value ds) /\ in_int z.
Proof.
  unfold number. pose proof (digits_spec s) as D. destruct (digits s) as [ds r0] eqn:E0. destruct D as (D1 & D2 & D3).
  assert (V : fold_left (fun v c => 10 * v + (Z.of_nat (nat_of_ascii c) - 48))%Z ds 0%Z = value ds) by (rewrite horner_value; ring).
  assert (IN : forall y, ((- 2147483648 <=? y) && (y <=? 2147483647))%Z = true <-> in_int y).
  { intros y. unfold in_int. change (- 2 ^ 31)%Z with (- 2147483648)%Z. change (2 ^ 31 - 1)%Z with 2147483647%Z. rewrite andb_true_iff, !Z.leb_le. reflexivity. }
  split.
  - intros H. destruct ds as [|c ds]; [discriminate|]. cbv zeta in H. rewrite V in H. set (y := if neg then _ else _) in H. destruct (_ && _)%bool eqn:B in H; [|discriminate].
    injection H as <- <-. exists (c :: ds). split; [exact D1|]. split; [discriminate|]. split; [exact D2|]. split; [exact D3|]. split; [reflexivity|apply IN, B].
  - intros (ds' & -> & N & A & B & Z0 & I). rewrite (digits_app _ _ A B) in E0. injection E0 as -> ->. destruct ds as [|c ds]; [congruence|]. cbv zeta. rewrite V, <- Z0.
    rewrite (proj2 (IN z) I). reflexivity.
Qed.
Lemma an_int_head t z : an_int t z -> exists c q, t = c :: q /\ is_space c = false.
Proof.
  intros (ds & N & A & C & _). destruct ds as [|d ds]; [congruence|]. specialize (A d (or_introl eq_refl)). apply digit_not_space in A.
  destruct C as [(-> & _)|[(-> & _)|(-> & _)]]; do 2 eexists; split; try reflexivity; exact A.
Qed.
Lemma skip_id c q : is_space c = false -> skip (c :: q) = c :: q. Proof. intros H. cbn [skip]. rewrite H. reflexivity. Qed.
Definition clean (s : text) : Prop := forall c, In c s -> is_space c = false.
Lemma clean_skip s : clean s -> skip s = s.
Proof. destruct s as [|c q]; [reflexivity|]. intros H. apply skip_id, H. left. reflexivity. Qed.
Lemma int_case s : (exists r, s = "-"%char :: r /\ int_ s = number true r) \/ (exists r, s = "+"%char :: r /\ int_ s = number false r) \/
  (clean s -> int_ s = number false s /\ forall c r, s = c :: r -> c <> "-"%char /\ c <> "+"%char).
Proof.
  destruct s as [|c r]. { right. right. intros _. split; [reflexivity|]. discriminate. }
  destruct (Ascii.ascii_dec c "-") as [->|N1]. { left. exists r. split; reflexivity. }
  destruct (Ascii.ascii_dec c "+") as [->|N2]. { right. left. exists r. split; reflexivity. }
  right. right. intros C. split; [|intros c' r' E; injection E as <- _; auto]. unfold int_. rewrite (clean_skip _ C).
  destruct c as [[] [] [] [] [] [] [] []]; try reflexivity; congruence.
Qed.
Lemma int_spec s z r : clean s -> (int_ s = Some (z, r) <-> exists t, s = t ++ r /\ an_int t z /\ forall c q, r = c :: q -> is_digit c = false).
Proof.
  intros C. destruct (int_case s) as [(s' & -> & E)|[(s' & -> & E)|E]]; [rewrite E, number_spec|rewrite E, number_spec|destruct (E C) as (E1 & E2); rewrite E1, number_spec].
  - split.
    + intros (ds & -> & N & A & B & Z0 & I). exists ("-"%char :: ds). split; [reflexivity|]. split; [|exact B]. exists ds. repeat split; auto; apply I.
    + intros (t & T & (ds & N & A & K & I) & B). exists ds. destruct K as [(-> & ->)|[(-> & ->)|(-> & ->)]].
      * exfalso. destruct ds as [|d ds]; [congruence|]. injection T as <- _. specialize (A _ (or_introl eq_refl)). discriminate.
      * discriminate.
      * injection T as ->. repeat split; auto; apply I.
  - split.
    + intros (ds & -> & N & A & B & Z0 & I). exists ("+"%char :: ds). split; [reflexivity|]. split; [|exact B]. exists ds. repeat split; auto; apply I.
    + intros (t & T & (ds & N & A & K & I) & B). exists ds. destruct K as [(-> & ->)|[(-> & ->)|(-> & ->)]].
      * exfalso. destruct ds as [|d ds]; [congruence|]. injection T as <- _. specialize (A _ (or_introl eq_refl)). discriminate.
      * injection T as ->. repeat split; auto; apply I.
      * discriminate.
  - split.
    + intros (ds & -> & N & A & B & Z0 & I). exists ds. split; [reflexivity|]. split; [|exact B]. exists ds. repeat split; auto; apply I.
    + intros (t & -> & (ds & N & A & K & I) & B). exists ds. destruct K as [(-> & ->)|[(-> & ->)|(-> & ->)]].
      * repeat split; auto; apply I.
      * destruct (E2 _ _ eq_refl) as (_ & X). congruence.
      * destruct (E2 _ _ eq_refl) as (X & _). congruence.
Qed.
Lemma clean_app a b : clean (a ++ b) <-> clean a /\ clean b.
Proof. unfold clean. split; [intros H; split; intros c I; apply H, in_or_app; auto|]. intros (H1 & H2) c I. apply in_app_or in I. destruct I; auto. Qed.
Lemma clean_cons c b : clean (c :: b) <-> is_space c = false /\ clean b.
Proof. unfold clean. split; [intros H; split; [apply H; left; reflexivity|intros x I; apply H; right; exact I]|]. intros (H1 & H2) x [<-|I]; auto. Qed.
Lemma lit_clean c s : clean s -> lit c s = match s with x :: r => if (x =? c)%char then Some r else None | [] => None end.
Proof. intros C. unfold lit. rewrite (clean_skip s C). reflexivity. Qed.
(** the rest of the list, from its comma on *)
Inductive tail_ints : text -> list Z -> Prop :=
| tail_none : tail_ints [] []
| tail_more t z r l : an_int t z -> tail_ints r l -> tail_ints (","%char :: t ++ r) (z :: l).
Lemma tail_head r l : tail_ints r l -> forall c q, r = c :: q -> is_digit c = false.
Proof. destruct 1; intros c q E; [discriminate|]. injection E as <- _. reflexivity. Qed.
Lemma an_int_no_comma t z : an_int t z -> ~ In ","%char t.
Proof.
  intros (ds & N & A & C & _) I. destruct C as [(-> & _)|[(-> & _)|(-> & _)]].
  - specialize (A _ I). discriminate. - destruct I as [I|I]; [discriminate|]. specialize (A _ I). discriminate.
  - destruct I as [I|I]; [discriminate|]. specialize (A _ I). discriminate.
Qed.
Lemma more_spec fuel s : clean s -> (length s <= fuel)%nat -> forall l, (let (l', q) := more fuel s in q = [] /\ l' = l) <-> tail_ints s l.
Proof.
  revert s. induction fuel as [|k IH]; intros s C L l; cbn [more].
  - destruct s; [|cbn in L; lia]. split; [intros (_ & <-); constructor|]. intros H. inversion H. auto.
  - rewrite (lit_clean _ _ C). destruct s as [|c r]. { split; [intros (_ & <-); constructor|]. intros H. inversion H. auto. }
    apply clean_cons in C. destruct C as (Cc & Cr). destruct (Ascii.eqb_spec c ",") as [->|N].
    + destruct (int_ r) as [(z, q)|] eqn:E.
      * pose proof E as E'. apply (int_spec _ _ _ Cr) in E'. destruct E' as (t & -> & T & B). pose proof Cr as Cr'. apply clean_app in Cr. destruct Cr as (Ct & Cq).
        cbn [length] in L. rewrite app_length in L. destruct (more k q) as [l' q'] eqn:M. split.
        { intros (-> & <-). constructor; [exact T|]. apply (IH q Cq ltac:(lia)). rewrite M. auto. }
        { intros H. inversion H as [|t' z' r' l0 T' TL E0 E1]. subst l.
          assert (X : int_ (t' ++ r') = Some (z', r')) by (apply (int_spec (t' ++ r') z' r' ltac:(rewrite E0; exact Cr')); exists t'; split; [reflexivity|]; split; [exact T'|apply (tail_head _ _ TL)]).
          rewrite E0 in X. rewrite E in X. injection X as -> ->. apply (IH r' Cq ltac:(lia)) in TL. rewrite M in TL. destruct TL as (-> & ->). auto. }
      * split; [intros (F & _); discriminate|]. intros H. inversion H as [|t' z' r' l0 T' TL E0 E1]; subst.
        assert (X : int_ (t' ++ r') = Some (z', r')) by (apply (int_spec _ _ _ Cr); exists t'; split; [reflexivity|]; split; [exact T'|apply (tail_head _ _ TL)]). congruence.
    + split; [intros (F & _); discriminate|]. intros H. inversion H; congruence.
Qed.
Lemma more_clean fuel s : clean s -> clean (snd (more fuel s)).
Proof.
  revert s. induction fuel as [|k IH]; intros s C; cbn [more snd]; [exact C|]. rewrite (lit_clean _ _ C). destruct s as [|c r]; [exact C|].
  destruct (c =? ",")%char; [|exact C]. destruct (int_ r) as [(z, q)|] eqn:E; [|exact C]. apply clean_cons in C. destruct C as (_ & C).
  apply (int_spec _ _ _ C) in E. destruct E as (t & -> & _ & _). apply clean_app in C. specialize (IH q (proj2 C)). destruct (more k q). exact IH.
Qed.
Lemma tail_integers t z r l : an_int t z -> tail_ints r l -> integers (t ++ r) (z :: l).
Proof.
  intros T H. revert t z T. induction H as [|t0 z0 r l T0 H IH]; intros t z T. { rewrite List.app_nil_r. constructor. exact T. }
  constructor; [exact T|]. apply IH, T0.
Qed.
Lemma integers_tail s ms : integers s ms -> exists t z r l, s = t ++ r /\ ms = z :: l /\ an_int t z /\ tail_ints r l.
Proof.
  induction 1 as [t z T|t z r l T H (t' & z' & r' & l' & -> & -> & T' & TL)].
  - exists t, z, [], []. rewrite List.app_nil_r. repeat split; auto. constructor.
  - exists t, z, (","%char :: t' ++ r'), (z' :: l'). repeat split; auto. constructor; assumption.
Qed.
Lemma ints_spec s ms : clean s -> (ints s = Some ms <-> integers s ms).
Proof.
  intros C. unfold ints. split.
  - destruct (int_ s) as [(z, r)|] eqn:E; [|discriminate]. apply (int_spec _ _ _ C) in E. destruct E as (t & -> & T & B). apply clean_app in C. destruct C as (_ & Cr).
    pose proof (more_spec (length r) r Cr (le_n _)) as M. pose proof (more_clean (length r) r Cr) as MC. destruct (more (length r) r) as [l q]. cbn [snd] in MC. destruct (skip q) as [|x q'] eqn:Q; [|discriminate].
    intros H. injection H as <-. apply tail_integers; [exact T|]. apply M. split; [|reflexivity].
    rewrite <- (clean_skip q MC). exact Q.
  - intros H. destruct (integers_tail _ _ H) as (t & z & r & l & -> & -> & T & TL). pose proof C as C'. apply clean_app in C. destruct C as (_ & Cr).
    assert (X : int_ (t ++ r) = Some (z, r)) by (apply (int_spec _ _ _ C'); exists t; split; [reflexivity|]; split; [exact T|apply (tail_head _ _ TL)]). rewrite X.
    apply (more_spec (length r) r Cr (le_n _)) in TL. destruct (more (length r) r) as [l' q]. destruct TL as (-> & ->). reflexivity.
Qed.

Lemma find_some c s k : find c s = Some k -> s = firstn k s ++ c :: skipn (k + 1) s /\ ~ In c (firstn k s).
Proof.
  revert k. induction s as [|x s IH]; intros k; cbn [find]; [discriminate|]. destruct (Ascii.eqb_spec x c) as [->|N].
  - intros H. injection H as <-. cbn. auto.
  - destruct (find c s) as [j|]; cbn [option_map]; [|discriminate]. intros H. injection H as <-. destruct (IH j eq_refl) as (I1 & I2).
    change (S j + 1)%nat with (S (j + 1)). cbn [firstn skipn app]. split; [rewrite <- I1; reflexivity|]. intros [->|I]; [congruence|contradiction].
Qed.
Lemma find_none c s : find c s = None -> ~ In c s.
Proof.
  induction s as [|x s IH]; cbn [find]; [auto|]. destruct (Ascii.eqb_spec x c) as [->|N]; [discriminate|]. destruct (find c s); [discriminate|].
  intros _ [->|I]; [congruence|]. exact (IH eq_refl I).
Qed.
Lemma at_bar_spec b : (exists u t, b = u ++ "|"%char :: t /\ ~ In "|"%char u /\ at_bar b = (u, t)) \/ (~ In "|"%char b /\ at_bar b = (b, b)).
Proof.
  unfold at_bar. destruct (find "|" b) as [k|] eqn:E; [left|right].
  - destruct (find_some _ _ _ E) as (E1 & E2). do 2 eexists. split; [exact E1|]. split; [exact E2|reflexivity].
  - split; [apply find_none, E|reflexivity].
Qed.
Lemma one_spec real_of ab q : clean (snd ab) -> (one real_of ab = Some q <-> asks real_of ab q).
Proof.
  destruct ab as (a, b), q as ((lo, hi), ms). cbn [snd]. intros C. unfold one, asks. cbn [fst snd]. destruct (at_bar_spec b) as [(u & t & E & N & ->)|(N & ->)].
  - assert (Ct : clean t) by (rewrite E in C; apply clean_app in C; destruct C as (_ & C); apply clean_cons in C; apply C). split.
    + destruct (real_of a) as [x|]; [|discriminate]. destruct (real_of u) as [y|] eqn:Eu; [|discriminate]. destruct (ints t) as [l|] eqn:El; [|discriminate].
      intros H. injection H as -> -> ->. split; [reflexivity|]. left. exists u, t. repeat split; auto. apply ints_spec; assumption.
    + intros (Ha & [(u' & t' & E' & N' & Hu & Hi)|(N' & _)]).
      * rewrite E in E'. destruct (first_split _ _ _ _ _ N N' E') as (<- & <-). apply (ints_spec t ms Ct) in Hi. rewrite Ha, Hu, Hi. reflexivity.
      * exfalso. apply N'. rewrite E. apply in_or_app. right. left. reflexivity.
  - split.
    + destruct (real_of a) as [x|]; [|discriminate]. destruct (real_of b) as [y|] eqn:Eu; [|discriminate]. destruct (ints b) as [l|] eqn:El; [|discriminate].
      intros H. injection H as -> -> ->. split; [reflexivity|]. right. repeat split; auto. apply ints_spec; assumption.
    + intros (Ha & [(u' & t' & E' & _)|(_ & Hb & Hi)]).
      * exfalso. apply N. rewrite E'. apply in_or_app. right. left. reflexivity.
      * apply (ints_spec b ms C) in Hi. rewrite Ha, Hb, Hi. reflexivity.
Qed.
Lemma reads_clean t l : reads t l -> clean t -> Forall (fun ab => clean (snd ab)) l.
Proof.
  induction 1 as [|a b Ha Hb|a b t l Ha Hb R IH]; intros C; [constructor| |]; apply clean_app in C; destruct C as (_ & C); apply clean_cons in C; destruct C as (_ & C).
  - constructor; [exact C|constructor].
  - apply clean_app in C. destruct C as (C1 & C2). apply clean_cons in C2. constructor; [exact C1|]. apply IH, C2.
Qed.
Lemma all_spec {A B} (f : A -> option B) (Q : A -> B -> Prop) l : Forall (fun x => forall y, f x = Some y <-> Q x y) l -> forall m, all f l = Some m <-> Forall2 Q l m.
Proof.
  induction 1 as [|x l Hx H IH]; intros m; cbn [all].
  - split; [intros E; injection E as <-; constructor|]. intros F. inversion F. reflexivity.
  - split.
    + destruct (f x) as [y|] eqn:E; [|discriminate]. destruct (all f l) as [q|]; [|discriminate]. intros K. injection K as <-. constructor; [apply Hx; reflexivity|]. apply IH. reflexivity.
    + intros F. inversion F as [|? y ? q Fx Fl]; subst. apply Hx in Fx. rewrite Fx. apply IH in Fl. rewrite Fl. reflexivity.
Qed.
Lemma strip_clean s : clean (strip s). Proof. intros c I. apply filter_In in I. destruct I as (_ & I). apply negb_true_iff, I. Qed.

(** What is accepted, and how it is understood: white space does not matter; the rest is a sequence of  a:b  separated by semicolons, each of which has two numbers and a
    list of integers. Everything else is refused. *)
Theorem C90_requests_partial real_of s q : parse_moms real_of s = Some q <-> exists l, reads (strip s) l /\ Forall2 (asks real_of) l q.
Proof.
  unfold parse_moms. split.
  - destruct (phrase s) as [l|] eqn:E; [|discriminate]. apply phrase_spec in E. intros H. exists l. split; [exact E|]. revert H. apply all_spec.
    eapply Forall_impl; [|exact (reads_clean _ _ E (strip_clean s))]. intros ab C y. apply one_spec, C.
  - intros (l & E & H). pose proof E as E'. apply phrase_spec in E. rewrite E. revert H. apply all_spec.
    eapply Forall_impl; [|exact (reads_clean _ _ E' (strip_clean s))]. intros ab C y. apply one_spec, C.
Qed.
(** In particular: requests written as  lo:hi|m,...,m;lo:hi|m,...,m  are understood as written, with any white space anywhere and with or without a semicolon at the end. *)
Fixpoint written (l : list (text * text * text)) : text :=
  match l with
  | [] => []
  | [(a, u, t)] => a ++ ":"%char :: u ++ "|"%char :: t
  | (a, u, t) :: r => a ++ ":"%char :: u ++ "|"%char :: t ++ ";"%char :: written r
  end.
Theorem C90_as_written real_of s l q semicolon :
  strip s = written l ++ (if semicolon : bool then [";"%char] else []) -> (semicolon = true -> l <> []) ->
  Forall2 (fun aut lhm => let '(a, u, t) := aut in let '(lo, hi, ms) := lhm in
    real_of a = Some lo /\ real_of u = Some hi /\ integers t ms /\
    ~ In ":"%char a /\ ~ In ";"%char u /\ ~ In "|"%char u /\ ~ In ";"%char t) l q ->
  parse_moms real_of s = Some q.
Proof.
  intros E Hs F. apply C90_requests_partial. exists (map (fun aut => (fst (fst aut), snd (fst aut) ++ "|"%char :: snd aut)) l). rewrite E. clear E s. split.
  - revert Hs. induction F as [|((a, u), t) ((lo, hi), ms) l q (H1 & H2 & H3 & H4 & H5 & H6 & H7) F IH]; intros Hs.
    + destruct semicolon; [destruct Hs; auto|]. constructor.
    + assert (N : ~ In ";"%char (u ++ "|"%char :: t)) by (intros I; apply in_app_or in I; destruct I as [I|[I|I]]; [contradiction|discriminate|contradiction]).
      cbn [map fst snd]. destruct l as [|aut l].
      * cbn [written map]. destruct semicolon.
        { replace ((a ++ ":"%char :: u ++ "|"%char :: t) ++ [";"%char]) with (a ++ ":"%char :: (u ++ "|"%char :: t) ++ ";"%char :: []).
          - constructor; auto. constructor.
          - rewrite <- !List.app_assoc. cbn [app]. rewrite <- !List.app_assoc. reflexivity. }
        { rewrite List.app_nil_r. constructor; auto. }
      * change (written ((a, u, t) :: aut :: l)) with (a ++ ":"%char :: u ++ "|"%char :: t ++ ";"%char :: written (aut :: l)).
        set (w := written (aut :: l)) in *. clearbody w. set (sc := if semicolon then _ else _) in *. clearbody sc.
        replace ((a ++ ":"%char :: u ++ "|"%char :: t ++ ";"%char :: w) ++ sc) with (a ++ ":"%char :: (u ++ "|"%char :: t) ++ ";"%char :: (w ++ sc)).
        { constructor; auto. apply IH. discriminate. }
        { rewrite <- !List.app_assoc. cbn [app]. rewrite <- !List.app_assoc. cbn [app]. rewrite <- !List.app_assoc. reflexivity. }
  - clear Hs. induction F as [|((a, u), t) ((lo, hi), ms) l q (H1 & H2 & H3 & H4 & H5 & H6 & H7) F IH]; cbn [map fst snd]; constructor; auto.
    split; [exact H1|]. left. exists u, t. auto.
Qed.
(** Refuted: a request without a bar is not refused: its upper bound is taken for the number of the moment as well. *)
Theorem C90_no_bar_refuted real_of : real_of (tx "0") = Some 0 -> real_of (tx "1") = Some 1 ->
  parse_moms real_of (tx "0:1") = Some [(0, 1, [1%Z])].
Proof. intros H0 H1. unfold parse_moms. change (phrase (tx "0:1")) with (Some [(tx "0", tx "1")]). cbn [all]. unfold one. cbn [fst snd]. change (at_bar (tx "1")) with (tx "1", tx "1").
  rewrite H0, H1. reflexivity. Qed.

Print Assumptions C90_requests_partial.
Print Assumptions C90_as_written.
Print Assumptions C90_no_bar_refuted.
