(** Model of collision-coalescence:
    src/impl/coalescence/particles_impl_coal.ipp and its use in src/particles_step.ipp *)
From Coq Require Import List Arith NArith ZArith Reals Bool.
From Verif Require Import Base.
Import ListNotations.
Local Open Scope R_scope.

(** A super-droplet: the attribute vectors touched by coalescence, plus its position as a
    representative of the attributes which are not touched
    (vectors declared in src/impl/particles_impl.ipp). *)
Record sd := mk_sd {
  n    : N;        (* multiplicity *)
  rw2  : R;        (* wet radius squared *)
  rd3  : R;        (* dry radius cubed *)
  vt   : R;        (* terminal velocity *)
  kpa  : R;        (* kappa *)
  chem : nat -> R; (* masses of dissolved chemicals, by species *)
  ict  : R;        (* in-cloud time *)
  rc2  : R;        (* approximate critical radius squared *)
  pos  : R * R * R (* x, y, z *)
}.

(** src/detail/config.hpp: detail::invalid *)
Definition invalid : R := -1.

(** options that steer the pass (opts_init) *)
Record copts := mk_copts {
  chem_switch : bool;
  n_dry_distros : nat;        (* opts_init.dry_distros.size() *)
  n_dry_sizes : nat;          (* opts_init.dry_sizes.size() *)
  n_added_kinds : nat;        (* aerosol kinds brought in later by sources and relaxation
                                 (opts.src_dry_distros, opts.src_dry_sizes, opts_init.rlx_dry_distros);
                                 not consulted by coal *)
  diag_incloud_time : bool;
  act_sstp : bool;            (* sstp_cond_act > 1 && allow_sstp_cond *)
  pure_const_multi : bool
}.
Definition chem_all : nat := 8. (* include/libcloudph++/common/chem.hpp:9-21: H + 1 in enum chem_species_t *)

(** enum na_ge_nb = -2, nb_gt_na = -1 (particles_impl_coal.ipp:15) *)
Definition na_ge_nb : R := -2.
Definition nb_gt_na : R := -1.

(** particles_impl_coal.ipp:98-107, scale_factor. The product n*(n-1) is formed in unsigned 64-bit
    arithmetic in the code; here it does not wrap (n is a number of super-droplets in a cell). *)
Definition scale_factor (k : nat) : R :=
  if Nat.ltb 1 k then (INR (k * (k - 1)) / 2) / INR (k / 2) else 0.

(** particles_impl_coal.ipp:109-143, collide; [a] is the one with higher multiplicity *)
Definition collide (c : N) (a b : sd) : sd * sd :=
  let rw_b := cbrt (N2R c * rw2 a * sqrt (rw2 a) + rw2 b * sqrt (rw2 b)) in
  ( mk_sd (sub64 (n a) (mul64 c (n b))) (rw2 a) (rd3 a) (vt a) (kpa a) (chem a) (ict a) (rc2 a) (pos a),
    mk_sd (n b) (rw_b * rw_b) (N2R c * rd3 a + rd3 b) invalid (kpa b) (chem b) (ict b) (rc2 b) (pos b) ).

Section Pass.
  (** environment of one call to coal(dt, turb_coal): *)
  Variable kernel : nat -> sd -> sd -> R.  (* p_kernel->calc for a pair in a cell (cell properties: rhod, eta, diss_rate) *)
  Variable dt : R.
  Variable dv : nat -> R.                  (* cell volumes *)
  Variable o : copts.
  Variable n_cell : nat.
  Variable garbage_n : nat -> nat.         (* previous contents of the temporary vectors *)
  Variable garbage_r : nat -> R.
  Variables sorted_id sorted_ijk : list nat.

  Definition sid (p : nat) : nat := nth p sorted_id 0%nat.
  Definition sijk (p : nat) : nat := nth p sorted_ijk 0%nat.

  (** hskpng_count (src/impl/housekeeping/particles_impl_hskpng_count.ipp:16-48) *)
  Definition counts : list (nat * nat) := run_lengths sorted_ijk.
  Definition count_n : nat := length counts.

  (** laying out onto the grid through count_ijk (particles_impl_coal.ipp:299-323) *)
  Definition scatter {A} (init : nat -> A) (kv : list (nat * A)) : nat -> A :=
    fold_left (fun f e => upd f (fst e) (snd e)) kv init.
  Definition count_grid : nat -> nat :=
    scatter (if Nat.eqb count_n n_cell then garbage_n else (fun _ => 0%nat)) counts.
  Definition scl : nat -> R :=
    scatter (if Nat.eqb count_n n_cell then garbage_r else (fun _ => 0))
            (map (fun e => (fst e, scale_factor (snd e))) counts).
  (** exclusive_scan (particles_impl_coal.ipp:324-327) *)
  Definition off (c : nat) : nat := sumnat c count_grid.

  (** particles_impl_coal.ipp:217-220 *)
  Definition prob (cell : nat) (a b : sd) : R := dt / dv cell * scl cell * kernel cell a b.

  (** result for one candidate pair (particles_impl_coal.ipp:214-267):
      new first, new second, col of the first, col of the second, increase_sstp_coal raised?
      [u] is the random number stored at the first one's position of the vector shared with col.
      Simplification: conversions of a probability >= 2^64 to n_t (undefined in C++) are unbounded. *)
  Definition collider_pair (cell : nat) (a b : sd) (u : R) : sd * sd * R * R * bool :=
    let pr := prob cell a b in
    let c0 := truncN pr in
    let inc := pure_const_multi o && (1 <=? c0)%N in
    let c1 := if Rltb u (pr - N2R c0) then (c0 + 1)%N else c0 in
    if (c1 =? 0)%N then (a, b, 0, 0, inc)
    else if (n b <=? n a)%N then
      let c := if (0 <? n b)%N then N.min c1 (n a / n b) else c1 in
      let '(a', b') := collide c a b in (a', b', N2R c, na_ge_nb, inc)
    else
      let c := if (0 <? n a)%N then N.min c1 (n b / n a) else c1 in
      let '(b', a') := collide c b a in (a', b', N2R c, nb_gt_na, inc).

  (** state of the launch: SD attribute vectors (by id), the col/u01 vector (by position),
      the flag increase_sstp_coal *)
  Record cst := mk_cst { arr : nat -> sd; col : nat -> R; inc : bool }.

  (** particles_impl_coal.ipp:184-268, collider::operator() at position i.
      cix_a != cix_b - 1 is written as cix_a + 1 != cix_b (equivalent modulo 2^64). *)
  Definition collider_step (st : cst) (i : nat) : cst :=
    let ca := sijk i in let cb := sijk (S i) in
    let cix_a := (i - off ca)%nat in
    if Nat.odd cix_a then st
    else
      let cix_b := (S i - off cb)%nat in
      if negb (Nat.eqb (S cix_a) cix_b) then mk_cst (arr st) (upd (col st) i 0) (inc st)
      else
        let '(a', b', ka, kb, f) := collider_pair ca (arr st (sid i)) (arr st (sid (S i))) (col st i) in
        mk_cst (upd (upd (arr st) (sid i) a') (sid (S i)) b')
               (upd (upd (col st) (S i) kb) i ka)
               (inc st || f).

  (** one of the follow-up launches over pairs of consecutive positions, steered by col
      (particles_impl_coal.ipp:458-545); the functor [f] returns None when it returns early
      without writing *)
  Definition follow_step (f : R -> R -> sd -> sd -> option (sd * sd)) (cl : nat -> R)
             (a : nat -> sd) (i : nat) : nat -> sd :=
    match f (cl i) (cl (S i)) (a (sid i)) (a (sid (S i))) with
    | Some (x, y) => upd (upd a (sid i) x) (sid (S i)) y
    | None => a
    end.

  Definition set_kpa (s : sd) (v : R) := mk_sd (n s) (rw2 s) (rd3 s) (vt s) v (chem s) (ict s) (rc2 s) (pos s).
  Definition set_chem (s : sd) (k : nat) (v : R) :=
    mk_sd (n s) (rw2 s) (rd3 s) (vt s) (kpa s) (upd (chem s) k v) (ict s) (rc2 s) (pos s).
  Definition set_ict (s : sd) (v : R) := mk_sd (n s) (rw2 s) (rd3 s) (vt s) (kpa s) (chem s) v (rc2 s) (pos s).
  Definition set_rc2 (s : sd) (v : R) := mk_sd (n s) (rw2 s) (rd3 s) (vt s) (kpa s) (chem s) (ict s) v (pos s).

  (** summator (particles_impl_coal.ipp:46-57) for chemical species k *)
  Definition summator (k : nat) (ca cb : R) (a b : sd) : option (sd * sd) :=
    if Rleb ca 0 then None
    else if Reqb cb na_ge_nb then Some (a, set_chem b k (chem b k + ca * chem a k))
    else Some (set_chem a k (chem a k + ca * chem b k), b).

  (** the loop over collisions in weighted_summator (particles_impl_coal.ipp:74-94):
      [m] iterations mixing (kx, x) into (ky, y) *)
  Fixpoint mix (m : nat) (kx x ky y : R) : R :=
    match m with
    | O => ky
    | S m' => mix m' kx x ((kx * x + ky * y) / (x + y)) (y + x)
    end.
  (** weighted_summator (particles_impl_coal.ipp:59-96); the number of iterations of
      [for(int ci=0; ci<col; ++ci)] is col, which holds a natural number
      (overflow of the int counter is not modelled) *)
  Definition weighted_summator (ca cb : R) (a b : sd) : option (sd * sd) :=
    if Rleb ca 0 then None
    else if Reqb cb na_ge_nb then
      Some (a, set_kpa b (mix (N.to_nat (truncN ca)) (kpa a) (rd3 a) (kpa b) (rd3 b - ca * rd3 a)))
    else
      Some (set_kpa a (mix (N.to_nat (truncN ca)) (kpa b) (rd3 b) (kpa a) (rd3 a - ca * rd3 b)), b).

  (** selector (particles_impl_coal.ipp:17-31) *)
  Definition selector (ca cb : R) (a b : sd) : option (sd * sd) :=
    if Rleb ca 0 then None
    else if Reqb cb na_ge_nb then Some (a, set_ict b (cmax (ict a) (ict b)))
    else Some (set_ict a (cmax (ict a) (ict b)), b).

  (** invalidator (particles_impl_coal.ipp:33-44) *)
  Definition invalidator (ca cb : R) (a b : sd) : option (sd * sd) :=
    if Rleb ca 0 then None
    else if Reqb cb na_ge_nb then Some (a, set_rc2 b invalid)
    else Some (set_rc2 a invalid, b).

  (** the sequence of follow-up launches; particles_impl_coal.ipp:458-545 *)
  Definition mix_kappa_on : bool := Nat.ltb 1 (n_dry_distros o + n_dry_sizes o).  (* line 482 *)
  Definition follow_ups : list (R -> R -> sd -> sd -> option (sd * sd)) :=
    (if chem_switch o then map summator (seq 0 chem_all) else []) ++
    (if mix_kappa_on then [weighted_summator] else []) ++
    (if diag_incloud_time o then [selector] else []) ++
    (if act_sstp o then [invalidator] else []).

  (** particles_impl_coal.ipp:272-546, coal, after sorting and counting (see HskpngModel for these).
      [u01]: the random numbers. [sched k]: order in which the k-th launch visits positions
      0 .. n_part-2. With n_part = 0 the range of the launch is [0, n_part-1) with an unsigned
      n_part-1 that wraps: undefined behaviour (None). *)
  Definition coal (n_part : nat) (sched : nat -> list nat) (u01 : nat -> R) (sds : nat -> sd)
    : option cst :=
    match n_part with
    | O => None
    | S _ =>
      let st := fold_left collider_step (sched 0%nat) (mk_cst sds u01 false) in
      let fin := fold_left
          (fun (ka : nat * (nat -> sd)) f =>
             (S (fst ka), fold_left (follow_step f (col st)) (sched (fst ka)) (snd ka)))
          follow_ups (1%nat, arr st) in
      Some (mk_cst (snd fin) (col st) (inc st))
    end.
End Pass.
