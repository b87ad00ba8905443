(** Selection of super-droplets and per-cell moments:
    src/impl/diagnose_SD_attributes/particles_impl_moms.ipp *)
From Coq Require Import List Arith NArith ZArith Reals Bool.
From Verif Require Import Base SpaceModel ThermoModel.
Import ListNotations.
Local Open Scope R_scope.

(** [thrust::reduce_by_key] with addition: one (key, sum) per run of equal consecutive keys *)
Fixpoint run_sums (keys : list nat) (vals : list R) : list (nat * R) :=
  match keys, vals with
  | k :: ks, v :: vs =>
    match run_sums ks vs with
    | (k', s) :: rest => if Nat.eqb k k' then (k', v + s) :: rest else (k, v) :: (k', s) :: rest
    | [] => [(k, v)]
    end
  | _, _ => []
  end.

(** [thrust::transform] with a permutation iterator over count_ijk as output (and possibly second input): for each
    (cell, value) the entry of that cell becomes [f entry value].  The cells are distinct, so that the order of
    execution does not matter (proved in MomsProofs: scatter_spec). *)
Definition scatter (f : R -> R -> R) (kvs : list (nat * R)) (base : nat -> R) : nat -> R :=
  fold_left (fun acc kv => upd acc (fst kv) (f (acc (fst kv)) (snd kv))) kvs base.

(** range_filter (16-29), comp_filter (31-44), the functors of moms_ge0 (149), moms_gt0 (183, 192), moms_eq0 (223, 232) *)
Definition range_filter (mn mx y x : R) : R := if Rleb mn x && Rltb x mx then y else 0.
Definition comp_filter (y x c : R) : R := if Rleb c x then y else 0.
Definition ge0_filter (y x : R) : R := if Rleb 0 x then y else 0.
Definition gt0_filter (y x : R) : R := if Rltb 0 x then y else 0.
Definition eq0_filter (y x : R) : R := if Reqb x 0 then y else 0.

(** moment_counter (238-279), release build: pow(x, xp) for x >= 0, pow(x, int(xp)) otherwise *)
Definition moment_counter (xp n x : R) : R :=
  if Rleb 0 x then n * cpow x xp else n * powerRZ x (truncZ xp).

(** moms_calc (281-385): [specific] is "specific && n_dims > 0"; [nf] is n_filtered, [x] the attribute.
    The result is the pairs (count_ijk, count_mom) up to count_n. *)
Definition moms_calc (specific : bool) (dv rhod : nat -> R) (sijk sid : list nat) (nf x : nat -> R) (xp : R)
  : list (nat * R) :=
  let sums := run_sums sijk (map (fun id => moment_counter xp (nf id) (x id)) sid) in
  if specific then map (fun kv => (fst kv, snd kv / dv (fst kv) / rhod (fst kv))) sums else sums.
