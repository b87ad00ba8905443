(** * The source which adds to existing super-droplets
    Models src/impl/sources_and_relaxation_of_SDs/particles_impl_src_dry_distros_matching.ipp.
    Simplifications: real arithmetic; only the cell, dry radius and multiplicity of existing super-droplets (the function does
    not use or change others); the marker out_of_bins = 4444444444 is [None]; binary_search in a sorted range is membership. *)
From Coq Require Import List Arith NArith ZArith Reals Bool.
From Verif Require Import Base SpaceModel InitModel.
Import ListNotations.
Open Scope R_scope.

(** an existing super-droplet *)
Record osd := { q_cell : nat; q_rd3 : R; q_n : N }.
Definition no_osd : osd := {| q_cell := 0; q_rd3 := 0; q_n := 0 |}.

(** get_bin_no::operator(), lines 36-41; [count]: number of bins *)
Definition get_bin_no (lo hi rd3 : R) (count : nat) : option nat :=
  let l := ln rd3 / 3 in
  if Rltb l lo || Rleb hi l || Nat.eqb count 0 then None
  else Some (N.to_nat (truncN ((l - lo) / (hi - lo) * INR count))).

(** thrust::unique_by_key, line 164: the first of each group of neighbours with equal keys is left; only the number of the bin
    is compared, not the cell *)
Fixpoint unique_by_key (l : list (nat * nat)) : list (nat * nat) :=
  match l with
  | [] => []
  | x :: r =>
    x :: match unique_by_key r with
         | y :: s => if Nat.eqb (fst x) (fst y) then s else y :: s
         | [] => []
         end
  end.

(** thrust::reduce_by_key of ones, lines 259-270: groups of neighbours with equal numbers of bins, again without regard to cells *)
Definition opt_eqb (a b : option nat) : bool :=
  match a, b with Some x, Some y => Nat.eqb x y | None, None => true | _, _ => false end.
Fixpoint reduce_by_key (l : list (option nat)) : list (option nat * nat) :=
  match l with
  | [] => []
  | x :: r =>
    match reduce_by_key r with
    | (y, k) :: s => if opt_eqb x y then (x, S k) :: s else (x, 1%nat) :: (y, k) :: s
    | [] => [(x, 1%nat)]
    end
  end.
(** thrust::exclusive_scan, lines 273-277 *)
Fixpoint with_ptr (p : nat) (l : list (option nat * nat)) : list (option nat * nat * nat) :=
  match l with [] => [] | (x, k) :: r => (x, p, k) :: with_ptr (p + k) r end.
(** removal of those out of bins, lines 280-302 *)
Definition in_bins (l : list (option nat * nat * nat)) : list (option nat * nat * nat) :=
  filter (fun t => match fst (fst t) with Some _ => true | None => false end) l.
(** a random member of each group, lines 306-327: positions in the sorted order *)
Fixpoint choose (u : nat -> R) (j : nat) (l : list (option nat * nat * nat)) : list nat :=
  match l with
  | [] => []
  | (_, p, k) :: r => (p + N.to_nat (truncN (u j * INR k)))%nat :: choose u (S j) r
  end.

Section Matching.
  Variables (o : icfg) (b : box) (D : distro) (number : nat) (sup_dt : R).
  (** random numbers for new super-droplets and for the choice *)
  Variables (d : draws) (u : nat -> R).
  (** existing super-droplets and the order of sorting, [sorted_id], lines 67-98 *)
  Variables (pop : list osd) (order : list nat).

  Definition old (id : nat) : osd := nth id pop no_osd.
  Definition s_counts : list nat := counts_src o b number.
  Definition s_lo : R := ln (di_min D).
  Definition s_hi : R := ln (di_max D).
  (** lines 122-131: bins of existing super-droplets *)
  Definition bin_of (id : nat) : option nat := get_bin_no s_lo s_hi (q_rd3 (old id)) (nth (q_cell (old id)) s_counts 0%nat).
  (** lines 146-169 *)
  Definition tmp_bin_no : list (nat * nat) :=
    flat_map (fun id => match bin_of id with Some x => [(x, q_cell (old id))] | None => [] end) order.
  Definition matched_bins : list (nat * nat) := unique_by_key tmp_bin_no.
  Definition have_match (c : nat) (x : option nat) : bool :=
    match x with
    | Some x => existsb (fun e => Nat.eqb (fst e) x && Nat.eqb (snd e) c) matched_bins
    | None => false
    end.
  (** lines 133-143 and 171-232: new super-droplets without a match, with multiplicity from the distribution *)
  Definition s_rd3 : nat -> nat -> R := rd3_sd_conc s_lo s_hi s_counts d.
  Definition s_cell : nat -> nat := init_ijk s_counts (fun _ => 0%nat).
  Definition s_mult : R := analysis_multiplier o (N.of_nat number) sup_dt (di_min D) (di_max D).
  Definition amount (c : nat) (rd3 : R) : N := n_sd_conc o (di_f D) s_mult c rd3.
  Definition without_match : list nat :=
    filter (fun k => negb (have_match (s_cell k) (get_bin_no s_lo s_hi (s_rd3 k (s_cell k)) (nth (s_cell k) s_counts 0%nat))))
           (seq 0 (list_sum s_counts)).
  Definition new_sds : list csd :=
    map (fun ik => let '(i, k) := ik in let c := s_cell k in
           let '(x, y, z) := position o d c i in mk_csd c (s_rd3 k c) (di_kappa D) (amount c (s_rd3 k c)) x y z)
        (combine (seq 0 (length without_match)) without_match).
  (** lines 254-400: existing super-droplets whose multiplicities are increased *)
  Definition chosen : list nat :=
    map (fun p => nth p order 0%nat) (choose u 0 (in_bins (with_ptr 0 (reduce_by_key (map bin_of order))))).
  Definition n_after : nat -> N :=
    fold_left (fun n id => upd n id (n id + amount (q_cell (old id)) (q_rd3 (old id)))%N) chosen (fun id => q_n (old id)).
End Matching.
