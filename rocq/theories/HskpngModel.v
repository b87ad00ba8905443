(** Model of sorting and counting super-droplets by cell:
    src/impl/housekeeping/particles_impl_hskpng_sort.ipp, particles_impl_hskpng_count.ipp *)
From Coq Require Import List Arith Permutation Sorted.
From Verif Require Import Base.
Import ListNotations.

(** hskpng_sort_helper (particles_impl_hskpng_sort.ipp:14-56): [ijk] are the cells of the
    super-droplets, by id. With shuffling the sequence of ids is first sorted by random keys [un].
    thrust::sort_by_key is not stable, hence a relation to all admissible results. *)
Definition sort_helper (shuffle : bool) (ijk : list nat) (sorted_ijk sorted_id : list nat) : Prop :=
  let sequence := seq 0 (length ijk) in
  if shuffle then
    exists un un' ids,
      length un = length ijk /\
      sort_by_key_result un sequence un' ids /\
      sort_by_key_result (map (fun id => nth id ijk 0) ids) ids sorted_ijk sorted_id
  else
    sort_by_key_result ijk sequence sorted_ijk sorted_id.

(** hskpng_count (particles_impl_hskpng_count.ipp:16-48): (count_ijk, count_num) up to count_n *)
Definition hskpng_count (sorted_ijk : list nat) : list (nat * nat) := run_lengths sorted_ijk.
