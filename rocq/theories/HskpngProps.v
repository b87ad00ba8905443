(** C44: sorting groups super-droplets by cell and per-cell counts are exact. *)
From Coq Require Import List Arith Lia Permutation Sorted Bool.
From Verif Require Import Base BaseProofs HskpngModel HskpngProofs.
Import ListNotations.

(** Whatever the random keys and the (possibly unstable) sort: the ids are a permutation of all
    super-droplets, the sorted cells are the cells of the sorted ids and are non-decreasing. *)
Theorem C44_sort_groups_by_cell :
  forall shuffle ijk sorted_ijk sorted_id,
    sort_helper shuffle ijk sorted_ijk sorted_id ->
    Permutation sorted_id (seq 0 (length ijk)) /\
    sorted_ijk = map (fun id => nth id ijk 0) sorted_id /\
    (forall p q, p <= q < length ijk ->
       nth (nth p sorted_id 0) ijk 0 <= nth (nth q sorted_id 0) ijk 0).
Proof.
  intros sh ijk sijk sid H. apply sort_helper_spec in H as (HP & HE & HS).
  split; [exact HP|split; [exact HE|]]. intros p q Hpq.
  assert (Hl : length sid = length ijk) by (now apply perm_len).
  assert (HL : forall r, r < length ijk -> nth (nth r sid 0) ijk 0 = nth r sijk 0).
  { intros r Hr. rewrite HE. symmetry. apply (nth_map_lt (fun id => nth id ijk 0)). lia. }
  rewrite !HL by lia. apply Sorted_nth_le; auto; [lia|]. rewrite HE, map_length. lia.
Qed.
Print Assumptions C44_sort_groups_by_cell.

(** Counting after sorting lists exactly the non-empty cells, in strictly increasing order, each
    with the exact number of super-droplets residing in it. *)
Theorem C44_counts_exact :
  forall shuffle ijk sorted_ijk sorted_id,
    sort_helper shuffle ijk sorted_ijk sorted_id ->
    let counts := hskpng_count sorted_ijk in
    StronglySorted lt (map fst counts) /\
    (forall cell, In cell (map fst counts) <-> In cell ijk) /\
    (forall cell num, In (cell, num) counts -> num = count_occ Nat.eq_dec ijk cell /\ 0 < num) /\
    (forall n_cell, (forall c, In c ijk -> c < n_cell) -> length counts <= n_cell).
Proof.
  intros sh ijk sijk sid H counts. apply sort_helper_spec in H as (HP & HE & HS).
  assert (HPi : Permutation sijk ijk).
  { rewrite HE, HP. now rewrite map_nth_seq. }
  assert (HSS := run_lengths_sorted sijk HS).
  split; [exact HSS|]. split; [|split].
  - intros cell. unfold counts, hskpng_count. rewrite run_lengths_keys.
    split; apply Permutation_in; [exact HPi|now symmetry].
  - intros cell num Hin. split; [|exact (run_lengths_pos _ _ Hin)].
    rewrite (run_lengths_count sijk cell num HS Hin).
    exact (proj1 (Permutation_count_occ Nat.eq_dec _ _) HPi cell).
  - intros n_cell Hb. replace (length counts) with (length (map fst counts)) by apply map_length.
    rewrite <- (seq_length n_cell 0).
    apply NoDup_incl_length; [apply StronglySorted_lt_NoDup; auto|].
    intros c Hc. apply (proj1 (run_lengths_keys sijk c)) in Hc. apply in_seq.
    assert (c < n_cell); [|lia]. apply Hb. eapply Permutation_in; eauto.
Qed.
Print Assumptions C44_counts_exact.

(** the hypotheses are met: both a plain and a shuffled sort of five super-droplets in three cells *)
Example sort_instance_plain :
  sort_helper false [2;0;2;1;0] [0;0;1;2;2] [1;4;3;0;2].
Proof.
  unfold sort_helper, sort_by_key_result. split; [reflexivity|]. split; [reflexivity|]. split.
  - apply Permutation_sym. exact (isort_perm (combine [2;0;2;1;0] (seq 0 5))).
  - repeat constructor.
Qed.
Example sort_instance_shuffled :
  sort_helper true [2;0;2;1;0] [0;0;1;2;2] [4;1;3;2;0].
Proof.
  unfold sort_helper. exists [9;7;3;8;1], [1;3;7;8;9], [4;2;1;3;0]. split; [reflexivity|]. split.
  - split; [reflexivity|]. split; [reflexivity|]. split; [|repeat constructor].
    apply Permutation_sym. exact (isort_perm (combine [9;7;3;8;1] (seq 0 5))).
  - split; [reflexivity|]. split; [reflexivity|]. split; [|repeat constructor].
    apply Permutation_sym. exact (isort_perm (combine [0;2;0;1;2] [4;2;1;3;0])).
Qed.
