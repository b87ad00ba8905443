(** Common definitions: vectors, sums, sorting by key, reduction by key.
    Thrust algorithms are modelled by their sequential specification. *)
From Coq Require Import List Arith NArith ZArith Lia Reals Lra Permutation Sorted Bool.
Import ListNotations.

(** A device vector of length [len] is modelled as a total function together with its length
    (kept elsewhere); only indices below the length are meaningful. *)
Definition upd {A} (f : nat -> A) (i : nat) (v : A) : nat -> A :=
  fun j => if Nat.eqb j i then v else f j.

(** sums of the first [m] entries *)
Fixpoint sumR (m : nat) (f : nat -> R) : R :=
  match m with O => 0%R | S k => (sumR k f + f k)%R end.
Fixpoint sumN (m : nat) (f : nat -> N) : N :=
  match m with O => 0%N | S k => (sumN k f + f k)%N end.
Fixpoint sumnat (m : nat) (f : nat -> nat) : nat :=
  match m with O => 0 | S k => sumnat k f + f k end.

(** sums over lists *)
Definition lsumR (l : list R) : R := fold_right Rplus 0%R l.
Definition lsumN (l : list N) : N := fold_right N.add 0%N l.

(** [thrust::sort_by_key] (not guaranteed to be stable): any reordering of the key-value pairs with
    non-decreasing keys is an admissible result. *)
Definition sort_by_key_result {A} (keys : list nat) (vals : list A)
           (keys' : list nat) (vals' : list A) : Prop :=
  length keys = length vals /\ length keys' = length vals' /\
  Permutation (combine keys vals) (combine keys' vals') /\ Sorted le keys'.

(** [thrust::reduce_by_key] with constant value 1: runs of equal consecutive keys and run lengths *)
Fixpoint run_lengths (keys : list nat) : list (nat * nat) :=
  match keys with
  | [] => []
  | k :: ks =>
    match run_lengths ks with
    | (k', c) :: rest => if Nat.eqb k k' then (k', S c) :: rest else (k, 1) :: (k', c) :: rest
    | [] => [(k, 1)]
    end
  end.

(** an executable (insertion) sort by key, used only to exhibit instances *)
Fixpoint ins {A} (k : nat) (v : A) (l : list (nat * A)) : list (nat * A) :=
  match l with
  | [] => [(k, v)]
  | (k', v') :: r => if Nat.leb k k' then (k, v) :: l else (k', v') :: ins k v r
  end.
Definition isort {A} (l : list (nat * A)) : list (nat * A) :=
  fold_right (fun kv acc => ins (fst kv) (snd kv) acc) [] l.

(** boolean decision on reals *)
Definition Rltb (a b : R) : bool := if Rlt_dec a b then true else false.
Definition Rleb (a b : R) : bool := if Rle_dec a b then true else false.
Definition Reqb (a b : R) : bool := if Req_EM_T a b then true else false.

(** C++ std::min / std::max (comparison as in the standard: first argument returned unless
    the second is strictly smaller / larger) *)
Definition cmin (a b : R) : R := if Rltb b a then b else a.
Definition cmax (a b : R) : R := if Rltb a b then b else a.

(** std::cbrt *)
Definition cbrt (x : R) : R :=
  if Rlt_dec 0 x then Rpower x (/3)
  else if Rlt_dec x 0 then (- Rpower (- x) (/3))%R else 0%R.

(** conversion of a non-negative real to an unsigned integer (C++ truncation) *)
Definition truncN (x : R) : N := Z.to_N (Int_part x).

(** unsigned 64-bit arithmetic of n_t (src/impl/particles_impl.ipp:29, unsigned long long) *)
Definition W64 : Z := 18446744073709551616%Z. (* 2^64 *)
Definition wrap64 (z : Z) : N := Z.to_N (z mod W64).
Definition sub64 (a b : N) : N := wrap64 (Z.of_N a - Z.of_N b).
Definition mul64 (a b : N) : N := wrap64 (Z.of_N a * Z.of_N b).

(** conversion of an unsigned integer to real *)
Definition N2R (n : N) : R := IZR (Z.of_N n).
