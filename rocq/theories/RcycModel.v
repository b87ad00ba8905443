(** Model of recycling and removal of zero-multiplicity super-droplets:
    src/impl/housekeeping/particles_impl_rcyc.ipp, particles_impl_hskpng_remove.ipp,
    particles_impl_hskpng_resize.ipp, src/impl/distributed_memory/particles_impl_post_copy.ipp *)
From Coq Require Import List Arith NArith Reals Bool.
From Verif Require Import Base.
Import ListNotations.

(** The population: number of super-droplets, multiplicities, [nvec] real attribute vectors
    (distmem_real_vctrs, src/impl/particles_impl.ipp:440-491) and [nchem] blocks of chemical masses
    stored in one flat vector, block b of super-droplet i at b*np+i
    (src/impl/initialization/particles_impl_init_chem.ipp:131-166; the code has three such flat vectors,
    treated in the same way; one is modelled). Vectors are functions of the index. *)
Record pop := mk_pop {
  np : nat;
  mult : nat -> N;
  vec : nat -> nat -> R;
  chem_vec : nat -> R
}.

(** thrust::remove_if with a stencil on the range [bgn, bgn+len): the kept elements are moved in
    order to the front; what is left behind them is unspecified ([gar]).
    Returns the new contents and the number of elements kept. *)
Definition kept (stencil : nat -> N) (len : nat) : list nat :=
  filter (fun i => negb (stencil i =? 0)%N) (seq 0 len).
Definition remove_if {A} (gar : nat -> A) (bgn len : nat) (stencil : nat -> N) (f : nat -> A) : (nat -> A) * nat :=
  let keep := kept stencil len in
  ((fun j => if (j <? bgn) || (bgn + len <=? j) then f j
             else if j - bgn <? length keep then f (bgn + nth (j - bgn) keep 0) else gar j),
   length keep).
(** vector::erase(first, last) *)
Definition erase {A} (first last : nat) (f : nat -> A) : nat -> A :=
  fun j => if j <? first then f j else f (j + (last - first)).

(** the loop over chemical compounds (particles_impl_hskpng_remove.ipp:25-45), from the last block to
    the first; the blocks start at b * n_part with the old n_part *)
Fixpoint remove_chem (gar : nat -> R) (n_part : nat) (stencil : nat -> N) (b : nat) (f : nat -> R) : nat -> R :=
  match b with
  | O => f
  | S b' =>
    let '(f', k) := remove_if gar (b' * n_part) n_part stencil f in
    remove_chem gar n_part stencil b' (erase (b' * n_part + k) (b' * n_part + n_part) f')
  end.

(** hskpng_remove_n0 (particles_impl_hskpng_remove.ipp:20-76): chemistry, then the real vectors one by
    one, then the multiplicities; hskpng_resize_npart (particles_impl_hskpng_resize.ipp:7-33) throws
    ([None]) if the number of super-droplets exceeds n_sd_max.  *)
Definition remove_vecs (gar : nat -> R) (nvec : nat) (p : pop) : pop :=
  fold_left (fun p v => mk_pop (np p) (mult p)
                (fun w => if w =? v then fst (remove_if gar 0 (np p) (mult p) (vec p w)) else vec p w)
                (chem_vec p))
            (seq 0 nvec) p.
Definition remove_n (garn : nat -> N) (p : pop) : pop :=
  let '(n', k) := remove_if garn 0 (np p) (mult p) (mult p) in mk_pop k n' (vec p) (chem_vec p).
Definition resize_npart (n_sd_max : nat) (p : pop) : option pop :=
  if n_sd_max <? np p then None else Some p.
Definition remove_n0 (gar : nat -> R) (garn : nat -> N) (n_sd_max nvec nchem : nat) (p : pop) : option pop :=
  let p1 := mk_pop (np p) (mult p) (vec p) (remove_chem gar (np p) (mult p) nchem (chem_vec p)) in
  resize_npart n_sd_max (remove_n garn (remove_vecs gar nvec p1)).

(** thrust::find of 1 in the reversed multiplicities: number of elements passed before the first 1
    (all of them if there is none), particles_impl_rcyc.ipp:82-86 *)
Fixpoint find1 (l : list nat) : nat :=
  match l with [] => 0 | x :: r => if x =? 1 then 0 else S (find1 r) end.

(** thrust::copy_n / thrust::transform from the reversed to the forward permutation
    (copy_prop, particles_impl_rcyc.ipp:16-31, and the first transform, 112-121); the elements are
    processed in the order given by [sched]. [base] is the offset of the block in the vector. *)
Definition xfer {A} (op : A -> A) (base : nat) (sid : list nat) (sched : list nat) (f : nat -> A) : nat -> A :=
  fold_left (fun f k => upd f (base + nth k sid 0) (op (f (base + nth (length sid - 1 - k) sid 0)))) sched f.
(** second transform (particles_impl_rcyc.ipp:124-132), in place on the reversed permutation *)
Definition halve (sid : list nat) (sched : list nat) (f : nat -> N) : nat -> N :=
  fold_left (fun f k => upd f (nth (length sid - 1 - k) sid 0) (N.div (f (nth (length sid - 1 - k) sid 0)) 2)) sched f.

Definition count_zero (p : pop) : nat := length (filter (fun i => (mult p i =? 0)%N) (seq 0 (np p))).

(** rcyc (particles_impl_rcyc.ipp:44-138). [tmp], [sid] is a result of the sort_by_key by multiplicity
    (l. 74-77); [sched l] is the order in which the elements of launch number l are processed, for a
    launch over m elements it is the order [sched l m]. [pcm] is pure_const_multi.
    Launches: v < nvec copies attribute v; nvec + b copies chemical b; nvec+nchem, nvec+nchem+1 are the
    transforms of the multiplicities. *)
Definition rcyc (gar : nat -> R) (garn : nat -> N) (n_sd_max nvec nchem : nat) (pcm : bool)
    (tmp sid : list nat) (sched : nat -> nat -> list nat) (p : pop) : option pop :=
  let n_to_rcyc := count_zero p in
  if n_to_rcyc =? 0 then Some p
  else if pcm then remove_n0 gar garn n_sd_max nvec nchem p
  else
    let n_splittable := find1 (rev tmp) in
    if n_splittable =? 0 then remove_n0 gar garn n_sd_max nvec nchem p
    else
      let n_flagged := if n_splittable <? n_to_rcyc then n_splittable else n_to_rcyc in
      let vec' := fun v => if v <? nvec then xfer (fun x => x) 0 sid (sched v n_flagged) (vec p v) else vec p v in
      let chem' := fold_left (fun f b => xfer (fun x => x) (b * np p) sid (sched (nvec + b) n_flagged) f)
                             (seq 0 nchem) (chem_vec p) in
      let n1 := xfer (fun x => x - x / 2)%N 0 sid (sched (nvec + nchem) n_flagged) (mult p) in
      let n2 := halve sid (sched (nvec + nchem + 1) n_flagged) n1 in
      let p' := mk_pop (np p) n2 vec' chem' in
      if n_flagged <? n_to_rcyc then remove_n0 gar garn n_sd_max nvec nchem p' else Some p'.

(** post_copy (particles_impl_post_copy.ipp:17-28): end-of-step clean-up *)
Definition clean_up (gar : nat -> R) (garn : nat -> N) (n_sd_max nvec nchem : nat) (pcm : bool)
    (tmp sid : list nat) (sched : nat -> nat -> list nat) (opt_rcyc : bool) (p : pop) : option pop :=
  if opt_rcyc then rcyc gar garn n_sd_max nvec nchem pcm tmp sid sched p
  else remove_n0 gar garn n_sd_max nvec nchem p.
