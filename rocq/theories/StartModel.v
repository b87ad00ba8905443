(** * Starting a simulation: the factory, the recognition of parallel launches, and the ends of sub-domains
    src/lib.cpp:15-38 (factory), src/detail/ran_with_mpi.hpp, src/detail/bcond.hpp, src/particles_ctor.ipp:16-58,
    bindings/python/lgrngn.hpp:40-48, src/impl_multi_gpu/particles_multi_gpu_impl.ipp:118-170.
    Not here: what the constructors allocate; opts_init.dev_id (cudaSetDevice); the access between devices. *)
From Coq Require Import String Ascii List Arith ZArith Bool.
Import ListNotations.
Local Open Scope string_scope.

(** ** getenv and atoi *)
(** std::getenv: None is NULL *)
Definition env := string -> option string.
(** std::atoi: leading white space, a sign, digits up to the first other character. Overflow of int is left out. *)
Definition is_space (a : ascii) : bool :=
  let n := nat_of_ascii a in ((n =? 32) || ((9 <=? n) && (n <=? 13)))%nat.
Definition digit (a : ascii) : option Z :=
  let n := nat_of_ascii a in if ((48 <=? n) && (n <=? 57))%nat then Some (Z.of_nat (n - 48)) else None.
Fixpoint atoi_digits (acc : Z) (s : string) : Z :=
  match s with
  | EmptyString => acc
  | String a s' => match digit a with Some v => atoi_digits (10 * acc + v) s' | None => acc end
  end.
Fixpoint skip_space (s : string) : string :=
  match s with String a s' => if is_space a then skip_space s' else s | EmptyString => s end.
Definition atoi (s : string) : Z :=
  match skip_space s with
  | String a s' => if Ascii.eqb a "-" then (- atoi_digits 0 s')%Z else if Ascii.eqb a "+" then atoi_digits 0 s' else atoi_digits 0 (String a s')
  | EmptyString => 0%Z
  end.

(** ** ran_with_mpi.hpp:5-17. None: undefined behaviour, atoi(NULL). *)
Definition one_launcher (e : env) (rank size : string) : option bool :=
  match e rank with
  | None => Some false
  | Some _ => match e size with None => None | Some s => Some (1 <? atoi s)%Z end
  end.
(** || of C++: the right operand is evaluated only if the left one is false *)
Definition or_else (a b : option bool) : option bool :=
  match a with None => None | Some true => Some true | Some false => b end.
Definition ran_with_mpi (e : env) : option bool :=
  or_else (or_else (or_else (one_launcher e "PMI_RANK" "PMI_SIZE")
    (one_launcher e "OMPI_COMM_WORLD_RANK" "OMPI_COMM_WORLD_SIZE"))
    (one_launcher e "LAMRANK" "LAMSIZE"))
    (one_launcher e "MV2_COMM_WORLD_RANK" "MV2_COMM_WORLD_SIZE").

(** ** What happens when an object is asked for *)
(** src/detail/bcond.hpp:9-15 *)
Inductive bcond := sharedmem | distmem_cuda | distmem_mpi | open.
(** include/libcloudph++/lgrngn/backend.hpp:8 *)
Inductive backend := undefined | serial | OpenMP | CUDA | multi_CUDA.
(** undefined behaviour; an exception; an object (or one for each device) of a backend, with the ends of each sub-domain *)
Inductive started := Undef | Throws | Object (b : backend) (ends : list (bcond * bcond)).

(** how the library was compiled: USE_MPI, CUDA_FOUND, MULTICUDA_FOUND, _OPENMP *)
Record build := mk_build { b_mpi : bool; b_cuda : bool; b_multi : bool; b_openmp : bool }.
(** what a process finds: its environment, its rank and the number of processes in MPI_COMM_WORLD, whether MPI was initialised
    with MPI_THREAD_MULTIPLE and by this thread, the number of devices that the constructor of the multi-GPU backend
    settles on (None: it refuses; McudaDiagModel.mcuda_ctor, with at least one device present) *)
Record host := mk_host { h_env : env; h_rank : nat; h_size : nat; h_threads : bool; h_devs : option nat }.

(** particles_ctor.ipp:36-58 *)
Definition bcond_ctor (open_side_walls : bool) (rank size : nat) : bcond * bcond :=
  if (1 <? size)%nat then
    if negb open_side_walls then (distmem_mpi, distmem_mpi)
    else if (rank =? 0)%nat then (open, distmem_mpi)
    else if (rank =? size - 1)%nat then (distmem_mpi, open)
    else (distmem_mpi, distmem_mpi)
  else if negb open_side_walls then (sharedmem, sharedmem) else (open, open).

(** particles_ctor.ipp:22-58: the constructor of particles_t *)
Definition ctor (B : build) (osw : bool) (H : host) (b : backend) : started :=
  if b_mpi B then Object b [bcond_ctor osw (h_rank H) (h_size H)]
  else match ran_with_mpi (h_env H) with
       | None => Undef
       | Some true => Throws
       | Some false => Object b [bcond_ctor osw 0 1]
       end.

(** distmem_access.ipp:14-18: distmem_mpi() is this for one of the two ends *)
Definition is_mpi (x : bcond) : bool := match x with distmem_mpi => true | _ => false end.
(** particles_multi_gpu_impl.ipp:147-167: the ends of device [d] of [n], those of the process being [bc] *)
Definition dev_ends (osw : bool) (bc : bcond * bcond) (d n : nat) : bcond * bcond :=
  if (1 <? n)%nat then
    let bc1 :=
      if (d =? 0)%nat then (fst bc, distmem_cuda)
      else if (d =? n - 1)%nat then (distmem_cuda, snd bc)
      else (distmem_cuda, distmem_cuda) in
    if negb (is_mpi (fst bc1) || is_mpi (snd bc1)) && negb osw then
      if (d =? 0)%nat then (distmem_cuda, snd bc1)
      else if (d =? n - 1)%nat then (fst bc1, distmem_cuda)
      else bc1
    else bc1
  else bc.

(** particles_multi_gpu_impl.ipp:40-170: the checks, then a particles_t for each device *)
Definition ctor_multi (B : build) (osw : bool) (H : host) : started :=
  match h_devs H with
  | None => Throws
  | Some n =>
      if b_mpi B && negb (h_threads H) then Throws
      else match ctor B osw H CUDA with
           | Object _ [bc] => Object multi_CUDA (map (fun d => dev_ends osw bc d n) (seq 0 n))
           | Object _ _ => Throws
           | x => if (0 <? n)%nat then x else Object multi_CUDA []
           end
  end.

(** src/lib.cpp:15-38 *)
Definition factory (B : build) (osw : bool) (H : host) (b : backend) : started :=
  match b with
  | multi_CUDA => if b_multi B then ctor_multi B osw H else Throws
  | CUDA => if b_cuda B then ctor B osw H CUDA else Throws
  | OpenMP => if b_openmp B then ctor B osw H OpenMP else Throws
  | serial => ctor B osw H serial
  | undefined => Throws
  end.
(** bindings/python/lgrngn.hpp:40-48 *)
Definition py_factory (B : build) (osw : bool) (H : host) (b : backend) : started :=
  match ran_with_mpi (h_env H) with
  | None => Undef
  | Some true => Throws
  | Some false => factory B osw H b
  end.
