(** The Python bindings: conversion of NumPy arrays (bindings/python/util.hpp), keyword arguments (bindings/python/lib.cpp)
    and setters of options (bindings/python/lgrngn.hpp, blk_2m.hpp). real_t is double (lib.cpp:30). *)
From Coq Require Import List ZArith Reals Bool Lia Arith.
From Verif Require Import Base E2lModel.
Import ListNotations.
Local Open Scope Z_scope.

(** ** NumPy arrays *)
(** what the bindings see of an array: dtype.name, flags.c_contiguous, shape and strides (in bytes). The data pointer is not
    modelled: elements are numbered from it. *)
Inductive dtype := Float64 | Object | OtherType.
Record ndarray := { np_dtype : dtype; np_c_contiguous : bool; np_shape : list Z; np_strides : list Z }.

(** a call throws, returns an empty arrinfo_t, or one with strides; [Overrun]: elements beyond the end of a std::vector
    were written, so nothing can be said about the rest of the program *)
Inductive np_result := Throws | Null | Arr (strides : list Z) | Overrun.

(** sanity_checks (util.hpp:37-46) *)
Definition sanity_checks (a : ndarray) : bool :=
  match np_dtype a with Float64 => true | _ => false end && np_c_contiguous a.

(** ptrdiff_t divided by sizeof: the division is done in a 64-bit unsigned type (util.hpp:97) *)
Definition elements (bytes : Z) : Z := (bytes mod 2 ^ 64) / 8.

(** n_dims of np2ai (util.hpp:86-91) *)
Definition np_n_dims (nx ny nz : Z) : nat :=
  if (0 <? nx) && (0 <? ny) && (0 <? nz) then 3%nat
  else if (0 <? nx) && (ny =? 0) && (0 <? nz) then 2%nat
  else if (nx =? 0) && (ny =? 0) && (0 <? nz) then 1%nat
  else if (1 <? nx) && (ny =? 0) && (nz =? 0) then 1%nat
  else 0%nat.

(** strides[i] = ... for all i of the Python array (93-97): the vector has max(1, n_dims) elements, initially 0; None when
    an element beyond its end is written *)
Fixpoint fill (size : nat) (s : list Z) : option (list Z) :=
  match size, s with
  | _, [] => Some (repeat 0 size)
  | O, _ :: _ => None
  | S n, x :: s => match fill n s with Some r => Some (elements x :: r) | None => None end
  end.

(** np2ai (util.hpp:74-157) *)
Definition np2ai (a : ndarray) (nx ny nz : Z) : np_result :=
  match np_dtype a with
  | Object => Null                                              (* 80-81: not_numeric (68-72) *)
  | _ =>
  if negb (sanity_checks a) then Throws else                    (* 83 *)
  let d := np_n_dims nx ny nz in
  match fill (Nat.max 1 d) (np_strides a) with                  (* 93-97 *)
  | None => Overrun
  | Some s =>
    match d with
    | 3%nat => match length (np_shape a) with                   (* 103-115 *)
               | 3%nat => Arr s
               | 1%nat => Arr [0; 0; nth 0 s 0]
               | _ => Throws end
    | 2%nat => match length (np_shape a) with                   (* 116-128 *)
               | 2%nat => Arr s
               | 1%nat => Arr [0; nth 0 s 0]
               | _ => Throws end
    | 1%nat => match length (np_shape a) with 1%nat => Arr s | _ => Throws end   (* 129-132 *)
    | _ => match np_shape a with [n] => if n =? 1 then Arr s else Throws | _ => Throws end   (* 133-138 *)
    end
  end
  end.

(** np2bz (util.hpp:48-62): a one-dimensional array of all elements, whatever the shape; None when it throws *)
Fixpoint prodZ (l : list Z) : Z := match l with [] => 1 | n :: l => n * prodZ l end.
Definition np2bz (a : ndarray) : option Z := if sanity_checks a then Some (prodZ (np_shape a)) else None.

(** outbuf (lgrngn.hpp:51-61): number of elements of the memory view *)
Definition outbuf_elements (nx ny nz : Z) : Z := Z.max 1 nx * Z.max 1 ny * Z.max 1 nz.

(** ** Keyword arguments *)
Inductive pname := self | opts | th | rv | rhod | p | Cx | Cy | Cz | diss_rate | ambient_chem.
Definition pname_dec (a b : pname) : {a = b} + {a <> b}.
Proof. decide equality. Defined.
(** an exposed method: parameters of the C++ function, and the names in its keyword expression *)
Record method := { params : list pname; kwnames : list pname }.
(** init (lgrngn.hpp:77-87, lib.cpp:366-374) *)
Definition m_init := {| params := [self; th; rv; rhod; p; Cx; Cy; Cz; ambient_chem]; kwnames := [th; rv; rhod; Cx; Cy; Cz; ambient_chem] |}.
(** step_sync (lgrngn.hpp:112-123, lib.cpp:375-384) *)
Definition m_step_sync := {| params := [self; opts; th; rv; rhod; Cx; Cy; Cz; diss_rate; ambient_chem];
                             kwnames := [th; rv; rhod; Cx; Cy; Cz; diss_rate; ambient_chem] |}.
(** sync_in (lgrngn.hpp:152-162, lib.cpp:385-394) *)
Definition m_sync_in := {| params := [self; th; rv; rhod; Cx; Cy; Cz; diss_rate; ambient_chem];
                           kwnames := [th; rv; rhod; Cx; Cy; Cz; diss_rate; ambient_chem] |}.
(** step_cond (lgrngn.hpp:190-196, lib.cpp:395-399) *)
Definition m_step_cond := {| params := [self; opts; th; rv; ambient_chem]; kwnames := [th; rv; ambient_chem] |}.

(** Boost.Python (function::call): the keyword expression names the last parameters; every one of them has a default here.
    Parameters beyond the positional arguments take the keyword argument of their name, else the default; a parameter
    without a name there, or a keyword argument left over, is an error. *)
Section Call.
Variable V : Type.
Variable dflt : pname -> V.
Fixpoint lookup_kw (n : pname) (kws : list (pname * V)) : option V :=
  match kws with [] => None | (m, v) :: kws => if pname_dec n m then Some v else lookup_kw n kws end.
(** names of all parameters, None for those before the keyword expression *)
Definition arg_names (m : method) : list (option pname) :=
  repeat None (length (params m) - length (kwnames m)) ++ map Some (kwnames m).
(** values of the parameters not given by position, and the number of keyword arguments used *)
Fixpoint fill_args (names : list (option pname)) (kws : list (pname * V)) : option (list V * nat) :=
  match names with
  | [] => Some ([], 0%nat)
  | None :: _ => None
  | Some n :: names =>
    match fill_args names kws with
    | None => None
    | Some (vs, c) => match lookup_kw n kws with Some v => Some (v :: vs, S c) | None => Some (dflt n :: vs, c) end
    end
  end.
(** the values the parameters of the C++ function get; None: TypeError *)
Definition call (m : method) (pos : list V) (kws : list (pname * V)) : option (list V) :=
  if (length (params m) <? length pos)%nat then None else
  match fill_args (skipn (length pos) (arg_names m)) kws with
  | Some (vs, c) => if (c <? length kws)%nat then None else Some (pos ++ vs)
  | None => None
  end.
(** the value of one parameter *)
Definition got (m : method) (vs : list V) (n : pname) : option V :=
  lookup_kw n (combine (params m) vs).
End Call.
Arguments lookup_kw {V} n kws.
Arguments fill_args {V} dflt names kws.
Arguments call {V} dflt m pos kws.
Arguments got {V} m vs n.

(** ** Setters of options *)
(** set_kp (lgrngn.hpp:422-430), set_w_LS (441-450), set_SGS_mix_len (461-470): the vector in the options after the
    assignment of [vec] when it was [old]; None when sanity_checks throws *)
Definition set_kp (ok : bool) (vec old : list R) : option (list R) := if ok then Some (old ++ vec) else None.
Definition set_w_LS (ok : bool) (vec old : list R) : option (list R) := if ok then Some vec else None.
Definition set_SGS_mix_len (ok : bool) (vec old : list R) : option (list R) := if ok then Some vec else None.
(** set_dd of blk_2m (blk_2m.hpp:97-112): modes as (mean_rd, sdev_rd, N_stp, chem_b) *)
Definition b2m_set_dd (modes old : list (R * R * R * R)) : list (R * R * R * R) := old ++ modes.

(** kappa_rd_insol_t::operator< (include/libcloudph++/lgrngn/distro_t.hpp:18-22) *)
Definition key_ltb (a b : R * R) : bool := if Reqb (fst a) (fst b) then Rltb (snd a) (snd b) else Rltb (fst a) (fst b).
(** std::map: keys are equivalent when neither is less *)
Definition equivalent (a b : R * R) : bool := negb (key_ltb a b) && negb (key_ltb b a).
(** the map as a list sorted by operator<; emplace does nothing when there is an equivalent key *)
Fixpoint emplace {T} (k : R * R) (v : T) (m : list ((R * R) * T)) : list ((R * R) * T) :=
  match m with
  | [] => [(k, v)]
  | (k', v') :: r => if equivalent k k' then m else if key_ltb k k' then (k, v) :: m else (k', v') :: emplace k v r
  end.
(** set_dd, set_sdd (lgrngn.hpp:239-283): clear, then emplace for each item of the dict *)
Definition set_dd {T} (dict old : list ((R * R) * T)) : list ((R * R) * T) :=
  fold_left (fun m kv => emplace (fst kv) (snd kv) m) dict [].
