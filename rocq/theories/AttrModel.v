(** * Storage of the attributes of super-droplets and get_attr
    src/impl/diagnose_SD_attributes/particles_impl_fill_outbuf.ipp:38-80 (fill_attr_outbuf), src/particles_ctor.ipp:94-98 (get_attr),
    src/impl/particles_impl.ipp:440-495 (which vectors there are), src/impl/housekeeping/particles_impl_hskpng_resize.ipp,
    particles_impl_hskpng_remove.ipp, src/impl/initialization/particles_impl_init_chem.ipp:135-223 (packed masses of compounds).
    Vectors are lists with their actual lengths.  Arithmetic is that of the real numbers. *)
From Coq Require Import String List Arith NArith Reals Bool.
From Verif Require Import Base ChemModel.
Import ListNotations.
Local Open Scope nat_scope.

(** particles_impl.ipp:440-491: real vectors with one element per super-droplet *)
Inductive col := a_rd3 | a_rw2 | a_kpa | a_vt | a_x | a_y | a_z | a_sstp_rv | a_sstp_th | a_sstp_rh | a_sstp_p | a_up | a_vp | a_wp | a_ssp |
  a_dot_ssp | a_incloud | a_rd2_insol | a_ice_a | a_ice_c | a_ice_rho | a_T_freeze | a_rc2.
Definition col_eqb (a b : col) : bool := if (fun x y : col => ltac:(decide equality) : {x = y} + {x <> y}) a b then true else false.

(** options deciding which vectors there are *)
Record aopts := { q_nx : nat; q_ny : nat; q_nz : nat; q_exact : bool (* allow_sstp_cond && exact_sstp_cond *); q_const_p : bool;
  q_turb_adve : bool; q_turb_cond : bool; q_incloud : bool; q_ice : bool; q_time_dep : bool; q_act : bool (* sstp_cond_act > 1 && allow_sstp_cond *);
  q_n_sd_max : nat }.

(** particles_impl.ipp:440-491: is the vector in distmem_real_vctrs *)
Definition present (o : aopts) (c : col) : bool :=
  match c with
  | a_rd3 | a_rw2 | a_kpa | a_vt => true
  | a_x => negb (q_nx o =? 0) | a_y => negb (q_ny o =? 0) | a_z => negb (q_nz o =? 0)
  | a_sstp_rv | a_sstp_th | a_sstp_rh => q_exact o
  | a_sstp_p => q_exact o && q_const_p o
  | a_up => q_turb_adve o && negb (q_nx o =? 0)
  | a_vp => q_turb_adve o && negb (q_ny o =? 0)
  | a_wp => q_turb_adve o && negb (q_nz o =? 0) || q_turb_cond o
  | a_ssp | a_dot_ssp => q_turb_cond o
  | a_incloud => q_incloud o
  | a_rd2_insol | a_ice_a | a_ice_c | a_ice_rho => q_ice o
  | a_T_freeze => q_ice o && negb (q_time_dep o)
  | a_rc2 => q_act o
  end.
(** ... and the value of new elements: detail::invalid is -1; vectors without an initial value get zeros (vector::resize value-initialises) *)
Definition fresh_value (c : col) : R := match c with a_vt | a_rc2 => (-1)%R | _ => 0%R end.

Record store := { s_np : nat; s_n : list N; s_v : col -> list R }.

(** vector::resize *)
Definition resize {A} (n : nat) (d : A) (l : list A) : list A := firstn n l ++ repeat d (n - length l).

(** hskpng_resize.ipp:7-32: false if it throws; n_part has been changed by then *)
Definition resize_npart (o : aopts) (s : store) : store * bool :=
  if q_n_sd_max o <? s_np s then (s, false)
  else ({| s_np := s_np s; s_n := resize (s_np s) 0%N (s_n s);
           s_v := fun c => if present o c then resize (s_np s) (fresh_value c) (s_v s c) else s_v s c |}, true).

(** thrust::remove_if with a stencil over the first np elements: what is kept, in order, then unspecified elements *)
Definition compact {A} (stencil : list N) (l : list A) : list A :=
  map snd (filter (fun p => negb (fst p =? 0)%N) (combine stencil l)).
Definition remove_if {A} (np : nat) (junk : list A) (d : A) (stencil : list N) (l : list A) : list A :=
  let kept := compact (firstn np stencil) (firstn np l) in
  resize np d (kept ++ junk) ++ skipn np l.

(** what the program does with the storage.  [o_set] and [o_set_n]: any of the loops that compute attributes writes one element;
    [o_copy]: recycling copies all attributes of i to j (rcyc.ipp:98-101); [o_append]: super-droplets arriving from another process
    (unpack.ipp:49-75), with all their attributes; [junk]: what remove_if leaves behind *)
Inductive op := o_grow (k : nat) | o_shrink (k : nat) | o_set (c : col) (i : nat) (v : R) | o_set_n (i : nat) (v : N) | o_copy (i j : nat)
  | o_append (l : list (N * (col -> R))) | o_remove (junk : col -> list R) (junk_n : list N).

Fixpoint put {A} (l : list A) (i : nat) (v : A) : list A :=
  match l, i with
  | [], _ => []
  | _ :: r, O => v :: r
  | x :: r, S j => x :: put r j v
  end.

Definition exec (o : aopts) (s : store) (p : op) : store * bool :=
  match p with
  | o_grow k => resize_npart o {| s_np := s_np s + k; s_n := s_n s; s_v := s_v s |}
  | o_shrink k => resize_npart o {| s_np := s_np s - k; s_n := s_n s; s_v := s_v s |}
  | o_set c i v => ({| s_np := s_np s; s_n := s_n s; s_v := fun d => if col_eqb c d then put (s_v s d) i v else s_v s d |}, true)
  | o_set_n i v => ({| s_np := s_np s; s_n := put (s_n s) i v; s_v := s_v s |}, true)
  | o_copy i j => ({| s_np := s_np s; s_n := s_n s; s_v := fun d => if present o d then put (s_v s d) j (nth i (s_v s d) 0%R) else s_v s d |}, true)
  | o_append l => ({| s_np := s_np s + length l; s_n := firstn (s_np s) (resize (s_np s + length l) 0%N (s_n s)) ++ map fst l;
      s_v := fun d => if present o d then firstn (s_np s) (resize (s_np s + length l) 0%R (s_v s d)) ++ map (fun x => snd x d) l else s_v s d |}, true)
  | o_remove junk junk_n =>
    resize_npart o {| s_np := length (compact (firstn (s_np s) (s_n s)) (firstn (s_np s) (s_n s)));
      s_n := remove_if (s_np s) junk_n 0%N (s_n s) (s_n s);
      s_v := fun c => if present o c then remove_if (s_np s) (junk c) 0%R (s_n s) (s_v s c) else s_v s c |}
  end.
(** stops at the first exception *)
Fixpoint execs (o : aopts) (s : store) (h : list op) : store * bool :=
  match h with
  | [] => (s, true)
  | p :: r => match exec o s p with (s', true) => execs o s' r | (s', false) => (s', false) end
  end.
(** the constructor (particles_impl.ipp:345): no super-droplets, empty vectors *)
Definition empty_store : store := {| s_np := 0; s_n := []; s_v := fun _ => [] |}.

(** fill_outbuf.ipp:40-79: fill_attr_outbuf; None if it throws.  thrust::copy writes the elements of dv over the first elements of out. *)
Definition attr_names : list string := ["rw2"; "rd3"; "kappa"; "rd2_insol"; "T_freeze"; "ice_a"; "ice_c"; "ice_rho"; "x"; "y"; "z"]%string.
Definition attr_col (name : string) : col :=
  (if name =? "rw2" then a_rw2 else if name =? "rd3" then a_rd3 else if name =? "kappa" then a_kpa else if name =? "rd2_insol" then a_rd2_insol
   else if name =? "T_freeze" then a_T_freeze else if name =? "ice_a" then a_ice_a else if name =? "ice_c" then a_ice_c
   else if name =? "ice_rho" then a_ice_rho else if name =? "x" then a_x else if name =? "y" then a_y else a_z)%string.
Inductive answer := refused | overrun (* writes past the end of the result *) | values (l : list R).
Definition get_attr (o : aopts) (s : store) (name : string) : answer :=
  if negb (existsb (String.eqb name) attr_names) then refused
  else if negb (q_ice o) && ((name =? "ice_a") || (name =? "ice_c") || (name =? "ice_rho") || (name =? "rd2_insol") || (name =? "T_freeze"))%string then refused
  else if q_time_dep o && (name =? "T_freeze")%string then refused
  else let dv := s_v s (attr_col name) in
    if s_np s <? length dv then overrun else values (dv ++ repeat 0%R (s_np s - length dv)).

(** ** packed masses of compounds: three vectors (init_chem.ipp:138-173) *)
Record packed := { k_ante : list R; k_rhs : list R; k_post : list R; k_bgn : nat -> nat }.
Definition offset (i : nat) : nat := if i <? chem_rhs_beg then 0 else if i <? chem_rhs_fin then chem_rhs_beg else chem_rhs_fin.
Definition which (i : nat) (K : packed) : list R := if i <? chem_rhs_beg then k_ante K else if i <? chem_rhs_fin then k_rhs K else k_post K.
Definition init_chem (np : nat) (K : packed) : packed :=
  {| k_ante := resize ((chem_rhs_beg - 0) * np) 0%R (k_ante K); k_rhs := resize ((chem_rhs_fin - chem_rhs_beg) * np) 0%R (k_rhs K);
     k_post := resize ((chem_all - chem_rhs_fin) * np) 0%R (k_post K); k_bgn := fun i => (i - offset i) * np |}.
(** mass of compound i in super-droplet j: chem_bgn[i][j] *)
Definition mass_of (K : packed) (i j : nat) : R := nth (k_bgn K i + j) (which i K) 0%R.
(** a loop writing consecutive elements from position b *)
Fixpoint write_from (l : list R) (b : nat) (vs : list R) : list R :=
  match vs with [] => l | v :: r => write_from (put l b v) (S b) r end.
Definition set_which (i : nat) (f : list R -> list R) (K : packed) : packed :=
  if i <? chem_rhs_beg then {| k_ante := f (k_ante K); k_rhs := k_rhs K; k_post := k_post K; k_bgn := k_bgn K |}
  else if i <? chem_rhs_fin then {| k_ante := k_ante K; k_rhs := f (k_rhs K); k_post := k_post K; k_bgn := k_bgn K |}
  else {| k_ante := k_ante K; k_rhs := k_rhs K; k_post := f (k_post K); k_bgn := k_bgn K |}.
(** init_chem.ipp:177-223: every compound of every super-droplet; chem_init: ChemModel *)
Definition init_chem_aq (rho : R) (rd3 : list R) (K : packed) : packed :=
  fold_left (fun K i => set_which i (fun l => write_from l (k_bgn K i) (map (fun r => chem_init rho r i) rd3)) K) (seq 0 chem_all) K.
(** init_SD_with_distros_finalize (init_SD_with_distros.ipp:70-79) and init_SD_with_sizes.ipp:66-75: after each batch of super-droplets has
    got its dry radii *)
Fixpoint init_batches (rho : R) (rd3 : list R) (batches : list (list R)) (K : packed) : list R * packed :=
  match batches with
  | [] => (rd3, K)
  | b :: r => let rd3' := rd3 ++ b in init_batches rho rd3' r (init_chem_aq rho rd3' (init_chem (length rd3') K))
  end.
