(** Requesting and recording statistics of super-droplets in the kinematic model: models/kinematic_2D/src/opts_lgrngn.hpp (parse_moms),
    kin_cloud_2d_lgrngn.hpp (diag, aux_name), kin_cloud_2d_lgrngn_chem.hpp (diag_chem, diag_pH). *)
From Coq Require Import String Ascii List ZArith Reals Bool.
From Coq Require DecimalString.
From Verif Require Import Base ThermoModel TomsModel CondModel KoehlerModel MomsModel CondPassModel DiagModel.
Import ListNotations.
Local Open Scope R_scope.

(** characters *)
Definition text := list ascii.
Definition tx (s : string) : text := list_ascii_of_string s.
(** boost::spirit::ascii::space *)
Definition is_space (c : ascii) : bool := (let n := nat_of_ascii c in ((9 <=? n) && (n <=? 13)) || (n =? 32))%nat.
Definition is_digit (c : ascii) : bool := (let n := nat_of_ascii c in (48 <=? n) && (n <=? 57))%nat.

(** * Boost.Spirit with the skipper ascii::space: every elementary parser first skips white space; a parser that fails restores the position *)
Fixpoint skip (s : text) : text := match s with c :: r => if is_space c then skip r else s | [] => [] end.
(** qi::lit(c) *)
Definition lit (c : ascii) (s : text) : option text := match skip s with x :: r => if (x =? c)%char then Some r else None | [] => None end.
(** qi::char_ - c *)
Definition char_but (c : ascii) (s : text) : option (ascii * text) :=
  match lit c s with Some _ => None | None => match skip s with x :: r => Some (x, r) | [] => None end end.
(** *(qi::char_ - c); the fuel is the length of the text *)
Fixpoint many_but (fuel : nat) (c : ascii) (s : text) : text * text :=
  match fuel with
  | O => ([], s)
  | S k => match char_but c s with Some (x, r) => let (l, q) := many_but k c r in (x :: l, q) | None => ([], s) end
  end.
(** *(char_ - ":") >> lit(":") >> *(char_ - ";") >> -lit(";")  (opts_lgrngn.hpp:81-84, 143-146) *)
Definition item (s : text) : option ((text * text) * text) :=
  let (a, s1) := many_but (length s) ":" s in
  match lit ":" s1 with
  | None => None
  | Some s2 => let (b, s3) := many_but (length s2) ";" s2 in Some ((a, b), match lit ";" s3 with Some s4 => s4 | None => s3 end)
  end.
Fixpoint items (fuel : nat) (s : text) : list (text * text) * text :=
  match fuel with
  | O => ([], s)
  | S k => match item s with Some (p, r) => let (l, q) := items k r in (p :: l, q) | None => ([], s) end
  end.
(** qi::phrase_parse followed by the test that all has been read (80-89, 142-151); white space is skipped at the end as well *)
Definition phrase (s : text) : option (list (text * text)) := let (l, r) := items (length s) s in match skip r with [] => Some l | _ => None end.

(** qi::int_: a sign, if any, and digits; numbers that do not fit in int are refused *)
Fixpoint digits (s : text) : text * text :=
  match s with c :: r => if is_digit c then let (l, q) := digits r in (c :: l, q) else ([], s) | [] => ([], []) end.
Definition number (neg : bool) (s : text) : option (Z * text) :=
  let (ds, r) := digits s in
  match ds with
  | [] => None
  | _ => let v := fold_left (fun v c => 10 * v + (Z.of_nat (nat_of_ascii c) - 48))%Z ds 0%Z in
         let z := if neg then (- v)%Z else v in
         if ((- 2147483648 <=? z) && (z <=? 2147483647))%Z then Some (z, r) else None
  end.
Definition int_ (s : text) : option (Z * text) :=
  match skip s with
  | "-"%char :: r => number true r
  | "+"%char :: r => number false r
  | r => number false r
  end.
(** int_ >> *(',' >> int_) and the test that all has been read (107-118, 169-180) *)
Fixpoint more (fuel : nat) (s : text) : list Z * text :=
  match fuel with
  | O => ([], s)
  | S k => match lit "," s with
           | Some r => match int_ r with Some (z, q) => let (l, t) := more k q in (z :: l, t) | None => ([], s) end
           | None => ([], s)
           end
  end.
Definition ints (s : text) : option (list Z) :=
  match int_ s with
  | Some (z, r) => let (l, q) := more (length r) r in match skip q with [] => Some (z :: l) | _ => None end
  | None => None
  end.

(** std::string::find; npos becomes -1 in an int *)
Fixpoint find (c : ascii) (s : text) : option nat := match s with x :: r => if (x =? c)%char then Some O else option_map S (find c r) | [] => None end.
(** substr(0, sep) and substr(sep + 1) (93, 98, 103): with sep = -1 both are the whole text *)
Definition at_bar (b : text) : text * text := match find "|" b with Some k => (firstn k b, skipn (k + 1) b) | None => (b, b) end.

(** one element of outmom_t (outmom.hpp:6-14): a range of radii and numbers of moments *)
Definition request := (R * R * list Z)%type.
Section Parse.
  (** boost::lexical_cast<real_t>; None when it throws *)
  Variable real_of : text -> option R.
  Definition one (ss : text * text) : option request :=
    let (u, nums) := at_bar (snd ss) in
    match real_of (fst ss), real_of u, ints nums with Some lo, Some hi, Some ms => Some (lo, hi, ms) | _, _, _ => None end.
  Fixpoint all {A B} (f : A -> option B) (l : list A) : option (list B) :=
    match l with [] => Some [] | x :: r => match f x, all f r with Some y, Some q => Some (y :: q) | _, _ => None end end.
  (** parse_moms (62-121, 122-185); None when something is thrown *)
  Definition parse_moms (s : text) : option (list request) := match phrase s with Some l => all one l | None => None end.
End Parse.

(** * Recording *)
(** std::ostream << int *)
Definition decimal (z : Z) : text := tx (DecimalString.NilZero.string_of_int (Z.to_int z)).
(** std::setw(3) << std::setfill('0') *)
Definition padded (k : nat) : text := let d := tx (DecimalString.NilZero.string_of_uint (Nat.to_uint k)) in repeat "0"%char (3 - length d) ++ d.
(** aux_name (kin_cloud_2d_lgrngn.hpp:105-115) *)
Definition aux_name (pfx : string) (rng : nat) (mom : Z) : text := tx pfx ++ tx "_rng" ++ padded rng ++ tx "_mom" ++ decimal mom.

(** a call of the particles' interface, or record_aux(name, prtcls->outbuf()) *)
Inductive action := Call (c : call) | Record (name : text).
(** the loops over ranges with their counter *)
Fixpoint ranges (f : nat -> request -> list action) (rng_num : nat) (l : list request) : list action :=
  match l with [] => [] | q :: r => f rng_num q ++ ranges f (S rng_num) r end.
(** Numbers of moments are ints in the code; those passed to the particles' interface are taken to be non-negative here. *)
Definition mom_no (m : Z) : nat := Z.to_nat m.

(** diag (kin_cloud_2d_lgrngn.hpp:33-95); the file with what fell out (45-51) is not included *)
Definition diag_acts (out_dry out_wet : list request) : list action :=
  [Call c_all; Call c_sd_conc; Record (tx "sd_conc")] ++
  ranges (fun k q => let '(lo, hi, ms) := q in
    Call (c_rng r_dry false lo hi) :: flat_map (fun m => [Call (c_mom m_dry (mom_no m)); Record (aux_name "rd" k m)]) ms) 0 out_dry ++
  ranges (fun k q => let '(lo, hi, ms) := q in
    Call (c_rng r_wet false lo hi) :: flat_map (fun m => [Call (c_mom m_wet (mom_no m)); Record (aux_name "rw" k m)]) ms) 0 out_wet ++
  ranges (fun k q => let '(lo, hi, _) := q in
    [Call (c_rng r_dry false lo hi); Call (c_mom m_wet 3); Record (aux_name "rw3ofrd" k 3)]) 0 out_dry.

(** chem_species_t (include/libcloudph++/common/chem.hpp:9-16) *)
Definition s_HNO3 : nat := 0. Definition s_NH3 : nat := 1. Definition s_CO2 : nat := 2. Definition s_SO2 : nat := 3.
Definition s_H2O2 : nat := 4. Definition s_O3 : nat := 5. Definition s_S_VI : nat := 6. Definition s_H : nat := 7.
(** diag_chem (kin_cloud_2d_lgrngn_chem.hpp:49-86) *)
Definition compounds : list (nat * string) :=
  [(s_SO2, "chem_S_IV_aq"%string); (s_S_VI, "chem_S_VI_aq"%string); (s_O3, "chem_O3_aq"%string); (s_H2O2, "chem_H2O2_aq"%string);
   (s_H, "chem_H_aq"%string); (s_CO2, "chem_C_IV_aq"%string); (s_NH3, "chem_N_III_aq"%string); (s_HNO3, "chem_N_V_aq"%string)].
Definition diag_chem_acts (out_chem : list request) : list action :=
  ranges (fun _ q => let '(lo, hi, _) := q in
    Call (c_rng r_dry false lo hi) :: flat_map (fun sn => [Call (c_chem (fst sn)); Record (tx (snd sn))]) compounds) 0 out_chem.
(** diag_pH (26-48) *)
Definition diag_pH_acts (out_wet_pH : list request) : list action :=
  ranges (fun k q => let '(lo, hi, ms) := q in
    Call (c_rng r_wet false lo hi) ::
    flat_map (fun m => [Call (c_chem s_S_VI); Record (aux_name "chem_S_VI_rw" k m); Call (c_chem s_H); Record (aux_name "chem_H_rw" k m)]) ms) 0 out_wet_pH.

Section Exec.
  Variables (o : dopts) (X : xattr) (fall : parts -> cells -> nat -> R) (sijk sid : list nat).
  (** what is recorded under which name; None when a call throws *)
  Fixpoint exec (acts : list action) (st : dst) : option (list (text * (nat -> R)) * dst) :=
    match acts with
    | [] => Some ([], st)
    | Call c :: r => match diag o X fall sijk sid c st with Some st' => exec r st' | None => None end
    | Record name :: r =>
      let (v, st') := outbuf sijk sid st in
      match exec r st' with Some (l, st'') => Some ((name, v) :: l, st'') | None => None end
    end.
End Exec.
