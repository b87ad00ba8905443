(** The TOMS748 root finder, include/libcloudph++/common/detail/toms748.hpp.
    Floating-point numbers are modelled by reals; the machine constants that the code uses are
    parameters.  Every evaluation of the function is recorded. *)
From Coq Require Import Reals List NArith ZArith Bool.
From Verif Require Import Base.
Import ListNotations.
Local Open Scope R_scope.

(** toms748.hpp:24-34: max_value, min_value, epsilon of the floating-point type *)
Record fptype := { fmax : R; fmin : R; feps : R }.

(** toms748.hpp:262-286: class eps_tolerance; constructor argument [bits] (1-bits is an unsigned
    subtraction converted back to int, i.e. 1 - bits) and call operator.
    [ldexp(1, 1-bits)] is [2 / 2^bits]. *)
Definition tol_eps (p : fptype) (bits : nat) : R := cmax (2 / 2 ^ bits) (4 * feps p).
Definition eps_tolerance (p : fptype) (bits : nat) (a b : R) : bool :=
  Rleb (Rabs (a - b)) (tol_eps p bits * cmin (Rabs a) (Rabs b)).

(** the six variables that [bracket] updates by reference *)
Record brk := { ba : R; bb : R; bfa : R; bfb : R; bd : R; bfd : R }.

(** toms748.hpp:71-86: the point at which bracket() evaluates the function *)
Definition bracket_point (p : fptype) (a b c : R) : R :=
  let tol := feps p * 2 in
  if Rltb (b - a) (2 * tol * a) then a + (b - a) / 2
  else if Rleb c (a + Rabs a * tol) then a + Rabs a * tol
  else if Rleb (b - Rabs b * tol) c then b - Rabs a * tol
  else c.

(** toms748.hpp:61-123: bracket().  [copysign(1, fa*fc) < 0] is modelled as [fa*fc < 0]. *)
Definition bracket (p : fptype) (f : R -> R) (s : brk) (c0 : R) : brk :=
  let c := bracket_point p (ba s) (bb s) c0 in
  let fc := f c in
  if Reqb fc 0 then
    {| ba := c; bb := bb s; bfa := 0; bfb := bfb s; bd := 0; bfd := 0 |}
  else if Rltb (bfa s * fc) 0 then
    {| ba := ba s; bb := c; bfa := bfa s; bfb := fc; bd := bb s; bfd := bfb s |}
  else
    {| ba := c; bb := bb s; bfa := fc; bfb := bfb s; bd := ba s; bfd := bfa s |}.

(** toms748.hpp:125-140: safe_div() *)
Definition safe_div (p : fptype) (num denom r : R) : R :=
  if andb (Rltb (Rabs denom) 1) (Rleb (Rabs (denom * fmax p)) (Rabs num)) then r
  else num / denom.

(** toms748.hpp:142-161: secant_interpolate() *)
Definition secant_interpolate (p : fptype) (a b fa fb : R) : R :=
  let tol := feps p * 5 in
  let c := a - (fa / (fb - fa)) * (b - a) in
  if orb (Rleb c (a + Rabs a * tol)) (Rleb (b - Rabs b * tol) c) then (a + b) / 2 else c.

(** toms748.hpp:203-208: the Newton steps *)
Fixpoint newton (p : fptype) (A B a b fa : R) (count : nat) (c : R) : R :=
  match count with
  | O => c
  | S k => newton p A B a b fa k
      (c - safe_div p (fa + (B + A * (c - b)) * (c - a)) (B + A * (2 * c - a - b)) (1 + c - a))
  end.

(** toms748.hpp:163-218: quadratic_interpolate(); [copysign(1, A*fa) > 0] as [0 <= A*fa]
    (a product of two non-zero numbers) *)
Definition quadratic_interpolate (p : fptype) (a b d fa fb fd : R) (count : nat) : R :=
  let B := safe_div p (fb - fa) (b - a) (fmax p) in
  let A := safe_div p (fd - fb) (d - b) (fmax p) in
  let A := safe_div p (A - B) (d - a) 0 in
  if Reqb A 0 then secant_interpolate p a b fa fb
  else
    let c := if Rleb 0 (A * fa) then a else b in
    let c := newton p A B a b fa count c in
    if orb (Rleb c a) (Rleb b c) then secant_interpolate p a b fa fb else c.

(** toms748.hpp:220-258: cubic_interpolate() *)
Definition cubic_interpolate (p : fptype) (a b d e fa fb fd fe : R) : R :=
  let q11 := (d - e) * fd / (fe - fd) in
  let q21 := (b - d) * fb / (fd - fb) in
  let q31 := (a - b) * fa / (fb - fa) in
  let d21 := (b - d) * fd / (fd - fb) in
  let d31 := (a - b) * fb / (fb - fa) in
  let q22 := (d21 - q11) * fb / (fe - fb) in
  let q32 := (d31 - q21) * fa / (fd - fa) in
  let d32 := (d31 - q21) * fd / (fd - fa) in
  let q33 := (d32 - q22) * fa / (fe - fa) in
  let c := q31 + q32 + q33 + a in
  if orb (Rleb c a) (Rleb b c) then quadratic_interpolate p a b d fa fb fd 3 else c.

(** toms748.hpp:365-366, 386: the variable prof *)
Definition prof (p : fptype) (s : brk) (fe : R) : bool :=
  let m := fmin p * 32 in
  let near x y := Rltb (Rabs (x - y)) m in
  near (bfa s) (bfb s) || near (bfa s) (bfd s) || near (bfa s) fe
  || near (bfb s) (bfd s) || near (bfb s) fe || near (bfd s) fe.

(** the state of toms748_solve: bracket, e, fe, count; plus the list of evaluated points
    (latest first), which is not in the code *)
Record tst := { tb : brk; te : R; tfe : R; tcount : N; tevals : list R }.

(** [--count] on an unsigned 64-bit integer *)
Definition dec64 (n : N) : N := if N.eqb n 0 then (Z.to_N W64 - 1)%N else (n - 1)%N.

(** one call of bracket() followed by [--count] *)
Definition tstep (p : fptype) (f : R -> R) (s : tst) (c : R) : tst :=
  {| tb := bracket p f (tb s) c; te := te s; tfe := tfe s; tcount := dec64 (tcount s);
     tevals := bracket_point p (ba (tb s)) (bb (tb s)) c :: tevals s |}.
(** [e = d; fe = fd;] *)
Definition save_e (s : tst) : tst :=
  {| tb := tb s; te := bd (tb s); tfe := bfd (tb s); tcount := tcount s; tevals := tevals s |}.

(** toms748.hpp:348, 382, 401, 428: [count && (fa != 0) && !tol(a, b)] *)
Definition going (tol : R -> R -> bool) (s : tst) : bool :=
  negb (N.eqb (tcount s) 0) && negb (Reqb (bfa (tb s)) 0) && negb (tol (ba (tb s)) (bb (tb s))).

(** toms748.hpp:367-374, 387-394: choice of the interpolation *)
Definition interpolate (p : fptype) (s : tst) (newton_steps : nat) : R :=
  let k := tb s in
  if prof p k (tfe s)
  then quadratic_interpolate p (ba k) (bb k) (bd k) (bfa k) (bfb k) (bfd k) newton_steps
  else cubic_interpolate p (ba k) (bb k) (bd k) (te s) (bfa k) (bfb k) (bfd k) (tfe s).

(** toms748.hpp:406-420: the double-length secant step *)
Definition double_secant (k : brk) : R :=
  let pick := Rltb (Rabs (bfa k)) (Rabs (bfb k)) in
  let u := if pick then ba k else bb k in
  let fu := if pick then bfa k else bfb k in
  let c := u - 2 * (fu / (bfb k - bfa k)) * (bb k - ba k) in
  if Rltb ((bb k - ba k) / 2) (Rabs (c - u)) then ba k + (bb k - ba k) / 2 else c.

(** toms748.hpp:348-442: the body of the while loop; the flag is false after a [break] *)
Definition titer (p : fptype) (f : R -> R) (tol : R -> R -> bool) (s : tst) : tst * bool :=
  let a0 := ba (tb s) in
  let b0 := bb (tb s) in
  let c := interpolate p s 2 in
  let s1 := tstep p f (save_e s) c in
  if negb (going tol s1) then (s1, false)
  else
    let c := interpolate p s1 3 in
    let s2 := tstep p f s1 c in
    if negb (going tol s2) then (s2, false)
    else
      let c := double_secant (tb s2) in
      let s3 := tstep p f (save_e s2) c in
      if negb (going tol s3) then (s3, false)
      else if Rltb (bb (tb s3) - ba (tb s3)) (1 / 2 * (b0 - a0)) then (s3, true)
      else (tstep p f (save_e s3) (ba (tb s3) + (bb (tb s3) - ba (tb s3)) / 2), true).

(** the while loop; [None] if the fuel runs out (proved impossible) *)
Fixpoint tloop (p : fptype) (f : R -> R) (tol : R -> R -> bool) (fuel : nat) (s : tst)
  : option tst :=
  match fuel with
  | O => None
  | S k =>
    if going tol s then
      match titer p f tol s with
      | (s', true) => tloop p f tol k s'
      | (s', false) => Some s'
      end
    else Some s
  end.

(** toms748.hpp:444-453: the returned value *)
Definition tresult (k : brk) : R :=
  if Reqb (bfa k) 0 then (ba k + ba k) / 2
  else if Reqb (bfb k) 0 then (bb k + bb k) / 2
  else (ba k + bb k) / 2.

(** toms748.hpp:288-454: toms748_solve(f, ax, bx, fax, fbx, tol, max_iter); returns the root, the
    new value of max_iter and the evaluated points in order.  The assertions (debug builds only)
    are not modelled.  The variable d is uninitialised until the first bracket() and not read
    before; the model gives it the value 0. *)
Definition toms748_solve (p : fptype) (f : R -> R) (ax bx fax fbx : R)
           (tol : R -> R -> bool) (max_iter : N) : option (R * N * list R) :=
  let k := {| ba := ax; bb := bx; bfa := fax; bfb := fbx; bd := 0; bfd := 100000 |} in
  if tol ax bx || Reqb fax 0 || Reqb fbx 0 then Some (tresult k, 0%N, [])
  else
    let s := {| tb := k; te := 100000; tfe := 100000; tcount := max_iter; tevals := [] |} in
    let s := tstep p f s (secant_interpolate p ax bx fax fbx) in
    let s :=
      if going tol s then
        let k := tb s in
        let c := quadratic_interpolate p (ba k) (bb k) (bd k) (bfa k) (bfb k) (bfd k) 2 in
        tstep p f (save_e s) c
      else s in
    match tloop p f tol (S (N.to_nat (tcount s))) s with
    | None => None
    | Some s' =>
      Some (tresult (tb s'), sub64 max_iter (tcount s'), rev (tevals s'))
    end.

(** toms748.hpp:456-464: the overload that evaluates the end points itself (two further
    evaluations, not in the list) *)
Definition toms748_solve_ends (p : fptype) (f : R -> R) (ax bx : R)
           (tol : R -> R -> bool) (max_iter : N) : option (R * N * list R) :=
  match toms748_solve p f ax bx (f ax) (f bx) tol (sub64 max_iter 2) with
  | Some (r, it, ev) => Some (r, wrap64 (Z.of_N it + 2), ev)
  | None => None
  end.

(** toms748.hpp:468-487: the overloads with default tolerance and 100 iterations;
    [size] = sizeof(T) (4 or 8) *)
Definition toms748_default (p : fptype) (size : nat) (f : R -> R) (ax bx : R)
  : option (R * N * list R) :=
  toms748_solve p f ax bx (f ax) (f bx) (eps_tolerance p (size * 8 / 4)) 100.
