(** * C59 in floating point: the limit of radii in single and in double precision
    Uses Flocq's definition of binary floating-point formats and of rounding to nearest. *)
From Coq Require Import List Arith NArith ZArith Reals Bool Lia Lra Psatz.
From Flocq Require Import Core.
From Verif Require Import Base BaseProofs KernelModel KernelProps.
Import ListNotations.
Open Scope R_scope.

(** rounding to nearest, with any rule for ties, in binary32 and binary64 *)
Definition single (tie : Z -> bool) (x : R) : R := round radix2 (FLT_exp (-149) 24) (Znearest tie) x.
Definition double (tie : Z -> bool) (x : R) : R := round radix2 (FLT_exp (-1074) 53) (Znearest tie) x.

Lemma single_limit tie : single tie (1100 - 1 / 1000000) = 1100.
Proof.
  unfold single, round. set (x := 1100 - 1 / 1000000).
  assert (Em : mag radix2 x = 11%Z :> Z).
  { apply mag_unique. rewrite Rabs_pos_eq by (unfold x; lra). change (bpow radix2 (11 - 1)) with 1024. change (bpow radix2 11) with 2048. unfold x. lra. }
  unfold scaled_mantissa, cexp. rewrite Em. change (FLT_exp (-149) 24 11) with (-13)%Z. change (bpow radix2 (- -13)) with 8192.
  rewrite (Znearest_imp tie _ 9011200).
  - unfold F2R. cbn [Fnum Fexp]. change (bpow radix2 (-13)) with (/ 8192). lra.
  - unfold x. rewrite <- Rabs_Ropp. rewrite Rabs_pos_eq; lra.
Qed.

Lemma double_limit tie : 0 <= double tie (1100 - 1 / 1000000) < 1100.
Proof.
  assert (V : Valid_exp (FLT_exp (-1074) 53)) by (apply FLT_exp_valid; reflexivity).
  split.
  - unfold double. rewrite <- (round_0 radix2 (FLT_exp (-1074) 53) (Znearest tie)). apply round_le; [exact V|apply valid_rnd_N|lra].
  - assert (G : generic_format radix2 (FLT_exp (-1074) 53) (1100 - / 2097152)).
    { replace (1100 - / 2097152) with (F2R (Float radix2 2306867199 (-21))).
      - apply generic_format_F2R. intros _. unfold cexp. 
        assert (Em : mag radix2 (F2R (Float radix2 2306867199 (-21))) = 11%Z :> Z).
        { apply mag_unique. unfold F2R. cbn [Fnum Fexp]. change (bpow radix2 (-21)) with (/ 2097152). rewrite Rabs_pos_eq by lra.
          change (bpow radix2 (11 - 1)) with 1024. change (bpow radix2 11) with 2048. lra. }
        rewrite Em. vm_compute. discriminate.
      - unfold F2R. cbn [Fnum Fexp]. change (bpow radix2 (-21)) with (/ 2097152). lra. }
    unfold double. apply Rle_lt_trans with (1100 - / 2097152); [|lra].
    rewrite <- (round_generic radix2 (FLT_exp (-1074) 53) (Znearest tie) (1100 - / 2097152) G) at 1.
    apply round_le; [exact V|apply valid_rnd_N|]. lra.
Qed.

(** In double precision the limit is below the last radius of the table, as [C59_interpolation] needs: no droplet, however big, makes
    the code read outside of the table. *)
Theorem C59_double_precision :
  forall tie user table r1 r2 lo hi,
    length table = table_size -> 0 <= r1 -> 0 <= r2 -> (forall x, In x table -> lo <= x <= hi) ->
    exists e, interpolated_efficiency (double tie) (length user) (user ++ table) r1 r2 = Some e /\ lo <= e <= hi.
Proof.
  intros tie user table r1 r2 lo hi L H1 H2 HT. apply (C59_efficiency (double tie) user table r1 r2 lo hi L H1 H2 (double_limit tie) HT).
Qed.
Print Assumptions C59_double_precision.

(** In single precision 1100 - 1e-6 is 1100, and for every droplet of radius 1.1 mm or more the code reads outside of the table. *)
Theorem C59_single_precision_refuted :
  forall tie user table r1 r2,
    length table = table_size -> 1100 / 1000000 <= r1 -> 0 <= r2 ->
    interpolated_efficiency (single tie) (length user) (user ++ table) r1 r2 = None.
Proof.
  intros tie user table r1 r2 L H1 H2. unfold interpolated_efficiency.
  assert (E1 : limited (single tie) (r1 * 1000000) = 1100).
  { unfold limited, r_max. destruct (Rleb 1100 (r1 * 1000000)) eqn:E; [apply single_limit|]. apply Rleb_false in E. lra. }
  rewrite E1. cbv zeta.
  assert (E2 : left_node 1100 = 1100%nat).
  { unfold left_node. destruct (Rleb 100 1100) eqn:E; [|apply Rleb_false in E; lra]. rewrite (truncN_unique _ 110); [reflexivity|]. unfold N2R. cbn [Z.of_N]. lra. }
  assert (E3 : node_dist 1100 = 10%nat) by (unfold node_dist; destruct (Rleb 100 1100) eqn:E; [reflexivity|apply Rleb_false in E; lra]).
  rewrite E2, E3. unfold at_node. replace (kernel_index (1100 + 10)) with 201%nat by reflexivity.
  set (j := kernel_index (left_node (limited (single tie) (r2 * 1000000)))).
  assert (N : nth_error (user ++ table) (kernel_vector_index 201 j (length user)) = None).
  { apply nth_error_None. rewrite app_length, L. unfold kernel_vector_index, table_size. destruct (Nat.leb_spec j 201) as [H|H].
    - assert (201 * 101 <= 201 * (201 + 1) / 2)%nat by (apply Nat.div_le_lower_bound; lia). lia.
    - assert (201 * 101 <= j * (j + 1) / 2)%nat by (apply Nat.div_le_lower_bound; nia). lia. }
  rewrite N. destruct (nth_error (user ++ table) (kernel_vector_index (kernel_index 1100) j (length user))); reflexivity.
Qed.
Print Assumptions C59_single_precision_refuted.
