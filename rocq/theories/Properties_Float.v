(** C73: tile boundaries in binary64. *)
From Coq Require Import ZArith Reals Lra Lia.
From Flocq Require Import Core.
From Verif Require Import FloatExtents FloatFacts.
From Verif Require Numpy Grid.
Open Scope R_scope.

(** The tile size is 2^k, the origin is 0 (every grid made by create_grid), and the quotient is zero or not
    below the normal range. *)
Theorem C73_lower x k : is_float x -> (-1074 <= k)%Z -> x = 0 \/ bpow radix2 (-1022) <= Rabs (x / bpow radix2 k) ->
  float_lo x 0 (bpow radix2 k) = IZR (Zfloor (x / bpow radix2 k)) * bpow radix2 k.
Proof. intros. now apply float_lo_is. Qed.
Theorem C73_upper x k : is_float x -> (-1074 <= k)%Z -> x = 0 \/ bpow radix2 (-1022) <= Rabs (x / bpow radix2 k) ->
  float_hi0 x 0 (bpow radix2 k) = IZR (Zceil (x / bpow radix2 k)) * bpow radix2 k.
Proof. intros. now apply float_hi0_is. Qed.
(** The last tile contains the coordinate: the upper boundary is larger, by at most one tile. *)
Theorem C73_last x k : is_float x -> (-1074 <= k)%Z -> x = 0 \/ bpow radix2 (-1022) <= Rabs (x / bpow radix2 k) -> Rabs (x / bpow radix2 k) < bpow radix2 53 ->
  float_lo x 0 (bpow radix2 k) <= x < float_hi x 0 (bpow radix2 k) /\ float_hi x 0 (bpow radix2 k) = float_lo x 0 (bpow radix2 k) + bpow radix2 k.
Proof.
  intros Hx Hk U B. rewrite float_lo_is, float_hi_is by assumption. pose proof (bpow_gt_0 radix2 k) as Hp. split.
  - assert (E : x = x / bpow radix2 k * bpow radix2 k) by (field; lra).
    pose proof (Zfloor_lb (x / bpow radix2 k)). pose proof (Zfloor_ub (x / bpow radix2 k)). rewrite plus_IZR. set (q := x / bpow radix2 k) in *. rewrite E. split.
    + apply Rmult_le_compat_r; lra.
    + apply Rmult_lt_compat_r; lra.
  - rewrite plus_IZR. ring.
Qed.
(** The tile origins that np.arange makes are exact too, and there is one for each tile. *)
Theorem C73_origins n m k i : (Z.abs n <= 2 ^ 52)%Z -> (Z.abs m <= 2 ^ 52)%Z -> (-1074 <= k)%Z -> (0 <= i <= 2 ^ 52)%Z ->
  float_arange (IZR n * bpow radix2 k) (bpow radix2 k) i = IZR (n + i) * bpow radix2 k /\
  float_arange_len (IZR n * bpow radix2 k) (IZR m * bpow radix2 k) (bpow radix2 k) = (m - n)%Z.
Proof. intros. split; [now apply arange_is|now apply arange_len_is]. Qed.
(** For coordinates that are multiples of a unit 2^u, the integer arithmetic of the model (Grid.v) gives the
    numbers that the code computes. *)
Theorem C73_ticks X j u : (Z.abs X < 2 ^ 53)%Z -> (0 <= j <= 1022)%Z -> (-1074 <= u)%Z ->
  float_lo (IZR X * bpow radix2 u) 0 (IZR (2 ^ j) * bpow radix2 u) = IZR (Grid.adjust_lo X 0 (2 ^ j)) * bpow radix2 u /\
  float_hi (IZR X * bpow radix2 u) 0 (IZR (2 ^ j) * bpow radix2 u) = IZR (Grid.adjust_hi X 0 (2 ^ j)) * bpow radix2 u.
Proof.
  intros HX Hj Hu. pose proof (Z.pow_pos_nonneg 2 j ltac:(lia) ltac:(lia)) as Hp.
  assert (F : is_float (IZR X * bpow radix2 u)) by (apply float_int; lia).
  assert (Q : IZR X * bpow radix2 u / bpow radix2 (j + u) = IZR X / IZR (2 ^ j)) by (rewrite <- power_unit by lia; now apply ratio).
  assert (HI : 0 < IZR (2 ^ j)) by (apply IZR_lt; exact Hp).
  assert (A : Rabs (IZR X / IZR (2 ^ j)) = IZR (Z.abs X) / IZR (2 ^ j)).
  { unfold Rdiv. rewrite Rabs_mult, <- abs_IZR, (Rabs_pos_eq (/ _)); [reflexivity|]. apply Rlt_le, Rinv_0_lt_compat, HI. }
  assert (U : IZR X * bpow radix2 u = 0 \/ bpow radix2 (-1022) <= Rabs (IZR X * bpow radix2 u / bpow radix2 (j + u))).
  { destruct (Z.eq_dec X 0) as [->|N]; [left; ring|right]. rewrite Q, A. apply Rle_trans with (IZR 1 / IZR (2 ^ j)).
    - unfold Rdiv. rewrite Rmult_1_l, <- p2_int, <- bpow_opp by lia. apply bpow_le. lia.
    - apply Rmult_le_compat_r; [apply Rlt_le, Rinv_0_lt_compat, HI|]. apply IZR_le. lia. }
  assert (B : Rabs (IZR X * bpow radix2 u / bpow radix2 (j + u)) < bpow radix2 53).
  { rewrite Q, A. apply Rle_lt_trans with (IZR (Z.abs X)).
    - unfold Rdiv. rewrite <- (Rmult_1_r (IZR (Z.abs X))) at 2. apply Rmult_le_compat_l; [apply IZR_le; lia|]. rewrite <- Rinv_1. apply Rinv_le; [lra|]. apply IZR_le. lia.
    - rewrite p2_53. apply IZR_lt. exact HX. }
  assert (D : Zfloor (IZR X / IZR (2 ^ j)) = (X / 2 ^ j)%Z) by (apply Zfloor_div; lia).
  rewrite power_unit by lia. split.
  - rewrite float_lo_is by (assumption || lia). rewrite Q, D. unfold Grid.adjust_lo, Numpy.floor_div. rewrite Z.sub_0_r, mult_IZR, <- power_unit by lia. ring.
  - rewrite float_hi_is by (assumption || lia). rewrite Q, D. rewrite <- power_unit by lia.
    assert (E : Grid.adjust_hi X 0 (2 ^ j) = ((X / 2 ^ j + 1) * 2 ^ j)%Z).
    { unfold Grid.adjust_hi, Numpy.ceil_div. rewrite Z.sub_0_r. pose proof (Z.div_mod X (2 ^ j) ltac:(lia)) as DM. set (t := (2 ^ j)%Z) in *.
      destruct (Z.eq_dec (X mod t) 0) as [M|M].
      - rewrite Z.div_opp_l_z by lia. rewrite (proj2 (Z.eqb_eq (- - (X / t) * t) X)) by lia. lia.
      - rewrite Z.div_opp_l_nz by lia. pose proof (Z.mod_pos_bound X t ltac:(lia)). rewrite (proj2 (Z.eqb_neq (- (- (X / t) - 1) * t) X)) by lia. lia. }
    rewrite E, mult_IZR. ring.
Qed.
(** The quotient must not underflow: the lower boundary of the smallest negative number is above it. *)
Theorem C73_underflow : is_float (- bpow radix2 (-1074)) /\ float_lo (- bpow radix2 (-1074)) 0 (bpow radix2 10) > - bpow radix2 (-1074) /\
  IZR (Zfloor (- bpow radix2 (-1074) / bpow radix2 10)) * bpow radix2 10 = -1024.
Proof.
  pose proof (bpow_gt_0 radix2 (-1074)) as Hp. split; [|split].
  - apply generic_format_opp, generic_format_FLT_bpow; [exact prec64|lia].
  - rewrite underflow_lo. lra.
  - replace (- bpow radix2 (-1074) / bpow radix2 10) with (- bpow radix2 (-1084)).
    + rewrite (Zfloor_imp (-1)); [change (bpow radix2 10) with 1024; lra|]. pose proof (bpow_gt_0 radix2 (-1084)). assert (L : bpow radix2 (-1084) < bpow radix2 0) by (apply bpow_lt; reflexivity). change (bpow radix2 0) with 1 in L. change (-1 + 1)%Z with 0%Z. generalize dependent (bpow radix2 (-1084)). intros r R1 R2. split; lra.
    + unfold Rdiv. rewrite <- bpow_opp, Ropp_mult_distr_l_reverse, <- bpow_plus. reflexivity.
Qed.

(** x = -1000.25, tile size 1024. *)
Example extent_1 : is_float (-1000.25) /\ float_lo (-1000.25) 0 1024 = -1024 /\ float_hi (-1000.25) 0 1024 = 0.
Proof.
  assert (P : bpow radix2 (-2) = / 4) by reflexivity.
  assert (E : -1000.25 = IZR (-4001) * bpow radix2 (-2)) by (rewrite P; lra).
  assert (T : 1024 = IZR (2 ^ 12) * bpow radix2 (-2)) by (rewrite P; change (2 ^ 12)%Z with 4096%Z; lra).
  split; [rewrite E; apply float_int; lia|]. rewrite E, T. destruct (C73_ticks (-4001) 12 (-2)) as [-> ->]; [lia..|]. rewrite P.
  change (Grid.adjust_lo (-4001) 0 (2 ^ 12)) with (-4096)%Z. change (Grid.adjust_hi (-4001) 0 (2 ^ 12)) with 0%Z. change (2 ^ 12)%Z with 4096%Z. split; lra.
Qed.

Print Assumptions C73_lower.
Print Assumptions C73_upper.
Print Assumptions C73_last.
Print Assumptions C73_origins.
Print Assumptions C73_ticks.
Print Assumptions C73_underflow.
