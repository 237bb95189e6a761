(** Facts about extents in binary64. *)
From Coq Require Import ZArith Reals Lra Lia.
From Flocq Require Import Core.
From Verif Require Import FloatExtents.
Open Scope R_scope.

#[local] Instance prec64 : Prec_gt_0 53.
Proof. unfold Prec_gt_0. lia. Qed.
#[local] Instance valid64 : Valid_exp fexp64.
Proof. apply FLT_exp_valid. exact prec64. Qed.
Notation p2 := (bpow radix2).

Lemma fl_id x : is_float x -> fl x = x.
Proof. intros H. unfold fl. apply round_generic; [apply valid_rnd_N|exact H]. Qed.
Lemma float_spec m e : (Z.abs m < 2 ^ 53)%Z -> (-1074 <= e)%Z -> is_float (IZR m * p2 e).
Proof. intros Hm He. apply generic_format_FLT. apply (FLT_spec radix2 (-1074) 53 _ (Float radix2 m e)); cbn; [reflexivity|exact Hm|exact He]. Qed.
Lemma float_inv x : is_float x -> exists m e, x = IZR m * p2 e /\ (Z.abs m < 2 ^ 53)%Z /\ (-1074 <= e)%Z.
Proof. intros H. apply FLT_format_generic in H; [|exact prec64]. destruct H as [[m e] H1 H2 H3]. exists m, e. split; [exact H1|]. split; [exact H2|exact H3]. Qed.
Lemma float_int n k : (Z.abs n <= 2 ^ 53)%Z -> (-1074 <= k)%Z -> is_float (IZR n * p2 k).
Proof.
  intros Hn Hk. destruct (Z.eq_dec (Z.abs n) (2 ^ 53)) as [E|E]; [|apply float_spec; lia].
  assert (H : exists s, (Z.abs s < 2 ^ 53)%Z /\ n = (s * 2 ^ 53)%Z) by (destruct (Z.abs_spec n) as [[_ A]|[_ A]]; [exists 1%Z|exists (-1)%Z]; split; lia).
  destruct H as (s & Hs & ->). replace (IZR (s * 2 ^ 53) * p2 k) with (IZR s * p2 (53 + k)).
  - apply float_spec; lia.
  - rewrite bpow_plus, mult_IZR. change (2 ^ 53)%Z with (radix2 ^ 53)%Z. rewrite (IZR_Zpower radix2 53) by lia. ring.
Qed.
Lemma p2_int k : (0 <= k)%Z -> p2 k = IZR (2 ^ k).
Proof. intros H. rewrite <- (IZR_Zpower radix2 k H). reflexivity. Qed.
Lemma p2_53 : p2 53 = IZR (2 ^ 53).
Proof. apply p2_int. lia. Qed.

(** A quotient that does not underflow is exact. *)
Lemma quotient_exact x k : is_float x -> x = 0 \/ p2 (-1022) <= Rabs (x / p2 k) -> is_float (x / p2 k).
Proof.
  intros H [->|U]; [unfold Rdiv; rewrite Rmult_0_l; apply generic_format_0|].
  apply generic_format_FLT_FLX; [exact U|].
  apply float_inv in H as (m & e & -> & Hm & He). apply generic_format_FLX. apply (FLX_spec radix2 53 _ (Float radix2 m (e - k))); [|exact Hm].
  unfold F2R. cbn [Fnum Fexp]. unfold Zminus. rewrite bpow_plus, bpow_opp. unfold Rdiv. ring.
Qed.
(** Rounding down or up a float gives a number whose product with a power of two is a float. *)
Lemma small_or_int q : is_float q -> (Rabs q < p2 53) \/ exists n m e, q = IZR n /\ q = IZR m * p2 e /\ (Z.abs m < 2 ^ 53)%Z /\ (0 <= e)%Z.
Proof.
  intros H. destruct (Rlt_or_le (Rabs q) (p2 53)) as [|L]; [left; assumption|right].
  apply float_inv in H as (m & e & -> & Hm & He).
  assert (Hp : (0 < e)%Z).
  { apply Z.nle_gt. intros C. apply Rle_not_lt in L. apply L. rewrite Rabs_mult, (Rabs_pos_eq (p2 e)) by apply bpow_ge_0.
    rewrite <- abs_IZR. apply Rle_lt_trans with (IZR (Z.abs m) * 1).
    - apply Rmult_le_compat_l; [apply IZR_le; lia|]. change 1 with (p2 0). apply bpow_le. exact C.
    - rewrite Rmult_1_r, p2_53. apply IZR_lt. exact Hm. }
  exists (m * 2 ^ e)%Z, m, e. split; [|split; [reflexivity|split; [exact Hm|lia]]].
  rewrite mult_IZR, p2_int by lia. reflexivity.
Qed.
Lemma times_power q n k : is_float q -> (Rabs q < p2 53 -> (Z.abs n <= 2 ^ 53)%Z) -> ((exists m, q = IZR m) -> IZR n = q) -> (-1074 <= k)%Z -> is_float (IZR n * p2 k).
Proof.
  intros H S I Hk. destruct (small_or_int q H) as [L|(z & m & e & E1 & E2 & Hm & He)].
  - apply float_int; [apply S; exact L|exact Hk].
  - rewrite (I (ex_intro _ z E1)), E2, Rmult_assoc, <- bpow_plus. apply float_spec; [exact Hm|lia].
Qed.
Lemma floor_float q k : is_float q -> (-1074 <= k)%Z -> is_float (IZR (Zfloor q) * p2 k).
Proof.
  intros H Hk. apply (times_power q); [exact H| | |exact Hk].
  - intros L. apply Rabs_def2 in L as [L1 L2]. rewrite p2_53 in L1, L2. apply Z.abs_le. split; [apply Zfloor_lub; rewrite opp_IZR; lra|].
    apply le_IZR. apply Rle_trans with q; [apply Zfloor_lb|lra].
  - intros [m ->]. rewrite Zfloor_IZR. reflexivity.
Qed.
Lemma ceil_float q k : is_float q -> (-1074 <= k)%Z -> is_float (IZR (Zceil q) * p2 k).
Proof.
  intros H Hk. apply (times_power q); [exact H| | |exact Hk].
  - intros L. apply Rabs_def2 in L as [L1 L2]. rewrite p2_53 in L1, L2. apply Z.abs_le. split; [|apply Zceil_glb; lra].
    apply le_IZR. rewrite opp_IZR. apply Rle_trans with q; [lra|apply Zceil_ub].
  - intros [m ->]. rewrite Zceil_IZR. reflexivity.
Qed.

Section extents.
  Context (x : R) (k : Z) (Hx : is_float x) (Hk : (-1074 <= k)%Z) (U : x = 0 \/ p2 (-1022) <= Rabs (x / p2 k)).
  Lemma quotient_is : fl (fl (x - 0) / p2 k) = x / p2 k.
  Proof using Hx U. rewrite Rminus_0_r, (fl_id x Hx). apply fl_id, quotient_exact; assumption. Qed.
  Lemma float_lo_is : float_lo x 0 (p2 k) = IZR (Zfloor (x / p2 k)) * p2 k.
  Proof using Hx Hk U. unfold float_lo, fl_floor. rewrite quotient_is. apply fl_id, floor_float; [apply quotient_exact; assumption|exact Hk]. Qed.
  Lemma float_hi0_is : float_hi0 x 0 (p2 k) = IZR (Zceil (x / p2 k)) * p2 k.
  Proof using Hx Hk U. unfold float_hi0, fl_ceil. rewrite quotient_is. apply fl_id, ceil_float; [apply quotient_exact; assumption|exact Hk]. Qed.
  Lemma scaled : x = (x / p2 k) * p2 k.
  Proof using. field. apply Rgt_not_eq, bpow_gt_0. Qed.
  Lemma float_hi_is : Rabs (x / p2 k) < p2 53 -> float_hi x 0 (p2 k) = IZR (Zfloor (x / p2 k) + 1) * p2 k.
  Proof using Hx Hk U.
    intros B. unfold float_hi. rewrite float_hi0_is. set (q := x / p2 k) in *. pose proof (bpow_gt_0 radix2 k) as Hp.
    destruct (Req_EM_T (IZR (Zceil q) * p2 k) x) as [E|E].
    - assert (Eq : q = IZR (Zceil q)). { rewrite scaled in E. fold q in E. apply Rmult_eq_reg_r in E; [symmetry; exact E|apply Rgt_not_eq; exact Hp]. }
      assert (Hf : Zfloor q = Zceil q) by (rewrite Eq at 1; apply Zfloor_IZR). rewrite Hf.
      replace (IZR (Zceil q) * p2 k + p2 k) with (IZR (Zceil q + 1) * p2 k) by (rewrite plus_IZR; ring).
      apply fl_id, float_int; [|exact Hk]. apply Rabs_def2 in B as [B1 B2]. rewrite p2_53 in B1, B2. rewrite Eq in B1, B2.
      apply lt_IZR in B1. rewrite <- opp_IZR in B2. apply lt_IZR in B2. lia.
    - rewrite (Zceil_floor_neq q); [reflexivity|]. intros C. apply E. rewrite <- C, Zceil_IZR, C. symmetry. apply scaled.
  Qed.
End extents.

(** numpy's arange from a tile boundary. *)
Lemma arange_is n k i : (Z.abs n <= 2 ^ 52)%Z -> (0 <= i <= 2 ^ 52)%Z -> (-1074 <= k)%Z -> float_arange (IZR n * p2 k) (p2 k) i = IZR (n + i) * p2 k.
Proof.
  intros Hn Hi Hk. unfold float_arange. replace (IZR n * p2 k + p2 k) with (IZR (n + 1) * p2 k) by (rewrite plus_IZR; ring).
  rewrite (fl_id (IZR (n + 1) * p2 k)) by (apply float_int; lia). replace (IZR (n + 1) * p2 k - IZR n * p2 k) with (IZR 1 * p2 k) by (rewrite plus_IZR; ring).
  rewrite (fl_id (IZR 1 * p2 k)) by (apply float_int; lia). replace (IZR i * (IZR 1 * p2 k)) with (IZR i * p2 k) by ring.
  rewrite (fl_id (IZR i * p2 k)) by (apply float_int; lia). replace (IZR n * p2 k + IZR i * p2 k) with (IZR (n + i) * p2 k) by (rewrite plus_IZR; ring).
  apply fl_id, float_int; lia.
Qed.
Lemma arange_len_is n m k : (Z.abs n <= 2 ^ 52)%Z -> (Z.abs m <= 2 ^ 52)%Z -> (-1074 <= k)%Z -> float_arange_len (IZR n * p2 k) (IZR m * p2 k) (p2 k) = (m - n)%Z.
Proof.
  intros Hn Hm Hk. unfold float_arange_len. replace (IZR m * p2 k - IZR n * p2 k) with (IZR (m - n) * p2 k) by (rewrite minus_IZR; ring).
  rewrite (fl_id (IZR (m - n) * p2 k)) by (apply float_int; lia).
  replace (IZR (m - n) * p2 k / p2 k) with (IZR (m - n) * p2 0) by (cbn; field; apply Rgt_not_eq, bpow_gt_0).
  rewrite fl_id by (apply float_int; lia). cbn [bpow]. rewrite Rmult_1_r. apply Zceil_IZR.
Qed.

(** Multiples of a unit: the integer arithmetic of the model. *)
Lemma ratio a b u : (0 < b)%Z -> IZR a * p2 u / (IZR b * p2 u) = IZR a / IZR b.
Proof. intros Hb. apply IZR_lt in Hb. field. split; [lra|apply Rgt_not_eq, bpow_gt_0]. Qed.
Lemma power_unit j u : (0 <= j)%Z -> IZR (2 ^ j) * p2 u = p2 (j + u).
Proof. intros H. rewrite bpow_plus, <- p2_int by exact H. reflexivity. Qed.
Lemma underflow_lo : float_lo (- p2 (-1074)) 0 (p2 10) = 0.
Proof.
  assert (F : is_float (- p2 (-1074))). { apply generic_format_opp, generic_format_FLT_bpow; [exact prec64|lia]. }
  assert (E : fl (- p2 (-1074) / p2 10) = 0).
  { unfold fl. apply round_N_small with (ex := (-1083)%Z); [|unfold fexp64, FLT_exp; lia].
    replace (- p2 (-1074) / p2 10) with (- p2 (-1084)).
    - rewrite Rabs_Ropp, Rabs_pos_eq by apply bpow_ge_0. split; [apply Req_le; reflexivity|apply bpow_lt; lia].
    - unfold Rdiv. rewrite <- bpow_opp, Ropp_mult_distr_l_reverse, <- bpow_plus. reflexivity. }
  unfold float_lo, fl_floor. rewrite Rminus_0_r, (fl_id _ F), E, Zfloor_IZR, Rmult_0_l. apply fl_id, generic_format_0.
Qed.
