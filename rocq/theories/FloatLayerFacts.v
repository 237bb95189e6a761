(** Facts about layer values in floating point. *)
From Coq Require Import ZArith Reals Lra Lia List Permutation.
From Flocq Require Import Core Relative Plus_error.
From Verif Require Import FloatExtents FloatFacts FloatLayers.
Import ListNotations.
Open Scope R_scope.

#[local] Instance prec_w w : Prec_gt_0 (bits w).
Proof. unfold Prec_gt_0. destruct w; reflexivity. Qed.
#[local] Instance valid_w w : Valid_exp (FLT_exp (least w) (bits w)).
Proof. apply FLT_exp_valid. apply prec_w. Qed.

Lemma rnd_id w x : is_fl w x -> rnd w x = x.
Proof. intros H. unfold rnd. apply round_generic; [apply valid_rnd_N|exact H]. Qed.
Lemma rnd_fl w x : is_fl w (rnd w x).
Proof. apply generic_format_round; [apply valid_w|apply valid_rnd_N]. Qed.
Lemma rnd_le w x y : x <= y -> rnd w x <= rnd w y.
Proof. apply round_le; [apply valid_w|apply valid_rnd_N]. Qed.
Lemma fl_between w a b x : is_fl w a -> is_fl w b -> a <= x <= b -> a <= rnd w x <= b.
Proof. intros Ha Hb [H1 H2]. rewrite <- (rnd_id w a Ha), <- (rnd_id w b Hb). split; now apply rnd_le. Qed.
Lemma fl_spec w m e : (Z.abs m < 2 ^ bits w)%Z -> (least w <= e)%Z -> is_fl w (IZR m * p2 e).
Proof.
  intros Hm He. apply generic_format_FLT. apply (FLT_spec radix2 (least w) (bits w) _ (Float radix2 m e)); cbn; [reflexivity| |exact He].
  destruct w; exact Hm.
Qed.
Lemma fl_int w n k : (Z.abs n <= 2 ^ bits w)%Z -> (least w <= k)%Z -> is_fl w (IZR n * p2 k).
Proof.
  intros Hn Hk. destruct (Z.eq_dec (Z.abs n) (2 ^ bits w)) as [E|E]; [|apply fl_spec; lia].
  assert (Hb : (1 < 2 ^ bits w)%Z) by (destruct w; reflexivity). assert (H0 : (0 <= bits w)%Z) by (destruct w; discriminate).
  assert (H : exists s, (Z.abs s < 2 ^ bits w)%Z /\ n = (s * 2 ^ bits w)%Z).
  { destruct (Z.abs_spec n) as [[_ A]|[_ A]]; [exists 1%Z|exists (-1)%Z]; split; lia. }
  destruct H as (s & Hs & ->). replace (IZR (s * 2 ^ bits w) * p2 k) with (IZR s * p2 (bits w + k)).
  - apply fl_spec; lia.
  - rewrite bpow_plus, mult_IZR, (p2_int (bits w) H0). ring.
Qed.
Lemma fl_inv w x : is_fl w x -> exists m e, x = IZR m * p2 e /\ (Z.abs m < 2 ^ bits w)%Z /\ (least w <= e)%Z.
Proof.
  intros H. apply FLT_format_generic in H; [|apply prec_w]. destruct H as [[m e] H1 H2 H3]. exists m, e. split; [exact H1|]. split; [|exact H3].
  destruct w; exact H2.
Qed.
Lemma single_double x : is_fl Single x -> is_fl Double x.
Proof. intros H. apply fl_inv in H as (m & e & -> & Hm & He). cbn in *. apply fl_spec; cbn; lia. Qed.

(** ** Sums *)
Definition rsum (l : list R) : R := fold_right Rplus 0 l.
Lemma rsum_app a b : rsum (a ++ b) = rsum a + rsum b.
Proof. unfold rsum. induction a as [|x a IH]; cbn [app fold_right]; lra. Qed.
Lemma rsum_perm a b : Permutation a b -> rsum a = rsum b.
Proof. unfold rsum. induction 1; cbn [fold_right]; lra. Qed.
Definition rabs_sum (l : list R) : R := rsum (map Rabs l).
Lemma rabs_app a b : rabs_sum (a ++ b) = rabs_sum a + rabs_sum b.
Proof. unfold rabs_sum. rewrite map_app. apply rsum_app. Qed.
Lemma rabs_perm a b : Permutation a b -> rabs_sum a = rabs_sum b.
Proof. intros H. apply rsum_perm. now apply Permutation_map. Qed.
Lemma rabs_nonneg l : 0 <= rabs_sum l.
Proof. unfold rabs_sum, rsum. induction l as [|x l IH]; cbn [map fold_right]; [lra|]. pose proof (Rabs_pos x). lra. Qed.
Lemma rsum_abs l : Rabs (rsum l) <= rabs_sum l.
Proof.
  unfold rabs_sum, rsum. induction l as [|x l IH]; cbn [map fold_right]; [rewrite Rabs_R0; lra|]. eapply Rle_trans; [apply Rabs_triang|]. lra.
Qed.
Lemma summed_nonempty w l s : summed w l s -> l <> [].
Proof.
  induction 1 as [x|a b s t l _ IHa _ _ P]; [discriminate|]. intros ->. apply Permutation_nil in P. destruct a; [now apply IHa|discriminate].
Qed.

Definition multiple (k : Z) (x : R) : Prop := exists m : Z, x = IZR m * p2 k.
Lemma multiple_fl w k x : (least w <= k)%Z -> multiple k x -> Rabs x <= p2 (bits w + k) -> is_fl w x.
Proof.
  intros Hk (m & ->) B. apply fl_int; [|exact Hk]. pose proof (bpow_gt_0 radix2 k) as Hp.
  rewrite Rabs_mult, (Rabs_pos_eq (p2 k)), bpow_plus in B by lra. apply Rmult_le_reg_r in B; [|exact Hp].
  rewrite p2_int in B by (destruct w; discriminate). rewrite <- abs_IZR in B. now apply le_IZR.
Qed.
Lemma multiple_add k x y : multiple k x -> multiple k y -> multiple k (x + y).
Proof. intros (m & ->) (n & ->). exists (m + n)%Z. rewrite plus_IZR. ring. Qed.
Lemma multiple_sum k l : Forall (multiple k) l -> multiple k (rsum l).
Proof. induction 1; [exists 0%Z; cbn; ring|]. now apply multiple_add. Qed.
(** Sums of multiples of a unit are exact in every order. *)
Lemma sum_exact w k l s : summed w l s -> (least w <= k)%Z -> Forall (multiple k) l -> rabs_sum l <= p2 (bits w + k) -> s = rsum l.
Proof.
  intros H Hk. induction H as [x|a b s t l Ha IHa Hb IHb P]; intros F B; [cbn; lra|].
  rewrite (rsum_perm _ _ P), rsum_app. rewrite (rabs_perm _ _ P), rabs_app in B.
  pose proof (Permutation_Forall P F) as F'. apply Forall_app in F' as [Fa Fb].
  pose proof (rabs_nonneg a). pose proof (rabs_nonneg b).
  rewrite IHa, IHb by (assumption || lra). apply rnd_id. apply (multiple_fl w k).
  - exact Hk.
  - apply multiple_add; now apply multiple_sum.
  - eapply Rle_trans; [apply Rabs_triang|]. pose proof (rsum_abs a). pose proof (rsum_abs b). lra.
Qed.

Lemma sum_bounds lo hi l : Forall (fun x => lo <= x <= hi) l -> INR (length l) * lo <= rsum l <= INR (length l) * hi.
Proof.
  induction 1 as [|x l Hx _ IH]; [cbn; lra|]. cbn [length rsum fold_right]. rewrite S_INR. unfold rsum in IH. lra.
Qed.
Lemma mean_bounds lo hi l : l <> [] -> Forall (fun x => lo <= x <= hi) l -> lo <= rsum l / INR (length l) <= hi.
Proof.
  intros Hne H. apply sum_bounds in H. assert (P : 0 < INR (length l)) by (apply lt_0_INR; destruct l; [easy|cbn; lia]).
  split; apply (Rmult_le_reg_r _ _ _ P); unfold Rdiv; rewrite Rmult_assoc, Rinv_l by lra; lra.
Qed.
Lemma exact_between w k l s lo hi : summed w l s -> (least w <= k)%Z -> Forall (multiple k) l -> rabs_sum l <= p2 (bits w + k) ->
  is_fl Single lo -> is_fl Single hi -> Forall (fun x => lo <= x <= hi) l -> lo <= stored_mean s (length l) <= hi.
Proof.
  intros H Hk F B Hlo Hhi HB. rewrite (sum_exact w k l s H Hk F B). unfold stored_mean.
  apply fl_between; [exact Hlo|exact Hhi|]. apply fl_between; [now apply single_double..|].
  apply mean_bounds; [now apply (summed_nonempty w l s)|exact HB].
Qed.

(** ** Rounding errors of sums *)
Definition unit_of (w : width) : R := p2 (- bits w).
Lemma unit_ro w : u_ro radix2 (bits w) = unit_of w.
Proof. unfold u_ro, unit_of. rewrite bpow_plus. change (p2 1) with 2. lra. Qed.
Lemma unit_pos w : 0 < unit_of w.
Proof. apply bpow_gt_0. Qed.
Lemma add_error w x y : is_fl w x -> is_fl w y -> Rabs (rnd w (x + y) - (x + y)) <= unit_of w * Rabs (x + y).
Proof.
  intros Hx Hy. destruct (FLT_plus_error_N_ex radix2 (least w) (bits w) (fun n => negb (Z.even n)) x y Hx Hy) as (eps & He & E).
  unfold rnd. rewrite E. replace ((x + y) * (1 + eps) - (x + y)) with (eps * (x + y)) by ring. rewrite Rabs_mult. apply Rmult_le_compat_r; [apply Rabs_pos|].
  eapply Rle_trans; [exact He|]. rewrite unit_ro. pose proof (unit_pos w) as U. apply (Rmult_le_reg_r (1 + unit_of w)); [lra|]. unfold Rdiv. rewrite Rmult_assoc, Rinv_l by lra.
  pose proof (Rmult_le_pos _ _ (Rlt_le _ _ U) (Rlt_le _ _ U)). lra.
Qed.
Lemma summed_fl w l s : summed w l s -> Forall (is_fl w) l -> is_fl w s.
Proof. intros H. destruct H as [x|]; intros F; [now inversion F|apply rnd_fl]. Qed.
Lemma pow_mono u a b : 0 < u -> (a <= b)%nat -> (1 + u) ^ a <= (1 + u) ^ b.
Proof. intros Hu H. apply Rle_pow; [lra|exact H]. Qed.
Lemma sum_error w l s : summed w l s -> Forall (is_fl w) l -> Rabs (s - rsum l) <= ((1 + unit_of w) ^ (length l - 1) - 1) * rabs_sum l.
Proof.
  intros H. induction H as [x|a b s t l Ha IHa Hb IHb P]; intros F.
  - cbn. replace (x - (x + 0)) with 0 by ring. rewrite Rabs_R0. lra.
  - pose proof (Permutation_Forall P F) as F'. apply Forall_app in F' as [Fa Fb]. specialize (IHa Fa). specialize (IHb Fb).
    rewrite (rsum_perm _ _ P), rsum_app, (rabs_perm _ _ P), rabs_app, (Permutation_length P), app_length.
    pose proof (add_error w s t (summed_fl _ _ _ Ha Fa) (summed_fl _ _ _ Hb Fb)) as E.
    pose proof (rabs_nonneg a) as Pa. pose proof (rabs_nonneg b) as Pb. pose proof (rsum_abs a) as Aa. pose proof (rsum_abs b) as Ab.
    pose proof (unit_pos w) as U. set (u := unit_of w) in *.
    assert (La : (0 < length a)%nat) by (pose proof (summed_nonempty _ _ _ Ha); destruct a; [easy|cbn; lia]).
    assert (Lb : (0 < length b)%nat) by (pose proof (summed_nonempty _ _ _ Hb); destruct b; [easy|cbn; lia]).
    assert (Q : forall n (A D X : R), (0 < n)%nat -> (n <= length a + length b - 1)%nat -> 0 <= A -> D <= ((1 + u) ^ (n - 1) - 1) * A -> X <= A ->
      (1 + u) * D + u * X <= ((1 + u) ^ (length a + length b - 1) - 1) * A).
    { intros n A D X Hn Hn' HA HD HX.
      assert (S1 : (1 + u) * D <= (1 + u) * (((1 + u) ^ (n - 1) - 1) * A)) by (apply Rmult_le_compat_l; lra).
      assert (S2 : u * X <= u * A) by (apply Rmult_le_compat_l; lra).
      assert (S3 : (1 + u) * (1 + u) ^ (n - 1) = (1 + u) ^ n) by (rewrite tech_pow_Rmult; f_equal; lia).
      assert (S4 : (1 + u) * (((1 + u) ^ (n - 1) - 1) * A) + u * A = ((1 + u) ^ n - 1) * A) by (rewrite <- S3; ring).
      assert (S5 : ((1 + u) ^ n - 1) * A <= ((1 + u) ^ (length a + length b - 1) - 1) * A).
      { apply Rmult_le_compat_r; [exact HA|]. pose proof (pow_mono u _ _ U Hn'). lra. }
      lra. }
    pose proof (Q _ _ _ _ La ltac:(lia) Pa IHa Aa) as Qa. pose proof (Q _ _ _ _ Lb ltac:(lia) Pb IHb Ab) as Qb.
    assert (T : Rabs (rnd w (s + t) - (rsum a + rsum b)) <= (1 + u) * (Rabs (s - rsum a) + Rabs (t - rsum b)) + u * (Rabs (rsum a) + Rabs (rsum b))).
    { replace (rnd w (s + t) - (rsum a + rsum b)) with ((rnd w (s + t) - (s + t)) + ((s - rsum a) + (t - rsum b))) by ring.
      eapply Rle_trans; [apply Rabs_triang|]. pose proof (Rabs_triang (s - rsum a) (t - rsum b)) as T1.
      assert (T2 : Rabs (s + t) <= Rabs (s - rsum a) + Rabs (t - rsum b) + (Rabs (rsum a) + Rabs (rsum b))).
      { replace (s + t) with (((s - rsum a) + (t - rsum b)) + (rsum a + rsum b)) by ring. eapply Rle_trans; [apply Rabs_triang|].
        pose proof (Rabs_triang (rsum a) (rsum b)). lra. }
      assert (T3 : u * Rabs (s + t) <= u * (Rabs (s - rsum a) + Rabs (t - rsum b) + (Rabs (rsum a) + Rabs (rsum b)))) by (apply Rmult_le_compat_l; lra).
      lra. }
    lra.
Qed.
Lemma rnd_error w x : Rabs (rnd w x - x) <= unit_of w * Rabs x + / 2 * p2 (least w).
Proof.
  destruct (error_N_FLT radix2 (least w) (bits w) (prec_w w) (fun n => negb (Z.even n)) x) as (eps & eta & H1 & H2 & _ & E).
  unfold rnd. rewrite E. replace (x * (1 + eps) + eta - x) with (eps * x + eta) by ring. eapply Rle_trans; [apply Rabs_triang|]. rewrite Rabs_mult.
  apply Rplus_le_compat; [|exact H2]. apply Rmult_le_compat_r; [apply Rabs_pos|]. rewrite <- unit_ro. exact H1.
Qed.

(** ** Rounding of particular numbers *)
Lemma rnd_at w x k m : (least w <= k)%Z -> p2 (bits w - 1 + k) <= x < p2 (bits w + k) -> ZnearestE (x * p2 (- k)) = m -> rnd w x = IZR m * p2 k.
Proof.
  intros Hk [H1 H2] E. assert (M : (mag radix2 x : Z) = (bits w + k)%Z).
  { apply mag_unique. pose proof (bpow_gt_0 radix2 (bits w - 1 + k)). rewrite Rabs_pos_eq by lra. split; [|exact H2]. replace (bits w + k - 1)%Z with (bits w - 1 + k)%Z by lia. exact H1. }
  assert (C : cexp radix2 (FLT_exp (least w) (bits w)) x = k) by (unfold cexp, FLT_exp; rewrite M; lia).
  unfold rnd, round, F2R, scaled_mantissa. cbn [Fnum Fexp]. rewrite C, E. reflexivity.
Qed.
Lemma nearest_tie m : Z.even m = true -> ZnearestE (IZR m + / 2) = m.
Proof.
  intros H. unfold Znearest. assert (F : Zfloor (IZR m + / 2) = m) by (apply Zfloor_imp; rewrite plus_IZR; lra). rewrite F.
  rewrite Rcompare_Eq by lra. rewrite H. reflexivity.
Qed.
Lemma numpy_summed w l : l <> [] -> summed w l (numpy_sum w l).
Proof.
  destruct l as [|x [|y r]]; [easy|constructor|]. intros _. cbn [numpy_sum].
  assert (H : forall r acc a, summed w a acc -> summed w (a ++ r) (fold_left (fun s z => rnd w (s + z)) r acc)).
  { clear. intros r. induction r as [|z r IH]; intros acc a Ha; [rewrite app_nil_r; exact Ha|]. cbn [fold_left]. replace (a ++ z :: r) with ((a ++ [z]) ++ r) by (rewrite <- app_assoc; reflexivity).
    apply IH. apply (S_add w a [z]); [exact Ha|constructor|reflexivity]. }
  apply (S_add w [x] (y :: r)); [constructor| |reflexivity]. apply (H r y [y]). constructor.
Qed.
Lemma least_of_spec x l : In (least_of x l) (x :: l) /\ Forall (fun z => least_of x l <= z) (x :: l).
Proof.
  unfold least_of. revert x. induction l as [|y l IH]; intros x; [split; [now left|constructor; [cbn; lra|constructor]]|].
  cbn [fold_left]. destruct (IH (Rmin x y)) as [H1 H2]. pose proof (Forall_inv H2) as H3. pose proof (Forall_inv_tail H2) as H4. pose proof (Rmin_l x y). pose proof (Rmin_r x y).
  cbn beta in H3. split.
  - destruct H1 as [E|H1]; [|right; now right]. rewrite <- E. unfold Rmin. destruct (Rle_dec x y); [now left|right; now left].
  - constructor; [cbn beta; lra|]. constructor; [cbn beta; lra|exact H4].
Qed.
