(** C90-C93: georeference, means, minima and cell edges in floating point. *)
From Coq Require Import ZArith Reals Lra Lia List Permutation.
From Flocq Require Import Core.
From Verif Require Import FloatExtents FloatFacts FloatLayers FloatLayerFacts.
Import ListNotations.
Open Scope R_scope.

(** ** C90: the corner of tiles number n along an axis, of size 2^k. *)
Theorem C90_origin_partial n k : (Z.abs n <= 2 ^ 24)%Z -> (-149 <= k)%Z -> geo_origin (IZR n * bpow radix2 k) = IZR n * bpow radix2 k.
Proof. intros. apply rnd_id, fl_int; assumption. Qed.
Print Assumptions C90_origin_partial.
(** Missing: tiles further out. With tiles of a quarter metre the raster of the tile at 4194304.25 is placed one tile
    further west. *)
Theorem C90_origin_refuted :
  exists n k, is_fl Double (IZR n * bpow radix2 k) /\ geo_origin (IZR n * bpow radix2 k) = IZR (n - 1) * bpow radix2 k.
Proof.
  exists 16777217%Z, (-2)%Z. split; [apply fl_int; cbn; lia|]. unfold geo_origin. change (bpow radix2 (-2)) with (/ 4).
  rewrite (rnd_at Single _ (-1) 8388608); cbn; [lra|lia|lra|]. replace (16777217 * / 4 * 2) with (IZR 8388608 + / 2) by lra. now apply nearest_tie.
Qed.
Print Assumptions C90_origin_refuted.
(** A UTM northing: tile of 1024 m number 4420, at 4526080. *)
Example C90_case : geo_origin 4526080 = 4526080.
Proof. pose proof (C90_origin_partial 4420 10 ltac:(lia) ltac:(lia)) as H. change (bpow radix2 10) with 1024 in H. replace (4420 * 1024) with 4526080 in H by lra. exact H. Qed.

(** ** C91: false of the code. Six soundings of the same depth 1 + 2^-22, as float32: the layer has 1 + 2^-23. *)
Theorem C91_between_refuted :
  exists v, is_fl Single v /\ stored_mean (numpy_sum Single (repeat v 6)) 6 < v.
Proof.
  exists (1 + 2 / 8388608).
  assert (P : bpow radix2 (-23) = / 8388608) by reflexivity. assert (P1 : bpow radix2 (-22) = / 4194304) by reflexivity. assert (P2 : bpow radix2 (-21) = / 2097152) by reflexivity.
  assert (Hv : is_fl Single (1 + 2 / 8388608)).
  { replace (1 + 2 / 8388608) with (IZR 8388610 * bpow radix2 (-23)) by (rewrite P; lra). apply fl_int; cbn; lia. }
  split; [exact Hv|]. cbn [repeat numpy_sum fold_left].
  assert (E2 : rnd Single (1 + 2 / 8388608 + (1 + 2 / 8388608)) = 2 + 4 / 8388608).
  { replace (_ + _) with (IZR 8388610 * bpow radix2 (-22)) by (rewrite P1; lra). rewrite rnd_id by (apply fl_int; cbn; lia). rewrite P1. lra. }
  assert (E3 : rnd Single (2 + 4 / 8388608 + (1 + 2 / 8388608)) = 3 + 6 / 8388608).
  { replace (_ + _) with (IZR 12582915 * bpow radix2 (-22)) by (rewrite P1; lra). rewrite rnd_id by (apply fl_int; cbn; lia). rewrite P1. lra. }
  assert (E4 : rnd Single (3 + 6 / 8388608 + (1 + 2 / 8388608)) = 4 + 8 / 8388608).
  { replace (_ + _) with (IZR 8388610 * bpow radix2 (-21)) by (rewrite P2; lra). rewrite rnd_id by (apply fl_int; cbn; lia). rewrite P2. lra. }
  assert (E5 : rnd Single (4 + 8 / 8388608 + (1 + 2 / 8388608)) = 5 + 8 / 8388608).
  { rewrite (rnd_at Single _ (-21) 10485762); cbn; [lra|lia|lra|]. replace (_ * _) with (IZR 10485762 + / 2) by lra. now apply nearest_tie. }
  assert (E6 : rnd Single (1 + 2 / 8388608 + (5 + 8 / 8388608)) = 6 + 8 / 8388608).
  { rewrite (rnd_at Single _ (-21) 12582914); cbn; [lra|lia|lra|]. replace (_ * _) with (IZR 12582914 + / 2) by lra. now apply nearest_tie. }
  rewrite E2, E3, E4, E5, E6. unfold stored_mean. replace ((6 + 8 / 8388608) / INR 6) with (1 + 4 / 3 / 8388608) by (cbn; lra).
  assert (B : 1 + 1 / 8388608 <= rnd Double (1 + 4 / 3 / 8388608) <= 1 + 11 / 8 / 8388608).
  { apply fl_between; [| |lra].
    - replace (1 + 1 / 8388608) with (IZR 8388609 * bpow radix2 (-23)) by (rewrite P; lra). apply fl_int; cbn; lia.
    - assert (P3 : bpow radix2 (-26) = / 67108864) by reflexivity. replace (1 + 11 / 8 / 8388608) with (IZR 67108875 * bpow radix2 (-26)) by (rewrite P3; lra). apply fl_int; cbn; lia. }
  set (d := rnd Double _) in *. rewrite (rnd_at Single d (-23) 8388609); cbn; [lra|lia|lra|].
  apply Znearest_imp. apply Rabs_def1; lra.
Qed.
Print Assumptions C91_between_refuted.
(** What holds, for every order in which the soundings of the cell are added. First: when all of them are multiples of a
    unit 2^k and their absolute values add up to at most 2^24 units (2^53 for float64 soundings). *)
Theorem C91_between_partial w k l s lo hi :
  summed w l s -> (least w <= k)%Z -> Forall (fun x => exists m : Z, x = IZR m * bpow radix2 k) l ->
  fold_right Rplus 0 (map Rabs l) <= bpow radix2 (bits w + k) ->
  is_fl Single lo -> is_fl Single hi -> Forall (fun x => lo <= x <= hi) l ->
  lo <= stored_mean s (length l) <= hi.
Proof. intros. eapply exact_between; eassumption. Qed.
Print Assumptions C91_between_partial.
(** So a flat bottom of float32 depths held as float64 stays flat, up to 2^29 soundings in the cell. *)
Theorem C91_flat_partial v n s : is_fl Single v -> (0 < n)%nat -> (Z.of_nat n <= 2 ^ 29)%Z ->
  summed Double (repeat v n) s -> stored_mean s n = v.
Proof.
  intros Hv Hn Hn' H. destruct (fl_inv _ _ Hv) as (m & e & E & Hm & He). cbn in Hm, He.
  assert (A : v <= stored_mean s (length (repeat v n)) <= v).
  { apply (exact_between Double e (repeat v n) s v v); [exact H|cbn; lia| | |exact Hv|exact Hv|].
    - apply Forall_forall. intros x Hx. apply repeat_spec in Hx as ->. now exists m.
    - assert (R : rabs_sum (repeat v n) = INR n * Rabs v).
      { clear. induction n as [|n IH]; [cbn; lra|]. unfold rabs_sum, rsum in *. cbn [repeat map fold_right]. rewrite IH, S_INR. lra. }
      rewrite R, E, Rabs_mult, (Rabs_pos_eq (bpow radix2 e)) by apply bpow_ge_0. rewrite INR_IZR_INZ, <- abs_IZR, bpow_plus, <- Rmult_assoc.
      apply Rmult_le_compat_r; [apply bpow_ge_0|]. cbn [bits]. rewrite p2_int, <- mult_IZR by lia. apply IZR_le.
      apply Z.le_trans with (2 ^ 29 * 2 ^ 24)%Z; [|lia]. apply Z.mul_le_mono_nonneg; lia.
    - apply Forall_forall. intros x Hx. apply repeat_spec in Hx as ->. lra. }
  rewrite repeat_length in A. lra.
Qed.
Print Assumptions C91_flat_partial.
(** In general: the error is at most that of n - 1 additions, one division and the conversion. *)
Theorem C91_error_partial w l s :
  summed w l s -> Forall (is_fl w) l ->
  Rabs (stored_mean s (length l) - fold_right Rplus 0 l / INR (length l)) <=
    ((1 + bpow radix2 (- bits w)) ^ (length l - 1) * (1 + bpow radix2 (-53)) * (1 + bpow radix2 (-24)) - 1)
      * (fold_right Rplus 0 (map Rabs l) / INR (length l)) + bpow radix2 (-149).
Proof.
  intros H F. pose proof (sum_error w l s H F) as E. pose proof (rabs_nonneg l) as PA. pose proof (rsum_abs l) as LA. change (fold_right Rplus 0 (map Rabs l)) with (rabs_sum l). change (fold_right Rplus 0 l) with (rsum l).
  change (bpow radix2 (- bits w)) with (unit_of w). set (g := (1 + unit_of w) ^ (length l - 1)) in *.
  assert (Hg : 1 <= g) by (pose proof (unit_pos w); apply pow_R1_Rle; lra).
  assert (Pn : 0 < INR (length l)) by (pose proof (summed_nonempty w l s H); apply lt_0_INR; destruct l; [easy|cbn; lia]).
  unfold stored_mean. set (N := INR (length l)) in *. set (A := rabs_sum l) in *. set (S := rsum l) in *.
  pose proof (rnd_error Double (s / N)) as E1. set (d := rnd Double (s / N)) in *. pose proof (rnd_error Single d) as E2. set (r := rnd Single d) in *.
  change (unit_of Double) with (bpow radix2 (-53)) in E1. change (unit_of Single) with (bpow radix2 (-24)) in E2. cbn [least] in E1, E2.
  assert (U1 : 0 < bpow radix2 (-53)) by apply bpow_gt_0. assert (U2 : 0 < bpow radix2 (-24) <= / 2) by (split; [apply bpow_gt_0|cbn; lra]).
  assert (U3 : 0 < bpow radix2 (-1074) <= bpow radix2 (-150)) by (split; [apply bpow_gt_0|apply bpow_le; lia]).
  assert (U4 : bpow radix2 (-149) = 2 * bpow radix2 (-150)) by (rewrite (bpow_plus radix2 1 (-150) : bpow radix2 (-149) = _); reflexivity).
  set (u := bpow radix2 (-53)) in *. set (v := bpow radix2 (-24)) in *. set (z1 := bpow radix2 (-1074)) in *. set (z2 := bpow radix2 (-149)) in *. set (z3 := bpow radix2 (-150)) in *.
  clearbody u v z1 z2 z3 d r g N A S.
  assert (PQ : 0 <= A / N) by (apply Rmult_le_pos; [exact PA|apply Rlt_le, Rinv_0_lt_compat, Pn]). set (a := A / N) in *.
  assert (B0 : Rabs (s / N - S / N) <= (g - 1) * a).
  { replace (s / N - S / N) with ((s - S) * / N) by (unfold Rdiv; ring). rewrite Rabs_mult, (Rabs_pos_eq (/ N)) by (apply Rlt_le, Rinv_0_lt_compat, Pn).
    unfold a, Rdiv. rewrite <- Rmult_assoc. apply Rmult_le_compat_r; [apply Rlt_le, Rinv_0_lt_compat, Pn|exact E]. }
  assert (BS : Rabs (S / N) <= a).
  { unfold Rdiv. rewrite Rabs_mult, (Rabs_pos_eq (/ N)) by (apply Rlt_le, Rinv_0_lt_compat, Pn). apply Rmult_le_compat_r; [apply Rlt_le, Rinv_0_lt_compat, Pn|exact LA]. }
  clearbody a. set (q := s / N) in *. set (m := S / N) in *. clearbody q m.
  assert (Bq : Rabs q <= g * a). { replace q with ((q - m) + m) by ring. eapply Rle_trans; [apply Rabs_triang|]. lra. }
  assert (Bd : Rabs (d - q) <= u * (g * a) + / 2 * z1) by (assert (u * Rabs q <= u * (g * a)) by (apply Rmult_le_compat_l; lra); lra).
  assert (Bd' : Rabs d <= (1 + u) * (g * a) + / 2 * z1). { replace d with ((d - q) + q) by ring. eapply Rle_trans; [apply Rabs_triang|]. lra. }
  assert (Br : Rabs (r - d) <= v * ((1 + u) * (g * a) + / 2 * z1) + / 2 * z2) by (assert (v * Rabs d <= v * ((1 + u) * (g * a) + / 2 * z1)) by (apply Rmult_le_compat_l; lra); lra).
  assert (T : Rabs (r - m) <= Rabs (r - d) + (Rabs (d - q) + Rabs (q - m))).
  { replace (r - m) with ((r - d) + ((d - q) + (q - m))) by ring. eapply Rle_trans; [apply Rabs_triang|]. pose proof (Rabs_triang (d - q) (q - m)). lra. }
  assert (Z1 : v * (/ 2 * z1) <= / 2 * (/ 2 * z1)) by (apply Rmult_le_compat_r; lra).
  assert (G : (g * (1 + u) * (1 + v) - 1) * a = v * ((1 + u) * (g * a)) + u * (g * a) + (g - 1) * a) by ring.
  rewrite G. replace (v * ((1 + u) * (g * a) + / 2 * z1)) with (v * ((1 + u) * (g * a)) + v * (/ 2 * z1)) in Br by ring. lra.
Qed.
Print Assumptions C91_error_partial.
(** The depths 10.25, 10.5 and 10.5, in float32: the sum is exact; added in numpy's order the cell lies between. *)
Example C91_case : summed Single [10.25; 10.5; 10.5] (numpy_sum Single [10.25; 10.5; 10.5]) /\
  10.25 <= stored_mean (numpy_sum Single [10.25; 10.5; 10.5]) 3 <= 10.5.
Proof.
  assert (H : summed Single [10.25; 10.5; 10.5] (numpy_sum Single [10.25; 10.5; 10.5])) by (apply numpy_summed; discriminate).
  split; [exact H|]. assert (P : bpow radix2 (-2) = / 4) by reflexivity.
  apply (C91_between_partial Single (-2) [10.25; 10.5; 10.5] _ 10.25 10.5 H); [cbn; lia| | | | |].
  - constructor; [exists 41%Z; rewrite P; lra|]. constructor; [exists 42%Z; rewrite P; lra|]. constructor; [exists 42%Z; rewrite P; lra|constructor].
  - cbn [map fold_right]. rewrite !Rabs_pos_eq by lra. change (bpow radix2 (bits Single + -2)) with 4194304. lra.
  - replace 10.25 with (IZR 41 * bpow radix2 (-2)) by (rewrite P; lra). apply fl_int; cbn; lia.
  - replace 10.5 with (IZR 42 * bpow radix2 (-2)) by (rewrite P; lra). apply fl_int; cbn; lia.
  - repeat constructor; lra.
Qed.

(** ** C92: false when the soundings are float64. One sounding of 1 + 2^-25 + 2^-24, stored as 1 + 2^-23. *)
Theorem C92_shoalest_refuted : exists z, is_fl Double z /\ stored_min z [] > z.
Proof.
  assert (P : bpow radix2 (-25) = / 33554432) by reflexivity. exists (1 + 3 / 33554432). split.
  - replace (1 + 3 / 33554432) with (IZR 33554435 * bpow radix2 (-25)) by (rewrite P; lra). apply fl_int; cbn; lia.
  - unfold stored_min, least_of. cbn [fold_left]. rewrite (rnd_at Single _ (-23) 8388609); cbn; [lra|lia|lra|]. apply Znearest_imp. apply Rabs_def1; lra.
Qed.
Print Assumptions C92_shoalest_refuted.
(** What holds: with float32 soundings the stored depth is the depth of one of them, and none is less. *)
Theorem C92_shoalest_partial x l : Forall (is_fl Single) (x :: l) ->
  In (stored_min x l) (x :: l) /\ Forall (fun z => stored_min x l <= z) (x :: l).
Proof.
  intros F. destruct (least_of_spec x l) as [H1 H2]. unfold stored_min.
  rewrite rnd_id by (rewrite Forall_forall in F; apply F; exact H1). split; assumption.
Qed.
Print Assumptions C92_shoalest_partial.
(** For float64 soundings the error is half a unit in the last place of float32. *)
Theorem C92_error_partial x l :
  exists z, In z (x :: l) /\ Forall (fun z' => z <= z') (x :: l) /\ Rabs (stored_min x l - z) <= bpow radix2 (-24) * Rabs z + bpow radix2 (-150).
Proof.
  destruct (least_of_spec x l) as [H1 H2]. exists (least_of x l). split; [exact H1|]. split; [exact H2|].
  eapply Rle_trans; [apply rnd_error|]. apply Rplus_le_compat_l. cbn [least]. rewrite (bpow_plus radix2 1 (-150) : bpow radix2 (-149) = _). change (bpow radix2 1) with 2. lra.
Qed.
Print Assumptions C92_error_partial.
Example C92_case : stored_min 10.5 [10.25; 11] = 10.25.
Proof.
  unfold stored_min, least_of. cbn [fold_left]. rewrite (Rmin_right 10.5 10.25), (Rmin_left 10.25 11) by lra. apply rnd_id.
  assert (P : bpow radix2 (-2) = / 4) by reflexivity. replace 10.25 with (IZR 41 * bpow radix2 (-2)) by (rewrite P; lra). apply fl_int; cbn; lia.
Qed.

(** ** C93: a tile from X (in units 2^u) with n cells of 2^j units: every edge is exact, so comparing a coordinate with the
    edges is comparing integers, as in the model (Bin.v). *)
Theorem C93_edges N j u n i : (Z.abs N <= 2 ^ 51)%Z -> (0 <= i <= n)%Z -> (0 < n <= 2 ^ 51)%Z -> (-1074 <= j + u)%Z -> (0 <= j)%Z ->
  float_edge (IZR (N * 2 ^ j) * bpow radix2 u) (IZR (2 ^ j) * bpow radix2 u) n i = IZR (N * 2 ^ j + i * 2 ^ j) * bpow radix2 u.
Proof.
  intros HN Hi Hn Hu Hj. rewrite power_unit, mult_IZR, Rmult_assoc, power_unit by exact Hj.
  assert (E : IZR (N * 2 ^ j + i * 2 ^ j) * bpow radix2 u = IZR (N + i) * bpow radix2 (j + u)).
  { rewrite <- Z.mul_add_distr_r, mult_IZR, Rmult_assoc, power_unit by exact Hj. reflexivity. }
  rewrite E. unfold float_edge. destruct (Z.ltb_spec i n) as [L|L].
  - apply arange_is; lia.
  - assert (i = n) as -> by lia. rewrite arange_is by lia.
    replace (IZR (N + (n - 1)) * bpow radix2 (j + u) + bpow radix2 (j + u)) with (IZR (N + n) * bpow radix2 (j + u)).
    + apply fl_id, float_int; lia.
    + replace (N + n)%Z with (N + (n - 1) + 1)%Z by lia. rewrite (plus_IZR (N + (n - 1))). ring.
Qed.
Print Assumptions C93_edges.
Theorem C93_cells N j u n X i : (Z.abs N <= 2 ^ 51)%Z -> (0 <= i <= n)%Z -> (0 < n <= 2 ^ 51)%Z -> (-1074 <= j + u)%Z -> (0 <= j)%Z ->
  float_edge (IZR (N * 2 ^ j) * bpow radix2 u) (IZR (2 ^ j) * bpow radix2 u) n i <= IZR X * bpow radix2 u <-> (N * 2 ^ j + i * 2 ^ j <= X)%Z.
Proof.
  intros. rewrite C93_edges by assumption. pose proof (bpow_gt_0 radix2 u) as P. split.
  - intros L. apply Rmult_le_reg_r in L; [|exact P]. now apply le_IZR.
  - intros L. apply Rmult_le_compat_r; [lra|]. now apply IZR_le.
Qed.
Print Assumptions C93_cells.
(** The number of cells is the tile size divided by the resolution. *)
Theorem C93_count N j k u : (Z.abs N <= 2 ^ 51)%Z -> (0 <= j <= k)%Z -> (k - j <= 51)%Z -> (-1074 <= j + u)%Z ->
  float_arange_len (IZR (N * 2 ^ j) * bpow radix2 u) (IZR (N * 2 ^ j + 2 ^ k) * bpow radix2 u) (IZR (2 ^ j) * bpow radix2 u) = (2 ^ k / 2 ^ j)%Z.
Proof.
  intros HN Hj Hk Hu. assert (E : (2 ^ k = 2 ^ (k - j) * 2 ^ j)%Z) by (rewrite <- Z.pow_add_r by lia; f_equal; lia).
  assert (P : (0 < 2 ^ j)%Z) by (apply Z.pow_pos_nonneg; lia). assert (Q : (0 < 2 ^ (k - j) <= 2 ^ 51)%Z) by (split; [apply Z.pow_pos_nonneg; lia|apply Z.pow_le_mono_r; lia]).
  rewrite E, Z.div_mul, <- Z.mul_add_distr_r, !mult_IZR, !Rmult_assoc, !power_unit by lia.
  rewrite arange_len_is by lia. lia.
Qed.
Print Assumptions C93_count.
(** A tile at 1024 of eight cells of 0.5 m, in units of a quarter metre. *)
Example C93_case : float_edge 1024 0.5 8 3 = 1025.5 /\ float_edge 1024 0.5 8 8 = 1028.
Proof.
  assert (P : bpow radix2 (-2) = / 4) by reflexivity.
  pose proof (C93_edges 2048 1 (-2) 8 3 ltac:(lia) ltac:(lia) ltac:(lia) ltac:(lia) ltac:(lia)) as H1.
  pose proof (C93_edges 2048 1 (-2) 8 8 ltac:(lia) ltac:(lia) ltac:(lia) ltac:(lia) ltac:(lia)) as H2.
  change (2048 * 2 ^ 1)%Z with 4096%Z in H1, H2. change (2 ^ 1)%Z with 2%Z in H1, H2. rewrite P in H1, H2.
  replace (4096 * / 4) with 1024 in H1, H2 by lra. replace (2 * / 4) with 0.5 in H1, H2 by lra. change (4096 + 3 * 2)%Z with 4102%Z in H1. change (4096 + 8 * 2)%Z with 4112%Z in H2. rewrite H1, H2. split; lra.
Qed.
