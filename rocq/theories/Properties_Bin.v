(** C01, C02, C03, C30, C66: binning, powers of two, index arithmetic. *)
From Coq Require Import Lqa.
From Verif Require Import Py Nd Numpy Point Bin Algorithms Spec NumpyFacts BinFacts MiscFacts.
Open Scope Z_scope.

(** ** C01 *)
Theorem C01_bin2d (x0 y0 w : Z) (nx ny : nat) (xy : list (Z * Z)) :
  0 < w -> (0 < nx)%nat -> (0 < ny)%nat ->
  Forall (fun p => x0 <= p.1 < x0 + Z.of_nat nx * w /\ y0 <= p.2 < y0 + Z.of_nat ny * w) xy ->
  exists idx, bin2d_with_indices xy (even_edges x0 w nx) (even_edges y0 w ny) = Ok idx /\
    Forall2 (fun p k => exists row col, (row < ny)%nat /\ (col < nx)%nat /\
                          k = Z.of_nat (row * nx + col) /\ in_cell x0 y0 w row col p.1 p.2 /\
                          forall row' col', in_cell x0 y0 w row' col' p.1 p.2 -> row' = row /\ col' = col)
            xy idx.
Proof.
  intros Hw Hnx Hny HF. exists (map (cell_number x0 y0 w nx) xy). split; [by apply bin2d_in|].
  apply Forall2_fmap_r. apply Forall_Forall2_diag. eapply Forall_impl; [done|]. intros p Hp. cbv beta in Hp |- *.
  destruct Hp as [Hx Hy]. destruct (bin1_in x0 w nx p.1 Hw Hx) as [_ Hcx]. destruct (bin1_in y0 w ny p.2 Hw Hy) as [_ Hcy].
  exists (Z.to_nat ((p.2 - y0) / w)), (Z.to_nat ((p.1 - x0) / w)).
  assert (Hin : in_cell x0 y0 w (Z.to_nat ((p.2 - y0) / w)) (Z.to_nat ((p.1 - x0) / w)) p.1 p.2)
    by (apply in_cell_div; [done|]; lia).
  split; [lia|]. split; [lia|]. split; [unfold cell_number; lia|]. split; [done|].
  intros row' col' H. apply in_cell_div in H; [|done]. lia.
Qed.
Print Assumptions C01_bin2d.

Example C01_case :
  bin2d_with_indices [(5, 0); (0, 13); (11, 6); (4, 4)] (even_edges 0 4 3) (even_edges 0 4 4)
  = Ok [1; 9; 5; 4].
Proof. reflexivity. Qed.

(** ** C02 *)
Theorem C02_partition_independent parts parts' ex ey :
  concat parts = concat parts' -> bin2d_parts parts ex ey = bin2d_parts parts' ex ey.
Proof. intros H. by rewrite !bin2d_parts_concat, H. Qed.
Theorem C02_as_numpy parts ex ey : bin2d_parts parts ex ey = bin2d_with_indices (concat parts) ex ey.
Proof. apply bin2d_parts_concat. Qed.
Print Assumptions C02_partition_independent.
Print Assumptions C02_as_numpy.

Example C02_case :
  bin2d_parts [[(5, 0)]; []; [(0, 13); (11, 6)]] (even_edges 0 4 3) (even_edges 0 4 4) = Ok [1; 9; 5].
Proof. reflexivity. Qed.

(** ** C03 is false of the code: a point below the lowest edge wraps round to the last bin, and with
    a single bin everything is accepted. *)
Theorem C03_outside_rejected_refuted :
  exists (x0 y0 w : Z) (nx ny : nat) (p : Z * Z) (k : Z),
    0 < w /\ ~ (x0 <= p.1 < x0 + Z.of_nat nx * w /\ y0 <= p.2 < y0 + Z.of_nat ny * w) /\
    bin2d_with_indices [p] (even_edges x0 w nx) (even_edges y0 w ny) = Ok [k].
Proof. exists 0, 0, 4, 3%nat, 4%nat, (-1, 0), 2. split; [lia|]. split; [|reflexivity]. cbn. lia. Qed.
Theorem C03_single_bin_accepts_all (p : Z * Z) (x0 y0 w : Z) :
  bin2d_with_indices [p] (even_edges x0 w 1) (even_edges y0 w 1) = Ok [0].
Proof. reflexivity. Qed.
(** What does hold: with more than one bin, a point at or above the last edge is rejected. Missing:
    points below the first edge. *)
Theorem C03_above_rejected_partial (x0 y0 w : Z) (nx ny : nat) (xy : list (Z * Z)) (p : Z * Z) :
  0 < w -> ~ (nx = 1 /\ ny = 1)%nat -> p ∈ xy ->
  x0 + Z.of_nat nx * w <= p.1 \/ y0 + Z.of_nat ny * w <= p.2 ->
  exists x, bin2d_with_indices xy (even_edges x0 w nx) (even_edges y0 w ny) = Raise x.
Proof.
  intros Hw Hn Hp Hout. rewrite bin2d_multi.
  - eapply rmap_raise; [exact Hp|]. by apply bin_point_high.
  - unfold even_edges. rewrite !map_length, !seq_length. apply not_true_iff_false.
    rewrite andb_true_iff, !Nat.eqb_eq. lia.
Qed.
Print Assumptions C03_outside_rejected_refuted.
Print Assumptions C03_single_bin_accepts_all.
Print Assumptions C03_above_rejected_partial.
Example C03_case : bin2d_with_indices [(0, 0); (12, 3)] (even_edges 0 4 3) (even_edges 0 4 4) = Raise IndexError.
Proof. reflexivity. Qed.

(** ** C30 *)
Theorem C30_integers (n : Z) :
  0 < n -> is_power_of_two (inject_Z n) = true <-> exists k, 0 <= k /\ n = 2 ^ k.
Proof. apply pow2_int. Qed.
Theorem C30_inverse_integers (n : Z) :
  0 < n -> is_power_of_two (/ inject_Z n) = true <-> exists k, 0 <= k /\ n = 2 ^ k.
Proof. apply pow2_inv. Qed.
(** The last sentence of C30 is false: numbers within 1e-5 above a power of two are accepted. *)
Theorem C30_only_powers_refuted :
  exists q : Q, is_power_of_two q = true /\
    ~ (exists k : Z, (0 <= k)%Z /\ (q == inject_Z (2 ^ k))%Q) /\
    ~ (exists k : Z, (0 <= k)%Z /\ (q == / inject_Z (2 ^ k))%Q).
Proof.
  exists (800001 # 200000)%Q. split; [reflexivity|].
  assert (H4 : (4 < 800001 # 200000)%Q) by reflexivity.
  assert (H5 : (800001 # 200000 < 5)%Q) by reflexivity. split.
  - intros (k & Hk & Hq). rewrite Hq in H4, H5.
    change 4%Q with (inject_Z 4) in H4. change 5%Q with (inject_Z 5) in H5.
    rewrite <- Zlt_Qlt in H4, H5. lia.
  - intros (k & Hk & Hq). rewrite Hq in H4.
    assert (H1 : (inject_Z 1 <= inject_Z (2 ^ k))%Q) by (rewrite <- Zle_Qle; lia).
    assert (Hi : (/ inject_Z (2 ^ k) <= 1)%Q).
    { change (inject_Z 1) with 1%Q in H1. apply Qle_shift_inv_r; lra. }
    lra.
Qed.
(** Everything accepted above 1 is within 1e-5 of a power of two. Missing: exactness. *)
Theorem C30_near_powers_partial (q : Q) :
  (1 <= q)%Q ->
  (is_power_of_two q = true <->
   exists k : Z, (0 <= k)%Z /\ (inject_Z (2 ^ k) <= q)%Q /\ (q <= inject_Z (2 ^ k) + (1 # 100000))%Q).
Proof. intros H. rewrite is_pow2_ge1 by done. apply pow2_ge1_spec. Qed.
Print Assumptions C30_integers.
Print Assumptions C30_inverse_integers.
Print Assumptions C30_only_powers_refuted.
Print Assumptions C30_near_powers_partial.
Example C30_case :
  map is_power_of_two [1024; 1; 1 # 8; 12; 1 # 6; 0; -4]%Q = [true; true; true; false; false; false; false].
Proof. reflexivity. Qed.

(** ** C66, numpy part *)
Theorem C66_unravel (shape : list Z) (i : Z) :
  Forall (fun s => 0 < s) shape -> 0 <= i < fold_right Z.mul 1 shape ->
  in_shape shape (my_unravel_index i shape) /\ row_major shape (my_unravel_index i shape) = i.
Proof. apply unravel_spec. Qed.
Theorem C66_ravel (shape c : list Z) : in_shape shape c -> my_unravel_index (row_major shape c) shape = c.
Proof. apply unravel_row_major. Qed.
Print Assumptions C66_unravel.
Print Assumptions C66_ravel.
Example C66_case : my_unravel_index 23 [3; 4; 5] = [1; 0; 3] /\ row_major [3; 4; 5] [1; 0; 3] = 23.
Proof. split; reflexivity. Qed.
