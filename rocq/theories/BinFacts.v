(** Facts about bin2d_with_indices and is_power_of_two. *)
From Verif Require Import Py Nd Numpy Bin Spec PyFacts NdFacts NumpyFacts.
Open Scope Z_scope.
Ltac Zify.zify_post_hook ::= Z.div_mod_to_equations.

(** Row-major number of the cell of side [r] containing (x, y), [nx] cells per row. *)
Definition cell_number (x0 y0 r : Z) (nx : nat) (p : Z * Z) : Z :=
  (p.2 - y0) / r * Z.of_nat nx + (p.1 - x0) / r.

Definition in_rect (x0 y0 r : Z) (nx ny : nat) (p : Z * Z) : Prop :=
  x0 <= p.1 < x0 + Z.of_nat nx * r /\ y0 <= p.2 < y0 + Z.of_nat ny * r.

Lemma bin1_in lo r n v :
  0 < r -> lo <= v < lo + Z.of_nat n * r -> bin1 (uniform lo r (S n)) v = (v - lo) / r /\
  0 <= (v - lo) / r < Z.of_nat n.
Proof.
  intros Hr Hv. unfold bin1. rewrite searchsorted_right_uniform by done.
  rewrite decide_False by lia.
  assert (0 <= (v - lo) / r) by (apply Z.div_pos; lia).
  assert ((v - lo) / r < Z.of_nat n) by (apply Z.div_lt_upper_bound; nia). lia.
Qed.
Lemma bin1_low lo r n v : 0 < r -> v < lo -> bin1 (uniform lo r n) v = -1.
Proof. intros Hr Hv. unfold bin1. rewrite searchsorted_right_uniform by done. by rewrite decide_True by lia. Qed.
Lemma bin1_high lo r n v :
  0 < r -> lo + Z.of_nat n * r <= v -> bin1 (uniform lo r (S n)) v = Z.of_nat n.
Proof.
  intros Hr Hv. unfold bin1. rewrite searchsorted_right_uniform by done. rewrite decide_False by nia.
  assert (Z.of_nat n <= (v - lo) / r) by (apply Z.div_le_lower_bound; nia). lia.
Qed.

Lemma py_index_in n i : 0 <= i < Z.of_nat n -> py_index n i = Some (Z.to_nat i).
Proof.
  intros. unfold py_index. rewrite (proj2 (Z.leb_le _ _)) by lia.
  by rewrite (proj2 (Z.ltb_lt _ _)) by lia.
Qed.
Lemma py_index_high n : py_index n (Z.of_nat n) = None.
Proof.
  unfold py_index. rewrite (proj2 (Z.leb_le 0 _)) by lia. rewrite Z.ltb_irrefl. simpl.
  rewrite (proj2 (Z.ltb_ge (Z.of_nat n) 0)) by lia. by rewrite andb_false_r.
Qed.
Lemma py_index_low n : (0 < n)%nat -> py_index n (-1) = Some (n - 1)%nat.
Proof.
  intros. unfold py_index. rewrite (proj2 (Z.leb_gt 0 (-1))) by lia. simpl.
  rewrite (proj2 (Z.leb_le _ _)) by lia. simpl. f_equal. lia.
Qed.

Lemma concat_map_map {A B} (f : A -> B) (l : list (list A)) : concat (map (map f) l) = map f (concat l).
Proof. induction l as [|a l IH]; simpl; [done|]. by rewrite IH, map_app. Qed.

(** Partitioning does not matter. *)
Lemma bin2d_parts_concat parts ex ey : bin2d_parts parts ex ey = bin2d_with_indices (concat parts) ex ey.
Proof.
  unfold bin2d_with_indices, bin2d_parts. simpl. rewrite !app_nil_r, !concat_map_map. done.
Qed.

(** One point of the multi-bin branch. *)
Definition bin_point (ex ey : list Z) (p : Z * Z) : res Z :=
  match py_index (length ey - 1) (bin1 ey p.2), py_index (length ex - 1) (bin1 ex p.1) with
  | Some r, Some c => Ok (Z.of_nat (r * (length ex - 1) + c))
  | _, _ => Raise IndexError
  end.
Lemma bin2d_multi xy ex ey :
  (length ex =? 2)%nat && (length ey =? 2)%nat = false ->
  bin2d_with_indices xy ex ey = rmap (bin_point ex ey) xy.
Proof.
  intros H. unfold bin2d_with_indices, bin2d_parts. rewrite H. simpl. rewrite !app_nil_r.
  induction xy as [|p xy IH]; simpl; [done|]. rewrite IH. done.
Qed.

Lemma bin_point_in x0 y0 r nx ny p :
  0 < r -> in_rect x0 y0 r nx ny p ->
  bin_point (uniform x0 r (S nx)) (uniform y0 r (S ny)) p = Ok (cell_number x0 y0 r nx p).
Proof.
  intros Hr [Hx Hy]. unfold bin_point. rewrite !uniform_length.
  destruct (bin1_in x0 r nx p.1 Hr Hx) as [-> Hcx]. destruct (bin1_in y0 r ny p.2 Hr Hy) as [-> Hcy].
  replace (S ny - 1)%nat with ny by lia. replace (S nx - 1)%nat with nx by lia.
  rewrite !py_index_in by done. unfold cell_number. f_equal. lia.
Qed.

Lemma bin2d_in x0 y0 r nx ny xy :
  0 < r -> (0 < nx)%nat -> (0 < ny)%nat -> Forall (in_rect x0 y0 r nx ny) xy ->
  bin2d_with_indices xy (uniform x0 r (S nx)) (uniform y0 r (S ny)) =
  Ok (map (cell_number x0 y0 r nx) xy).
Proof.
  intros Hr Hnx Hny HF.
  destruct ((length (uniform x0 r (S nx)) =? 2)%nat && (length (uniform y0 r (S ny)) =? 2)%nat) eqn:E.
  - unfold bin2d_with_indices, bin2d_parts. rewrite E. simpl. rewrite app_nil_r.
    apply andb_prop in E as [E1 E2]. apply Nat.eqb_eq in E1, E2. rewrite uniform_length in E1, E2.
    assert (nx = 1%nat) as -> by lia. assert (ny = 1%nat) as -> by lia. f_equal.
    induction HF as [|p xy [Hx Hy] HF IH]; simpl; [done|]. f_equal; [|done].
    unfold cell_number. rewrite !Z.div_small by lia. lia.
  - rewrite bin2d_multi by done. apply rmap_all_Ok. eapply Forall_impl; [done|]. intros p Hp.
    by apply bin_point_in.
Qed.

Lemma cell_number_range x0 y0 r nx ny p :
  0 < r -> in_rect x0 y0 r nx ny p -> 0 <= cell_number x0 y0 r nx p < Z.of_nat (ny * nx).
Proof.
  intros Hr [Hx Hy]. destruct (bin1_in x0 r nx p.1 Hr Hx) as [_ Hcx].
  destruct (bin1_in y0 r ny p.2 Hr Hy) as [_ Hcy]. unfold cell_number. nia.
Qed.

(** The cell number identifies the half-open square. *)
Lemma in_cell_div x0 y0 r row col x y :
  0 < r -> in_cell x0 y0 r row col x y <->
  (x - x0) / r = Z.of_nat col /\ (y - y0) / r = Z.of_nat row.
Proof.
  intros Hr. unfold in_cell. split.
  - intros [Hx Hy]. split; symmetry.
    + apply Z.div_unique_pos with (x - x0 - r * Z.of_nat col); lia.
    + apply Z.div_unique_pos with (y - y0 - r * Z.of_nat row); lia.
  - intros [Hx Hy]. rewrite <- Hx, <- Hy.
    pose proof (Z.div_mod (x - x0) r). pose proof (Z.mod_pos_bound (x - x0) r).
    pose proof (Z.div_mod (y - y0) r). pose proof (Z.mod_pos_bound (y - y0) r). nia.
Qed.

Lemma cell_number_in_cell x0 y0 r nx ny row col p :
  0 < r -> in_rect x0 y0 r nx ny p -> (col < nx)%nat ->
  cell_number x0 y0 r nx p = Z.of_nat (row * nx + col) <-> in_cell x0 y0 r row col p.1 p.2.
Proof.
  intros Hr Hp Hcol. rewrite in_cell_div by done. destruct Hp as [Hx Hy].
  destruct (bin1_in x0 r nx p.1 Hr Hx) as [_ Hcx]. destruct (bin1_in y0 r ny p.2 Hr Hy) as [_ Hcy].
  unfold cell_number. split.
  - intros H.
    destruct (flat_inj nx (Z.to_nat ((p.2 - y0) / r)) (Z.to_nat ((p.1 - x0) / r)) row col); try lia.
  - intros [-> ->]. lia.
Qed.

(** Outside the edges: to the right/top an exception, to the left/bottom a wrap to the last bin. *)
Lemma bin_point_high x0 y0 r nx ny p :
  0 < r -> x0 + Z.of_nat nx * r <= p.1 \/ y0 + Z.of_nat ny * r <= p.2 ->
  bin_point (uniform x0 r (S nx)) (uniform y0 r (S ny)) p = Raise IndexError.
Proof.
  intros Hr Hp. unfold bin_point. rewrite !uniform_length.
  replace (S ny - 1)%nat with ny by lia. replace (S nx - 1)%nat with nx by lia.
  destruct Hp as [Hp|Hp]; rewrite (bin1_high _ r _ _ Hr Hp), py_index_high.
  - by destruct (py_index ny _).
  - done.
Qed.

Lemma rmap_raise {A B} (f : A -> res B) l a e :
  a ∈ l -> f a = Raise e -> exists e', rmap f l = Raise e'.
Proof.
  intros Ha Hf. destruct (rmap f l) as [bs|e'] eqn:E; [|eauto]. exfalso.
  apply rmap_Ok in E. apply elem_of_list_lookup in Ha as [i Hi].
  destruct (Forall2_lookup_l _ _ _ _ _ E Hi) as (b & _ & Hb). congruence.
Qed.
