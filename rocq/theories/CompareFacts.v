(** Facts that compare the cells of grids with related soundings (C117-C121). *)
From Coq Require Import Lqa.
From Verif Require Import Py Nd Numpy Point Bin Algorithms Tile Time Meta Disk Grid GridRun GridQuery GridOps Export Spec TileExec GridExec WholeSpec SameSpec
  PyFacts NdFacts NumpyFacts AlgFacts MiscFacts GridSameFacts CompareSpec.
Open Scope Z_scope.

(** ** Rounding *)
Lemma round3_mono p q a b : (p <= q)%Q -> is_round3 p a -> is_round3 q b -> (a <= b)%Q.
Proof.
  intros Hpq Ha Hb. destruct (Qlt_le_dec b a) as [Hlt|]; [|done]. exfalso.
  pose proof Ha as (k & K1 & K2 & K3). pose proof Hb as (j & J1 & J2 & J3). apply Qabs_Qle_condition in K2, J2.
  assert (Hk : j + 1 <= k). { rewrite K1, J1 in Hlt. unfold Qlt in Hlt. cbn in Hlt. lia. }
  assert (H1 : (b + (1 # 1000) <= a)%Q). { rewrite K1, J1. unfold Qle. cbn. lia. }
  assert (E : (p == q)%Q) by lra. assert ((a == b)%Q) by (eapply is_round3_unique; [exact (is_round3_eq _ _ _ E Ha)|done]). lra.
Qed.
Lemma round3_shift c k p a : (c == (2 * k)%Z # 1000)%Q -> is_round3 p a -> is_round3 (p + c) (a + c).
Proof.
  intros Hc (j & J1 & J2 & J3). assert (E : (p + c - (a + c) == p - a)%Q) by lra. exists (j + 2 * k). split.
  - rewrite J1, Hc. unfold Qeq. cbn. lia.
  - rewrite E. split; [done|]. intros H. destruct (J3 H) as [i ->]. exists (i + k). lia.
Qed.
Lemma round3_near c p a b : is_round3 p a -> is_round3 (p + c) b -> (Qabs (b - a - c) <= 1 # 1000)%Q.
Proof.
  intros (_ & _ & H1 & _) (_ & _ & H2 & _). apply Qabs_Qle_condition in H1, H2. apply Qabs_Qle_condition. lra.
Qed.

(** ** Means and minima *)
Lemma numQ_S n : (numQ (S n) == numQ n + 1)%Q.
Proof. unfold numQ. rewrite Nat2Z.inj_succ, <- Z.add_1_r, inject_Z_plus. reflexivity. Qed.
Lemma numQ_pos n : (0 < n)%nat -> (0 < numQ n)%Q.
Proof. intros H. unfold numQ, Qlt. cbn. lia. Qed.
Lemma sum_above k : forall l, (forall x, x ∈ l -> k <= x)%Q -> (k * numQ (length l) <= sumQ l)%Q.
Proof.
  induction l as [|x l IH]; intros H; [cbn; unfold numQ, Qle; cbn; lia|]. cbn [length sumQ fold_right]. rewrite numQ_S.
  assert (Hx : (k <= x)%Q) by (apply H; left). assert (Hl : (k * numQ (length l) <= sumQ l)%Q) by (apply IH; intros y Hy; apply H; by right). unfold sumQ in *. lra.
Qed.
Lemma min_mean l k m : is_min l k -> is_mean l m -> (k <= m)%Q.
Proof.
  intros [_ H1] [Hn H2]. pose proof (sum_above k l H1) as H. rewrite <- H2 in H.
  assert (Hp : (0 < numQ (length l))%Q) by (apply numQ_pos; destruct l; [done|cbn; lia]).
  apply (Qmult_le_r _ _ _ Hp). exact H.
Qed.
Lemma min_more l l' k k' : (forall x, x ∈ l -> x ∈ l') -> is_min l k -> is_min l' k' -> (k' <= k)%Q.
Proof. intros Hs [(x & Hx & E) _] [_ H]. rewrite <- E. by apply H, Hs. Qed.

(** ** Points in squares *)
Lemma points_at_app r x y d d' : points_at r x y (d ++ d') = points_at r x y d ++ points_at r x y d'.
Proof. apply filter_app. Qed.
Lemma points_at_moved r x y dx dy dz d : points_at r (x + dx) (y + dy) (map (moved dx dy dz) d) = map (moved dx dy dz) (points_at r x y d).
Proof.
  unfold points_at. induction d as [|p d IH]; [done|]. cbn [map]. rewrite !filter_cons, IH.
  destruct (decide (in_square x y r (px p) (py p))) as [H|H].
  - rewrite decide_True by (unfold in_square in *; cbn; lia). done.
  - rewrite decide_False by (unfold in_square in *; cbn; lia). done.
Qed.
Lemma sum_moved dz : forall l : list Q, (sumQ (map (fun z => z + dz)%Q l) == sumQ l + dz * numQ (length l))%Q.
Proof. induction l as [|z l IH]; [cbn; unfold numQ, Qeq; cbn; lia|]. cbn [map sumQ fold_right length]. unfold sumQ in *. rewrite IH, numQ_S. lra. Qed.
Lemma mean_moved dz l m : is_mean l m -> is_mean (map (fun z => z + dz)%Q l) (m + dz).
Proof. intros [Hn Hm]. split; [by destruct l|]. rewrite map_length, sum_moved, <- Hm. lra. Qed.
Lemma min_moved dz l m : is_min l m -> is_min (map (fun z => z + dz)%Q l) (m + dz).
Proof.
  intros [(x & Hx & E) H]. split.
  - exists (x + dz)%Q. split; [|by rewrite E]. apply elem_of_list_fmap. by exists x.
  - intros y (z & -> & Hz)%elem_of_list_fmap. apply Qplus_le_l. by apply H.
Qed.

Lemma round3_offset dz m a b : is_round3 m a -> is_round3 (m + dz) b -> offset_cell dz (Some a) (Some b).
Proof.
  intros Ha Hb. split; [by eapply round3_near|]. intros [k Hk]. eapply is_round3_unique; [exact Hb|]. by eapply round3_shift.
Qed.
Lemma depth_moved alg dx dy dz d v w : depth_by alg d v -> depth_by alg (map (moved dx dy dz) d) w -> offset_cell dz v w.
Proof.
  assert (E : map pz (map (moved dx dy dz) d) = map (fun z => z + dz)%Q (map pz d)) by (rewrite !map_map; reflexivity).
  unfold depth_by. rewrite E. generalize (map pz d) as l. intros l. case_bool_decide.
  - intros [[-> ->]|(m & q & Hm & Hq & ->)] [[El ->]|(m' & q' & Hm' & Hq' & ->)]; cbn [offset_cell]; try done; [by destruct Hm'|destruct l; [by destruct Hm|done]|].
    eapply round3_offset; [exact Hq|]. eapply is_round3_eq; [|exact Hq']. eapply is_mean_unique; [exact Hm'|]. by apply mean_moved.
  - intros [[-> ->]|(m & q & Hm & Hq & ->)] [[El ->]|(m' & q' & Hm' & Hq' & ->)]; cbn [offset_cell]; try done; [by apply is_min_nil in Hm'|destruct l; [by apply is_min_nil in Hm|done]|].
    eapply round3_offset; [exact Hq|]. eapply is_round3_eq; [|exact Hq']. eapply is_min_unique; [exact Hm'|]. by apply min_moved.
Qed.
Lemma says_moved alg l dx dy dz d v w : l <> "depth" -> says alg l d v -> says alg l (map (moved dx dy dz) d) w -> same_cell v w.
Proof.
  intros Hd Hv. unfold says. rewrite bool_decide_eq_false_2 by done. unfold says in Hv. rewrite bool_decide_eq_false_2 in Hv by done. case_bool_decide.
  - subst. intros ->. cbn. by rewrite map_length.
  - case_bool_decide; [change (map ptvu (map (moved dx dy dz) d)) with (ptvu <$> (moved dx dy dz <$> d))|change (map pthu (map (moved dx dy dz) d)) with (pthu <$> (moved dx dy dz <$> d))];
      rewrite <- list_fmap_compose; eapply mean_cell_same; try exact Hv; try reflexivity; rewrite bool_decide_eq_true_2 in Hv || rewrite bool_decide_eq_false_2 in Hv; done.
Qed.
Lemma mean_cell_perm l l' v : l ≡ₚ l' -> mean_cell l v -> mean_cell l' v.
Proof.
  intros H [[-> ->]|(m & q & Hm & Hq & ->)]; [left; apply Permutation_nil in H; by subst|]. right. exists m, q. split; [by eapply is_mean_perm|done].
Qed.
Lemma least_cell_perm l l' v : l ≡ₚ l' -> least_cell l v -> least_cell l' v.
Proof.
  intros H [[-> ->]|(m & q & Hm & Hq & ->)]; [left; apply Permutation_nil in H; by subst|]. right. exists m, q. split; [by eapply is_min_perm|done].
Qed.
Lemma says_perm alg l d d' v : d ≡ₚ d' -> says alg l d v -> says alg l d' v.
Proof.
  intros H. unfold says, depth_by. repeat case_bool_decide; try (apply mean_cell_perm; by apply Permutation_map); [apply least_cell_perm; by apply Permutation_map|].
  intros ->. by rewrite (Permutation_length H).
Qed.

(** ** Two grids *)
Section two.
  Context {T1 T2 : Type} (O1 : tile_ops T1) (O2 : tile_ops T2) (e : env).
  Lemma more_shoalest r d1 d2 more g1 g2 x y a w : settled O1 e "shoalest" r d1 g1 -> settled O2 e "shoalest" r d2 g2 -> d2 ≡ₚ d1 ++ more ->
    cell_at O1 e g1 "depth" r x y (Some a) -> cell_at O2 e g2 "depth" r x y w -> exists b, w = Some b /\ (b <= a)%Q.
  Proof.
    intros S1 S2 Hd H1 H2. destruct (settled_cell _ _ _ _ _ _ _ S1 (or_introl eq_refl) _ _ _ H1) as [A1 _]. destruct (settled_cell _ _ _ _ _ _ _ S2 (or_introl eq_refl) _ _ _ H2) as [A2 _].
    change (least_cell (map pz (points_at r x y d1)) (Some a)) in A1. change (least_cell (map pz (points_at r x y d2)) w) in A2.
    assert (Hs : forall z, z ∈ map pz (points_at r x y d1) -> z ∈ map pz (points_at r x y d2)).
    { intros z (p & -> & Hp)%elem_of_list_fmap. apply elem_of_list_fmap. exists p. split; [done|]. rewrite (points_at_perm _ _ _ _ _ Hd), points_at_app. apply elem_of_app. by left. }
    destruct A1 as [[_ ?]|(m & q & Hm & Hq & [= ->])]; [done|]. destruct A2 as [[E ->]|(m' & q' & Hm' & Hq' & ->)].
    - destruct Hm as [(z & Hz & _) _]. apply Hs in Hz. rewrite E in Hz. by apply elem_of_nil in Hz.
    - exists q'. split; [done|]. eapply round3_mono; [|exact Hq'|exact Hq]. by eapply min_more.
  Qed.
  Lemma more_density alg r d1 d2 more g1 g2 x y v w : settled O1 e alg r d1 g1 -> settled O2 e alg r d2 g2 -> d2 ≡ₚ d1 ++ more ->
    cell_at O1 e g1 "density" r x y v -> cell_at O2 e g2 "density" r x y w ->
    exists a b, v = Some a /\ w = Some b /\ (b == a + numQ (length (points_at r x y more)))%Q.
  Proof.
    assert (K : kept_layer e alg "density") by (right; by left).
    intros S1 S2 Hd H1 H2. destruct (settled_cell _ _ _ _ _ _ _ S1 K _ _ _ H1) as [A1 _]. destruct (settled_cell _ _ _ _ _ _ _ S2 K _ _ _ H2) as [A2 _].
    change (v = Some (numQ (length (points_at r x y d1)))) in A1. change (w = Some (numQ (length (points_at r x y d2)))) in A2. subst v w. do 2 eexists. split; [done|]. split; [done|].
    rewrite (Permutation_length (points_at_perm _ _ _ _ _ Hd)), points_at_app, app_length. unfold numQ. rewrite Nat2Z.inj_add, inject_Z_plus. reflexivity.
  Qed.
  Lemma shoalest_mean r d1 d2 g1 g2 x y v w : settled O1 e "shoalest" r d1 g1 -> settled O2 e "mean" r d2 g2 -> d1 ≡ₚ d2 ->
    cell_at O1 e g1 "depth" r x y v -> cell_at O2 e g2 "depth" r x y w ->
    match v, w with Some a, Some b => (a <= b)%Q | None, None => True | _, _ => False end.
  Proof.
    intros S1 S2 Hd H1 H2. destruct (settled_cell _ _ _ _ _ _ _ S1 (or_introl eq_refl) _ _ _ H1) as [A1 _]. destruct (settled_cell _ _ _ _ _ _ _ S2 (or_introl eq_refl) _ _ _ H2) as [A2 _].
    change (least_cell (map pz (points_at r x y d1)) v) in A1. change (mean_cell (map pz (points_at r x y d2)) w) in A2.
    pose proof (Permutation_map pz (points_at_perm r x y _ _ Hd)) as Hp. set (l1 := map pz (points_at r x y d1)) in *. set (l2 := map pz (points_at r x y d2)) in *. clearbody l1 l2.
    destruct A1 as [[E ->]|(m & q & Hm & Hq & ->)], A2 as [[E' ->]|(m' & q' & Hm' & Hq' & ->)]; subst; try done.
    - apply Permutation_nil in Hp. subst. by destruct Hm'.
    - symmetry in Hp. apply Permutation_nil in Hp. subst. by apply is_min_nil in Hm.
    - eapply round3_mono; [|exact Hq|exact Hq']. eapply min_mean; [|exact Hm']. by eapply is_min_perm.
  Qed.
  Lemma moved_depth alg r dx dy dz d1 d2 g1 g2 x y v w : settled O1 e alg r d1 g1 -> settled O2 e alg r d2 g2 -> d2 ≡ₚ map (moved dx dy dz) d1 ->
    cell_at O1 e g1 "depth" r x y v -> cell_at O2 e g2 "depth" r (x + dx) (y + dy) w -> offset_cell dz v w.
  Proof.
    intros S1 S2 Hd H1 H2. destruct (settled_cell _ _ _ _ _ _ _ S1 (or_introl eq_refl) _ _ _ H1) as [A1 _]. destruct (settled_cell _ _ _ _ _ _ _ S2 (or_introl eq_refl) _ _ _ H2) as [A2 _].
    apply (points_at_perm r (x + dx) (y + dy)) in Hd. rewrite points_at_moved in Hd. apply (says_perm _ _ _ _ _ Hd) in A2.
    exact (depth_moved _ _ _ _ _ _ _ A1 A2).
  Qed.
  Lemma moved_other alg r dx dy dz d1 d2 g1 g2 l x y v w : settled O1 e alg r d1 g1 -> settled O2 e alg r d2 g2 -> d2 ≡ₚ map (moved dx dy dz) d1 -> kept_layer e alg l -> l <> "depth" ->
    cell_at O1 e g1 l r x y v -> cell_at O2 e g2 l r (x + dx) (y + dy) w -> same_cell v w.
  Proof.
    intros S1 S2 Hd Hl Hn H1 H2. destruct (settled_cell _ _ _ _ _ _ _ S1 Hl _ _ _ H1) as [A1 _]. destruct (settled_cell _ _ _ _ _ _ _ S2 Hl _ _ _ H2) as [A2 _].
    apply (points_at_perm r (x + dx) (y + dy)) in Hd. rewrite points_at_moved in Hd. apply (says_perm _ _ _ _ _ Hd) in A2.
    exact (says_moved _ _ _ _ _ _ _ _ Hn A1 A2).
  Qed.
  Lemma moved_same alg r dx dy d1 d2 g1 g2 l x y v w : settled O1 e alg r d1 g1 -> settled O2 e alg r d2 g2 -> d2 ≡ₚ map (moved dx dy 0) d1 -> kept_layer e alg l ->
    cell_at O1 e g1 l r x y v -> cell_at O2 e g2 l r (x + dx) (y + dy) w -> same_cell v w.
  Proof.
    intros S1 S2 Hd Hl H1 H2. destruct (decide (l = "depth")) as [->|Hn].
    - pose proof (moved_depth _ _ _ _ _ _ _ _ _ _ _ _ _ S1 S2 Hd H1 H2) as H. unfold offset_cell in H. destruct v as [a|], w as [b|]; try done. destruct H as [_ H]. cbn. rewrite H; [lra|]. exists 0. reflexivity.
    - exact (moved_other _ _ _ _ _ _ _ _ _ _ _ _ _ _ S1 S2 Hd Hl Hn H1 H2).
  Qed.
End two.
