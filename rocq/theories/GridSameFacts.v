(** Cells of gridded grids by the place of their corner (C94). *)
From Coq Require Import Lqa.
From Verif Require Import Py Nd Numpy Point Bin Algorithms Tile Time Meta Disk Grid GridRun GridQuery GridOps Export Spec TileExec GridExec WholeSpec SameSpec
  PyFacts NdFacts NumpyFacts AlgFacts BinFacts MiscFacts TileFacts TileGridFacts TileSpecFacts TileRunFacts TileHistFacts ShoalFacts TilePropFacts TileQueryFacts GridBaseFacts GridPlaceFacts GridInvFacts GridRootFacts
  GridEvolveFacts GridSrFacts GridPropFacts GridHistFacts GridRunFacts GridCleanFacts GridUpdateFacts GridDensityFacts GridFlagFacts GridLayerFacts GridReadFacts GridAnswerFacts GridTrimFacts GridWholeFacts GridContainerFacts GridValueFacts.
Open Scope Z_scope.

Lemma is_round3_eq q q' r : (q == q')%Q -> is_round3 q r -> is_round3 q' r.
Proof. intros E (k & H1 & H2 & H3). exists k. rewrite <- E. done. Qed.
Lemma sumQ_perm l l' : l ≡ₚ l' -> (sumQ l == sumQ l')%Q.
Proof. unfold sumQ. induction 1; cbn [fold_right]; lra. Qed.
Lemma is_mean_perm l l' m : l ≡ₚ l' -> is_mean l m -> is_mean l' m.
Proof.
  intros H [Hn Hm]. split; [intros ->; symmetry in H; apply Permutation_nil in H; done|].
  rewrite <- (Permutation_length H), Hm. by apply sumQ_perm.
Qed.
Lemma mean_cell_same l l' v w : l ≡ₚ l' -> mean_cell l v -> mean_cell l' w -> same_cell v w.
Proof.
  intros H [[E ->]|(m & q & Hm & Hq & ->)] [[E' ->]|(m' & q' & Hm' & Hq' & ->)]; subst; cbn.
  - done.
  - apply Permutation_nil in H. subst. by destruct Hm'.
  - symmetry in H. apply Permutation_nil in H. subst. by destruct Hm.
  - eapply is_round3_unique; [|exact Hq']. eapply is_round3_eq; [|exact Hq]. eapply is_mean_unique; [|exact Hm']. by eapply is_mean_perm.
Qed.
Lemma is_min_nil m : ~ is_min [] m.
Proof. intros [(x & Hx & _) _]. by apply elem_of_nil in Hx. Qed.
Lemma least_cell_same l l' v w : l ≡ₚ l' -> least_cell l v -> least_cell l' w -> same_cell v w.
Proof.
  intros H [[E ->]|(m & q & Hm & Hq & ->)] [[E' ->]|(m' & q' & Hm' & Hq' & ->)]; subst; cbn.
  - done.
  - apply Permutation_nil in H. subst. by apply is_min_nil in Hm'.
  - symmetry in H. apply Permutation_nil in H. subst. by apply is_min_nil in Hm.
  - eapply is_round3_unique; [|exact Hq']. eapply is_round3_eq; [|exact Hq]. eapply is_min_unique; [|exact Hm']. by eapply is_min_perm.
Qed.
Lemma depth_by_same alg d d' v w : d ≡ₚ d' -> depth_by alg d v -> depth_by alg d' w -> same_cell v w.
Proof.
  intros H. apply (Permutation_map pz) in H. unfold depth_by. case_bool_decide; [by apply mean_cell_same|by apply least_cell_same].
Qed.
Lemma depth_by_nil alg v : depth_by alg [] v -> v = None.
Proof.
  unfold depth_by. case_bool_decide; intros [[_ ->]|(m & q & Hm & _)]; try done; exfalso; [by destruct Hm|by apply is_min_nil in Hm].
Qed.

(** What the layers of [alg] say of a cell with the soundings [d]. *)
Definition says (alg l : string) (d : list point) (v : cell) : Prop :=
  if bool_decide (l = "depth") then depth_by alg d v
  else if bool_decide (l = "density") then v = Some (numQ (length d))
  else if bool_decide (l = "vertical_uncertainty") then mean_cell (map ptvu d) v
  else mean_cell (map pthu d) v.
Lemma says_same alg l d d' v w : d ≡ₚ d' -> says alg l d v -> says alg l d' w -> same_cell v w.
Proof.
  intros H. unfold says. repeat case_bool_decide.
  - by apply depth_by_same.
  - intros -> ->. cbn. by rewrite (Permutation_length H).
  - apply mean_cell_same. by apply Permutation_map.
  - apply mean_cell_same. by apply Permutation_map.
Qed.
Lemma says_nil alg l v : says alg l [] v -> v = if bool_decide (l = "density") then Some (numQ 0) else None.
Proof.
  unfold says. destruct (decide (l = "depth")) as [->|]; [rewrite bool_decide_eq_true_2 by done; rewrite bool_decide_eq_false_2 by done; apply depth_by_nil|].
  rewrite (bool_decide_eq_false_2 (l = "depth")) by done. case_bool_decide; [done|]. case_bool_decide; intros [[_ ->]|(m & q & [Hm _] & _)]; done.
Qed.

(** The points in the square cell with corner (x, y). *)
Definition points_at (r x y : Z) (d : list point) : list point := filter (fun p => in_square x y r (px p) (py p)) d.
Lemma points_at_perm r x y d d' : d ≡ₚ d' -> points_at r x y d ≡ₚ points_at r x y d'.
Proof. intros H. unfold points_at. by rewrite H. Qed.
Lemma points_in_cell_at X Y r R C d : points_in_cell X Y r R C d = points_at r (X + Z.of_nat C * r) (Y + Z.of_nat R * r) d.
Proof.
  unfold points_in_cell, points_at. apply list_filter_iff. intros p. unfold in_cell, in_square. lia.
Qed.

(** A grid with cells on the lattice of [r] that holds [d] and answers as [alg] requires. *)
Record settled {T} (O : tile_ops T) (e : env) (alg : string) (r : Z) (d : list point) (g : grid T) : Prop := {
  se_pos : 0 < r;
  se_ext : exists X, m_ext (g_meta g) = Some X /\ x0 X mod r = 0 /\ y0 X mod r = 0 /\
    Forall (fun p => x0 X <= px p < x1 X /\ y0 X <= py p < y1 X) d;
  se_layers : forall l, kept_layer e alg l -> answers_by O e g l r (m_positive_up (g_meta g)) d (says alg l) }.

Section settled.
  Context {T : Type} (O : tile_ops T) (e : env) (alg : string) (r : Z) (d : list point) (g : grid T) (l : string) (HS : settled O e alg r d g) (Hl : kept_layer e alg l).
  Lemma settled_cell x y v : cell_at O e g l r x y v -> says alg l (points_at r x y d) v /\ x mod r = 0 /\ y mod r = 0.
  Proof using HS Hl.
    intros (X & a & R & C & Hx & Hq & -> & -> & Hv). destruct HS as [Hr (X1 & Hx1 & M1 & M2 & HF) HA]. rewrite Hx in Hx1. injection Hx1 as <-.
    destruct (HA l Hl) as (X2 & a2 & Hx2 & Hq2 & _ & _ & _ & HW). rewrite Hx in Hx2. injection Hx2 as <-. rewrite Hq in Hq2. injection Hq2 as <-.
    pose proof (nd_get_Some_lt _ _ _ _ Hv) as [L1 L2]. destruct (HW R C L1 L2) as (w & Hw & Hs). rewrite Hv in Hw. injection Hw as <-.
    rewrite points_in_cell_at in Hs. split; [done|]. rewrite !Z_mod_plus_full. done.
  Qed.
  Lemma settled_at p : p ∈ d -> exists v, cell_at O e g l r (r * (px p / r)) (r * (py p / r)) v.
  Proof using HS Hl.
    intros Hp. destruct HS as [Hr (X & Hx & M1 & M2 & HF) HA]. rewrite Forall_forall in HF. destruct (HF p Hp) as [B1 B2].
    destruct (HA l Hl) as (X2 & a & Hx2 & Hq & Hlen & HY & HX & HW). rewrite Hx in Hx2. injection Hx2 as <-.
    assert (D : forall v n lo, lo <= v < lo + Z.of_nat n * r -> (Z.to_nat ((v - lo) / r) < n)%nat).
    { intros v n lo Hv. assert ((v - lo) / r < Z.of_nat n) by (apply Z.div_lt_upper_bound; lia). assert (0 <= (v - lo) / r) by (apply Z.div_pos; lia). lia. }
    destruct (HW (Z.to_nat ((py p - y0 X) / r)) (Z.to_nat ((px p - x0 X) / r))) as (v & Hv & _); [apply D; lia|apply D; lia|].
    assert (E : forall v lo, lo mod r = 0 -> lo <= v -> r * (v / r) = lo + Z.of_nat (Z.to_nat ((v - lo) / r)) * r).
    { intros u lo Hm Hu. rewrite Z2Nat.id by (apply Z.div_pos; lia). apply Z.div_exact in Hm; [|lia]. set (q := lo / r) in *. clearbody q. subst lo.
      replace (u - r * q) with (u + (- q) * r) by lia. rewrite Z.div_add by lia. lia. }
    exists v, X, a, (Z.to_nat ((py p - y0 X) / r)), (Z.to_nat ((px p - x0 X) / r)). repeat split; try done; apply E; lia.
  Qed.
End settled.

Lemma settled_same {T1 T2} (O1 : tile_ops T1) (O2 : tile_ops T2) e alg r d1 d2 g1 g2 l x y v w :
  settled O1 e alg r d1 g1 -> settled O2 e alg r d2 g2 -> d1 ≡ₚ d2 -> kept_layer e alg l ->
  cell_at O1 e g1 l r x y v -> cell_at O2 e g2 l r x y w -> same_cell v w.
Proof.
  intros S1 S2 Hd Hl H1 H2. destruct (settled_cell _ _ _ _ _ _ _ S1 Hl _ _ _ H1) as [A1 _]. destruct (settled_cell _ _ _ _ _ _ _ S2 Hl _ _ _ H2) as [A2 _].
  eapply says_same; [|exact A1|exact A2]. by apply points_at_perm.
Qed.
Lemma settled_extra {T1 T2} (O1 : tile_ops T1) (O2 : tile_ops T2) e alg r d1 d2 g1 g2 l x y v :
  settled O1 e alg r d1 g1 -> settled O2 e alg r d2 g2 -> d1 ≡ₚ d2 -> kept_layer e alg l ->
  cell_at O1 e g1 l r x y v -> (forall w, ~ cell_at O2 e g2 l r x y w) -> v = if bool_decide (l = "density") then Some (numQ 0) else None.
Proof.
  intros S1 S2 Hd Hl H1 H2. destruct (settled_cell _ _ _ _ _ _ _ S1 Hl _ _ _ H1) as (A1 & M1 & M2).
  apply (says_nil alg). destruct (points_at r x y d1) as [|p q] eqn:E; [done|]. exfalso.
  assert (Hp : p ∈ points_at r x y d1) by (rewrite E; by left). unfold points_at in Hp. apply elem_of_list_filter in Hp as [[B1 B2] Hp].
  rewrite Hd in Hp. destruct (settled_at _ _ _ _ _ _ _ S2 Hl p Hp) as [w Hw]. apply (H2 w).
  assert (Hr := se_pos _ _ _ _ _ _ S1).
  assert (F : forall u c, c mod r = 0 -> c <= u < c + r -> c = r * (u / r)).
  { intros u c Hm Hu. apply Z.div_exact in Hm; [|lia]. rewrite <- (Z.div_unique u r (c / r) (u - c)); lia. }
  rewrite (F (px p) x), (F (py p) y); done.
Qed.

Lemma mod_trans a b c : 0 < b -> 0 < c -> a mod b = 0 -> b mod c = 0 -> a mod c = 0.
Proof. intros Hb Hc H1 H2. apply Z.mod_divide in H1, H2; [|lia..]. apply Z.mod_divide; [lia|]. by etransitivity. Qed.
Lemma frame_lattice {T} (g : grid T) size ct lx ly nx ny r : 0 < size -> 0 < r -> size mod r = 0 -> frame g size ct lx ly nx ny ->
  exists X, m_ext (g_meta g) = Some X /\ x0 X mod r = 0 /\ y0 X mod r = 0 /\
    Forall (fun p => x0 X <= px p < x1 X /\ y0 X <= py p < y1 X) (all_points ct).
Proof.
  intros Hs Hr Hm HF. eexists. split; [exact (fr_ext _ _ _ _ _ _ _ HF)|]. cbn. split; [exact (mod_trans _ _ _ Hs Hr (fr_lx _ _ _ _ _ _ _ HF) Hm)|].
  split; [exact (mod_trans _ _ _ Hs Hr (fr_ly _ _ _ _ _ _ _ HF) Hm)|].
  pose proof (fr_points _ _ _ _ _ _ _ HF) as HP. apply (proj1 (Forall_fmap xy_of _ (all_points ct))) in HP. eapply Forall_impl; [exact HP|]. intros p [H1 H2]. split; [exact H1|exact H2].
Qed.
Lemma sr_lattice e size b zarr disk g ct r : 0 < size -> 0 < r -> size mod r = 0 -> sr_clean e known_args size b zarr disk g ct -> ct <> [] ->
  exists X, m_ext (g_meta g) = Some X /\ x0 X mod r = 0 /\ y0 X mod r = 0 /\
    Forall (fun p => x0 X <= px p < x1 X /\ y0 X <= py p < y1 X) (all_points ct).
Proof.
  intros Hs Hr Hm H Hne. destruct (sr_clean_inv e (fun _ _ => True) known_args size b zarr disk Hs (fun a Pa => known_allows a Pa) g ct H) as (_ & seen & ok & HI).
  destruct (root_frame (new_sr_meta 0 0 size b zarr) _ _ _ _ _ Hs HI Hne) as (lx & ly & nx & ny & HF). exact (frame_lattice _ _ _ _ _ _ _ r Hs Hr Hm HF).
Qed.
Lemma vr_lattice e size sub b zarr disk g ct r : 0 < size -> 0 < sub -> 0 < r -> size mod r = 0 -> vr_clean e known_args size sub b zarr disk g ct -> ct <> [] ->
  exists X, m_ext (g_meta g) = Some X /\ x0 X mod r = 0 /\ y0 X mod r = 0 /\
    Forall (fun p => x0 X <= px p < x1 X /\ y0 X <= py p < y1 X) (all_points ct).
Proof.
  intros Hs Hsub Hr Hm H Hne. destruct (vr_clean_inv e (fun _ _ => True) known_args size sub b zarr disk Hs Hsub (fun a Pa => known_allows a Pa) g ct H) as (_ & seen & ok & HI).
  destruct (root_frame (new_vr_meta 0 0 size sub b zarr) _ _ _ _ _ Hs HI Hne) as (lx & ly & nx & ny & HF). exact (frame_lattice _ _ _ _ _ _ _ r Hs Hr Hm HF).
Qed.
