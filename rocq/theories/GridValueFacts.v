(** Values at locations, from soundings (C38). *)
From Coq Require Import Lqa.
From Verif Require Import Py Nd Numpy Point Bin Algorithms Tile Time Meta Disk Grid GridRun GridQuery GridOps Export Spec TileExec GridExec WholeSpec
  PyFacts NdFacts NumpyFacts AlgFacts BinFacts MiscFacts TileFacts TileGridFacts TileSpecFacts TileRunFacts TileHistFacts ShoalFacts TilePropFacts TileQueryFacts GridBaseFacts GridPlaceFacts GridInvFacts GridRootFacts
  GridEvolveFacts GridSrFacts GridPropFacts GridHistFacts GridRunFacts GridCleanFacts GridUpdateFacts GridDensityFacts GridFlagFacts GridLayerFacts GridReadFacts GridAnswerFacts GridTrimFacts GridWholeFacts GridContainerFacts.
Open Scope Z_scope.

Lemma in_cell_at x0 y0 r x y : 0 < r -> x0 <= x -> y0 <= y -> in_cell x0 y0 r (Z.to_nat ((y - y0) / r)) (Z.to_nat ((x - x0) / r)) x y.
Proof.
  intros Hr Hx Hy. unfold in_cell. rewrite !Z2Nat.id by (apply Z.div_pos; lia).
  pose proof (Z.div_mod (x - x0) r ltac:(lia)). pose proof (Z.mod_pos_bound (x - x0) r Hr).
  pose proof (Z.div_mod (y - y0) r ltac:(lia)). pose proof (Z.mod_pos_bound (y - y0) r Hr). lia.
Qed.
Lemma answers_values {T} (O : tile_ops T) e g l r d W x :
  answers_by O e g l r false d W -> 0 < r -> m_ext (g_meta g) = Some x ->
  (forall d' v, d' <> [] -> W d' v -> v <> None) ->
  (exists p, p ∈ d /\ x0 x <= px p < x1 x /\ y0 x <= py p < y1 x) -> values_by O e g l r d W.
Proof.
  intros (x' & a & Hx & Hq & _ & Hy1 & Hx1 & HA) Hr Hx' HW (p & Hp & Hpx & Hpy) xs ys Hlen Hne.
  rewrite Hx in Hx'. injection Hx' as ->.
  assert (D : forall v n lo, lo <= v < lo + Z.of_nat n * r -> (Z.to_nat ((v - lo) / r) < n)%nat).
  { intros v n lo Hv. assert ((v - lo) / r < Z.of_nat n) by (apply Z.div_lt_upper_bound; lia). assert (0 <= (v - lo) / r) by (apply Z.div_pos; lia). lia. }
  set (R := Z.to_nat ((py p - y0 x) / r)). set (C := Z.to_nat ((px p - x0 x) / r)).
  assert (Hc : in_cell (x0 x) (y0 x) r R C (px p) (py p)) by (apply in_cell_at; lia).
  destruct (HA R C) as (v & Hv & Hw); [apply D; lia|apply D; lia|].
  assert (Hh : holds a R C).
  { destruct v as [q|]; [by exists q|]. exfalso. eapply HW; [|exact Hw|done]. intros E.
    assert (In' : p ∈ points_in_cell (x0 x) (y0 x) r R C d) by (unfold points_in_cell; by apply elem_of_list_filter). rewrite E in In'. by apply elem_of_nil in In'. }
  destruct (values_spec O e g l r g a x R C xs ys Hq Hx Hh Hr Hy1 Hx1 Hlen Hne) as (vals & Hvals & HF).
  exists x, vals. split; [done|]. split; [done|]. eapply Forall2_impl; [exact HF|]. intros [qx qy] w [HL HV]. cbn [fst snd] in *. clear HF.
  assert (Hpos : (0 < nrows a)%nat /\ (0 < ncols a)%nat) by (destruct Hh as [? ?%nd_get_Some_lt]; lia).
  split.
  - intros [B1 B2] R' C' Hc'.
    assert (Hn : ~ in_last x r a (qx, qy)).
    { intros (R2 & C2 & HR2 & HC2 & [I1 I2] & E). cbn [fst snd] in I1, I2. clear - B1 B2 I1 I2 E Hx1 Hy1.
      destruct E as [E|E]; [rewrite <- E in Hy1|rewrite <- E in Hx1]; rewrite Nat2Z.inj_succ in *; lia. }
    destruct (HV Hn) as [(R2 & C2 & Hc2 & Hg)|[_ Hout]]; cbn [fst snd] in *.
    + pose proof (nd_get_Some_lt _ _ _ _ Hg) as [L1 L2]. destruct (HA R2 C2 L1 L2) as (w' & Hw' & HW'). rewrite Hg in Hw'. injection Hw' as <-.
      apply in_cell_floor in Hc', Hc2; try done. destruct Hc' as [Q1 Q2], Hc2 as [Q3 Q4]. rewrite Q1 in Q3. rewrite Q2 in Q4. apply Nat2Z.inj in Q3, Q4. by subst.
    + exfalso. apply (Hout (Z.to_nat ((qy - y0 x) / r)) (Z.to_nat ((qx - x0 x) / r))); [apply D; lia|apply D; lia|apply in_cell_at; lia].
  - intros B. destruct (decide (x0 x <= qx < x1 x /\ y0 x <= qy < y1 x)) as [[I1 I2]|I].
    + apply HL. exists (Z.to_nat ((qy - y0 x) / r)), (Z.to_nat ((qx - x0 x) / r)). split; [apply D; lia|]. split; [apply D; lia|]. split; [apply in_cell_at; cbn [fst snd]; lia|].
      destruct (decide (qy < y1 x - r)) as [L|L].
      * right. assert (L2 : x1 x - r <= qx) by lia. apply Nat2Z.inj. rewrite Nat2Z.inj_succ, Z2Nat.id by (apply Z.div_pos; lia).
        rewrite <- (Z.div_unique (qx - x0 x) r (Z.of_nat (ncols a) - 1) (qx - x0 x - (Z.of_nat (ncols a) - 1) * r)); [lia|left; lia|lia].
      * left. apply Nat2Z.inj. rewrite Nat2Z.inj_succ, Z2Nat.id by (apply Z.div_pos; lia).
        rewrite <- (Z.div_unique (qy - y0 x) r (Z.of_nat (nrows a) - 1) (qy - y0 x - (Z.of_nat (nrows a) - 1) * r)); [lia|left; lia|lia].
    + assert (K : forall R2 C2, (R2 < nrows a)%nat -> (C2 < ncols a)%nat -> ~ in_cell (x0 x) (y0 x) r R2 C2 qx qy).
      { intros R2 C2 L1 L2 [J1 J2]. apply I.
        assert ((Z.of_nat C2 + 1) * r <= Z.of_nat (ncols a) * r) by (apply Z.mul_le_mono_nonneg_r; lia).
        assert ((Z.of_nat R2 + 1) * r <= Z.of_nat (nrows a) * r) by (apply Z.mul_le_mono_nonneg_r; lia).
        assert (0 <= Z.of_nat C2 * r) by (apply Z.mul_nonneg_nonneg; lia). assert (0 <= Z.of_nat R2 * r) by (apply Z.mul_nonneg_nonneg; lia). lia. }
      destruct HV as [(R2 & C2 & Hc2 & Hg)|[-> _]]; [| |done].
      * intros (R2 & C2 & HR2 & HC2 & Hc2 & _). exact (K R2 C2 HR2 HC2 Hc2).
      * exfalso. pose proof (nd_get_Some_lt _ _ _ _ Hg) as [L1 L2]. exact (K R2 C2 L1 L2 Hc2).
Qed.

Lemma frame_sounding {T} (g : grid T) size ct lx ly nx ny : frame g size ct lx ly nx ny -> all_points ct <> [] ->
  exists x p, m_ext (g_meta g) = Some x /\ p ∈ all_points ct /\ x0 x <= px p < x1 x /\ y0 x <= py p < y1 x.
Proof.
  intros HF Hne. destruct (all_points ct) as [|p d] eqn:E; [done|]. eexists _, p. split; [exact (fr_ext _ _ _ _ _ _ _ HF)|]. split; [by left|].
  pose proof (fr_points _ _ _ _ _ _ _ HF) as HP. rewrite E in HP. cbn [map] in HP. apply Forall_cons in HP as [[H1 H2] _]. cbn in *. split; [exact H1|exact H2].
Qed.
Lemma sr_sounding e size b zarr disk g ct : 0 < size -> sr_clean e known_args size b zarr disk g ct -> ct <> [] ->
  exists x p, m_ext (g_meta g) = Some x /\ p ∈ all_points ct /\ x0 x <= px p < x1 x /\ y0 x <= py p < y1 x.
Proof.
  intros Hs H Hne. destruct (sr_clean_inv e (fun _ _ => True) known_args size b zarr disk Hs (fun a Pa => known_allows a Pa) g ct H) as (_ & seen & ok & HI).
  destruct (root_frame (new_sr_meta 0 0 size b zarr) _ _ _ _ _ Hs HI Hne) as (lx & ly & nx & ny & HF). apply (frame_sounding _ _ _ _ _ _ _ HF).
  rewrite all_points_nil_iff; [done|exact (rb_full _ _ _ (proj1 HI))].
Qed.
Lemma vr_sounding e size sub b zarr disk g ct : 0 < size -> 0 < sub -> vr_clean e known_args size sub b zarr disk g ct -> ct <> [] ->
  exists x p, m_ext (g_meta g) = Some x /\ p ∈ all_points ct /\ x0 x <= px p < x1 x /\ y0 x <= py p < y1 x.
Proof.
  intros Hs Hsub H Hne. destruct (vr_clean_inv e (fun _ _ => True) known_args size sub b zarr disk Hs Hsub (fun a Pa => known_allows a Pa) g ct H) as (_ & seen & ok & HI).
  destruct (root_frame (new_vr_meta 0 0 size sub b zarr) _ _ _ _ _ Hs HI Hne) as (lx & ly & nx & ny & HF). apply (frame_sounding _ _ _ _ _ _ _ HF).
  rewrite all_points_nil_iff; [done|exact (rb_full _ _ _ (proj1 HI))].
Qed.
Lemma mean_some l (f : point -> Q) v : l <> [] -> mean_cell (map f l) v -> v <> None.
Proof. intros Hl. unfold mean_cell. destruct l; [done|]. intros [[? _]|(m & q & _ & _ & ->)]; done. Qed.
Lemma least_some l (f : point -> Q) v : l <> [] -> least_cell (map f l) v -> v <> None.
Proof. intros Hl. unfold least_cell. destruct l; [done|]. intros [[? _]|(m & q & _ & _ & ->)]; done. Qed.
