(** Facts about what a layer query answers, for the whole grid. *)
From Coq Require Import Lqa.
From Verif Require Import Py Nd Numpy Point Bin Algorithms Tile Time Meta Disk Grid GridRun GridQuery GridOps Spec TileExec GridExec PyFacts NdFacts NumpyFacts AlgFacts BinFacts
  MiscFacts TileFacts TileGridFacts TileSpecFacts TileRunFacts TileHistFacts ShoalFacts TilePropFacts TileQueryFacts GridBaseFacts GridPlaceFacts GridInvFacts GridRootFacts
  GridEvolveFacts GridSrFacts GridPropFacts GridHistFacts GridRunFacts GridCleanFacts GridUpdateFacts GridDensityFacts GridFlagFacts GridLayerFacts GridReadFacts.
Open Scope Z_scope.
Local Ltac Zify.zify_post_hook ::= Z.div_mod_to_equations.

(** ** The rectangle of a single resolution grid *)
Record frame {T} (g : grid T) (size : Z) (ct : content) (lx ly : Z) (nx ny : nat) : Prop := {
  fr_nx : (0 < nx)%nat; fr_ny : (0 < ny)%nat;
  fr_size : m_tile_size (g_meta g) = size;
  fr_lx : lx mod size = 0; fr_ly : ly mod size = 0;
  fr_ext : m_ext (g_meta g) = Some (Ext lx ly (lx + Z.of_nat nx * size) (ly + Z.of_nat ny * size));
  fr_box : forall r n, 0 < r -> (0 < n)%nat -> size = Z.of_nat n * r -> boxed g r nx ny n;
  fr_slot : forall k, (k < ny * nx)%nat -> origin_at g k = Some (lx + Z.of_nat (k mod nx) * size, ly + Z.of_nat (k / nx) * size);
  fr_tile : forall k t, tile_at g k = Some t -> (k < ny * nx)%nat;
  fr_live : exists k t, tile_at g k = Some t;
  fr_points : Forall (in_rect lx ly size nx ny) (map xy_of (all_points ct)) }.

Lemma root_frame {T} (m0 : gmeta) (rep : T -> Z -> Z -> content -> Prop) g ct seen ok :
  0 < m_tile_size m0 -> root_inv m0 rep g ct seen ok -> ct <> [] -> exists lx ly nx ny, frame g (m_tile_size m0) ct lx ly nx ny.
Proof.
  intros Hs [HB [(_ & ? & _)|(_ & lx & ly & nx & ny & a & HP & HF & _)]] Hne; [done|].
  destruct HP as [P1 P2 P3 P4 P5 P6 P7 P8]. destruct HF as (F1 & F2 & F3 & F4 & F5).
  pose proof (mf_size _ _ (rb_meta _ _ _ HB)) as Hm.
  exists lx, ly, nx, ny. split; try done.
  - intros r n Hr Hn Hsz. split; try done.
    + exists a. split; [done|]. split; [done|]. split; [done|]. by destruct P7.
    + congruence.
    + by rewrite Hm.
    + by rewrite Hm.
  - intros k Hk. exact (std_origin m0 lx ly nx ny k g P3 Hk).
  - intros k t Ht. apply tile_at_size in Ht. unfold tiles_size in Ht. rewrite P4 in Ht. destruct P7 as [P7 _]. lia.
  - destruct (slots_live m0 rep Hs _ _ _ _ _ _ P7 P8) as (k & t & Hk); [rewrite all_points_nil_iff by apply HB; done|].
    exists k, t. unfold tile_at. rewrite P4. by rewrite Hk.
Qed.
Lemma sr_frame e (P : gargs -> Prop) size b zarr disk g ct : 0 < size -> (forall a, P a -> known_args a) ->
  sr_clean e P size b zarr disk g ct -> ct <> [] -> exists lx ly nx ny, frame g size ct lx ly nx ny.
Proof.
  intros Hs HP H Hne.
  destruct (sr_clean_inv e (fun _ _ => True) P size b zarr disk Hs (fun a Pa => known_allows a (HP a Pa)) g ct H) as (_ & seen & ok & HI).
  exact (root_frame (new_sr_meta 0 0 size b zarr) _ _ _ _ _ Hs HI Hne).
Qed.

(** ** Cells of the grid and cells of its tiles *)
Lemma cell_split lx ly size r (nx n : nat) R C : 0 < r -> (0 < n)%nat -> size = Z.of_nat n * r -> (C / n < nx)%nat ->
  let k := (R / n * nx + C / n)%nat in
  forall x y, in_cell (lx + Z.of_nat (k mod nx) * size) (ly + Z.of_nat (k / nx) * size) r (R mod n) (C mod n) x y <-> in_cell lx ly r R C x y.
Proof.
  intros Hr Hn Hs Hc k x y. subst k.
  replace ((R / n * nx + C / n) mod nx)%nat with (C / n)%nat by (rewrite Nat.add_comm, Nat.mod_add, Nat.mod_small; lia).
  replace ((R / n * nx + C / n) / nx)%nat with (R / n)%nat by (rewrite Nat.div_add_l by lia; rewrite (Nat.div_small (C / n)) by lia; lia).
  unfold in_cell. pose proof (Nat.div_mod_eq R n) as E1. pose proof (Nat.div_mod_eq C n) as E2.
  apply (f_equal Z.of_nat) in E1, E2. rewrite Nat2Z.inj_add, Nat2Z.inj_mul in E1, E2. rewrite Hs.
  set (a := Z.of_nat (R / n)) in *. set (a' := Z.of_nat (R mod n)) in *. set (c := Z.of_nat (C / n)) in *. set (c' := Z.of_nat (C mod n)) in *.
  rewrite E1, E2. replace (lx + c * (Z.of_nat n * r) + c' * r) with (lx + (Z.of_nat n * c + c') * r) by lia.
  replace (ly + a * (Z.of_nat n * r) + a' * r) with (ly + (Z.of_nat n * a + a') * r) by lia.
  replace (lx + c * (Z.of_nat n * r) + (c' + 1) * r) with (lx + (Z.of_nat n * c + c' + 1) * r) by lia.
  replace (ly + a * (Z.of_nat n * r) + (a' + 1) * r) with (ly + (Z.of_nat n * a + a' + 1) * r) by lia. done.
Qed.
Lemma in_cell_square x0 y0 r n R C x y : 0 < r -> (R < n)%nat -> (C < n)%nat -> in_cell x0 y0 r R C x y -> in_square x0 y0 (Z.of_nat n * r) x y.
Proof. unfold in_cell, in_square. intros Hr HR HC [H1 H2]. assert (Z.of_nat (R+1) * r <= Z.of_nat n * r) by (apply Z.mul_le_mono_nonneg_r; lia).
  assert (Z.of_nat (C+1) * r <= Z.of_nat n * r) by (apply Z.mul_le_mono_nonneg_r; lia).
  assert (0 <= Z.of_nat R * r) by lia. assert (0 <= Z.of_nat C * r) by lia. lia. Qed.
Lemma filter_impl {A} (P Q : A -> Prop) `{!forall x, Decision (P x)} `{!forall x, Decision (Q x)} (l : list A) :
  (forall x, P x -> Q x) -> filter P (filter Q l) = filter P l.
Proof.
  intros Himp. induction l as [|x l IH]; [done|]. rewrite (filter_cons Q x l). destruct (decide (Q x)).
  - rewrite !filter_cons. by rewrite IH.
  - rewrite IH, filter_cons_False; [done|]. by intros ?%Himp.
Qed.
Lemma cells_cover_unique s r n n' : 0 < r -> s = Z.of_nat n * r -> cells_cover s r n' -> n' = n.
Proof. unfold cells_cover. intros Hr -> [H1 H2]. apply Z.mul_le_mono_pos_r in H2; [|done]. apply Z.mul_lt_mono_pos_r in H1; [|done]. lia. Qed.
Lemma layer_is_shape n a P : layer_is n a P -> shape_is a n n.
Proof. intros (H1 & H2 & H3 & _). split; [|done]. unfold nd_wf. by rewrite H1, H2. Qed.
Lemma all_nan_get a i j v : nd_get a i j = Some (Some v) -> all_nan a = false.
Proof.
  intros H. destruct (all_nan a) eqn:E; [|done]. unfold all_nan in E. rewrite forallb_forall in E.
  unfold nd_get in H. destruct (_ && _); [|done]. apply elem_of_list_lookup_2, elem_of_list_In, E in H. done.
Qed.

(** A layer of every tile of the grid, computed cell by cell from the points of the tile, put together. *)
Section answer.
  Context (e : env) (g : sr_grid) (ct : content) (size r : Z) (l : string) (n nx ny : nat) (lx ly : Z) (W : list point -> cell -> Prop).
  Context (Hl : l ∈ std_layers) (Hr : 0 < r) (Hn : (0 < n)%nat) (Hs : size = Z.of_nat n * r) (HF : frame g size ct lx ly nx ny).
  Context (Hnil : W [] (layer_nodata l None)).
  Context (Hfull : forall d v, d <> [] -> W d v -> v <> None).
  Context (HT : forall k x y, origin_at g k = Some (x, y) ->
    let here := filter (fun p => in_square x y size (px p) (py p)) (all_points ct) in
    match tile_at g k with
    | Some t => t_is_empty t = false /\ here <> [] /\ exists a, layer_of t r l = Some a /\ layer_is n a (fun R C => W (points_in_cell x y r R C here))
    | None => here = []
    end).

  Lemma answer_cells up : eff_up (g_meta g) up = false \/ l <> "depth" -> g_no_grid sr_ops g = Ok false ->
    exists a, g_get_layers_by_name sr_ops e g [l] (Some r) None up = Ok (g, Some [a]) /\ nd_wf a /\ nrows a = (ny * n)%nat /\ ncols a = (nx * n)%nat /\
    forall R C, (R < ny * n)%nat -> (C < nx * n)%nat -> exists v, nd_get a R C = Some v /\ W (points_in_cell lx ly r R C (all_points ct)) v.
  Proof using All.
    intros Hu Hg. destruct (std_cells e g r l None up nx ny n Hl) as (o & Hq & Ho & Hany); [by apply (fr_box _ _ _ _ _ _ _ HF)|done| |].
    { intros k t Ht. pose proof (fr_tile _ _ _ _ _ _ _ HF _ _ Ht) as Hk. pose proof (HT _ _ _ (fr_slot _ _ _ _ _ _ _ HF k Hk)) as H. cbv zeta in H. rewrite Ht in H.
      destruct H as (He & _ & a & Ha & Hla). split; [done|]. right. exists a. split; [done|]. by eapply layer_is_shape. }
    assert (HR : forall R C, (R < ny * n)%nat -> (C < nx * n)%nat -> exists v, cell_fill (layer_nodata l None) (stored g r l nx n R C) = v /\ W (points_in_cell lx ly r R C (all_points ct)) v).
    { intros R C HR HC. eexists. split; [reflexivity|].
      assert (K1 : (R / n < ny)%nat) by (apply Nat.div_lt_upper_bound; lia).
      assert (K2 : (C / n < nx)%nat) by (apply Nat.div_lt_upper_bound; lia).
      assert (KK : (R / n * nx + C / n < ny * nx)%nat) by (by apply flat_lt).
      assert (M1 : (R mod n < n)%nat) by (apply Nat.mod_upper_bound; lia). assert (M2 : (C mod n < n)%nat) by (apply Nat.mod_upper_bound; lia).
      pose proof (HT _ _ _ (fr_slot _ _ _ _ _ _ _ HF _ KK)) as H. cbv zeta in H.
      pose proof (cell_split lx ly size r nx n R C Hr Hn Hs K2) as Hsp. cbv zeta in Hsp.
      set (k := (R / n * nx + C / n)%nat) in *. set (x := lx + Z.of_nat (k mod nx) * size) in *. set (y := ly + Z.of_nat (k / nx) * size) in *.
      assert (HP : points_in_cell lx ly r R C (all_points ct) = points_in_cell x y r (R mod n) (C mod n) (filter (fun p => in_square x y size (px p) (py p)) (all_points ct))).
      { unfold points_in_cell. rewrite filter_impl.
        - apply list_filter_iff. intros p. symmetry. apply Hsp.
        - intros p Hp. clearbody x y. subst size. exact (in_cell_square x y r n _ _ _ _ Hr M1 M2 Hp). }
      rewrite HP. unfold stored. fold k. destruct (tile_at g k) as [t|] eqn:Ht.
      - destruct H as (_ & _ & a & Ha & (_ & _ & _ & Hcell)). rewrite Ha. destruct (Hcell _ _ M1 M2) as (v & Hv & HW). rewrite Hv. cbn [from_option id].
        destruct v as [q|]; [done|]. cbn [cell_fill]. destruct (points_in_cell x y r _ _ _) as [|p d] eqn:E; [done|].
        by destruct (Hfull (p :: d) None).
      - rewrite H. done. }
    destruct o as [arrs|].
    - destruct (Ho arrs eq_refl) as (a & -> & A1 & A2 & A3 & A4). exists a. split; [done|]. split; [done|]. split; [done|]. split; [done|].
      intros R C HRR HC. destruct (HR R C HRR HC) as (v & <- & HW). eexists. split; [by apply A4|].
      replace (bool_decide (l = "depth") && eff_up (g_meta g) up) with false; [done|]. symmetry. destruct Hu as [->|Hd]; [apply andb_false_r|]. by rewrite bool_decide_eq_false_2.
    - exfalso. apply Hany; [|done]. destruct (fr_live _ _ _ _ _ _ _ HF) as (k & t & Ht). exists k, t.
      pose proof (fr_tile _ _ _ _ _ _ _ HF _ _ Ht) as Hk. pose proof (HT _ _ _ (fr_slot _ _ _ _ _ _ _ HF k Hk)) as H. cbv zeta in H. rewrite Ht in H.
      destruct H as (_ & Hne & a & Ha & Hla). exists a. split; [done|]. split; [done|].
      set (x := lx + Z.of_nat (k mod nx) * size) in *. set (y := ly + Z.of_nat (k / nx) * size) in *.
      destruct (filter _ (all_points ct)) as [|p d] eqn:E; [done|].
      assert (Hp : in_square x y size (px p) (py p)). { assert (Hin : p ∈ filter (fun p => in_square x y size (px p) (py p)) (all_points ct)) by (rewrite E; left). apply elem_of_list_filter in Hin as [Hin _]. exact Hin. }
      destruct Hla as (_ & _ & _ & Hcell).
      assert (B1 : 0 <= (py p - y) / r < Z.of_nat n). { destruct Hp as [_ Hp]. split; [apply Z.div_pos; lia|apply Z.div_lt_upper_bound; lia]. }
      assert (B2 : 0 <= (px p - x) / r < Z.of_nat n). { destruct Hp as [Hp _]. split; [apply Z.div_pos; lia|apply Z.div_lt_upper_bound; lia]. }
      destruct (Hcell (Z.to_nat ((py p - y) / r)) (Z.to_nat ((px p - x) / r))) as (v & Hv & HW); [lia|lia|].
      destruct v as [q|]; [by eapply all_nan_get|]. exfalso. eapply Hfull; [|exact HW|done].
      intros Hz. assert (Hin : p ∈ points_in_cell x y r (Z.to_nat ((py p - y) / r)) (Z.to_nat ((px p - x) / r)) (p :: d)); [|rewrite Hz in Hin; by apply not_elem_of_nil in Hin].
      apply elem_of_list_filter. split; [|left]. unfold in_cell. rewrite !Z2Nat.id by lia. clear -Hr. split.
      + pose proof (Z.div_mod (px p - x) r). pose proof (Z.mod_pos_bound (px p - x) r). nia.
      + pose proof (Z.div_mod (py p - y) r). pose proof (Z.mod_pos_bound (py p - y) r). nia.
  Qed.
End answer.

Lemma mean_full d v : d <> [] -> mean_cell d v -> v <> None.
Proof. intros Hd [[-> _]|(m & q & _ & _ & ->)]; done. Qed.
Lemma least_full d v : d <> [] -> least_cell d v -> v <> None.
Proof. intros Hd [[-> _]|(m & q & _ & _ & ->)]; done. Qed.
Lemma map_ne {A B} (f : A -> B) l : l <> [] -> map f l <> [].
Proof. by destruct l. Qed.

Lemma frame_answers e alg r size b g' ct lx ly nx ny :
  alg = "mean" \/ alg = "shoalest" -> 0 < size -> frame g' size ct lx ly nx ny ->
  sr_reflects e alg r size b ct g' -> 0 < r -> size mod r = 0 ->
  (forall up, eff_up (g_meta g') up = false \/ b = true ->
     (alg = "mean" -> answers e g' (if b then "intensity" else "depth") r up (all_points ct) (fun d => mean_cell (map pz d))) /\
     (alg = "shoalest" -> answers e g' (if b then "intensity" else "depth") r up (all_points ct) (fun d => least_cell (map pz d)))) /\
  forall up,
  answers e g' "density" r up (all_points ct) (fun d v => v = Some (numQ (length d))) /\
  (alg = "mean" -> has_tvu (e_dt e) = true -> answers e g' "vertical_uncertainty" r up (all_points ct) (fun d => mean_cell (map ptvu d))) /\
  (alg = "mean" -> has_thu (e_dt e) = true -> answers e g' "horizontal_uncertainty" r up (all_points ct) (fun d => mean_cell (map pthu d))).
Proof.
  intros Halg Hs HF HR Hr Hm.
  set (n := Z.to_nat (size / r)). assert (Hn : size = Z.of_nat n * r). { unfold n. rewrite Z2Nat.id by (apply Z.div_pos; lia). pose proof (Z.div_mod size r). lia. }
  assert (Hn0 : (0 < n)%nat) by (destruct n; lia).
  assert (Hg : g_no_grid sr_ops g' = Ok false).
  { apply sr_no_grid_false.
    - intros k t Ht. pose proof (HR _ _ _ (fr_slot _ _ _ _ _ _ _ HF k (fr_tile _ _ _ _ _ _ _ HF _ _ Ht))) as Q. cbv zeta in Q. rewrite Ht in Q.
      destruct Q as (_ & _ & n' & dp & dn & _ & _ & Hdp & _). unfold layer_of in Hdp. by destruct (t_cells t).
    - destruct (fr_live _ _ _ _ _ _ _ HF) as (k & t & Ht). unfold tile_at in Ht. by destruct (g_tiles g'). }
  assert (G : forall l (W : list point -> cell -> Prop) up, l ∈ std_layers -> (eff_up (g_meta g') up = false \/ l <> "depth") ->
    W [] (layer_nodata l None) -> (forall d v, d <> [] -> W d v -> v <> None) ->
    (forall x y d t, reflects e alg r x y size b d t -> exists a, layer_of t r l = Some a /\ layer_is n a (fun R C => W (points_in_cell x y r R C d))) ->
    answers e g' l r up (all_points ct) W).
  { intros l W up Hl Hup W0 W1 HW. destruct (answer_cells e g' ct size r l n nx ny lx ly W Hl Hr Hn0 Hn HF W0 W1) with (up := up) as (arr & Q & A1 & A2 & A3 & A4); try done.
    - intros k x y Hk here. specialize (HR k x y Hk). cbv zeta in HR. fold here in HR. destruct (tile_at g' k) as [t|]; [|done].
      destruct HR as (Hd & Hh & HR). split; [|split; [done|by apply HW]]. unfold t_is_empty, t_points_count. rewrite Hd. by destruct here.
    - eexists _, arr. split; [apply (fr_ext _ _ _ _ _ _ _ HF)|]. split; [exact Q|]. split; [done|]. rewrite A2, A3. cbn [x0 x1 y0 y1].
      split; [lia|]. split; [lia|]. exact A4. }
  assert (N : forall x y d t, reflects e alg r x y size b d t -> exists dp dn,
    layer_of t r (if b then "intensity" else "depth") = Some dp /\ layer_of t r "density" = Some dn /\
    (alg = "mean" -> layer_is n dp (fun row col => mean_cell (map pz (points_in_cell x y r row col d)))) /\
    (alg = "shoalest" -> layer_is n dp (fun row col => least_cell (map pz (points_in_cell x y r row col d)))) /\
    layer_is n dn (fun row col v => v = Some (numQ (length (points_in_cell x y r row col d)))) /\
    (alg = "mean" -> has_tvu (e_dt e) = true -> exists a, layer_of t r "vertical_uncertainty" = Some a /\
       layer_is n a (fun row col => mean_cell (map ptvu (points_in_cell x y r row col d)))) /\
    (alg = "mean" -> has_thu (e_dt e) = true -> exists a, layer_of t r "horizontal_uncertainty" = Some a /\
       layer_is n a (fun row col => mean_cell (map pthu (points_in_cell x y r row col d))))).
  { intros x y d t (n' & dp & dn & _ & Hc & D1 & D2 & D3). rewrite (cells_cover_unique _ _ _ _ Hr Hn Hc) in D3. exists dp, dn. split; [done|]. by split. }
  assert (Hdl : (if b then "intensity" else "depth") ∈ std_layers) by (destruct b; apply (bool_decide_unpack _); vm_compute; exact I).
  assert (Hz : layer_nodata (if b then "intensity" else "depth") None = None) by (by destruct b).
  split.
  - intros up Hup. assert (Hup' : eff_up (g_meta g') up = false \/ (if b then "intensity" else "depth") <> "depth") by (destruct Hup as [?| ->]; [by left|by right]).
    split; intros Hal; (apply G; [done|done|rewrite Hz; by left|..]).
    + intros d v Hd. apply mean_full. by apply map_ne.
    + intros x y d t (dp & dn & D1 & D2 & D3 & _)%N. eauto.
    + intros d v Hd. apply least_full. by apply map_ne.
    + intros x y d t (dp & dn & D1 & D2 & _ & D3 & _)%N. eauto.
  - intros up. split; [|split].
    + apply G; [apply (bool_decide_unpack _); vm_compute; exact I|by right|done|by intros d v _ ->|].
      intros x y d t (dp & dn & D1 & D2 & _ & _ & D3 & _)%N. eauto.
    + intros Hal Ht. apply G; [apply (bool_decide_unpack _); vm_compute; exact I|by right|by left|intros d v Hd; apply mean_full; by apply map_ne|].
      intros x y d t (dp & dn & D1 & D2 & _ & _ & _ & D3 & _)%N. by apply D3.
    + intros Hal Ht. apply G; [apply (bool_decide_unpack _); vm_compute; exact I|by right|by left|intros d v Hd; apply mean_full; by apply map_ne|].
      intros x y d t (dp & dn & D1 & D2 & _ & _ & _ & _ & D3)%N. by apply D3.
Qed.

Lemma sr_reflects_answers e alg r size b zarr disk g' ct :
  alg = "mean" \/ alg = "shoalest" -> 0 < size -> sr_clean e known_args size b zarr disk g' ct -> ct <> [] ->
  sr_reflects e alg r size b ct g' -> 0 < r -> size mod r = 0 ->
  (forall up, eff_up (g_meta g') up = false \/ b = true ->
     (alg = "mean" -> answers e g' (if b then "intensity" else "depth") r up (all_points ct) (fun d => mean_cell (map pz d))) /\
     (alg = "shoalest" -> answers e g' (if b then "intensity" else "depth") r up (all_points ct) (fun d => least_cell (map pz d)))) /\
  forall up,
  answers e g' "density" r up (all_points ct) (fun d v => v = Some (numQ (length d))) /\
  (alg = "mean" -> has_tvu (e_dt e) = true -> answers e g' "vertical_uncertainty" r up (all_points ct) (fun d => mean_cell (map ptvu d))) /\
  (alg = "mean" -> has_thu (e_dt e) = true -> answers e g' "horizontal_uncertainty" r up (all_points ct) (fun d => mean_cell (map pthu d))).
Proof.
  intros Halg Hs H' Hne HR Hr Hm. destruct (sr_frame _ _ _ _ _ _ _ _ Hs (fun _ h => h) H' Hne) as (lx & ly & nx & ny & HF).
  exact (frame_answers e alg r size b g' ct lx ly nx ny Halg Hs HF HR Hr Hm).
Qed.

Lemma sr_answers e alg r size b zarr disk g ct a dask :
  alg = "mean" \/ alg = "shoalest" -> 0 < size -> sr_clean e known_args size b zarr disk g ct -> ct <> [] ->
  only_args alg r a -> (ga_regrid a = "update" -> ga_clear a = true) -> exn_of (g_grid sr_ops e g a dask) = None ->
  0 < r -> size mod r = 0 ->
  let g' := st_of (g_grid sr_ops e g a dask) in
  (forall up, eff_up (g_meta g') up = false \/ b = true ->
     (alg = "mean" -> answers e g' (if b then "intensity" else "depth") r up (all_points ct) (fun d => mean_cell (map pz d))) /\
     (alg = "shoalest" -> answers e g' (if b then "intensity" else "depth") r up (all_points ct) (fun d => least_cell (map pz d)))) /\
  forall up,
  answers e g' "density" r up (all_points ct) (fun d v => v = Some (numQ (length d))) /\
  (alg = "mean" -> has_tvu (e_dt e) = true -> answers e g' "vertical_uncertainty" r up (all_points ct) (fun d => mean_cell (map ptvu d))) /\
  (alg = "mean" -> has_thu (e_dt e) = true -> answers e g' "horizontal_uncertainty" r up (all_points ct) (fun d => mean_cell (map pthu d))).
Proof.
  intros Halg Hs H Hne Ha Hu Hx Hr Hm g'.
  assert (HR : sr_reflects e alg r size b ct g').
  { apply simple_cases in Halg as [sa ->]. destruct Ha as [Ha Hrz]. eapply sr_full_reflects; try done. by apply given_rez. }
  assert (Hk : known_args a). { destruct Ha as [Ha _]. unfold known_args. rewrite Ha. destruct Halg as [->| ->]; apply (bool_decide_unpack _); vm_compute; exact I. }
  assert (H' : sr_clean e known_args size b zarr disk g' ct) by (by apply CH_grid).
  exact (sr_reflects_answers e alg r size b zarr disk g' ct Halg Hs H' Hne HR Hr Hm).
Qed.

(** ** Nodata and sign *)
Lemma arel_cellwise R a b : arel R a b -> cellwise R a b.
Proof. intros (_ & H1 & H2 & H3). by repeat split. Qed.
Lemma arel_answers R o o' : option_Forall2 (Forall2 (arel R)) o o' -> same_answers R o o'.
Proof. intros [x y H|]; constructor. induction H; constructor; [by apply arel_cellwise|done]. Qed.

Notation view l n u x := (cell_fill (layer_nodata l%string n) (if bool_decide (l%string = "depth"%string) && u then cell_neg x else x)).
Lemma sr_sim e (P : gargs -> Prop) size b zarr disk g ct l r n1 n2 u1 u2 (R : cell -> cell -> Prop) g' o :
  0 < size -> (forall a, P a -> known_args a) -> sr_clean e P size b zarr disk g ct -> l ∈ std_layers ->
  R (layer_nodata l n1) (layer_nodata l n2) -> (forall x, R (view l n1 (eff_up (g_meta g) u1) x) (view l n2 (eff_up (g_meta g) u2) x)) ->
  g_get_layers_by_name sr_ops e g [l] (Some r) n1 u1 = Ok (g', o) ->
  g' = g /\ exists o', g_get_layers_by_name sr_ops e g [l] (Some r) n2 u2 = Ok (g, o') /\ same_answers R o o'.
Proof.
  intros Hs HP H Hl HR1 HR2 Hq. destruct (sim_query sr_ops e g l r n1 n2 u1 u2 R HR1) with (g' := g') (o := o) as (-> & o' & Ho & HA); [|done|].
  - intros k t Ht t' o' Ho. destruct (sr_good _ _ _ _ _ _ _ _ _ _ Hs HP H Ht) as (x & y & HG & _). by eapply (sr_tile_sim e t).
  - split; [done|]. exists o'. split; [done|]. by apply arel_answers.
Qed.
Lemma vr_sim e (P : gargs -> Prop) size sub b zarr disk g ct l r n1 n2 u1 u2 (R : cell -> cell -> Prop) g' o :
  0 < size -> 0 < sub -> (forall a, P a -> known_args a) -> vr_clean e P size sub b zarr disk g ct -> l ∈ std_layers ->
  R (layer_nodata l n1) (layer_nodata l n2) ->
  (forall m x, R (view l n1 (eff_up m (eff_up (g_meta g) u1)) x) (view l n2 (eff_up m (eff_up (g_meta g) u2)) x)) ->
  g_get_layers_by_name vr_ops e g [l] (Some r) n1 u1 = Ok (g', o) ->
  g' = g /\ exists o', g_get_layers_by_name vr_ops e g [l] (Some r) n2 u2 = Ok (g, o') /\ same_answers R o o'.
Proof.
  intros Hs Hsub HP H Hl HR1 HR2 Hq. destruct (sim_query vr_ops e g l r n1 n2 u1 u2 R HR1) with (g' := g') (o := o) as (-> & o' & Ho & HA); [|done|].
  - intros k sg Hsg t' o' Ho. refine (sim_nested sr_ops e sg l r n1 n2 _ _ R HR1 _ t' o' Ho).
    intros j t Ht t2 o2 Ho2. destruct (vr_good _ _ _ _ _ _ _ _ _ _ _ _ _ Hs Hsub HP H Hsg Ht) as (x & y & HG & _). by eapply (sr_tile_sim e t).
  - split; [done|]. exists o'. split; [done|]. by apply arel_answers.
Qed.
Lemma eff_negb m u : eff_up m (negb u) = negb (eff_up m u).
Proof. unfold eff_up. by destruct (m_positive_up m). Qed.
Lemma float_std l : l ∈ float_layers -> l ∈ std_layers.
Proof. intros. apply elem_of_app. by left. Qed.
Lemma float_nodata l v : l ∈ float_layers -> layer_nodata l v = v.
Proof.
  intros H. unfold layer_nodata. rewrite bool_decide_eq_false_2; [done|]. intros H2. apply elem_of_list_In in H, H2. cbn in H, H2. intuition congruence.
Qed.
Lemma filled_view l v u x : l ∈ float_layers -> filled (Some v) (view l None u x) (view l (Some v) u x).
Proof. intros Hl. rewrite !float_nodata by done. unfold filled. by destruct (bool_decide _ && _), x. Qed.
Lemma opposite_view u x : opposite (view "depth" None u x) (view "depth" None (negb u) x).
Proof. destruct u, x as [q|]; try done; [change (Qred (- q) + q == 0)%Q|change (q + Qred (- q) == 0)%Q]; rewrite Qred_correct; lra. Qed.
Lemma other_view l n u u' x : l <> "depth" -> view l n u x = view l n u' x.
Proof. intros. by rewrite bool_decide_eq_false_2. Qed.
