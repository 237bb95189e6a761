(** Facts about the number of cells of whole grids (C137). *)
From Verif Require Import Py Nd Numpy Point Bin Algorithms Tile Time Meta Disk Grid GridRun GridQuery GridOps Export
  Spec TileExec GridExec WholeSpec SameSpec SquaresSpec NdFacts BinFacts GridBaseFacts GridLayerFacts TileRunFacts GridCleanFacts TileGridFacts GridFlagFacts GridPlaceFacts GridInvFacts GridRootFacts GridPropFacts GridHistFacts GridCountFacts
  GridUpdateFacts GridAnswerFacts GridExportFacts GridWholeFacts GridContainerFacts GridSameFacts.
Open Scope Z_scope.

Definition sq (r : Z) (p : point) : Z * Z := (px p / r, py p / r).
Lemma squares_elem r d s : s ∈ squares r d <-> exists p, p ∈ d /\ s = sq r p.
Proof.
  unfold squares. rewrite elem_of_remove_dups. fold (sq r). split.
  - intros H. apply elem_of_list_fmap in H as (p & -> & Hp). by exists p.
  - intros (p & Hp & ->). by apply (elem_of_list_fmap_1 (sq r)).
Qed.
Lemma squares_nodup r d : NoDup (squares r d).
Proof. apply NoDup_remove_dups. Qed.
Lemma squares_count r d l : NoDup l -> (forall s, s ∈ l <-> exists p, p ∈ d /\ s = sq r p) -> length l = length (squares r d).
Proof. intros Hn H. apply Permutation_length, NoDup_Permutation; [done|apply squares_nodup|]. intros s. by rewrite H, squares_elem. Qed.
Lemma squares_perm r d d' : d ≡ₚ d' -> length (squares r d) = length (squares r d').
Proof. intros H. apply squares_count; [apply squares_nodup|]. intros s. rewrite squares_elem. by setoid_rewrite H. Qed.

(** ** A partition of the soundings *)
Lemma squares_split r d (P : nat -> point -> Prop) `{forall k p, Decision (P k p)} n :
  (forall p, p ∈ d -> exists k, (k < n)%nat /\ P k p) -> (forall p k k', p ∈ d -> (k < n)%nat -> (k' < n)%nat -> P k p -> P k' p -> k = k') ->
  (forall p p' k, p ∈ d -> p' ∈ d -> sq r p = sq r p' -> P k p -> P k p') ->
  list_sum (map (fun k => length (squares r (filter (P k) d))) (seq 0 n)) = length (squares r d).
Proof.
  intros HE HU HI. rewrite <- (squares_count r d (concat (map (fun k => squares r (filter (P k) d)) (seq 0 n)))).
  - induction (seq 0 n) as [|k l IH]; [done|]. cbn [map concat]. rewrite app_length. simpl list_sum. by rewrite IH.
  - assert (G : forall ks, NoDup ks -> (forall k, k ∈ ks -> (k < n)%nat) -> NoDup (concat (map (fun k => squares r (filter (P k) d)) ks))).
    { induction ks as [|k ks IH]; intros Hn Hk; [apply NoDup_nil_2|]. cbn [map concat]. apply NoDup_cons in Hn as [Hn1 Hn2]. apply NoDup_app.
      split; [apply squares_nodup|]. split; [|apply IH; [done|intros; apply Hk; by right]]. intros s (p & Hp & ->)%squares_elem Hs.
      apply elem_of_list_In, in_concat in Hs as (l & Hl & Hs). apply in_map_iff in Hl as (k' & <- & Hk'). apply elem_of_list_In, squares_elem in Hs as (p' & Hp' & E).
      apply elem_of_list_filter in Hp as [P1 D1], Hp' as [P2 D2]. apply elem_of_list_In in Hk'.
      assert (k = k'); [|by subst]. apply (HU p'); [done|apply Hk; left|apply Hk; by right|by apply (HI p p')|done]. }
    apply G; [apply NoDup_seq|]. intros k Hk%elem_of_seq. lia.
  - intros s. split.
    + intros Hs. apply elem_of_list_In, in_concat in Hs as (l & Hl & Hs). apply in_map_iff in Hl as (k & <- & Hk). apply elem_of_list_In, squares_elem in Hs as (p & Hp & E).
      apply elem_of_list_filter in Hp as [_ Hp]. by exists p.
    + intros (p & Hp & ->). destruct (HE p Hp) as (k & Hk & HP). apply elem_of_list_In, in_concat. exists (squares r (filter (P k) d)). split.
      * apply in_map_iff. exists k. split; [done|]. apply in_seq. lia.
      * apply elem_of_list_In, squares_elem. exists p. split; [by apply elem_of_list_filter|done].
Qed.

(** ** A grid of tiles *)
Lemma sum_slots {T} (fl : list (option T)) (f : T -> nat) (h : nat -> nat) :
  (forall k o, fl !! k = Some o -> match o with Some t => f t = h k | None => h k = 0%nat end) ->
  list_sum (map f (omap id fl)) = list_sum (map h (seq 0 (length fl))).
Proof.
  revert h. induction fl as [|o fl IH]; intros h H; [done|]. cbn [length seq map]. rewrite <- seq_shift, map_map. simpl list_sum.
  rewrite <- (IH (fun k => h (S k))); [|intros k o' Hk; by apply (H (S k))]. specialize (H 0%nat o eq_refl). destruct o as [t|].
  - change (omap id (Some t :: fl)) with (t :: omap id fl). simpl. by rewrite H.
  - change (omap id (None :: fl)) with (omap id fl). by rewrite H.
Qed.
Lemma square_same r s x v w : 0 < r -> s mod r = 0 -> x mod r = 0 -> v / r = w / r -> x <= v < x + s -> x <= w < x + s.
Proof.
  intros Hr Hs Hx E Hv. apply Z.mod_divide in Hs as [a ->]; [|lia]. apply Z.mod_divide in Hx as [b ->]; [|lia].
  pose proof (Z.div_mod v r). pose proof (Z.div_mod w r). pose proof (Z.mod_pos_bound v r). pose proof (Z.mod_pos_bound w r). rewrite E in *.
  set (q := w / r) in *. clearbody q. assert (b <= q) by nia. assert (q < b + a) by nia. nia.
Qed.
Lemma grid_squares {T} (g : grid T) a lx ly s (nx ny : nat) (f : T -> nat) d r :
  0 < r -> 0 < s -> s mod r = 0 -> lx mod r = 0 -> ly mod r = 0 -> g_tiles g = Some a -> length (nflat a) = (ny * nx)%nat ->
  (forall k, (k < ny * nx)%nat -> origin_at g k = Some (lx + Z.of_nat (k mod nx) * s, ly + Z.of_nat (k / nx) * s)) ->
  (forall p, p ∈ d -> lx <= px p < lx + Z.of_nat nx * s /\ ly <= py p < ly + Z.of_nat ny * s) ->
  (forall k x y, origin_at g k = Some (x, y) -> match tile_at g k with
     | Some t => f t = length (squares r (filter (fun p => in_square x y s (px p) (py p)) d))
     | None => filter (fun p => in_square x y s (px p) (py p)) d = [] end) ->
  list_sum (map f (live_tiles g)) = length (squares r d).
Proof.
  intros Hr Hs Hm Hlx Hly Ha Hl Ho Hd Hf.
  rewrite <- (squares_split r d (fun k p => in_square (lx + Z.of_nat (k mod nx) * s) (ly + Z.of_nat (k / nx) * s) s (px p) (py p)) (ny * nx)).
  - unfold live_tiles. rewrite Ha, <- Hl. apply sum_slots. intros k o Hk. pose proof (lookup_lt_Some _ _ _ Hk) as Hlt. rewrite Hl in Hlt.
    specialize (Hf k _ _ (Ho k Hlt)). unfold tile_at in Hf. rewrite Ha, Hk in Hf. cbn in Hf. destruct o as [t|]; [done|]. by rewrite Hf.
  - intros p Hp. destruct (Hd p Hp) as [D1 D2].
    assert (B : forall v lo (n : nat), lo <= v < lo + Z.of_nat n * s -> (Z.to_nat ((v - lo) / s) < n)%nat /\ lo + Z.of_nat (Z.to_nat ((v - lo) / s)) * s <= v < lo + Z.of_nat (Z.to_nat ((v - lo) / s)) * s + s).
    { intros v lo n Hv. assert ((v - lo) / s < Z.of_nat n) by (apply Z.div_lt_upper_bound; lia). assert (0 <= (v - lo) / s) by (apply Z.div_pos; lia).
      pose proof (Z.div_mod (v - lo) s). pose proof (Z.mod_pos_bound (v - lo) s). rewrite Z2Nat.id by done. split; [lia|nia]. }
    destruct (B _ _ _ D1) as [C1 C2], (B _ _ _ D2) as [R1 R2]. eexists. split; [exact (flat_lt _ _ _ _ R1 C1)|]. rewrite flat_mod, flat_div by done. split; [exact C2|exact R2].
  - intros p k k' _ Hk Hk' [X1 Y1] [X2 Y2]. assert (k mod nx = k' mod nx)%nat by nia. assert (k / nx = k' / nx)%nat by nia.
    assert (0 < nx)%nat by (destruct nx; lia). rewrite (flat_split nx k), (flat_split nx k') by done. congruence.
  - intros p p' k _ _ E [X Y]. injection E as E1 E2. split.
    + eapply (square_same r); [done|exact Hm| |exact E1|exact X]. rewrite Z.add_mod, Hlx, Z.mul_mod, Hm, Z.mul_0_r by lia. by rewrite !Z.mod_0_l by lia.
    + eapply (square_same r); [done|exact Hm| |exact E2|exact Y]. rewrite Z.add_mod, Hly, Z.mul_mod, Hm, Z.mul_0_r by lia. by rewrite !Z.mod_0_l by lia.
Qed.

(** ** A tile *)
Lemma positions_nodup rows cols : NoDup (positions rows cols).
Proof.
  apply NoDup_alt. intros i j ij Hi Hj. pose proof (lookup_lt_Some _ _ _ Hi) as Li. pose proof (lookup_lt_Some _ _ _ Hj) as Lj. rewrite positions_length in Li, Lj.
  rewrite positions_lookup in Hi, Hj by done. rewrite <- Hi in Hj. injection Hj as E1 E2. assert (0 < cols)%nat by (destruct cols; lia).
  rewrite (flat_split cols i), (flat_split cols j) by done. congruence.
Qed.
Lemma positions_all rows cols i j : (i < rows)%nat -> (j < cols)%nat -> (i, j) ∈ positions rows cols.
Proof. intros Hi Hj. apply (elem_of_list_lookup_2 _ (i * cols + j)). rewrite positions_lookup by (by apply flat_lt). by rewrite flat_div, flat_mod. Qed.
Lemma tile_squares x y s r n d : 0 < r -> 0 < s -> s mod r = 0 -> x mod r = 0 -> y mod r = 0 -> cells_cover s r n -> Forall (fun p => in_square x y s (px p) (py p)) d ->
  cells_with_points x y r n d = length (squares r d).
Proof.
  intros Hr Hs Hm Hx Hy Hn Hd. unfold cells_with_points. rewrite Forall_forall in Hd. apply Z.mod_divide in Hm as [m ->]; [|lia]. unfold cells_cover in Hn.
  assert (m = Z.of_nat n) as -> by nia. apply Z.mod_divide in Hx as [a ->]; [|lia]. apply Z.mod_divide in Hy as [b ->]; [|lia].
  rewrite <- (map_length (fun ij : nat * nat => (a + Z.of_nat ij.2, b + Z.of_nat ij.1))). apply squares_count.
  - apply NoDup_fmap_2_strong; [|apply NoDup_filter, positions_nodup]. intros [i j] [i' j'] _ _ E. injection E as E1 E2. f_equal; lia.
  - assert (Q : forall v c (k : Z), k * r + Z.of_nat c * r <= v < k * r + (Z.of_nat c + 1) * r -> v / r = k + Z.of_nat c) by (intros v c k Hv; symmetry; apply (Z.div_unique _ _ _ (v - (k + Z.of_nat c) * r)); lia).
    intros s. split.
    + intros H. apply elem_of_list_fmap in H as ([i j] & -> & H). apply elem_of_list_filter in H as [H _]. cbn [fst snd] in *.
      destruct (points_in_cell _ _ _ _ _ _) as [|p l] eqn:E; [done|]. assert (Hp : p ∈ points_in_cell (a * r) (b * r) r i j d) by (rewrite E; left).
      apply elem_of_list_filter in Hp as [[C1 C2] Hp]. exists p. split; [done|]. unfold sq. rewrite (Q _ _ _ C1), (Q _ _ _ C2). done.
    + intros (p & Hp & ->). destruct (Hd p Hp) as [D1 D2].
      assert (B : forall v k, k * r <= v < k * r + Z.of_nat n * r -> exists c, (c < n)%nat /\ v / r = k + Z.of_nat c /\ k * r + Z.of_nat c * r <= v < k * r + (Z.of_nat c + 1) * r).
      { intros v k Hv. pose proof (Z.div_mod v r). pose proof (Z.mod_pos_bound v r). set (q := v / r) in *. clearbody q. assert (k <= q) by nia. assert (q < k + Z.of_nat n) by nia.
        exists (Z.to_nat (q - k)). rewrite Z2Nat.id by lia. split; [lia|]. split; [lia|]. nia. }
      destruct (B _ _ D1) as (c & Hc & E1 & C1), (B _ _ D2) as (i & Hi & E2 & C2). apply elem_of_list_fmap. exists (i, c). split; [unfold sq; cbn; congruence|].
      apply elem_of_list_filter. split; [|by apply positions_all]. cbn [fst snd]. intros E. assert (Hin : p ∈ points_in_cell (a * r) (b * r) r i c d) by (by apply elem_of_list_filter).
      rewrite E in Hin. by apply elem_of_nil in Hin.
Qed.
Lemma reflects_squares e alg r x y s b d t : alg = "mean" \/ alg = "shoalest" -> 0 < r -> 0 < s -> s mod r = 0 -> x mod r = 0 -> y mod r = 0 ->
  Forall (fun p => in_square x y s (px p) (py p)) d -> reflects e alg r x y s b d t -> populated t r (if b then "intensity" else "depth") = length (squares r d).
Proof. intros Ha Hr Hs Hm Hx Hy Hd H. destruct (reflects_count _ _ _ _ _ _ _ _ _ H Ha) as (n & Hn & -> & _). by apply (tile_squares x y s). Qed.

(** ** Coarser squares *)
Lemma squares_coarse r k d : 0 < r -> (0 < k)%nat -> (length (squares (Z.of_nat k * r) d) <= length (squares r d) <= length (squares (Z.of_nat k * r) d) * (k * k))%nat.
Proof.
  intros Hr Hk. set (K := Z.of_nat k). assert (HK : 0 < K) by (unfold K; lia).
  assert (E : forall v, v / (K * r) = (v / r) / K) by (intros v; rewrite Z.div_div by lia; f_equal; lia). split.
  - rewrite <- (map_length (fun s : Z * Z => (s.1 / K, s.2 / K)) (squares r d)). apply submseteq_length, NoDup_submseteq; [apply squares_nodup|].
    intros s (p & Hp & ->)%squares_elem. apply elem_of_list_fmap. exists (sq r p). split; [unfold sq; cbn; by rewrite !E|]. apply squares_elem. by exists p.
  - assert (L : (length (squares (K * r) d) * (k * k))%nat = length (concat (map (fun s : Z * Z => map (fun ij : nat * nat => (s.1 * K + Z.of_nat ij.2, s.2 * K + Z.of_nat ij.1)) (positions k k)) (squares (K * r) d)))).
    { induction (squares (K * r) d) as [|s l IH]; [done|]. cbn [map concat length]. rewrite app_length, <- IH, map_length, positions_length. lia. }
    rewrite L. apply submseteq_length, NoDup_submseteq; [apply squares_nodup|]. intros s (p & Hp & ->)%squares_elem.
    apply elem_of_list_In, in_concat. eexists. split; [apply in_map_iff; exists (sq (K * r) p); split; [reflexivity|]; apply elem_of_list_In, squares_elem; by exists p|].
    apply in_map_iff. exists (Z.to_nat ((py p / r) mod K), Z.to_nat ((px p / r) mod K)). pose proof (Z.mod_pos_bound (py p / r) K HK). pose proof (Z.mod_pos_bound (px p / r) K HK). split.
    + unfold sq. cbn [fst snd]. rewrite !E, !Z2Nat.id by lia. f_equal; [pose proof (Z.div_mod (px p / r) K)|pose proof (Z.div_mod (py p / r) K)]; lia.
    + apply elem_of_list_In, positions_all; unfold K in *; lia.
Qed.

(** ** Gridded grids *)
Lemma two_squares x y s u v s' (l : list point) :
  filter (fun p => in_square u v s' (px p) (py p)) (filter (fun p => in_square x y s (px p) (py p)) l) = filter (fun p => in_square x y s (px p) (py p) /\ in_square u v s' (px p) (py p)) l.
Proof. rewrite list_filter_filter. apply list_filter_iff. intros p. tauto. Qed.
Section whole.
  Context (e : env) (alg : string) (r : Z) (ct : content) (Halg : alg = "mean" \/ alg = "shoalest") (Hr : 0 < r) (Hne : ct <> []).
  Lemma sr_squares size zarr disk g0 a dask g : 0 < size -> size mod r = 0 -> sr_clean e known_args size false zarr disk g0 ct -> only_args alg r a ->
    (ga_regrid a = "update" -> ga_clear a = true) -> exn_of (g_grid sr_ops e g0 a dask) = None -> queried sr_ops e (st_of (g_grid sr_ops e g0 a dask)) g ->
    sr_clean e known_args size false zarr disk g ct /\ list_sum (map (fun t => populated t r "depth") (live_tiles g)) = length (squares r (all_points ct)).
  Proof using Halg Hr Hne.
    intros Hs Hm H Ha Hu Hx Hq. pose proof Halg as Halg'. destruct (simple_cases _ Halg) as [sa ->].
    destruct (sr_after e sa r a dask ct Ha Hu size false zarr disk g0 g Hs H Hx Hq) as [HC HN]. split; [exact HC|].
    pose proof (sr_reflects_current e known_args (fun _ h => h) sa r size false zarr disk Hs g ct HC HN) as HR.
    destruct (sr_frame e known_args size false zarr disk g ct Hs (fun _ h => h) HC Hne) as (lx & ly & nx & ny & HF).
    destruct (bx_tiles _ _ _ _ _ (fr_box _ _ _ _ _ _ _ HF size 1 Hs Nat.lt_0_1 ltac:(lia))) as (arr & Ta & _ & _ & Tl).
    pose proof (mod_trans _ _ _ Hs Hr (fr_lx _ _ _ _ _ _ _ HF) Hm) as Mx. pose proof (mod_trans _ _ _ Hs Hr (fr_ly _ _ _ _ _ _ _ HF) Hm) as My.
    apply (grid_squares g arr lx ly size nx ny); try done.
    - exact (fr_slot _ _ _ _ _ _ _ HF).
    - intros p Hp. pose proof (fr_points _ _ _ _ _ _ _ HF) as HP. apply (proj1 (Forall_fmap xy_of _ (all_points ct))) in HP. rewrite Forall_forall in HP. exact (HP p Hp).
    - intros k x y Ho. specialize (HR k x y Ho). cbv zeta in HR. destruct (tile_at g k) as [t|] eqn:Ht; [|done]. destruct HR as (_ & _ & HR).
      rewrite (fr_slot _ _ _ _ _ _ _ HF k (fr_tile _ _ _ _ _ _ _ HF _ _ Ht)) in Ho. injection Ho as <- <-.
      apply (reflects_squares e (alg_name sa) r _ _ size false _ t Halg' Hr Hs Hm) in HR; [exact HR| | |].
      + rewrite Z.add_mod, Mx, Z.mul_mod, Hm, Z.mul_0_r by lia. by rewrite !Z.mod_0_l by lia.
      + rewrite Z.add_mod, My, Z.mul_mod, Hm, Z.mul_0_r by lia. by rewrite !Z.mod_0_l by lia.
      + apply Forall_forall. intros p Hp. by apply elem_of_list_filter in Hp as [Hp _].
  Qed.
  Lemma vr_squares size sub zarr disk g0 a dask g : 0 < size -> 0 < sub -> size mod sub = 0 -> sub mod r = 0 -> vr_clean e known_args size sub false zarr disk g0 ct -> only_args alg r a ->
    (ga_regrid a = "update" -> ga_clear a = true) -> exn_of (g_grid vr_ops e g0 a dask) = None -> queried vr_ops e (st_of (g_grid vr_ops e g0 a dask)) g ->
    vr_clean e known_args size sub false zarr disk g ct /\ list_sum (map (fun t => populated t r "depth") (vr_tiles g)) = length (squares r (all_points ct)).
  Proof using Halg Hr Hne.
    intros Hs Hsub Hm1 Hm2 H Ha Hu Hx Hq. pose proof Halg as Halg'. destruct (simple_cases _ Halg) as [sa ->].
    destruct (vr_after e sa r a dask ct Ha Hu size sub false zarr disk g0 g Hs Hsub H Hx Hq) as [HC HN]. split; [exact HC|].
    assert (HR : vr_reflects e (alg_name sa) r size sub ct g).
    { apply (vr_reflects_current e known_args (fun _ h => h) sa r size sub false zarr disk Hs Hsub g ct HC). intros k sg j t Hk. by apply (HN k sg). }
    destruct (GridWholeFacts.vr_frame e known_args size sub false zarr disk g ct Hs Hsub Hm1 (fun _ h => h) HC Hne) as (lx & ly & nx & ny & HF & HSF).
    destruct (vr_clean_inv e (fun _ _ => True) known_args size sub false zarr disk Hs Hsub (fun a Pa => known_allows a Pa) g ct HC) as (_ & seen & ok & HI).
    destruct (bx_tiles _ _ _ _ _ (fr_box _ _ _ _ _ _ _ HF size 1 Hs Nat.lt_0_1 ltac:(lia))) as (arr & Ta & _ & _ & Tl).
    pose proof (mod_trans _ _ _ Hsub Hr Hm1 Hm2) as Hm.
    pose proof (mod_trans _ _ _ Hs Hr (fr_lx _ _ _ _ _ _ _ HF) Hm) as Mx. pose proof (mod_trans _ _ _ Hs Hr (fr_ly _ _ _ _ _ _ _ HF) Hm) as My.
    assert (Z0 : forall lo s (c : nat), lo mod r = 0 -> s mod r = 0 -> (lo + Z.of_nat c * s) mod r = 0).
    { intros lo s c M1 M2. rewrite Z.add_mod, M1, Z.mul_mod, M2, Z.mul_0_r by lia. by rewrite !Z.mod_0_l by lia. }
    unfold vr_tiles. rewrite list_sum_concat, map_map.
    apply (grid_squares g arr lx ly size nx ny (fun sg => list_sum (map (fun t => populated t r "depth") (live_tiles sg)))); try done.
    - exact (fr_slot _ _ _ _ _ _ _ HF).
    - intros p Hp. pose proof (fr_points _ _ _ _ _ _ _ HF) as HP. apply (proj1 (Forall_fmap xy_of _ (all_points ct))) in HP. rewrite Forall_forall in HP. exact (HP p Hp).
    - intros k x y Ho. destruct (tile_at g k) as [sg|] eqn:Ht.
      + assert (Hg : has_tile g x y sg) by (by exists k). specialize (HSF k sg Ht).
        pose proof (fr_slot _ _ _ _ _ _ _ HF k (fr_tile _ _ _ _ _ _ _ HF _ _ Ht)) as Ho'. rewrite Ho in Ho'. injection Ho' as Ex Ey. rewrite <- Ex, <- Ey in HSF.
        assert (Mx' : x mod r = 0) by (rewrite Ex; by apply Z0). assert (My' : y mod r = 0) by (rewrite Ey; by apply Z0). clear Ex Ey.
        destruct HSF as [S1 S2 S3 _ _ S6]. set (m := Z.to_nat (size / sub)) in *.
        assert (Em : size = Z.of_nat m * sub) by (unfold m; rewrite Z2Nat.id by (apply Z.div_pos; lia); pose proof (Z.div_mod size sub); lia). clearbody m.
        destruct (bx_tiles _ _ _ _ _ (S2 sub 1%nat Hsub Nat.lt_0_1 ltac:(lia))) as (arr' & Ta' & _ & _ & Tl').
        apply (grid_squares sg arr' x y sub m m); try done.
        * intros p Hp. apply elem_of_list_filter in Hp as [[P1 P2] _]. rewrite <- Em. split; [exact P1|exact P2].
        * intros j u v Hj. specialize (HR x y sg j u v Hg Hj). cbv zeta in HR. rewrite two_squares.
          destruct (tile_at sg j) as [t|] eqn:Hjt; [|done]. destruct HR as (_ & _ & HR). rewrite (S3 j (S6 _ _ Hjt)) in Hj. injection Hj as <- <-.
          apply (reflects_squares e (alg_name sa) r _ _ sub false _ t Halg' Hr Hsub Hm2) in HR; [exact HR|by apply Z0|by apply Z0|].
          apply Forall_forall. intros p Hp. by apply elem_of_list_filter in Hp as [[_ Hp] _].
      + pose proof (root_loc _ _ _ _ _ _ _ _ _ HI Ho) as HL. rewrite Ht in HL. cbn in HL. rewrite <- content_in_points. by rewrite HL.
  Qed.
End whole.
