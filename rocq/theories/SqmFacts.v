(** Soundings per square metre over the tiles of a grid. *)
From Coq Require Import Lqa.
From Verif Require Import Py Nd Numpy Point Bin Algorithms Tile Time Meta Disk Grid GridRun GridQuery GridOps Views Spec TileExec GridExec ViewsSpec.
From Verif Require Import PyFacts NdFacts NumpyFacts AlgFacts BinFacts TileFacts TileGridFacts TileSpecFacts TileRunFacts TileHistFacts TilePropFacts TileQueryFacts.
From Verif Require Import GridBaseFacts GridPlaceFacts GridInvFacts GridRootFacts GridEvolveFacts GridSrFacts GridPropFacts GridHistFacts GridRunFacts GridCleanFacts GridUpdateFacts GridDensityFacts.
Open Scope Z_scope.

Lemma sr_counted e (P : gargs -> Prop) size b zarr disk g ct a dask r :
  0 < size -> (forall a, P a -> known_args a) -> sr_clean e P size b zarr disk g ct -> known_args a -> ga_rez a = Some r ->
  exn_of (g_grid sr_ops e g a dask) = None -> (ga_clear a = true \/ forall a, P a -> ga_rez a = Some r) ->
  forall k t', tile_at (st_of (g_grid sr_ops e g a dask)) k = Some t' -> counted r t'.
Proof.
  intros Hs HP H HA Hr Hx [Hc|Hc].
  - destruct (sr_clean_inv e (fun _ _ => True) P size b zarr disk Hs (fun a Pa => known_allows a (HP a Pa)) g ct H) as (_ & seen & ok & HI).
    eapply (sr_all_counted e (fun _ _ => True) size b Hs); try done; [by eapply root_origins|intros k t Ht; by eapply root_rep|by left].
  - assert (HQ : forall a, P a -> allows (at_rez r) a).
    { intros a0 Pa. split; [by apply HP|]. by rewrite (Hc a0 Pa). }
    destruct (sr_clean_inv e (at_rez r) P size b zarr disk Hs HQ g ct H) as (_ & seen & ok & HI).
    eapply (sr_all_counted e (at_rez r) size b Hs); try done; [by eapply root_origins|intros k t Ht; by eapply root_rep|by right].
Qed.
Lemma counted_sqm e r t l : counted r t -> t_density_count t = Ok l ->
  t_density_per_square_meter e t = Ok (map (fun q => q / (metres e r * metres e r))%Q l).
Proof.
  intros (Hr & d & Hc & Hd). unfold t_density_count, t_density_per_square_meter. rewrite Hc. unfold density_layer. cbn [rmap snd fst]. rewrite Hd. cbn [rofopt rbind].
  intros [= <-]. cbn [concat]. by rewrite !app_nil_r.
Qed.
Lemma counted_sqm_all e r ts l : (forall t, t ∈ ts -> counted r t) -> rmap t_density_count ts = Ok l ->
  rmap (t_density_per_square_meter e) ts = Ok (map (map (fun q => q / (metres e r * metres e r))%Q) l).
Proof.
  revert l. induction ts as [|t ts IH]; intros l H; cbn [rmap]; [by intros [= <-]|].
  intros (d & Hd & E)%rbind_Ok. apply rbind_Ok in E as (ds & Hds & [= <-]). rewrite (counted_sqm e r t d); [|apply H; left|done].
  cbn [rbind]. rewrite (IH ds); [done| |done]. intros u Hu. apply H. by right.
Qed.
Lemma metres_pos e r : 0 < r -> (0 < metres e r)%Q.
Proof. intros H. unfold metres, Qlt. cbn. lia. Qed.
Lemma sumQ_div (c : Q) l : ~ (c == 0)%Q -> (sumQ (map (fun q => q / c) l) * c == sumQ l)%Q.
Proof.
  intros Hc. induction l as [|q l IH]; [cbn; lra|]. cbn [map]. change (sumQ (q / c :: map (fun q => q / c) l)%Q) with (q / c + sumQ (map (fun q => q / c) l))%Q.
  change (sumQ (q :: l)) with (q + sumQ l)%Q. rewrite Qmult_plus_distr_l, IH. field_simplify; [lra|done].
Qed.

(** The attribute of a tile against the pairs with depth. *)
Lemma mask_positive (l : list cell) :
  omap id (mask_select (map (fun c : cell => match c with Some q => negb (Qle_bool q 0) | None => false end) l) l) =
  filter (fun q => Qle_bool q 0 = false) (omap id l).
Proof.
  induction l as [|[q|] l IH]; [done| |].
  - cbn [map mask_select omap list_omap id]. destruct (Qle_bool q 0) eqn:E; cbn [negb].
    + rewrite filter_cons_False by congruence. exact IH.
    + rewrite filter_cons_True by done. cbn. f_equal. exact IH.
  - exact IH.
Qed.
Lemma tile_sqm_first e t dz : t_density_sqm_vs_depth e t = Ok dz -> t_density_per_square_meter e t = Ok dz.1.
Proof.
  unfold t_density_sqm_vs_depth, t_density_per_square_meter. generalize (t_cells t). intros cells. intros (l & Hl & [= <-])%rbind_Ok.
  assert (H : rmap (fun rl => let* a := density_layer rl in Ok (map (fun q => q / (metres e rl.1 * metres e rl.1))%Q (positive_counts a))) cells = Ok (map fst l)).
  { revert l Hl. induction cells as [|rl cells IH]; intros l; cbn [rmap]; [by intros [= <-]|].
    intros (p & Hp & Hl)%rbind_Ok. apply rbind_Ok in Hl as (l' & Hl & [= <-]). unfold vs_depth_at in Hp. apply rbind_Ok in Hp as (d & Hd & Hp).
    apply rbind_Ok in Hp as (z & _ & Hp). case_bool_decide; [|done]. injection Hp as <-. rewrite Hd. cbn [rbind]. rewrite (IH _ Hl). cbn [rbind map fst].
    unfold positive_counts, positive_mask. by rewrite mask_positive. }
  rewrite H. done.
Qed.
Lemma all_first {A} (f : A -> res (list Q * list cell)) (h : A -> res (list Q)) (ts : list A) l : (forall t dz, f t = Ok dz -> h t = Ok dz.1) ->
  rmap f ts = Ok l -> rmap h ts = Ok (map fst l).
Proof.
  intros Hfh. revert l. induction ts as [|t ts IH]; intros l; cbn [rmap]; [by intros [= <-]|].
  intros (d & Hd & E)%rbind_Ok. apply rbind_Ok in E as (ds & Hds & [= <-]). rewrite (Hfh _ _ Hd). cbn [rbind]. by rewrite (IH _ Hds).
Qed.
Lemma grid_first {T} (O : tile_ops T) e (f : T -> res (list Q * list cell)) (g : grid T) dz : (forall t dz, f t = Ok dz -> op_density_sqm O e t = Ok dz.1) ->
  g_vs_depth f g = Ok dz -> g_density_per_square_meter O e g = Ok dz.1.
Proof.
  intros Hf. unfold g_vs_depth, g_density_per_square_meter. intros (l & Hl & [= <-])%rbind_Ok. by rewrite (all_first f (op_density_sqm O e) _ l Hf Hl).
Qed.
