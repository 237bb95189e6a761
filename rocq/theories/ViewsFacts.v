(** Facts about Views. *)
From Coq Require Import Lqa.
From Verif Require Import Py Nd Numpy Point Bin Algorithms Tile Time Meta Disk Grid GridRun GridQuery GridOps Export Spec TileExec GridExec Views ViewsSpec.
From Verif Require Import PyFacts NdFacts NumpyFacts AlgFacts BinFacts MiscFacts TileFacts TileGridFacts TileSpecFacts TileRunFacts TileHistFacts TilePropFacts TileQueryFacts.
From Verif Require Import GridBaseFacts GridPlaceFacts GridInvFacts GridRootFacts GridEvolveFacts GridSrFacts GridPropFacts GridHistFacts GridRunFacts GridCleanFacts GridUpdateFacts
  GridDensityFacts GridFlagFacts GridLayerFacts GridReadFacts GridAnswerFacts GridTrimFacts GridCountFacts GridExportFacts.
Open Scope Z_scope.

(** ** Density against depth *)
Lemma mask_pairs (l : list (cell * cell)) :
  let m := map (fun c : cell => match c with Some q => negb (Qle_bool q 0) | None => false end) (map fst l) in
  length (omap id (mask_select m (map fst l))) = length (mask_select m (map snd l)) /\
  zip (omap id (mask_select m (map fst l))) (mask_select m (map snd l)) =
  omap (fun p : cell * cell => match p.1 with Some q => if Qle_bool q 0 then None else Some (q, p.2) | None => None end) l.
Proof.
  cbv zeta. induction l as [|[[q|] v] l [IH1 IH2]]; [done| |]; cbn [map fst snd omap list_omap mask_select].
  - destruct (Qle_bool q 0); cbn [negb mask_select omap list_omap id]; [done|]. cbn. split; [by f_equal|by f_equal].
  - done.
Qed.
Lemma omap_map {A B C} (f : A -> B) (g : B -> option C) (l : list A) : omap g (map f l) = omap (fun x => g (f x)) l.
Proof. induction l as [|x l IH]; [done|]. cbn. destruct (g (f x)); by rewrite IH. Qed.
Lemma omap_ext_in {A B} (f g : A -> option B) (l : list A) : (forall x, x ∈ l -> f x = g x) -> omap f l = omap g l.
Proof.
  induction l as [|x l IH]; intros H; [done|]. cbn. rewrite (H x) by left. rewrite IH; [done|]. intros y Hy. apply H. by right.
Qed.

Lemma zip_scale {B} (f : Q -> Q) (a : list Q) (b : list B) : zip (map f a) b = map (fun qz : Q * B => (f qz.1, qz.2)) (zip a b).
Proof. revert b. induction a as [|x a IH]; intros [|y b]; cbn; [done..|]. by rewrite IH. Qed.

Lemma vs_depth_layer e t r l scale : good e t -> t_backscatter t = false -> dget (t_cells t) r = Some l ->
  exists dz, vs_depth_at scale (r, l) = Ok dz /\ length dz.1 = length dz.2 /\
    zip dz.1 dz.2 = map (fun qz : Q * cell => (scale r qz.1, qz.2)) (dense_cells t r).
Proof.
  intros HG Hb Hl. pose proof (g_cells _ _ HG r l Hl) as (_ & _ & _ & _ & alg & _ & Ha & H1 & H2).
  destruct (alg_keys_depth e (t_depth_key t) _ Ha) as [K1 K2]. destruct (H1 _ K1) as [z Ez], (H1 _ K2) as [d Ed].
  assert (Ez' : dget l "depth" = Some z) by (unfold t_depth_key in Ez; by rewrite Hb in Ez).
  destruct (H2 _ _ Ez) as (Wz & Z1 & Z2), (H2 _ _ Ed) as (Wd & D1 & D2).
  unfold vs_depth_at, density_layer. cbn [fst snd]. rewrite Ed, Ez'. cbn [rofopt rbind]. rewrite bool_decide_eq_true_2 by (split; congruence).
  eexists. split; [done|]. cbn [fst snd].
  unfold dense_cells, layer_of. rewrite Hl, Ed, Ez'.
  pose (pr := fun ij : nat * nat => (default None (nd_get d ij.1 ij.2), default None (nd_get z ij.1 ij.2))).
  assert (Fd : nflat d = map fst (map pr (positions (nrows d) (ncols d)))) by (rewrite map_map; cbn; by apply flat_positions).
  assert (Fz : nflat z = map snd (map pr (positions (nrows d) (ncols d)))).
  { rewrite map_map. cbn. replace (nrows d) with (nrows z) by congruence. replace (ncols d) with (ncols z) by congruence. by apply flat_positions. }
  unfold positive_mask. rewrite Fd, Fz. destruct (mask_pairs (map pr (positions (nrows d) (ncols d)))) as [M1 M2]. cbv zeta in M1, M2.
  split; [by rewrite map_length|]. rewrite zip_scale, M2, omap_map.
  f_equal. apply omap_ext_in. intros ij Hij%positions_in. unfold pr. cbn [fst snd].
  destruct (nd_get_is_Some z ij.1 ij.2 Wz) as [v ->]; [lia|lia|].
  destruct (nd_get_is_Some d ij.1 ij.2 Wd) as [[q|] ->]; [lia|lia| |]; done.
Qed.

Lemma zip_app {A B} (a1 a2 : list A) (b1 b2 : list B) : length a1 = length b1 -> zip (a1 ++ a2) (b1 ++ b2) = zip a1 b1 ++ zip a2 b2.
Proof. apply zip_with_app. Qed.
(** Results joined one after the other. *)
Lemma join_all {A} (f : A -> res (list Q * list cell)) (h : A -> list (Q * cell)) (l : list A) :
  (forall x, x ∈ l -> exists dz, f x = Ok dz /\ pairs_are (h x) dz) ->
  exists dz, (let* y := rmap f l in Ok (join_pairs y)) = Ok dz /\ pairs_are (concat (map h l)) dz.
Proof.
  induction l as [|x l IH]; intros H; [by exists ([], [])|].
  destruct (H x) as ([a b] & E1 & L1 & Z1); [left|]. destruct IH as ([u v] & E2 & L2 & Z2); [intros; apply H; by right|].
  cbn [fst snd] in *. apply rbind_Ok in E2 as (y & Ey & [= <- <-]). exists (a ++ concat (map fst y), b ++ concat (map snd y)). cbn [rmap].
  rewrite E1, Ey. split; [done|]. split; cbn [fst snd].
  - rewrite !app_length. lia.
  - rewrite zip_app by done. cbn [map concat]. by rewrite Z1, Z2.
Qed.
Lemma tile_vs_depth e t scale : good e t -> headed t -> t_backscatter t = false ->
  exists dz, (let* l := rmap (vs_depth_at scale) (t_cells t) in Ok (join_pairs l)) = Ok dz /\
    pairs_are (concat (map (fun r => map (fun qz : Q * cell => (scale r qz.1, qz.2)) (dense_cells t r)) (dkeys (t_cells t)))) dz.
Proof.
  intros HG [Hn _] Hb. unfold dkeys. rewrite map_map.
  apply (join_all _ (fun rl : Z * dict string arr => map (fun qz : Q * cell => (scale rl.1 qz.1, qz.2)) (dense_cells t rl.1))).
  intros [r l] Hin. apply dget_elem_NoDup in Hin; [|done]. destruct (vs_depth_layer e t r l scale HG Hb Hin) as (dz & H1 & H2 & H3). by exists dz.
Qed.
Lemma tile_count_vs_depth e t : good e t -> headed t -> t_backscatter t = false ->
  exists dz, t_density_count_vs_depth t = Ok dz /\ pairs_are (dense_cells_of t) dz.
Proof.
  intros HG HH Hb. destruct (tile_vs_depth e t (fun _ q => q) HG HH Hb) as (dz & H1 & H2). exists dz. split; [done|].
  unfold dense_cells_of. erewrite map_ext; [exact H2|]. intros r. cbn. symmetry. erewrite map_ext; [apply map_id|]. by intros [? ?].
Qed.
Lemma tile_sqm_vs_depth e t : good e t -> headed t -> t_backscatter t = false ->
  exists dz, t_density_sqm_vs_depth e t = Ok dz /\ pairs_are (dense_cells_sqm e t) dz.
Proof. intros HG HH Hb. apply (tile_vs_depth e t (fun r q => q / (metres e r * metres e r))%Q HG HH Hb). Qed.
Lemma grid_vs_depth {T} (f : T -> res (list Q * list cell)) (h : T -> list (Q * cell)) (g : grid T) :
  (forall t, t ∈ live_tiles g -> exists dz, f t = Ok dz /\ pairs_are (h t) dz) ->
  exists dz, g_vs_depth f g = Ok dz /\ pairs_are (concat (map h (live_tiles g))) dz.
Proof. apply join_all. Qed.

Lemma headed_no_depth e t r l : good e t -> headed t -> t_backscatter t = true -> dget (t_cells t) r = Some l -> forall scale, vs_depth_at scale (r, l) = Raise ValueError.
Proof.
  intros HG [_ HH] Hb Hl scale. destruct (density_some _ _ _ _ HG Hl) as (a & H1 & _). unfold vs_depth_at, density_layer. cbn [fst snd].
  rewrite H1. cbn [rofopt rbind]. destruct (HH r l Hl) as [_ HK]. destruct (dget l "depth") eqn:E; [|done].
  assert (Hk : "depth" ∈ dkeys l) by (apply dget_is_Some; by eexists). apply HK in Hk; [|by left]. unfold t_depth_key in Hk. by rewrite Hb in Hk.
Qed.
Lemma rmap_Raise {A B} (f : A -> res B) (l : list A) (x : exn) :
  (forall a, a ∈ l -> (exists b, f a = Ok b) \/ f a = Raise x) -> (exists a, a ∈ l /\ f a = Raise x) -> rmap f l = Raise x.
Proof.
  induction l as [|a l IH]; intros H (a' & Ha & E); [by apply not_elem_of_nil in Ha|]. cbn [rmap].
  destruct (H a) as [[b Hb]|Hb]; [left| |by rewrite Hb]. rewrite Hb. cbn [rbind].
  rewrite IH; [done| |].
  - intros y Hy. apply H. by right.
  - apply elem_of_cons in Ha as [->|Ha]; [congruence|]. by exists a'.
Qed.
Lemma tile_vs_depth_bs e t : good e t -> headed t -> t_backscatter t = true -> t_cells t <> [] ->
  t_density_count_vs_depth t = Raise ValueError /\ t_density_sqm_vs_depth e t = Raise ValueError.
Proof.
  intros HG HH Hb Hne. unfold t_density_count_vs_depth, t_density_sqm_vs_depth. pose proof HH as [Hn _].
  assert (H : forall scale, rmap (vs_depth_at scale) (t_cells t) = Raise ValueError).
  { intros scale. destruct (t_cells t) as [|[r l] rest] eqn:E; [done|]. cbn [rmap]. rewrite (headed_no_depth e t r l HG HH Hb); [done|].
    rewrite E. cbn. by rewrite decide_True. }
  by rewrite !H.
Qed.

Lemma filter_pairs {A B} (P : A -> Prop) `{!forall x, Decision (P x)} (R : A -> B -> Prop) (f : A -> option B) (l : list A) :
  (forall x, x ∈ l -> (P x /\ exists y, f x = Some y /\ R x y) \/ (~ P x /\ f x = None)) -> Forall2 R (filter P l) (omap f l).
Proof.
  induction l as [|x l IH]; intros HA; [constructor|]. cbn [omap list_omap]. assert (IH' : Forall2 R (filter P l) (omap f l)) by (apply IH; intros; apply HA; by right).
  destruct (HA x) as [(Hp & y & -> & HR)|(Hp & ->)]; [left| |].
  - rewrite filter_cons_True by done. by constructor.
  - by rewrite filter_cons_False by done.
Qed.
Lemma reflects_pairs e r x y size d t : reflects e "mean" r x y size false d t ->
  exists n, cells_cover size r n /\ pairs_of_points x y r n d (dense_cells t r).
Proof.
  intros (n & depth & density & Hr & Hc & Hd & Hn & Hm & _ & HD & _). exists n. split; [done|]. specialize (Hm eq_refl).
  unfold pairs_of_points, dense_cells. rewrite Hd, Hn. destruct HD as (D1 & D2 & D3 & D4), Hm as (Z1 & Z2 & Z3 & Z4).
  rewrite D1, D2. apply filter_pairs. intros ij [Hi Hj]%positions_in.
  destruct (D4 _ _ Hi Hj) as (v & -> & ->), (Z4 _ _ Hi Hj) as (w & -> & Hw).
  destruct (points_in_cell x y r ij.1 ij.2 d) as [|p ps] eqn:E.
  - right. split; [by intros ?|]. done.
  - left. split; [done|]. rewrite <- E in *. assert (Hq : Qle_bool (numQ (length (points_in_cell x y r ij.1 ij.2 d))) 0 = false).
    { apply not_true_iff_false. intros Hq%Qle_bool_iff. unfold numQ in Hq. change 0%Q with (inject_Z 0) in Hq. rewrite <- Zle_Qle in Hq. rewrite E in Hq. cbn [length] in Hq. lia. }
    rewrite Hq. by eexists.
Qed.

(** ** Uncertainty flags *)
Lemma live_None {T} (g : grid T) : g_tiles g = None -> live_tiles g = [].
Proof. intros H. unfold live_tiles. by rewrite H. Qed.
Lemma at_live {T} (g : grid T) k t : tile_at g k = Some t -> t ∈ live_tiles g.
Proof.
  unfold live_tiles, tile_at. destruct (g_tiles g) as [a|]; [|done]. intros H. destruct (nflat a !! k) as [o|] eqn:E; [|done]. cbn in H. subst o.
  apply elem_of_list_omap. exists (Some t). split; [by eapply elem_of_list_lookup_2|done].
Qed.
Lemma root_tiles {T} (m0 : gmeta) (rep : T -> Z -> Z -> content -> Prop) g ct seen ok :
  0 < m_tile_size m0 -> root_inv m0 rep g ct seen ok -> (ct = [] /\ g_tiles g = None) \/ (ct <> [] /\ g_tiles g <> None /\ live_tiles g <> []).
Proof.
  intros Hs HI. destruct (decide (ct = [])) as [->|Hne].
  - left. split; [done|]. destruct HI as [_ [(H & _)|(? & _)]]; done.
  - right. destruct (root_frame m0 rep g ct seen ok Hs HI Hne) as (lx & ly & nx & ny & HF). destruct (fr_live _ _ _ _ _ _ _ HF) as (k & t & Ht).
    split; [done|]. split; [unfold tile_at in Ht; by destruct (g_tiles g)|]. apply at_live in Ht. intros E. rewrite E in Ht. by apply not_elem_of_nil in Ht.
Qed.

Lemma child_live s b sub0 X Y W (sg : sr_grid) ct : 0 < s -> m_tile_size sub0 = s -> child_inv sub0 (sr_rep s b) X Y W sg ct -> ct <> [] ->
  exists t, last (live_tiles sg) = Some t /\ t_data t <> None.
Proof.
  intros Hs Hm HC Hne. pose proof HC as [HB [(_ & ? & _)|(_ & a & HP & _)]]; [done|].
  destruct HP as [P1 P2 P3 P4 P5 P6 P7 P8].
  assert (exists k t, tile_at sg k = Some t) as (k & t & Ht).
  { edestruct (slots_live sub0 (sr_rep s b)) as (k & t & Hk); [|exact P7|exact P8| |]; [by rewrite Hm| |exists k, t; unfold tile_at; by rewrite P4, Hk].
    rewrite all_points_nil_iff by apply HB. done. }
  apply at_live in Ht. destruct (last (live_tiles sg)) as [u|] eqn:El; [|apply last_None in El; rewrite El in Ht; by apply not_elem_of_nil in Ht].
  exists u. split; [done|]. apply last_Some_elem_of in El. apply live_at in El as (j & Hj).
  destruct (child_rep _ _ _ _ _ _ _ _ _ HC Hj) as (x & y & ct2 & (_ & HR & _) & Hne2). intros E. by apply (tr_none _ _ HR) in E.
Qed.
Lemma sr_flag e size b zarr disk g ct seen ok col : 0 < size -> sr_history e size b zarr disk g ct seen ok ->
  sr_has_column col e g = Some (negb (bool_decide (ct = [])) && col (e_dt e)).
Proof.
  intros Hs H. pose proof (sr_inv e size b zarr disk Hs _ _ _ _ H) as HI. unfold sr_has_column.
  destruct (root_tiles (new_sr_meta 0 0 size b zarr) _ g ct seen ok Hs HI) as [[-> ->]|(Hne & Ht & Hl)]; [done|].
  rewrite bool_decide_eq_false_2 by done. destruct (g_tiles g); [|done]. destruct (live_tiles g) as [|t l] eqn:E; [done|]. cbn [head option_map negb andb].
  assert (Hin : t ∈ live_tiles g) by (rewrite E; left). apply live_at in Hin as (k & Hk).
  destruct (root_rep _ _ _ _ _ _ _ _ HI Hk) as (x & y & ct' & (_ & HR & _) & Hne'). unfold t_has_column.
  destruct (t_data t) eqn:Ed; [done|]. by apply (tr_none _ _ HR) in Ed.
Qed.
Lemma vr_flag e size sub b zarr disk g ct seen ok col : 0 < size -> 0 < sub -> vr_history e size sub b zarr disk g ct seen ok ->
  vr_has_column col e g = Ok (Some (negb (bool_decide (ct = [])) && col (e_dt e))).
Proof.
  intros Hs Hsub H. pose proof (vr_inv e size sub b zarr disk Hs Hsub _ _ _ _ H) as HI. unfold vr_has_column.
  destruct (root_tiles (new_vr_meta 0 0 size sub b zarr) _ g ct seen ok Hs HI) as [[-> ->]|(Hne & Ht & Hl)]; [done|].
  rewrite bool_decide_eq_false_2 by done. destruct (g_tiles g); [|done]. destruct (live_tiles g) as [|sg l] eqn:E; [done|]. cbn [negb andb].
  assert (Hin : sg ∈ live_tiles g) by (rewrite E; left). apply live_at in Hin as (k & Hk).
  destruct (root_rep _ _ _ _ _ _ _ _ HI Hk) as (x & y & ct' & HC & Hne').
  edestruct (child_live sub false) as (t & -> & Hd); [exact Hsub| |exact HC|exact Hne'|]; [done|]. unfold t_has_column. by destruct (t_data t).
Qed.

(** ** The tile generator *)
Section tiles.
  Context {T : Type} (O : tile_ops T) (e : env) (g : grid T) (r : Z) (l : string) (nodata : cell) (up : bool) (nx ny n : nat) (HB : boxed g r nx ny n).
  Notation up' := (eff_up (g_meta g) up).
  Definition entry (k : nat) : option tile_read :=
    match tile_at g k with
    | Some t => match read_layers O e t [l] r nodata up' with
                | Ok td => Some (TileRead td.2 (op_geo O t r) (k / nx * n) (k mod nx * n) n)
                | Raise _ => None
                end
    | None => None
    end.
  Lemma tiles_step_entry m s s' acc : reached O e g r [l] nodata up nx ny n m s -> (m < ny * nx)%nat ->
    layer_step O e r [l] nodata up (Ok s) m = Ok s' ->
    tiles_step O e r [l] nodata up (Ok (s.1.1, acc)) m = Ok (s'.1.1, acc ++ match entry m with Some d => [d] | None => [] end).
  Proof using HB.
    intros HR Hm. pose proof (rc_tiles _ _ _ _ _ _ _ _ _ _ _ _ HR m) as Ht. rewrite bool_decide_eq_false_2 in Ht by lia.
    pose proof (rc_cols _ _ _ _ _ _ _ _ _ _ _ _ HR) as Hc. pose proof (rc_meta _ _ _ _ _ _ _ _ _ _ _ _ HR) as Hmeta.
    destruct s as [[h data] f]. cbn [fst snd] in *. unfold layer_step, tiles_step, entry. cbn [rbind fst snd]. rewrite Ht.
    destruct (tile_at g m) as [t|] eqn:Et; [|intros [= <-]; by rewrite app_nil_r].
    intros (gt & Hg & H)%rbind_Ok. apply rbind_Ok in H as (d' & _ & [= <-]). rewrite Hg. cbn [rbind fst snd]. do 3 f_equal.
    unfold get_tile_data in Hg. rewrite Hc, Hmeta, (exact_cells g r nx ny n HB), Ht in Hg. cbn [rofopt rbind] in Hg.
    apply rbind_Ok in Hg as (td & -> & [= <-]). done.
  Qed.
  Lemma tiles_loop m : (m <= ny * nx)%nat -> forall s0 s, reached O e g r [l] nodata up nx ny n 0 s0 ->
    foldl (layer_step O e r [l] nodata up) (Ok s0) (seq 0 m) = Ok s ->
    foldl (tiles_step O e r [l] nodata up) (Ok (s0.1.1, [])) (seq 0 m) = Ok (s.1.1, omap entry (seq 0 m)).
  Proof using HB.
    intros Hm s0 s H0. revert s. induction m as [|m IH]; intros s; [by intros [= <-]|].
    rewrite seq_S, !foldl_app. cbn [foldl Nat.add]. destruct (foldl _ _ (seq 0 m)) as [s1|x] eqn:E; [|done].
    intros Hs. rewrite (IH ltac:(lia) s1 eq_refl).
    rewrite (tiles_step_entry m s1 s); [|exact (proj2 (layers_reached O e g r [l] nodata up nx ny n HB m ltac:(lia) s0 H0) s1 E)|lia|done].
    do 2 f_equal. by rewrite omap_app.
  Qed.
  Lemma tiles_run g' o : g_get_layers_by_name O e g [l] (Some r) nodata up = Ok (g', o) ->
    g_get_tiles_by_resolution O e g (Some r) [l] nodata up = Ok (g', omap entry (seq 0 (ny * nx))) /\
    (forall k, (k < ny * nx)%nat -> shaped O e g r [l] nodata up n k) /\
    o = if any O e g r [l] nodata up (ny * nx) then Some [assembled O e g r [l] nodata up nx ny n (ny * nx) 0] else None.
  Proof using HB.
    intros H. assert (Hng : g_no_grid O g = Ok false) by (by eapply query_grid).
    destruct (layers_query O e g r [l] nodata up nx ny n HB Hng) as [Q1 Q2]. cbv zeta in Q1, Q2.
    destruct (Q2 _ H) as (s & Hs & [= -> ->]). split; [|split; [|done]].
    2:{ intros k Hk. apply Q1; [by eexists|done]. }
    unfold g_get_tiles_by_resolution. cbn [pick_rez rbind]. rewrite Hng. cbn [rbind].
    unfold g_get_layers_by_name in H. rewrite Hng in H. cbn [rbind pick_rez] in H. rewrite (build_all O e g r [l] nodata up nx ny n HB) in H. cbn [rbind] in H.
    pose proof HB as [(a & Ha & Hr & Hc & Hl) Hx Hy Hn _ _ _ _].
    assert (Hsz : tiles_size g = (ny * nx)%nat) by (unfold tiles_size; by rewrite Ha). rewrite Hsz in *.
    apply rbind_Ok in H as (s1 & H1 & [= E1 E2]).
    pose proof (tiles_loop (ny * nx) (Nat.le_refl _) (g, map (assembled O e g r [l] nodata up nx ny n 0) (seq 0 (length [l])), false) s1) as HT.
    cbn [fst snd] in HT. rewrite HT; [by rewrite E1| |].
    - split; cbn [fst snd]; try done; rewrite ?Ha; cbn; congruence.
    - exact H1.
  Qed.
  Lemma read_one t td : read_layers O e t [l] r nodata up' = Ok td -> td.2 = [] \/ exists b, td.2 = [(l, b)].
  Proof.
    unfold read_layers. cbn [foldl rbind fst snd]. intros (ro & _ & [= <-])%rbind_Ok. cbn [snd]. destruct ro.2 as [b|]; [right; by exists b|by left].
  Qed.
  Lemma tiles_laid g' o : g_get_layers_by_name O e g [l] (Some r) nodata up = Ok (g', o) ->
    laid_out l n (layer_nodata l nodata) (omap entry (seq 0 (ny * nx))) o.
  Proof using HB.
    intros H. destruct (tiles_run g' o H) as (_ & Hsh & Ho).
    pose proof HB as [(a & Ha & Hr & Hc & Hl) Hx Hy Hn _ _ _ _].
    assert (Hin : forall d, d ∈ omap entry (seq 0 (ny * nx)) <-> exists k, (k < ny * nx)%nat /\ entry k = Some d).
    { intros d. rewrite elem_of_list_omap. split; intros (k & H1 & H2); exists k; [apply elem_of_seq in H1; split; [lia|done]|split; [apply elem_of_seq; lia|done]]. }
    assert (Hent : forall k d, entry k = Some d -> tr_cells d = n /\ tr_col d = (k / nx * n)%nat /\ tr_row d = (k mod nx * n)%nat /\
       found O e g r [l] nodata up k = map snd (GridQuery.tr_data d) /\ (GridQuery.tr_data d = [] \/ exists b, GridQuery.tr_data d = [(l, b)])).
    { intros k d. unfold entry, found, tile_found. destruct (tile_at g k) as [t|]; [|done]. destruct (read_layers _ _ _ _ _ _ _) as [td|] eqn:E; [|done].
      intros [= <-]. cbn. repeat split; try done. by eapply read_one. }
    assert (Hfound : forall k, (k < ny * nx)%nat -> entry k = None -> found O e g r [l] nodata up k = []).
    { intros k Hk. unfold entry, found, tile_found. destruct (tile_at g k) as [t|]; [|done]. destruct (read_layers _ _ _ _ _ _ _) as [td|] eqn:E; done. }
    split; [|split; [|split]].
    - apply Forall_forall. intros d (k & _ & Hd)%Hin. by apply (Hent k).
    - assert (HN : forall m, (m <= ny * nx)%nat -> NoDup (map (fun d => (tr_col d, tr_row d)) (omap entry (seq 0 m)))).
      { induction m as [|m IH]; intros Hm; [apply NoDup_nil_2|]. rewrite seq_S, omap_app, map_app. cbn [omap list_omap Nat.add]. destruct (entry m) as [d|] eqn:Em; cbn [map]; [|rewrite app_nil_r; apply IH; lia].
        apply NoDup_app. split; [apply IH; lia|]. split; [|apply NoDup_singleton]. intros q Hq Hq2%elem_of_list_singleton.
        apply elem_of_list_fmap in Hq as (d2 & -> & Hd2). apply elem_of_list_omap in Hd2 as (k & Hk & Ek). apply elem_of_seq in Hk.
        destruct (Hent _ _ Em) as (_ & A1 & A2 & _), (Hent _ _ Ek) as (_ & B1 & B2 & _). injection Hq2 as C1 C2.
        rewrite A1, B1 in C1. rewrite A2, B2 in C2. apply Nat.mul_cancel_r in C1, C2; [|lia|lia].
        pose proof (Nat.div_mod_eq k nx). pose proof (Nat.div_mod_eq m nx). rewrite C1, C2 in *. lia. }
      by apply HN.
    - rewrite Ho. destruct (any _ _ _ _ _ _ _ _) eqn:Ea.
      + split; [done|]. intros Hall. exfalso. unfold any in Ea. apply existsb_exists in Ea as (k & Hk%in_seq & Hf). apply negb_true_iff, bool_decide_eq_false in Hf.
        destruct (entry k) as [d|] eqn:Ek; [|apply Hf; by rewrite Hfound by (done || lia)]. destruct (Hent _ _ Ek) as (_ & _ & _ & E & _).
        apply Hf. rewrite E, Hall; [done|]. apply Hin. exists k. split; [lia|done].
      + split; [|done]. intros _ d (k & Hk & Ek)%Hin. destruct (Hent _ _ Ek) as (_ & _ & _ & E & [E2|[b E2]]); [done|].
        assert (HF : any O e g r [l] nodata up (ny * nx) = true); [|congruence]. apply existsb_exists. exists k. split; [apply in_seq; lia|]. rewrite E, E2. done.
    - intros arrs Harr. rewrite Ho in Harr. destruct (any _ _ _ _ _ _ _ _); [|done]. injection Harr as <-. eexists. split; [done|].
      intros R C v Hv. pose proof (nd_get_Some_lt _ _ _ _ Hv) as [HR HC]. cbn [assembled nd_init nrows ncols] in HR, HC.
      unfold assembled in Hv. rewrite nd_get_init in Hv by done. injection Hv as <-. cbv zeta. set (k := (R / n * nx + C / n)%nat).
      assert (HCn : (C / n < nx)%nat) by (apply Nat.div_lt_upper_bound; lia). assert (HRn : (R / n < ny)%nat) by (apply Nat.div_lt_upper_bound; lia).
      assert (Hk : (k < ny * nx)%nat) by (unfold k; nia). rewrite bool_decide_eq_true_2 by done.
      assert (K1 : (k / nx)%nat = (R / n)%nat) by (unfold k; by rewrite flat_div). assert (K2 : (k mod nx)%nat = (C / n)%nat) by (unfold k; by rewrite flat_mod).
      pose proof (Nat.div_mod_eq R n) as DR. pose proof (Nat.div_mod_eq C n) as DC. pose proof (Nat.mod_upper_bound R n ltac:(lia)). pose proof (Nat.mod_upper_bound C n ltac:(lia)).
      assert (Hcov : forall k' d', (k' < ny * nx)%nat -> entry k' = Some d' -> covers n d' R C -> k' = k).
      { intros k' d' Hk' Ek' [C1 C2]. destruct (Hent _ _ Ek') as (_ & B1 & B2 & _). rewrite B1 in C1. rewrite B2 in C2.
        symmetry. apply (tile_flat g r nx ny n HB k' Hk' R C HR HC). lia. }
      destruct (entry k) as [d|] eqn:Ek.
      + destruct (Hent _ _ Ek) as (_ & B1 & B2 & E & [E2|[b E2]]); rewrite E, E2.
        * right. split; [|done]. intros d' (k' & Hk' & Ek')%Hin Hc'. pose proof (Hcov _ _ Hk' Ek' Hc') as ->. rewrite Ek in Ek'. by injection Ek' as <-.
        * left. exists d, b. rewrite E2, B1, B2, K1, K2. split; [apply Hin; by exists k|]. split; [unfold covers; rewrite B1, B2, K1, K2; nia|].
          split; [cbn; by rewrite decide_True|]. cbn [map lookup list_lookup].
          replace (R - R / n * n)%nat with (R mod n)%nat by lia. replace (C - C / n * n)%nat with (C mod n)%nat by lia.
          assert (HS : nrows b = n /\ ncols b = n); [|by destruct HS]. apply (Hsh k Hk). rewrite E, E2. by left.
      + right. rewrite (Hfound k Hk Ek). cbn. split; [|done]. intros d' (k' & Hk' & Ek')%Hin Hc'. pose proof (Hcov _ _ Hk' Ek' Hc') as ->. congruence.
  Qed.
End tiles.

Lemma live_seq {T} (g : grid T) : live_tiles g = omap (fun k => tile_at g k) (seq 0 (tiles_size g)).
Proof.
  unfold live_tiles, tile_at, tiles_size. destruct (g_tiles g) as [a|]; [|done].
  generalize (nflat a). intros l. induction l as [|x l IH]; [done|]. cbn [length seq]. rewrite <- seq_shift. change (map S ?z) with (S <$> z).
  cbn [omap list_omap]. change (mjoin ((x :: l) !! 0%nat)) with x. cbn [fmap]. change (list_fmap _ _ S ?z) with (map S z). rewrite omap_map.
  change (fun k => mjoin ((x :: l) !! S k)) with (fun k => mjoin (l !! k)). rewrite <- IH. by destruct x.
Qed.
Lemma geo_of {T} (O : tile_ops T) e (g : grid T) r l nodata up size ct lx ly nx ny n :
  0 < r -> size = Z.of_nat n * r -> frame g size ct lx ly nx ny ->
  (forall k t, tile_at g k = Some t -> forall q, op_geo O t r = Some q -> q = (lx + Z.of_nat (k mod nx) * size, r, ly + Z.of_nat (k / nx + 1) * size)) ->
  Forall (at_its_place (Ext lx ly (lx + Z.of_nat nx * size) (ly + Z.of_nat ny * size)) r n) (omap (entry O e g r l nodata up nx n) (seq 0 (ny * nx))).
Proof.
  intros Hr Hs HF HO. apply Forall_forall. intros d (k & _ & Hd)%elem_of_list_omap q Hq. unfold entry in Hd.
  destruct (tile_at g k) as [t|] eqn:Et; [|done]. destruct (read_layers _ _ _ _ _ _ _); [|done]. injection Hd as <-. cbn [tr_geo tr_row tr_col x0 y0] in *.
  rewrite (HO k t Et q Hq). rewrite Hs. f_equal; [f_equal|]; lia.
Qed.
Lemma entry_length {T} (O : tile_ops T) e (g : grid T) r l nodata up nx ny n g' o : boxed g r nx ny n ->
  g_get_layers_by_name O e g [l] (Some r) nodata up = Ok (g', o) ->
  length (omap (entry O e g r l nodata up nx n) (seq 0 (ny * nx))) = length (live_tiles g).
Proof.
  intros HB H. assert (Hng : g_no_grid O g = Ok false) by (by eapply query_grid).
  destruct (layers_query O e g r [l] nodata up nx ny n HB Hng) as [Q1 _]. cbv zeta in Q1.
  assert (Hrd : forall k, (k < ny * nx)%nat -> reads O e g r [l] nodata up k) by (intros k Hk; apply Q1; [by eexists|done]).
  rewrite live_seq. pose proof HB as [(a & Ha & _ & _ & Hl) _ _ _ _ _ _ _]. unfold tiles_size. rewrite Ha, Hl.
  assert (HN : forall m, (m <= ny * nx)%nat -> length (omap (entry O e g r l nodata up nx n) (seq 0 m)) = length (omap (fun k => tile_at g k) (seq 0 m))).
  { induction m as [|m IH]; intros Hm; [done|]. rewrite seq_S, !omap_app, !app_length, IH by lia. f_equal. cbn. specialize (Hrd m ltac:(lia)). unfold entry, reads in *.
    destruct (tile_at g m); [|done]. destruct Hrd as [td ->]. done. }
  by apply HN.
Qed.

(** ** Tile outlines *)
Lemma last_snoc_map {A B} (f : A -> list B) (l : list A) x : concat (map f (l ++ [x])) = concat (map f l) ++ f x.
Proof. rewrite map_app, concat_app. cbn. by rewrite app_nil_r. Qed.
Lemma uniform_S lo s n : uniform lo s (S n) = uniform lo s n ++ [lo + Z.of_nat n * s].
Proof. unfold uniform. rewrite seq_S, map_app. done. Qed.
Lemma axes_app l1 l2 : along_axes l1 -> along_axes l2 ->
  (forall p q, last l1 = Some p -> head l2 = Some q -> p.1 = q.1 \/ p.2 = q.2) -> along_axes (l1 ++ l2).
Proof.
  intros H1 H2 H i p q Hp Hq. destruct (decide (S i < length l1)%nat).
  - rewrite lookup_app_l in Hp by lia. rewrite lookup_app_l in Hq by lia. by eapply H1.
  - destruct (decide (i < length l1)%nat).
    + apply H; [rewrite last_lookup; rewrite lookup_app_l in Hp by lia; by replace (pred (length l1)) with i by lia|].
      rewrite lookup_app_r in Hq by lia. replace (S i - length l1)%nat with 0%nat in Hq by lia. by destruct l2.
    + rewrite lookup_app_r in Hp by lia. rewrite lookup_app_r in Hq by lia. replace (S i - length l1)%nat with (S (i - length l1)) in Hq by lia. by eapply H2.
Qed.
Lemma last_app_Some {A} (l k : list A) z : last k = Some z -> last (l ++ k) = Some z.
Proof. intros (k' & ->)%last_Some. by rewrite app_assoc, last_snoc. Qed.
Lemma axes_outline s x y : along_axes (outline s x y).
Proof.
  intros i p q. unfold outline. do 5 (destruct i as [|i]; [cbn; intros [= <-]; try (intros [= <-]); cbn; auto; done|]). done.
Qed.
Lemma outlines_row s x y n : let l := concat (map (fun x => outline s x y) (uniform x s (S n))) in
  along_axes l /\ head l = Some (x, y) /\ last l = Some (x + Z.of_nat n * s, y).
Proof.
  cbv zeta. induction n as [|n (IH1 & IH2 & IH3)].
  - cbn. rewrite Z.add_0_r. split; [apply axes_outline|done].
  - rewrite uniform_S, last_snoc_map. split; [|split].
    + apply axes_app; [done|apply axes_outline|]. intros p q Hp Hq. rewrite IH3 in Hp. injection Hp as <-. cbn in Hq. injection Hq as <-. by right.
    + destruct (concat _); [done|exact IH2].
    + by apply last_app_Some.
Qed.
Lemma row_line s x y n : let l := outline_row s (uniform x s (S n)) y in
  along_axes l /\ head l = Some (x, y) /\ last l = Some (x + Z.of_nat n * s, y + s).
Proof.
  cbv zeta. unfold outline_row. destruct (outlines_row s x y n) as (H1 & H2 & H3).
  assert (El : last (uniform x s (S n)) = Some (x + Z.of_nat n * s)) by (rewrite uniform_S; by rewrite last_snoc). rewrite El. split; [|split].
  - apply axes_app; [done| |].
    + intros i p q Hp Hq. destruct i; [done|]. done.
    + intros p q Hp Hq. rewrite H3 in Hp. injection Hp as <-. injection Hq as <-. by left.
  - destruct (concat _); [done|exact H2].
  - by rewrite last_snoc.
Qed.
Lemma rows_line s x y nx ny : let l := concat (map (outline_row s (uniform x s (S nx))) (uniform y s (S ny))) in
  along_axes l /\ head l = Some (x, y) /\ last l = Some (x + Z.of_nat nx * s, y + Z.of_nat (S ny) * s).
Proof.
  cbv zeta. induction ny as [|ny (IH1 & IH2 & IH3)].
  - assert (E : uniform y s 1 = [y]) by (unfold uniform; cbn; f_equal; lia). rewrite E. cbn [map concat]. rewrite app_nil_r. destruct (row_line s x y nx) as (H1 & H2 & H3). split; [done|]. split; [done|]. rewrite H3. do 2 f_equal. lia.
  - rewrite (uniform_S y s (S ny)), last_snoc_map. destruct (row_line s x (y + Z.of_nat (S ny) * s) nx) as (H1 & H2 & H3). split; [|split].
    + apply axes_app; [done|done|]. intros p q Hp Hq. rewrite IH3 in Hp. injection Hp as <-. rewrite H2 in Hq. injection Hq as <-. by right.
    + destruct (concat _); [done|exact IH2].
    + rewrite (last_app_Some _ _ _ H3). do 2 f_equal. lia.
Qed.
Lemma take_all_but_last {A} (l : list A) x : last l = Some x -> take (length l - 1) l ++ [x] = l.
Proof.
  intros H. apply last_Some in H as (l' & ->). rewrite app_length. cbn. rewrite Nat.add_sub. by rewrite take_app.
Qed.

Lemma elem_row s xs y p : p ∈ outline_row s xs y -> exists x, x ∈ xs /\ (p.1 = x \/ p.1 = x + s) /\ (p.2 = y \/ p.2 = y + s).
Proof.
  unfold outline_row. intros [H|H]%elem_of_app.
  - apply elem_of_list_In, in_concat in H as (l & (x & <- & Hx)%in_map_iff & Hp). exists x. split; [by apply elem_of_list_In|].
    cbn in Hp. intuition (subst; cbn; auto).
  - destruct (last xs) as [x|] eqn:E; [|by apply not_elem_of_nil in H]. apply elem_of_list_singleton in H as ->. exists x. split; [by apply last_Some_elem_of|]. cbn. auto.
Qed.
Lemma elem_uniform lo s n v : v ∈ uniform lo s n <-> exists i, (i < n)%nat /\ v = lo + Z.of_nat i * s.
Proof.
  unfold uniform. rewrite elem_of_list_fmap. split; intros (i & H1 & H2); exists i.
  - apply elem_of_seq in H2. split; [lia|done].
  - split; [done|]. apply elem_of_seq. lia.
Qed.
Lemma draws_at {A} (f : A -> list (Z * Z)) (l : list A) x p : x ∈ l -> draws p (f x) -> draws p (concat (map f l)).
Proof.
  intros (l1 & l2 & ->)%elem_of_list_split (a & b & E). exists (concat (map f l1) ++ a), (b ++ concat (map f l2)).
  rewrite map_app, concat_app. cbn. rewrite E, <- !app_assoc. done.
Qed.
Lemma draws_app p l k : draws p l -> draws p (l ++ k).
Proof. intros (a & b & ->). exists a, (b ++ k). by rewrite <- !app_assoc. Qed.

Lemma frame_edges {T} (m0 : gmeta) (rep : T -> Z -> Z -> content -> Prop) g ct seen ok :
  root_inv m0 rep g ct seen ok -> ct <> [] -> exists lx ly nx ny, (0 < nx)%nat /\ (0 < ny)%nat /\ m_tile_size (g_meta g) = m_tile_size m0 /\
    g_geom g = Some (std_geom lx ly (m_tile_size m0) nx ny) /\
    m_ext (g_meta g) = Some (Ext lx ly (lx + Z.of_nat nx * m_tile_size m0) (ly + Z.of_nat ny * m_tile_size m0)) /\
    forall k x y, origin_at g k = Some (x, y) -> exists i j, (i < nx)%nat /\ (j < ny)%nat /\ x = lx + Z.of_nat i * m_tile_size m0 /\ y = ly + Z.of_nat j * m_tile_size m0.
Proof.
  intros [HB [(_ & ? & _)|(_ & lx & ly & nx & ny & a & HP & HF & _)]] Hne; [done|].
  destruct HP as [P1 P2 P3 P4 P5 P6 P7 P8]. destruct HF as (F1 & F2 & F3 & F4 & F5).
  exists lx, ly, nx, ny. split; [done|]. split; [done|]. split; [by apply (mf_size _ _ (rb_meta _ _ _ HB))|]. split; [done|]. split; [done|].
  intros k x y Ho. assert (Hk : (k < ny * nx)%nat).
  { unfold origin_at in Ho. rewrite P3 in Ho. destruct (nflat (gx _) !! k) eqn:E; [|done]. apply lookup_lt_Some in E. revert E. cbn [std_geom gx].
    rewrite (meshgrid_x_wf (uniform lx _ nx) (uniform ly _ ny)). cbn [meshgrid_x nrows ncols]. rewrite !uniform_length. done. }
  rewrite (std_origin m0 lx ly nx ny k g P3 Hk) in Ho. injection Ho as <- <-. destruct (flat_div_lt _ _ _ Hk) as [H1 H2]. by exists (k mod nx)%nat, (k / nx)%nat.
Qed.
Lemma boundaries_spec {T} (g : grid T) s lx ly nx ny : (0 < nx)%nat -> (0 < ny)%nat -> 0 < s -> m_tile_size (g_meta g) = s ->
  g_geom g = Some (std_geom lx ly s nx ny) -> m_ext (g_meta g) = Some (Ext lx ly (lx + Z.of_nat nx * s) (ly + Z.of_nat ny * s)) ->
  exists pts, g_tile_boundaries g = Ok pts /\ along_axes pts /\
    (forall i j, (i < nx)%nat -> (j < ny)%nat -> draws (square_line s (lx + Z.of_nat i * s) (ly + Z.of_nat j * s)) pts) /\
    Forall (fun p => lx <= p.1 <= lx + Z.of_nat (S nx) * s /\ ly <= p.2 <= ly + Z.of_nat (S ny) * s) pts.
Proof.
  intros Hx Hy Hs Hm Hg He. unfold g_tile_boundaries. rewrite Hg, He, Hm. cbn [rofopt rbind std_geom gex gey].
  destruct (rows_line s lx ly nx ny) as (H1 & H2 & H3). cbv zeta in H1, H2, H3. set (l := concat _) in *. rewrite H3. eexists. split; [done|]. cbn [fst y1].
  (* the last row, before the line to its corner *)
  destruct (last_Some l (lx + Z.of_nat nx * s, ly + Z.of_nat (S ny) * s)) as [HL _]. destruct (HL H3) as (l' & El). clear HL.
  assert (Et : take (length l - 1) l = l') by (rewrite El, app_length; cbn; rewrite Nat.add_sub; apply take_app).
  assert (El' : exists l2, l' = concat (map (outline_row s (uniform lx s (S nx))) (uniform ly s ny)) ++ l2 /\ last l2 = Some (lx + Z.of_nat nx * s, ly + Z.of_nat ny * s)).
  { exists (concat (map (fun x => outline s x (ly + Z.of_nat ny * s)) (uniform lx s (S nx)))). split; [|apply outlines_row].
    unfold l in El. rewrite (uniform_S ly s ny), last_snoc_map in El. unfold outline_row at 2 in El.
    assert (E : last (uniform lx s (S nx)) = Some (lx + Z.of_nat nx * s)) by (rewrite uniform_S; by rewrite last_snoc). rewrite E, app_assoc in El.
    apply app_inj_tail in El as [<- _]. done. }
  destruct El' as (l2 & El2 & Hl2). rewrite Et. split; [|split].
  - apply axes_app.
    + intros i p q Hp Hq. apply (H1 i); rewrite El; by apply lookup_app_l_Some.
    + intros i p q Hp Hq. destruct i; done.
    + intros p q Hp Hq. rewrite El2, (last_app_Some _ _ _ Hl2) in Hp. injection Hp as <-. injection Hq as <-. by left.
  - intros i j Hi Hj. apply draws_app. rewrite El2. apply draws_app. eapply (draws_at _ _ (ly + Z.of_nat j * s)); [apply elem_uniform; by exists j|].
    unfold outline_row. apply draws_app. eapply (draws_at _ _ (lx + Z.of_nat i * s)); [apply elem_uniform; exists i; split; [lia|done]|]. exists [], []. by rewrite app_nil_r.
  - assert (HA : Forall (fun p => lx <= p.1 <= lx + Z.of_nat (S nx) * s /\ ly <= p.2 <= ly + Z.of_nat (S ny) * s) l).
    { apply Forall_forall. intros p Hp. unfold l in Hp. apply elem_of_list_In, in_concat in Hp as (row & (y & <- & Hy2)%in_map_iff & Hp).
      apply elem_of_list_In in Hp, Hy2. apply elem_row in Hp as (x & Hx2 & Q1 & Q2). apply elem_uniform in Hx2 as (i & Hi & ->). apply elem_uniform in Hy2 as (j & Hj & ->).
      assert (0 <= Z.of_nat i * s <= Z.of_nat nx * s) by nia. assert (0 <= Z.of_nat j * s <= Z.of_nat ny * s) by nia. nia. }
    apply Forall_app. rewrite El in HA. apply Forall_app in HA as [HA _]. split; [done|]. constructor; [|constructor]. cbn. nia.
Qed.

(** ** Square nautical miles *)
Lemma nm_sum {A} (f h : A -> res Q) (c : Q) (l : list A) : (forall x a, f x = Ok a -> exists q, h x = Ok q /\ (q * c == a)%Q) ->
  forall a, (let* y := rmap f l in Ok (qsum y)) = Ok a -> exists q, (let* y := rmap h l in Ok (qsum y)) = Ok q /\ (q * c == a)%Q.
Proof.
  intros H. induction l as [|x l IH]; intros a; cbn [rmap].
  - intros [= <-]. exists 0%Q. split; [done|]. cbn. ring.
  - intros (y & Hy & [= <-])%rbind_Ok. apply rbind_Ok in Hy as (b & Hb & Hy). apply rbind_Ok in Hy as (bs & Hbs & [= <-]).
    destruct (H x b Hb) as (q1 & -> & E1). destruct (IH (qsum bs)) as (q2 & Hq & E2); [by rewrite Hbs|].
    apply rbind_Ok in Hq as (y & Hy & [= <-]). rewrite Hy. cbn [rbind]. exists (q1 + qsum y)%Q. split; [done|].
    change (qsum (b :: bs)) with (b + qsum bs)%Q. rewrite <- E1, <- E2. ring.
Qed.
Lemma nm_spec {T} (f h : T -> res Q) (g : grid T) a : (forall x a, f x = Ok a -> exists q, h x = Ok q /\ (q * (3434290012 # 1000) == a)%Q) ->
  (let* l := rmap f (live_tiles g) in Ok (qsum l)) = Ok a -> exists q, g_coverage_nm h g = Ok q /\ (q * (3434290012 # 1000) == a)%Q.
Proof. intros H Ha. by apply (nm_sum f). Qed.
Lemma nm_error q a : (q * (3434290012 # 1000) == a)%Q -> (Qabs (q - a / (1852 * 1852)) <= (13 # 10000) * Qabs (a / (1852 * 1852)))%Q.
Proof.
  intros H. set (m := (a / (1852 * 1852))%Q). assert (E : (q - m == m * (- (4386012 # 3434290012)))%Q).
  { assert (Eq : (q == a / (3434290012 # 1000))%Q) by (rewrite <- H; field). rewrite Eq. unfold m. field. }
  rewrite E, Qabs_Qmult. rewrite Qmult_comm. apply Qmult_le_compat_r; [by vm_compute|apply Qabs_nonneg].
Qed.

(** ** Forms of locations *)
Lemma number_is_array {T} (O : tile_ops T) e layer nodata a b rs : forall (g : grid T) v,
  (let* r := foldl (number_step O e layer nodata (a, b)) (Ok (g, v)) rs in Ok (r.1, Values [r.2])) =
  (let* r := foldl (query_step O e layer nodata [(a, b)]) (Ok (g, [v])) rs in Ok (r.1, Values r.2)).
Proof.
  assert (HR : forall x, foldl (number_step O e layer nodata (a, b)) (Raise x) rs = Raise x /\ foldl (query_step O e layer nodata [(a, b)]) (Raise x) rs = Raise x).
  { induction rs as [|r rs IH]; intros x; [done|]. cbn [foldl number_step query_step rbind]. apply IH. }
  induction rs as [|r rs IH]; intros g v; [done|]. cbn [foldl].
  assert (HR' : forall x, foldl (number_step O e layer nodata (a, b)) (Raise x) rs = Raise x /\ foldl (query_step O e layer nodata [(a, b)]) (Raise x) rs = Raise x).
  { intros x. destruct (HR x) as [R1 R2]. done. }
  unfold number_step at 2, query_step at 2. cbn [rbind fst snd existsb]. rewrite orb_false_r.
  destruct (is_nodata nodata v) eqn:Ev; cbn [negb]; [|apply IH; apply HR'].
  destruct (g_surf_boundaries O e g [layer] (Some r) nodata) as [[g1 [[sx sy] surfs]]|x]; cbn [rbind fst snd]; [|destruct (HR' x) as [-> ->]; done].
  destruct (head surfs) as [surf|]; cbn [rofopt rbind]; [|destruct (HR' IndexError) as [-> ->]; done].
  cbn [zip zip_with rmap fst snd]. rewrite Ev. destruct (lookup_xy sx sy surf (a, b) v) as [w|x]; cbn [rbind]; [apply IH; apply HR'|destruct (HR' x) as [-> ->]; done].
Qed.

(** ** Ranges of BAG files *)
Lemma fold_max l : forall a, foldl q_max a l ∈ a :: l /\ forall q, q ∈ a :: l -> (q <= foldl q_max a l)%Q.
Proof.
  induction l as [|b l IH]; intros a; cbn [foldl].
  - split; [left|]. intros q ->%elem_of_list_singleton. apply Qle_refl.
  - destruct (IH (q_max a b)) as [I1 I2]. unfold q_max in *. destruct (Qle_bool a b) eqn:E.
    + apply Qle_bool_iff in E. split; [by right|]. intros q [->|Hq]%elem_of_cons; [|by apply I2]. eapply Qle_trans; [exact E|apply I2; left].
    + assert (E' : (b <= a)%Q). { destruct (Qlt_le_dec a b) as [H|H]; [|done]. apply Qlt_le_weak, Qle_bool_iff in H. congruence. }
      split; [apply elem_of_cons in I1 as [->|I1]; [left|right; by right]|].
      intros q [->|[->|Hq]%elem_of_cons]%elem_of_cons; [apply I2; left| |apply I2; by right]. eapply Qle_trans; [exact E'|apply I2; left].
Qed.
Lemma fold_min l : forall a, foldl qmin a l ∈ a :: l /\ forall q, q ∈ a :: l -> (foldl qmin a l <= q)%Q.
Proof.
  induction l as [|b l IH]; intros a; cbn [foldl].
  - split; [left|]. intros q ->%elem_of_list_singleton. apply Qle_refl.
  - destruct (IH (qmin a b)) as [I1 I2]. unfold qmin in *. destruct (Qle_bool a b) eqn:E.
    + apply Qle_bool_iff in E. split; [apply elem_of_cons in I1 as [->|I1]; [left|right; by right]|].
      intros q [->|[->|Hq]%elem_of_cons]%elem_of_cons; [apply I2; left| |apply I2; by right]. eapply Qle_trans; [apply I2; left|exact E].
    + assert (E' : (b <= a)%Q). { destruct (Qlt_le_dec a b) as [H|H]; [|done]. apply Qlt_le_weak, Qle_bool_iff in H. congruence. }
      split; [by right|]. intros q [->|Hq]%elem_of_cons; [|by apply I2]. eapply Qle_trans; [apply I2; left|exact E'].
Qed.
Lemma high_low_spec l : l <> [] -> exists hl, high_low l = Ok hl /\ is_range l hl.
Proof.
  intros Hne. destruct l as [|a l]; [done|]. eexists. split; [done|]. destruct (fold_max l a) as [M1 M2], (fold_min l a) as [N1 N2].
  split; [done|]. split; [done|]. intros q Hq. split; [by apply N2|by apply M2].
Qed.

Lemma bags_spec m vert r names : forall chunks n fs f, number_bags m vert r names n chunks = Ok fs -> f ∈ fs ->
  exists geo data, (geo, data) ∈ chunks /\ rf_geo (bf_raster f) = geo /\ rf_names (bf_raster f) = names /\
    rf_bands (bf_raster f) = map (nd_transpose None) (map snd data) /\ map snd data <> [] /\ bf_vert f = vert /\
    bf_ranges f = bag_high_low (map snd data) 1000000 /\ bf_times f = bag_times m.
Proof.
  induction chunks as [|[geo data] rest IH]; intros n fs f; cbn [number_bags].
  - intros [= <-] H. by apply not_elem_of_nil in H.
  - intros (bands & Hb & H)%rbind_Ok Hf. apply rbind_Ok in H as (l & Hl & [= <-]). apply elem_of_cons in Hf as [->|Hf].
    + exists geo, data. split; [left|]. cbn. split; [done|]. split; [done|]. unfold gdal_bands in Hb. destruct (map snd data); [done|by injection Hb as <-].
    + destruct (IH _ _ _ Hl Hf) as (geo' & data' & H1 & H2). exists geo', data'. split; [by right|done].
Qed.
Lemma foldl_res_inv {A B} (f : res A -> B -> res A) (P : A -> Prop) (l : list B) :
  (forall x b, f (Raise x) b = Raise x) -> (forall a b a', P a -> f (Ok a) b = Ok a' -> P a') ->
  forall a a', P a -> foldl f (Ok a) l = Ok a' -> P a'.
Proof.
  intros HR HS. assert (HF : forall l x, foldl f (Raise x) l = Raise x) by (induction l0; intros x; cbn; rewrite ?HR; auto).
  induction l as [|b l IH]; intros a a' Ha; cbn [foldl]; [by intros [= <-]|]. destruct (f (Ok a) b) as [c|x] eqn:E; [|by rewrite HF].
  apply IH. by eapply HS.
Qed.
Lemma finalize_wf ls n a b c d ds : forall nodata data, finalize_layers ls n a b c d ds nodata true = Ok data -> forall z, z ∈ map snd data -> nd_wf z.
Proof.
  induction ls as [|l ls IH]; intros nodata data; cbn [finalize_layers].
  - intros [= <-] z Hz. by apply not_elem_of_nil in Hz.
  - intros (x & _ & H)%rbind_Ok. apply rbind_Ok in H as (rest & Hr & [= <-]). intros z [->|Hz]%elem_of_cons; [apply nd_init_wf|]. by eapply IH.
Qed.
Lemma chunks_wf {T} (O : tile_ops T) e (g : grid T) r ls nodata up mx g' out :
  g_get_chunks_of_tiles O e g r ls nodata up mx true = Ok (g', out) -> forall geo data z, (geo, data) ∈ out -> z ∈ map snd data -> nd_wf z.
Proof.
  unfold g_get_chunks_of_tiles. intros (idx & _ & H)%rbind_Ok.
  refine (foldl_res_inv _ (fun s : grid T * list (option (Z * Z * Z) * dict string arr) => forall geo data z, (geo, data) ∈ s.2 -> z ∈ map snd data -> nd_wf z) idx _ _ (g, []) _ _ H).
  - done.
  - intros s il s' Hs. unfold read_chunk. cbn [rbind]. intros (cols & _ & Hq)%rbind_Ok. apply rbind_Ok in Hq as ([[g1 geo] ds] & _ & Hq).
    destruct (forallb _ ds); [by injection Hq as <-|]. apply rbind_Ok in Hq as (n & _ & Hq). destruct (existsb _ ds); [done|].
    apply rbind_Ok in Hq as (data & Hd & [= <-]). cbn [snd]. intros geo' data' z [Hin|Hin]%elem_of_app; [by eapply Hs|].
    apply elem_of_list_singleton in Hin as [= -> ->]. unfold finalize_chunk in Hd. apply rbind_Ok in Hd as (? & _ & Hd). apply rbind_Ok in Hd as (? & _ & Hd).
    apply rbind_Ok in Hd as (? & _ & Hd). apply rbind_Ok in Hd as (? & _ & Hd). by eapply finalize_wf.
  - intros geo data z Hz. by apply not_elem_of_nil in Hz.
Qed.
Lemma elem_values (a : arr) q : nd_wf a -> q ∈ values a <-> exists R C, nd_get a R C = Some (Some q).
Proof.
  intros Hw. rewrite <- (values_order a Hw). unfold values_in_order. rewrite elem_of_list_omap. split.
  - intros ([R C] & [HR HC]%positions_in & H). cbn [fst snd] in *. exists R, C. destruct (nd_get_is_Some a R C Hw HR HC) as [v E]. rewrite E in *. cbn in H. by subst v.
  - intros (R & C & H). exists (R, C). cbn [fst snd]. rewrite H. split; [|done]. apply nd_get_Some_lt in H as [HR HC].
    apply elem_of_list_lookup. exists (R * ncols a + C)%nat. rewrite positions_lookup by (by apply flat_lt). by rewrite flat_div, flat_mod.
Qed.
Lemma values_transpose (a : arr) q : nd_wf a -> q ∈ values (nd_transpose None a) <-> q ∈ values a.
Proof.
  intros Hw. rewrite !elem_values by (done || apply nd_init_wf). split; intros (R & C & H); exists C, R.
  - pose proof (nd_get_Some_lt _ _ _ _ H) as [H1 H2]. cbn [nd_transpose nd_init nrows ncols] in H1, H2. unfold nd_transpose in H. rewrite nd_get_init in H by done.
    destruct (nd_get_is_Some a C R Hw H2 H1) as [v E]. rewrite E in *. cbn in H. congruence.
  - pose proof (nd_get_Some_lt _ _ _ _ H) as [H1 H2]. unfold nd_transpose. rewrite nd_get_init by done. by rewrite H.
Qed.
Lemma set_values_eq nodata (a : arr) :
  omap id (mask_select (map (fun c : cell => match c with Some q => negb (Qeq_bool q nodata) | None => true end) (nflat a)) (nflat a)) = set_values nodata a.
Proof.
  unfold set_values, values. induction (nflat a) as [|[q|] l IH]; [done| |exact IH]. cbn [map mask_select omap list_omap id]. destruct (Qeq_bool q nodata) eqn:E; cbn [negb mask_select].
  - rewrite filter_cons_False by congruence. exact IH.
  - rewrite filter_cons_True by congruence. cbn. by f_equal.
Qed.
Lemma is_range_same l k hl : (forall q, q ∈ l <-> q ∈ k) -> is_range l hl -> is_range k hl.
Proof. intros H (H1 & H2 & H3). split; [by apply H|]. split; [by apply H|]. intros q Hq. by apply H3, H. Qed.
Lemma bag_range {T} (O : tile_ops T) e (g : grid T) rez mx vert g' fs : export_bag O e g rez mx vert = Ok (g', fs) ->
  forall f, f ∈ fs -> bf_vert f = bag_vertical_wkt vert /\ bf_times f = bag_times (g_meta g) /\
  exists b rest, rf_bands (bf_raster f) = b :: rest /\
    (set_values 1000000 b <> [] -> exists hl r2, bf_ranges f = hl :: r2 /\ is_range (set_values 1000000 b) hl) /\
    (set_values 1000000 b = [] -> bf_ranges f = []).
Proof.
  unfold export_bag. cbv zeta. intros (ln & _ & H)%rbind_Ok.
  pose (P := fun f => bf_vert f = bag_vertical_wkt vert /\ bf_times f = bag_times (g_meta g) /\
  exists b rest, rf_bands (bf_raster f) = b :: rest /\
    (set_values 1000000 b <> [] -> exists hl r2, bf_ranges f = hl :: r2 /\ is_range (set_values 1000000 b) hl) /\
    (set_values 1000000 b = [] -> bf_ranges f = [])).
  refine (foldl_res_inv _ (fun s : grid T * list bag_file => forall f, f ∈ s.2 -> P f) _ _ _ (g, []) _ _ H).
  - done.
  - intros s r s' Hs. cbn [rbind]. intros ([g1 out] & Hc & Hq)%rbind_Ok. apply rbind_Ok in Hq as (fs' & Hf & [= <-]). cbn [fst snd] in *.
    intros f [Hin|Hin]%elem_of_app; [by apply Hs|]. destruct (bags_spec _ _ _ _ _ _ _ _ Hf Hin) as (geo & data & Hd & _ & _ & HB & HN & HV & HR & HT).
    split; [done|]. split; [done|]. pose proof (chunks_wf _ _ _ _ _ _ _ _ _ _ Hc geo data) as HW.
    destruct (map snd data) as [|a rest] eqn:Ea; [done|]. assert (Hw : nd_wf a) by (apply HW; [done|]; left).
    exists (nd_transpose None a), (map (nd_transpose None) rest). split; [done|]. rewrite HR. unfold bag_high_low. rewrite set_values_eq.
    assert (HE : forall q, q ∈ set_values 1000000 a <-> q ∈ set_values 1000000 (nd_transpose None a)).
    { intros q. unfold set_values. rewrite !elem_of_list_filter. by rewrite values_transpose. }
    assert (HZ : forall l k : list Q, (forall q, q ∈ l <-> q ∈ k) -> l = [] -> k = []).
    { intros l k Hlk ->. destruct k as [|q k]; [done|]. exfalso. assert (Hq : q ∈ q :: k) by left. apply Hlk in Hq. by apply not_elem_of_nil in Hq. }
    split.
    + intros Hne. destruct (high_low_spec (set_values 1000000 a)) as (hl & -> & Hr); [intros E; by apply Hne, (HZ _ _ HE)|]. eexists _, _. split; [done|]. by eapply is_range_same.
    + intros E. assert (E2 : set_values 1000000 a = []) by (apply (HZ _ _ (fun q => iff_sym (HE q)) E)). by rewrite E2.
  - intros f Hf. by apply not_elem_of_nil in Hf.
Qed.
