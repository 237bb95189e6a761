(** Facts about the arrays and geotransforms generated for export. *)
From Verif Require Import Py Nd Numpy Point Bin Algorithms Tile Time Meta Disk Grid GridRun GridQuery GridOps Export Spec TileExec GridExec PyFacts NdFacts NumpyFacts
  GridBaseFacts GridEvolveFacts GridRunFacts GridLayerFacts GridReadFacts GridChunkFacts.
Open Scope Z_scope.

Lemma foldl_snoc {A B} (f : A -> B -> A) a l x : foldl f a (l ++ [x]) = f (foldl f a l) x.
Proof. by rewrite foldl_app. Qed.
Lemma nat_min_snoc l x : nat_min (l ++ [x]) = Some (match nat_min l with Some m => Nat.min m x | None => x end).
Proof. destruct l as [|a l]; [done|]. cbn [nat_min app]. f_equal. by rewrite foldl_snoc. Qed.
Lemma nat_max_snoc l x : nat_max (l ++ [x]) = Some (match nat_max l with Some m => Nat.max m x | None => x end).
Proof. destruct l as [|a l]; [done|]. cbn [nat_max app]. f_equal. by rewrite foldl_snoc. Qed.
Lemma nat_min_scale {A} (f : A -> nat) n l : nat_min (map (fun x => f x * n)%nat l) = option_map (fun m => m * n)%nat (nat_min (map f l)).
Proof.
  induction l as [|x l IH] using rev_ind; [done|]. rewrite !map_app. cbn [map]. rewrite !nat_min_snoc, IH.
  destruct (nat_min (map f l)); [|done]. cbn. f_equal. apply Nat.mul_min_distr_r.
Qed.
Lemma nat_max_scale {A} (f : A -> nat) n l : nat_max (map (fun x => f x * n)%nat l) = option_map (fun m => m * n)%nat (nat_max (map f l)).
Proof.
  induction l as [|x l IH] using rev_ind; [done|]. rewrite !map_app. cbn [map]. rewrite !nat_max_snoc, IH.
  destruct (nat_max (map f l)); [|done]. cbn. f_equal. apply Nat.mul_max_distr_r.
Qed.

Section raster.
  Context {T : Type} (O : tile_ops T) (e : env) (g : grid T) (r : Z) (ls : list string) (nodata : cell) (up : bool) (nx ny n : nat) (lx ly : Z).
  Notation size := (m_tile_size (g_meta g)).
  Notation u := (eff_up (g_meta g) up).
  Context (HB : boxed g r nx ny n).
  Context (Hget : forall k t l, tile_at g k = Some t -> l ∈ ls -> exists o, op_get_layer O e t l r nodata u = Ok (t, o) /\ forall a, o = Some a -> nrows a = n /\ ncols a = n).
  Context (Hgeo : forall k t, tile_at g k = Some t -> op_geo O t r = Some (lx + Z.of_nat (k mod nx) * size, r, ly + Z.of_nat (k / nx + 1) * size)).

  Definition got (t : T) (l : string) : option arr := match op_get_layer O e t l r nodata u with Ok (_, o) => o | Raise _ => None end.
  (** The value of a cell of the whole grid. *)
  Definition pixel (l : string) (R C : nat) : cell :=
    match tile_at g (R / n * nx + C / n) with
    | Some t => match got t l with Some a => default None (nd_get a (R mod n) (C mod n)) | None => layer_nodata l nodata end
    | None => layer_nodata l nodata
    end.
  Lemma got_ok k t l : tile_at g k = Some t -> l ∈ ls -> op_get_layer O e t l r nodata u = Ok (t, got t l) /\ forall a, got t l = Some a -> nrows a = n /\ ncols a = n.
  Proof using Hget. intros Ht Hl. destruct (Hget k t l Ht Hl) as (o & Ho & Hs). unfold got. rewrite Ho. done. Qed.

  Lemma read_got k t : tile_at g k = Some t -> exists d, read_layers O e t ls r nodata u = Ok (t, d) /\
    forall l, l ∈ ls -> dget d l = got t l.
  Proof using Hget.
    intros Ht. unfold read_layers.
    assert (H : forall ls', (forall l, l ∈ ls' -> l ∈ ls) -> exists d, foldl (fun acc lyr => let* ta := acc in
             let* ro := op_get_layer O e ta.1 lyr r nodata u in
             Ok (ro.1, match ro.2 with Some a => dset ta.2 lyr a | None => ta.2 end)) (Ok (t, [])) ls' = Ok (t, d) /\
             forall l, dget d l = if decide (l ∈ ls') then got t l else None).
    { induction ls' as [|l ls' IH] using rev_ind; intros Hin.
      - exists []. split; [done|]. intros l. destruct (decide _) as [H|_]; [by apply not_elem_of_nil in H|done].
      - destruct IH as (d & E & Hd); [intros; apply Hin; apply elem_of_app; by left|]. rewrite foldl_snoc, E. cbn [rbind fst snd].
        assert (Hl : l ∈ ls) by (apply Hin, elem_of_app; right; by apply elem_of_list_singleton).
        destruct (got_ok k t l Ht Hl) as [-> _]. cbn [rbind fst snd]. eexists. split; [done|]. intros l'.
        destruct (decide (l' = l)) as [->|Hne].
        + rewrite decide_True by (apply elem_of_app; right; by apply elem_of_list_singleton).
          destruct (got t l) as [a|] eqn:Eg; [by rewrite dget_dset_eq|]. rewrite Hd. by destruct (decide _).
        + assert (Hiff : l' ∈ ls' ++ [l] <-> l' ∈ ls') by (rewrite elem_of_app, elem_of_list_singleton; tauto).
          destruct (got t l) as [a|]; [rewrite dget_dset_ne by done|]; rewrite Hd; destruct (decide (l' ∈ ls')), (decide (l' ∈ ls' ++ [l])); tauto. }
    destruct (H ls (fun _ h => h)) as (d & E & Hd). exists d. split; [done|]. intros l Hl. rewrite Hd. by rewrite decide_True.
  Qed.

  (** ** Reading the tiles of a chunk *)
  Definition reading (rc : nat * nat) : tile_read :=
    match tile_at g (rc.1 * nx + rc.2) with
    | Some t => match read_layers O e t ls r nodata u with
                | Ok td => TileRead td.2 (op_geo O t r) (rc.1 * n) (rc.2 * n) n
                | Raise _ => TileRead [] None (rc.1 * n) (rc.2 * n) n end
    | None => TileRead [] None (rc.1 * n) (rc.2 * n) n
    end.
  Definition here (rc : nat * nat) : Prop := (rc.2 < nx)%nat /\ exists t, tile_at g (rc.1 * nx + rc.2) = Some t.
  Lemma tile_data rc : here rc -> get_tile_data O e g (rc.1 * nx + rc.2) r ls nodata up = Ok (g, reading rc).
  Proof using HB Hget Hgeo.
    intros [Hc [t Ht]]. unfold get_tile_data, reading. pose proof (bx_tiles _ _ _ _ _ HB) as (a & Ta & Tr & Tc & Tl). rewrite Ta. cbn [option_map rofopt rbind]. rewrite Tc.
    rewrite (exact_cells g r nx ny n HB). cbn [rbind]. rewrite Ht. cbn [rofopt rbind]. destruct (read_got _ t Ht) as (d & -> & _). cbn [rbind fst snd].
    rewrite (set_tile_id g _ (Some t) Ht) by done. by rewrite flat_div, flat_mod.
  Qed.

  Definition geo_of (il : list (nat * nat)) : option (Z * Z * Z) :=
    match nat_min (map snd il), nat_max (map fst il) with
    | Some c, Some rr => Some (lx + Z.of_nat c * size, r, ly + Z.of_nat (rr + 1) * size)
    | _, _ => None
    end.
  Lemma read_all il : (forall rc, rc ∈ il -> here rc) ->
    foldl (fun acc rc =>
                let* a := acc in
                let '(g, geo, ds) := a in
                let* gt := get_tile_data O e g (rc.1 * nx + rc.2)%nat r ls nodata up in
                let* geo' := merge_geo geo (GridQuery.tr_geo gt.2) in
                Ok (gt.1, geo', ds ++ [gt.2])) (Ok (g, None, [])) il = Ok (g, geo_of il, map reading il).
  Proof using HB Hget Hgeo.
    induction il as [|rc il IH] using rev_ind; intros Hl; [done|]. rewrite foldl_snoc, IH by (intros; apply Hl, elem_of_app; by left). cbn [rbind].
    assert (Hrc : here rc) by (apply Hl, elem_of_app; right; by apply elem_of_list_singleton). rewrite tile_data by done. cbn [rbind fst snd].
    assert (Hg : GridQuery.tr_geo (reading rc) = Some (lx + Z.of_nat rc.2 * size, r, ly + Z.of_nat (rc.1 + 1) * size)).
    { destruct Hrc as [Hc [t Ht]]. unfold reading. rewrite Ht. destruct (read_got _ t Ht) as (d & -> & _). cbn [GridQuery.tr_geo]. rewrite (Hgeo _ _ Ht). by rewrite flat_div, flat_mod. }
    rewrite Hg. rewrite map_app. cbn [map].
    assert (Hm : merge_geo (geo_of il) (Some (lx + Z.of_nat rc.2 * size, r, ly + Z.of_nat (rc.1 + 1) * size)) = Ok (geo_of (il ++ [rc]))); [|by rewrite Hm].
    unfold geo_of. rewrite !map_app. cbn [map]. rewrite nat_min_snoc, nat_max_snoc. pose proof (bx_n _ _ _ _ _ HB). pose proof (bx_size _ _ _ _ _ HB). pose proof (bx_rez _ _ _ _ _ HB).
    assert (Hs : 0 < size) by nia. destruct il as [|p il]; [done|]. cbn [nat_min nat_max map]. unfold merge_geo. do 2 f_equal.
    set (c0 := foldl Nat.min _ _). set (r1 := foldl Nat.max _ _). f_equal; [f_equal|].
    - rewrite Nat2Z.inj_min. clear - Hs. destruct (Z.min_spec (Z.of_nat c0) (Z.of_nat rc.2)) as [[H1 ->]|[H1 ->]]; nia.
    - rewrite !Nat2Z.inj_add, Nat2Z.inj_max. clear - Hs. destruct (Z.max_spec (Z.of_nat r1) (Z.of_nat rc.1)) as [[H1 ->]|[H1 ->]]; nia.
  Qed.

  (** ** One layer of a chunk *)
  Section paste.
    Context (r0 c0 r1 c1 : nat) (l : string) (Hl : l ∈ ls).
    Notation H := (r1 * n - r0 * n + n)%nat. Notation W := (c1 * n - c0 * n + n)%nat.
    Definition pasted (il : list (nat * nat)) : arr :=
      nd_init H W (fun i j => if decide ((r0 + i / n, c0 + j / n)%nat ∈ il) then pixel l (r0 * n + i) (c0 * n + j) else layer_nodata l nodata).
    Lemma paste_all il : (forall rc, rc ∈ il -> here rc /\ (r0 <= rc.1 <= r1)%nat /\ (c0 <= rc.2 <= c1)%nat) ->
      foldl (paste l n (r0 * n) (c0 * n)) (Ok (nd_full H W (layer_nodata l nodata))) (map reading il) = Ok (pasted il).
    Proof using HB Hget Hgeo Hl.
      induction il as [|rc il IH] using rev_ind; intros Hin.
      - cbn [map foldl]. f_equal. rewrite nd_full_init. apply nd_init_ext. intros i j _ _. rewrite decide_False; [done|]. apply not_elem_of_nil.
      - rewrite map_app. cbn [map]. rewrite foldl_snoc, IH by (intros; apply Hin, elem_of_app; by left). unfold paste at 1. cbn [rbind].
        destruct (Hin rc) as ([Hc [t Ht]] & B1 & B2); [apply elem_of_app; right; by apply elem_of_list_singleton|].
        destruct (read_got _ t Ht) as (d & Ed & Hd). pose proof (bx_n _ _ _ _ _ HB) as Hn.
        assert (Hr1 : GridQuery.tr_data (reading rc) = d) by (unfold reading; by rewrite Ht, Ed).
        assert (Hr2 : tr_col (reading rc) = (rc.1 * n)%nat) by (unfold reading; by rewrite Ht, Ed).
        assert (Hr3 : tr_row (reading rc) = (rc.2 * n)%nat) by (unfold reading; by rewrite Ht, Ed).
        rewrite Hr1, Hr2, Hr3, Hd by done.
        (** the cells of the tile *)
        assert (Hk : forall i j, (i < H)%nat -> (j < W)%nat -> (r0 + i / n, c0 + j / n)%nat = rc <->
          ((rc.1 * n - r0 * n <= i < rc.1 * n - r0 * n + n)%nat /\ (rc.2 * n - c0 * n <= j < rc.2 * n - c0 * n + n)%nat)).
        { intros i j _ _. pose proof (Nat.div_mod i n ltac:(lia)). pose proof (Nat.mod_upper_bound i n ltac:(lia)).
          pose proof (Nat.div_mod j n ltac:(lia)). pose proof (Nat.mod_upper_bound j n ltac:(lia)). destruct rc as [a b]. cbn in *. split.
          - intros [= <- <-]. nia.
          - intros [I1 I2]. assert (i / n = a - r0)%nat by (symmetry; apply (Nat.div_unique i n _ (i - (a * n - r0 * n))); nia).
            assert (j / n = b - c0)%nat by (symmetry; apply (Nat.div_unique j n _ (j - (b * n - c0 * n))); nia). f_equal; lia. }
        assert (Hp : forall i j, (r0 + i / n, c0 + j / n)%nat = rc -> pixel l (r0 * n + i) (c0 * n + j) =
          match got t l with Some a => default None (nd_get a (i mod n) (j mod n)) | None => layer_nodata l nodata end).
        { intros i j E. unfold pixel. rewrite !(Nat.add_comm (_ * n)). rewrite !Nat.div_add by lia. rewrite !Nat.mod_add by lia.
          rewrite (Nat.add_comm (i / n)), (Nat.add_comm (j / n)). destruct rc as [a b]. injection E as -> ->. cbn [fst snd] in Ht. by rewrite Ht. }
        destruct (got t l) as [b|] eqn:Eg.
        + destruct (got_ok _ t l Ht Hl) as [_ Hs]. destruct (Hs b Eg) as [S1 S2].
          assert (M1 : (rc.1 * n - r0 * n + n <= H)%nat) by nia. assert (M2 : (rc.2 * n - c0 * n + n <= W)%nat) by nia.
          unfold nd_blit. cbn [nrows ncols pasted nd_init]. rewrite !Nat.min_l by lia. rewrite !bool_decide_eq_true_2 by lia. cbn [andb]. f_equal.
          apply nd_init_ext. intros i j Hi Hj. change (Nd _ _ _) with (pasted il). pose proof (Hk i j Hi Hj) as K.
          destruct (decide ((r0 + i / n, c0 + j / n)%nat = rc)) as [E|E].
          * destruct (proj1 K E) as [K1 K2]. rewrite !bool_decide_eq_true_2 by lia. cbn [andb].
            rewrite decide_True by (apply elem_of_app; right; apply elem_of_list_singleton; exact E). rewrite Hp by done. f_equal. f_equal.
            -- destruct rc as [a1 b1]. cbn in *. injection E as <- _. rewrite Nat.mul_add_distr_r. replace (r0 * n + i / n * n - r0 * n)%nat with (n * (i / n))%nat by lia.
               rewrite Nat.mod_eq by lia. done.
            -- destruct rc as [a1 b1]. cbn in *. injection E as _ <-. rewrite Nat.mul_add_distr_r. replace (c0 * n + j / n * n - c0 * n)%nat with (n * (j / n))%nat by lia.
               rewrite Nat.mod_eq by lia. done.
          * replace (bool_decide _ && bool_decide _) with false.
            2:{ symmetry. apply andb_false_iff. rewrite !bool_decide_eq_false. destruct (decide (rc.1 * n - r0 * n <= i < rc.1 * n - r0 * n + n)%nat); [right|by left].
                intros ?. apply E, K. lia. }
            unfold pasted. rewrite nd_get_init by done. cbn [from_option id].
            assert (Hiff : (r0 + i / n, c0 + j / n)%nat ∈ il ++ [rc] <-> (r0 + i / n, c0 + j / n)%nat ∈ il) by (rewrite elem_of_app, elem_of_list_singleton; tauto).
            destruct (decide (_ ∈ il)), (decide (_ ∈ il ++ [rc])); tauto.
        + f_equal. apply nd_init_ext. intros i j Hi Hj.
          destruct (decide ((r0 + i / n, c0 + j / n)%nat = rc)) as [E|E].
          * rewrite Hp by done. by destruct (decide _), (decide _).
          * assert (Hiff : (r0 + i / n, c0 + j / n)%nat ∈ il ++ [rc] <-> (r0 + i / n, c0 + j / n)%nat ∈ il) by (rewrite elem_of_app, elem_of_list_singleton; tauto).
            destruct (decide (_ ∈ il)), (decide (_ ∈ il ++ [rc])); tauto.
    Qed.
  End paste.

  (** ** All layers of a chunk *)
  Fixpoint fills_ok (ls' : list string) (nd : cell) : Prop :=
    match ls' with [] => True | l :: rest => layer_nodata l nd = layer_nodata l nodata /\ fills_ok rest (layer_nodata l nd) end.
  Lemma finalize_all r0 c0 r1 c1 il : (forall rc, rc ∈ il -> here rc /\ (r0 <= rc.1 <= r1)%nat /\ (c0 <= rc.2 <= c1)%nat) ->
    forall ls' nd, (forall l, l ∈ ls' -> l ∈ ls) -> fills_ok ls' nd ->
    finalize_layers ls' n (r0 * n) (c0 * n) (r1 * n) (c1 * n) (map reading il) nd true =
    Ok (map (fun l => (l, nd_fliplr None (nd_transpose None (pasted r0 c0 r1 c1 l il)))) ls').
  Proof using HB Hget Hgeo.
    intros Hil. induction ls' as [|l ls' IH]; intros nd Hin HF; [done|]. destruct HF as [F1 F2]. cbn [finalize_layers]. unfold chunk_nodata.
    rewrite F1. rewrite paste_all; [|apply Hin; left|done]. cbn [rbind]. rewrite <- F1 at 1. rewrite IH; [done| |done]. intros; apply Hin; by right.
  Qed.
  Lemma finalize_got il c1 r0 : (forall rc, rc ∈ il -> here rc) -> nat_max (map snd il) = Some c1 -> nat_min (map fst il) = Some r0 ->
    fills_ok ls nodata -> exists c0 r1, nat_min (map snd il) = Some c0 /\ nat_max (map fst il) = Some r1 /\
    finalize_chunk (map reading il) n ls nodata true = Ok (map (fun l => (l, nd_fliplr None (nd_transpose None (pasted r0 c0 r1 c1 l il)))) ls).
  Proof using HB Hget Hgeo.
    intros Hil Hc1 Hr0 HF. destruct (nat_min (map snd il)) as [c0|] eqn:Hc0; [|by destruct il]. destruct (nat_max (map fst il)) as [r1|] eqn:Hr1; [|by destruct il].
    exists c0, r1. split; [done|]. split; [done|]. unfold finalize_chunk.
    assert (E1 : map tr_col (map reading il) = map (fun rc => rc.1 * n)%nat il).
    { rewrite map_map. apply map_ext. intros rc. unfold reading. destruct (tile_at _ _) as [t|]; [|done]. by destruct (read_layers _ _ _ _ _ _ _). }
    assert (E2 : map tr_row (map reading il) = map (fun rc => rc.2 * n)%nat il).
    { rewrite map_map. apply map_ext. intros rc. unfold reading. destruct (tile_at _ _) as [t|]; [|done]. by destruct (read_layers _ _ _ _ _ _ _). }
    rewrite E1, E2, !nat_min_scale, !nat_max_scale. 
    change (map (fun x : nat * nat => x.1) il) with (map fst il). change (map (fun x : nat * nat => x.2) il) with (map snd il).
    rewrite Hr0, Hc0, Hr1, Hc1. cbn [option_map rofopt rbind]. apply finalize_all; [|done|done]. intros rc Hrc. split; [by apply Hil|].
    apply nat_min_spec in Hc0 as [_ M1], Hr0 as [_ M2]. apply nat_max_spec in Hc1 as [_ M3], Hr1 as [_ M4].
    assert (rc.1 ∈ map fst il) by (apply elem_of_list_fmap; eauto). assert (rc.2 ∈ map snd il) by (apply elem_of_list_fmap; eauto). auto.
  Qed.

  (** ** One chunk *)
  Definition band (r0 c0 h w : nat) (l : string) : arr := nd_init (h * n) (w * n) (fun k c => pixel l (r0 * n + (h * n - 1 - k)) (c0 * n + c)).
  Record yields (il : list (nat * nat)) (item : option (Z * Z * Z) * dict string arr) : Prop := {
    yl_box : exists r0 c0 h w, (0 < h)%nat /\ (0 < w)%nat /\ (c0 + w <= nx)%nat /\ (r0 + h <= ny)%nat /\
      item.1 = Some (lx + Z.of_nat c0 * size, r, ly + Z.of_nat (r0 + h) * size) /\
      item.2 = map (fun l => (l, nd_fliplr None (nd_transpose None (pasted r0 c0 (r0 + h - 1) (c0 + w - 1) l il)))) ls /\
      (forall l, l ∈ ls -> nd_transpose None (nd_fliplr None (nd_transpose None (pasted r0 c0 (r0 + h - 1) (c0 + w - 1) l il))) = band r0 c0 h w l) /\
      (forall rc, rc ∈ il -> r0 <= rc.1 < r0 + h /\ c0 <= rc.2 < c0 + w)%nat /\
      (forall b : block, (forall rc, rc ∈ il -> in_block b rc.1 rc.2) -> forall i j, r0 <= i < r0 + h -> c0 <= j < c0 + w -> in_block b i j)%nat }.
  Lemma chunk_read il out : il <> [] -> (forall rc, rc ∈ il -> here rc) ->
    (exists b : block, forall rc, here rc -> in_block b rc.1 rc.2 <-> rc ∈ il) ->
    fills_ok ls nodata ->
    (read_chunk O e r ls nodata up true (Ok (g, out)) il = Ok (g, out) /\ (forall rc t l, rc ∈ il -> tile_at g (rc.1 * nx + rc.2) = Some t -> l ∈ ls -> got t l = None)) \/
    exists item, read_chunk O e r ls nodata up true (Ok (g, out)) il = Ok (g, out ++ [item]) /\ yields il item.
  Proof using HB Hget Hgeo.
    intros Hne Hil [b Hb] HF. pose proof (bx_tiles _ _ _ _ _ HB) as (ta & Ta & Tr & Tc & Tl). pose proof (bx_n _ _ _ _ _ HB) as Hn.
    unfold read_chunk. cbn [rbind fst snd]. rewrite Ta. cbn [option_map rofopt rbind]. rewrite Tc. rewrite read_all by done. cbn [rbind].
    destruct (forallb _ _) eqn:Ef.
    - left. split; [done|]. intros rc t l Hrc Ht Hl. rewrite forallb_forall in Ef. specialize (Ef (reading rc) (proj1 (elem_of_list_In _ _) (elem_of_list_fmap_1 reading _ _ Hrc))).
      apply bool_decide_eq_true, nil_length_inv in Ef. destruct (read_got _ t Ht) as (d & Ed & Hd). unfold reading in Ef. rewrite Ht, Ed in Ef. cbn in Ef. subst d.
      by rewrite <- Hd.
    - right. destruct (nat_max (map snd il)) as [c1|] eqn:Ec1; [|by destruct il]. destruct (nat_min (map fst il)) as [r0|] eqn:Er0; [|by destruct il].
      destruct (finalize_got il c1 r0 Hil Ec1 Er0 HF) as (c0 & r1 & Ec0 & Er1 & HG).
      assert (Hcells : forall d, d ∈ map reading il -> tr_cells d = n).
      { intros d (rc & -> & _)%elem_of_list_fmap. unfold reading. destruct (tile_at _ _) as [t|]; [|done]. by destruct (read_layers _ _ _ _ _ _ _). }
      assert (Hh : option_map tr_cells (head (map reading il)) = Some n). { destruct il as [|rc il']; [done|]. cbn. f_equal. apply Hcells. left. }
      rewrite Hh. cbn [rofopt rbind].
      assert (Hx : existsb (fun d => (tr_cells d =? 0)%nat) (map reading il) = false).
      { apply not_true_is_false. intros (d & Hd & Hz)%existsb_exists. apply elem_of_list_In, Hcells in Hd. apply Nat.eqb_eq in Hz. lia. }
      rewrite Hx, HG. cbn [rbind]. eexists. split; [done|].
      pose proof (nat_min_spec _ _ Ec0) as [I1 M1]. pose proof (nat_min_spec _ _ Er0) as [I2 M2]. pose proof (nat_max_spec _ _ Ec1) as [I3 M3]. pose proof (nat_max_spec _ _ Er1) as [I4 M4].
      assert (Hbox : forall rc, rc ∈ il -> (r0 <= rc.1 <= r1)%nat /\ (c0 <= rc.2 <= c1)%nat).
      { intros rc Hrc. assert (rc.1 ∈ map fst il) by (apply elem_of_list_fmap; eauto). assert (rc.2 ∈ map snd il) by (apply elem_of_list_fmap; eauto). auto. }
      apply elem_of_list_fmap in I1 as (p1 & -> & P1), I2 as (p2 & -> & P2), I3 as (p3 & -> & P3), I4 as (p4 & -> & P4).
      destruct (Hbox _ P1) as [B1 B2], (Hbox _ P2) as [B3 B4].
      split. exists p2.1, p1.2, (p4.1 + 1 - p2.1)%nat, (p3.2 + 1 - p1.2)%nat.
      split; [lia|]. split; [lia|]. split; [destruct (Hil _ P3); lia|]. split.
      { destruct (Hil _ P4) as [_ [t4 H4]]. apply tile_at_size in H4. unfold tiles_size in H4. rewrite Ta, Tl in H4. assert (p4.1 < ny)%nat by nia. lia. }
      replace (p2.1 + (p4.1 + 1 - p2.1) - 1)%nat with (p4.1)%nat by lia. replace (p1.2 + (p3.2 + 1 - p1.2) - 1)%nat with (p3.2)%nat by lia.
      split; [cbn [fst]; unfold geo_of; rewrite Ec0, Er1; do 3 f_equal; lia|]. split; [done|]. split.
      2:{ split.
        - intros rc Hrc. destruct (Hbox rc Hrc). lia.
        - intros b' Hb' i j Hi Hj. pose proof (Hb' _ P1). pose proof (Hb' _ P2). pose proof (Hb' _ P3). pose proof (Hb' _ P4). clear - H H0 H1 H2 Hi Hj. unfold in_block in *. lia. }
      intros l Hl. set (P := pasted _ _ _ _ _ _).
      assert (HP : nrows P = ((p4.1 + 1 - p2.1) * n)%nat /\ ncols P = ((p3.2 + 1 - p1.2) * n)%nat).
      { unfold P. cbn. split; nia. }
      destruct HP as [HP1 HP2]. unfold nd_transpose at 1. unfold nd_fliplr. cbn [nrows ncols nd_init nd_transpose]. rewrite HP1, HP2.
      apply nd_init_ext. intros k c Hk Hc. rewrite nd_get_init by (done || lia). cbn [from_option id]. unfold nd_transpose. rewrite nd_get_init by lia. cbn [from_option id].
      unfold P, pasted. rewrite nd_get_init by (unfold P in HP1, HP2; cbn in HP1, HP2; lia). cbn [from_option id].
      destruct (decide _) as [_|Hno]; [done|].
      set (i := ((p4.1 + 1 - p2.1) * n - 1 - k)%nat) in *.
      assert (Hi : (i < (p4.1 + 1 - p2.1) * n)%nat) by (unfold i; lia).
      unfold pixel. rewrite !(Nat.add_comm (_ * n)). rewrite !Nat.div_add by lia. rewrite (Nat.add_comm (i / n)), (Nat.add_comm (c / n)).
      assert (Hi' : (i / n < p4.1 + 1 - p2.1)%nat) by (apply Nat.div_lt_upper_bound; lia).
      assert (Hc' : (c / n < p3.2 + 1 - p1.2)%nat) by (apply Nat.div_lt_upper_bound; lia).
      destruct (tile_at g _) as [t|] eqn:Ht; [|done]. exfalso. apply Hno. apply Hb.
      + split; cbn [fst snd]; [destruct (Hil _ P3); lia|eauto].
      + pose proof (proj2 (Hb p1 (Hil _ P1)) P1). pose proof (proj2 (Hb p2 (Hil _ P2)) P2). pose proof (proj2 (Hb p3 (Hil _ P3)) P3). pose proof (proj2 (Hb p4 (Hil _ P4)) P4).
        unfold in_block in *. cbn [fst snd] in *. lia.
  Qed.

  (** ** All chunks *)
  Lemma all_chunks mx : fills_ok ls nodata -> (exists k t, tile_at g k = Some t) ->
    exists out, g_get_chunks_of_tiles O e g r ls nodata up mx true = Ok (g, out) /\
    (forall item, item ∈ out -> exists il, yields il item) /\
    (forall rc t l, rc.2 < nx -> tile_at g (rc.1 * nx + rc.2) = Some t -> l ∈ ls -> got t l <> None -> exists il item, item ∈ out /\ yields il item /\ rc ∈ il)%nat.
  Proof using HB Hget Hgeo.
    intros HF (k & t & Hk). pose proof (bx_tiles _ _ _ _ _ HB) as (a & Ta & Tr & Tc & Tl). pose proof (bx_nx _ _ _ _ _ HB) as Hnx.
    assert (Hw : nd_wf a) by (unfold nd_wf; congruence).
    assert (Hlive : forall rc, live a rc <-> here rc).
    { intros [i j]. unfold live, here, tile_at. rewrite Ta. cbn [fst snd]. unfold nd_get. rewrite Tr, Tc. split.
      - intros [t' Ht]. destruct (_ && _) eqn:E; [|done]. apply andb_true_iff in E as [E1%bool_decide_eq_true E2%bool_decide_eq_true]. split; [done|]. exists t'. by rewrite Ht.
      - intros [Hc [t' Ht]]. destruct (nflat a !! _) as [o|] eqn:E; [|done]. cbn in Ht. subst o. exists t'. rewrite <- E.
        apply lookup_lt_Some in E. rewrite Tl in E. assert (i < ny)%nat by nia. by rewrite !bool_decide_eq_true_2 by done. }
    assert (Hk' : live a (k / nx, k mod nx)%nat). { apply Hlive. split; [apply Nat.mod_upper_bound; lia|]. exists t. cbn [fst snd]. rewrite <- (flat_split nx k Hnx). done. }
    unfold g_get_chunks_of_tiles. set (m := default _ mx). destruct (chunks_exist g a Ta Hw m _ Hk') as [chunks Hch]. rewrite Hch. cbn [rbind].
    destruct (chunks_once g a Ta Hw m chunks Hch) as (_ & _ & Hall).
    assert (Hbx : forall il, il ∈ chunks -> il <> [] /\ (forall rc, rc ∈ il -> here rc) /\ exists b : block, forall rc, here rc -> in_block b rc.1 rc.2 <-> rc ∈ il).
    { intros il Hil. destruct (chunk_box g a Ta Hw m chunks il Hch Hil) as (H1 & _ & b & Hb & _). split; [done|]. split.
      - intros rc Hrc. apply Hlive. by apply Hb in Hrc as [? _].
      - exists b. intros rc Hrc. rewrite Hb, Hlive. tauto. }
    assert (G : forall todo out, (forall il, il ∈ todo -> il ∈ chunks) -> exists out',
      foldl (read_chunk O e r ls nodata up true) (Ok (g, out)) todo = Ok (g, out ++ out') /\
      (forall item, item ∈ out' -> exists il, yields il item) /\
      (forall rc t l, rc ∈ concat todo -> tile_at g (rc.1 * nx + rc.2) = Some t -> l ∈ ls -> got t l <> None -> exists il item, item ∈ out' /\ yields il item /\ rc ∈ il)).
    { induction todo as [|il todo IH]; intros out Hin.
      - exists []. rewrite app_nil_r. split; [done|]. split; [by intros ? ?%not_elem_of_nil|by intros ? ? ? ?%not_elem_of_nil].
      - cbn [foldl]. destruct (Hbx il) as (B1 & B2 & B3); [apply Hin; left|].
        destruct (chunk_read il out B1 B2 B3 HF) as [[-> Hno]|(item & -> & Hy)].
        + destruct (IH out) as (out' & -> & O1 & O2); [intros; apply Hin; by right|]. exists out'. split; [done|]. split; [done|].
          intros rc t' l Hrc Ht Hl Hg. cbn in Hrc. apply elem_of_app in Hrc as [Hrc|Hrc]; [|exact (O2 rc t' l Hrc Ht Hl Hg)]. destruct Hg. exact (Hno rc t' l Hrc Ht Hl).
        + destruct (IH (out ++ [item])) as (out' & -> & O1 & O2); [intros; apply Hin; by right|]. exists (item :: out'). split; [by rewrite <- app_assoc|]. split.
          * intros it [->|Hit]%elem_of_cons; [by eexists|by apply O1].
          * intros rc t' l Hrc Ht Hl Hg. cbn in Hrc. apply elem_of_app in Hrc as [Hrc|Hrc].
            -- exists il, item. split; [left|done].
            -- destruct (O2 rc t' l Hrc Ht Hl Hg) as (il' & it & ? & ? & ?). exists il', it. split; [by right|done]. }
    destruct (G chunks [] (fun _ h => h)) as (out & -> & O1 & O2). exists out. split; [done|]. split; [done|].
    intros rc t' l Hc Ht Hl Hg. eapply O2; try done. apply Hall, Hlive. split; [done|eauto].
  Qed.

  (** ** The whole layer *)
  Lemma whole_layer l : l ∈ ls -> g_no_grid O g = Ok false ->
    exists o, g_get_layers_by_name O e g [l] (Some r) nodata up = Ok (g, o) /\
    match o with
    | Some arrs => arrs = [nd_init (ny * n) (nx * n) (pixel l)]
    | None => forall k t, tile_at g k = Some t -> got t l = None
    end.
  Proof using HB Hget Hgeo.
    intros Hl Hg. destruct (layers_query O e g r [l] nodata up nx ny n HB Hg) as [Q1 Q2]. cbv zeta in *.
    assert (Hread : forall k t, tile_at g k = Some t -> read_layers O e t [l] r nodata u = Ok (t, match got t l with Some a => [(l, a)] | None => [] end)).
    { intros k t Ht. unfold read_layers. cbn [foldl rbind fst snd]. destruct (got_ok k t l Ht Hl) as [-> _]. cbn [rbind fst snd]. by destruct (got t l). }
    assert (Hfound : forall k, found O e g r [l] nodata up k = match tile_at g k with Some t => match got t l with Some a => [a] | None => [] end | None => [] end).
    { intros k. unfold found, tile_found. destruct (tile_at g k) as [t|] eqn:Ht; [|done]. rewrite (Hread k t Ht). cbn [snd]. by destruct (got t l). }
    assert (HS : forall k, (k < ny * nx)%nat -> reads O e g r [l] nodata up k /\ shaped O e g r [l] nodata up n k).
    { intros k _. split.
      - unfold reads. destruct (tile_at g k) as [t|] eqn:Ht; [|done]. rewrite (Hread k t Ht). eauto.
      - intros a. rewrite Hfound. destruct (tile_at g k) as [t|] eqn:Ht; [|by intros ?%not_elem_of_nil]. destruct (got_ok k t l Ht Hl) as [_ Hs].
        destruct (got t l) as [b|]; [|by intros ?%not_elem_of_nil]. intros ->%elem_of_list_singleton. by apply Hs. }
    destruct (proj1 Q1 HS) as [p Hp]. destruct (Q2 p Hp) as (s & [M1 M2 M3 M4 M5 M6 M7 M8 _ _] & ->).
    pose proof (bx_tiles _ _ _ _ _ HB) as (ta & Ta & Tr & Tc & Tl).
    assert (Hs : s.1.1 = g).
    { apply grid_ext; try done.
      - rewrite M7, Ta. cbn. congruence.
      - rewrite M5, Ta. cbn. congruence.
      - rewrite M6. unfold tiles_size. by rewrite Ta.
      - intros k. rewrite M8. case_bool_decide; [|done]. unfold after. destruct (tile_at g k) as [t|] eqn:Ht; [|done]. by rewrite (Hread k t Ht). }
    rewrite Hs in Hp. eexists. split; [exact Hp|]. destruct (any _ _ _ _ _ _ _ _) eqn:E.
    - cbn [length seq map]. f_equal. apply nd_init_ext. intros R C HR HC. cbv zeta. unfold pixel.
      assert (HC' : (C / n < nx)%nat) by (apply Nat.div_lt_upper_bound; [pose proof (bx_n _ _ _ _ _ HB)|]; lia).
      assert (HR' : (R / n < ny)%nat) by (apply Nat.div_lt_upper_bound; [pose proof (bx_n _ _ _ _ _ HB)|]; lia).
      rewrite bool_decide_eq_true_2 by (by apply flat_lt). rewrite Hfound. destruct (tile_at g _) as [t|]; [|done]. by destruct (got t l).
    - intros k t Ht. destruct (got t l) as [a|] eqn:Eg; [|done]. exfalso.
      assert (Hk : (k < ny * nx)%nat). { apply tile_at_size in Ht. unfold tiles_size in Ht. rewrite Ta, Tl in Ht. done. }
      unfold any in E. assert (X : existsb (fun k => negb (bool_decide (length (found O e g r [l] nodata up k) = 0%nat))) (seq 0 (ny * nx)) = true); [|congruence].
      apply existsb_exists. exists k. split; [apply in_seq; lia|]. by rewrite Hfound, Ht, Eg.
  Qed.
End raster.
