(** Facts about the lines of csv files. *)
From Verif Require Import Py Nd Numpy Point Bin Algorithms Tile Time Meta Disk Grid GridRun GridQuery GridOps Export Spec TileExec GridExec PyFacts NdFacts NumpyFacts AlgFacts
  MiscFacts TileFacts TileGridFacts TileRunFacts TileHistFacts TilePropFacts TileQueryFacts GridBaseFacts GridPlaceFacts GridInvFacts GridRootFacts
  GridEvolveFacts GridSrFacts GridPropFacts GridHistFacts GridRunFacts GridLayerFacts GridTrimFacts GridCsvFacts CsvSpec.
Open Scope Z_scope.

Lemma imap_seq {A B} (F : nat -> A -> B) (X : nat -> A) c0 n : imap F (map X (seq c0 n)) = map (fun C => F (C - c0)%nat (X C)) (seq c0 n).
Proof.
  apply list_eq. intros i. rewrite list_lookup_imap, !list_lookup_fmap. destruct (decide (i < n)%nat) as [H|H].
  - rewrite lookup_seq_lt by done. cbn. do 2 f_equal. lia.
  - by rewrite lookup_seq_ge by lia.
Qed.
Lemma concat_prod {A} (f : nat * nat -> A) (cs rs : list nat) : concat (map (fun R => map (fun C => f (R, C)) cs) rs) = map f (list_prod rs cs).
Proof.
  induction rs as [|R rs IH]; [done|]. cbn [map concat list_prod]. rewrite IH, map_app, map_map. done.
Qed.
Lemma nodes_seq lo hi r s e : (e <= Z.to_nat (ceil_div (hi - lo) r))%nat ->
  slice (map (fun v => inject_Z v + (r # 2))%Q (arange lo hi r)) s e = map (fun k => inject_Z (lo + Z.of_nat k * r) + (r # 2))%Q (seq s (e - s)).
Proof.
  intros He. apply list_eq. intros i. unfold slice. destruct (decide (i < e - s)%nat) as [H|H].
  - rewrite lookup_take, lookup_drop by done. rewrite !list_lookup_fmap, lookup_seq_lt by done. rewrite arange_uniform, uniform_lookup by lia. done.
  - rewrite lookup_take_ge by lia. by rewrite list_lookup_fmap, lookup_seq_ge by lia.
Qed.
Lemma column_cell m up l a i j : default None (nd_get (csv_column m up l a).2 i j) = listed m up l (default None (nd_get a i j)).
Proof.
  unfold csv_column, listed. rewrite (andb_comm up). destruct (bool_decide _ && up); cbn [snd andb]; [|done].
  destruct (Qle_bool _ 0); cbn [negb]; [done|]. rewrite nd_get_map. by destruct (nd_get a i j).
Qed.
Lemma column_names m up : forall ls data cols, csv_columns m up ls data = Ok cols -> map fst cols = map (heading up) ls.
Proof.
  induction ls as [|l ls IH]; intros data cols; cbn [csv_columns]; [by intros [= <-]|]. destruct data as [|a data]; [done|].
  intros (cols' & H & [= <-])%rbind_Ok. cbn [map]. f_equal; [|by eapply IH].
  unfold csv_column, heading. rewrite (andb_comm up). by destruct (bool_decide _ && up).
Qed.
Lemma column_cells m up r0 c0 r1 c1 R C : (r0 <= R < r1)%nat -> (c0 <= C < c1)%nat -> forall ls full data cols, Forall2 (part_of r0 c0 r1 c1) full data -> csv_columns m up ls data = Ok cols ->
  map (fun c : string * arr => default None (nd_get c.2 (R - r0) (C - c0))) cols = map (fun la => listed m up la.1 (default None (nd_get la.2 R C))) (zip ls full).
Proof.
  intros HR HC. induction ls as [|l ls IH]; intros full data cols HP; cbn [csv_columns]; [by intros [= <-]|].
  destruct HP as [|a b full data HP HPs]; [done|]. intros (cols' & H & [= <-])%rbind_Ok. cbn [map zip zip_with]. f_equal; [|by eapply IH].
  rewrite column_cell. cbn [fst snd]. destruct HP as (P1 & P2 & _ & P4). rewrite P4 by lia. by replace (r0 + (R - r0))%nat with R by lia; replace (c0 + (C - c0))%nat with C by lia.
Qed.

Section lines.
  Context {T : Type} (O : tile_ops T) (e : env).
  (** The shape of the arrays of a query. *)
  Lemma query_size g ls r nodata up g' full first h w : g_get_layers_by_name O e g ls (Some r) nodata up = Ok (g', Some full) -> head full = Some first ->
    m_height (g_meta g) = Some h -> m_width (g_meta g) = Some w -> exists rows cols, exact_div h r = Ok rows /\ exact_div w r = Ok cols /\ nrows first = rows /\ ncols first = cols.
  Proof.
    unfold g_get_layers_by_name. intros (ng & _ & H)%rbind_Ok Hf Hh Hw. destruct ng; [done|]. cbn [pick_rez rbind] in H.
    apply rbind_Ok in H as (data & Hd & H). apply rbind_Ok in H as (s & Hs & H). destruct s as [[g1 d1] f]. cbn [fst snd] in H. destruct f; [|done]. injection H as <- <-.
    unfold build_layer_grid in Hd. rewrite Hh, Hw in Hd. cbn [rofopt rbind] in Hd.
    destruct (exact_div h r) as [rows|]; cbn [rbind] in Hd; [|destruct ls; [injection Hd as <-|done]; destruct (loop_shape O e _ _ _ _ 0%nat 0%nat _ (g, [], false) _ (Forall_nil_2 _) Hs) as [L _]; by destruct d1].
    destruct (exact_div w r) as [cols|]; cbn [rbind] in Hd; [|destruct ls; [injection Hd as <-|done]; destruct (loop_shape O e _ _ _ _ 0%nat 0%nat _ (g, [], false) _ (Forall_nil_2 _) Hs) as [L _]; by destruct d1].
    exists rows, cols. split; [done|]. split; [done|].
    assert (HD : Forall (fun a => shape_is a rows cols) data).
    { clear -Hd. revert data Hd. induction ls as [|l ls IH]; intros data; cbn [rmap]; [intros [= <-]; constructor|].
      cbn [rbind]. intros (r' & Hr & [= <-])%rbind_Ok. constructor; [split; [apply nd_full_wf|done]|]. by apply IH. }
    destruct (loop_shape O e _ _ _ _ _ _ _ (g, data, false) _ HD Hs) as [_ L2]. cbn [fst snd] in L2. destruct d1; [done|]. injection Hf as ->.
    by apply Forall_cons in L2 as [(_ & A & B) _].
  Qed.
  Lemma exact_ceil a r n : 0 < r -> exact_div a r = Ok n -> Z.to_nat (ceil_div a r) = n.
  Proof.
    unfold exact_div, ceil_div. intros Hr. destruct (Z.eqb_spec r 0); [lia|]. destruct (Z.eqb_spec (a mod r) 0); [|done]. intros [= <-]. f_equal.
    pose proof (Z.div_mod a r ltac:(lia)) as E. assert (a = a / r * r) as E' by lia. set (q := a / r) in *. clearbody q. subst a.
    first [by rewrite <- Z.mul_opp_l, Z.div_mul by lia; lia | idtac].
  Qed.
  Lemma csv_file_of g up r x g1 fs : 0 < r -> m_ext (g_meta g) = Some x -> m_width (g_meta g) = Some (x1 x - x0 x) -> m_height (g_meta g) = Some (y1 x - y0 x) ->
    export_csv O e g up (Some r) = Ok (g1, fs) ->
    exists ls full f, g_return_layer_names O g = Ok ls /\ g_get_layers_by_name O e g ls (Some r) None false = Ok (g1, Some full) /\ fs = [f] /\ csv_lists (g_meta g) x r up ls full f.
  Proof.
    intros Hr Hx Hw Hh. unfold export_csv. cbn [foldl rbind fst snd]. intros (ls & Hls & H)%rbind_Ok. apply rbind_Ok in H as ([g2 [[xs ys] data]] & Hn & H).
    cbn [snd fst] in H. apply rbind_Ok in H as (cols & Hc & [= <- <-]).
    unfold g_surf_nodes in Hn. apply rbind_Ok in Hn as (ng & _ & Hn). destruct ng; [done|]. cbn [pick_rez rbind] in Hn.
    apply rbind_Ok in Hn as ([g3 [[surfs [r0 c0]] [r1 c1]]] & Ht & Hn). cbn [snd fst] in Hn. rewrite Hx in Hn. cbn [rofopt rbind] in Hn. injection Hn as -> <- <- <-.
    destruct (trimmed _ _ _ _ _ _ _ _ _ _ _ _ _ Ht) as (full & first & Hq & Hf & HB & HP).
    exists ls, full. eexists. split; [done|]. split; [done|]. split; [reflexivity|]. split; [done|]. split; [cbn [cf_names app]; by rewrite (column_names _ _ _ _ _ Hc)|].
    exists first, r0, c0, r1, c1. split; [done|]. split; [done|]. cbn [cf_lines].
    destruct (query_size _ _ _ _ _ _ _ _ _ _ Hq Hf Hh Hw) as (rows & ncl & E1 & E2 & N1 & N2). destruct (vb_rows _ _ _ _ _ HB), (vb_cols _ _ _ _ _ HB).
    apply exact_ceil in E1, E2; [|done..]. rewrite !nodes_seq by lia. unfold csv_lines. rewrite imap_seq, <- concat_prod.
    match goal with |- Permutation ?a ?b => cut (a = b); [intros ->; reflexivity|] end. f_equal. apply map_ext_in. intros R HR%in_seq. rewrite imap_seq. apply map_ext_in. intros C HC%in_seq. unfold cell_line. cbn [fst snd]. f_equal.
    eapply column_cells; [| |done|done]; lia.
  Qed.
End lines.

(** Grids with soundings know their size. *)
Lemma root_sized {T} (m0 : gmeta) (rep : T -> Z -> Z -> content -> Prop) g ct seen ok : root_inv m0 rep g ct seen ok -> ct <> [] ->
  exists x, m_ext (g_meta g) = Some x /\ m_width (g_meta g) = Some (x1 x - x0 x) /\ m_height (g_meta g) = Some (y1 x - y0 x).
Proof.
  intros [_ [(_ & ? & _)|(_ & lx & ly & nx & ny & a & _ & (_ & _ & F3 & F4 & F5) & _)]] Hne; [done|]. eexists. split; [exact F3|]. cbn [x0 x1 y0 y1].
  split; [rewrite F4|rewrite F5]; f_equal; lia.
Qed.

Lemma csv_rezs {T} (O : tile_ops T) e (g : grid T) up rez g1 fs : export_csv O e g up rez = Ok (g1, fs) ->
  map cf_rez fs = match rez with Some r => [r] | None => m_rezs (g_meta g) end.
Proof.
  unfold export_csv. generalize (match rez with Some r => [r] | None => m_rezs (g_meta g) end) as rs. generalize (g_meta g) as m. intros m rs.
  set (F := fun acc r => _). assert (HX : forall x rs, foldl F (Raise x) rs = Raise x) by (intros x l; induction l; [done|by cbn [foldl]]).
  assert (HF : forall rs g fs, foldl F (Ok (g, fs)) rs = Ok (g1, fs) -> True) by done. clear HF.
  enough (HG : forall rs g fs0 fs, foldl F (Ok (g, fs0)) rs = Ok (g1, fs) -> map cf_rez fs = map cf_rez fs0 ++ rs) by (intros H; by apply HG in H).
  clear fs. induction rs0 as [|r rs0 IH]; intros g0 fs0 fs; cbn [foldl]; [intros [= -> ->]; by rewrite app_nil_r|].
  destruct (F (Ok (g0, fs0)) r) as [[g2 fs2]|x] eqn:E; [|by rewrite HX]. intros H. rewrite (IH _ _ _ H). unfold F in E. cbn [rbind fst snd] in E.
  apply rbind_Ok in E as (ls & _ & E). apply rbind_Ok in E as ([g3 [[xs ys] data]] & _ & E). cbn [fst snd] in E. apply rbind_Ok in E as (cols & _ & [= <- <-]).
  by rewrite map_app, <- app_assoc.
Qed.
