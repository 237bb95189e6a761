(** Facts about trimmed layers and values at locations. *)
From Coq Require Import Lqa.
From Verif Require Import Py Nd Numpy Point Bin Algorithms Tile Time Meta Disk Grid GridRun GridQuery GridOps Spec TileExec GridExec PyFacts NdFacts NumpyFacts AlgFacts BinFacts
  MiscFacts TileFacts TileGridFacts TileSpecFacts TileRunFacts TileHistFacts ShoalFacts TilePropFacts TileQueryFacts GridBaseFacts GridPlaceFacts GridInvFacts GridRootFacts
  GridEvolveFacts GridSrFacts GridPropFacts GridHistFacts GridRunFacts GridCleanFacts GridUpdateFacts GridDensityFacts GridFlagFacts GridLayerFacts GridReadFacts GridAnswerFacts.
Open Scope Z_scope.
Local Ltac Zify.zify_post_hook ::= Z.div_mod_to_equations.

(** ** Ranges *)
Lemma filter_seq_last n (f : nat -> bool) b : last (filter (fun i => f i = true) (seq 0 n)) = Some b ->
  (b < n)%nat /\ f b = true /\ forall i, (i < n)%nat -> f i = true -> (i <= b)%nat.
Proof.
  induction n as [|n IH]; [done|]. rewrite seq_S, filter_app. cbn [plus]. rewrite filter_cons. destruct (decide (f n = true)) as [E|E].
  - rewrite filter_nil, last_snoc. intros [= <-]. split; [lia|]. split; [done|]. lia.
  - rewrite filter_nil, app_nil_r. intros (H1 & H2 & H3)%IH. split; [lia|]. split; [done|]. intros i Hi Hf.
    destruct (decide (i = n)) as [->|]; [done|]. apply H3; [lia|done].
Qed.
Lemma filter_seq_head n (f : nat -> bool) s a : head (filter (fun i => f i = true) (seq s n)) = Some a ->
  (s <= a < s + n)%nat /\ f a = true /\ forall i, (s <= i)%nat -> f i = true -> (i < s + n)%nat -> (a <= i)%nat.
Proof.
  revert s. induction n as [|n IH]; intros s; [done|]. cbn [seq]. rewrite filter_cons. destruct (decide (f s = true)) as [E|E].
  - intros [= <-]. split; [lia|]. split; [done|]. lia.
  - intros (H1 & H2 & H3)%IH. split; [lia|]. split; [done|]. intros i Hi Hf Hn. destruct (decide (i = s)) as [->|]; [done|]. apply H3; [lia|done|lia].
Qed.
Lemma true_range_Ok n f a b : true_range n f = Ok (a, b) ->
  (a < b <= n)%nat /\ f a = true /\ f (b - 1)%nat = true /\ forall i, (i < n)%nat -> f i = true -> (a <= i < b)%nat.
Proof.
  unfold true_range. destruct (head _) as [h|] eqn:Eh; [|done]. destruct (last _) as [l|] eqn:El; [|done]. intros [= <- <-].
  apply filter_seq_last in El as (L1 & L2 & L3). apply filter_seq_head in Eh as (H1 & H2 & H3). cbn.
  assert (h <= l)%nat by (apply H3; [lia|done|lia]). rewrite Nat.sub_0_r. split; [lia|]. split; [done|]. split; [done|].
  intros i Hi Hf. split; [apply H3; [lia|done|lia]|]. specialize (L3 i Hi Hf). lia.
Qed.
Lemma true_range_some n f i : (i < n)%nat -> f i = true -> exists p, true_range n f = Ok p.
Proof.
  intros Hi Hf. unfold true_range. destruct (filter _ _) as [|x l] eqn:E.
  - exfalso. assert (H : i ∈ filter (fun i => f i = true) (seq 0 n)) by (apply elem_of_list_filter; split; [done|]; apply elem_of_seq; lia).
    rewrite E in H. by apply not_elem_of_nil in H.
  - cbn [head]. destruct (last (x :: l)) as [y|] eqn:El; [by eexists|]. by apply last_None in El.
Qed.
Lemma row_has_holds a r : row_has a r = true <-> exists C, holds a r C.
Proof.
  unfold row_has. rewrite existsb_exists. split.
  - intros (c & _ & H). destruct (nd_get a r c) as [[q|]|] eqn:E; try done. exists c, q. done.
  - intros (c & q & H). exists c. rewrite H. split; [|done]. apply in_seq. apply nd_get_Some_lt in H. lia.
Qed.
Lemma col_has_holds a c : col_has a c = true <-> exists R, holds a R c.
Proof.
  unfold col_has. rewrite existsb_exists. split.
  - intros (r & _ & H). destruct (nd_get a r c) as [[q|]|] eqn:E; try done. exists r, q. done.
  - intros (r & q & H). exists r. rewrite H. split; [|done]. apply in_seq. apply nd_get_Some_lt in H. lia.
Qed.

(** ** Shapes of an answer *)
Section shapes.
  Context {T : Type} (O : tile_ops T) (e : env).
  Lemma blit_all_shape : forall found data r0 c0 n data' rows cols, Forall (fun a => shape_is a rows cols) data ->
    blit_all data found r0 c0 n = Ok data' -> length data' = length data /\ Forall (fun a => shape_is a rows cols) data'.
  Proof.
    induction found as [|a fs IH]; intros [|d ds] r0 c0 n data' rows cols H; cbn [blit_all]; try (by intros [= <-]); try done.
    intros (d' & Hd & H2)%rbind_Ok. apply rbind_Ok in H2 as (rest & Hr & [= <-]).
    apply Forall_cons in H as [[S1 [S2 S3]] H]. destruct (IH _ _ _ _ _ _ _ H Hr) as [L1 L2]. cbn [length]. split; [by rewrite L1|]. constructor; [|done].
    apply nd_blit_Ok in Hd as (B1 & B2 & B3 & _). split; [done|]. by rewrite B1, B2.
  Qed.
  Lemma loop_shape r ls nodata up rows cols : forall ks s s', Forall (fun a => shape_is a rows cols) s.1.2 ->
    foldl (layer_step O e r ls nodata up) (Ok s) ks = Ok s' -> length s'.1.2 = length s.1.2 /\ Forall (fun a => shape_is a rows cols) s'.1.2.
  Proof.
    induction ks as [|k ks IH]; intros s s' Hs; cbn [foldl]; [by intros [= <-]|].
    destruct (layer_step O e r ls nodata up (Ok s) k) as [s1|x] eqn:E.
    - intros H. destruct s as [[g data] f]. unfold layer_step in E. cbn [rbind] in E. destruct (tile_at g k).
      + apply rbind_Ok in E as (gt & _ & E). apply rbind_Ok in E as (data' & Hd & [= <-]).
        destruct (blit_all_shape _ _ _ _ _ _ _ _ Hs Hd) as [L1 L2]. destruct (IH (gt.1, data', _) s' L2 H) as [L3 L4]. cbn [fst snd] in *. split; [congruence|done].
      + injection E as <-. by eapply IH.
    - intros H. exfalso. clear -H. induction ks as [|k' ks IH]; [done|]. exact (IH H).
  Qed.
  Lemma query_shape g ls rez nodata up g' arrs : g_get_layers_by_name O e g ls rez nodata up = Ok (g', Some arrs) ->
    length arrs = length ls /\ exists rows cols, Forall (fun a => shape_is a rows cols) arrs.
  Proof.
    unfold g_get_layers_by_name. intros (ng & _ & H)%rbind_Ok. destruct ng; [done|]. apply rbind_Ok in H as (r & _ & H).
    apply rbind_Ok in H as (data & Hd & H). apply rbind_Ok in H as (s & Hs & H). destruct s as [[g1 d1] f]. cbn [fst snd] in H. destruct f; [|done]. injection H as <- <-.
    assert (HD : length data = length ls /\ exists rows cols, Forall (fun a => shape_is a rows cols) data).
    { unfold build_layer_grid in Hd. destruct (rofopt (m_height (g_meta g)) TypeError) as [h|]; [|destruct ls; [injection Hd as <-; split; [done|]; exists 0%nat, 0%nat; constructor|done]].
      destruct (rofopt (m_width (g_meta g)) TypeError) as [w|]; [|destruct ls; [injection Hd as <-; split; [done|]; exists 0%nat, 0%nat; constructor|done]]. cbn [rbind] in Hd.
      destruct (exact_div h r) as [rows|]; [|destruct ls; [injection Hd as <-; split; [done|]; exists 0%nat, 0%nat; constructor|done]].
      destruct (exact_div w r) as [cols|]; [|destruct ls; [injection Hd as <-; split; [done|]; exists 0%nat, 0%nat; constructor|done]]. cbn [rbind] in Hd.
      clear Hs. revert data Hd. clear. induction ls as [|l ls IH]; intros data; cbn [rmap].
      - intros [= <-]. split; [done|]. exists 0%nat, 0%nat. constructor.
      - cbn [rbind]. intros (rest & Hr & [= <-])%rbind_Ok. destruct (IH _ Hr) as [L _]. cbn [length]. split; [by rewrite L|]. exists rows, cols.
        constructor; [split; [apply nd_full_wf|done]|]. clear -Hr. revert rest Hr. induction ls as [|l ls IH]; intros rest; cbn [rmap]; [intros [= <-]; constructor|].
        cbn [rbind]. intros (r' & Hr & [= <-])%rbind_Ok. constructor; [split; [apply nd_full_wf|done]|]. by apply IH. }
    destruct HD as (L & rows & cols & HD). destruct (loop_shape _ _ _ _ _ _ _ (g, data, false) _ HD Hs) as [L1 L2]. cbn [fst snd] in *. split; [congruence|]. eauto.
  Qed.

  (** ** Trimming *)
  Lemma trim_box a rr cr : nd_wf a -> true_range (nrows a) (row_has a) = Ok rr -> true_range (ncols a) (col_has a) = Ok cr ->
    value_box a rr.1 cr.1 rr.2 cr.2.
  Proof.
    intros Hw Hr Hc. destruct rr as [r0 r1], cr as [c0 c1]. apply true_range_Ok in Hr as (R1 & R2 & R3 & R4), Hc as (C1 & C2 & C3 & C4). cbn [fst snd].
    split; try done; try (by apply row_has_holds); try (by apply col_has_holds).
    intros R C [q Hq]. pose proof (nd_get_Some_lt _ _ _ _ Hq). split.
    - apply R4; [lia|]. apply row_has_holds. by exists C, q.
    - apply C4; [lia|]. apply col_has_holds. by exists R, q.
  Qed.
  Lemma part_slice a r0 c0 r1 c1 : nd_wf a -> (r1 <= nrows a)%nat -> (c1 <= ncols a)%nat -> part_of r0 c0 r1 c1 a (trim_to (r0, r1) (c0, c1) a).
  Proof.
    intros Hw Hr Hc. unfold part_of, trim_to. cbn [fst snd]. unfold nd_slice at 1 2. cbn [nrows ncols nd_init]. rewrite !Nat.min_l by done.
    split; [done|]. split; [done|]. split; [apply (nd_init_wf)|]. intros i j Hi Hj. unfold nd_slice in Hi, Hj. cbn [nrows ncols nd_init] in Hi, Hj. rewrite !Nat.min_l in * by done.
    apply nd_slice_get; [done|lia|lia].
  Qed.
  Lemma trimmed g ls rez nodata up g' arrs r0 c0 r1 c1 : g_get_layers_trimmed O e g ls rez nodata up = Ok (g', (arrs, (r0, c0), (r1, c1))) ->
    exists full first, g_get_layers_by_name O e g ls rez nodata up = Ok (g', Some full) /\ head full = Some first /\
      value_box first r0 c0 r1 c1 /\ Forall2 (part_of r0 c0 r1 c1) full arrs.
  Proof.
    unfold g_get_layers_trimmed. intros ([g1 o] & Hq & H)%rbind_Ok. apply rbind_Ok in H as (full & Ho & H). cbn [fst snd] in *. destruct o as [full'|]; [|done]. injection Ho as ->.
    apply rbind_Ok in H as (first & Hf & H). apply rbind_Ok in H as (rr & Hr & H). apply rbind_Ok in H as (cr & Hc & [= <- <- <- <- <- <-]).
    destruct (head full) as [f|] eqn:Eh; [|done]. injection Hf as ->. destruct (query_shape _ _ _ _ _ _ _ Hq) as (_ & rows & cols & HS).
    assert (HF : shape_is first rows cols). { destruct full; [done|]. injection Eh as ->. by apply Forall_cons in HS as [? _]. }
    destruct HF as (F1 & F2 & F3). pose proof (trim_box _ _ _ F1 Hr Hc) as HB. exists full, first. split; [done|]. split; [done|]. split; [done|].
    destruct (vb_rows _ _ _ _ _ HB), (vb_cols _ _ _ _ _ HB). apply Forall2_fmap_r, Forall_Forall2_diag.
    eapply Forall_impl; [exact HS|]. intros a (A1 & A2 & A3). destruct rr, cr. cbn [fst snd] in *. apply part_slice; [done|lia|lia].
  Qed.
  Lemma trimmed_ok g ls rez nodata up g' full first R C : g_get_layers_by_name O e g ls rez nodata up = Ok (g', Some full) -> head full = Some first ->
    holds first R C -> exists arrs lo hi, g_get_layers_trimmed O e g ls rez nodata up = Ok (g', (arrs, lo, hi)).
  Proof.
    intros Hq Hf [q Hc]. unfold g_get_layers_trimmed. rewrite Hq. cbn [rbind fst snd rofopt]. rewrite Hf. cbn [rbind rofopt].
    pose proof (nd_get_Some_lt _ _ _ _ Hc) as [B1 B2].
    destruct (true_range_some (nrows first) (row_has first) R B1) as [rr Hrr]; [apply row_has_holds; by exists C, q|].
    destruct (true_range_some (ncols first) (col_has first) C B2) as [cr Hcr]; [apply col_has_holds; by exists R, q|]. rewrite Hrr, Hcr. cbn [rbind]. eauto.
  Qed.
End shapes.

(** ** Values at locations *)
Lemma slice_uniform lo step n s e : slice (uniform lo step n) s e = uniform (lo + Z.of_nat s * step) step (Nat.min e n - s).
Proof.
  apply list_eq. intros i. unfold slice. destruct (decide (i < e - s)%nat) as [H|H].
  - rewrite lookup_take, lookup_drop by done. destruct (decide (s + i < n)%nat).
    + rewrite !uniform_lookup by lia. f_equal. lia.
    + rewrite !lookup_ge_None_2; [done|rewrite uniform_length; lia..].
  - rewrite lookup_take_ge by lia. symmetry. apply lookup_ge_None_2. rewrite uniform_length. lia.
Qed.
Lemma cell_floor lo r c x : 0 < r -> lo + c * r <= x < lo + (c + 1) * r <-> (x - lo) / r = c.
Proof.
  intros Hr. split.
  - intros H. symmetry. apply (Z.div_unique_pos _ _ _ (x - lo - c * r)); lia.
  - intros <-. pose proof (Z.div_mod (x - lo) r ltac:(lia)). pose proof (Z.mod_pos_bound (x - lo) r Hr). lia.
Qed.
Lemma in_cell_floor x0 y0 r R C x y : 0 < r -> in_cell x0 y0 r R C x y <-> (x - x0) / r = Z.of_nat C /\ (y - y0) / r = Z.of_nat R.
Proof. intros Hr. unfold in_cell. by rewrite !cell_floor. Qed.

(** The position found for a coordinate among the edges of columns c0 to c1. *)
Lemma search_edges lo r n c0 c1 x : 0 < r -> (c0 < c1 <= n)%nat ->
  let es := slice (uniform lo r n) c0 (c1 + 1) in let d := searchsorted_right es x in
  if bool_decide (Z.of_nat c0 <= (x - lo) / r < Z.of_nat (Nat.min c1 (n - 1)))
  then d = S (Z.to_nat ((x - lo) / r) - c0) /\ d <> length es
  else d = 0%nat \/ d = length es.
Proof.
  intros Hr Hc es d. subst d es. rewrite slice_uniform. rewrite searchsorted_right_uniform by done. rewrite uniform_length.
  assert (E : (x - (lo + Z.of_nat c0 * r)) / r = (x - lo) / r - Z.of_nat c0).
  { replace (x - (lo + Z.of_nat c0 * r)) with (x - lo + (- Z.of_nat c0) * r) by lia. rewrite Z.div_add by lia. lia. }
  assert (F : x < lo + Z.of_nat c0 * r <-> (x - lo) / r < Z.of_nat c0).
  { pose proof (Z.div_mod (x - lo) r ltac:(lia)). pose proof (Z.mod_pos_bound (x - lo) r Hr). split.
    - intros. apply Z.div_lt_upper_bound; lia.
    - intros Hq. apply Z.nle_gt. intros Hle. assert (Z.of_nat c0 <= (x - lo) / r) by (apply Z.div_le_lower_bound; lia). lia. }
  rewrite E. set (q := (x - lo) / r) in *. clearbody q. clear E.
  case_bool_decide as Hb.
  - rewrite decide_False by lia. lia.
  - destruct (decide _) as [Hd|Hd]; [by left|]. right. lia.
Qed.

Lemma lookup_spec (x : ext) r a r0 c0 r1 c1 b p :
  0 < r -> nd_wf a -> Z.of_nat (nrows a) * r = y1 x - y0 x -> Z.of_nat (ncols a) * r = x1 x - x0 x ->
  value_box a r0 c0 r1 c1 -> part_of r0 c0 r1 c1 a b ->
  exists v, lookup_xy (slice (arange (x0 x) (x1 x) r) c0 (c1 + 1)) (slice (arange (y0 x) (y1 x) r) r0 (r1 + 1)) b p None = Ok v /\
    (in_last x r a p -> v = None) /\ (~ in_last x r a p -> value_at x r a p v).
Proof.
  intros Hr Hw Hy Hx HB (P1 & P2 & _ & P3). destruct p as [px py].
  assert (Ex : arange (x0 x) (x1 x) r = uniform (x0 x) r (ncols a)). { replace (x1 x) with (x0 x + Z.of_nat (ncols a) * r) by lia. by apply arange_exact. }
  assert (Ey : arange (y0 x) (y1 x) r = uniform (y0 x) r (nrows a)). { replace (y1 x) with (y0 x + Z.of_nat (nrows a) * r) by lia. by apply arange_exact. }
  rewrite Ex, Ey. unfold lookup_xy. cbn [fst snd].
  pose proof (search_edges (x0 x) r (ncols a) c0 c1 px Hr (vb_cols _ _ _ _ _ HB)) as SX. cbv zeta in SX.
  pose proof (search_edges (y0 x) r (nrows a) r0 r1 py Hr (vb_rows _ _ _ _ _ HB)) as SY. cbv zeta in SY.
  destruct (vb_cols _ _ _ _ _ HB) as [BC1 BC2]. destruct (vb_rows _ _ _ _ _ HB) as [BR1 BR2].
  assert (IC : forall R C, in_cell (x0 x) (y0 x) r R C px py <-> (px - x0 x) / r = Z.of_nat C /\ (py - y0 x) / r = Z.of_nat R) by (intros; by apply in_cell_floor).
  set (dx := searchsorted_right _ px) in *. set (dy := searchsorted_right _ py) in *.
  set (lx := length _) in *. set (ly := length (slice (uniform (y0 x) _ _) _ _)) in *. clearbody lx ly dx dy.
  unfold in_last, value_at. cbn [fst snd]. setoid_rewrite IC. clear IC Hx Hy Ex Ey.
  set (qx := (px - x0 x) / r) in *. set (qy := (py - y0 x) / r) in *. clearbody qx qy.
  destruct (decide ((Z.of_nat c0 <= qx < Z.of_nat (Nat.min c1 (ncols a - 1))) /\ (Z.of_nat r0 <= qy < Z.of_nat (Nat.min r1 (nrows a - 1))))) as [[Bx By]|Bn].
  - rewrite bool_decide_eq_true_2 in SX by done. rewrite bool_decide_eq_true_2 in SY by done.
    destruct SX as (-> & NX), SY as (-> & NY). rewrite (proj2 (Nat.eqb_neq _ lx) NX), (proj2 (Nat.eqb_neq _ ly) NY). cbn [orb Nat.eqb]. rewrite !Nat.sub_succ, !Nat.sub_0_r.
    rewrite P3 by lia. replace (r0 + (Z.to_nat qy - r0))%nat with (Z.to_nat qy) by lia. replace (c0 + (Z.to_nat qx - c0))%nat with (Z.to_nat qx) by lia.
    destruct (nd_get_is_Some a (Z.to_nat qy) (Z.to_nat qx) Hw) as [v Hv]; [lia|lia|]. rewrite Hv. exists v. split; [done|]. split.
    + intros (R & C & HR & HC & [I1 I2] & Hl). lia.
    + intros _. left. exists (Z.to_nat qy), (Z.to_nat qx). split; [lia|done].
  - exists None. split; [|split; [done|]].
    + assert (D : (dx = 0 \/ dx = lx \/ dy = 0 \/ dy = ly)%nat).
      { case_bool_decide; [|lia]. case_bool_decide; [|lia]. tauto. }
      destruct D as [->|[->|[->| ->]]]; cbn [Nat.eqb orb]; rewrite ?Nat.eqb_refl, ?orb_true_r; done.
    + intros Hl. destruct (decide (0 <= qx < Z.of_nat (ncols a) /\ 0 <= qy < Z.of_nat (nrows a))) as [Hin|Hout].
      * left. exists (Z.to_nat qy), (Z.to_nat qx). split; [lia|].
        destruct (nd_get_is_Some a (Z.to_nat qy) (Z.to_nat qx) Hw) as [[v|] Hv]; [lia|lia| |done]. exfalso.
        destruct (vb_all _ _ _ _ _ HB (Z.to_nat qy) (Z.to_nat qx)) as [V1 V2]; [by exists v|]. apply Hl.
        exists (Z.to_nat qy), (Z.to_nat qx). split; [lia|]. split; [lia|]. split; [lia|]. lia.
      * right. split; [done|]. intros R C HR HC. lia.
Qed.

Lemma rmap_spec {A B} (f : A -> res B) (P : A -> B -> Prop) l : (forall x, x ∈ l -> exists y, f x = Ok y /\ P x y) ->
  exists l', rmap f l = Ok l' /\ Forall2 P l l'.
Proof.
  induction l as [|x l IH]; intros H; [by exists []|]. destruct (H x) as (y & Hy & Py); [left|]. destruct IH as (l' & Hl & HP); [intros; apply H; by right|].
  exists (y :: l'). cbn [rmap]. rewrite Hy. cbn [rbind]. rewrite Hl. split; [done|by constructor].
Qed.
Section values.
  Context {T : Type} (O : tile_ops T) (e : env).

  Lemma query_grid g ls r nodata up g' o : g_get_layers_by_name O e g ls (Some r) nodata up = Ok (g', o) -> g_no_grid O g = Ok false.
  Proof. unfold g_get_layers_by_name. intros (ng & Hng & H)%rbind_Ok. by destruct ng. Qed.

  Lemma surf_spec g l r g' a x R C : g_get_layers_by_name O e g [l] (Some r) None false = Ok (g', Some [a]) -> m_ext (g_meta g) = Some x -> holds a R C ->
    nd_wf a /\ exists b r0 c0 r1 c1, value_box a r0 c0 r1 c1 /\ part_of r0 c0 r1 c1 a b /\
    g_surf_boundaries O e g [l] (Some r) None =
      Ok (g', (slice (arange (x0 x) (x1 x) r) c0 (c1 + 1), slice (arange (y0 x) (y1 x) r) r0 (r1 + 1), [b])).
  Proof.
    intros Hq Hx Hh. destruct (query_shape O e _ _ _ _ _ _ _ Hq) as (_ & rows & cols & HS). apply Forall_cons in HS as [(Hw & _) _]. split; [done|].
    destruct (trimmed_ok O e _ _ _ _ _ _ _ _ _ _ Hq eq_refl Hh) as (arrs & [r0 c0] & [r1 c1] & Ht).
    destruct (trimmed O e _ _ _ _ _ _ _ _ _ _ _ Ht) as (full & first & Hq' & Hf & HB & HP). rewrite Hq in Hq'. injection Hq' as <-. injection Hf as <-.
    apply Forall2_cons_inv_l in HP as (b & ? & HP & ->%Forall2_nil_inv_l & ->). exists b, r0, c0, r1, c1. split; [done|]. split; [done|].
    unfold g_surf_boundaries. rewrite (query_grid _ _ _ _ _ _ _ Hq). cbn [rbind pick_rez]. rewrite Ht. cbn [rbind fst snd]. rewrite Hx. done.
  Qed.

  Lemma values_spec g l r g' a x R C xs ys :
    g_get_layers_by_name O e g [l] (Some r) None false = Ok (g', Some [a]) -> m_ext (g_meta g) = Some x -> holds a R C ->
    0 < r -> Z.of_nat (nrows a) * r = y1 x - y0 x -> Z.of_nat (ncols a) * r = x1 x - x0 x ->
    length xs = length ys -> xs <> [] ->
    exists vals, g_layer_values_at_xy O e g xs ys l (Some r) None = Ok (g', vals) /\
      Forall2 (fun p v => (in_last x r a p -> v = None) /\ (~ in_last x r a p -> value_at x r a p v)) (zip xs ys) vals.
  Proof.
    intros Hq Hx Hh Hr Hy1 Hx1 Hlen Hne. destruct (surf_spec _ _ _ _ _ _ _ _ Hq Hx Hh) as (Hw & b & r0 & c0 & r1 & c1 & HB & HP & Hs).
    unfold g_layer_values_at_xy. rewrite Hlen, Nat.eqb_refl. cbn [negb foldl]. unfold query_step. cbn [rbind fst snd].
    assert (Hex : existsb (is_nodata None) (replicate (length ys) None) = true). { rewrite <- Hlen. by destruct xs. }
    rewrite Hex. cbn [negb]. rewrite Hs. cbn [rbind fst snd head rofopt].
    destruct (rmap_spec (fun lv : (Z * Z) * cell => if is_nodata None lv.2
       then lookup_xy (slice (arange (x0 x) (x1 x) r) c0 (c1 + 1)) (slice (arange (y0 x) (y1 x) r) r0 (r1 + 1)) b lv.1 lv.2 else Ok lv.2)
       (fun lv v => (in_last x r a lv.1 -> v = None) /\ (~ in_last x r a lv.1 -> value_at x r a lv.1 v)) (zip (zip xs ys) (replicate (length ys) None))) as (vals & Hv & HF).
    { intros [p c] Hp. apply elem_of_zip_r in Hp. apply elem_of_replicate in Hp as [-> _]. cbn [is_nodata fst snd]. by apply lookup_spec. }
    rewrite Hv. cbn [rbind]. exists vals. split; [done|]. clear -HF Hlen.
    assert (E : zip xs ys = (zip (zip xs ys) (replicate (length ys) (None : cell))).*1).
    { symmetry. apply fst_zip. rewrite zip_with_length, replicate_length. lia. }
    rewrite E. apply Forall2_fmap_l. exact HF.
  Qed.

  (** Several resolutions. *)
  Definition first_of (c v : cell) : cell := match c with Some q => Some q | None => v end.
  Lemma step_first locs : forall (f : Z * Z -> cell -> res cell) (cur vals : list cell),
    length cur = length locs ->
    rmap (fun lv : (Z * Z) * cell => if is_nodata None lv.2 then f lv.1 lv.2 else Ok lv.2) (zip locs (replicate (length locs) None)) = Ok vals ->
    rmap (fun lv : (Z * Z) * cell => if is_nodata None lv.2 then f lv.1 lv.2 else Ok lv.2) (zip locs cur) = Ok (zip_with first_of cur vals).
  Proof.
    induction locs as [|p locs IH]; intros f cur vals Hl; cbn [length replicate zip_with rmap].
    - intros [= <-]. by destruct cur.
    - destruct cur as [|c cur]; [done|]. cbn [zip_with rmap fst snd]. intros (v & Hv & H)%rbind_Ok. apply rbind_Ok in H as (vs & Hvs & [= <-]).
      rewrite (IH f cur vs) by (done || by injection Hl). change (f p None = Ok v) in Hv. cbn [zip_with]. destruct c as [q|]; [done|].
      change (is_nodata None None) with true. cbn [first_of]. rewrite Hv. done.
  Qed.
  Lemma first_all (cur : list cell) : forall vals, length vals = length cur -> existsb (is_nodata None) cur = false -> zip_with first_of cur vals = cur.
  Proof.
    induction cur as [|c cur IH]; intros [|v vals] Hl; try done. cbn [existsb zip_with]. intros [H1 H2]%orb_false_iff. rewrite IH by (done || by injection Hl).
    by destruct c.
  Qed.
  Lemma values_length g xs ys l r g' vals : g_layer_values_at_xy O e g xs ys l (Some r) None = Ok (g', vals) -> length vals = length xs /\ length xs = length ys.
  Proof.
    unfold g_layer_values_at_xy. destruct (length xs =? length ys)%nat eqn:E; [|done]. apply Nat.eqb_eq in E. cbn [negb foldl]. unfold query_step. cbn [rbind fst snd].
    destruct (negb _).
    - intros [= <- <-]. by rewrite replicate_length.
    - intros ([g1 [[sx sy] surfs]] & _ & H)%rbind_Ok. cbn [snd] in H. apply rbind_Ok in H as (surf & _ & H). apply rbind_Ok in H as (vs & Hv & [= <- <-]).
      apply rmap_length in Hv. rewrite Hv, !zip_with_length, replicate_length. lia.
  Qed.
  Lemma values_step g xs ys l r vals cur : g_layer_values_at_xy O e g xs ys l (Some r) None = Ok (g, vals) -> xs <> [] -> length cur = length xs ->
    query_step O e l None (zip xs ys) (Ok (g, cur)) r = Ok (g, zip_with first_of cur vals).
  Proof.
    intros H Hne Hl. destruct (values_length _ _ _ _ _ _ _ H) as [L1 L2]. unfold g_layer_values_at_xy in H. rewrite L2, Nat.eqb_refl in H. cbn [negb foldl] in H.
    unfold query_step in *. cbn [rbind fst snd] in *.
    assert (Hex : existsb (is_nodata None) (replicate (length ys) None) = true). { rewrite <- L2. by destruct xs. }
    rewrite Hex in H. cbn [negb] in H. destruct (existsb (is_nodata None) cur) eqn:E; cbn [negb].
    - apply rbind_Ok in H as ([g1 [[sx sy] surfs]] & -> & H). cbn [rbind snd] in *. apply rbind_Ok in H as (surf & -> & H). cbn [rbind] in *.
      apply rbind_Ok in H as (vs & Hv & [= -> <-]). cbn [fst]. erewrite step_first; [done| |].
      + rewrite zip_with_length. lia.
      + rewrite zip_with_length, L2, Nat.min_id. exact Hv.
    - rewrite first_all; [done|lia|done].
  Qed.
  Lemma values_fold g xs ys l (rs : list Z) (vals : Z -> list cell) : xs <> [] ->
    (forall r, r ∈ rs -> g_layer_values_at_xy O e g xs ys l (Some r) None = Ok (g, vals r)) -> forall cur, length cur = length xs ->
    foldl (query_step O e l None (zip xs ys)) (Ok (g, cur)) rs = Ok (g, foldl (fun c r => zip_with first_of c (vals r)) cur rs).
  Proof.
    intros Hne. induction rs as [|r rs IH]; intros H cur Hl; [done|]. cbn [foldl]. pose proof (H r (elem_of_list_here _ _)) as Hr.
    rewrite (values_step _ _ _ _ _ _ _ Hr Hne Hl). apply IH; [intros; apply H; by right|].
    rewrite zip_with_length. destruct (values_length _ _ _ _ _ _ _ Hr). lia.
  Qed.
  Lemma fold_first (rs : list Z) (vals : Z -> list cell) n : (forall r, r ∈ rs -> length (vals r) = n) -> forall cur i c, length cur = n -> cur !! i = Some c ->
    foldl (fun c r => zip_with first_of c (vals r)) cur rs !! i = Some (foldl (fun c r => first_of c (mjoin (vals r !! i))) c rs).
  Proof.
    induction rs as [|r rs IH]; intros H cur i c Hl Hc; [done|]. cbn [foldl]. apply IH.
    - intros; apply H; by right.
    - rewrite zip_with_length, H by left. lia.
    - assert (Hi : (i < length (vals r))%nat) by (rewrite H by left; apply lookup_lt_Some in Hc; lia).
      apply lookup_lt_is_Some in Hi as [v Hv]. rewrite lookup_zip_with, Hc. cbn. rewrite Hv. done.
  Qed.
  Lemma fold_finest (rs : list Z) (f : Z -> cell) : StronglySorted Z.le rs ->
    finest rs f (foldl (fun c r => first_of c (f r)) None rs).
  Proof.
    assert (K : forall rs q, foldl (fun c r => first_of c (f r)) (Some q) rs = Some q) by (induction rs0; done).
    induction 1 as [|r rs Hs IH Hf]; [left; split; [done|]; intros r Hr; by apply not_elem_of_nil in Hr|]. cbn [foldl first_of]. destruct (f r) as [q|] eqn:E.
    - rewrite K. right. exists r. split; [left|]. split; [done|]. split; [done|]. intros r' [->|Hr']%elem_of_cons Hlt; [lia|].
      rewrite Forall_forall in Hf. specialize (Hf r' Hr'). lia.
    - destruct IH as [[H1 H2]|(r' & H1 & H2 & H3 & H4)].
      + left. split; [done|]. intros r' [->|Hr']%elem_of_cons; [done|by apply H2].
      + right. exists r'. split; [by right|]. split; [done|]. split; [done|]. intros r2 [->|Hr2]%elem_of_cons Hlt; [done|]. by apply H4.
  Qed.
  Lemma values_finest g xs ys l (vals : Z -> list cell) : xs <> [] -> m_rezs (g_meta g) <> [] ->
    (forall r, r ∈ m_rezs (g_meta g) -> g_layer_values_at_xy O e g xs ys l (Some r) None = Ok (g, vals r)) ->
    exists out, g_layer_values_at_xy O e g xs ys l None None = Ok (g, out) /\ length out = length xs /\
      forall i v, out !! i = Some v -> finest (m_rezs (g_meta g)) (fun r => mjoin (vals r !! i)) v.
  Proof.
    intros Hne Hm H. set (rs := m_rezs (g_meta g)) in *.
    assert (HP : merge_sort Z.le rs ≡ₚ rs) by apply merge_sort_Permutation.
    assert (HS : StronglySorted Z.le (merge_sort Z.le rs)) by (apply StronglySorted_merge_sort; apply _).
    assert (H' : forall r, r ∈ merge_sort Z.le rs -> g_layer_values_at_xy O e g xs ys l (Some r) None = Ok (g, vals r)) by (intros r Hr; apply H; by rewrite <- HP).
    assert (L : length xs = length ys). { destruct rs as [|r rs']; [done|]. by destruct (values_length _ _ _ _ _ _ _ (H r (elem_of_list_here _ _))). }
    eexists. split; [|split].
    - unfold g_layer_values_at_xy at 1. rewrite L, Nat.eqb_refl. cbn [negb]. fold rs.
      apply (values_fold g xs ys l (merge_sort Z.le rs) vals Hne H'). by rewrite replicate_length.
    - assert (G : forall rs cur, (forall r, r ∈ rs -> length (vals r) = length xs) -> length cur = length xs -> length (foldl (fun c r => zip_with first_of c (vals r)) cur rs) = length xs).
      { induction rs0 as [|r rs0 IH]; intros cur Hv Hc; [done|]. cbn [foldl]. apply IH; [intros; apply Hv; by right|]. rewrite zip_with_length, Hv by left. lia. }
      apply G; [|by rewrite replicate_length]. intros r Hr. by destruct (values_length _ _ _ _ _ _ _ (H' r Hr)).
    - intros i v Hv. pose proof (fold_first (merge_sort Z.le rs) vals (length xs)) as F.
      assert (Hi : (i < length xs)%nat).
      { apply lookup_lt_Some in Hv. assert (G : forall rs cur, (length (foldl (fun c r => zip_with first_of c (vals r)) cur rs) <= length cur)%nat).
        { induction rs0 as [|r rs0 IH]; intros cur; [done|]. cbn [foldl]. etransitivity; [apply IH|]. rewrite zip_with_length. lia. }
        specialize (G (merge_sort Z.le rs) (replicate (length ys) None)). rewrite replicate_length in G. lia. }
      erewrite F in Hv; [|intros r Hr; by destruct (values_length _ _ _ _ _ _ _ (H' r Hr))|rewrite replicate_length; lia|apply lookup_replicate_2; lia]. injection Hv as <-.
      destruct (fold_finest (merge_sort Z.le rs) (fun r => mjoin (vals r !! i)) HS) as [[H1 H2]|(r' & H1 & H2 & H3 & H4)].
      + left. split; [done|]. intros r Hr. apply H2. by rewrite HP.
      + right. exists r'. split; [by rewrite <- HP|]. split; [done|]. split; [done|]. intros r Hr. apply H4. by rewrite HP.
  Qed.
End values.
