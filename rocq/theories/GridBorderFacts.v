(** The border points of variable resolution grids (C97, C98). *)
From Coq Require Import Lqa.
From Verif Require Import Py Nd Numpy Point Bin Algorithms Tile TileFail Time Meta Disk Grid GridRun GridQuery GridOps Spec TileExec GridExec BorderSpec PyFacts NdFacts NumpyFacts AlgFacts BinFacts
  MiscFacts TileFacts TileGridFacts TileSpecFacts TileRunFacts TileHistFacts ShoalFacts TilePropFacts TileQueryFacts GridBaseFacts GridPlaceFacts GridInvFacts GridRootFacts
  GridEvolveFacts GridSrFacts GridPropFacts GridHistFacts GridRunFacts GridCleanFacts GridUpdateFacts GridDensityFacts GridFlagFacts GridLayerFacts GridReadFacts GridAnswerFacts GridExportFacts WholeSpec GridWholeFacts TileSoundFacts ViewsFacts GridRecoverFacts.
Open Scope Z_scope.

(** ** Splitting a list by an index *)
Lemma filter_both {A} (P : A -> Prop) `{forall x, Decision (P x)} (l : list A) : filter P l ++ filter (fun x => ~ P x) l ≡ₚ l.
Proof.
  induction l as [|x l IH]; [done|]. rewrite !filter_cons. destruct (decide (P x)) as [H1|H1], (decide (~ P x)) as [H2|H2]; try done.
  - cbn. by f_equiv.
  - rewrite <- Permutation_middle. by f_equiv.
Qed.
Lemma filter_concat {A} (P : A -> Prop) `{forall x, Decision (P x)} (ls : list (list A)) : filter P (concat ls) = concat (map (fun l => filter P l) ls).
Proof. induction ls as [|l ls IH]; [done|]. change (concat (l :: ls)) with (l ++ concat ls). by rewrite filter_app, IH. Qed.
Lemma filter_top {A} (f : A -> nat) n (l : list A) : Forall (fun p => (f p < S n)%nat) l ->
  filter (fun p => f p = n) l = filter (fun p => ~ (f p < n)%nat) l.
Proof.
  induction l as [|p l IH]; [done|]. intros [Hp Hl]%Forall_cons. rewrite !filter_cons, (IH Hl).
  destruct (decide (f p = n)), (decide (~ (f p < n)%nat)); try done; lia.
Qed.
Lemma split_perm {A} (f : A -> nat) n (l : list A) : Forall (fun p => (f p < n)%nat) l ->
  concat (map (fun k => filter (fun p => f p = k) l) (seq 0 n)) ≡ₚ l.
Proof.
  revert l. induction n as [|n IH]; intros l H.
  - destruct l as [|p l]; [done|]. apply Forall_inv in H. lia.
  - rewrite seq_S, map_app, concat_app. cbn [map concat Nat.add]. rewrite app_nil_r.
    etransitivity; [|apply (filter_both (fun p => f p < n)%nat l)].
    rewrite <- (IH (filter (fun p => f p < n)%nat l)).
    2:{ apply Forall_forall. intros p [Hp _]%elem_of_list_filter. done. }
    apply Permutation_app.
    + apply Permutation_refl'. f_equal. apply map_ext_in. intros k Hk%in_seq. rewrite list_filter_filter. apply list_filter_iff. intros p. lia.
    + apply Permutation_refl'. by apply filter_top.
Qed.

Section neighbour.
  Context {T : Type} (m0 : gmeta) (rep : T -> Z -> Z -> content -> Prop) (Hs : 0 < m_tile_size m0).
  Notation s := (m_tile_size m0).
  Definition at_offset (sd : side) : Z * Z := match sd with Above => (0, -1) | Right => (1, 0) | Below => (0, 1) | Left => (-1, 0) end.
  (** The neighbour at [sd] is the tile of the square on that side. *)
  Lemma neighbour_square g ct lx ly nx ny a k x y sd : placed m0 rep g ct lx ly nx ny a -> origin_at g k = Some (x, y) ->
    let u := x + (at_offset sd).1 * s in let v := y + (at_offset sd).2 * s in
    match neighbour g k sd with
    | Some t => exists j, tile_at g j = Some t /\ origin_at g j = Some (u, v) /\ content_in u v s ct <> [] /\ rep t u v (content_in u v s ct)
    | None => content_in u v s ct = [] /\ forall j, origin_at g j = Some (u, v) -> tile_at g j = None
    end.
  Proof using Hs.
    intros HPl Ho u v. pose proof (pl_geom _ _ _ _ _ _ _ _ _ HPl) as HG.
    pose proof (std_origin_bound m0 _ _ _ _ _ _ _ HG Ho) as Hk. rewrite (std_origin m0 _ _ _ _ _ _ HG Hk) in Ho. injection Ho as <- <-.
    destruct (flat_div_lt _ _ _ Hk) as [H1 H2]. assert (Hn : (0 < nx)%nat) by lia.
    pose proof (Nat.div_mod k nx ltac:(lia)) as Hdm.
    assert (Hin : forall j, origin_at g j = Some (u, v) -> match tile_at g j with
      | Some t => content_in u v s ct <> [] /\ rep t u v (content_in u v s ct) | None => content_in u v s ct = [] end).
    { intros j Hj. exact (placed_loc _ _ _ _ _ _ _ _ _ _ _ _ HPl Hj). }
    set (r' := Z.of_nat (k / nx) + (at_offset sd).2). set (c' := Z.of_nat (k mod nx) + (at_offset sd).1).
    assert (Eu : u = lx + c' * s) by (unfold u, c'; ring). assert (Ev : v = ly + r' * s) by (unfold v, r'; ring).
    assert (HNI : neighbour_index ny nx k sd = if decide (0 <= r' < Z.of_nat ny /\ 0 <= c' < Z.of_nat nx) then Some (Z.to_nat r' * nx + Z.to_nat c')%nat else None).
    { unfold neighbour_index, r', c'. destruct sd; cbn [at_offset fst snd].
      - destruct (Nat.eqb_spec (k / nx) 0); [rewrite decide_False by lia; done|]. rewrite decide_True by lia. f_equal.
        replace (Z.to_nat (Z.of_nat (k / nx) + -1)) with (k / nx - 1)%nat by lia. rewrite Z.add_0_r, Nat2Z.id. nia.
      - destruct (Nat.ltb_spec (S (k mod nx)) nx); [|rewrite decide_False by lia; done]. rewrite decide_True by lia. f_equal.
        replace (Z.to_nat (Z.of_nat (k mod nx) + 1)) with (S (k mod nx)) by lia. rewrite Z.add_0_r, Nat2Z.id. nia.
      - destruct (Nat.ltb_spec (S (k / nx)) ny); [|rewrite decide_False by lia; done]. rewrite decide_True by lia. f_equal.
        replace (Z.to_nat (Z.of_nat (k / nx) + 1)) with (S (k / nx)) by lia. rewrite Z.add_0_r, Nat2Z.id. nia.
      - destruct (Nat.eqb_spec (k mod nx) 0); [rewrite decide_False by lia; done|]. rewrite decide_True by lia. f_equal.
        replace (Z.to_nat (Z.of_nat (k mod nx) + -1)) with (k mod nx - 1)%nat by lia. rewrite Z.add_0_r, Nat2Z.id. nia. }
    unfold neighbour. rewrite (pl_tiles _ _ _ _ _ _ _ _ _ HPl), (pl_rows _ _ _ _ _ _ _ _ _ HPl), (pl_cols _ _ _ _ _ _ _ _ _ HPl), HNI.
    assert (HO : forall j, (j < ny * nx)%nat -> origin_at g j = Some (lx + Z.of_nat (j mod nx) * s, ly + Z.of_nat (j / nx) * s)).
    { intros j Hj. exact (std_origin m0 _ _ _ _ _ _ HG Hj). }
    destruct (decide (0 <= r' < Z.of_nat ny /\ 0 <= c' < Z.of_nat nx)) as [[G1 G2]|Hno].
    - set (j := (Z.to_nat r' * nx + Z.to_nat c')%nat).
      assert (Hj : (j < ny * nx)%nat) by (apply flat_lt; lia).
      assert (Hoj : origin_at g j = Some (u, v)).
      { rewrite (HO j Hj). unfold j. rewrite flat_mod, flat_div by lia. rewrite Eu, Ev, !Z2Nat.id by lia. done. }
      pose proof (Hin j Hoj) as HL. destruct (tile_at g j) as [t|] eqn:Ht; [by exists j|]. split; [done|]. intros i Hi.
      assert (i = j) as ->; [|done].
      pose proof (std_origin_bound m0 _ _ _ _ _ _ _ HG Hi) as Hib. rewrite (HO i Hib), Eu, Ev in Hi. injection Hi as E1 E2.
      assert (Z.of_nat (i mod nx) = c') by nia. assert (Z.of_nat (i / nx) = r') by nia.
      pose proof (Nat.div_mod i nx ltac:(lia)). unfold j. nia.
    - assert (Hnone : forall j, origin_at g j <> Some (u, v)).
      { intros i Hi. pose proof (std_origin_bound m0 _ _ _ _ _ _ _ HG Hi) as Hib. destruct (flat_div_lt _ _ _ Hib). rewrite (HO i Hib), Eu, Ev in Hi. injection Hi as E1 E2.
        assert (Z.of_nat (i mod nx) = c') by nia. assert (Z.of_nat (i / nx) = r') by nia. apply Hno. lia. }
      split; [|intros j Hj; by apply Hnone in Hj].
      apply all_points_nil_iff; [apply content_in_nonempty|]. rewrite content_in_points. destruct (filter _ (all_points ct)) as [|p l'] eqn:El; [done|]. exfalso.
      assert (Hp : p ∈ filter (fun p => in_square u v s (px p) (py p)) (all_points ct)) by (rewrite El; left).
      apply elem_of_list_filter in Hp as [Hsq Hp].
      pose proof (pl_rect _ _ _ _ _ _ _ _ _ HPl) as HF. rewrite Forall_forall in HF.
      specialize (HF (xy_of p) (elem_of_list_fmap_1 xy_of _ _ Hp)). unfold in_rect in HF. rewrite Eu, Ev in Hsq. unfold in_square in Hsq. unfold xy_of in HF. cbn in HF.
      apply Hno. nia.
  Qed.
End neighbour.

(** ** The strip of one neighbour *)
Definition near_side (s X Y : Z) (sd : side) (q : Q) (p : point) : bool :=
  Qle_bool (inject_Z (match sd with
    | Above => s - (py p - Y) mod s | Right => (px p - X) mod s | Below => (py p - Y) mod s | Left => s - (px p - X) mod s end)) q.
Lemma near_above q u v : Qle_bool (inject_Z u - q) (inject_Z v) = Qle_bool (inject_Z (u - v)) q.
Proof. apply eq_true_iff_eq. rewrite !Qle_bool_iff. unfold Z.sub. rewrite inject_Z_plus, inject_Z_opp. split; intros; lra. Qed.
Lemma near_below q u v : Qle_bool (inject_Z v) (inject_Z u + q) = Qle_bool (inject_Z (v - u)) q.
Proof. apply eq_true_iff_eq. rewrite !Qle_bool_iff. unfold Z.sub. rewrite inject_Z_plus, inject_Z_opp. split; intros; lra. Qed.

Lemma strip_own_side s b X Y i j t d sd q : 0 < s -> at_square t (X + i * s) (Y + j * s) s b -> t_data t = Some d ->
  Forall (fun p => in_square (X + i * s) (Y + j * s) s (px p) (py p)) d ->
  t_strip t sd q = Ok (filter (fun p => near_side s X Y sd q p = true) d).
Proof.
  intros Hs (E1 & E2 & E3 & _) Hd HF. unfold t_strip. rewrite Hd. f_equal.
  assert (Hm : forall v lo i, lo + i * s <= v < lo + i * s + s -> (v - lo) mod s = v - (lo + i * s)).
  { intros v lo i0 Hv. symmetry. apply (Z.mod_unique _ _ i0); [left; lia|ring]. }
  apply filter_ext_in, Forall_forall. intros p Hp. rewrite Forall_forall in HF. destruct (HF p Hp) as [P1 P2].
  unfold near_side, t_max_x, t_max_y. rewrite E1, E2, E3, (Hm _ _ _ P1), (Hm _ _ _ P2).
  destruct sd; rewrite ?near_above, ?near_below; f_equiv; f_equiv; f_equal; lia.
Qed.

Section strip.
  Context (m0 : gmeta) (rep : tile -> Z -> Z -> content -> Prop) (b : bool) (Hs : 0 < m_tile_size m0).
  Notation s := (m_tile_size m0).
  Context (Hrep : forall t x y ct, rep t x y ct -> sr_rep s b t x y ct).
  Lemma strip_locations (g : sr_grid) ct X Y nx ny a sd q : placed m0 rep g ct X Y nx ny a ->
    (every_location g -> exists l, g_strip sr_ops g sd q = Ok l /\ l ≡ₚ filter (fun p => near_side s X Y sd q p = true) (all_points ct)) /\
    (~ every_location g -> g_strip sr_ops g sd q = Raise AttributeError).
  Proof using Hs Hrep.
    intros HPl. pose proof HPl as [P1 P2 P3 P4 P5 P6 [P7 _] P8].
    set (D := all_points ct). set (near := fun p => near_side s X Y sd q p = true).
    set (f := fun p => (Z.to_nat ((py p - Y) / s) * nx + Z.to_nat ((px p - X) / s))%nat).
    assert (HT : forall k, (k < ny * nx)%nat -> match tile_at g k with
      | Some t => t_strip t sd q = Ok (filter near (filter (fun p => f p = k) D)) | None => True end).
    { intros k Hk. pose proof (std_origin m0 _ _ _ _ _ _ P3 Hk) as Ho. pose proof (placed_loc _ _ _ _ _ _ _ _ _ _ _ _ HPl Ho) as HL.
      destruct (tile_at g k) as [t|]; [|done]. destruct HL as (Hne & HR). destruct (Hrep _ _ _ _ HR) as (Hsq & HT & HF).
      rewrite (strip_own_side s b X Y _ _ t _ sd q Hs Hsq (rep_data _ _ HT Hne) HF). f_equal. fold near. f_equal. rewrite content_in_points. fold D.
      apply filter_ext_in, Forall_forall. intros p Hp. rewrite Forall_forall in P8. specialize (P8 (xy_of p) (elem_of_list_fmap_1 xy_of _ _ Hp)).
      unfold in_rect, xy_of in P8. cbn in P8. destruct (flat_div_lt _ _ _ Hk) as [K1 K2]. pose proof (flat_split nx k P1) as K3. unfold in_square, f.
      pose proof (Z.div_mod (py p - Y) s ltac:(lia)) as D1. pose proof (Z.mod_pos_bound (py p - Y) s Hs) as D2.
      pose proof (Z.div_mod (px p - X) s ltac:(lia)) as D3. pose proof (Z.mod_pos_bound (px p - X) s Hs) as D4.
      set (i := (py p - Y) / s) in *. set (j := (px p - X) / s) in *.
      assert (0 <= i) by nia. assert (0 <= j < Z.of_nat nx) by nia. split.
      - intros [Q1 Q2]. assert (j = Z.of_nat (k mod nx)) as -> by nia. assert (i = Z.of_nat (k / nx)) as -> by nia. rewrite !Nat2Z.id. lia.
      - intros Hf. assert (E1 : (k mod nx)%nat = Z.to_nat j) by (rewrite <- Hf; apply flat_mod; lia).
        assert (E2 : (k / nx)%nat = Z.to_nat i) by (rewrite <- Hf; apply flat_div; lia).
        rewrite E1, E2, !Z2Nat.id by lia. lia. }
    unfold g_strip. rewrite P4. split.
    - intros Hev. exists (concat (map (fun k => filter near (filter (fun p => f p = k) D)) (seq 0 (ny * nx)))). split.
      + assert (E : rmap (fun t => let* t := rofopt t AttributeError in op_strip sr_ops t sd q) (nflat a) =
                    Ok (map (fun k => filter near (filter (fun p => f p = k) D)) (seq 0 (ny * nx)))); [|by rewrite E].
        apply rmap_Ok. apply Forall2_same_length_lookup. split; [by rewrite map_length, seq_length|].
        intros k o l Ho Hl. pose proof (lookup_lt_Some _ _ _ Ho) as Hk. rewrite P7 in Hk.
        rewrite list_lookup_fmap, lookup_seq_lt in Hl by done. cbn in Hl. injection Hl as <-.
        destruct (Hev k _ (std_origin m0 _ _ _ _ _ _ P3 Hk)) as [t Ht]. pose proof (HT k Hk) as H. rewrite Ht in H.
        unfold tile_at in Ht. rewrite P4, Ho in Ht. cbn in Ht. destruct o as [t'|]; [|done]. injection Ht as ->. done.
      + transitivity (filter near (concat (map (fun k => filter (fun p => f p = k) D) (seq 0 (ny * nx))))).
        * by rewrite filter_concat, map_map.
        * rewrite split_perm; [done|]. apply Forall_forall. intros p Hp. rewrite Forall_forall in P8.
          specialize (P8 (xy_of p) (elem_of_list_fmap_1 xy_of _ _ Hp)). unfold in_rect, xy_of in P8. cbn in P8.
          pose proof (Z.div_mod (py p - Y) s ltac:(lia)) as D1. pose proof (Z.mod_pos_bound (py p - Y) s Hs) as D2.
          pose proof (Z.div_mod (px p - X) s ltac:(lia)) as D3. pose proof (Z.mod_pos_bound (px p - X) s Hs) as D4.
          unfold f. apply flat_lt; nia.
    - intros Hno. rewrite (rmap_Raise _ _ AttributeError); [done| |].
      + intros o Ho. apply elem_of_list_lookup in Ho as [k Ho]. destruct o as [t|]; [left|by right]. cbn [rofopt rbind].
        pose proof (lookup_lt_Some _ _ _ Ho) as Hk. rewrite P7 in Hk. pose proof (HT k Hk) as H. unfold tile_at in H. rewrite P4, Ho in H. cbn in H. by eexists.
      + destruct (decide (Forall is_Some (nflat a))) as [H|H].
        * exfalso. apply Hno. intros j uv Hj. pose proof (std_origin_bound m0 _ _ _ _ _ _ _ P3 Hj) as Hb.
          destruct (lookup_lt_is_Some_2 (nflat a) j ltac:(lia)) as [o Ho]. rewrite Forall_lookup in H. specialize (H j o Ho).
          unfold tile_at. rewrite P4, Ho. done.
        * apply not_Forall_Exists in H; [|apply _]. apply Exists_exists in H as (o & Ho & Hn). exists o. split; [done|]. destruct o; [|done].
          exfalso. apply Hn. by eexists.
  Qed.
End strip.

Lemma every_location_or {T} (m0 : gmeta) (rep : T -> Z -> Z -> content -> Prop) g ct X Y nx ny a : placed m0 rep g ct X Y nx ny a ->
  every_location g \/ ~ every_location g.
Proof.
  intros [P1 P2 P3 P4 P5 P6 [P7 _] P8]. destruct (decide (Forall is_Some (nflat a))) as [H|H]; [left|right].
  - intros j uv Hj. pose proof (std_origin_bound m0 _ _ _ _ _ _ _ P3 Hj) as Hb. destruct (lookup_lt_is_Some_2 (nflat a) j ltac:(lia)) as [o Ho].
    rewrite Forall_lookup in H. specialize (H j o Ho). unfold tile_at. rewrite P4, Ho. done.
  - intros Hev. apply H. apply Forall_lookup. intros j o Ho. pose proof (lookup_lt_Some _ _ _ Ho) as Hk. rewrite P7 in Hk.
    destruct (Hev j _ (std_origin m0 _ _ _ _ _ _ P3 Hk)) as [t Ht]. unfold tile_at in Ht. rewrite P4, Ho in Ht. cbn in Ht. rewrite Ht. by eexists.
Qed.

(** ** The border points of a tile of a variable resolution grid *)
Section vr.
  Context (size sub : Z) (b zarr : bool) (Hsize : 0 < size) (Hsub : 0 < sub).
  Notation m0 := (new_vr_meta 0 0 size sub b zarr).
  Notation rep := (subs_rep size sub b zarr).
  Lemma subs_placed sg u v ct : rep sg u v ct -> ct <> [] -> exists n a, placed (sub0 size sub b zarr u v) (sound_rep sub false) sg ct u v n n a.
  Proof using. intros [_ [(_ & E & _)|(_ & a & HP & _)]] Hne; [done|]. by eexists _, a. Qed.
  Lemma subs_strip sg u v ct sd q : rep sg u v ct -> ct <> [] ->
    (every_location sg -> exists l, op_strip vr_ops sg sd q = Ok l /\ l ≡ₚ filter (fun p => near_side sub u v sd q p = true) (all_points ct)) /\
    (~ every_location sg -> op_strip vr_ops sg sd q = Raise AttributeError).
  Proof using Hsub.
    intros HR Hne. destruct (subs_placed _ _ _ _ HR Hne) as (n & a & HP).
    apply (strip_locations (sub0 size sub b zarr u v) (sound_rep sub false) false Hsub) with (2 := HP). by intros t x y ct' [H _].
  Qed.
  Lemma subs_every sg u v ct : rep sg u v ct -> ct <> [] -> every_location sg \/ ~ every_location sg.
  Proof using. intros HR Hne. destruct (subs_placed _ _ _ _ HR Hne) as (n & a & HP). by eapply every_location_or. Qed.

  Context (g : vr_grid) (ct : content) (lx ly : Z) (nx ny : nat) (a : nd (option (grid tile))) (k : nat) (x y : Z) (q : Q).
  Context (HPl : placed m0 rep g ct lx ly nx ny a) (Ho : origin_at g k = Some (x, y)).

  Lemma beside_of sd sg j : tile_at g j = Some sg -> origin_at g j = Some (x + (at_offset sd).1 * size, y + (at_offset sd).2 * size) -> beside g size x y sg.
  Proof using. intros H1 H2. eexists j, _, _. split; [exact H1|]. split; [exact H2|]. destruct sd; cbn; [left|right|left|right]; split; lia. Qed.
  Lemma beside_side sg : beside g size x y sg -> exists sd, neighbour g k sd = Some sg.
  Proof using Hsize HPl Ho.
    intros (j & u & v & H1 & H2 & H3).
    assert (exists sd, u = x + (at_offset sd).1 * size /\ v = y + (at_offset sd).2 * size) as (sd & -> & ->).
    { destruct H3 as [[-> [->| ->]]|[-> [->| ->]]]; [exists Above|exists Below|exists Left|exists Right]; cbn; lia. }
    exists sd. pose proof (neighbour_square m0 rep Hsize g ct lx ly nx ny a k x y sd HPl Ho) as HN. cbv zeta in HN.
    change (m_tile_size m0) with size in HN.
    destruct (neighbour g k sd) as [sg'|].
    - destruct HN as (j' & N1 & N2 & _). pose proof (pl_geom _ _ _ _ _ _ _ _ _ HPl) as HG.
      assert (j = j') as <-; [|congruence]. pose proof (std_origin_bound m0 _ _ _ _ _ _ _ HG H2) as B1. pose proof (std_origin_bound m0 _ _ _ _ _ _ _ HG N2) as B2.
      rewrite <- N2 in H2. rewrite (std_origin m0 _ _ _ _ _ _ HG B1), (std_origin m0 _ _ _ _ _ _ HG B2) in H2. injection H2 as E1 E2.
      change (m_tile_size m0) with size in E1, E2. pose proof (pl_nx _ _ _ _ _ _ _ _ _ HPl) as Hn. rewrite (flat_split nx j Hn), (flat_split nx j' Hn).
      assert (Z.of_nat (j mod nx) = Z.of_nat (j' mod nx)) by nia. assert (Z.of_nat (j / nx) = Z.of_nat (j' / nx)) by nia. lia.
    - destruct HN as [_ HN]. by rewrite (HN j H2) in H1.
  Qed.

  Lemma side_strip sd : let u := x + (at_offset sd).1 * size in let v := y + (at_offset sd).2 * size in
    (forall sg, neighbour g k sd = Some sg -> every_location sg) ->
    exists l, neighbour_strip vr_ops g k q sd = Ok l /\
      l ≡ₚ filter (fun p => in_square u v size (px p) (py p) /\ near_side sub u v sd q p = true) (all_points ct).
  Proof using Hsize Hsub HPl Ho.
    intros u v Hev. unfold neighbour_strip. pose proof (neighbour_square m0 rep Hsize g ct lx ly nx ny a k x y sd HPl Ho) as HN. cbv zeta in HN.
    change (m_tile_size m0) with size in HN. fold u v in HN.
    assert (E : forall P : point -> bool, filter (fun p => P p = true) (all_points (content_in u v size ct)) =
                filter (fun p => in_square u v size (px p) (py p) /\ P p = true) (all_points ct)).
    { intros P. rewrite content_in_points, list_filter_filter. apply list_filter_iff. intros p. tauto. }
    destruct (neighbour g k sd) as [sg|].
    - destruct HN as (j & _ & _ & Hne & HR). destruct (subs_strip sg u v _ sd q HR Hne) as [H _]. destruct (H (Hev sg eq_refl)) as (l & H1 & H2).
      exists l. split; [done|]. by rewrite H2, E.
    - destruct HN as [HN _]. exists []. split; [done|]. rewrite <- E, HN. done.
  Qed.

  Lemma vr_border_points : (forall sg, beside g size x y sg -> every_location sg) ->
    exists o, get_tile_neighbor_points vr_ops g k q = Ok o /\ o <> Some [] /\ default [] o ≡ₚ sub_border_points size sub x y q (all_points ct).
  Proof using Hsize Hsub HPl Ho.
    intros Hev.
    assert (HS : forall sd sg, neighbour g k sd = Some sg -> every_location sg).
    { intros sd sg Hn. apply Hev. pose proof (neighbour_square m0 rep Hsize g ct lx ly nx ny a k x y sd HPl Ho) as HN. cbv zeta in HN. rewrite Hn in HN.
      destruct HN as (j & N1 & N2 & _). by eapply beside_of. }
    destruct (side_strip Above (HS Above)) as (l1 & A1 & A2). destruct (side_strip Right (HS Right)) as (l2 & B1 & B2).
    destruct (side_strip Below (HS Below)) as (l3 & C1 & C2). destruct (side_strip Left (HS Left)) as (l4 & D1 & D2).
    unfold get_tile_neighbor_points. cbn [rmap]. rewrite A1, B1, C1, D1. cbn [rbind concat]. rewrite app_nil_r.
    eexists. split; [reflexivity|]. set (l := l1 ++ l2 ++ l3 ++ l4).
    assert (HP : l ≡ₚ sub_border_points size sub x y q (all_points ct)).
    { unfold l. rewrite A2, B2, C2, D2. unfold sub_border_points, near_side. cbn [at_offset fst snd].
      replace (x + 0 * size) with x by lia. replace (y + 0 * size) with y by lia. replace (y + -1 * size) with (y - size) by lia.
      replace (x + 1 * size) with (x + size) by lia. replace (y + 1 * size) with (y + size) by lia. replace (x + -1 * size) with (x - size) by lia. done. }
    destruct l as [|p l0]; split; try done.
  Qed.
  Lemma vr_border_raises : (exists sg, beside g size x y sg /\ ~ every_location sg) -> get_tile_neighbor_points vr_ops g k q = Raise AttributeError.
  Proof using Hsize Hsub HPl Ho.
    intros (sg & Hb & Hno). apply beside_side in Hb as [sd Hn]. unfold get_tile_neighbor_points. rewrite (rmap_Raise _ _ AttributeError); [done| |].
    - intros sd' _. pose proof (neighbour_square m0 rep Hsize g ct lx ly nx ny a k x y sd' HPl Ho) as HN. cbv zeta in HN.
      unfold neighbour_strip. destruct (neighbour g k sd') as [sg'|]; [|left; by eexists]. destruct HN as (j & _ & _ & Hne & HR).
      destruct (subs_strip sg' _ _ _ sd' q HR Hne) as [H1 H2]. destruct (subs_every _ _ _ _ HR Hne) as [H|H]; [left|right; by apply H2].
      destruct (H1 H) as (l & -> & _). by eexists.
    - exists sd. split; [destruct sd; repeat constructor|]. pose proof (neighbour_square m0 rep Hsize g ct lx ly nx ny a k x y sd HPl Ho) as HN. cbv zeta in HN.
      unfold neighbour_strip. rewrite Hn in *. destruct HN as (j & _ & _ & Hne & HR). by apply (subs_strip sg _ _ _ sd q HR Hne).
  Qed.
  Lemma vr_border_every o : get_tile_neighbor_points vr_ops g k q = Ok o -> forall sg, beside g size x y sg -> every_location sg.
  Proof using Hsize Hsub HPl Ho.
    intros Hq sg Hb. destruct (beside_side sg Hb) as [sd Hn].
    pose proof (neighbour_square m0 rep Hsize g ct lx ly nx ny a k x y sd HPl Ho) as HN. cbv zeta in HN. rewrite Hn in HN. destruct HN as (j & _ & _ & Hne & HR).
    destruct (subs_every _ _ _ _ HR Hne) as [H|H]; [done|]. rewrite vr_border_raises in Hq by (by exists sg). done.
  Qed.
End vr.

(** With tiles of whole sub-tiles, the points near the border are among them. *)
Lemma border_sub_border size sub x y q d p : 0 < sub -> size mod sub = 0 -> 
  p ∈ border_points size x y q d -> p ∈ sub_border_points size sub x y q d.
Proof.
  intros Hsub Hm. unfold border_points, sub_border_points. rewrite !elem_of_app, !elem_of_list_filter.
  apply Z.mod_divide in Hm as [m Hm]; [|lia].
  assert (Hle : forall u v : Z, u <= v -> Qle_bool (inject_Z v) q = true -> Qle_bool (inject_Z u) q = true).
  { intros u v Huv. rewrite !Qle_bool_iff. intros H. eapply Qle_trans; [|exact H]. rewrite <- Zle_Qle. done. }
  assert (H1 : forall v, 0 <= v -> v mod sub <= v) by (intros v Hv; by apply Z.mod_le).
  assert (H2 : forall v, v < size -> sub - v mod sub <= size - v).
  { intros v Hv. pose proof (Z.div_mod v sub ltac:(lia)). pose proof (Z.mod_pos_bound v sub Hsub).
    assert (v / sub < m) by (apply Z.div_lt_upper_bound; lia). assert (sub * (v / sub + 1) <= sub * m) by (apply Z.mul_le_mono_nonneg_l; lia). lia. }
  intros [[[Hi Hq] Hp]|[[[Hi Hq] Hp]|[[[Hi Hq] Hp]|[[Hi Hq] Hp]]]].
  - left. split; [|done]. split; [done|]. eapply Hle, Hq. destruct Hi as [_ Hi]. specialize (H2 (py p - (y - size)) ltac:(lia)). lia.
  - right; left. split; [|done]. split; [done|]. eapply Hle, Hq. destruct Hi as [Hi _]. apply H1. lia.
  - right; right; left. split; [|done]. split; [done|]. eapply Hle, Hq. destruct Hi as [_ Hi]. apply H1. lia.
  - right; right; right. split; [|done]. split; [done|]. eapply Hle, Hq. destruct Hi as [Hi _]. specialize (H2 (px p - (x - size)) ltac:(lia)). lia.
Qed.

(** ** Gridding with CUBE *)
Lemma buffer_given {T} (O : tile_ops T) a dask r t : exists q, buffer O dask (grid_auto a) (Some r) t = Ok q.
Proof. unfold buffer, parallel_buffer. destruct dask; [|by eexists]. destruct (_ : bool); by eexists. Qed.
Lemma root_placed {T} m0 (rep : T -> Z -> Z -> content -> Prop) g ct seen ok : root_inv m0 rep g ct seen ok -> ct <> [] ->
  exists lx ly nx ny a, placed m0 rep g ct lx ly nx ny a.
Proof. intros [_ [(_ & E & _)|(_ & lx & ly & nx & ny & a & HP & _)]] Hne; [done|]. by eexists lx, ly, nx, ny, a. Qed.

Lemma vr_cube_returns e (P : gargs -> Prop) size sub b zarr disk g ct a dask r :
  0 < size -> 0 < sub -> (forall a, P a -> known_args a) -> vr_clean e P size sub b zarr disk g ct -> ct <> [] ->
  mismatch g a = false -> ga_alg a = "cube" -> ga_rez a = Some r -> is_power_of_two (metres e r) = true -> cube_ready e ->
  (forall k x y sg0 sg, tile_at g k = Some sg0 -> origin_at g k = Some (x, y) -> beside g size x y sg -> every_location sg) ->
  exn_of (g_grid vr_ops e g a dask) = None.
Proof.
  intros Hs Hsub HP H Hne HM HA Hr Hp HQ Hev.
  destruct (clean_history_of _ _ _ _ _ _ H) as (seen' & ok' & Hh).
  destruct (root_placed _ _ _ _ _ _ (vr_sound_inv e size sub b zarr disk Hs Hsub g ct seen' ok' Hh) Hne) as (lx & ly & nx & ny & ar & HPl).
  destruct (vr_clean_inv e (fun _ _ => True) P size sub b zarr disk Hs Hsub (fun a Pa => known_allows a (HP a Pa)) g ct H) as (_ & seen & ok & HI).
  apply (grid_total vr_ops e sub_keeps sub_keeps_refl sub_keeps_trans (vr_grid_keeps e) vr_reload_keeps g_strip_keeps g a dask (Some r));
    [apply vr_origins|by eapply root_tiles_known|done| |unfold call_rez; by rewrite Hr|].
  { rewrite (root_is_empty (new_vr_meta 0 0 size sub b zarr) _ Hs _ _ _ _ HI). by apply bool_decide_eq_false_2. }
  intros k sg Ht. unfold entry_result, entry_at. cbn [en_k en_t en_run Nat.add]. destruct (skip_tile _ _ _ sg); [by eexists|].
  assert (exists bd, borders vr_ops g a dask (Some r) k sg = Ok bd) as [bd Hb].
  { unfold borders, border_for. rewrite bool_decide_eq_true_2 by done. destruct (buffer_given vr_ops a dask r sg) as [q ->]. cbn [rbind].
    destruct (placed_origin _ _ _ _ _ _ _ _ _ _ _ HPl Ht) as (x & y & Ho).
    destruct (vr_border_points size sub b zarr Hs Hsub g ct lx ly nx ny ar k x y q HPl Ho) as (o & -> & _); [intros sg'; by eapply Hev|]. cbn [rbind]. by eexists. }
  rewrite Hb. cbn [rbind]. cbn [vr_ops grid_ops op_grid op_sr]. rewrite andb_false_r. set (a' := call_args _ _ _ _ _ _ _).
  destruct (root_rep _ _ _ _ _ _ _ _ HI Ht) as (x & y & ct' & [HC HS] & Hne').
  assert (Hx : exn_of (g_grid sr_ops e sg a' None) = None).
  { apply (sr_total e (fun _ _ => True) sub false Hsub sg a' None r); try done.
    - by eapply child_origins.
    - apply tiles_known_none.
    - intros j t Hj. by eapply child_rep.
    - unfold mismatch, a', call_args. cbn [ga_alg ga_clear]. unfold next_clear. cbn [vr_ops grid_ops op_sr]. rewrite andb_false_r.
      destruct (ga_clear a) eqn:Hc; [by rewrite andb_false_r|]. destruct (mismatch_clear g a HM Hc) as [E|E]; destruct HS as [S|[S K]].
      + by rewrite S.
      + rewrite S. rewrite E. done.
      + by rewrite S.
      + rewrite S, E. by rewrite (bool_decide_eq_true_2 (ga_alg a = ga_alg a)), andb_false_r by done.
    - by rewrite (child_is_empty (sub0 size sub b zarr x y) _ _ _ _ _ _ Hsub HC), bool_decide_eq_false_2.
    - unfold known_args, a'. cbn. rewrite HA. right; right; left.
    - unfold a', call_args. cbn [ga_rez]. by apply tile_rez_given. }
  rewrite Hx. by eexists.
Qed.

Lemma vr_cube_stops e size sub b zarr disk g ct seen ok a dask k x y sg0 sg :
  0 < size -> 0 < sub -> vr_history e size sub b zarr disk g ct seen ok -> ga_alg a = "cube" -> ga_regrid a <> "update" \/ ga_clear a = true ->
  tile_at g k = Some sg0 -> origin_at g k = Some (x, y) -> beside g size x y sg -> ~ every_location sg -> exn_of (g_grid vr_ops e g a dask) <> None.
Proof.
  intros Hs Hsub H HA Hrg Ht Ho Hb Hno Hx.
  assert (Hne : ct <> []).
  { intros ->. pose proof (vr_sound_inv e size sub b zarr disk Hs Hsub g [] seen ok H) as [_ [(E & _)|(E & _)]]; [|done]. unfold tile_at in Ht. by rewrite E in Ht. }
  destruct (root_placed _ _ _ _ _ _ (vr_sound_inv e size sub b zarr disk Hs Hsub g ct seen ok H) Hne) as (lx & ly & nx & ny & ar & HPl).
  destruct (vr_done_tile e g a dask Hx) as (rez & _ & HT). destruct (HT k sg0 Ht) as (t2 & _ & HH).
  destruct (skip_tile _ _ _ sg0) eqn:Hsk.
  - unfold skip_tile in Hsk. apply andb_true_iff in Hsk as [Hsk _]. apply andb_true_iff in Hsk as [Hsk1 Hsk2]. apply bool_decide_eq_true_1 in Hsk1.
    destruct Hrg as [Hrg|Hrg]; [done|]. unfold clear_at in Hsk2. rewrite Hrg in Hsk2. done.
  - destruct HH as (bd & Hbd & _). unfold borders, border_for in Hbd. rewrite bool_decide_eq_true_2 in Hbd by done.
    destruct (buffer _ _ _ _ _) as [q|]; [|done]. cbn [rbind] in Hbd.
    by rewrite (vr_border_raises size sub b zarr Hs Hsub g ct lx ly nx ny ar k x y q HPl Ho) in Hbd; [|by exists sg].
Qed.
Lemma vr_tile_width e size sub b zarr disk g ct seen ok k sg : 0 < size -> 0 < sub -> vr_history e size sub b zarr disk g ct seen ok ->
  tile_at g k = Some sg -> m_width (g_meta sg) = Some size.
Proof.
  intros Hs Hsub H Hk. destruct (root_rep _ _ _ _ _ _ _ _ (vr_sound_inv e size sub b zarr disk Hs Hsub g ct seen ok H) Hk) as (x & y & ct' & HC & Hne).
  destruct HC as [_ [(_ & E & _)|(_ & a & _ & _ & HW & _)]]; done.
Qed.
