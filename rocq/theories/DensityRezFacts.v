(** The resolution a tile chooses from the density of its soundings (tile.py:628-684), in terms of the coarse cells. *)
From Coq Require Import Lqa.
From Verif Require Import Py Nd Numpy Point Bin Algorithms Tile Spec TileExec
  PyFacts NdFacts NumpyFacts AlgFacts BinFacts TileFacts TileGridFacts TileSpecFacts TileRunFacts TileHistFacts
  ShoalFacts TilePropFacts TileQueryFacts.
Open Scope Z_scope.
Ltac Zify.zify_post_hook ::= Z.div_mod_to_equations.

(** The rows and columns of the cells of side [c] of an n by n square that hold soundings. *)
Definition populated (x y c : Z) (n : nat) (d : list point) : list (nat * nat) :=
  filter (fun rc => (0 < length (points_in_cell x y c rc.1 rc.2 d))%nat) (list_prod (seq 0 n) (seq 0 n)).
(** The square root, compared with the resolutions of the table (in metres). *)
Definition sqrt_sound (e : env) : Prop :=
  forall k v q, (k, v) ∈ documented_bands ->
    (((v # 4) * (v # 4) <= q)%Q -> (v # 4) <= e_sqrt e q)%Q /\ ((q <= (v # 4) * (v # 4))%Q -> e_sqrt e q <= (v # 4))%Q.

Lemma qnat_pos c : (0 < c)%nat -> (0 < qnat c)%Q.
Proof. intros H. unfold qnat, Qlt. cbn. lia. Qed.
Lemma qsum_cons_eq a l : (qsum (a :: l) == a + qsum l)%Q.
Proof. change (a :: l) with ([a] ++ l). rewrite qsum_app. unfold qsum at 1. cbn. lra. Qed.
Lemma weights_pos l : Forall (fun c => (0 < c)%nat) l -> (0 <= qsum (map qnat l))%Q /\ (l <> [] -> 0 < qsum (map qnat l))%Q.
Proof.
  induction 1 as [|c l Hc HF [IH1 IH2]]; [split; [by vm_compute|done]|]. cbn [map]. pose proof (qnat_pos c Hc).
  pose proof (qsum_cons_eq (qnat c) (map qnat l)). split; [|intros _]; lra.
Qed.
Lemma weighted_bounds (f : nat -> Q) l a : Forall (fun c => (0 < c)%nat) l ->
  (Forall (fun c => f c <= a)%Q l -> qsum (zip_with (fun s c => s * qnat c) (map f l) l) <= a * qsum (map qnat l))%Q /\
  (Forall (fun c => a <= f c)%Q l -> a * qsum (map qnat l) <= qsum (zip_with (fun s c => s * qnat c) (map f l) l))%Q.
Proof.
  induction 1 as [|c l Hc HF [IH1 IH2]]; [split; intros _; unfold qsum; cbn; lra|]. cbn [map zip_with]. pose proof (qnat_pos c Hc).
  pose proof (qsum_cons_eq (qnat c) (map qnat l)) as E1.
  pose proof (qsum_cons_eq (f c * qnat c)%Q (zip_with (fun s c => s * qnat c)%Q (map f l) l)) as E2. rewrite E1, E2.
  split; intros HH; inversion HH as [|? ? H1 H2]; subst.
  - specialize (IH1 H2). assert (f c * qnat c <= a * qnat c)%Q by (apply Qmult_le_compat_r; lra). lra.
  - specialize (IH2 H2). assert (a * qnat c <= f c * qnat c)%Q by (apply Qmult_le_compat_r; lra). lra.
Qed.
Lemma weighted_mean (f : nat -> Q) l a : l <> [] -> Forall (fun c => (0 < c)%nat) l ->
  let m := (qsum (zip_with (fun s c => s * qnat c) (map f l) l) / qsum (map qnat l))%Q in
  (Forall (fun c => f c <= a)%Q l -> m <= a)%Q /\ (Forall (fun c => a <= f c)%Q l -> a <= m)%Q.
Proof.
  intros Hne HF m. destruct (weights_pos l HF) as [_ Hw]. specialize (Hw Hne). destruct (weighted_bounds f l a HF) as [H1 H2].
  split; intros HH.
  - unfold m. apply Qle_shift_div_r; [exact Hw|]. by apply H1.
  - unfold m. apply Qle_shift_div_l; [exact Hw|]. by apply H2.
Qed.

Lemma list_prod_NoDup {A B} (l : list A) (k : list B) : NoDup l -> NoDup k -> NoDup (list_prod l k).
Proof.
  induction 1 as [|a l Ha Hl IH]; intros Hk; cbn [list_prod]; [apply NoDup_nil_2|].
  apply NoDup_app. split; [|split; [|by apply IH]].
  - apply (NoDup_fmap_2 (pair a)), Hk.
  - intros [a' b] H1 H2. apply elem_of_list_fmap in H1 as (b' & [= -> ->] & _). apply elem_of_list_In, in_prod_iff in H2 as [H2 _].
    apply Ha. by apply elem_of_list_In.
Qed.
Lemma elem_populated x y c n d row col : (row, col) ∈ populated x y c n d <->
  (row < n)%nat /\ (col < n)%nat /\ (0 < length (points_in_cell x y c row col d))%nat.
Proof.
  unfold populated. rewrite elem_of_list_filter. cbn [fst snd]. rewrite elem_of_list_In, in_prod_iff, !in_seq. lia.
Qed.
Lemma populated_NoDup x y c n d : NoDup (populated x y c n d).
Proof. apply NoDup_filter, list_prod_NoDup; apply NoDup_seq. Qed.

Lemma sound_counts_pos x y c n d k row col : (row, col) ∈ populated x y c n d -> k = length (points_in_cell x y c row col d) -> (0 < k)%nat.
Proof. intros H ->. by apply elem_populated in H as (_ & _ & H). Qed.
Lemma NoDup_map_inj {A B} (f : A -> B) (l : list A) : (forall a b, a ∈ l -> b ∈ l -> f a = f b -> a = b) -> NoDup l -> NoDup (map f l).
Proof.
  intros Hinj Hnd. induction Hnd as [|a l Ha Hl IH]; cbn [map]; [apply NoDup_nil_2|]. apply NoDup_cons. split.
  - intros H. apply elem_of_list_fmap in H as (b & E & Hb). apply Hinj in E; [by subst|by left|by right].
  - apply IH. intros u v Hu Hv. apply Hinj; by right.
Qed.
(** The cells that the tile counts are the populated ones, with the number of their soundings. *)
Lemma tile_counts e t c d : good e t -> t_data t = Some d -> 0 < c ->
  exists u cs, t_return_cell_counts t c = Ok (u, cs) /\
    length u = length (populated (t_min_x t) (t_min_y t) c (ncell t c) d) /\ length cs = length u /\
    forall k, k ∈ cs -> exists row col, (row, col) ∈ populated (t_min_x t) (t_min_y t) c (ncell t c) d /\
      k = length (points_in_cell (t_min_x t) (t_min_y t) c row col d).
Proof.
  intros HG Hd Hc. unfold t_return_cell_counts. rewrite Hd. pose proof (g_size _ _ HG) as Hs.
  destruct (cell_edges_tile t c Hs Hc) as [-> ->]. cbn [rbind].
  assert (Hin : Forall (in_tile t) d) by (pose proof (g_in _ _ HG) as H; unfold pts in H; by rewrite Hd in H).
  rewrite bin2d_tile by done. cbn [rbind]. eexists _, _. split; [done|].
  set (n := ncell t c). set (P := populated _ _ _ _ _). set (cell := fun rc : nat * nat => Z.of_nat (rc.1 * n + rc.2)).
  assert (Hcell : forall row col, (col < n)%nat -> count_of (map (cellno t c) d) (cell (row, col)) = length (points_in_cell (t_min_x t) (t_min_y t) c row col d)).
  { intros row col Hcol. rewrite count_of_map. unfold cell. cbn [fst snd]. f_equal. exact (filter_cellno t c row col d Hs Hc Hin Hcol). }
  assert (Hel : forall z, z ∈ np_unique (map (cellno t c) d) <-> z ∈ map cell P).
  { intros z. rewrite elem_of_np_unique. split.
    - intros Hz. pose proof Hz as Hz'. apply elem_of_list_fmap in Hz' as (p & Ep & Hp). rewrite Forall_forall in Hin. pose proof (cellno_range t c p Hs Hc (Hin p Hp)) as Hr. fold n in Hr.
      assert (Hn : (0 < n)%nat) by (by apply ncell_pos).
      assert (Ez : z = cell (Z.to_nat (z / Z.of_nat n), Z.to_nat (z mod Z.of_nat n))).
      { unfold cell. cbn [fst snd]. rewrite <- Ep in Hr. pose proof (Z.div_mod z (Z.of_nat n) ltac:(lia)). pose proof (Z.mod_pos_bound z (Z.of_nat n) ltac:(lia)). pose proof (Z.div_pos z (Z.of_nat n) ltac:(lia) ltac:(lia)).
        rewrite Nat2Z.inj_add, Nat2Z.inj_mul, !Z2Nat.id by lia. lia. }
      rewrite Ez. apply elem_of_list_fmap. eexists. split; [done|]. unfold P. fold n. apply elem_populated.
      rewrite <- Ep in Hr. pose proof (Z.mod_pos_bound z (Z.of_nat n) ltac:(lia)). assert (Hq : z / Z.of_nat n < Z.of_nat n) by (apply Z.div_lt_upper_bound; lia). pose proof (Z.div_pos z (Z.of_nat n) ltac:(lia) ltac:(lia)).
      split; [lia|]. split; [lia|]. rewrite <- Hcell by lia. rewrite <- Ez, count_of_map.
      apply elem_map_filter in Hz. destruct (filter _ d); [done|cbn; lia].
    - intros Hz. apply elem_of_list_fmap in Hz as ([row col] & -> & Hp). apply elem_populated in Hp as (H1 & H2 & H3). fold n in H1, H2.
      apply elem_map_filter. intros E. rewrite <- Hcell, count_of_map, E in H3 by done. cbn in H3. lia. }
  split; [|split; [by rewrite map_length|]].
  - rewrite <- (map_length cell P). apply Permutation_length, NoDup_Permutation; [apply np_unique_NoDup| |exact Hel].
    assert (Hinj : forall a b, a ∈ P -> b ∈ P -> cell a = cell b -> a = b).
    { intros [r1 c1] [r2 c2] H1 H2. apply elem_populated in H1 as (A1 & A2 & _), H2 as (B1 & B2 & _). fold n in A1, A2, B1, B2. unfold cell. cbn [fst snd]. intros E.
      assert (E' : (r1 * n + c1 = r2 * n + c2)%nat) by lia. assert (r1 = r2) by (apply (Nat.mul_cancel_r r1 r2 n); [lia|]; assert ((r1 * n + c1) / n = (r2 * n + c2) / n)%nat as D by (by rewrite E');
        rewrite !Nat.div_add_l, !Nat.div_small, !Nat.add_0_r in D by lia; by rewrite D). subst. f_equal. lia. }
    pose proof (populated_NoDup (t_min_x t) (t_min_y t) c (ncell t c) d) as Hnd. fold P in Hnd.
    exact (NoDup_map_inj cell P Hinj Hnd).
  - intros k Hk. apply elem_of_list_fmap in Hk as (z & -> & Hz). apply Hel, elem_of_list_fmap in Hz as ([row col] & -> & Hp).
    exists row, col. split; [exact Hp|]. apply elem_populated in Hp as (H1 & H2 & H3). by apply Hcell.
Qed.

(** The size of the coarse cells. *)
Definition coarse (e : env) (size : Z) (start : option Z) : Z := Z.min size (default (64 * e_tpq e) start).
Definition start_ok (e : env) (start : option Z) : Prop :=
  match start with None => True | Some s => exists k v, (k, v) ∈ documented_bands /\ s = v * e_tpq e end.

Lemma bands_lookup : documented_bands = depth_resolution_lookup.
Proof. reflexivity. Qed.
Lemma bands_pos k v : (k, v) ∈ documented_bands -> 0 < v.
Proof.
  intros H. assert (HF : Forall (fun kv : Z * Z => 0 < kv.2) documented_bands) by (repeat constructor). rewrite Forall_forall in HF. exact (HF _ H).
Qed.
Lemma start_value e start : 0 < e_tpq e -> start_ok e start ->
  (match start with None => Ok (starting_resolution_density e)
   | Some s => if bool_decide (s ∈ rez_options e) then Ok s else Raise ValueError end) = Ok (default (64 * e_tpq e) start) /\ 0 < default (64 * e_tpq e) start.
Proof.
  intros He. destruct start as [s|]; cbn [start_ok default].
  - intros (k & v & Hv & ->). pose proof (bands_pos k v Hv). rewrite bool_decide_eq_true_2; [split; [done|by apply Z.mul_pos_pos]|].
    unfold rez_options. apply elem_of_list_fmap. exists (k, v). done.
  - intros _. split; [done|lia].
Qed.

Section choice.
  Context (e : env) (t : tile) (d : list point) (start : option Z) (noise : Q) (n : nat).
  Context (He : 0 < e_tpq e) (HG : good e t) (Hd : t_data t = Some d) (Hst : start_ok e start).
  Let c := coarse e (t_size t) start.
  Context (Hn : t_size t = Z.of_nat n * c).
  Let P := populated (t_min_x t) (t_min_y t) c n d.

  Lemma coarse_pos : 0 < c.
  Proof using He HG Hd Hst Hn. unfold c, coarse. destruct (start_value e start He Hst) as [_ H]. pose proof (g_size _ _ HG). lia. Qed.
  Lemma coarse_cells : ncell t c = n /\ (0 < n)%nat /\ Qfloor ((t_size t # Z.to_pos c) * (t_size t # Z.to_pos c)) = Z.of_nat (n * n).
  Proof using He HG Hd Hst Hn.
    pose proof coarse_pos as Hc. pose proof (g_size _ _ HG) as Hs. split; [|split].
    - unfold ncell. rewrite Hn. rewrite ceil_div_mult by lia. lia.
    - destruct n; [|lia]. cbn in Hn. lia.
    - assert (E : ((t_size t # Z.to_pos c) * (t_size t # Z.to_pos c) == inject_Z (Z.of_nat (n * n)))%Q).
      { unfold Qeq, Qmult, inject_Z. cbn [Qnum Qden]. rewrite Pos2Z.inj_mul, !Z2Pos.id by lia. rewrite Hn, Nat2Z.inj_mul. ring. }
      rewrite (Qfloor_comp _ _ E). apply Qfloor_Z.
  Qed.
  Lemma populated_le : (length P <= n * n)%nat.
  Proof using. unfold P, populated. etrans; [apply filter_length|]. rewrite prod_length, !seq_length. done. Qed.

  (** The choice, in terms of the populated cells. *)
  Lemma density_choice r : t_resolution_by_density e t start (Some noise) = Ok r ->
    exists cs k v, length cs = length P /\ (forall q, q ∈ cs -> exists row col, (row, col) ∈ P /\ q = length (points_in_cell (t_min_x t) (t_min_y t) c row col d)) /\
      (k, v) ∈ documented_bands /\ r = Z.min (v * e_tpq e) (t_size t) /\
      let i := if (4 * length P <=? 3 * (n * n))%nat then
                 match qmean (map pz d) with Some m => searchsorted_left_q (map (fun kv => inject_Z kv.1) documented_bands) m | None => 13%nat end
               else searchsorted_left_q (map (fun kv => kv.2 # 4)%Q documented_bands) (density_estimate e c noise cs) in
      documented_bands !! (clip_index 13 i) = Some (k, v).
  Proof using He HG Hd Hst Hn.
    intros H. unfold t_resolution_by_density in H. destruct (start_value e start He Hst) as [Es Hs0]. rewrite Es in H. cbn [rbind] in H.
    fold (coarse e (t_size t) start) in H. fold c in H. destruct (tile_counts e t c d HG Hd coarse_pos) as (u & cs & Eu & Hu & Hcs & Hin). rewrite Eu in H. cbn [rbind fst snd] in H.
    destruct coarse_cells as (N1 & N2 & N3). rewrite N1 in Hu, Hin. fold P in Hu, Hin. rewrite N3, Hu in H. cbn [default] in H. rewrite Hd in H. cbn [default] in H.
    apply rbind_Ok in H as ([k v] & Hkv & H). injection H as <-. exists cs, k, v. split; [congruence|]. split; [exact Hin|].
    assert (Ef : Qle_bool (qnat (length P) / inject_Z (Z.of_nat (n * n))) (3 # 4) = (4 * length P <=? 3 * (n * n))%nat).
    { apply eq_true_iff_eq. rewrite Qle_bool_iff, Nat.leb_le. assert (Hp : (0 < inject_Z (Z.of_nat (n * n)))%Q) by (unfold Qlt; cbn; nia).
      split; intros HH.
      - assert (H1 : (qnat (length P) <= (3 # 4) * inject_Z (Z.of_nat (n * n)))%Q).
        { apply (Qmult_le_compat_r _ _ (inject_Z (Z.of_nat (n * n)))) in HH; [|lra]. rewrite Qmult_comm, Qmult_div_r in HH by lra. exact HH. }
        unfold qnat, Qle, Qmult, inject_Z in H1. cbn [Qnum Qden] in H1. lia.
      - apply Qle_shift_div_r; [exact Hp|]. unfold qnat, Qle, Qmult, inject_Z. cbn [Qnum Qden]. lia. }
    rewrite Ef in Hkv. clear Ef. change (length depth_resolution_lookup) with 13%nat in Hkv.
    destruct (depth_resolution_lookup !! _) as [kv|] eqn:E in Hkv; [|done]. injection Hkv as ->.
    split; [eapply elem_of_list_lookup_2; exact E|]. split; [done|exact E].
  Qed.
End choice.

Lemma bands_mono i j a b : (i <= j)%nat -> documented_bands !! i = Some a -> documented_bands !! j = Some b -> a.2 <= b.2.
Proof.
  intros Hij Ha Hb. assert (HS : Sorted (fun a b => a.2 <= b.2) documented_bands) by (repeat constructor; cbn; lia).
  apply Sorted_StronglySorted in HS; [|intros ? ? ?; lia]. revert i j Hij Ha Hb. induction HS as [|c l HS IH HF]; intros i j Hij Ha Hb; [done|].
  destruct i as [|i], j as [|j]; cbn in Ha, Hb; [by simplify_eq| |lia|by apply (IH i j); [lia|..]].
  injection Ha as <-. rewrite Forall_forall in HF. apply HF. by eapply elem_of_list_lookup_2.
Qed.
Lemma clip_index_cases i : (i <= 13)%nat -> ((i < 13)%nat /\ clip_index 13 i = i) \/ (i = 13%nat /\ clip_index 13 i = 12%nat).
Proof. intros H. unfold clip_index. destruct (i =? 13)%nat eqn:E; [apply Nat.eqb_eq in E as ->; right; by split|apply Nat.eqb_neq in E; left; split; [lia|done]]. Qed.

Lemma metres_pos e c : 0 < c -> (0 < metres e c)%Q.
Proof. intros H. unfold metres, Qlt. cbn. lia. Qed.
(** The argument of the square root for a cell with [q] soundings, compared with a resolution of the table. *)
Lemma estimate_bounds (K M w : Q) (q a : nat) : (0 < M)%Q -> (0 < q)%nat -> (0 <= w)%Q ->
  ((q <= a)%nat -> (w * w * qnat a <= K * (M * M))%Q -> (w * w <= K / (qnat q / (M * M)))%Q) /\
  ((a <= q)%nat -> (K * (M * M) <= w * w * qnat a)%Q -> (K / (qnat q / (M * M)) <= w * w)%Q).
Proof.
  intros HM Hq Hw. pose proof (qnat_pos q Hq) as Hq'. assert (HMM : (0 < M * M)%Q) by (by apply Qmult_lt_0_compat).
  assert (Hd : (0 < qnat q / (M * M))%Q) by (apply Qlt_shift_div_l; [done|lra]). assert (Hww : (0 <= w * w)%Q) by (by apply Qmult_le_0_compat).
  assert (Ew : (w * w * (qnat q / (M * M)) == w * w * qnat q / (M * M))%Q) by (field; intros E; rewrite E in HM; lra).
  split; intros Hqa HK.
  - apply Qle_shift_div_l; [done|]. rewrite Ew. apply Qle_shift_div_r; [done|]. assert (qnat q <= qnat a)%Q by (unfold qnat, Qle; cbn; lia).
    assert (w * w * qnat q <= w * w * qnat a)%Q by (rewrite !(Qmult_comm (w * w)); apply Qmult_le_compat_r; lra). lra.
  - apply Qle_shift_div_r; [done|]. rewrite Ew. apply Qle_shift_div_l; [done|]. assert (qnat a <= qnat q)%Q by (unfold qnat, Qle; cbn; lia).
    assert (w * w * qnat a <= w * w * qnat q)%Q by (rewrite !(Qmult_comm (w * w)); apply Qmult_le_compat_r; lra). lra.
Qed.

Section bounds.
  Context (e : env) (t : tile) (d : list point) (start : option Z) (noise : Q) (n : nat) (r : Z).
  Context (He : 0 < e_tpq e) (HG : good e t) (Hd : t_data t = Some d) (Hst : start_ok e start).
  Let c := coarse e (t_size t) start.
  Context (Hn : t_size t = Z.of_nat n * c).
  Let P := populated (t_min_x t) (t_min_y t) c n d.
  Let held (rc : nat * nat) : nat := length (points_in_cell (t_min_x t) (t_min_y t) c rc.1 rc.2 d).
  Context (Hr : t_resolution_by_density e t start (Some noise) = Ok r).

  Lemma density_dense : (3 * (n * n) < 4 * length P)%nat -> sqrt_sound e -> (0 <= noise)%Q ->
    forall k v a, (k, v) ∈ documented_bands ->
      ((forall rc, rc ∈ P -> (held rc <= a)%nat) -> ((v # 4) * (v # 4) * qnat a <= 10 * (1 + noise) * (metres e c * metres e c))%Q -> Z.min (v * e_tpq e) (t_size t) <= r) /\
      ((forall rc, rc ∈ P -> (a <= held rc)%nat) -> (10 * (1 + noise) * (metres e c * metres e c) <= (v # 4) * (v # 4) * qnat a)%Q -> r <= v * e_tpq e).
  Proof using He HG Hd Hst Hn Hr.
    intros Hfull Hsq Hno k v a Hv. destruct (density_choice e t d start noise n He HG Hd Hst Hn r Hr) as (cs & k0 & v0 & Hl & Hcs & Hv0 & -> & Hi). fold c in Hl, Hcs, Hi. fold P in Hl, Hcs, Hi.
    cbv zeta in Hi. rewrite (proj2 (Nat.leb_gt _ _)) in Hi by lia. set (est := density_estimate e c noise cs) in Hi.
    set (opts := map (fun kv : Z * Z => kv.2 # 4)%Q documented_bands) in Hi. set (i := searchsorted_left_q opts est) in Hi.
    assert (Hi13 : (i <= 13)%nat) by (apply (searchsorted_left_q_le opts est)).
    assert (Hne : cs <> []) by (intros ->; cbn in Hl; lia).
    assert (Hpos : Forall (fun q => (0 < q)%nat) cs) by (apply Forall_forall; intros q Hq; destruct (Hcs q Hq) as (row & col & Hp & E); exact (sound_counts_pos _ _ _ _ _ _ _ _ Hp E)).
    assert (HM : (0 < metres e c)%Q) by (apply metres_pos, (coarse_pos e t d start n He HG Hd Hst Hn)).
    pose proof (bands_pos k v Hv) as Hvp. assert (Hw : (0 <= v # 4)%Q) by (unfold Qle; cbn; lia).
    pose proof (weighted_mean (fun q => e_sqrt e (2 * 5 * (1 + noise) / (qnat q / (metres e c * metres e c)))%Q) cs (v # 4) Hne Hpos) as [W1 W2].
    change ((Forall (fun q => e_sqrt e (2 * 5 * (1 + noise) / (qnat q / (metres e c * metres e c))) <= v # 4) cs -> est <= v # 4)%Q) in W1.
    change ((Forall (fun q => v # 4 <= e_sqrt e (2 * 5 * (1 + noise) / (qnat q / (metres e c * metres e c)))) cs -> v # 4 <= est)%Q) in W2.
    pose proof Hv as (j & Hj)%elem_of_list_lookup. assert (Hoj : opts !! j = Some (v # 4)%Q) by (unfold opts; rewrite list_lookup_fmap, Hj; done).
    split; intros Hheld HK.
    - assert (Hest : (v # 4 <= est)%Q).
      { apply W2. apply Forall_forall. intros q Hq. destruct (Hcs q Hq) as (row & col & Hp & E). apply (Hsq k v _ Hv).
        apply (estimate_bounds _ _ _ q a HM); [rewrite Forall_forall in Hpos; by apply Hpos|exact Hw|rewrite E; exact (Hheld (row, col) Hp)|]. exact HK. }
      assert (v <= v0); [|nia]. destruct (clip_index_cases i Hi13) as [[Hlt E]|[E13 E]]; rewrite E in Hi.
      + assert (Hoi : opts !! i = Some (v0 # 4)%Q) by (unfold opts; rewrite list_lookup_fmap, Hi; done).
        pose proof (searchsorted_left_q_at opts est _ Hoi) as Hle. assert (HH : (v # 4 <= v0 # 4)%Q) by lra. unfold Qle in HH. cbn in HH. lia.
      + apply (bands_mono j 12 (k, v) (k0, v0)); [|done|done]. apply lookup_lt_Some in Hj. change (length documented_bands) with 13%nat in Hj. lia.
    - assert (Hest : (est <= v # 4)%Q).
      { apply W1. apply Forall_forall. intros q Hq. destruct (Hcs q Hq) as (row & col & Hp & E). apply (Hsq k v _ Hv).
        apply (estimate_bounds _ _ _ q a HM); [rewrite Forall_forall in Hpos; by apply Hpos|exact Hw|rewrite E; exact (Hheld (row, col) Hp)|]. exact HK. }
      assert (v0 <= v); [|nia]. assert (Hij : (i <= j)%nat).
      { destruct (Nat.le_gt_cases i j) as [?|Hlt]; [done|]. pose proof (searchsorted_left_q_before opts est j _ Hlt Hoj). lra. }
      apply lookup_lt_Some in Hj as Hj'. change (length documented_bands) with 13%nat in Hj'.
      destruct (clip_index_cases i Hi13) as [[Hlt E]|[E13 E]]; [|lia]. rewrite E in Hi. exact (bands_mono i j (k0, v0) (k, v) Hij Hi Hj).
  Qed.

  Lemma density_sparse m : (4 * length P <= 3 * (n * n))%nat -> is_mean (map pz d) m ->
    exists i k v, documented_bands !! i = Some (k, v) /\ r = Z.min (v * e_tpq e) (t_size t) /\
      (forall j k' v', (j < i)%nat -> documented_bands !! j = Some (k', v') -> (inject_Z k' < m)%Q) /\
      ((m <= inject_Z k)%Q \/ (i = 12%nat /\ inject_Z k < m)%Q).
  Proof using He HG Hd Hst Hn Hr.
    intros Hfull Hm. destruct (density_choice e t d start noise n He HG Hd Hst Hn r Hr) as (cs & k0 & v0 & Hl & Hcs & Hv0 & -> & Hi). fold c in Hl, Hcs, Hi. fold P in Hl, Hcs, Hi.
    cbv zeta in Hi. rewrite (proj2 (Nat.leb_le _ _)) in Hi by lia. destruct (qmean_mean (map pz d)) as (m' & Hq & Hm'); [apply Hm|]. pose proof (is_mean_unique _ _ _ Hm Hm') as Em. rewrite Hq in Hi.
    set (opts := map (fun kv : Z * Z => inject_Z kv.1) documented_bands) in Hi. set (i := searchsorted_left_q opts m') in Hi.
    assert (Hi13 : (i <= 13)%nat) by (apply (searchsorted_left_q_le opts m')).
    assert (Hb : forall j k' v', (j < i)%nat -> documented_bands !! j = Some (k', v') -> (inject_Z k' < m)%Q).
    { intros j k' v' Hj E. assert (Hoj : opts !! j = Some (inject_Z k')) by (unfold opts; rewrite list_lookup_fmap, E; done). pose proof (searchsorted_left_q_before opts m' j _ Hj Hoj). lra. }
    destruct (clip_index_cases i Hi13) as [[Hlt E]|[E13 E]]; rewrite E in Hi.
    - exists i, k0, v0. split; [done|]. split; [done|]. split; [exact Hb|]. left. assert (Hoi : opts !! i = Some (inject_Z k0)) by (unfold opts; rewrite list_lookup_fmap, Hi; done).
      pose proof (searchsorted_left_q_at opts m' _ Hoi). lra.
    - exists 12%nat, k0, v0. split; [done|]. split; [done|]. split; [intros j k' v' Hj; apply Hb; lia|]. right. split; [done|]. apply (Hb 12%nat k0 v0); [lia|done].
  Qed.
End bounds.
