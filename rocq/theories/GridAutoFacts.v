(** Automatic resolutions of whole grids (C99-C101). *)
From Coq Require Import Lqa.
From Verif Require Import Py Nd Numpy Point Bin Algorithms Tile TileFail Time Meta Disk Grid GridRun GridQuery GridOps Spec TileExec GridExec AutoSpec PyFacts NdFacts NumpyFacts AlgFacts BinFacts
  MiscFacts TileFacts TileGridFacts TileSpecFacts TileRunFacts TileHistFacts ShoalFacts TilePropFacts TileQueryFacts TileUnknownFacts GridBaseFacts GridPlaceFacts GridInvFacts GridRootFacts
  GridEvolveFacts GridSrFacts GridPropFacts GridHistFacts GridRunFacts GridCleanFacts GridUpdateFacts GridDensityFacts GridFlagFacts GridLayerFacts GridReadFacts GridAnswerFacts GridUnknownFacts.
Open Scope Z_scope.

(** ** Single resolution grids and sub-grids *)
Section sr.
  Context (e : env) (Q : string -> Z -> Prop) (size : Z) (b : bool) (Hsize : 0 < size).
  Context (g : sr_grid) (a : gargs) (dask : option nat) (sa : simple_algorithm).
  Context (Ho : origins sr_ops g) (HS : all_steps e Q size b g) (Ha : ga_alg a = alg_name sa) (Hf : full_call a).
  Context (Hx : exn_of (g_grid sr_ops e g a dask) = None).
  Notation g' := (st_of (g_grid sr_ops e g a dask)).

  Definition chosen (rez : option Z) (t : tile) (r : Z) : Prop :=
    choose_resolution e t (tile_rez sr_ops (g_meta g) (grid_auto a) rez) (grid_auto a) = Ok r.
  Lemma auto_tiles : exists rez, call_rez sr_ops e g a = Ok rez /\
    (forall k t', tile_at g' k = Some t' -> exists t r, tile_at g k = Some t /\ tile_keeps t t' /\ chosen rez t r /\ current e sa r t' /\ r ∈ m_rezs (g_meta g')) /\
    (forall r, r ∈ m_rezs (g_meta g') -> exists k t t', tile_at g k = Some t /\ tile_at g' k = Some t' /\ tile_keeps t t' /\ chosen rez t r /\ current e sa r t').
  Proof using Ho HS Ha Hf Hx Hsize.
    destruct (sr_tile_current e Q size b Hsize g a dask sa Ho HS Ha Hx) as (rez & Hrez & HT). exists rez. split; [done|].
    assert (HT' : forall k t, tile_at g k = Some t -> exists t' r, tile_at g' k = Some t' /\ tile_keeps t t' /\ chosen rez t r /\ current e sa r t' /\ r ∈ m_rezs (g_meta g')).
    { intros k t Ht. destruct (HT k t Ht) as (t' & Ht' & HK & H). rewrite (unknown_skip sr_ops g a k t Hf) in H. destruct H as (r & H1 & H2 & H3). exists t', r. done. }
    split.
    - intros k t' Ht'. destruct (tile_at g k) as [t|] eqn:Ht; [|by rewrite (gd_none _ _ _ _ _ _ (sr_finished e g a dask Ho Hx) k Ht) in Ht'].
      destruct (HT' k t Ht) as (t2 & r & Ht2 & H). rewrite Ht' in Ht2. injection Ht2 as <-. by exists t, r.
    - intros r Hr. destruct (gd_run _ _ _ _ _ _ (sr_finished e g a dask Ho Hx)) as (rez' & Hrez' & _ & HR). rewrite Hrez in Hrez'. injection Hrez' as <-.
      destruct (HR r Hr) as (k & t & t' & rz & Ht & Ht' & Hin & Hen). exists k, t, t'. split; [done|]. split; [done|].
      destruct (HT' k t Ht) as (t2 & r2 & Ht2 & HK & Hch & Hcu & _). rewrite Ht' in Ht2. injection Ht2 as <-. split; [done|].
      unfold entry_result, entry_at in Hen. cbn [en_k en_t en_run Nat.add] in Hen. rewrite (unknown_skip sr_ops g a k t Hf) in Hen.
      apply rbind_Ok in Hen as (ga & Hga & Hen). apply rbind_Ok in Hga as (bd & _ & Hga). injection Hga as <-.
      cbn [sr_ops op_grid call_args ga_alg ga_rez ga_clear ga_mode ga_params ga_border] in Hen.
      destruct (t_grid _ _ _ _ _ _ _ _) as [[t1 r1]|] eqn:Hg in Hen; [|done]. cbn in Hen. injection Hen as _ <-. apply elem_of_list_singleton in Hin as ->.
      assert (HA : known_alg (ga_alg a)) by (rewrite Ha; apply known_elem, alg_name_elem).
      destruct (t_grid_inv _ _ _ _ _ _ _ _ _ _ HA Hg) as (Hch' & _). unfold chosen in *. rewrite Hch in Hch'. injection Hch' as ->. done.
  Qed.
End sr.

(** ** What a tile chooses *)
Lemma mean_below l m c : is_mean l m -> Forall (fun q => q < c)%Q l -> (m < c)%Q.
Proof.
  intros [Hne Hm] HF. assert (Hs : (sumQ l < numQ (length l) * c)%Q).
  { clear Hm. induction HF as [|x l Hx HF IH]; [done|]. destruct l as [|y l].
    - change (sumQ [x]) with (x + 0)%Q. change (numQ (length [x])) with 1%Q. lra.
    - change (sumQ (x :: y :: l)) with (x + sumQ (y :: l))%Q. assert (IH' := IH ltac:(done)).
      assert (E : (numQ (length (x :: y :: l)) == 1 + numQ (length (y :: l)))%Q).
      { unfold numQ. cbn [length]. rewrite Nat2Z.inj_succ. unfold Z.succ. rewrite inject_Z_plus. ring. }
      rewrite E. lra. }
  assert (Hp : (0 < numQ (length l))%Q). { unfold numQ. change 0%Q with (inject_Z 0). rewrite <- Zlt_Qlt. destruct l; [done|cbn; lia]. }
  rewrite <- Hm, Qmult_comm in Hs. apply Qmult_lt_l in Hs; [|exact Hp]. done.
Qed.

Lemma depth_choice e t d r : t_data t = Some d -> d <> [] -> Forall (fun p => pz p < 20480)%Q d ->
  choose_resolution e t None "depth" = Ok r -> depth_band e (t_size t) d r.
Proof.
  intros Hd Hne HF. unfold choose_resolution. rewrite bool_decide_eq_true_2 by done. unfold t_calculate_resolution_lookup. rewrite Hd. intros [= <-].
  destruct (qmean_mean (map pz d)) as (m & Hq & Hm); [by destruct d|]. rewrite Hq. exists m, (band_lookup (Some m)). split; [done|]. split; [|done].
  apply band_lookup_for. apply (mean_below (map pz d)); [done|]. by apply Forall_map.
Qed.
Lemma density_choice e t r : choose_resolution e t None "density" = Ok r -> table_rez e (t_size t) r.
Proof.
  unfold choose_resolution. rewrite bool_decide_eq_false_2 by done. rewrite bool_decide_eq_true_2 by done. apply density_legal.
Qed.

Section slots.
  Context {T : Type} (m0 : gmeta) (rep : T -> Z -> Z -> content -> Prop).
  Lemma root_origin g ct seen ok k t : root_inv m0 rep g ct seen ok -> tile_at g k = Some t -> exists x y, origin_at g k = Some (x, y).
  Proof using.
    intros [_ [(H1 & _)|(_ & lx & ly & nx & ny & a & P & _)]] Ht; [|by eapply placed_origin]. unfold tile_at in Ht. by rewrite H1 in Ht.
  Qed.
  Lemma child_origin X Y W g ct k t : child_inv m0 rep X Y W g ct -> tile_at g k = Some t -> exists x y, origin_at g k = Some (x, y).
  Proof using.
    intros [_ [(H1 & _)|(_ & a & P & _)]] Ht; [|by eapply placed_origin]. unfold tile_at in Ht. by rewrite H1 in Ht.
  Qed.
End slots.

(** ** Variable resolution grids *)
Section vr.
  Context (e : env) (size sub : Z) (b zarr disk : bool) (Hsize : 0 < size) (Hsub : 0 < sub).
  Context (g : vr_grid) (ct : content) (H : vr_clean e known_args size sub b zarr disk g ct).
  Context (a : gargs) (dask : option nat) (sa : simple_algorithm) (Ha : ga_alg a = alg_name sa) (Hr : ga_rez a = None) (Hf : full_call a).
  Context (Hx : exn_of (g_grid vr_ops e g a dask) = None).
  Context (auto : string) (Hauto : grid_auto a = auto) (Hne : auto <> "") (Hlow : str_lower auto = auto).
  Notation g' := (st_of (g_grid vr_ops e g a dask)).

  Lemma vr_auto_tiles :
    (forall k sg' j t', tile_at g' k = Some sg' -> tile_at sg' j = Some t' ->
       exists t r, tile_keeps t t' /\ choose_resolution e t None auto = Ok r /\ current e sa r t' /\ r ∈ m_rezs (g_meta sg') /\ r ∈ m_rezs (g_meta g')) /\
    (forall r, r ∈ m_rezs (g_meta g') -> exists k sg' j t t', tile_at g' k = Some sg' /\ tile_at sg' j = Some t' /\
       tile_keeps t t' /\ choose_resolution e t None auto = Ok r /\ current e sa r t').
  Proof using Hsize Hsub H Ha Hr Hf Hx Hauto Hne Hlow.
    destruct (vr_clean_inv e (fun _ _ => True) known_args size sub b zarr disk Hsize Hsub (fun a Pa => known_allows a Pa) g ct H) as (_ & seen & ok & HI).
    destruct (vr_done_tile e g a dask Hx) as (rez & Hrez & HT).
    assert (Hsk : forall sg, skip_tile vr_ops a (ga_clear a) sg = false).
    { intros sg. unfold skip_tile. destruct (decide (ga_regrid a = "update")) as [E|E]; [by rewrite (Hf E), andb_false_r|by rewrite bool_decide_eq_false_2]. }
    assert (Hchild : forall k sg, tile_at g k = Some sg -> exists sg', tile_at g' k = Some sg' /\
      (forall r, r ∈ m_rezs (g_meta sg') -> r ∈ m_rezs (g_meta g')) /\
      (forall j t', tile_at sg' j = Some t' -> exists t r, tile_keeps t t' /\ choose_resolution e t None auto = Ok r /\ current e sa r t' /\ r ∈ m_rezs (g_meta sg')) /\
      (forall r, r ∈ m_rezs (g_meta sg') -> exists j t t', tile_at sg' j = Some t' /\ tile_keeps t t' /\ choose_resolution e t None auto = Ok r /\ current e sa r t')).
    { intros k sg Ht. destruct (HT k sg Ht) as (sg' & Ht' & HH). rewrite Hsk in HH. destruct HH as (bd & _ & HH). cbv zeta in HH.
      destruct HH as (Hx2 & E' & Hin). exists sg'. split; [done|]. split; [exact Hin|]. subst sg'.
      assert (Hr' : ga_rez (call_args vr_ops a (grid_auto a) rez (g_meta g) (ga_clear a) bd) = None).
      { unfold call_args, tile_rez. cbn [ga_rez vr_ops grid_ops op_sr]. rewrite Hauto, bool_decide_eq_false_2 by done. done. }
      assert (Hauto' : grid_auto (call_args vr_ops a (grid_auto a) rez (g_meta g) (ga_clear a) bd) = auto).
      { unfold grid_auto at 1. rewrite Hr'. cbn [call_args ga_mode]. by rewrite Hauto. }
      assert (Hf' : full_call (call_args vr_ops a (grid_auto a) rez (g_meta g) (ga_clear a) bd)) by exact Hf.
      assert (Ha' : ga_alg (call_args vr_ops a (grid_auto a) rez (g_meta g) (ga_clear a) bd) = alg_name sa) by exact Ha.
      set (a' := call_args _ _ _ _ _ _ _) in *. clearbody a'.
      destruct (root_rep _ _ _ _ _ _ _ _ HI Ht) as (x & y & ct' & [HC HSA] & Hne').
      assert (Ho' : origins sr_ops sg) by (by eapply child_origins).
      assert (HS' : all_steps e (fun _ _ => True) sub false sg) by (intros j t Hj; by eapply child_rep).
      assert (Hn : m_name (g_meta sg) = NTile x y). { destruct HC as [[B1 _ _ _ _ _ _ _] _]. by rewrite (mf_name _ _ B1). }
      destruct (auto_tiles e (fun _ _ => True) sub false Hsub sg a' None sa Ho' HS' Ha' Hf' Hx2) as (rez' & _ & T1 & T2).
      assert (Hc : forall t r, chosen e sg a' rez' t r -> choose_resolution e t None auto = Ok r).
      { intros t r Hch. unfold chosen, tile_rez in Hch. rewrite Hauto', Hn, (bool_decide_eq_false_2 (auto = "")) in Hch by done. exact Hch. }
      split.
      - intros j t' Hj. destruct (T1 j t' Hj) as (t & r & _ & K1 & K2 & K3 & K4). exists t, r. eauto.
      - intros r Hrr. destruct (T2 r Hrr) as (j & t & t' & _ & K0 & K1 & K2 & K3). exists j, t, t'. eauto. }
    split.
    - intros k sg' j t' Hk Hj. destruct (tile_at g k) as [sg|] eqn:Ht.
      2:{ destruct (vr_finished e g a dask (vr_origins g) Hx) as [_ _ _ _ _ _ D _]. by rewrite (D k Ht) in Hk. }
      destruct (Hchild k sg Ht) as (sg2 & Hk2 & C1 & C2 & _). rewrite Hk in Hk2. injection Hk2 as <-.
      destruct (C2 j t' Hj) as (t & r & K1 & K2 & K3 & K4). exists t, r. eauto 10.
    - intros r Hrr. destruct (gd_run _ _ _ _ _ _ (vr_finished e g a dask (vr_origins g) Hx)) as (rez' & _ & _ & HR).
      destruct (HR r Hrr) as (k & sg & sg' & rz & Ht & Ht' & Hin & Hen). destruct (Hchild k sg Ht) as (sg2 & Hk2 & C1 & _ & C3).
      rewrite Ht' in Hk2. injection Hk2 as <-.
      assert (Hin' : r ∈ m_rezs (g_meta sg')).
      { unfold entry_result, entry_at in Hen. cbn [en_k en_t en_run Nat.add] in Hen. destruct (skip_tile _ _ _ sg); [by injection Hen as -> <-|].
        apply rbind_Ok in Hen as (ga & _ & Hen). cbn [vr_ops grid_ops op_grid op_sr] in Hen. rewrite andb_false_r in Hen.
        destruct (exn_of (g_grid sr_ops e sg ga None)); [done|]. injection Hen as <- <-. exact Hin. }
      destruct (C3 r Hin') as (j & t & t' & K1 & K2 & K3 & K4). exists k, sg', j, t, t'. done.
  Qed.

  Lemma vr_auto_result (W : list point -> Z -> Prop) :
    (forall t d r, t_data t = Some d -> d <> [] -> (forall p, p ∈ d -> p ∈ all_points ct) -> t_size t = sub -> choose_resolution e t None auto = Ok r -> W d r) ->
    vr_auto e (alg_name sa) size sub ct W g' /\ vr_rezs_used e (alg_name sa) size sub ct W g'.
  Proof using Hsize Hsub H Ha Hr Hf Hx Hauto Hne Hlow.
    intros HW. destruct vr_auto_tiles as [T1 T2].
    assert (HA : known_args a) by (unfold known_args; rewrite Ha; apply alg_name_elem).
    assert (H' : vr_clean e known_args size sub b zarr disk g' ct) by (by apply CH_grid).
    assert (Hres : forall x y sg j u v t' t r, has_tile g' x y sg -> origin_at sg j = Some (u, v) -> tile_at sg j = Some t' ->
      tile_keeps t t' -> choose_resolution e t None auto = Ok r -> current e sa r t' ->
      let here := filter (fun p => in_square x y size (px p) (py p) /\ in_square u v sub (px p) (py p)) (all_points ct) in
      t_data t' = Some here /\ here <> [] /\ W here r /\ reflects e (alg_name sa) r u v sub false here t').
    { intros x y sg j u v t' t r Hg Ho Ht HK Hch Hcu here.
      pose proof (vr_clean_loc e known_args size sub b zarr disk g' ct x y sg j u v Hsize Hsub (fun _ h => h) H' Hg Ho) as HL. cbv zeta in HL. fold here in HL.
      rewrite Ht in HL. destruct HL as (L1 & L2 & ct' & L3 & L4). split; [done|]. split; [done|]. destruct HK as (F & D & _). split.
      - apply (HW t); [congruence|done| | |done].
        + intros p Hp. unfold here in Hp. by apply elem_of_list_filter in Hp as [_ ?].
        + destruct F as (_ & _ & F & _). destruct L3 as ((_ & _ & Q3 & _) & _). congruence.
      - rewrite <- L4. by apply current_reflects. }
    split.
    - intros x y sg j u v Hg Ho here. destruct (tile_at sg j) as [t'|] eqn:Ht.
      + pose proof Hg as (k & _ & Hk). destruct (T1 k sg j t' Hk Ht) as (t & r & K1 & K2 & K3 & K4 & K5).
        destruct (Hres x y sg j u v t' t r Hg Ho Ht K1 K2 K3) as (R1 & R2 & R3 & R4). split; [done|]. split; [done|]. exists r. done.
      + pose proof (vr_clean_loc e known_args size sub b zarr disk g' ct x y sg j u v Hsize Hsub (fun _ h => h) H' Hg Ho) as HL. cbv zeta in HL. by rewrite Ht in HL.
    - intros r Hrr. destruct (T2 r Hrr) as (k & sg & j & t & t' & Hk & Hj & K1 & K2 & K3).
      destruct (vr_clean_inv e (fun _ _ => True) known_args size sub b zarr disk Hsize Hsub (fun a Pa => known_allows a Pa) g' ct H') as (_ & seen & ok & HI).
      destruct (root_origin _ _ _ _ _ _ _ _ HI Hk) as (x & y & Hxy). assert (Hg : has_tile g' x y sg) by (by exists k).
      destruct (root_rep _ _ _ _ _ _ _ _ HI Hk) as (x2 & y2 & ct2 & [HC _] & _).
      destruct (child_origin _ _ _ _ _ _ _ _ _ HC Hj) as (u & v & Huv).
      destruct (Hres x y sg j u v t' t r Hg Huv Hj K1 K2 K3) as (_ & _ & R3 & R4). exists x, y, sg, j, u, v, t'. done.
  Qed.
End vr.

(** ** Single resolution grids *)
Lemma sorted_only r l : StronglySorted Z.lt l -> (forall x, x ∈ l -> x = r) -> r ∈ l -> l = [r].
Proof.
  intros Hs Hall Hin. destruct Hs as [|x l Hs Hx]; [by apply elem_of_nil in Hin|]. rewrite (Hall x) by left. destruct l as [|y l]; [done|].
  exfalso. apply Forall_cons in Hx as [Hx _]. rewrite (Hall x), (Hall y) in Hx by (repeat constructor). lia.
Qed.

Section sr_root.
  Context (e : env) (size : Z) (b zarr disk : bool) (Hsize : 0 < size).
  Context (g : sr_grid) (ct : content) (H : sr_clean e known_args size b zarr disk g ct).
  Context (a : gargs) (dask : option nat).

  Lemma sr_root_name : m_name (g_meta g) = NRoot (if zarr then "SRGridZarr_Root" else "SRGrid_Root") /\ m_tile_size (g_meta g) = size.
  Proof using H Hsize.
    destruct (sr_clean_inv e (fun _ _ => True) known_args size b zarr disk Hsize (fun a Pa => known_allows a Pa) g ct H) as (_ & seen & ok & [[B1 _ _ _] _]).
    by rewrite (mf_name _ _ B1), (mf_size _ _ B1).
  Qed.
  Lemma sr_tile_rez auto rez : tile_rez sr_ops (g_meta g) auto rez = rez.
  Proof using H Hsize.
    unfold tile_rez. destruct sr_root_name as [-> _]. cbn [sr_ops op_sr negb andb name_in].
    rewrite (bool_decide_eq_true_2 (_ ∈ sr_root_names)) by (unfold sr_root_names; destruct zarr; repeat constructor). by rewrite andb_false_r.
  Qed.
  Lemma sr_call_rez auto r : ga_rez a = None -> grid_auto a = auto -> call_rez sr_ops e g a = Ok r ->
    (auto = "depth" -> exists q, m_calculate_resolution_lookup e (g_meta g) = Ok q /\ r = Some q) /\
    (auto = "density" -> exists q, g_resolution_by_density sr_ops e g = Ok q /\ r = Some q).
  Proof using H Hsize.
    intros Hr Ha. unfold call_rez. rewrite Hr, Ha. unfold auto_rez. destruct sr_root_name as [-> _]. rewrite bool_decide_eq_false_2 by (by destruct zarr).
    intros HH. split; intros ->; cbn in HH; apply rbind_Ok in HH as (q & Hq & HH); injection HH as <-; eauto.
  Qed.
  Lemma sr_one_rez sa q : ga_alg a = alg_name sa -> full_call a -> exn_of (g_grid sr_ops e g a dask) = None -> call_rez sr_ops e g a = Ok (Some q) ->
    let g' := st_of (g_grid sr_ops e g a dask) in sr_reflects e (alg_name sa) q size b ct g' /\ m_rezs (g_meta g') = [q].
  Proof using H Hsize.
    intros Ha Hf Hx Hq g'.
    destruct (sr_clean_inv e (fun _ _ => True) known_args size b zarr disk Hsize (fun a Pa => known_allows a Pa) g ct H) as (_ & seen & ok & HI).
    assert (HS : all_steps e (fun _ _ => True) size b g) by (intros k t Ht; by eapply root_rep).
    assert (Ho : origins sr_ops g) by (by eapply root_origins).
    destruct (auto_tiles e (fun _ _ => True) size b Hsize g a dask sa Ho HS Ha Hf Hx) as (rez & Hrez & T1 & T2). rewrite Hq in Hrez. injection Hrez as <-.
    assert (Hc : forall t r, chosen e g a (Some q) t r -> r = q).
    { intros t r Hch. unfold chosen in Hch. rewrite sr_tile_rez in Hch. cbn in Hch. by injection Hch as <-. }
    assert (HA : known_args a) by (unfold known_args; rewrite Ha; apply alg_name_elem).
    assert (H' : sr_clean e known_args size b zarr disk g' ct) by (by apply CH_grid).
    split.
    - intros k x y Hk here. pose proof (sr_clean_loc e known_args size b zarr disk g' ct k x y Hsize (fun _ h => h) H' Hk) as HL. cbv zeta in HL. fold here in HL.
      destruct (tile_at g' k) as [t'|] eqn:Ht; [|done]. destruct HL as (L1 & L2 & L3 & L4). split; [done|]. split; [done|].
      destruct (T1 k t' Ht) as (t & r & _ & _ & K2 & K3 & _). apply Hc in K2 as ->. rewrite <- L4. by apply current_reflects.
    - apply sorted_only.
      + destruct (gd_meta _ _ _ _ _ _ (sr_finished e g a dask Ho Hx)) as (rz & Hm & Hsrt). fold g' in Hm. by rewrite Hm.
      + intros x Hxx. destruct (T2 x Hxx) as (k & t & t' & _ & _ & _ & K & _). by eapply Hc.
      + assert (Hne : ct <> []).
        { intros E. pose proof (gd_full _ _ _ _ _ _ (sr_finished e g a dask Ho Hx)) as Hfl.
          rewrite (root_is_empty (new_sr_meta 0 0 size b zarr) _ Hsize _ _ _ _ HI), bool_decide_eq_true_2 in Hfl; done. }
        destruct (sr_clean_inv e (fun _ _ => True) known_args size b zarr disk Hsize (fun a Pa => known_allows a Pa) g' ct H') as (_ & seen' & ok' & HI').
        destruct (root_live (new_sr_meta 0 0 size b zarr) _ _ _ _ _ Hsize HI' Hne) as [t' Ht']. apply live_tile_at in Ht' as [k Hk].
        destruct (T1 k t' Hk) as (t & r & _ & _ & K2 & _ & K3). by apply Hc in K2 as ->.
  Qed.
End sr_root.

(** ** The resolutions of the table are powers of two *)
Lemma is_pow2_proper q q' : (q == q')%Q -> is_power_of_two q = is_power_of_two q'.
Proof.
  intros E. unfold is_power_of_two.
  assert (L1 : Qle_bool q 1 = Qle_bool q' 1) by (by rewrite E). assert (L0 : Qle_bool q 0 = Qle_bool q' 0) by (by rewrite E).
  assert (L2 : Qeq_bool q 1 = Qeq_bool q' 1) by (by rewrite E). rewrite L1, L0, L2.
  destruct (negb (Qle_bool q' 1)); [by apply is_pow2_proper_ge1|]. destruct (Qeq_bool q' 1); [done|]. destruct (negb (Qle_bool q' 0)); [|done]. cbv zeta.
  assert (Ei : (/ q == / q')%Q) by (by rewrite E). rewrite (rint_proper _ _ Ei).
  assert (Ea : Qle_bool (1 # 10000000000) (Qabs (inject_Z (rint (/ q')) - / q)) = Qle_bool (1 # 10000000000) (Qabs (inject_Z (rint (/ q')) - / q'))) by (by rewrite Ei).
  rewrite Ea. destruct (negb _); [done|]. by apply is_pow2_proper_ge1.
Qed.
Lemma table_pow2 e k v : 0 < e_tpq e -> (k, v) ∈ documented_bands -> is_power_of_two (metres e (v * e_tpq e)) = true.
Proof.
  intros He Hin. assert (E : (metres e (v * e_tpq e) == v # 4)%Q).
  { unfold metres, Qeq. cbn [Qnum Qden]. rewrite Pos2Z.inj_mul, Z2Pos.id by done. lia. }
  rewrite (is_pow2_proper _ _ E). assert (HF : Forall (fun p => is_power_of_two (p.2 # 4) = true) documented_bands) by (repeat constructor).
  rewrite Forall_forall in HF. by apply (HF (k, v)).
Qed.
Lemma table_rez_pow2 e size r : 0 < e_tpq e -> is_power_of_two (metres e size) = true -> table_rez e size r -> is_power_of_two (metres e r) = true.
Proof. intros He Hp [_ [->|(k & v & Hin & ->)]]; [done|]. by eapply table_pow2. Qed.

(** ** Gridding with automatic resolutions returns *)
Lemma band_table e size m v r : band_for m v -> r = Z.min size (v * e_tpq e) -> table_rez e size r.
Proof.
  intros (i & k & Hl & _) ->. unfold table_rez. split; [lia|]. destruct (Z.min_spec size (v * e_tpq e)) as [[_ ->]|[_ ->]]; [by left|right].
  exists k, v. split; [by eapply elem_of_list_lookup_2|done].
Qed.
Lemma lookup_table e size m : table_rez e size (Z.min size (rez_ticks e (band_lookup m))).
Proof.
  unfold table_rez, rez_ticks. split; [lia|]. destruct (Z.min_spec size (band_lookup m * e_tpq e)) as [[_ ->]|[_ ->]]; [by left|right].
  assert (Ha : forall l, l <> [] -> (argmax_bool l < length l)%nat).
  { induction l as [|[] l IH]; intros Hl; [done|cbn; lia|]. cbn. destruct l as [|c l]; [cbn; lia|]. specialize (IH ltac:(done)).
    repeat case_match; cbn in *; lia. }
  assert (E : exists k, (k, band_lookup m) ∈ documented_bands); [|destruct E as [k E]; eauto].
  unfold band_lookup. set (l := map _ _). specialize (Ha l ltac:(done)). assert (Hl : length l = length depth_resolution_lookup) by apply map_length. rewrite Hl in Ha.
  destruct (lookup_lt_is_Some_2 _ _ Ha) as [[k v] E]. rewrite E. exists k. apply elem_of_list_lookup_2 in E. exact E.
Qed.
Lemma choice_table e t r auto : auto = "depth" \/ auto = "density" -> choose_resolution e t None auto = Ok r -> table_rez e (t_size t) r.
Proof.
  intros [->| ->]; [|apply density_choice]. unfold choose_resolution. rewrite bool_decide_eq_true_2 by done. unfold t_calculate_resolution_lookup.
  destruct (t_data t); [|done]. intros [= <-]. apply lookup_table.
Qed.

Section auto_total.
  Context (e : env) (Q : string -> Z -> Prop) (size : Z) (b : bool) (Hsize : 0 < size) (He : 0 < e_tpq e).
  Lemma tile_choice auto alg t x y ct : auto = "depth" \/ auto = "density" -> steps_rep e Q size b alg t x y ct -> ct <> [] ->
    exists r, choose_resolution e t None auto = Ok r.
  Proof using Hsize He.
    intros Hau HR Hne. destruct (steps_data e Q size b alg t x y ct HR Hne) as [d Hd]. pose proof HR as (_ & (f & Hst) & _).
    destruct (reach_good true e x y size b t Hsize ltac:(by eapply steps_reach)) as (HG & _ & _).
    unfold choose_resolution. destruct Hau as [->| ->].
    - rewrite bool_decide_eq_true_2 by done. unfold t_calculate_resolution_lookup. rewrite Hd. by eexists.
    - rewrite bool_decide_eq_false_2, bool_decide_eq_true_2 by done. by apply (density_resolution_total e t None None d).
  Qed.
  Lemma auto_total (g : sr_grid) a dask rez sa : origins sr_ops g -> tiles_known dask g -> all_steps e Q size b g -> mismatch g a = false -> g_is_empty g = false ->
    ga_alg a = alg_name sa -> call_rez sr_ops e g a = Ok rez ->
    (forall k t, tile_at g k = Some t -> exists r, chosen e g a rez t r /\ is_power_of_two (metres e r) = true) ->
    exn_of (g_grid sr_ops e g a dask) = None.
  Proof using Hsize.
    intros Ho Hcn HS HM Hem HA Hr Hch.
    apply (grid_total sr_ops e tile_keeps tile_keeps_refl tile_keeps_trans (sr_grid_keeps e) sr_reload_keeps t_strip_keeps g a dask rez); [done..|].
    intros k t Ht. unfold entry_result, entry_at. cbn [en_k en_t en_run Nat.add]. destruct (skip_tile _ _ _ t); [by eexists|].
    assert (Hb : borders sr_ops g a dask rez k t = Ok None).
    { unfold borders, border_for. rewrite bool_decide_eq_false_2; [done|]. rewrite HA. by destruct sa. }
    rewrite Hb. cbn [rbind]. destruct (HS k t Ht) as (x & y & ct & HR & Hne). destruct (steps_data e Q size b _ _ _ _ _ HR Hne) as [d Hd].
    pose proof HR as (_ & (f & Hst) & _). destruct (Hch k t Ht) as (r & Hc & Hp). unfold chosen in Hc.
    destruct (reach_good true e x y size b t Hsize ltac:(by eapply steps_reach)) as (HG & _ & _).
    cbn [sr_ops op_grid call_args ga_alg ga_rez ga_clear ga_mode ga_params ga_border].
    assert (HK : known_alg (ga_alg a)) by (rewrite HA; apply known_elem, alg_name_elem).
    assert (HC : next_clear sr_ops a (ga_clear a) = true \/ compat e t (ga_alg a)).
    { destruct (steps_kind e Q size b (m_algorithm (g_meta g)) (ga_alg a) (next_clear sr_ops a (ga_clear a)) t x y ct HR) as [|K]; [|by left|right; by apply compat_kind].
      intros Hc'. apply mismatch_clear; [done|]. unfold next_clear in Hc'. by destruct (_ && _). }
    destruct (t_grid_ok e t (ga_alg a) (tile_rez sr_ops (g_meta g) (grid_auto a) rez) r (next_clear sr_ops a (ga_clear a)) (grid_auto a) (ga_params a) None d HG Hc Hp HK Hd HC)
      as (t' & l' & Hg & _); [rewrite HA; by destruct sa|].
    rewrite Hg. cbn. by eexists.
  Qed.
End auto_total.
Lemma density_rez_total {T} (O : tile_ops T) e (g : grid T) : (forall k t, tile_at g k = Some t -> exists r, op_density_rez O e t = Ok r) ->
  exists r, g_resolution_by_density O e g = Ok r.
Proof.
  intros Hall. unfold g_resolution_by_density. assert (HF : forall t, t ∈ live_tiles g -> exists r, op_density_rez O e t = Ok r).
  { intros t Ht. apply live_tile_at in Ht as [k Hk]. by eapply Hall. }
  assert (Hrs : exists rs, rmap (op_density_rez O e) (live_tiles g) = Ok rs).
  { induction (live_tiles g) as [|t l IH]; [by exists []|]. destruct (HF t) as [r Hr]; [left|]. destruct IH as [rs Hrs]; [intros u Hu; apply HF; by right|].
    exists (r :: rs). cbn [rmap]. rewrite Hr. cbn [rbind]. by rewrite Hrs. }
  destruct Hrs as [rs ->]. cbn [rbind]. by eexists.
Qed.
Lemma steps_density e Q size b (g : sr_grid) : 0 < size -> 0 < e_tpq e -> all_steps e Q size b g -> exists r, g_resolution_by_density sr_ops e g = Ok r.
Proof.
  intros Hs He HS. apply density_rez_total. intros k t Ht. destruct (HS k t Ht) as (x & y & ct & HR & Hne).
  destruct (tile_choice e Q size b Hs He "density" _ t x y ct (or_intror eq_refl) HR Hne) as [r Hr].
  unfold choose_resolution in Hr. rewrite bool_decide_eq_false_2, bool_decide_eq_true_2 in Hr by done. by exists r.
Qed.
Lemma steps_size e Q size b alg t x y ct : steps_rep e Q size b alg t x y ct -> t_size t = size.
Proof. by intros (((_ & _ & ? & _) & _) & _). Qed.

Lemma sr_auto_returns e size b zarr disk g ct a dask sa :
  0 < size -> 0 < e_tpq e -> is_power_of_two (metres e size) = true -> sr_clean e known_args size b zarr disk g ct -> ct <> [] -> mismatch g a = false ->
  ga_alg a = alg_name sa -> ga_rez a = None ->
  (str_lower (ga_mode a) = "depth" /\ ~ (m_mean_depth (g_meta g) == 0)%Q) \/ str_lower (ga_mode a) = "density" ->
  exn_of (g_grid sr_ops e g a dask) = None.
Proof.
  intros Hs He Hp H Hne HM HA Hr Hau.
  destruct (sr_clean_inv e (fun _ _ => True) known_args size b zarr disk Hs (fun a Pa => known_allows a Pa) g ct H) as (_ & seen & ok & HI).
  assert (HS : all_steps e (fun _ _ => True) size b g) by (intros k t Ht; by eapply root_rep).
  destruct (sr_root_name e size b zarr disk Hs g ct H) as [Hn Hsz].
  assert (HT : exists q, call_rez sr_ops e g a = Ok (Some q) /\ table_rez e size q).
  { unfold call_rez. rewrite Hr. unfold auto_rez, grid_auto. rewrite Hr, Hn, bool_decide_eq_false_2 by (by destruct zarr). destruct Hau as [[-> Hm]| ->].
    - rewrite bool_decide_eq_true_2 by done. unfold m_calculate_resolution_lookup. destruct (Qeq_bool _ 0) eqn:E; [by apply Qeq_bool_iff in E|]. rewrite Hsz. cbn [rbind].
      eexists. split; [done|]. apply lookup_table.
    - rewrite bool_decide_eq_false_2, bool_decide_eq_true_2 by done. destruct (steps_density e _ size b g Hs He HS) as [r Hd]. rewrite Hd. cbn [rbind]. exists r. split; [done|].
      destruct (density_coarsest sr_ops e g r) as [(k & t & Ht & H1) _]; [|exact Hd|].
      { exact (root_live (new_sr_meta 0 0 size b zarr) _ _ _ _ _ Hs HI Hne). }
      destruct (HS k t Ht) as (x & y & ct' & HR & _). rewrite <- (steps_size _ _ _ _ _ _ _ _ _ HR). by apply density_legal in H1. }
  destruct HT as (q & Hq & HT). eapply (auto_total e (fun _ _ => True) size b Hs); try done; [by eapply root_origins|by eapply root_tiles_known| |].
  - rewrite (root_is_empty (new_sr_meta 0 0 size b zarr) _ Hs _ _ _ _ HI). by apply bool_decide_eq_false_2.
  - intros k t Ht. exists q. split; [|by eapply table_rez_pow2]. unfold chosen. by rewrite (sr_tile_rez e size b zarr disk Hs g ct H).
Qed.

Lemma vr_auto_returns e size sub b zarr disk g ct a dask sa :
  0 < size -> 0 < sub -> 0 < e_tpq e -> is_power_of_two (metres e sub) = true -> vr_clean e known_args size sub b zarr disk g ct -> ct <> [] -> mismatch g a = false ->
  ga_alg a = alg_name sa -> ga_rez a = None ->
  (str_lower (ga_mode a) = "depth" /\ (zarr = true -> ~ (m_mean_depth (g_meta g) == 0)%Q) /\ forall k sg, tile_at g k = Some sg -> ~ (m_mean_depth (g_meta sg) == 0)%Q) \/
    str_lower (ga_mode a) = "density" ->
  exn_of (g_grid vr_ops e g a dask) = None.
Proof.
  intros Hs Hsub He Hp H Hne HM HA Hr Hau.
  destruct (vr_clean_inv e (fun _ _ => True) known_args size sub b zarr disk Hs Hsub (fun a Pa => known_allows a Pa) g ct H) as (_ & seen & ok & HI).
  assert (Hau' : str_lower (ga_mode a) = "depth" \/ str_lower (ga_mode a) = "density") by tauto.
  assert (Hn : m_name (g_meta g) = NRoot (if zarr then "VRGridTileZarr_Root" else "VRGridTile_Root")).
  { destruct HI as [[B1 _ _ _] _]. by rewrite (mf_name _ _ B1). }
  assert (HC : forall k sg, tile_at g k = Some sg -> all_steps e (fun _ _ => True) sub false sg).
  { intros k sg Ht. destruct (root_rep _ _ _ _ _ _ _ _ HI Ht) as (x & y & ct' & [HC _] & _). intros j t Hj. by eapply child_rep. }
  assert (HT : exists rez, call_rez vr_ops e g a = Ok rez).
  { unfold call_rez. rewrite Hr. unfold auto_rez, grid_auto. rewrite Hr, Hn. destruct zarr; [|by eexists]. rewrite bool_decide_eq_false_2 by done.
    destruct Hau as [(-> & Hm & _)| ->].
    - rewrite bool_decide_eq_true_2 by done. unfold m_calculate_resolution_lookup. destruct (Qeq_bool _ 0) eqn:E; [by apply Qeq_bool_iff, Hm in E|]. cbn [rbind]. by eexists.
    - rewrite bool_decide_eq_false_2, bool_decide_eq_true_2 by done. destruct (density_rez_total vr_ops e g) as [r ->]; [|cbn [rbind]; by eexists].
      intros k sg Ht. exact (steps_density e _ sub false sg Hsub He (HC k sg Ht)). }
  destruct HT as [rez Hrez].
  apply (grid_total vr_ops e sub_keeps sub_keeps_refl sub_keeps_trans (vr_grid_keeps e) vr_reload_keeps g_strip_keeps g a dask rez); [apply vr_origins|by eapply root_tiles_known|done| |done|].
  { rewrite (root_is_empty (new_vr_meta 0 0 size sub b zarr) _ Hs _ _ _ _ HI). by apply bool_decide_eq_false_2. }
  intros k sg Ht. unfold entry_result, entry_at. cbn [en_k en_t en_run Nat.add]. destruct (skip_tile _ _ _ sg); [by eexists|].
  assert (Hb : borders vr_ops g a dask rez k sg = Ok None).
  { unfold borders, border_for. rewrite bool_decide_eq_false_2; [done|]. rewrite HA. by destruct sa. }
  rewrite Hb. cbn [rbind]. cbn [vr_ops grid_ops op_grid op_sr]. rewrite andb_false_r.
  assert (Hau1 : grid_auto a <> "") by (unfold grid_auto; rewrite Hr; destruct Hau' as [-> | ->]; done).
  assert (Hr' : ga_rez (call_args vr_ops a (grid_auto a) rez (g_meta g) (next_clear vr_ops a (ga_clear a)) None) = None).
  { unfold call_args, tile_rez. cbn [ga_rez vr_ops grid_ops op_sr]. by rewrite bool_decide_eq_false_2. }
  assert (Hauto' : grid_auto (call_args vr_ops a (grid_auto a) rez (g_meta g) (next_clear vr_ops a (ga_clear a)) None) = str_lower (ga_mode a)).
  { unfold grid_auto at 1. rewrite Hr'. cbn [call_args ga_mode]. unfold grid_auto. rewrite Hr. by destruct Hau' as [-> | ->]. }
  assert (HM' : mismatch sg (call_args vr_ops a (grid_auto a) rez (g_meta g) (next_clear vr_ops a (ga_clear a)) None) = false).
  { destruct (root_rep _ _ _ _ _ _ _ _ HI Ht) as (x & y & ct' & [_ HS] & _).
    unfold mismatch, call_args. cbn [ga_alg ga_clear]. unfold next_clear. cbn [vr_ops grid_ops op_sr]. rewrite andb_false_r.
    destruct (ga_clear a) eqn:Hc; [by rewrite andb_false_r|]. destruct (mismatch_clear g a HM Hc) as [E|E]; destruct HS as [S|[S K]].
    - by rewrite S.
    - rewrite S. rewrite E. done.
    - by rewrite S.
    - rewrite S, E. by rewrite (bool_decide_eq_true_2 (ga_alg a = ga_alg a)), andb_false_r by done. }
  assert (HA' : ga_alg (call_args vr_ops a (grid_auto a) rez (g_meta g) (next_clear vr_ops a (ga_clear a)) None) = alg_name sa) by exact HA.
  set (a' := call_args _ _ _ _ _ _ _) in *. clearbody a'.
  destruct (root_rep _ _ _ _ _ _ _ _ HI Ht) as (x & y & ct' & [HC' _] & Hne').
  assert (Hnc : m_name (g_meta sg) = NTile x y). { destruct HC' as [[B1 _ _ _ _ _ _ _] _]. by rewrite (mf_name _ _ B1). }
  assert (HT' : exists rez', call_rez sr_ops e sg a' = Ok rez').
  { unfold call_rez. rewrite Hr'. unfold auto_rez. rewrite Hauto', Hnc, bool_decide_eq_false_2 by done.
    destruct Hau as [(-> & _ & Hm)| ->].
    - rewrite bool_decide_eq_true_2 by done. unfold m_calculate_resolution_lookup. destruct (Qeq_bool _ 0) eqn:E; [by apply Qeq_bool_iff, (Hm k sg Ht) in E|]. cbn [rbind]. by eexists.
    - rewrite bool_decide_eq_false_2, bool_decide_eq_true_2 by done. destruct (steps_density e _ sub false sg Hsub He (HC k sg Ht)) as [r ->]. cbn [rbind]. by eexists. }
  destruct HT' as [rez' Hrez'].
  assert (Hx : exn_of (g_grid sr_ops e sg a' None) = None); [|rewrite Hx; by eexists].
  eapply (auto_total e (fun _ _ => True) sub false Hsub); try done; [by eapply child_origins|apply tiles_known_none|exact (HC k sg Ht)| |].
  - by rewrite (child_is_empty (sub0 size sub b zarr x y) _ _ _ _ _ _ Hsub HC'), bool_decide_eq_false_2.
  - intros j t Hj. destruct (HC k sg Ht j t Hj) as (u & v & ct2 & HR & Hne2).
    destruct (tile_choice e _ sub false Hsub He (str_lower (ga_mode a)) _ t u v ct2 Hau' HR Hne2) as [r Hrr]. exists r. split.
    + unfold chosen, tile_rez. rewrite Hauto', Hnc. rewrite bool_decide_eq_false_2 by (destruct Hau' as [-> | ->]; done). exact Hrr.
    + apply (table_rez_pow2 e sub); [done..|]. rewrite <- (steps_size _ _ _ _ _ _ _ _ _ HR). by eapply choice_table.
Qed.

(** Zero mean depths. *)
Lemma sr_zero_raises e size b zarr disk g ct a dask :
  0 < size -> sr_clean e known_args size b zarr disk g ct -> ga_rez a = None -> str_lower (ga_mode a) = "depth" -> (m_mean_depth (g_meta g) == 0)%Q ->
  exn_of (g_grid sr_ops e g a dask) <> None.
Proof.
  intros Hs H Hr Hm Hz Hx.
  destruct (sr_clean_inv e (fun _ _ => True) known_args size b zarr disk Hs (fun a Pa => known_allows a Pa) g ct H) as (_ & seen & ok & HI).
  assert (Ho : origins sr_ops g) by (by eapply root_origins).
  destruct (gd_run _ _ _ _ _ _ (sr_finished e g a dask Ho Hx)) as (rez & Hrez & _).
  destruct (sr_call_rez e size b zarr disk Hs g ct H a "depth" rez Hr) as [H1 _]; [by unfold grid_auto; rewrite Hr|done|].
  destruct (H1 eq_refl) as (q & Hq & _). unfold m_calculate_resolution_lookup in Hq. apply Qeq_bool_iff in Hz. by rewrite Hz in Hq.
Qed.
Lemma vr_zero_raises e size sub b zarr disk g ct a dask k sg :
  0 < size -> 0 < sub -> vr_clean e known_args size sub b zarr disk g ct -> ga_rez a = None -> str_lower (ga_mode a) = "depth" -> full_call a ->
  tile_at g k = Some sg -> (m_mean_depth (g_meta sg) == 0)%Q -> exn_of (g_grid vr_ops e g a dask) <> None.
Proof.
  intros Hs Hsub H Hr Hm Hf Ht Hz Hx.
  destruct (vr_clean_inv e (fun _ _ => True) known_args size sub b zarr disk Hs Hsub (fun a Pa => known_allows a Pa) g ct H) as (_ & seen & ok & HI).
  destruct (vr_done_tile e g a dask Hx) as (rez & Hrez & HT). destruct (HT k sg Ht) as (sg' & _ & HH).
  assert (Hsk : skip_tile vr_ops a (ga_clear a) sg = false).
  { unfold skip_tile. destruct (decide (ga_regrid a = "update")) as [E|E]; [by rewrite (Hf E), andb_false_r|by rewrite bool_decide_eq_false_2]. }
  rewrite Hsk in HH. destruct HH as (bd & _ & HH). cbv zeta in HH. destruct HH as (Hx2 & _).
  destruct (root_rep _ _ _ _ _ _ _ _ HI Ht) as (x & y & ct' & [HC' _] & _).
  assert (Hnc : m_name (g_meta sg) = NTile x y). { destruct HC' as [[B1 _ _ _ _ _ _ _] _]. by rewrite (mf_name _ _ B1). }
  assert (Ho' : origins sr_ops sg) by (by eapply child_origins).
  destruct (gd_run _ _ _ _ _ _ (sr_finished e sg _ None Ho' Hx2)) as (rez' & Hrez' & _).
  unfold call_rez, grid_auto, call_args, tile_rez in Hrez'. cbn [ga_rez ga_mode vr_ops grid_ops op_sr] in Hrez'. rewrite Hr, Hm in Hrez'.
  rewrite (bool_decide_eq_false_2 ("depth" = "")) in Hrez' by done. cbn [negb andb] in Hrez'. unfold auto_rez in Hrez'. rewrite Hnc, bool_decide_eq_false_2 in Hrez' by done.
  change (str_lower "depth") with "depth" in Hrez'. rewrite bool_decide_eq_true_2 in Hrez' by done. unfold m_calculate_resolution_lookup in Hrez'.
  apply Qeq_bool_iff in Hz. by rewrite Hz in Hrez'.
Qed.

(** Calls. *)
Lemma simple_name alg : alg ∈ ["mean"; "shoalest"] -> exists sa, alg = alg_name sa.
Proof.
  rewrite elem_of_cons, elem_of_list_singleton. intros [->| ->]; [by exists Mean|by exists Shoalest].
Qed.
Lemma matches_args {T} (g : grid T) a : ga_clear a = true \/ m_algorithm (g_meta g) = "" \/ m_algorithm (g_meta g) = ga_alg a -> mismatch g a = false.
Proof.
  unfold mismatch. intros [->|[->| ->]]; [by rewrite andb_false_r|done|]. by rewrite (bool_decide_eq_true_2 (ga_alg a = ga_alg a)), andb_false_r by done.
Qed.
Lemma sr_call e size b zarr disk g ct a dask : 0 < size -> sr_clean e known_args size b zarr disk g ct -> exn_of (g_grid sr_ops e g a dask) = None ->
  exists rez, call_rez sr_ops e g a = Ok rez.
Proof.
  intros Hs H Hx. destruct (sr_clean_inv e (fun _ _ => True) known_args size b zarr disk Hs (fun a Pa => known_allows a Pa) g ct H) as (_ & seen & ok & HI).
  destruct (gd_run _ _ _ _ _ _ (sr_finished e g a dask ltac:(by eapply root_origins) Hx)) as (rez & Hrez & _). by exists rez.
Qed.
Lemma sr_coarsest e size b zarr disk (Hs : 0 < size) g ct (H : sr_clean e known_args size b zarr disk g ct) a dask q :
  exn_of (g_grid sr_ops e g a dask) = None -> g_resolution_by_density sr_ops e g = Ok q ->
  table_rez e size q /\ (exists k t, tile_at g k = Some t /\ t_resolution_by_density e t None None = Ok q) /\
    (forall k t, tile_at g k = Some t -> exists r', t_resolution_by_density e t None None = Ok r' /\ r' <= q).
Proof.
  intros Hx Hq. destruct (sr_clean_inv e (fun _ _ => True) known_args size b zarr disk Hs (fun a Pa => known_allows a Pa) g ct H) as (_ & seen & ok & HI).
  assert (Hne : ct <> []).
  { intros E. pose proof (gd_full _ _ _ _ _ _ (sr_finished e g a dask ltac:(by eapply root_origins) Hx)) as Hfl.
    rewrite (root_is_empty (new_sr_meta 0 0 size b zarr) _ Hs _ _ _ _ HI), bool_decide_eq_true_2 in Hfl; done. }
  destruct (density_coarsest sr_ops e g q) as [H1 H2]; [exact (root_live (new_sr_meta 0 0 size b zarr) _ _ _ _ _ Hs HI Hne)|exact Hq|].
  split; [|split; [exact H1|exact H2]]. destruct H1 as (k & t & Ht & H1). destruct (root_rep _ _ _ _ _ _ _ _ HI Ht) as (x & y & ct' & HR & _).
  rewrite <- (steps_size _ _ _ _ _ _ _ _ _ HR). by apply density_legal in H1.
Qed.
