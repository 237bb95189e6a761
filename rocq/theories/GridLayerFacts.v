(** What get_layers_by_name assembles from the tiles. *)
From Verif Require Import Py Nd Numpy Point Bin Algorithms Tile Time Meta Disk Grid GridRun GridQuery GridOps Spec.
From Verif Require Import PyFacts NdFacts NumpyFacts GridBaseFacts GridEvolveFacts GridRunFacts.
Open Scope Z_scope.

Lemma nd_init_ext {A} r c (f h : nat -> nat -> A) :
  (forall i j, (i < r)%nat -> (j < c)%nat -> f i j = h i j) -> nd_init r c f = nd_init r c h.
Proof.
  intros H. unfold nd_init. f_equal. apply map_ext_in. intros k Hk%in_seq.
  destruct (flat_div_lt r c k ltac:(lia)) as [? ?]. by apply H.
Qed.
Lemma nd_full_init {A} r c (v : A) : nd_full r c v = nd_init r c (fun _ _ => v).
Proof. unfold nd_full, nd_init. f_equal. symmetry. rewrite <- (seq_length (r * c) 0) at 2. generalize (seq 0 (r * c)). induction l; cbn; congruence. Qed.

Lemma blit_all_spec data : forall found (F : nat -> arr) r0 c0 n o,
  (length found <= length data)%nat ->
  (forall i d, data !! i = Some d ->
     match found !! i with
     | Some a => nd_blit None d r0 (r0 + n) c0 (c0 + n) a = Ok (F (o + i)%nat)
     | None => d = F (o + i)%nat
     end) ->
  blit_all data found r0 c0 n = Ok (map F (seq o (length data))).
Proof.
  induction data as [|d data IH]; intros found F r0 c0 n o Hl H.
  - by destruct found; [|cbn in Hl; lia].
  - destruct found as [|a found].
    + cbn [blit_all]. f_equal. apply list_eq. intros i. rewrite list_lookup_fmap. destruct ((d :: data) !! i) as [v|] eqn:E.
      * rewrite lookup_seq_lt by (by eapply lookup_lt_Some). cbn. f_equal. apply (H i v E).
      * by rewrite lookup_seq_ge by (by apply lookup_ge_None).
    + cbn [blit_all]. pose proof (H 0%nat d eq_refl) as H0. cbn in H0. rewrite H0. cbn [rbind].
      rewrite (IH found F r0 c0 n (S o)).
      * cbn [rbind length seq map]. do 2 f_equal. f_equal. lia.
      * cbn in Hl. lia.
      * intros i v Hv. specialize (H (S i) v Hv). cbn in H. by replace (S o + i)%nat with (o + S i)%nat by lia.
Qed.
Lemma blit_all_shapes data : forall found r0 c0 n data', blit_all data found r0 c0 n = Ok data' ->
  (length found <= length data)%nat /\
  forall i a, found !! i = Some a -> exists d d', data !! i = Some d /\ nd_blit None d r0 (r0 + n) c0 (c0 + n) a = Ok d'.
Proof.
  induction data as [|d data IH]; intros found r0 c0 n data'.
  - destruct found; [|done]. intros _. split; [done|]. intros i a. by rewrite lookup_nil.
  - destruct found as [|a found]; cbn [blit_all].
    + intros _. split; [cbn; lia|]. intros i a. by rewrite lookup_nil.
    + intros (d' & Hd & H)%rbind_Ok. apply rbind_Ok in H as (rest & Hr & _). destruct (IH _ _ _ _ _ Hr) as [H1 H2].
      split; [cbn; lia|]. intros [|i] b; cbn.
      * intros [= <-]. eauto.
      * apply H2.
Qed.

Section layers.
  Context {T : Type} (O : tile_ops T) (e : env) (g : grid T) (r : Z) (ls : list string) (nodata : cell) (up : bool).
  Notation up' := (eff_up (g_meta g) up).

  (** What a tile yields; what the location [k] yields. *)
  Definition tile_found (t : T) : list arr :=
    match read_layers O e t ls r nodata up' with Ok td => map snd td.2 | Raise _ => [] end.
  Definition found (k : nat) : list arr := match tile_at g k with Some t => tile_found t | None => [] end.
  Definition after (k : nat) : option T :=
    match tile_at g k with
    | Some t => match read_layers O e t ls r nodata up' with Ok td => Some td.1 | Raise _ => None end
    | None => None
    end.
  Definition fill_of (i : nat) : cell := match ls !! i with Some l => layer_nodata l nodata | None => None end.
  Definition assembled (nx ny n m i : nat) : arr :=
    nd_init (ny * n) (nx * n) (fun R C =>
      let k := (R / n * nx + C / n)%nat in
      if bool_decide (k < m)%nat then
        match found k !! i with
        | Some a => default None (nd_get a (R mod n) (C mod n))
        | None => fill_of i
        end
      else fill_of i).

  (** The arrays of a grid of ny by nx tiles of n by n cells. *)
  Record boxed (nx ny n : nat) : Prop := {
    bx_tiles : exists a, g_tiles g = Some a /\ nrows a = ny /\ ncols a = nx /\ length (nflat a) = (ny * nx)%nat;
    bx_nx : (0 < nx)%nat; bx_ny : (0 < ny)%nat; bx_n : (0 < n)%nat;
    bx_rez : 0 < r; bx_size : m_tile_size (g_meta g) = Z.of_nat n * r;
    bx_width : m_width (g_meta g) = Some (Z.of_nat nx * m_tile_size (g_meta g));
    bx_height : m_height (g_meta g) = Some (Z.of_nat ny * m_tile_size (g_meta g)) }.

  Lemma read_length t td : read_layers O e t ls r nodata up' = Ok td -> (length (map snd td.2) <= length ls)%nat.
  Proof.
    unfold read_layers. rewrite map_length.
    assert (H : forall l acc td, foldl (fun acc lyr => let* ta := acc in
             let* ro := op_get_layer O e ta.1 lyr r nodata up' in
             Ok (ro.1, match ro.2 with Some a => dset ta.2 lyr a | None => ta.2 end)) acc l = Ok td ->
             exists td0, acc = Ok td0 /\ (length td.2 <= length td0.2 + length l)%nat).
    { induction l as [|y l IH]; intros acc s; cbn [foldl].
      - intros ->. exists s. split; [done|]. cbn. lia.
      - intros (td0 & H0 & Hl)%IH. apply rbind_Ok in H0 as (ta & -> & H0). exists ta. split; [done|].
        apply rbind_Ok in H0 as (ro & _ & [= <-]). cbn in Hl |- *. destruct ro.2 as [a|]; [|lia].
        assert (length (dset ta.2 y a) <= S (length ta.2))%nat; [|lia]. clear.
        induction (ta.2) as [|[k v] d IH]; cbn; [lia|]. destruct (decide _); cbn; lia. }
    intros (td0 & [= <-] & Hl)%H. cbn in Hl. lia.
  Qed.

  Context (nx ny n : nat) (HB : boxed nx ny n).

  Lemma exact_rows m : exact_div (Z.of_nat m * m_tile_size (g_meta g)) r = Ok (m * n)%nat.
  Proof using HB.
    destruct HB as [_ _ _ Hn Hr Hs _ _]. unfold exact_div. rewrite Hs.
    rewrite (proj2 (Z.eqb_neq r 0)) by lia. replace (Z.of_nat m * (Z.of_nat n * r)) with (Z.of_nat (m * n) * r) by lia.
    rewrite Z.mod_mul by lia. cbn. rewrite Z.div_mul by lia. by rewrite Nat2Z.id.
  Qed.
  Lemma exact_cells : exact_div (m_tile_size (g_meta g)) r = Ok n.
  Proof using HB. pose proof (exact_rows 1) as H. rewrite Z.mul_1_l in H. by rewrite H, Nat.mul_1_l. Qed.
  Lemma build_all : rmap (fun l => build_layer_grid g r l nodata) ls = Ok (map (assembled nx ny n 0) (seq 0 (length ls))).
  Proof using HB.
    assert (H : forall l o, (forall i x, l !! i = Some x -> ls !! (o + i)%nat = Some x) ->
      rmap (fun l => build_layer_grid g r l nodata) l = Ok (map (assembled nx ny n 0) (seq o (length l)))).
    { induction l as [|x l IH]; intros o Hl; [done|]. cbn [rmap]. unfold build_layer_grid at 1.
      rewrite (bx_height _ _ _ HB), (bx_width _ _ _ HB). cbn [rofopt rbind]. rewrite !exact_rows. cbn [rbind].
      rewrite (IH (S o)). 2:{ intros i y Hy. specialize (Hl (S i) y Hy). by replace (S o + i)%nat with (o + S i)%nat by lia. }
      cbn [rbind length seq map]. do 2 f_equal. rewrite nd_full_init. apply nd_init_ext. intros i j _ _. cbn.
      unfold fill_of. specialize (Hl 0%nat x eq_refl). rewrite Nat.add_0_r in Hl. by rewrite Hl. }
    by apply (H ls 0%nat).
  Qed.

  (** The loop over the tiles. *)
  Definition any (m : nat) : bool := existsb (fun k => negb (bool_decide (length (found k) = 0%nat))) (seq 0 m).
  Record reached (m : nat) (s : grid T * list arr * bool) : Prop := {
    rc_meta : g_meta s.1.1 = g_meta g; rc_geom : g_geom s.1.1 = g_geom g; rc_mask : g_mask s.1.1 = g_mask g; rc_disk : g_disk s.1.1 = g_disk g;
    rc_cols : option_map ncols (g_tiles s.1.1) = Some nx; rc_len : tiles_size s.1.1 = (ny * nx)%nat;
    rc_rows : option_map nrows (g_tiles s.1.1) = Some ny;
    rc_tiles : forall k, tile_at s.1.1 k = if bool_decide (k < m)%nat then after k else tile_at g k;
    rc_data : s.1.2 = map (assembled nx ny n m) (seq 0 (length ls));
    rc_any : s.2 = any m }.

  Definition reads (k : nat) : Prop := match tile_at g k with Some t => exists td, read_layers O e t ls r nodata up' = Ok td | None => True end.
  Definition shaped (k : nat) : Prop := forall a, a ∈ found k -> nrows a = n /\ ncols a = n.

  Lemma found_length k : (length (found k) <= length ls)%nat.
  Proof.
    unfold found, tile_found. destruct (tile_at g k); [|cbn; lia]. destruct (read_layers _ _ _ _ _ _ _) eqn:E; [|cbn; lia]. by eapply read_length.
  Qed.
  Lemma any_S m : any (S m) = any m || negb (bool_decide (length (found m) = 0%nat)).
  Proof. unfold any. rewrite seq_S, existsb_app. cbn. by rewrite orb_false_r. Qed.

  Lemma tile_flat m : (m < ny * nx)%nat -> forall R C, (R < ny * n)%nat -> (C < nx * n)%nat ->
    (R / n * nx + C / n)%nat = m <-> (m / nx * n <= R < m / nx * n + n /\ m mod nx * n <= C < m mod nx * n + n)%nat.
  Proof using HB.
    destruct HB as [_ Hx Hy Hn _ _ _ _]. intros Hm R C HR HC.
    assert (HCn : (C / n < nx)%nat) by (apply Nat.div_lt_upper_bound; lia).
    split.
    - intros <-. rewrite flat_div, flat_mod by done.
      pose proof (Nat.div_mod R n ltac:(lia)). pose proof (Nat.mod_upper_bound R n ltac:(lia)).
      pose proof (Nat.div_mod C n ltac:(lia)). pose proof (Nat.mod_upper_bound C n ltac:(lia)). lia.
    - intros [H1 H2].
      assert (R / n = m / nx)%nat by (symmetry; apply (Nat.div_unique R n _ (R - m / nx * n)); lia).
      assert (C / n = m mod nx)%nat by (symmetry; apply (Nat.div_unique C n _ (C - m mod nx * n)); lia).
      pose proof (flat_split nx m Hx). lia.
  Qed.

  Lemma blit_assembled m i a d : (m < ny * nx)%nat -> (i < length ls)%nat ->
    d = assembled nx ny n m i -> found m !! i = Some a ->
    (nrows a = n /\ ncols a = n <-> exists d', nd_blit None d (m / nx * n) (m / nx * n + n) (m mod nx * n) (m mod nx * n + n) a = Ok d') /\
    (nrows a = n -> ncols a = n -> nd_blit None d (m / nx * n) (m / nx * n + n) (m mod nx * n) (m mod nx * n + n) a = Ok (assembled nx ny n (S m) i)).
  Proof using HB.
    intros Hm Hi -> Hf. pose proof HB as [_ Hx Hy Hn _ _ _ _].
    destruct (flat_div_lt _ _ _ Hm) as [M1 M2].
    assert (B1 : (m / nx * n + n <= ny * n)%nat) by nia. assert (B2 : (m mod nx * n + n <= nx * n)%nat) by nia.
    assert (E : nrows a = n -> ncols a = n -> nd_blit None (assembled nx ny n m i) (m / nx * n) (m / nx * n + n) (m mod nx * n) (m mod nx * n + n) a = Ok (assembled nx ny n (S m) i)).
    { intros Ar Ac. unfold nd_blit. cbn [nrows ncols assembled nd_init]. rewrite !bool_decide_eq_true_2 by lia. cbn [andb]. f_equal.
      apply nd_init_ext. intros R C HR HC. cbv zeta. change (Nd _ _ _) with (assembled nx ny n m i).
      pose proof (tile_flat m Hm R C HR HC) as Hk.
      rewrite !Nat.min_l by lia.
      destruct (decide ((R / n * nx + C / n)%nat = m)) as [Ek|Nk].
      - destruct (proj1 Hk Ek) as [K1 K2]. rewrite !bool_decide_eq_true_2 by lia. cbn [andb].
        rewrite Ek, Hf. f_equal. f_equal.
        + apply (Nat.mod_unique R n (m / nx)); lia.
        + apply (Nat.mod_unique C n (m mod nx)); lia.
      - replace (bool_decide _ && bool_decide _) with false.
        2:{ symmetry. apply andb_false_iff. rewrite !bool_decide_eq_false. destruct (decide (m / nx * n <= R < m / nx * n + n)%nat); [right|by left].
            intros ?. apply Nk, Hk. lia. }
        unfold assembled. rewrite nd_get_init by done. cbn [default]. cbv zeta.
        case_bool_decide; [rewrite bool_decide_eq_true_2 by lia|rewrite bool_decide_eq_false_2 by lia]; done. }
    split; [|exact E]. split.
    - intros [Ar Ac]. eexists. by apply E.
    - intros [d' Hd']. apply nd_blit_Ok in Hd' as (_ & _ & _ & Ar & Ac). cbn [nrows ncols assembled nd_init] in Ar, Ac. lia.
  Qed.

  Lemma assembled_skip m : found m = [] -> (m < ny * nx)%nat -> forall i, assembled nx ny n (S m) i = assembled nx ny n m i.
  Proof using HB.
    intros Hf Hm i. apply nd_init_ext. intros R C HR HC. cbv zeta.
    destruct (decide ((R / n * nx + C / n)%nat = m)) as [->|Nk].
    - rewrite bool_decide_eq_true_2 by lia. rewrite bool_decide_eq_false_2 by lia. by rewrite Hf.
    - case_bool_decide; [rewrite bool_decide_eq_true_2 by lia|rewrite bool_decide_eq_false_2 by lia]; done.
  Qed.

  Lemma layer_reached m s : reached m s -> (m < ny * nx)%nat ->
    (reads m /\ shaped m <-> exists s', layer_step O e r ls nodata up (Ok s) m = Ok s') /\
    (forall s', layer_step O e r ls nodata up (Ok s) m = Ok s' -> reached (S m) s').
  Proof using HB.
    intros [Hm Hge Hmk Hdk Hc Hl Hrw Ht Hd Ha] Hlt. destruct s as [[h data] f]. cbn [fst snd] in *. subst data f.
    pose proof (Ht m) as Htm. rewrite bool_decide_eq_false_2 in Htm by lia.
    unfold layer_step. cbn [rbind]. rewrite Htm. unfold reads, shaped.
    destruct (tile_at g m) as [t|] eqn:Et.
    2:{ assert (Hf : found m = []) by (unfold found; by rewrite Et). split.
      - split; [eauto|]. intros _. split; [done|]. rewrite Hf. by intros a Ha%not_elem_of_nil.
      - intros s' [= <-]. split; cbn [fst snd]; try done.
        + intros k. rewrite Ht. destruct (decide (k = m)) as [->|Hk].
          * rewrite bool_decide_eq_false_2, bool_decide_eq_true_2 by lia. unfold after. by rewrite Et.
          * case_bool_decide; [rewrite bool_decide_eq_true_2 by lia|rewrite bool_decide_eq_false_2 by lia]; done.
        + apply map_ext. intros i. by rewrite assembled_skip.
        + rewrite any_S, Hf. cbn. by rewrite orb_false_r. }
    unfold get_tile_data. rewrite Hc. cbn [rofopt rbind]. rewrite Hm, exact_cells. cbn [rbind]. rewrite Htm. cbn [rofopt rbind].
    destruct (read_layers O e t ls r nodata up') as [td|x] eqn:Er.
    2:{ split; [|done]. split; [by intros [[? ?] _]|by intros [? ?]]. }
    cbn [rbind fst snd tr_data tr_col tr_row tr_cells].
    assert (Hf : found m = map snd td.2) by (unfold found, tile_found; by rewrite Et, Er). rewrite <- Hf.
    set (blit := blit_all _ _ _ _ _).
    assert (HF : shaped m -> blit = Ok (map (assembled nx ny n (S m)) (seq 0 (length ls)))).
    { intros Hs. unfold blit. rewrite (blit_all_spec _ _ (assembled nx ny n (S m)) _ _ _ 0%nat).
      - by rewrite map_length, seq_length.
      - rewrite map_length, seq_length. apply found_length.
      - intros i d Hi. rewrite list_lookup_fmap in Hi. destruct (seq 0 (length ls) !! i) as [j|] eqn:Ej; [|done].
        injection Hi as <-. apply lookup_seq in Ej as [-> Hi]. cbn [Nat.add]. destruct (found m !! i) as [a|] eqn:Ei.
        + destruct (Hs a) as [A1 A2]; [by eapply elem_of_list_lookup_2|]. by apply (blit_assembled m i a _ Hlt Hi eq_refl Ei).
        + apply nd_init_ext. intros R C HR HC. cbv zeta. destruct (decide ((R / n * nx + C / n)%nat = m)) as [Ek|Nk].
          * rewrite Ek, bool_decide_eq_false_2, bool_decide_eq_true_2 by lia. by rewrite Ei.
          * case_bool_decide; [rewrite bool_decide_eq_true_2 by lia|rewrite bool_decide_eq_false_2 by lia]; done. }
    assert (HS : forall data', blit = Ok data' -> shaped m).
    { intros data' Hb a [i Hi]%elem_of_list_lookup_1. apply blit_all_shapes in Hb as [Hle Hb]. destruct (Hb i a Hi) as (d & d' & Hd & Hd').
      rewrite list_lookup_fmap in Hd. destruct (seq 0 (length ls) !! i) as [j|] eqn:Ej; [|done].
      injection Hd as <-. apply lookup_seq in Ej as [-> Hi'].
      apply (blit_assembled m i a _ Hlt Hi' eq_refl Hi). eauto. }
    split.
    - split.
      + intros [_ Hs]. rewrite (HF Hs). cbn [rbind]. eauto.
      + intros [s' (d' & Hb & _)%rbind_Ok]. split; [eauto|]. by eapply HS.
    - intros s' (d' & Hb & [= <-])%rbind_Ok. specialize (HF (HS _ Hb)). rewrite HF in Hb. injection Hb as <-.
      split; cbn [fst snd]; rewrite ?set_tile_meta, ?set_tile_geom, ?set_tile_mask, ?set_tile_disk, ?set_tile_size; try done.
      + unfold set_tile. by destruct (g_tiles h).
      + unfold set_tile. by destruct (g_tiles h).
      + intros k. destruct (decide (m = k)) as [<-|Hk].
        * rewrite tile_at_set_eq by lia. rewrite bool_decide_eq_true_2 by lia. unfold after. by rewrite Et, Er.
        * rewrite tile_at_set_ne by done. rewrite Ht. case_bool_decide; [rewrite bool_decide_eq_true_2 by lia|rewrite bool_decide_eq_false_2 by lia]; done.
      + rewrite any_S. f_equal. f_equal. rewrite <- (map_length snd td.2), <- Hf. done.
  Qed.

  Lemma layers_reached m : (m <= ny * nx)%nat -> forall s0, reached 0 s0 ->
    ((forall k, (k < m)%nat -> reads k /\ shaped k) <-> exists s, foldl (layer_step O e r ls nodata up) (Ok s0) (seq 0 m) = Ok s) /\
    (forall s, foldl (layer_step O e r ls nodata up) (Ok s0) (seq 0 m) = Ok s -> reached m s).
  Proof using HB.
    intros Hm s0 H0. induction m as [|m IH].
    - cbn. split; [|by intros s [= <-]]. split; [eauto|]. intros _ k Hk. lia.
    - destruct IH as [IH1 IH2]; [lia|]. rewrite seq_S, foldl_app. cbn [foldl Nat.add].
      destruct (foldl _ _ (seq 0 m)) as [s|x] eqn:E.
      + specialize (IH2 s eq_refl). destruct (layer_reached m s IH2 ltac:(lia)) as [L1 L2]. split; [|exact L2].
        rewrite <- L1. split; [intros H; apply H; lia|]. intros HmS k Hk. destruct (decide (k = m)) as [->|]; [done|].
        apply IH1; [eauto|lia].
      + unfold layer_step. cbn [rbind]. split; [|by intros]. split; [|by intros [? ?]].
        intros H. exfalso. destruct (proj1 IH1) as [s Hs]; [|done]. intros k Hk. apply H. lia.
  Qed.

  Lemma layers_query : g_no_grid O g = Ok false ->
    let all := (ny * nx)%nat in
    ((forall k, (k < all)%nat -> reads k /\ shaped k) <-> exists p, g_get_layers_by_name O e g ls (Some r) nodata up = Ok p) /\
    (forall p, g_get_layers_by_name O e g ls (Some r) nodata up = Ok p ->
       exists s, reached all s /\ p = (s.1.1, if any all then Some (map (assembled nx ny n all) (seq 0 (length ls))) else None)).
  Proof using HB.
    intros Hg all. unfold g_get_layers_by_name. rewrite Hg. cbn [rbind pick_rez]. rewrite build_all. cbn [rbind].
    destruct HB as [(a & Ha & Hr & Hc & Hl) Hx Hy Hn _ _ _ _].
    assert (Hsz : tiles_size g = all) by (unfold tiles_size; by rewrite Ha). rewrite Hsz.
    assert (R0 : reached 0 (g, map (assembled nx ny n 0) (seq 0 (length ls)), false)).
    { split; cbn [fst snd]; try done; rewrite ?Ha; cbn; congruence. }
    destruct (layers_reached all (Nat.le_refl _) _ R0) as [L1 L2]. split.
    - rewrite L1. split; [intros [s ->]; cbn; eauto|]. intros [p (s & -> & _)%rbind_Ok]. eauto.
    - intros p (s & Hs & [= <-])%rbind_Ok. specialize (L2 s Hs). exists s. split; [done|]. destruct L2 as [_ _ _ _ _ _ _ _ Hd Hany]. by rewrite Hany, Hd.
  Qed.
End layers.
