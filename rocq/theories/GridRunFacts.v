(** What grid() does to each tile, sequentially and with workers. *)
From Verif Require Import Py Nd Numpy Point Bin Algorithms Tile Time Meta Disk Grid GridRun GridQuery Spec.
From Verif Require Import PyFacts NdFacts NumpyFacts GridBaseFacts GridPlaceFacts GridInvFacts GridRootFacts GridEvolveFacts.
Open Scope Z_scope.

Lemma np_unique_ext a b : (forall x, x ∈ a <-> x ∈ b) -> np_unique a = np_unique b.
Proof.
  intros H. assert (AntiSymm (=) Z.lt) by (intros x y; lia).
  apply (StronglySorted_unique Z.lt); try apply np_unique_sorted.
  apply NoDup_Permutation; try apply np_unique_NoDup. intros x. by rewrite !elem_of_np_unique.
Qed.

Definition note (acc rs : list Z) : list Z := foldl (fun acc r => if bool_decide (r ∈ acc) then acc else acc ++ [r]) acc rs.
Lemma note_elem rs : forall acc x, x ∈ note acc rs <-> x ∈ acc \/ x ∈ rs.
Proof.
  induction rs as [|r rs IH]; intros acc x; cbn [note foldl]; [rewrite elem_of_nil; tauto|].
  change (foldl _ ?z rs) with (note z rs). rewrite IH, elem_of_cons. case_bool_decide as E.
  - split; [tauto|]. intros [?|[->|?]]; tauto.
  - rewrite elem_of_app, elem_of_list_singleton. tauto.
Qed.

(** [for x in l: ...] over positions [k], [k+1], ... *)
Lemma set_tile_id {T} (g : grid T) k t : tile_at g k = t -> is_Some t -> set_tile g k t = g.
Proof.
  unfold tile_at, set_tile. intros Ht [x Hx]. subst t. rewrite Hx. destruct g as [m ge mk [a|] dk]; cbn in *; [|done].
  destruct (nflat a !! k) as [o|] eqn:E; [|done]. cbn in Hx. subst o. unfold set. cbn. rewrite list_insert_id by done. by destruct a.
Qed.
Lemma set_tile_none {T} (g : grid T) k : tile_at g k = None -> set_tile g k None = g.
Proof.
  unfold tile_at, set_tile. destruct g as [m ge mk [a|] dk]; cbn in *; [|done]. intros H.
  unfold set. cbn. destruct (nflat a !! k) as [o|] eqn:E.
  - cbn in H. subst o. rewrite list_insert_id by done. by destruct a.
  - rewrite list_insert_ge by (by apply lookup_ge_None_1). by destruct a.
Qed.
Lemma set_tile_twice {T} (g : grid T) k t t' : set_tile (set_tile g k t) k t' = set_tile g k t'.
Proof.
  unfold set_tile. destruct g as [m ge mk [a|] dk]; cbn; [|done]. unfold set. cbn. by rewrite list_insert_insert.
Qed.
Lemma set_tile_size {T} (g : grid T) k t : tiles_size (set_tile g k t) = tiles_size g.
Proof. unfold tiles_size, set_tile. destruct g as [m ge mk [a|] dk]; cbn; [|done]. by rewrite insert_length. Qed.
Lemma tile_at_size {T} (g : grid T) k t : tile_at g k = Some t -> (k < tiles_size g)%nat.
Proof.
  unfold tile_at, tiles_size. destruct (g_tiles g) as [a|]; [|done]. destruct (nflat a !! k) eqn:E; [|done]. intros _. by eapply lookup_lt_Some.
Qed.
Lemma tile_at_set_ne {T} (g : grid T) k j t : k <> j -> tile_at (set_tile g k t) j = tile_at g j.
Proof. intros H. unfold tile_at, set_tile. destruct g as [m ge mk [a|] dk]; cbn; [|done]. by rewrite list_lookup_insert_ne. Qed.
Lemma tile_at_set_eq {T} (g : grid T) k t : (k < tiles_size g)%nat -> tile_at (set_tile g k (Some t)) k = Some t.
Proof. intros H. rewrite tile_at_set. rewrite decide_True by done. by rewrite decide_True. Qed.
Lemma set_tile_meta {T} (g : grid T) k t : g_meta (set_tile g k t) = g_meta g.
Proof. unfold set_tile. by destruct (g_tiles g). Qed.
Lemma set_tile_disk {T} (g : grid T) k t : g_disk (set_tile g k t) = g_disk g.
Proof. unfold set_tile. by destruct (g_tiles g). Qed.
Lemma set_tile_geom {T} (g : grid T) k t : g_geom (set_tile g k t) = g_geom g.
Proof. unfold set_tile. by destruct (g_tiles g). Qed.
Lemma set_tile_mask {T} (g : grid T) k t : g_mask (set_tile g k t) = g_mask g.
Proof. unfold set_tile. by destruct (g_tiles g). Qed.
Lemma origin_at_set {T} (g : grid T) k t j : origin_at (set_tile g k t) j = origin_at g j.
Proof. unfold origin_at. by rewrite set_tile_geom. Qed.
Lemma set_note {T} (g : grid T) k t rs : set_tile (note_rezs g rs) k t = note_rezs (set_tile g k t) rs.
Proof. unfold set_tile, note_rezs. destruct g as [m ge mk [a|] dk]; done. Qed.

Lemma zip_fst {A B} (l1 : list A) : forall l2 : list B, length l1 = length l2 -> map fst (zip l1 l2) = l1.
Proof. induction l1 as [|? ? IH]; intros [|]; cbn; try done. intros [=]. by rewrite IH. Qed.

Section run.
  Context {T : Type} (O : tile_ops T) (e : env) (a : gargs) (auto : string) (rez : option Z).

  (** What happens to one tile: skipped, or gridded with these arguments. *)
  Record entry := Entry { en_k : nat; en_t : T; en_run : option (res gargs) }.
  Definition call_args (m : gmeta) (clear : bool) (b : option (list point)) : gargs :=
    GArgs (ga_alg a) (tile_rez O m auto rez) clear auto (ga_regrid a) (ga_params a) b.
  (** The tiles [l] from position [k] on; [B] gives the border points. *)
  Fixpoint plan (m : gmeta) (B : nat -> T -> res (option (list point))) (k : nat) (clear : bool) (l : list (option T)) : list entry :=
    match l with
    | [] => []
    | None :: l => plan m B (S k) clear l
    | Some t :: l =>
        if skip_tile O a clear t then Entry k t None :: plan m B (S k) clear l
        else let c := next_clear O a clear in
             Entry k t (Some (let* b := B k t in Ok (call_args m c b))) :: plan m B (S k) c l
    end.
  (** The tile and the resolutions that result. *)
  Definition entry_result (disk : bool) (en : entry) : res (nat * T * list Z) :=
    match en_run en with
    | None => Ok (en_k en, en_t en, op_rezs O (en_t en))
    | Some ra =>
        let* ga := ra in
        let (r, rz) := op_grid O e (en_t en) ga in
        match exn_of r with
        | Some x => Raise x
        | None => Ok (en_k en, if disk && op_sr O then op_reload O SaveGrid (st_of r) else st_of r, rz)
        end
    end.
  Definition upd (g : grid T) (x : nat * T * list Z) : grid T := note_rezs (set_tile g x.1.1 (Some x.1.2)) x.2.

  Lemma upd_meta g x : g_meta (upd g x) = g_meta g <| m_rezs := note (m_rezs (g_meta g)) x.2 |>.
  Proof. unfold upd, note_rezs. cbn. by rewrite set_tile_meta. Qed.
  Lemma upd_tile_ne g x j : x.1.1 <> j -> tile_at (upd g x) j = tile_at g j.
  Proof. intros H. unfold upd. change (tile_at (note_rezs ?z _) j) with (tile_at z j). by apply tile_at_set_ne. Qed.

  Lemma save_reload_set g k t :
    (g_disk g && op_sr O = true -> is_Some (origin_at g k)) -> (k < tiles_size g)%nat ->
    exn_of (save_reload O (set_tile g k (Some t)) k SaveGrid) = None /\
    st_of (save_reload O (set_tile g k (Some t)) k SaveGrid) =
      set_tile g k (Some (if g_disk g && op_sr O then op_reload O SaveGrid t else t)).
  Proof.
    intros Ho Hk. unfold save_reload. rewrite set_tile_disk. destruct (g_disk g && op_sr O) eqn:E; [|done].
    rewrite origin_at_set. destruct (Ho eq_refl) as [[x y] ->]. split; [done|]. cbn [st_of].
    rewrite tile_at_set_eq by done. unfold reload_at. rewrite E. cbn. by rewrite set_tile_twice.
  Qed.
  Lemma save_reload_none g k :
    tile_at g k = None -> (g_disk g && op_sr O = true -> is_Some (origin_at g k)) ->
    exn_of (save_reload O g k SaveGrid) = None /\ st_of (save_reload O g k SaveGrid) = g.
  Proof.
    intros Ht Ho. unfold save_reload. destruct (g_disk g && op_sr O) eqn:E; [|done].
    destruct (Ho eq_refl) as [[x y] ->]. split; [done|]. cbn [st_of]. rewrite Ht. unfold reload_at. rewrite E. by apply set_tile_none.
  Qed.

  Section loop.
    Context (R : T -> T -> Prop) (g0 : grid T) (B : nat -> T -> res (option (list point))) (buf : T -> res Q).
    Context (Rrefl : forall t, R t t) (Rtrans : forall a b c, R a b -> R b c -> R a c).
    Context (Rgrid : forall t a, R t (st_of (op_grid O e t a).1)).
    Context (Rload : forall m t, R t (op_reload O m t)).
    Context (HB : forall g k t, evolve R g0 g -> tile_at g k = Some t -> tile_at g0 k = Some t -> border_for O a g k (buf t) = B k t).
    Context (Horig : g_disk g0 && op_sr O = true -> forall k, (k < tiles_size g0)%nat -> is_Some (origin_at g0 k)).

    (** A grid on the way: it evolved from [g0] and only its tiles and resolutions differ. *)
    Definition on_way (g : grid T) : Prop :=
      evolve R g0 g /\ exists rz, g_meta g = g_meta g0 <| m_rezs := rz |>.
    Lemma on_way_rez g : on_way g -> tile_rez O (g_meta g) auto rez = tile_rez O (g_meta g0) auto rez.
    Proof. intros [_ [rz ->]]. done. Qed.
    Lemma on_way_origin g : on_way g -> g_disk g && op_sr O = true -> forall k, (k < tiles_size g)%nat -> is_Some (origin_at g k).
    Proof using Horig.
      intros [E _]. rewrite (ev_disk _ _ _ E), (tiles_size_rel _ _ _ E). unfold origin_at. rewrite (ev_geom _ _ _ E). exact Horig.
    Qed.
    Lemma on_way_upd g k t t' rz : on_way g -> tile_at g k = Some t -> R t t' -> on_way (upd g (k, t', rz)).
    Proof using Rrefl Rtrans.
      intros [E [z Hz]] Ht HR. split.
      - eapply evolve_trans; [done|exact E|]. unfold upd. cbn. eapply evolve_trans; [done| |by apply evolve_note]. by eapply evolve_set.
      - exists (note z rz). rewrite upd_meta, Hz. by destruct (g_meta g0).
    Qed.
    Lemma on_way_note g rs : on_way g -> on_way (note_rezs g rs).
    Proof using Rrefl Rtrans.
      intros [E [z Hz]]. split; [eapply evolve_trans; [done|exact E|by apply evolve_note]|].
      exists (note z rs). unfold note_rezs. cbn. rewrite Hz. by destruct (g_meta g0).
    Qed.
    Lemma entry_result_R en k t' rz : entry_result (g_disk g0) en = Ok (k, t', rz) -> en_k en = k /\ R (en_t en) t'.
    Proof using Rrefl Rtrans Rgrid Rload Horig.
      unfold entry_result. destruct (en_run en) as [ra|]; [|intros [= <- <- _]; by split].
      intros (ga & _ & H)%rbind_Ok. pose proof (Rgrid (en_t en) ga) as HR. destruct (op_grid O e (en_t en) ga) as [r rz']. cbn [fst] in HR.
      destruct (exn_of r); [done|]. injection H as <- <- _. split; [done|]. destruct (g_disk g0 && op_sr O); [|done]. eapply Rtrans; [exact HR|apply Rload].
    Qed.

    (** *** Sequential *)
    Lemma regular_loop l : forall k g clear,
      on_way g -> (forall i, (i < length l)%nat -> tile_at g (k + i) = mjoin (l !! i)) ->
      (forall i, (i < length l)%nat -> tile_at g0 (k + i) = mjoin (l !! i)) -> (k + length l = tiles_size g0)%nat ->
      let r := oloop (grid_step O e a auto rez) (seq k (length l)) (g, clear) in
      (forall t, buf t = Ok (tenth_width O t)) ->
      match rmap (entry_result (g_disk g0)) (plan (g_meta g0) B k clear l) with
      | Ok rs => exn_of r = None /\ (st_of r).1 = foldl upd g rs
      | Raise x => exn_of r = Some x
      end.
    Proof using Rrefl Rtrans Rgrid Rload HB Horig.
      induction l as [|o l IH]; intros k g clear Hw Hl Hl0 Hk r Hbuf; [done|].
      assert (Hk0 : (k < tiles_size g)%nat).
      { destruct Hw as [E _]. rewrite (tiles_size_rel _ _ _ E). cbn in Hk. lia. }
      assert (Ht : tile_at g k = o) by (specialize (Hl 0%nat ltac:(cbn; lia)); rewrite Nat.add_0_r in Hl; done).
      assert (Ht0 : tile_at g0 k = o) by (specialize (Hl0 0%nat ltac:(cbn; lia)); rewrite Nat.add_0_r in Hl0; done).
      assert (Hl' : forall i, (i < length l)%nat -> tile_at g (S k + i) = mjoin (l !! i)).
      { intros i Hi. specialize (Hl (S i) ltac:(cbn; lia)). by rewrite Nat.add_succ_comm. }
      assert (Hl0' : forall i, (i < length l)%nat -> tile_at g0 (S k + i) = mjoin (l !! i)).
      { intros i Hi. specialize (Hl0 (S i) ltac:(cbn; lia)). by rewrite Nat.add_succ_comm. }
      assert (Hstep : forall o1 : out (grid T * bool), grid_step O e a auto rez (g, clear) k = o1 -> exn_of o1 = None ->
        exn_of r = exn_of (oloop (grid_step O e a auto rez) (seq (S k) (length l)) (st_of o1)) /\
        st_of r = st_of (oloop (grid_step O e a auto rez) (seq (S k) (length l)) (st_of o1))).
      { intros o1 Hs Ho1. subst r. cbn [length seq oloop]. rewrite Hs, Ho1. done. }
      assert (Hraise : forall o1 x, grid_step O e a auto rez (g, clear) k = o1 -> exn_of o1 = Some x -> exn_of r = Some x).
      { intros o1 x Hs Ho1. subst r. cbn [length seq oloop]. by rewrite Hs, Ho1. }
      unfold grid_step in Hstep at 1. unfold grid_step in Hraise. rewrite Ht in Hstep, Hraise. clearbody r.
      destruct o as [t|]; cbn [plan].
      2:{ destruct (save_reload_none g k Ht) as [E1 E2]; [intros; by apply on_way_origin|]. cbv zeta in Hstep. rewrite E2 in Hstep.
          destruct (Hstep _ eq_refl E1) as [F1 F2]. rewrite F1, F2. cbn [st_of].
          apply (IH (S k) g clear Hw Hl' Hl0' ltac:(cbn in Hk; lia) Hbuf). }
      destruct (skip_tile O a clear t) eqn:Hs.
      { destruct (Hstep _ eq_refl eq_refl) as [F1 F2]. rewrite F1, F2. cbn [st_of rmap entry_result en_run en_k en_t rbind].
        specialize (IH (S k) (note_rezs g (op_rezs O t)) clear (on_way_note _ _ Hw) Hl' Hl0' ltac:(cbn in Hk; lia) Hbuf). cbv zeta in IH.
        destruct (rmap _ (plan (g_meta g0) B (S k) clear l)) as [rs|]; [|exact IH]. cbn [rbind]. destruct IH as [I1 I2]. split; [exact I1|]. rewrite I2.
        cbn [foldl]. f_equal. unfold upd. cbn. by rewrite set_tile_id. }
      cbv zeta in Hstep, Hraise. rewrite <- (Hbuf t) in Hstep, Hraise. rewrite (HB g k t) in Hstep, Hraise by (try done; apply Hw).
      cbn [rmap entry_result en_run en_k en_t].
      destruct (B k t) as [b|x]; cbn [rbind]; [|by apply (Hraise _ x eq_refl eq_refl)].
      rewrite (on_way_rez g Hw) in Hstep, Hraise. change (GArgs _ _ _ _ _ _ _) with (call_args (g_meta g0) (next_clear O a clear) b) in Hstep, Hraise.
      pose proof (Rgrid t (call_args (g_meta g0) (next_clear O a clear) b)) as HR.
      destruct (op_grid O e t (call_args (g_meta g0) (next_clear O a clear) b)) as [o1 rz]. cbn [fst] in HR.
      destruct (exn_of o1) as [x|]; [by apply (Hraise _ x eq_refl eq_refl)|]. rewrite <- set_note in Hstep.
      destruct (save_reload_set (note_rezs g rz) k (st_of o1)) as [E1 E2].
      { intros Hdk. exact (on_way_origin g Hw Hdk k Hk0). }
      { exact Hk0. }
      destruct (Hstep _ eq_refl E1) as [F1 F2]. rewrite F1, F2. cbn [st_of]. rewrite E2. clear Hstep Hraise F1 F2.
      change (g_disk (note_rezs g rz)) with (g_disk g).
      assert (Hd : g_disk g = g_disk g0) by (destruct Hw as [[] _]; done). rewrite Hd. cbn [rbind].
      set (t' := if g_disk g0 && op_sr O then _ else _).
      assert (HRt : R t t').
      { unfold t'. destruct (_ && _); [|done]. eapply Rtrans; [exact HR|apply Rload]. }
      assert (Hu : set_tile (note_rezs g rz) k (Some t') = upd g (k, t', rz)) by (unfold upd; cbn; by rewrite set_note).
      rewrite Hu.
      assert (Hlu : forall i, (i < length l)%nat -> tile_at (upd g (k, t', rz)) (S k + i) = mjoin (l !! i)).
      { intros i Hi. rewrite upd_tile_ne by (cbn; lia). by apply Hl'. }
      specialize (IH (S k) _ (next_clear O a clear) (on_way_upd g k t t' rz Hw Ht HRt) Hlu Hl0' ltac:(cbn in Hk; lia) Hbuf). cbv zeta in IH.
      destruct (rmap _ (plan (g_meta g0) B (S k) _ l)) as [rs|]; [|exact IH]. cbn [rbind]. destruct IH as [I1 I2]. split; [exact I1|].
      rewrite I2. done.
    Qed.

    (** *** With workers *)
    (** Equal but for the order in which resolutions were noted. *)
    Definition sim (g g' : grid T) : Prop :=
      g_geom g' = g_geom g /\ g_mask g' = g_mask g /\ g_disk g' = g_disk g /\ g_tiles g' = g_tiles g /\
      exists rz, g_meta g' = g_meta g <| m_rezs := rz |> /\ forall x, x ∈ rz <-> x ∈ m_rezs (g_meta g).
    Lemma sim_refl g : sim g g.
    Proof. repeat split. exists (m_rezs (g_meta g)). split; [by destruct (g_meta g)|done]. Qed.
    Lemma sim_trans g1 g2 g3 : sim g1 g2 -> sim g2 g3 -> sim g1 g3.
    Proof.
      intros (A1 & A2 & A3 & A4 & ra & A5 & A6) (B1 & B2 & B3 & B4 & rb & B5 & B6).
      repeat split; try congruence. exists rb. split; [by rewrite B5, A5|].
      intros x. rewrite B6, A5. cbn. apply A6.
    Qed.
    Lemma sim_upd g g' x : sim g g' -> sim (upd g x) (upd g' x).
    Proof.
      intros (A1 & A2 & A3 & A4 & ra & A5 & A6). unfold upd, note_rezs, sim. cbn. rewrite !set_tile_geom, !set_tile_mask, !set_tile_disk, !set_tile_meta.
      repeat split; try done.
      - unfold set_tile. rewrite A4. destruct (g_tiles g) eqn:E; [done|]. congruence.
      - change (foldl _ (m_rezs (g_meta g')) x.2) with (note (m_rezs (g_meta g')) x.2).
        change (foldl _ (m_rezs (g_meta g)) x.2) with (note (m_rezs (g_meta g)) x.2). rewrite A5. cbn.
        eexists. split; [reflexivity|]. intros y. rewrite !note_elem. by rewrite A6.
    Qed.
    Lemma sim_foldl rs : forall g g', sim g g' -> sim (foldl upd g rs) (foldl upd g' rs).
    Proof. induction rs as [|x rs IH]; intros g g' H; [done|]. cbn. apply IH. by apply sim_upd. Qed.
    Lemma sim_note g rs rs' : (forall x, x ∈ rs <-> x ∈ rs') -> sim (note_rezs g rs) (note_rezs g rs').
    Proof.
      intros H. unfold sim, note_rezs. cbn. repeat split. eexists. split; [reflexivity|].
      intros x. fold (note (m_rezs (g_meta g)) rs). fold (note (m_rezs (g_meta g)) rs'). rewrite !note_elem. by rewrite H.
    Qed.
    Lemma note_upd_sim g rs x : sim (note_rezs (upd g x) rs) (upd (note_rezs g rs) x).
    Proof.
      unfold upd. rewrite set_note. unfold sim, note_rezs. cbn. rewrite !set_tile_meta. repeat split. eexists. split; [reflexivity|].
      intros y. cbn. repeat match goal with |- context [foldl _ ?z ?l] => fold (note z l) end. rewrite !note_elem. tauto.
    Qed.
    Lemma note_sim g g' rs : sim g g' -> sim (note_rezs g rs) (note_rezs g' rs).
    Proof.
      intros (A1 & A2 & A3 & A4 & ra & A5 & A6). unfold note_rezs, sim. cbn. repeat split; try done.
      rewrite A5. cbn. eexists. split; [reflexivity|]. intros y.
      repeat match goal with |- context [foldl _ ?z ?l] => fold (note z l) end. rewrite !note_elem. by rewrite A6.
    Qed.
    Lemma note_foldl_sim rs x : forall g, sim (note_rezs (foldl upd g rs) x) (foldl upd (note_rezs g x) rs).
    Proof.
      induction rs as [|y rs IH]; intros g; [apply sim_refl|]. cbn [foldl]. eapply sim_trans; [apply IH|]. apply sim_foldl. apply note_upd_sim.
    Qed.
    Lemma foldl_upd_tile rs k : forall g, k ∉ map (fun x => x.1.1) rs -> tile_at (foldl upd g rs) k = tile_at g k.
    Proof.
      induction rs as [|x rs IH]; intros g H; [done|]. cbn in H. apply not_elem_of_cons in H as [H1 H2]. cbn [foldl].
      rewrite IH by done. by apply upd_tile_ne.
    Qed.

    Definition pend (js : list (job (T := T))) : list entry := map (fun j => Entry (j_idx j) (j_tile j) (Some (Ok (j_args j)))) js.
    Lemma results_idx ens rs : rmap (entry_result (g_disk g0)) ens = Ok rs -> map (fun x => x.1.1) rs = map en_k ens.
    Proof using Rrefl Rtrans Rgrid Rload Horig.
      revert rs. induction ens as [|en ens IH]; intros rs; cbn [rmap]; [by intros [= <-]|].
      intros ([[k t] rz] & H1 & H)%rbind_Ok. apply rbind_Ok in H as (rs' & H2 & H). injection H as <-.
      apply entry_result_R in H1 as [H1 _]. cbn. by rewrite (IH _ H2), H1.
    Qed.

    (** Storing the results of a batch. *)
    Lemma store_loop l : forall g, on_way g -> NoDup (map fst l) ->
      (forall k t', (k, t') ∈ l -> exists t, tile_at g k = Some t /\ R t t') ->
      exn_of (oloop (store_result O) l g) = None /\
      st_of (oloop (store_result O) l g) =
        foldl (fun g kt => set_tile g kt.1 (Some (if g_disk g0 && op_sr O then op_reload O SaveGrid kt.2 else kt.2))) g l.
    Proof using Rrefl Rtrans Rgrid Rload Horig.
      induction l as [|[k t'] l IH]; intros g Hw Hnd Hl; [done|]. cbn [oloop].
      destruct (Hl k t') as (t & Ht & HR); [left|].
      destruct (save_reload_set g k t') as [E1 E2]; [intros; apply on_way_origin; [done|done|by eapply tile_at_size]|by eapply tile_at_size|].
      change (store_result O g (k, t')) with (save_reload O (set_tile g k (Some t')) k SaveGrid).
      rewrite E1, E2. cbn [exn_of st_of foldl fst snd].
      assert (Hd : g_disk g = g_disk g0) by (destruct Hw as [[] _]; done). rewrite Hd.
      set (u := if _ && _ then op_reload O SaveGrid t' else t').
      assert (HRu : R t u) by (unfold u; destruct (_ && _); [eapply Rtrans; [exact HR|apply Rload]|done]).
      apply NoDup_cons in Hnd as [Hni Hnd]. destruct (IH (set_tile g k (Some u))) as [I1 I2]; [|done| |by split].
      - pose proof (on_way_upd g k t u [] Hw Ht HRu) as Hw'. unfold upd in Hw'. cbn in Hw'.
        destruct Hw as [HE [rz Hrz]]. split; [eapply evolve_trans; [done|exact HE|by eapply evolve_set]|]. exists rz. by rewrite set_tile_meta.
      - intros k2 t2 Hin. destruct (Hl k2 t2) as (w & Hw2 & HRw); [by right|]. exists w. split; [|done].
        rewrite tile_at_set_ne; [done|]. intros ->. apply Hni. by apply (elem_of_list_fmap_1 fst _ (k2, t2)).
    Qed.

    Lemma foldl_set_upd (xs : list (nat * T * list Z)) : forall g,
      sim (foldl upd g xs) (note_rezs (foldl (fun g x => set_tile g x.1.1 (Some x.1.2)) g xs) (concat (map snd xs))).
    Proof.
      induction xs as [|x xs IH]; intros g.
      - cbn. unfold note_rezs. cbn. unfold sim. cbn. repeat split. exists (m_rezs (g_meta g)). split; [by destruct (g_meta g)|done].
      - cbn [foldl map concat]. eapply sim_trans; [apply IH|]. unfold upd.
        assert (H : forall g ys, foldl (fun g x => set_tile g x.1.1 (Some x.1.2)) (note_rezs g ys) xs =
                  note_rezs (foldl (fun (g : grid T) (x : nat * T * list Z) => set_tile g x.1.1 (Some x.1.2)) g xs) ys).
        { clear. induction xs as [|y xs IH]; intros g ys; [done|]. cbn [foldl]. by rewrite set_note, IH. }
        rewrite H. set (h := foldl _ _ xs). unfold sim, note_rezs. cbn. repeat split. eexists. split; [reflexivity|].
        intros y. repeat match goal with |- context [foldl _ ?z ?l] => fold (note z l) end. rewrite !note_elem, elem_of_app. tauto.
    Qed.

    Lemma run_jobs_spec g js : on_way g -> NoDup (map j_idx js) ->
      (forall j, j ∈ js -> tile_at g (j_idx j) = Some (j_tile j)) ->
      match rmap (entry_result (g_disk g0)) (pend js) with
      | Ok rs => exn_of (run_jobs O e g js) = None /\ sim (foldl upd g rs) (st_of (run_jobs O e g js))
      | Raise _ => exn_of (run_jobs O e g js) <> None
      end.
    Proof using Rrefl Rtrans Rgrid Rload Horig.
      intros Hw Hnd Hjs. unfold run_jobs. cbv zeta.
      set (outs := map (fun j => op_grid O e (j_tile j) (j_args j)) js).
      assert (Hok : match rmap (entry_result (g_disk g0)) (pend js) with
         | Ok rs => first_exn (map (fun r : out T * list Z => exn_of r.1) outs) = None /\
             rs = map (fun j => (j_idx j, (if g_disk g0 && op_sr O then op_reload O SaveGrid (st_of (op_grid O e (j_tile j) (j_args j)).1)
                                           else st_of (op_grid O e (j_tile j) (j_args j)).1), (op_grid O e (j_tile j) (j_args j)).2)) js
         | Raise _ => first_exn (map (fun r : out T * list Z => exn_of r.1) outs) <> None end).
      { unfold outs. clear. induction js as [|j js IH]; [done|].
        change (pend (j :: js)) with (Entry (j_idx j) (j_tile j) (Some (Ok (j_args j))) :: pend js). cbn [rmap entry_result en_run en_k en_t rbind].
        unfold first_exn in *. cbn [map omap]. destruct (op_grid O e (j_tile j) (j_args j)) as [r rz]. cbn [fst snd].
        destruct (exn_of r); cbn [omap list_omap id]; [done|]. cbn [rbind].
        destruct (rmap _ (pend js)) as [rs|]; [|exact IH]. cbn [rbind]. destruct IH as [I1 ->]. split; [exact I1|done]. }
      destruct (rmap _ (pend js)) as [rs|].
      2:{ destruct (first_exn _); [done|by destruct Hok]. }
      destruct Hok as [Hf Hrs]. rewrite Hf.
      set (l := zip (map j_idx js) (map (fun r : out T * list Z => st_of r.1) outs)).
      assert (Hl : l = map (fun j => (j_idx j, st_of (op_grid O e (j_tile j) (j_args j)).1)) js).
      { unfold l, outs. clear. induction js as [|j js IH]; [done|]. cbn. by rewrite IH. }
      destruct (store_loop l g Hw) as [E1 E2].
      { unfold l, outs. rewrite zip_fst; [done|]. by rewrite !map_length. }
      { intros k t' Hin. rewrite Hl in Hin. apply elem_of_list_fmap in Hin as (j & [= -> ->] & Hj). exists (j_tile j). split; [by apply Hjs|apply Rgrid]. }
      rewrite E1. cbn [exn_of st_of]. split; [done|]. eapply sim_trans; [apply foldl_set_upd|]. rewrite E2.
      assert (Hset : foldl (fun (g : grid T) (x : nat * T * list Z) => set_tile g x.1.1 (Some x.1.2)) g rs =
        foldl (fun g kt => set_tile g kt.1 (Some (if g_disk g0 && op_sr O then op_reload O SaveGrid kt.2 else kt.2))) g l).
      { rewrite Hl, Hrs. clear. revert g. induction js as [|j js IH]; intros g; [done|]. cbn [map foldl fst snd]. apply IH. }
      rewrite Hset. apply sim_note. intros x. unfold outs. rewrite Hrs, !map_map. done.
    Qed.

    (** The loop and the last batch. *)
    Definition finish_batch (r : out (grid T * bool * list job)) : out (grid T) :=
      match exn_of r with
      | Some x => Out (st_of r).1.1 (ev_of r) (Some x)
      | None => match (st_of r).2 with [] => Out (st_of r).1.1 [] None | js => run_jobs O e (st_of r).1.1 js end
      end.

    Lemma on_way_jobs g js : on_way g -> NoDup (map j_idx js) ->
      (forall j, j ∈ js -> tile_at g (j_idx j) = Some (j_tile j)) -> exn_of (run_jobs O e g js) = None -> on_way (st_of (run_jobs O e g js)).
    Proof using Rrefl Rtrans Rgrid Rload Horig.
      intros Hw Hnd Hjs Hx. split.
      - destruct Hw as [HE _]. eapply evolve_trans; [done|exact HE|]. eapply evolve_jobs; try done.
        apply Forall_forall. intros j Hj. exists (j_tile j). split; [exact (Hjs j Hj)|apply Rrefl].
      - pose proof (run_jobs_spec g js Hw Hnd Hjs) as H. destruct Hw as [_ [z Hz]].
        destruct (rmap _ (pend js)) as [rs|].
        + destruct H as [_ (_ & _ & _ & _ & rz & Hm & _)]. rewrite Hm.
          assert (Hf : forall rs g, exists z, g_meta (foldl upd g rs) = g_meta g <| m_rezs := z |>).
          { clear. induction rs as [|x rs IH]; intros g; [exists (m_rezs (g_meta g)); cbn [foldl]; by destruct (g_meta g)|]. cbn [foldl].
            destruct (IH (upd g x)) as [z Hz]. exists z. rewrite Hz, upd_meta. by destruct (g_meta g). }
          destruct (Hf rs g) as [z2 Hz2]. exists rz. rewrite Hz2, Hz. by destruct (g_meta g0).
        + done.
    Qed.

    Lemma pend_app js j : pend (js ++ [j]) = pend js ++ [Entry (j_idx j) (j_tile j) (Some (Ok (j_args j)))].
    Proof. unfold pend. by rewrite map_app. Qed.

    Lemma parallel_loop n l : forall k g clear js,
      on_way g -> (forall i, (i < length l)%nat -> tile_at g (k + i) = mjoin (l !! i)) ->
      (forall i, (i < length l)%nat -> tile_at g0 (k + i) = mjoin (l !! i)) ->
      NoDup (map j_idx js) -> (forall j, j ∈ js -> (j_idx j < k)%nat /\ tile_at g (j_idx j) = Some (j_tile j)) ->
      let r := finish_batch (oloop (parallel_step O e n a auto rez) (seq k (length l)) (g, clear, js)) in
      (forall t, buf t = parallel_buffer O t auto rez) ->
      match rmap (entry_result (g_disk g0)) (pend js ++ plan (g_meta g0) B k clear l) with
      | Ok rs => exn_of r = None /\ sim (foldl upd g rs) (st_of r)
      | Raise _ => exn_of r <> None
      end.
    Proof using Rrefl Rtrans Rgrid Rload HB Horig.
      induction l as [|o l IH]; intros k g clear js Hw Hl Hl0 Hnd Hjs r Hbuf.
      { subst r. cbn [length seq oloop plan]. rewrite app_nil_r. unfold finish_batch. cbn [exn_of st_of snd fst].
        assert (Hjs' : forall j, j ∈ js -> tile_at g (j_idx j) = Some (j_tile j)) by (intros j Hj; by apply Hjs).
        pose proof (run_jobs_spec g js Hw Hnd Hjs') as H. destruct js; [|exact H]. cbn. split; [done|apply sim_refl]. }
      assert (Ht : tile_at g k = o) by (specialize (Hl 0%nat ltac:(cbn; lia)); rewrite Nat.add_0_r in Hl; done).
      assert (Ht0 : tile_at g0 k = o) by (specialize (Hl0 0%nat ltac:(cbn; lia)); rewrite Nat.add_0_r in Hl0; done).
      assert (Hl' : forall i, (i < length l)%nat -> tile_at g (S k + i) = mjoin (l !! i)).
      { intros i Hi. specialize (Hl (S i) ltac:(cbn; lia)). by rewrite Nat.add_succ_comm. }
      assert (Hl0' : forall i, (i < length l)%nat -> tile_at g0 (S k + i) = mjoin (l !! i)).
      { intros i Hi. specialize (Hl0 (S i) ltac:(cbn; lia)). by rewrite Nat.add_succ_comm. }
      assert (HjsS : forall j, j ∈ js -> (j_idx j < S k)%nat /\ tile_at g (j_idx j) = Some (j_tile j)).
      { intros j Hj. destruct (Hjs j Hj). split; [lia|done]. }
      assert (Hstep : forall o1 : out (grid T * bool * list job), parallel_step O e n a auto rez (g, clear, js) k = o1 -> exn_of o1 = None ->
        exn_of r = exn_of (finish_batch (oloop (parallel_step O e n a auto rez) (seq (S k) (length l)) (st_of o1))) /\
        st_of r = st_of (finish_batch (oloop (parallel_step O e n a auto rez) (seq (S k) (length l)) (st_of o1)))).
      { intros o1 Hs Ho1. subst r. cbn [length seq oloop]. rewrite Hs, Ho1. unfold finish_batch. cbn [exn_of st_of ev_of].
        destruct (exn_of (oloop _ _ (st_of o1))); done. }
      assert (Hraise : forall o1 x, parallel_step O e n a auto rez (g, clear, js) k = o1 -> exn_of o1 = Some x -> exn_of r <> None).
      { intros o1 x Hs Ho1. subst r. cbn [length seq oloop]. rewrite Hs, Ho1. unfold finish_batch. by rewrite Ho1. }
      unfold parallel_step in Hstep at 1. unfold parallel_step in Hraise. rewrite Ht in Hstep, Hraise. clearbody r.
      destruct o as [t|]; cbn [plan].
      2:{ destruct (Hstep _ eq_refl eq_refl) as [E1 E2]. rewrite E1, E2. cbn [st_of].
          apply (IH (S k) g clear js Hw Hl' Hl0' Hnd HjsS Hbuf). }
      destruct (skip_tile O a clear t) eqn:Hs.
      { destruct (Hstep _ eq_refl eq_refl) as [E1 E2]. rewrite E1, E2. cbn [st_of]. clear Hstep Hraise E1 E2.
        specialize (IH (S k) (note_rezs g (op_rezs O t)) clear js (on_way_note _ _ Hw) Hl' Hl0' Hnd HjsS Hbuf). cbv zeta in IH.
        rewrite rmap_app in *. destruct (rmap _ (pend js)) as [rs1|] eqn:E1; [|exact IH]. cbn [rbind] in *.
        cbn [rmap entry_result en_run en_k en_t rbind].
        destruct (rmap _ (plan (g_meta g0) B (S k) clear l)) as [rs2|]; [|exact IH]. cbn [rbind] in *.
        destruct IH as [I1 I2]. split; [exact I1|]. eapply sim_trans; [|exact I2].
        rewrite !foldl_app. cbn [foldl]. apply sim_foldl.
        assert (Hk : tile_at (foldl upd g rs1) k = Some t).
        { rewrite foldl_upd_tile; [done|]. rewrite (results_idx _ _ E1). unfold pend. rewrite map_map. cbn.
          intros Hin%elem_of_list_fmap. destruct Hin as (j & -> & Hj). destruct (Hjs j Hj). lia. }
        unfold upd at 1. cbn [fst snd]. rewrite set_tile_id by done. apply note_foldl_sim. }
      cbv zeta in Hstep, Hraise. rewrite <- (Hbuf t) in Hstep, Hraise. rewrite (HB g k t) in Hstep, Hraise by (try done; apply Hw).
      destruct (B k t) as [b|x].
      2:{ rewrite rmap_app. cbn [rmap entry_result en_run en_k en_t rbind].
          pose proof (Hraise _ x eq_refl eq_refl) as Hr. by destruct (rmap _ (pend js)). }
      cbn [rbind]. rewrite (on_way_rez g Hw) in Hstep, Hraise.
      change (GArgs _ _ _ _ _ _ _) with (call_args (g_meta g0) (next_clear O a clear) b) in Hstep, Hraise.
      set (j := Job k t (call_args (g_meta g0) (next_clear O a clear) b)) in *.
      assert (Hpend : pend js ++ Entry k t (Some (Ok (call_args (g_meta g0) (next_clear O a clear) b))) :: plan (g_meta g0) B (S k) (next_clear O a clear) l =
                      pend (js ++ [j]) ++ plan (g_meta g0) B (S k) (next_clear O a clear) l).
      { rewrite pend_app, <- app_assoc. done. }
      rewrite Hpend.
      assert (Hnd' : NoDup (map j_idx (js ++ [j]))).
      { rewrite map_app. apply NoDup_app. split; [done|]. cbn. split; [|apply NoDup_singleton].
        intros i Hi ->%elem_of_list_singleton. apply elem_of_list_fmap in Hi as (j' & Hj' & Hi). destruct (Hjs j' Hi). lia. }
      assert (Hjs' : forall j', j' ∈ js ++ [j] -> (j_idx j' < S k)%nat /\ tile_at g (j_idx j') = Some (j_tile j')).
      { intros j' [Hj|Hj]%elem_of_app; [by apply HjsS|]. apply elem_of_list_singleton in Hj as ->. cbn. split; [lia|done]. }
      destruct (length (js ++ [j]) =? n)%nat.
      2:{ destruct (Hstep _ eq_refl eq_refl) as [E1 E2]. rewrite E1, E2. cbn [st_of].
          apply (IH (S k) g (next_clear O a clear) (js ++ [j]) Hw Hl' Hl0' Hnd' Hjs' Hbuf). }
      pose proof (run_jobs_spec g (js ++ [j]) Hw Hnd' ltac:(intros; by apply Hjs')) as Hrun.
      rewrite rmap_app. destruct (rmap _ (pend (js ++ [j]))) as [rs1|] eqn:E1.
      2:{ destruct (exn_of (run_jobs O e g (js ++ [j]))) as [x|] eqn:Ex; [|done]. cbn [rbind]. by apply (Hraise _ x eq_refl eq_refl). }
      destruct Hrun as [Ex Hsim]. cbn [rbind].
      destruct (Hstep _ eq_refl Ex) as [F1 F2]. rewrite F1, F2. cbn [st_of].
      assert (Hw' : on_way (st_of (run_jobs O e g (js ++ [j])))) by (apply on_way_jobs; try done; intros; by apply Hjs').
      assert (Hlr : forall i, (i < length l)%nat -> tile_at (st_of (run_jobs O e g (js ++ [j]))) (S k + i) = mjoin (l !! i)).
      { intros i Hi. rewrite <- (Hl' i Hi). destruct Hsim as (_ & _ & _ & Htl & _). unfold tile_at at 1. rewrite Htl.
        change (tile_at (foldl upd g rs1) (S k + i) = tile_at g (S k + i)). apply foldl_upd_tile. rewrite (results_idx _ _ E1).
        unfold pend. rewrite map_map. cbn. intros Hin%elem_of_list_fmap. destruct Hin as (j' & Hj' & Hin). destruct (Hjs' j' Hin). lia. }
      specialize (IH (S k) _ (next_clear O a clear) [] Hw' Hlr Hl0' ltac:(apply NoDup_nil_2) ltac:(intros j' Hj; by apply not_elem_of_nil in Hj) Hbuf).
      cbv zeta in IH. cbn [pend map app] in IH.
      destruct (rmap _ (plan (g_meta g0) B (S k) (next_clear O a clear) l)) as [rs2|]; [|exact IH]. cbn [rbind].
      destruct IH as [I1 I2]. split; [exact I1|]. rewrite foldl_app. eapply sim_trans; [|exact I2]. by apply sim_foldl.
    Qed.

    (** *** The whole run *)
    Definition tile_list (g : grid T) : list (option T) := match g_tiles g with Some x => nflat x | None => [] end.
    Lemma tile_list_size g : tiles_size g = length (tile_list g).
    Proof. unfold tiles_size, tile_list. by destruct (g_tiles g). Qed.
    Lemma tile_list_at g i : tile_at g i = mjoin (tile_list g !! i).
    Proof. unfold tile_at, tile_list. destruct (g_tiles g) as [x|]; [|done]. by destruct (nflat x !! i). Qed.
    Lemma finish_sim g g' : sim g g' -> finish_grid g = finish_grid g'.
    Proof.
      intros (A1 & A2 & A3 & A4 & ra & A5 & A6). unfold finish_grid. destruct g as [m ? ? ? ?], g' as [m' ? ? ? ?]. cbn in *. subst. unfold set. cbn.
      f_equal. destruct m. cbn in *. f_equal. apply np_unique_ext. intros x. by rewrite A6.
    Qed.
    Definition run_entries : list entry := plan (g_meta g0) B 0 (ga_clear a) (tile_list g0).
    Lemma on_way_start : on_way g0.
    Proof using Rrefl.
      split; [by apply evolve_refl|]. exists (m_rezs (g_meta g0)). by destruct (g_meta g0).
    Qed.
    Lemma regular_run : (forall t, buf t = Ok (tenth_width O t)) ->
      match rmap (entry_result (g_disk g0)) run_entries with
      | Ok rs => exn_of (grid_regular O e g0 a auto rez) = None /\
                 st_of (grid_regular O e g0 a auto rez) = finish_grid (foldl upd g0 rs)
      | Raise x => exn_of (grid_regular O e g0 a auto rez) = Some x
      end.
    Proof using Rrefl Rtrans Rgrid Rload HB Horig.
      intros Hbuf. unfold run_entries.
      pose proof (regular_loop (tile_list g0) 0 g0 (ga_clear a) on_way_start (fun i _ => tile_list_at g0 i) (fun i _ => tile_list_at g0 i)
        (eq_sym (tile_list_size g0)) Hbuf) as H.
      cbv zeta in H. unfold grid_regular. cbv zeta. rewrite tile_list_size.
      destruct (rmap _ _) as [rs|x].
      - destruct H as [H1 H2]. rewrite H1. cbn [exn_of st_of]. by rewrite H2.
      - by rewrite H.
    Qed.
    Lemma parallel_run n : (forall t, buf t = parallel_buffer O t auto rez) ->
      match rmap (entry_result (g_disk g0)) run_entries with
      | Ok rs => exn_of (grid_parallel O e n g0 a auto rez) = None /\
                 st_of (grid_parallel O e n g0 a auto rez) = finish_grid (foldl upd g0 rs)
      | Raise x => exn_of (grid_parallel O e n g0 a auto rez) <> None
      end.
    Proof using Rrefl Rtrans Rgrid Rload HB Horig.
      intros Hbuf. unfold run_entries.
      pose proof (parallel_loop n (tile_list g0) 0 g0 (ga_clear a) [] on_way_start (fun i _ => tile_list_at g0 i) (fun i _ => tile_list_at g0 i)
        ltac:(apply NoDup_nil_2) ltac:(intros j Hj; by apply not_elem_of_nil in Hj) Hbuf) as H.
      cbv zeta in H. cbn [pend map app] in H. unfold grid_parallel. cbv zeta. rewrite tile_list_size.
      set (r := oloop _ _ _) in *. unfold finish_batch in H.
      destruct (rmap _ _) as [rs|x].
      - destruct H as [H1 H2]. destruct (exn_of r); [done|].
        set (r2 := match (st_of r).2 with [] => _ | _ => _ end) in *. rewrite H1. cbn [exn_of st_of].
        split; [done|]. by rewrite (finish_sim _ _ H2).
      - destruct (exn_of r); [done|].
        set (r2 := match (st_of r).2 with [] => _ | _ => _ end) in *. destruct (exn_of r2) eqn:E; [done|by destruct H].
    Qed.
  End loop.

  (** *** The entries, tile by tile *)
  (** clear_existing when the loop reaches position [i]. *)
  Definition clear_at (clear : bool) (l : list (option T)) (i : nat) : bool :=
    clear || (bool_decide (ga_regrid a = "update") && op_sr O && existsb (op_changed O) (omap id (take i l))).
  Definition entry_at (m : gmeta) (B : nat -> T -> res (option (list point))) (clear : bool) (l : list (option T)) (k i : nat) (t : T) : entry :=
    Entry (k + i) t (if skip_tile O a (clear_at clear l i) t then None
                     else Some (let* b := B (k + i)%nat t in Ok (call_args m (next_clear O a clear) b))).
  Lemma plan_entry m B l : forall k clear i t,
    l !! i = Some (Some t) -> entry_at m B clear l k i t ∈ plan m B k clear l.
  Proof.
    induction l as [|o l IH]; intros k clear i t Hi; [done|]. destruct i as [|i].
    - cbn in Hi. injection Hi as ->. cbn [plan]. unfold entry_at, clear_at. cbn [take omap list_omap existsb]. rewrite andb_false_r, orb_false_r, Nat.add_0_r.
      destruct (skip_tile O a clear t); left.
    - cbn in Hi. unfold entry_at. rewrite <- Nat.add_succ_comm.
      destruct o as [t0|]; cbn [plan].
      2:{ change (clear_at clear (None :: l) (S i)) with (clear_at clear l i). by apply (IH (S k) clear i t). }
      destruct (skip_tile O a clear t0) eqn:Hs.
      + right. replace (clear_at clear (Some t0 :: l) (S i)) with (clear_at clear l i); [by apply (IH (S k) clear i t)|].
        unfold clear_at. cbn [take omap list_omap existsb id]. unfold skip_tile in Hs. apply andb_true_iff in Hs as [_ Hs].
        apply negb_true_iff in Hs. by rewrite Hs.
      + right. replace (clear_at clear (Some t0 :: l) (S i)) with (clear_at (next_clear O a clear) l i).
        2:{ unfold clear_at, next_clear. cbn [take omap list_omap existsb id]. unfold skip_tile in Hs.
            destruct (bool_decide (ga_regrid a = "update")); [|by rewrite !andb_false_l].
            destruct (op_sr O); [|by rewrite andb_false_r]. cbn in Hs |- *. destruct clear; [done|]. cbn in Hs.
            apply negb_false_iff in Hs. by rewrite Hs. }
        assert (Hn : next_clear O a (next_clear O a clear) = next_clear O a clear) by (unfold next_clear; by destruct (_ && _)).
        pose proof (IH (S k) (next_clear O a clear) i t Hi) as H. unfold entry_at in H. rewrite Hn in H. exact H.
  Qed.
  Lemma plan_index m B l : forall k clear en,
    en ∈ plan m B k clear l -> (k <= en_k en)%nat /\ l !! (en_k en - k)%nat = Some (Some (en_t en)).
  Proof.
    induction l as [|o l IH]; intros k clear en Hen; [by apply not_elem_of_nil in Hen|].
    assert (Hrec : forall c, en ∈ plan m B (S k) c l -> (k <= en_k en)%nat /\ (o :: l) !! (en_k en - k)%nat = Some (Some (en_t en))).
    { intros c H. destruct (IH (S k) c en H) as [H1 H2]. split; [lia|].
      replace (en_k en - k)%nat with (S (en_k en - S k)) by lia. exact H2. }
    cbn [plan] in Hen. destruct o as [t|]; [|by apply (Hrec clear)].
    destruct (skip_tile O a clear t); (apply elem_of_cons in Hen as [->|Hen]; [cbn; rewrite Nat.sub_diag; split; [lia|done]|by eapply Hrec]).
  Qed.
  Lemma plan_nodup m B l : forall k clear, NoDup (map en_k (plan m B k clear l)).
  Proof.
    induction l as [|o l IH]; intros k clear; [apply NoDup_nil_2|]. cbn [plan].
    assert (Hrec : forall c, k ∉ map en_k (plan m B (S k) c l)).
    { intros c Hin. apply elem_of_list_fmap in Hin as (en & Hk & Hen). apply plan_index in Hen as [Hen _]. lia. }
    destruct o as [t|]; [|apply IH]. destruct (skip_tile O a clear t); cbn [map en_k]; apply NoDup_cons; done.
  Qed.
  Lemma foldl_upd_at rs : forall g k t' rz, NoDup (map (fun x => x.1.1) rs) -> (k, t', rz) ∈ rs -> (k < tiles_size g)%nat ->
    tile_at (foldl upd g rs) k = Some t'.
  Proof.
    induction rs as [|x rs IH]; intros g k t' rz Hnd Hin Hk; [by apply not_elem_of_nil in Hin|].
    cbn [map] in Hnd. apply NoDup_cons in Hnd as [Hn Hnd]. cbn [foldl]. apply elem_of_cons in Hin as [<-|Hin].
    - assert (H : k ∉ map (fun x : nat * T * list Z => x.1.1) rs) by exact Hn.
      rewrite foldl_upd_tile by done. unfold upd. change (tile_at (note_rezs ?z _) k) with (tile_at z k). by apply tile_at_set_eq.
    - eapply IH; [done|exact Hin|]. unfold upd. change (tiles_size (note_rezs ?z _)) with (tiles_size z). by rewrite set_tile_size.
  Qed.
  Lemma foldl_upd_rezs rs : forall g x, x ∈ m_rezs (g_meta (foldl upd g rs)) <-> x ∈ m_rezs (g_meta g) \/ exists y, y ∈ rs /\ x ∈ y.2.
  Proof.
    induction rs as [|y rs IH]; intros g x; cbn [foldl].
    - split; [by left|]. intros [?|(y & H & _)]; [done|by apply not_elem_of_nil in H].
    - rewrite IH, upd_meta. cbn. rewrite note_elem. split.
      + intros [[?|?]|(z & Hz & ?)]; [by left|right; exists y; split; [left|done]|right; exists z; split; [by right|done]].
      + intros [?|(z & Hz & ?)]; [by left; left|]. apply elem_of_cons in Hz as [->|Hz]; [by left; right|right; by exists z].
  Qed.
  Lemma foldl_upd_none rs k : forall g, tile_at g k = None -> (forall x, x ∈ rs -> x.1.1 <> k) -> tile_at (foldl upd g rs) k = None.
  Proof.
    intros g Hg H. rewrite foldl_upd_tile; [done|]. intros Hin. apply elem_of_list_fmap in Hin as (x & Hx & Hin). by apply (H x).
  Qed.
End run.

(** ** The call *)
Section call.
  Context {T : Type} (O : tile_ops T) (e : env) (R : T -> T -> Prop).
  Context (Rrefl : forall t, R t t) (Rtrans : forall a b c, R a b -> R b c -> R a c).
  Context (Rgrid : forall t a, R t (st_of (op_grid O e t a).1)).
  Context (Rload : forall m t, R t (op_reload O m t)).
  Context (Rstrip : forall t t' s q, R t t' -> op_strip O t' s q = op_strip O t s q).

  Lemma neighbour_evolve (g g' : grid T) k s : evolve R g g' -> opt_rel R (neighbour g k s) (neighbour g' k s).
  Proof.
    intros [_ _ _ _ H]. unfold neighbour, tile_at. destruct (g_tiles g) as [x|], (g_tiles g') as [y|]; cbn in H; try done.
    destruct H as (-> & -> & HF). destruct (neighbour_index _ _ _ _) as [j|]; [|done].
    destruct (nflat x !! j) as [o|] eqn:E.
    - destruct (Forall2_lookup_l _ _ _ _ _ HF E) as (o' & E' & Hr). by rewrite E'.
    - assert (E' : nflat y !! j = None) by (apply lookup_ge_None_2; rewrite <- (Forall2_length _ _ _ HF); by apply lookup_ge_None_1).
      by rewrite E'.
  Qed.
  Lemma strip_evolve (g g' : grid T) k q s : evolve R g g' -> neighbour_strip O g' k q s = neighbour_strip O g k q s.
  Proof using Rstrip.
    intros H. pose proof (neighbour_evolve g g' k s H) as Hn. unfold neighbour_strip.
    destruct (neighbour g k s), (neighbour g' k s); cbn in Hn; try done. by apply Rstrip.
  Qed.
  Lemma border_evolve a (g g' : grid T) k q : evolve R g g' -> border_for O a g' k q = border_for O a g k q.
  Proof using Rstrip.
    intros H. unfold border_for. destruct (bool_decide _); [|done]. destruct q as [q|]; [|done]. cbn [rbind].
    unfold get_tile_neighbor_points. by rewrite (rmap_ext_in _ (neighbour_strip O g k q)) by (intros; by apply strip_evolve).
  Qed.

  (** The grid as the loops find it, and what they are given. *)
  Definition grid_start (g : grid T) (a : gargs) : grid T :=
    g <| g_meta := g_meta g <| m_algorithm := ga_alg a |>
          <| m_grez := match ga_rez a with Some r => RezGiven r | None => RezAuto (ga_mode a) end |>
          <| m_params := ga_params a |> <| m_rezs := [] |> |>.
  Definition grid_auto (a : gargs) : string := match ga_rez a with Some _ => "" | None => str_lower (ga_mode a) end.
  Definition call_rez (g : grid T) (a : gargs) : res (option Z) :=
    match ga_rez a with Some r => Ok (Some r) | None => auto_rez O e g (grid_auto a) end.
  Definition mismatch (g : grid T) (a : gargs) : bool :=
    negb (bool_decide (m_algorithm (g_meta g) = "")) && negb (bool_decide (m_algorithm (g_meta g) = ga_alg a)) && negb (ga_clear a).
  Definition grid_loops (dask : option nat) (g : grid T) (a : gargs) (rez : option Z) : out (grid T) :=
    match dask with
    | Some n => match m_ntiles (g_meta g) with Some _ => grid_parallel O e n g a (grid_auto a) rez | None => Out g [] (Some TypeError) end
    | None => grid_regular O e g a (grid_auto a) rez
    end.
  Lemma g_grid_calls g a dask :
    if mismatch g a then g_grid O e g a dask = Out g [] (Some ValueError) else
    if g_is_empty g then exn_of (g_grid O e g a dask) = Some ValueError else
    match call_rez g a with
    | Raise x => exn_of (g_grid O e g a dask) = Some x
    | Ok rez => g_grid O e g a dask = grid_loops dask (grid_start g a) a rez
    end.
  Proof.
    unfold g_grid, mismatch. destruct (_ && _ && _); [done|]. cbv zeta.
    change (g_is_empty (g <| g_meta := _ |>)) with (g_is_empty g). destruct (g_is_empty g); [done|].
    unfold call_rez, grid_auto, grid_loops, grid_start, grid_auto. destruct (ga_rez a) as [r|]; [done|].
    set (h := g <| g_meta := _ |> <| g_meta := _ |>).
    assert (Hh : auto_rez O e h (str_lower (ga_mode a)) = auto_rez O e g (str_lower (ga_mode a))) by reflexivity.
    rewrite Hh. destruct (auto_rez O e g (str_lower (ga_mode a))) as [rez|]; reflexivity.
  Qed.

  Definition buffer (dask : option nat) (auto : string) (rez : option Z) (t : T) : res Q :=
    match dask with Some _ => parallel_buffer O t auto rez | None => Ok (tenth_width O t) end.
  (** The border points of the tile at [k]. *)
  Definition borders (g : grid T) (a : gargs) (dask : option nat) (rez : option Z) (k : nat) (t : T) : res (option (list point)) :=
    border_for O a g k (buffer dask (grid_auto a) rez t).
  Definition origins (g : grid T) : Prop := g_disk g && op_sr O = true -> forall k, (k < tiles_size g)%nat -> is_Some (origin_at g k).

  Definition tiles_known (dask : option nat) (g : grid T) : Prop := is_Some dask -> g_is_empty g = false -> is_Some (m_ntiles (g_meta g)).
  Lemma tiles_known_none g : tiles_known None g.
  Proof. by intros [? ?]. Qed.
  Lemma root_tiles_known m0 (rep : T -> Z -> Z -> content -> Prop) g ct seen ok dask : root_inv m0 rep g ct seen ok -> tiles_known dask g.
  Proof.
    intros [_ [(Ht & _)|(_ & ? & ? & ? & ? & ? & _ & _ & Hn & _)]] _ He; [|by rewrite Hn].
    unfold g_is_empty in He. by rewrite Ht in He.
  Qed.

  Definition entries (g : grid T) (a : gargs) (dask : option nat) (rez : option Z) : list (entry (T := T)) :=
    plan O a (grid_auto a) rez (g_meta g) (borders g a dask rez) 0 (ga_clear a) (tile_list g).
  Lemma start_evolve g a : evolve R g (grid_start g a).
  Proof using Rrefl. apply evolve_meta; [done|]. exists [], (ga_alg a), (match ga_rez a with Some r => RezGiven r | None => RezAuto (ga_mode a) end), (ga_params a). by destruct (g_meta g). Qed.
  Lemma loops_run g a dask rez : origins g -> (is_Some dask -> is_Some (m_ntiles (g_meta g))) ->
    match rmap (entry_result O e (g_disk g)) (entries g a dask rez) with
    | Ok rs => exn_of (grid_loops dask g a rez) = None /\ st_of (grid_loops dask g a rez) = finish_grid (foldl upd g rs)
    | Raise x => exn_of (grid_loops dask g a rez) <> None
    end.
  Proof using Rrefl Rtrans Rgrid Rload Rstrip.
    intros Ho Hn. unfold grid_loops.
    assert (HB : forall g' k t, evolve R g g' -> tile_at g' k = Some t -> tile_at g k = Some t ->
      border_for O a g' k (buffer dask (grid_auto a) rez t) = borders g a dask rez k t).
    { intros g' k t HE _ _. by apply border_evolve. }
    destruct dask as [n|].
    - destruct Hn as [n0 ->]; [done|]. exact (parallel_run O e a (grid_auto a) rez R g _ _ Rrefl Rtrans Rgrid Rload HB Ho n (fun _ => eq_refl)).
    - pose proof (regular_run O e a (grid_auto a) rez R g _ _ Rrefl Rtrans Rgrid Rload HB Ho (fun _ => eq_refl)) as H.
      unfold run_entries in H. fold (entries g a None rez) in H. destruct (rmap _ _); [done|]. by rewrite H.
  Qed.

  (** Everything about a call that returned normally. *)
  Record grid_done (g : grid T) (a : gargs) (dask : option nat) (g' : grid T) : Prop := {
    gd_match : mismatch g a = false;
    gd_full : g_is_empty g = false;
    gd_geom : g_geom g' = g_geom g; gd_mask : g_mask g' = g_mask g; gd_disk : g_disk g' = g_disk g;
    gd_run : exists rez, call_rez g a = Ok rez /\
      (forall k t, tile_at g k = Some t -> exists t' rz, tile_at g' k = Some t' /\
         entry_result O e (g_disk g)
           (entry_at O a (grid_auto a) rez (g_meta g) (borders g a dask rez) (ga_clear a) (tile_list g) 0 k t) = Ok (k, t', rz) /\
         forall x, x ∈ rz -> x ∈ m_rezs (g_meta g')) /\
      (forall x, x ∈ m_rezs (g_meta g') -> exists k t t' rz, tile_at g k = Some t /\ tile_at g' k = Some t' /\ x ∈ rz /\
         entry_result O e (g_disk g)
           (entry_at O a (grid_auto a) rez (g_meta g) (borders g a dask rez) (ga_clear a) (tile_list g) 0 k t) = Ok (k, t', rz));
    gd_none : forall k, tile_at g k = None -> tile_at g' k = None;
    gd_meta : exists rz, g_meta g' = g_meta (grid_start g a) <| m_rezs := rz |> /\ StronglySorted Z.lt rz }.

  Lemma entries_start g a dask rez : entries (grid_start g a) a dask rez = entries g a dask rez.
  Proof.
    unfold entries. change (tile_list (grid_start g a)) with (tile_list g). change (borders (grid_start g a) a dask rez) with (borders g a dask rez).
    assert (H : forall m m', m_name m = m_name m' -> forall l k c, plan O a (grid_auto a) rez m (borders g a dask rez) k c l = plan O a (grid_auto a) rez m' (borders g a dask rez) k c l).
    { intros m m' Hm. induction l as [|o l IH]; intros k c; [done|]. cbn [plan]. rewrite !IH.
      assert (Hc : forall c b, call_args O a (grid_auto a) rez m c b = call_args O a (grid_auto a) rez m' c b).
      { intros. unfold call_args, tile_rez. by rewrite Hm. }
      destruct o as [t|]; [|done]. rewrite ?IH. destruct (skip_tile O a c t); [done|]. f_equal. f_equal. f_equal.
      destruct (borders g a dask rez k t); [|done]. cbn [rbind]. by rewrite Hc. }
    by apply H.
  Qed.
  Lemma entry_list g a dask rez k t : tile_at g k = Some t ->
    entry_at O a (grid_auto a) rez (g_meta g) (borders g a dask rez) (ga_clear a) (tile_list g) 0 k t ∈ entries g a dask rez.
  Proof.
    intros Ht. apply plan_entry. rewrite tile_list_at in Ht. destruct (tile_list g !! k) as [[]|]; try done. cbn in Ht. by injection Ht as ->.
  Qed.
  Lemma entry_back g a dask rez en : en ∈ entries g a dask rez -> exists k t, tile_at g k = Some t /\
    en = entry_at O a (grid_auto a) rez (g_meta g) (borders g a dask rez) (ga_clear a) (tile_list g) 0 k t.
  Proof.
    intros Hen. pose proof Hen as Hi. apply plan_index in Hi as [_ Hi]. rewrite Nat.sub_0_r in Hi.
    assert (Ht : tile_at g (en_k en) = Some (en_t en)) by (rewrite tile_list_at, Hi; done).
    exists (en_k en), (en_t en). split; [done|].
    pose proof (entry_list g a dask rez _ _ Ht) as Hen'. set (en' := entry_at _ _ _ _ _ _ _ _ _ _ _) in *.
    pose proof (plan_nodup O a (grid_auto a) rez (g_meta g) (borders g a dask rez) (tile_list g) 0 (ga_clear a)) as Hnd.
    fold (entries g a dask rez) in Hnd.
    apply elem_of_list_lookup in Hen as [i Hi1]. apply elem_of_list_lookup in Hen' as [j Hj].
    assert (i = j) as <-.
    { eapply NoDup_lookup; [exact Hnd|rewrite list_lookup_fmap, Hi1; reflexivity|rewrite list_lookup_fmap, Hj; done]. }
    congruence.
  Qed.

  (** The call returns normally if every tile can be gridded. *)
  Lemma grid_total g a dask rez : origins g -> tiles_known dask g -> mismatch g a = false -> g_is_empty g = false -> call_rez g a = Ok rez ->
    (forall k t, tile_at g k = Some t -> exists x, entry_result O e (g_disk g)
       (entry_at O a (grid_auto a) rez (g_meta g) (borders g a dask rez) (ga_clear a) (tile_list g) 0 k t) = Ok x) ->
    exn_of (g_grid O e g a dask) = None.
  Proof using Rrefl Rtrans Rgrid Rload Rstrip.
    intros Ho Hn Hm He Hr Hall. pose proof (g_grid_calls g a dask) as H. rewrite Hm, He, Hr in H. rewrite H.
    pose proof (loops_run (grid_start g a) a dask rez Ho (fun h => Hn h He)) as HL. rewrite entries_start in HL.
    change (g_disk (grid_start g a)) with (g_disk g) in HL.
    destruct (rmap _ _) as [rs|x] eqn:E; [by destruct HL|]. exfalso.
    assert (Hok : exists rs, rmap (entry_result O e (g_disk g)) (entries g a dask rez) = Ok rs).
    { assert (Hall' : forall en, en ∈ entries g a dask rez -> exists x, entry_result O e (g_disk g) en = Ok x).
      { intros en Hen. apply entry_back in Hen as (k & t & Ht & ->). by apply Hall. }
      clear -Hall'. induction (entries g a dask rez) as [|en l IH]; [by exists []|]. cbn [rmap].
      destruct (Hall' en) as [x ->]; [left|]. destruct IH as [rs ->]; [intros; apply Hall'; by right|]. by eexists. }
    destruct Hok as [rs Hok]. congruence.
  Qed.

  Lemma grid_finished g a dask : origins g -> exn_of (g_grid O e g a dask) = None -> grid_done g a dask (st_of (g_grid O e g a dask)).
  Proof using Rrefl Rtrans Rgrid Rload Rstrip.
    intros Ho Hx. pose proof (g_grid_calls g a dask) as H.
    destruct (mismatch g a) eqn:Hm; [by rewrite H in Hx|]. destruct (g_is_empty g) eqn:He; [by rewrite H in Hx|].
    destruct (call_rez g a) as [rez|] eqn:Hr; [|by rewrite H in Hx]. rewrite H in *. clear H.
    assert (Hn : is_Some dask -> is_Some (m_ntiles (g_meta (grid_start g a)))).
    { intros [n ->]. unfold grid_loops in Hx. by destruct (m_ntiles (g_meta (grid_start g a))). }
    pose proof (loops_run (grid_start g a) a dask rez Ho Hn) as HL. rewrite entries_start in HL.
    change (g_disk (grid_start g a)) with (g_disk g) in HL.
    destruct (rmap _ _) as [rs|x] eqn:E; [|done]. destruct HL as [_ Hst]. rewrite Hst. clear Hst Hx.
    assert (Hnd : NoDup (map (fun x => x.1.1) rs) /\ forall x, x ∈ rs <-> exists en, en ∈ entries g a dask rez /\ entry_result O e (g_disk g) en = Ok x).
    { assert (Hk : map (fun x => x.1.1) rs = map en_k (entries g a dask rez)).
      { exact (results_idx O e R (grid_start g a) Rrefl Rtrans Rgrid Rload Ho (entries g a dask rez) rs E). }
      split; [rewrite Hk; apply plan_nodup|]. clear -E. revert rs E. induction (entries g a dask rez) as [|en l IH]; intros rs E x.
      - injection E as <-. split; [by intros ?%not_elem_of_nil|]. intros (en & Hen & _). by apply not_elem_of_nil in Hen.
      - cbn [rmap] in E. apply rbind_Ok in E as (y & Hy & E). apply rbind_Ok in E as (rs' & Hrs & E). injection E as <-.
        rewrite elem_of_cons, (IH _ Hrs). split.
        + intros [->|(en' & H1 & H2)]; [exists en; split; [left|done]|exists en'; split; [by right|done]].
        + intros (en' & [->|H1]%elem_of_cons & H2); [left; congruence|right; by exists en']. }
    destruct Hnd as [Hnd Hrs].
    assert (Hen : forall k t x, entry_result O e (g_disk g) (entry_at O a (grid_auto a) rez (g_meta g) (borders g a dask rez) (ga_clear a) (tile_list g) 0 k t) = Ok x ->
       x.1.1 = k).
    { intros k t [[k' t'] rz] Hx. apply (entry_result_R O e R g Rrefl Rtrans Rgrid Rload Ho) in Hx as [Hx _]. done. }
    assert (Htile : forall k, tile_at (finish_grid (foldl upd (grid_start g a) rs)) k = tile_at (foldl upd (grid_start g a) rs) k) by done.
    assert (Hmeta : g_meta (finish_grid (foldl upd (grid_start g a) rs)) =
      g_meta (grid_start g a) <| m_rezs := np_unique (m_rezs (g_meta (foldl upd (grid_start g a) rs))) |>).
    { unfold finish_grid. cbn [g_meta set]. assert (Hf : forall (rs : list (nat * T * list Z)) g, exists z, g_meta (foldl upd g rs) = g_meta g <| m_rezs := z |>).
      { clear. induction rs as [|x rs IH]; intros g; [exists (m_rezs (g_meta g)); cbn [foldl]; by destruct (g_meta g)|]. cbn [foldl].
        destruct (IH (upd g x)) as [z Hz]. exists z. rewrite Hz, upd_meta. by destruct (g_meta g). }
      destruct (Hf rs (grid_start g a)) as [z Hz].
      change (g_meta (foldl upd (grid_start g a) rs) <| m_rezs := np_unique (m_rezs (g_meta (foldl upd (grid_start g a) rs))) |> =
              g_meta (grid_start g a) <| m_rezs := np_unique (m_rezs (g_meta (foldl upd (grid_start g a) rs))) |>). rewrite Hz. by destruct (g_meta (grid_start g a)). }
    assert (Hrez : forall x, x ∈ m_rezs (g_meta (finish_grid (foldl upd (grid_start g a) rs))) <-> exists y, y ∈ rs /\ x ∈ y.2).
    { intros x. rewrite Hmeta. cbn. rewrite elem_of_np_unique, foldl_upd_rezs. cbn. rewrite elem_of_nil. split; [by intros [[]|?]|by right]. }
    assert (Hsame : forall (rs : list (nat * T * list Z)) g, g_geom (foldl upd g rs) = g_geom g /\ g_mask (foldl upd g rs) = g_mask g /\ g_disk (foldl upd g rs) = g_disk g).
    { clear. induction rs as [|x rs IH]; intros g; [done|]. cbn [foldl]. destruct (IH (upd g x)) as (-> & -> & ->).
      unfold upd, note_rezs. cbn. by rewrite set_tile_geom, set_tile_mask, set_tile_disk. }
    destruct (Hsame rs (grid_start g a)) as (S1 & S2 & S3).
    split; try done.
    - exists rez. split; [done|]. split.
      + intros k t Ht. pose proof (entry_list g a dask rez k t Ht) as Hin. set (en := entry_at _ _ _ _ _ _ _ _ _ _ _) in *.
        assert (Hok : exists x, x ∈ rs /\ entry_result O e (g_disk g) en = Ok x).
        { clear -E Hin. revert rs E. induction (entries g a dask rez) as [|en' l IH]; intros rs E; [by apply not_elem_of_nil in Hin|].
          cbn [rmap] in E. apply rbind_Ok in E as (y & Hy & E). apply rbind_Ok in E as (rs' & Hrs & E). injection E as <-.
          apply elem_of_cons in Hin as [->|Hin]; [exists y; split; [left|done]|].
          destruct (IH Hin _ Hrs) as (x & H1 & H2). exists x. split; [by right|done]. }
        destruct Hok as ([[k' t'] rz] & Hin' & Hok). pose proof (Hen k t _ Hok) as Hk. cbn in Hk. subst k'.
        exists t', rz. split; [|split; [done|]].
        * rewrite Htile. eapply foldl_upd_at; [done|exact Hin'|]. by eapply tile_at_size.
        * intros x Hx. apply Hrez. by exists (k, t', rz).
      + intros x Hx. apply Hrez in Hx as ([[k' t'] rz] & Hin & Hx). pose proof Hin as Hin'. apply Hrs in Hin' as (en & Hin' & Hok).
        apply entry_back in Hin' as (k & t & Ht & ->). pose proof (Hen k t _ Hok) as Hk. cbn in Hk. subst k'.
        exists k, t, t', rz. split; [done|]. split; [|done].
        rewrite Htile. eapply foldl_upd_at; [done|exact Hin|]. by eapply tile_at_size.
    - intros k Hk. rewrite Htile. apply foldl_upd_none; [done|]. intros x Hx Hxk. apply Hrs in Hx as (en & Hin & Hok).
      apply entry_back in Hin as (k2 & t & Ht & ->). pose proof (Hen k2 t _ Hok). congruence.
    - eexists. split; [exact Hmeta|]. apply np_unique_sorted.
  Qed.

  (** Workers make no difference when the border points are the same. *)
  Lemma grid_dask g a d1 d2 : origins g -> tiles_known d1 g -> tiles_known d2 g -> (forall rez k t, call_rez g a = Ok rez -> tile_at g k = Some t -> borders g a d1 rez k t = borders g a d2 rez k t) ->
    (exn_of (g_grid O e g a d1) = None <-> exn_of (g_grid O e g a d2) = None) /\
    (exn_of (g_grid O e g a d1) = None -> st_of (g_grid O e g a d1) = st_of (g_grid O e g a d2)).
  Proof using Rrefl Rtrans Rgrid Rload Rstrip.
    intros Ho N1 N2 Hb. pose proof (g_grid_calls g a d1) as H1. pose proof (g_grid_calls g a d2) as H2.
    destruct (mismatch g a); [by rewrite H1, H2|]. destruct (g_is_empty g) eqn:He; [by rewrite H1, H2|].
    destruct (call_rez g a) as [rez|] eqn:Hr; [|by rewrite H1, H2]. rewrite H1, H2.
    pose proof (loops_run (grid_start g a) a d1 rez Ho (fun h => N1 h He)) as L1. pose proof (loops_run (grid_start g a) a d2 rez Ho (fun h => N2 h He)) as L2.
    assert (Hp : entries (grid_start g a) a d1 rez = entries (grid_start g a) a d2 rez).
    { rewrite !entries_start. unfold entries.
      assert (H : forall l k c, (forall i t, l !! i = Some (Some t) -> tile_at g (k + i) = Some t) ->
        plan O a (grid_auto a) rez (g_meta g) (borders g a d1 rez) k c l = plan O a (grid_auto a) rez (g_meta g) (borders g a d2 rez) k c l).
      { induction l as [|o l IH]; intros k c Hl; [done|].
        assert (Hl' : forall i t, l !! i = Some (Some t) -> tile_at g (S k + i) = Some t).
        { intros i t Hi. specialize (Hl (S i) t Hi). by rewrite Nat.add_succ_comm. }
        cbn [plan]. destruct o as [t|]; [|by apply IH]. rewrite !(IH _ _ Hl'). rewrite (Hb rez k t); [done|done|].
        specialize (Hl 0%nat t eq_refl). by rewrite Nat.add_0_r in Hl. }
      apply H. intros i t Hi. cbn. by rewrite tile_list_at, Hi. }
    rewrite Hp in L1. destruct (rmap _ _) as [rs|x].
    - destruct L1 as [-> ->], L2 as [-> ->]. done.
    - split; [tauto|]. intros H. by destruct L1.
  Qed.
End call.
