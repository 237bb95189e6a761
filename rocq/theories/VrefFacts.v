(** The vertical references given to add_points. *)
From Verif Require Import Py Nd Numpy Point Bin Algorithms Tile Time Meta Disk Grid GridRun GridQuery GridOps Export Spec TileExec GridExec.
From Verif Require Import PyFacts NdFacts TimeFacts GridBaseFacts GridPlaceFacts GridInvFacts GridRootFacts GridEvolveFacts MetaFacts.
Open Scope Z_scope.

Section vref.
  Context {T : Type} (O : tile_ops T) (e : env).
  Definition same_vref (g g' : grid T) : Prop := m_vref (g_meta g') = m_vref (g_meta g).
  Lemma same_vref_trans a b c : same_vref a b -> same_vref b c -> same_vref a c.
  Proof. unfold same_vref. congruence. Qed.
  Lemma build_grid_vref (g : grid T) x : same_vref g (build_grid g x).1.
  Proof. unfold build_grid. repeat case_match; done. Qed.
  Lemma base_grid_vref (g : grid T) d : same_vref g (update_base_grid g d).1.
  Proof. unfold update_base_grid. repeat case_match; try done; apply build_grid_vref. Qed.
  Lemma place_tiles_vref (g : grid T) : same_vref g (place_tiles g).1.
  Proof. unfold place_tiles. repeat case_match; done. Qed.
  Lemma add_to_tiles_vref (g : grid T) d a : same_vref g (st_of (add_points_to_tiles O g d a)).
  Proof. unfold add_points_to_tiles. repeat case_match; done. Qed.
  Lemma add_vref (g : grid T) inp a :
    st_of (g_add_points O g inp a) = g /\ exn_of (g_add_points O g inp a) <> None \/
    a_container a ∉ dkeys (m_container (g_meta g)) /\
    m_vref (g_meta (st_of (g_add_points O g inp a))) = m_vref (update_metadata (g_meta g) a).1 /\
    (exn_of (g_add_points O g inp a) = None -> (update_metadata (g_meta g) a).2 = None).
  Proof.
    unfold g_add_points. destruct (dmem _ _) eqn:Hd; [by left|]. destruct inp as [d|]; [|by left]. right.
    split; [intros Hin; apply dmem_true in Hin; congruence|].
    destruct (update_metadata (g_meta g) a) as [m1 [x|]]; cbn [fst snd]; [done|].
    set (g1 := g <| g_meta := m1 |>). change m1 with (g_meta g1).
    pose proof (base_grid_vref g1 d) as H2. destruct (update_base_grid g1 d) as [g2 [x|]]; cbn [fst] in H2; [done|].
    pose proof (place_tiles_vref g2) as H3. destruct (place_tiles g2) as [g3 [x|]]; cbn [fst] in H3; [by split; [eapply same_vref_trans|]|].
    cbv zeta. pose proof (add_to_tiles_vref g3 d a) as H4.
    assert (A4 : same_vref g1 (st_of (add_points_to_tiles O g3 d a))) by (do 2 (eapply same_vref_trans; [eassumption|]); done).
    destruct (exn_of _); (split; [|done]); exact A4.
  Qed.
  Lemma set_tile_vref (g : grid T) k t : same_vref g (set_tile g k t).
  Proof. unfold same_vref. unfold set_tile. by destruct (g_tiles g). Qed.
  Lemma remove_vref (g : grid T) c : same_vref g (st_of (g_remove_points O g c)).
  Proof.
    unfold g_remove_points. destruct (dmem _ _) eqn:Hd; cbn [negb]; [|done].
    cbv zeta. set (g1 := g <| g_meta := _ |>). change (same_vref g) with (same_vref g1).
    assert (Hstep : forall h k, same_vref h (st_of (remove_from_tile O c h k))).
    { intros h k. unfold remove_from_tile.
      assert (Hsave : forall h, same_vref h (st_of (save_reload O h k SavePoints))).
      { intros h'. unfold save_reload. repeat case_match; try done. cbn [st_of]. apply set_tile_vref. }
      set (r1 := match tile_at h k with None => _ | Some t => _ end).
      assert (H1 : same_vref h (st_of r1)).
      { unfold r1. destruct (tile_at h k) as [t|]; [|done]. destruct (exn_of _); [apply set_tile_vref|].
        destruct (op_empty O _); [|apply set_tile_vref].
        eapply same_vref_trans; [apply (set_tile_vref h k (Some (st_of (op_remove O t c))))|].
        set (h1 := set_tile h k (Some (st_of (op_remove O t c)))).
        assert (Hrm : same_vref h1 (remove_tile h1 k).1).
        { unfold remove_tile. cbv zeta. destruct (match g_mask h1 with Some b => _ | None => _ end) as [b|x]; [|done].
          destruct (m_ntiles (g_meta h1)); cbn [fst]; [|done]. eapply same_vref_trans; [|apply set_tile_vref]. done. }
        by destruct (remove_tile h1 k) as [g2 e2]. }
      destruct (exn_of r1); [done|]. eapply same_vref_trans; [exact H1|apply Hsave]. }
    assert (Hl : forall l h, same_vref h (st_of (oloop (remove_from_tile O c) l h))).
    { induction l as [|k l IH]; intros h; [done|]. cbn [oloop]. pose proof (Hstep h k) as H1.
      destruct (exn_of (remove_from_tile O c h k)); [done|]. eapply same_vref_trans; [exact H1|apply IH]. }
    set (r := if g_is_empty g1 then Out g1 [] None else oloop _ _ _).
    assert (Hr : same_vref g1 (st_of r)).
    { unfold r. destruct (g_is_empty g1); [done|]. apply Hl. }
    destruct (exn_of r); [done|]. cbv zeta. cbn [st_of]. by destruct (g_is_empty (st_of r)).
  Qed.
  Lemma core_vref m m' : core_meta m m' -> m_vref m' = m_vref m.
  Proof. by intros (? & ? & ? & ? & ->). Qed.
  Lemma grid_vref g a dask : same_vref g (st_of (g_grid O e g a dask)).
  Proof. apply core_vref. eapply (ev_meta (fun _ _ => True)). by apply evolve_grid. Qed.
  Lemma query_vref g layers rez nodata up g' o : g_get_layers_by_name O e g layers rez nodata up = Ok (g', o) -> same_vref g g'.
  Proof. intros H. apply core_vref. eapply (ev_meta (fun _ _ => True)). by eapply evolve_query; [..|exact H]. Qed.
End vref.

(** ** Text within text *)
Lemma prefix_app : forall p s, String.prefix p s = true <-> exists b, s = p +:+ b.
Proof.
  induction p as [|c p IH]; intros s; cbn.
  - destruct s; (split; [intros _; by eexists|done]).
  - destruct s as [|d s]; [split; [done|by intros [b ?]]|].
    change (String.prefix (String c p) (String d s)) with (if Ascii.ascii_dec c d then String.prefix p s else false). destruct (Ascii.ascii_dec c d) as [->|Hn].
    + split; [intros H; apply IH in H as [b ->]; by exists b|]. intros [b Hb]. apply IH. exists b. cbn in Hb. by injection Hb.
    + split; [done|]. intros [b Hb]. cbn in Hb. by injection Hb.
Qed.
Lemma index_cons pat c s : String.index 0 pat (String c s) =
  if String.prefix pat (String c s) then Some 0%nat else match String.index 0 pat s with Some n => Some (S n) | None => None end.
Proof. reflexivity. Qed.
Lemma has_occurs pat s : str_has pat s = true <-> occurs pat s.
Proof.
  unfold str_has. split.
  - destruct (String.index 0 pat s) as [n|] eqn:E; [|done]. intros _. revert n E. induction s as [|c s IH]; intros n E.
    + exists "", "". by destruct pat.
    + rewrite index_cons in E. destruct (String.prefix pat (String c s)) eqn:Ep; [apply prefix_app in Ep as [b ->]; by exists "", b|].
      destruct (String.index 0 pat s) as [m|] eqn:Em; [|done]. destruct (IH m eq_refl) as (a & b & ->). by exists (String c a), b.
  - intros (a & b & ->). assert (H : exists n, String.index 0 pat (a +:+ (pat +:+ b)) = Some n); [|by destruct H as [n ->]].
    induction a as [|c a IH].
    + exists 0%nat. change ("" +:+ (pat +:+ b)) with (pat +:+ b). assert (Hp : String.prefix pat (pat +:+ b) = true) by (apply prefix_app; by exists b).
      destruct (pat +:+ b) as [|c s] eqn:E; [by destruct pat|]. by rewrite index_cons, Hp.
    + destruct IH as [n Hn]. change (String c a +:+ (pat +:+ b)) with (String c (a +:+ (pat +:+ b))). rewrite index_cons, Hn. destruct (String.prefix _ _); by eexists.
Qed.

(** ** update_metadata *)
(** The reference recorded in a grid allows the one given. *)
Definition goes_with (v : string) (n : option string) : Prop :=
  n = Some v \/ exists w, n = Some w /\ occurs "MLLW" v /\ occurs "MLLW" w.
Lemma check_ok v n : v <> "" -> check_vref (Some v) n = Ok tt -> goes_with v n.
Proof.
  intros Hv. unfold check_vref, truthy_s. rewrite bool_decide_eq_false_2 by done. case_bool_decide; [by left|].
  destruct (str_has "MLLW" v) eqn:E1; [|done]. destruct n as [w|]; [|done]. destruct (str_has "MLLW" w) eqn:E2; [|done].
  intros _. right. exists w. rewrite <- !has_occurs. done.
Qed.
Lemma check_not v n : v <> "" -> ~ goes_with v n ->
  check_vref (Some v) n = Raise ValueError \/ (n = None /\ occurs "MLLW" v /\ check_vref (Some v) n = Raise AttributeError).
Proof.
  intros Hv Hn. unfold check_vref, truthy_s. rewrite bool_decide_eq_false_2 by done. case_bool_decide as E; [by destruct Hn; left|].
  destruct (str_has "MLLW" v) eqn:E1; [|by left]. destruct n as [w|]; [|right; by rewrite <- has_occurs].
  destruct (str_has "MLLW" w) eqn:E2; [|by left]. destruct Hn. right. exists w. by rewrite <- !has_occurs.
Qed.
Definition rest_of (m1 : gmeta) (a : add_args) : gmeta * option exn :=
  match check_vref (m_vref m1) (a_vref a) with
  | Raise x => (m1, Some x)
  | Ok _ =>
      match merge_time Z.min (m_min_time m1) (a_min_time a) with
      | Raise x => (m1, Some x)
      | Ok mn =>
          let m2 := m1 <| m_min_time := mn |> in
          match merge_time Z.max (m_max_time m2) (a_max_time a) with
          | Raise x => (m2, Some x)
          | Ok mx =>
              (m2 <| m_max_time := mx |>
                  <| m_container := dset (m_container m2) (a_container a)
                       (match a_files a with [] => ["Unknown"] | l => l end) |>
                  <| m_timestamp := dset (m_timestamp m2) (a_container a) (a_now a) |>
                  <| m_vref := a_vref a |>, None)
          end
      end
  end.
Definition epsg_of (a : add_args) : option (res Z) := match a_crs a with Some c => if crs_truthy c then Some (crs_int c) else None | None => None end.
Lemma update_eq m a : update_metadata m a =
  match match truthy_z (m_epsg m), epsg_of a with
        | Some _, Some (Raise x) => Some x
        | Some z, Some (Ok n) => if z =? n then None else Some ValueError
        | _, _ => None
        end with
  | Some x => (m, Some x)
  | None => match epsg_of a with
            | Some (Raise x) => (m, Some x)
            | Some (Ok n) => rest_of (m <| m_epsg := Some n |>) a
            | None => rest_of m a
            end
  end.
Proof. unfold update_metadata. fold (epsg_of a). cbv zeta. destruct (epsg_of a) as [[n|x]|]; [|done|]; destruct (truthy_z (m_epsg m)); done. Qed.
Lemma update_cases m a : update_metadata m a = (m, Some ValueError) \/
  exists m1, (m1 = m \/ code_of a <> None /\ (m_epsg m1 = m_epsg m \/ truthy_z (m_epsg m) = None) /\ exists n, m1 = m <| m_epsg := Some n |>) /\
    match check_vref (m_vref m) (a_vref a) with
    | Raise x => update_metadata m a = (m1, Some x)
    | Ok _ => match update_metadata m a with (m', None) => m_vref m' = a_vref a | (m', Some _) => m_vref m' = m_vref m end
    end.
Proof.
  rewrite update_eq. set (epsg := epsg_of a).
  assert (He : (exists n, epsg = Some (Ok n) /\ code_of a = Some n) \/ epsg = Some (Raise ValueError) \/ epsg = None).
  { unfold epsg, epsg_of, code_of. destruct (a_crs a) as [[n|s]|]; [| |auto]; cbn [crs_truthy crs_int].
    - unfold truthy_z. destruct (n =? 0) eqn:E; cbn [negb]; [auto|]. left. eauto.
    - destruct (negb _); auto. }
  assert (Hrest : forall m1, m_vref m1 = m_vref m ->
    match check_vref (m_vref m) (a_vref a) with
    | Raise x => rest_of m1 a = (m1, Some x)
    | Ok _ => match rest_of m1 a with (m', None) => m_vref m' = a_vref a | (m', Some _) => m_vref m' = m_vref m end
    end).
  { intros m1 E. unfold rest_of. rewrite E. destruct (check_vref _ _); [|reflexivity]. destruct (merge_time Z.min _ _); [|done]. cbv zeta. by destruct (merge_time Z.max _ _). }
  destruct He as [(n & -> & Hn)|[->| ->]].
  - destruct (truthy_z (m_epsg m)) as [z|] eqn:Ez.
    + destruct (z =? n) eqn:E; [|by left]. right. exists (m <| m_epsg := Some n |>). split; [|apply (Hrest (m <| m_epsg := Some n |>)); reflexivity]. right. split; [by rewrite Hn|].
      split; [|by eexists]. left. cbn. apply Z.eqb_eq in E. subst n. unfold truthy_z in Ez. destruct (m_epsg m) as [w|]; [|done]. destruct (w =? 0); [done|]. by injection Ez as ->.
    + right. exists (m <| m_epsg := Some n |>). split; [|apply (Hrest (m <| m_epsg := Some n |>)); reflexivity]. right. split; [by rewrite Hn|]. split; [by right|by eexists].
  - left. by destruct (truthy_z (m_epsg m)).
  - right. exists m. split; [by left|]. destruct (truthy_z (m_epsg m)); exact (Hrest m eq_refl).
Qed.
Lemma update_ok m a : (update_metadata m a).2 = None -> m_vref (update_metadata m a).1 = a_vref a /\ check_vref (m_vref m) (a_vref a) = Ok tt.
Proof.
  destruct (update_cases m a) as [->|(m1 & _ & H)]; [done|]. destruct (check_vref _ _) as [[]|x]; [|by rewrite H].
  destruct (update_metadata m a) as [m' [x|]]; done.
Qed.
Lemma update_failed m a : (update_metadata m a).2 <> None -> m_vref (update_metadata m a).1 = m_vref m.
Proof.
  destruct (update_cases m a) as [->|(m1 & H1 & H)]; [done|]. destruct (check_vref _ _) as [[]|x].
  - destruct (update_metadata m a) as [m' [x|]]; done.
  - rewrite H. intros _. cbn. destruct H1 as [->|(_ & _ & n & ->)]; done.
Qed.
(** A call that is refused for its reference. *)
Lemma update_refused m a v : m_vref m = Some v -> v <> "" -> ~ goes_with v (a_vref a) ->
  ((update_metadata m a).2 = Some ValueError \/ (a_vref a = None /\ occurs "MLLW" v /\ (update_metadata m a).2 = Some AttributeError)) /\
  (exists z, (update_metadata m a).1 = m <| m_epsg := z |>) /\
  (code_of a = None \/ truthy_z (m_epsg m) <> None -> (update_metadata m a).1 = m).
Proof.
  intros Hm Hv Hn. assert (Hsame : m <| m_epsg := m_epsg m |> = m) by (by destruct m).
  destruct (update_cases m a) as [->|(m1 & H1 & H)].
  - cbn. split; [by left|]. split; [|done]. by exists (m_epsg m).
  - rewrite Hm in H. assert (HX : exists x, check_vref (Some v) (a_vref a) = Raise x /\ (x = ValueError \/ a_vref a = None /\ occurs "MLLW" v /\ x = AttributeError)).
    { destruct (check_not _ _ Hv Hn) as [->|(? & ? & ->)]; eauto 10. }
    destruct HX as (x & E & HX). rewrite E in H. rewrite H. cbn. split.
    { destruct HX as [->|(? & ? & ->)]; auto. }
    destruct H1 as [->|(C & D & n & ->)]; [split; [by exists (m_epsg m)|done]|]. split; [by eexists|]. intros [?|Ht]; [done|]. destruct D as [D|D]; [|done].
    cbn in D. by rewrite D.
Qed.

Lemma goes_trans v n p : v <> "" -> goes_with v n -> (forall w, n = Some w -> w <> "" -> goes_with w p) -> goes_with v p.
Proof.
  intros Hv [->|(w & -> & H1 & H2)] H; [by apply H|]. assert (Hw : w <> "") by (intros ->; destruct H2 as ([|] & ? & E); done).
  destruct (H w eq_refl Hw) as [->|(w' & -> & _ & H3)]; right; eauto.
Qed.
Lemma update_goes m a v : v <> "" -> goes_with v (m_vref m) -> goes_with v (m_vref (update_metadata m a).1).
Proof.
  intros Hv H. destruct (update_metadata m a).2 eqn:E; [by rewrite update_failed by (by rewrite E)|].
  destruct (update_ok m a E) as [E1 E2]. rewrite E1. apply (goes_trans v _ _ Hv H). intros w Hw Hne. rewrite Hw in E2. by apply check_ok.
Qed.

Section calls.
  Context {T : Type} (O : tile_ops T) (e : env) (g0 : grid T).
  Lemma calls_recorded g held done failed : add_calls O e g0 g held done failed ->
    forall a v, a ∈ done -> a_vref a = Some v -> v <> "" -> goes_with v (m_vref (g_meta g)).
  Proof.
    induction 1 as [|g held done failed d a H IH Hx|g held done failed inp a H IH Hx|g held done failed c H IH|g held done failed a dask H IH|g held done failed layers rez nodata up g' o H IH Hq]; intros b v Hb Ev Hv.
    - by apply not_elem_of_nil in Hb.
    - destruct (add_vref O g (GoodData d) a) as [[_ ?]|(_ & Es & Hn)]; [done|]. rewrite Es. apply elem_of_app in Hb as [Hb|Hb%elem_of_list_singleton].
      + apply update_goes; [done|]. by eapply IH.
      + subst b. destruct (update_ok _ _ (Hn Hx)) as [-> _]. by left.
    - destruct (add_vref O g inp a) as [[-> _]|(_ & Es & _)]; [by eapply IH|]. rewrite Es. apply update_goes; [done|]. by eapply IH.
    - rewrite (remove_vref O g c). by eapply IH.
    - rewrite (grid_vref O e g a dask). by eapply IH.
    - rewrite (query_vref O e _ _ _ _ _ _ _ Hq). by eapply IH.
  Qed.
  Lemma calls_later g held done failed : add_calls O e g0 g held done failed ->
    forall i j a b v, done !! i = Some a -> done !! j = Some b -> (i <= j)%nat -> a_vref a = Some v -> v <> "" -> goes_with v (a_vref b).
  Proof.
    induction 1 as [|g held done failed d c H IH Hx|g held done failed inp c H IH Hx|g held done failed c H IH|g held done failed c dask H IH|g held done failed layers rez nodata up g' o H IH Hq];
      intros i j a b v Ha Hb Hij Ev Hv; [done| |exact (IH i j a b v Ha Hb Hij Ev Hv)..].
    apply lookup_app_Some in Hb as [Hb|[Hj Hb]].
    - apply lookup_app_Some in Ha as [Ha|[Hi _]]; [exact (IH i j a b v Ha Hb Hij Ev Hv)|]. apply lookup_lt_Some in Hb. lia.
    - apply list_lookup_singleton_Some in Hb as [_ <-]. apply lookup_app_Some in Ha as [Ha|[_ Ha]].
      + pose proof (calls_recorded _ _ _ _ H a v (elem_of_list_lookup_2 _ _ _ Ha) Ev Hv) as HR.
        destruct (add_vref O g (GoodData d) c) as [[_ ?]|(_ & _ & Hn)]; [done|]. destruct (update_ok _ _ (Hn Hx)) as [_ E2].
        apply (goes_trans v _ _ Hv HR). intros w Hw Hne. rewrite Hw in E2. by apply check_ok.
      + apply list_lookup_singleton_Some in Ha as [_ <-]. by left.
  Qed.
  (** A call that is refused for its reference. *)
  Lemma refused g inp a v : m_vref (g_meta g) = Some v -> v <> "" -> ~ goes_with v (a_vref a) ->
    let r := g_add_points O g inp a in
    (exn_of r = Some ValueError \/ (a_vref a = None /\ occurs "MLLW" v /\ exn_of r = Some AttributeError)) /\
    (exists z, st_of r = g <| g_meta := g_meta g <| m_epsg := z |> |>) /\ ev_of r = [] /\
    (code_of a = None \/ truthy_z (m_epsg (g_meta g)) <> None -> st_of r = g).
  Proof.
    intros Hm Hv Hn. assert (Hsame : g <| g_meta := g_meta g <| m_epsg := m_epsg (g_meta g) |> |> = g) by (destruct g as [[] ? ? ?]; done).
    unfold g_add_points. destruct (dmem _ _).
    { cbn. split; [by left|]. split; [|done]. by exists (m_epsg (g_meta g)). }
    destruct inp as [d|]; [|cbn; split; [by left|]; split; [|done]; by exists (m_epsg (g_meta g))].
    destruct (update_refused _ _ _ Hm Hv Hn) as (H1 & (z & H2) & H3). destruct (update_metadata (g_meta g) a) as [m1 [x|]]; cbn [fst snd] in *.
    2: { exfalso. by destruct H1 as [?|(_ & _ & ?)]. }
    cbn. split; [destruct H1 as [H1|(? & ? & H1)]; injection H1 as ->; auto|]. split; [exists z; by rewrite <- H2|]. split; [done|].
    intros Hc. rewrite (H3 Hc). by destruct g.
  Qed.
End calls.
