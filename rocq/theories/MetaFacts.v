(** What a grid records about the data added to it. *)
From Coq Require Import Ascii.
From Verif Require Import Py Nd Numpy Point Bin Algorithms Tile Time Meta Disk Grid GridRun GridQuery GridOps Export Spec TileExec GridExec.
From Verif Require Import PyFacts NdFacts TimeFacts GridBaseFacts GridPlaceFacts GridInvFacts GridRootFacts GridEvolveFacts.
Open Scope Z_scope.

Definition src_attrs (m : gmeta) := (m_epsg m, m_min_time m, m_max_time m, m_container m, m_timestamp m).
Section src.
  Context {T : Type} (O : tile_ops T) (e : env).
  Definition same_src (g g' : grid T) : Prop := src_attrs (g_meta g') = src_attrs (g_meta g).
  Lemma same_src_trans a b c : same_src a b -> same_src b c -> same_src a c.
  Proof. unfold same_src. congruence. Qed.
  Lemma build_grid_src (g : grid T) x : same_src g (build_grid g x).1.
  Proof. unfold build_grid. repeat case_match; done. Qed.
  Lemma base_grid_src (g : grid T) d : same_src g (update_base_grid g d).1.
  Proof. unfold update_base_grid. repeat case_match; try done; apply build_grid_src. Qed.
  Lemma place_tiles_src (g : grid T) : same_src g (place_tiles g).1.
  Proof. unfold place_tiles. repeat case_match; done. Qed.
  Lemma add_to_tiles_src (g : grid T) d a : same_src g (st_of (add_points_to_tiles O g d a)).
  Proof. unfold add_points_to_tiles. repeat case_match; done. Qed.
  Lemma add_src (g : grid T) inp a :
    st_of (g_add_points O g inp a) = g /\ exn_of (g_add_points O g inp a) <> None \/
    a_container a ∉ dkeys (m_container (g_meta g)) /\
    src_attrs (g_meta (st_of (g_add_points O g inp a))) = src_attrs (update_metadata (g_meta g) a).1 /\
    (exn_of (g_add_points O g inp a) = None -> (update_metadata (g_meta g) a).2 = None).
  Proof.
    unfold g_add_points. destruct (dmem _ _) eqn:Hd; [by left|]. destruct inp as [d|]; [|by left]. right.
    split; [intros Hin; apply dmem_true in Hin; congruence|].
    destruct (update_metadata (g_meta g) a) as [m1 [x|]]; cbn [fst snd]; [done|].
    set (g1 := g <| g_meta := m1 |>). change m1 with (g_meta g1).
    pose proof (base_grid_src g1 d) as H2. destruct (update_base_grid g1 d) as [g2 [x|]]; cbn [fst] in H2; [done|].
    pose proof (place_tiles_src g2) as H3. destruct (place_tiles g2) as [g3 [x|]]; cbn [fst] in H3; [by split; [eapply same_src_trans|]|].
    cbv zeta. pose proof (add_to_tiles_src g3 d a) as H4.
    assert (A4 : same_src g1 (st_of (add_points_to_tiles O g3 d a))) by (do 2 (eapply same_src_trans; [eassumption|]); done).
    destruct (exn_of _); (split; [|done]); exact A4.
  Qed.
  Lemma set_tile_src (g : grid T) k t : same_src g (set_tile g k t).
  Proof. unfold same_src. unfold set_tile. by destruct (g_tiles g). Qed.
  Lemma remove_src (g : grid T) c : exists c' t',
    src_attrs (g_meta (st_of (g_remove_points O g c))) = (m_epsg (g_meta g), m_min_time (g_meta g), m_max_time (g_meta g), c', t') /\
    (c ∉ dkeys (m_container (g_meta g)) -> c' = m_container (g_meta g) /\ t' = m_timestamp (g_meta g)) /\
    (c ∈ dkeys (m_container (g_meta g)) -> c' = ddel (m_container (g_meta g)) c /\ t' = ddel (m_timestamp (g_meta g)) c).
  Proof.
    unfold g_remove_points. destruct (dmem _ _) eqn:Hd; cbn [negb].
    2: { eexists _, _. split; [reflexivity|]. split; [done|]. intros Hin. apply dmem_true in Hin. congruence. }
    apply dmem_true in Hd. cbv zeta. set (g1 := g <| g_meta := _ |>).
    enough (HS : same_src g1 (st_of (match exn_of (if g_is_empty g1 then Out g1 [] None else oloop (remove_from_tile O c) (seq 0 (tiles_size g1)) g1) with
       | Some _ => if g_is_empty g1 then Out g1 [] None else oloop (remove_from_tile O c) (seq 0 (tiles_size g1)) g1
       | None => let r := if g_is_empty g1 then Out g1 [] None else oloop (remove_from_tile O c) (seq 0 (tiles_size g1)) g1 in
           let g2 := if g_is_empty (st_of r) then st_of r <| g_tiles := None |> else st_of r in Out g2 (ev_of r ++ save_grid g2) None end))).
    { eexists _, _. split; [exact HS|]. split; [done|]. done. }
    assert (Hstep : forall h k, same_src h (st_of (remove_from_tile O c h k))).
    { intros h k. unfold remove_from_tile.
      assert (Hsave : forall h, same_src h (st_of (save_reload O h k SavePoints))).
      { intros h'. unfold save_reload. repeat case_match; try done. cbn [st_of]. apply set_tile_src. }
      set (r1 := match tile_at h k with None => _ | Some t => _ end).
      assert (H1 : same_src h (st_of r1)).
      { unfold r1. destruct (tile_at h k) as [t|]; [|done]. destruct (exn_of _); [apply set_tile_src|].
        destruct (op_empty O _); [|apply set_tile_src].
        eapply same_src_trans; [apply (set_tile_src h k (Some (st_of (op_remove O t c))))|].
        set (h1 := set_tile h k (Some (st_of (op_remove O t c)))).
        assert (Hrm : same_src h1 (remove_tile h1 k).1).
        { unfold remove_tile. cbv zeta. destruct (match g_mask h1 with Some b => _ | None => _ end) as [b|x]; [|done].
          destruct (m_ntiles (g_meta h1)); cbn [fst]; [|done]. eapply same_src_trans; [|apply set_tile_src]. done. }
        by destruct (remove_tile h1 k) as [g2 e2]. }
      destruct (exn_of r1); [done|]. eapply same_src_trans; [exact H1|apply Hsave]. }
    assert (Hl : forall l h, same_src h (st_of (oloop (remove_from_tile O c) l h))).
    { induction l as [|k l IH]; intros h; [done|]. cbn [oloop]. pose proof (Hstep h k) as H1.
      destruct (exn_of (remove_from_tile O c h k)); [done|]. eapply same_src_trans; [exact H1|apply IH]. }
    set (r := if g_is_empty g1 then Out g1 [] None else oloop _ _ _).
    assert (Hr : same_src g1 (st_of r)).
    { unfold r. destruct (g_is_empty g1); [done|]. apply Hl. }
    destruct (exn_of r); [done|]. cbv zeta. cbn [st_of]. by destruct (g_is_empty (st_of r)).
  Qed.
  Lemma core_src m m' : core_meta m m' -> src_attrs m' = src_attrs m.
  Proof. by intros (? & ? & ? & ? & ->). Qed.
  Lemma grid_src g a dask : same_src g (st_of (g_grid O e g a dask)).
  Proof. apply core_src. eapply (ev_meta (fun _ _ => True)). by apply evolve_grid. Qed.
  Lemma query_src g layers rez nodata up g' o : g_get_layers_by_name O e g layers rez nodata up = Ok (g', o) -> same_src g g'.
  Proof. intros H. apply core_src. eapply (ev_meta (fun _ _ => True)). by eapply evolve_query; [..|exact H]. Qed.
End src.

(** ** update_metadata *)
(** The epsg code given by a call; 0 and None count as not given. *)
Definition code_of (a : add_args) : option Z :=
  match a_crs a with Some (CrsCode z) => truthy_z (Some z) | _ => None end.
Lemma update_epsg_kept m a z : truthy_z (m_epsg m) = Some z -> m_epsg (update_metadata m a).1 = Some z.
Proof.
  intros Hz. assert (Em : m_epsg m = Some z) by (unfold truthy_z in Hz; repeat case_match; by simplify_eq).
  unfold update_metadata. cbv zeta. rewrite Hz. repeat case_match; cbn in *; simplify_eq; try done.
  all: match goal with H : (?a =? ?b) = true |- _ => apply Z.eqb_eq in H; by subst end.
Qed.
Lemma update_epsg_set m a z : (update_metadata m a).2 = None -> code_of a = Some z ->
  m_epsg (update_metadata m a).1 = Some z /\ (truthy_z (m_epsg m) = None \/ truthy_z (m_epsg m) = Some z).
Proof.
  unfold code_of. destruct (a_crs a) as [[w|]|] eqn:Ea; try done. unfold truthy_z at 1. destruct (w =? 0) eqn:Ew; [done|].
  intros Hx [= ->]. revert Hx. unfold update_metadata. cbv zeta. rewrite Ea. cbn [crs_truthy crs_int]. rewrite Ew. cbn [negb].
  repeat case_match; cbn in *; simplify_eq; try done; intros _; split; auto.
  all: match goal with H : (?a =? ?b) = true |- _ => apply Z.eqb_eq in H; subst; by auto end.
Qed.
Lemma truthy_self z w : truthy_z (Some z) = Some w -> w = z.
Proof. unfold truthy_z. case_match; congruence. Qed.
Lemma code_truthy a z : code_of a = Some z -> truthy_z (Some z) = Some z.
Proof.
  unfold code_of. repeat case_match; try done. intros Hc. pose proof (truthy_self _ _ Hc). by subst.
Qed.

Section calls.
  Context {T : Type} (O : tile_ops T) (e : env) (g0 : grid T).
  Lemma calls_epsg g held done failed : truthy_z (m_epsg (g_meta g0)) = None -> add_calls O e g0 g held done failed ->
    forall a z, a ∈ done -> code_of a = Some z -> m_epsg (g_meta g) = Some z.
  Proof.
    intros H0. induction 1 as [|g held done failed d a H IH Hx|g held done failed inp a H IH Hx|g held done failed c H IH|g held done failed a dask H IH|g held done failed layers rez nodata up g' o H IH Hq]; intros b z Hb Hz.
    - by apply not_elem_of_nil in Hb.
    - destruct (add_src O g (GoodData d) a) as [[_ ?]|(_ & Es & Hn)]; [done|]. specialize (Hn Hx).
      injection Es as Ee _ _ _ _. rewrite Ee. apply elem_of_app in Hb as [Hb|Hb%elem_of_list_singleton].
      + specialize (IH b z Hb Hz). apply update_epsg_kept. rewrite IH. by apply (code_truthy b).
      + subst b. by destruct (update_epsg_set _ _ _ Hn Hz).
    - specialize (IH b z Hb Hz). destruct (add_src O g inp a) as [[-> _]|(_ & Es & _)]; [done|]. injection Es as Ee _ _ _ _. rewrite Ee.
      apply update_epsg_kept. rewrite IH. by apply (code_truthy b).
    - destruct (remove_src O g c) as (c' & t' & Es & _). injection Es as Ee _ _ _ _. rewrite Ee. by apply (IH b z).
    - pose proof (grid_src O e g a dask) as Es. injection Es as Ee _ _ _ _. rewrite Ee. by apply (IH b z).
    - pose proof (query_src O e _ _ _ _ _ _ _ Hq) as Es. injection Es as Ee _ _ _ _. rewrite Ee. by apply (IH b z).
  Qed.
  Lemma clash_refused g inp a z c :
    m_epsg (g_meta g) = Some z -> z <> 0 -> a_crs a = Some c -> crs_truthy c = true -> c <> CrsCode z ->
    g_add_points O g inp a = Out g [] (Some ValueError).
  Proof.
    intros Hz Hnz Ha Hc Hne. unfold g_add_points. destruct (dmem _ _); [done|]. destruct inp as [d|]; [|done].
    assert (update_metadata (g_meta g) a = (g_meta g, Some ValueError)) as ->.
    { unfold update_metadata. cbv zeta. rewrite Ha, Hc, Hz. cbn [truthy_z]. rewrite (proj2 (Z.eqb_neq z 0) Hnz).
      destruct c as [w|s]; cbn [crs_int]; [|done]. destruct (Z.eqb_spec z w) as [->|]; [done|done]. }
    cbv beta iota zeta. by destruct g.
  Qed.
End calls.

(** ** Times *)
Lemma is_trunc_unique q z w : ~ (q == 0)%Q -> is_trunc q z -> is_trunc q w -> z = w.
Proof.
  unfold is_trunc, Qle, Qlt, Qeq, inject_Z. destruct q as [n d]. cbn. rewrite !Z.mul_1_r. intros Hn.
  intros [[A1 A2]|[A1 A2]] [[B1 B2]|[B1 B2]]; try lia.
  - assert (z = n / Z.pos d) by (apply (Z.div_unique_pos _ _ _ (n - z * Z.pos d)); lia).
    assert (w = n / Z.pos d) by (apply (Z.div_unique_pos _ _ _ (n - w * Z.pos d)); lia). congruence.
  - assert (- z = - n / Z.pos d) by (apply (Z.div_unique_pos _ _ _ (- n + z * Z.pos d)); lia).
    assert (- w = - n / Z.pos d) by (apply (Z.div_unique_pos _ _ _ (- n + w * Z.pos d)); lia). lia.
Qed.
Lemma q_trunc_is q : is_trunc q (q_trunc q).
Proof.
  unfold is_trunc, q_trunc, Qle, Qlt, inject_Z. destruct q as [n d]. cbn. rewrite !Z.mul_1_r.
  pose proof (Z.quot_rem' n (Z.pos d)) as E. destruct (Z.le_gt_cases 0 n) as [Hn|Hn].
  - left. pose proof (Z.rem_bound_pos n (Z.pos d) ltac:(lia) ltac:(lia)). lia.
  - right. pose proof (Z.rem_bound_pos (- n) (Z.pos d) ltac:(lia) ltac:(lia)) as Hr. rewrite Z.rem_opp_l in Hr by lia. lia.
Qed.
Lemma truthy_gave t z : gave t z <-> exists q, time_truthy t = Some q /\ is_trunc q z /\ z = q_trunc q.
Proof.
  unfold gave, time_truthy. split.
  - intros (q & -> & Hq & Hz). exists q. destruct (Qeq_bool q 0) eqn:E; [by apply Qeq_bool_iff in E|]. split; [done|]. split; [done|].
    eapply is_trunc_unique; [exact Hq|exact Hz|apply q_trunc_is].
  - intros (q & H & Hz & _). destruct t as [q'|]; [|done]. destruct (Qeq_bool q' 0) eqn:E; [done|]. injection H as ->.
    exists q. split; [done|]. split; [|done]. by apply Qeq_bool_neq.
Qed.
Lemma empty_unparsed v : formatted_string_to_utc_seconds "" <> Ok v.
Proof. done. Qed.

Lemma formats z s : four_digit_year z -> utc_seconds_to_formatted_string z = Ok s -> formatted_string_to_utc_seconds s = Ok z.
Proof. intros Hz. apply time_round_trip. unfold four_digit_year in Hz. lia. Qed.

Section times.
  Context (pick : Z -> Z -> Z) (le : Z -> Z -> Prop) (f : add_args -> option Q) (tm : gmeta -> string).
  Context (Hpick : forall a b, pick a b = a \/ pick a b = b) (Hl : forall a b, le (pick a b) a) (Hr : forall a b, le (pick a b) b).
  Context (Hrefl : forall a, le a a) (Htrans : forall a b c, le a b -> le b c -> le a c).
  Context (Hup : forall m a, tm (update_metadata m a).1 = tm m /\ (update_metadata m a).2 <> None \/
                             merge_time pick (tm m) (f a) = Ok (tm (update_metadata m a).1)).
  Context (Hsrc : forall m m', m_min_time m' = m_min_time m -> m_max_time m' = m_max_time m -> tm m' = tm m).

  Definition time_inv (m : gmeta) (done failed : list add_args) : Prop :=
    (tm m = "" /\ forall a z, a ∈ done -> ~ gave (f a) z) \/
    exists v, formatted_string_to_utc_seconds (tm m) = Ok v /\ four_digit_year v /\
      (exists a, a ∈ done ++ failed /\ gave (f a) v) /\ forall a z, a ∈ done -> gave (f a) z -> le v z.

  Lemma merge_inv m m' done failed done' failed' a :
    merge_time pick (tm m) (f a) = Ok (tm m') -> (forall z, gave (f a) z -> four_digit_year z) -> time_inv m done failed ->
    (forall b, b ∈ done' -> b ∈ done \/ b = a) -> (forall b, b ∈ done ++ failed -> b ∈ done' ++ failed') -> a ∈ done' ++ failed' ->
    time_inv m' done' failed'.
  Proof using Hpick Hl Hr Hrefl Htrans.
    intros Hm Hy HI Hd Hin Ha. unfold merge_time in Hm. destruct (time_truthy (f a)) as [q|] eqn:Et.
    - assert (Hg : gave (f a) (q_trunc q)) by (apply truthy_gave; exists q; split; [done|]; split; [apply q_trunc_is|done]).
      assert (Hz : forall z, gave (f a) z -> z = q_trunc q).
      { intros z (q' & Eq & _ & ->)%truthy_gave. by simplify_eq. }
      pose proof (Hy _ Hg) as Hyq. right. destruct HI as [[H1 H2]|(v & H1 & H2 & (b & Hb & Hbg) & H4)].
      + rewrite H1, bool_decide_true in Hm by done. exists (q_trunc q). split; [by apply formats|]. split; [done|].
        split; [by exists a|]. intros c z Hc Hcz. destruct (Hd c Hc) as [Hc'| ->]; [by apply H2 in Hcz|]. rewrite (Hz z Hcz). apply Hrefl.
      + rewrite bool_decide_false in Hm by (intros Ee; rewrite Ee in H1; done). rewrite H1 in Hm. cbn [rbind] in Hm.
        assert (Hp : four_digit_year (pick v (q_trunc q))) by (destruct (Hpick v (q_trunc q)) as [-> | ->]; done).
        exists (pick v (q_trunc q)). split; [by apply formats|]. split; [done|].
        split; [destruct (Hpick v (q_trunc q)) as [-> | ->]; [exists b; by auto|by exists a]|].
        intros c z Hc Hcz. destruct (Hd c Hc) as [Hc'| ->].
        * eapply Htrans; [apply Hl|by apply (H4 c)].
        * rewrite (Hz z Hcz). apply Hr.
    - assert (Hz : forall z, ~ gave (f a) z).
      { intros z (q' & Eq & _ & ->)%truthy_gave. by simplify_eq. }
      injection Hm as Hm. unfold time_inv. rewrite <- Hm. destruct HI as [[H1 H2]|(v & H1 & H2 & (b & Hb & Hbg) & H4)]; [left|right].
      + split; [done|]. intros c z Hc. destruct (Hd c Hc) as [Hc'| ->]; [by apply H2|by apply Hz].
      + exists v. split; [done|]. split; [done|]. split; [exists b; by auto|].
        intros c z Hc Hcz. destruct (Hd c Hc) as [Hc'| ->]; [by apply (H4 c)|by apply Hz in Hcz].
  Qed.

  Lemma inv_src m m' done failed : src_attrs m' = src_attrs m -> time_inv m done failed -> time_inv m' done failed.
  Proof using Hsrc. intros E. injection E as _ E1 E2 _ _. unfold time_inv. by rewrite (Hsrc _ _ E1 E2). Qed.
  Lemma inv_failed m done failed a : time_inv m done failed -> time_inv m done (failed ++ [a]).
  Proof using.
    intros [H|(v & H1 & H2 & (b & Hb & Hg) & H4)]; [by left|right]. exists v. split; [done|]. split; [done|]. split; [|done].
    exists b. split; [|done]. rewrite app_assoc. apply elem_of_app. by left.
  Qed.

  Lemma calls_time {T} (O : tile_ops T) e g0 g held done failed :
    tm (g_meta g0) = "" -> add_calls O e g0 g held done failed ->
    (forall a z, a ∈ done ++ failed -> gave (f a) z -> four_digit_year z) -> time_inv (g_meta g) done failed.
  Proof using Hpick Hl Hr Hrefl Htrans Hup Hsrc.
    intros H0. induction 1 as [|g held done failed d a H IH Hx|g held done failed inp a H IH Hx|g held done failed c H IH|g held done failed a dask H IH|g held done failed layers rez nodata up g' o H IH Hq]; intros Hy.
    - left. split; [done|]. intros a z Ha. by apply not_elem_of_nil in Ha.
    - destruct (add_src O g (GoodData d) a) as [[_ ?]|(_ & Es & Hn)]; [done|]. specialize (Hn Hx).
      eapply inv_src; [exact Es|]. destruct (Hup (g_meta g) a) as [[_ ?]|Hm]; [done|].
      eapply merge_inv; [exact Hm| |apply IH| | |].
      + intros z Hz. apply (Hy a z); [|done]. rewrite !elem_of_app, elem_of_list_singleton. tauto.
      + intros b z Hb. apply (Hy b z). rewrite !elem_of_app in *. tauto.
      + intros b. rewrite elem_of_app, elem_of_list_singleton. done.
      + intros b. rewrite !elem_of_app. tauto.
      + rewrite !elem_of_app, elem_of_list_singleton. tauto.
    - assert (IH' : time_inv (g_meta g) done failed).
      { apply IH. intros b z Hb. apply (Hy b z). rewrite !elem_of_app in *. tauto. }
      destruct (add_src O g inp a) as [[-> _]|(_ & Es & _)]; [by apply inv_failed|].
      eapply inv_src; [exact Es|]. destruct (Hup (g_meta g) a) as [[E _]|Hm].
      + unfold time_inv. rewrite E. by apply inv_failed.
      + eapply merge_inv; [exact Hm| |exact IH'| | |].
        * intros z Hz. apply (Hy a z); [|done]. rewrite !elem_of_app, elem_of_list_singleton. tauto.
        * by left.
        * intros b. rewrite !elem_of_app. tauto.
        * rewrite !elem_of_app, elem_of_list_singleton. tauto.
    - destruct (remove_src O g c) as (c' & t' & Es & _). specialize (IH Hy). unfold time_inv in *.
      injection Es as _ E1 E2 _ _. by rewrite (Hsrc _ _ E1 E2).
    - eapply inv_src; [apply grid_src|by apply IH].
    - eapply inv_src; [by eapply query_src|by apply IH].
  Qed.
End times.

Lemma update_min m a : m_min_time (update_metadata m a).1 = m_min_time m /\ (update_metadata m a).2 <> None \/
  merge_time Z.min (m_min_time m) (a_min_time a) = Ok (m_min_time (update_metadata m a).1).
Proof. unfold update_metadata. cbv zeta. repeat case_match; cbn in *; simplify_eq; by auto. Qed.
Lemma update_max m a : m_max_time (update_metadata m a).1 = m_max_time m /\ (update_metadata m a).2 <> None \/
  merge_time Z.max (m_max_time m) (a_max_time a) = Ok (m_max_time (update_metadata m a).1).
Proof. unfold update_metadata. cbv zeta. repeat case_match; cbn in *; simplify_eq; by auto. Qed.
Lemma calls_min {T} (O : tile_ops T) e g0 g held done failed :
  m_min_time (g_meta g0) = "" -> add_calls O e g0 g held done failed ->
  (forall a z, a ∈ done ++ failed -> gave (a_min_time a) z -> four_digit_year z) -> time_inv Z.le a_min_time m_min_time (g_meta g) done failed.
Proof.
  apply (calls_time Z.min); [lia|lia|lia|lia|lia|apply update_min|by intros].
Qed.
Lemma calls_max {T} (O : tile_ops T) e g0 g held done failed :
  m_max_time (g_meta g0) = "" -> add_calls O e g0 g held done failed ->
  (forall a z, a ∈ done ++ failed -> gave (a_max_time a) z -> four_digit_year z) -> time_inv Z.ge a_max_time m_max_time (g_meta g) done failed.
Proof.
  apply (calls_time Z.max); [lia|lia|lia|lia|lia|apply update_max|by intros].
Qed.

(** ** Containers and their lines *)
Section held.
  Context {T : Type} (O : tile_ops T) (e : env) (g0 : grid T).
  Definition held_inv (g : grid T) (held failed : list add_args) : Prop :=
    dkeys (m_timestamp (g_meta g)) = dkeys (m_container (g_meta g)) /\ NoDup (dkeys (m_container (g_meta g))) /\
    NoDup (map a_container held) /\
    (forall a, a ∈ held -> dget (m_container (g_meta g)) (a_container a) = Some (lines_of a) /\
                          dget (m_timestamp (g_meta g)) (a_container a) = Some (a_now a)) /\
    (forall c, c ∈ dkeys (m_container (g_meta g)) -> exists a, a ∈ held ++ failed /\ a_container a = c).

  Lemma held_src g g' held failed :
    m_container (g_meta g') = m_container (g_meta g) -> m_timestamp (g_meta g') = m_timestamp (g_meta g) ->
    held_inv g held failed -> held_inv g' held failed.
  Proof using. intros E1 E2. unfold held_inv. by rewrite E1, E2. Qed.
  Lemma held_failed g held failed a : held_inv g held failed -> held_inv g held (failed ++ [a]).
  Proof using.
    intros (H1 & H2 & H3 & H4 & H5). split; [done|]. split; [done|]. split; [done|]. split; [done|].
    intros c Hc. destruct (H5 c Hc) as (b & Hb & <-). exists b. split; [|done]. rewrite app_assoc. apply elem_of_app. by left.
  Qed.
  Lemma held_add g g' held failed held' failed' a :
    a_container a ∉ dkeys (m_container (g_meta g)) ->
    m_container (g_meta g') = dset (m_container (g_meta g)) (a_container a) (lines_of a) ->
    m_timestamp (g_meta g') = dset (m_timestamp (g_meta g)) (a_container a) (a_now a) ->
    (held' = held ++ [a] /\ failed' = failed \/ held' = held /\ failed' = failed ++ [a]) ->
    held_inv g held failed -> held_inv g' held' failed'.
  Proof using.
    intros Hf E1 E2 Hc (H1 & H2 & H3 & H4 & H5). unfold held_inv. rewrite E1, E2, !dset_new by congruence.
    unfold dkeys. rewrite !fmap_app. fold (dkeys (m_container (g_meta g))) (dkeys (m_timestamp (g_meta g))). cbn [fmap list_fmap fst].
    assert (Hne : forall b, b ∈ held -> a_container b <> a_container a).
    { intros b Hb Eb. apply Hf. rewrite <- Eb. apply dget_is_Some. by rewrite (proj1 (H4 b Hb)). }
    split; [by rewrite H1|].
    split. { apply NoDup_app. split; [done|]. split; [|apply NoDup_singleton]. intros c Hc1 ->%elem_of_list_singleton. done. }
    split. { destruct Hc as [[-> ->]|[-> ->]]; [|done]. rewrite map_app. apply NoDup_app. split; [done|]. split; [|apply NoDup_singleton].
      intros c Hc1 ->%elem_of_list_singleton. apply elem_of_list_fmap in Hc1 as (b & Eb & Hb). by apply (Hne b Hb). }
    assert (Hold : forall b, b ∈ held -> dget (m_container (g_meta g) ++ [(a_container a, lines_of a)]) (a_container b) = Some (lines_of b) /\
       dget (m_timestamp (g_meta g) ++ [(a_container a, a_now a)]) (a_container b) = Some (a_now b)).
    { intros b Hb. destruct (H4 b Hb) as [B1 B2]. by rewrite !dget_app, B1, B2. }
    split.
    - intros b Hb. destruct Hc as [[-> ->]|[-> ->]]; [|by apply Hold]. apply elem_of_app in Hb as [Hb|Hb%elem_of_list_singleton]; [by apply Hold|subst b].
      rewrite !dget_app. rewrite (proj2 (dget_None _ _) Hf). rewrite <- H1 in Hf. rewrite (proj2 (dget_None _ _) Hf). cbn.
      by rewrite !decide_True.
    - intros c [Hc1|Hc1%elem_of_list_singleton]%elem_of_app.
      + destruct (H5 c Hc1) as (b & Hb & <-). exists b. split; [|done]. destruct Hc as [[-> ->]|[-> ->]]; rewrite !elem_of_app in *; tauto.
      + subst c. exists a. split; [|done]. destruct Hc as [[-> ->]|[-> ->]]; rewrite !elem_of_app, elem_of_list_singleton; tauto.
  Qed.

  Lemma calls_held g held done failed :
    m_container (g_meta g0) = [] -> m_timestamp (g_meta g0) = [] -> add_calls O e g0 g held done failed -> held_inv g held failed.
  Proof using.
    intros H0 H0'. induction 1 as [|g held done failed d a H IH Hx|g held done failed inp a H IH Hx|g held done failed c H IH|g held done failed a dask H IH|g held done failed layers rez nodata up g' o H IH Hq].
    - unfold held_inv. rewrite H0, H0'. split; [done|]. split; [apply NoDup_nil_2|]. split; [apply NoDup_nil_2|].
      split; [intros a Ha; by apply not_elem_of_nil in Ha|]. intros c Hc. by apply not_elem_of_nil in Hc.
    - destruct (add_src O g (GoodData d) a) as [[_ ?]|(Hf & Es & Hn)]; [done|]. specialize (Hn Hx). injection Es as _ _ _ E1 E2.
      destruct (update_metadata (g_meta g) a) as [m1 eo] eqn:Hu. cbn [fst snd] in *. subst eo.
      destruct (update_metadata_spec _ _ _ _ Hu) as (_ & _ & _ & _ & _ & _ & _ & _ & _ & _ & _ & Uc & Ut & _).
      eapply held_add; [exact Hf|by rewrite E1, Uc|by rewrite E2, Ut|by left|exact IH].
    - destruct (add_src O g inp a) as [[-> _]|(Hf & Es & _)]; [by apply held_failed|]. injection Es as _ _ _ E1 E2.
      destruct (update_metadata (g_meta g) a) as [m1 eo] eqn:Hu. cbn [fst snd] in *.
      destruct (update_metadata_spec _ _ _ _ Hu) as (_ & _ & _ & _ & _ & _ & _ & _ & _ & _ & _ & Uc). destruct eo as [x|].
      + destruct Uc as (Uc & Ut & _). eapply held_src; [by rewrite E1, Uc|by rewrite E2, Ut|]. by apply held_failed.
      + destruct Uc as (Uc & Ut & _). eapply held_add; [exact Hf|by rewrite E1, Uc|by rewrite E2, Ut|by right|exact IH].
    - destruct (remove_src O g c) as (c' & t' & Es & Hout & Hin). injection Es as _ _ _ E1 E2.
      destruct IH as (H1 & H2 & H3 & H4 & H5). unfold held_inv. rewrite E1, E2.
      assert (Hk : dkeys c' = filter (fun x => x <> c) (dkeys (m_container (g_meta g))) /\ dkeys t' = dkeys c' /\
        forall k, k <> c -> dget c' k = dget (m_container (g_meta g)) k /\ dget t' k = dget (m_timestamp (g_meta g)) k).
      { destruct (decide (c ∈ dkeys (m_container (g_meta g)))) as [Hi|Hi].
        - destruct (Hin Hi) as [-> ->]. rewrite !dkeys_ddel, H1. split; [done|]. split; [done|]. intros k Hk. by rewrite !dget_ddel, !decide_False.
        - destruct (Hout Hi) as [-> ->]. split; [|by split]. symmetry. clear - Hi. induction (dkeys _) as [|k l IHl]; [done|].
          rewrite elem_of_cons in Hi. rewrite filter_cons, decide_True by (intros ->; tauto). by rewrite IHl by tauto. }
      destruct Hk as (K1 & K2 & K3). split; [done|]. split; [rewrite K1; by apply NoDup_filter|].
      split. { clear - H3. induction held as [|a l IHl]; [apply NoDup_nil_2|]. cbn [map] in H3. apply NoDup_cons in H3 as [Hn H3].
        rewrite filter_cons. destruct (decide _); [|by apply IHl]. cbn [map]. apply NoDup_cons. split; [|by apply IHl].
        intros Hi. apply Hn. apply elem_of_list_fmap in Hi as (b & Eb & Hb). apply elem_of_list_fmap. exists b. split; [done|].
        apply elem_of_list_filter in Hb as [_ Hb]. exact Hb. }
      split.
      + intros a [Ha Hh]%elem_of_list_filter. destruct (K3 _ Ha) as [-> ->]. by apply H4.
      + intros k. rewrite K1. intros [Hk Hh]%elem_of_list_filter. destruct (H5 k Hh) as (a & Ha & <-). exists a. split; [|done].
        rewrite !elem_of_app in *. rewrite elem_of_list_filter. tauto.
    - pose proof (grid_src O e g a dask) as Es. injection Es as _ _ _ E1 E2. by eapply held_src.
    - pose proof (query_src O e _ _ _ _ _ _ _ Hq) as Es. injection Es as _ _ _ E1 E2. by eapply held_src.
  Qed.
End held.

Lemma unique_containers m : NoDup (dkeys (m_container m)) -> m_return_unique_containers m = dkeys (m_container m).
Proof.
  unfold m_return_unique_containers. intros Hn.
  enough (H : forall l acc, NoDup (acc ++ l) -> foldl (fun acc c => if bool_decide (c ∈ acc) then acc else acc ++ [c]) acc l = acc ++ l)
    by by apply (H (dkeys (m_container m)) []).
  induction l as [|c l IH]; intros acc Hd; [by rewrite app_nil_r|]. cbn [foldl].
  rewrite bool_decide_false.
  - rewrite IH; by rewrite <- app_assoc.
  - intros Hc. apply NoDup_app in Hd as (_ & Hd & _). apply (Hd c Hc). left.
Qed.
(** Without a container of the same name followed by '_0', every container is listed with its lines. *)
Lemma attribution_lookup m c t l :
  dkeys (m_timestamp m) = dkeys (m_container m) -> NoDup (dkeys (m_container m)) ->
  dget (m_timestamp m) c = Some t -> dget (m_container m) c = Some l -> c +:+ "_0" ∉ dkeys (m_container m) ->
  exists d, m_return_attribution m = Ok d /\ dget d c = Some (t, l).
Proof.
  intros Hk Hn Ht Hl H0. unfold m_return_attribution. rewrite (unique_containers _ Hn).
  assert (Hc : c ∈ dkeys (m_container m)) by (apply dget_is_Some; by rewrite Hl).
  set (P := fun (d : dict string (string * list string)) (s : list string) => c ∈ s -> dget d c = Some (t, l)).
  enough (H : forall ks pre d, (forall k, k ∈ ks -> k ∈ dkeys (m_container m)) -> P d pre ->
    exists d', foldl (attribution_step m) (Ok d) ks = Ok d' /\ P d' (pre ++ ks)).
  { destruct (H (dkeys (m_container m)) [] []) as (d' & E & HP); [done|intros Hi; by apply not_elem_of_nil in Hi|]. exists d'. split; [done|]. by apply HP. }
  induction ks as [|k ks IH]; intros pre d Hks HP; cbn [foldl].
  { exists d. by rewrite app_nil_r. }
  assert (Hd : exists d', attribution_step m (Ok d) k = Ok d' /\ P d' (pre ++ [k])).
  { assert (Hki : k ∈ dkeys (m_container m)) by (apply Hks; left).
    assert (Hcase : forall v, (k = c -> v = (t, l)) -> P (dset d k v) (pre ++ [k])).
    { intros v Hv Hi. rewrite dget_dset. destruct (decide (c = k)) as [->|Hne]; [by rewrite Hv|].
      apply HP. apply elem_of_app in Hi as [?|?%elem_of_list_singleton]; [done|congruence]. }
    unfold attribution_step. cbn [rbind]. cbv zeta.
    pose proof Hki as [lk Elk]%dget_is_Some. rewrite <- Hk in Hki. pose proof Hki as [tk Etk]%dget_is_Some.
    destruct (dget (m_timestamp m) (k +:+ "_0")) as [t0|] eqn:E1.
    - destruct (dget (m_container m) (k +:+ "_0")) as [l0|] eqn:E2.
      + eexists. split; [done|]. apply Hcase. intros ->. exfalso. apply H0. apply dget_is_Some. by rewrite E2.
      + rewrite Etk, Elk. eexists. split; [done|]. apply Hcase. intros ->. congruence.
    - rewrite Etk, Elk. eexists. split; [done|]. apply Hcase. intros ->. congruence. }
  destruct Hd as (d' & -> & HP'). destruct (IH (pre ++ [k]) d') as (d2 & E & HP2); [intros j Hj; apply Hks; by right|done|].
  exists d2. split; [done|]. by rewrite <- app_assoc in HP2.
Qed.
