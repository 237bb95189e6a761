(** Facts about the layers of single containers next to the depths of all soundings (C136). *)
From Coq Require Import Lqa.
From Verif Require Import Py Nd Numpy Point Bin Algorithms Tile Time Meta Disk Grid GridRun GridQuery GridOps Export
  Spec TileExec GridExec WholeSpec SameSpec CompareSpec MergeSpec EnvelopeSpec NdFacts GridSameFacts CompareFacts MergeFacts Properties_Whole Properties_Same.
Open Scope Z_scope.

Lemma none_cells ls vs : Forall2 mean_cell ls vs \/ Forall2 least_cell ls vs -> concat ls = [] -> Forall (fun v => v = None) vs.
Proof.
  intros [H|H]; induction H as [|l v ls vs Hv _ IH]; [constructor| |constructor|]; cbn [concat]; intros [-> E]%app_nil; constructor; auto;
    destruct Hv as [[_ ->]|(m & q & Hm & _)]; [done| |done|]; [by destruct Hm|by apply is_min_nil in Hm].
Qed.
Lemma least_all ls vs w : Forall2 least_cell ls vs -> least_cell (concat ls) w -> least_of vs w.
Proof.
  intros H [[E ->]|(m & q & [(z & Hz & Ez) Hle] & Hq & ->)]; [cbn; eapply none_cells; eauto|]. cbn. split.
  - apply elem_of_list_In, in_concat in Hz as (l & Hl & Hz). apply elem_of_list_In in Hl, Hz. apply elem_of_list_lookup in Hl as [i Hi].
    destruct (Forall2_lookup_l _ _ _ _ _ H Hi) as (v & Hv & Hc). destruct Hc as [[-> _]|(m' & q' & Hm & Hq' & ->)]; [by apply elem_of_nil in Hz|].
    exists q'. split; [by eapply elem_of_list_lookup_2|]. apply Qle_antisym.
    + eapply round3_mono; [|exact Hq'|exact Hq]. rewrite <- Ez. by apply Hm.
    + eapply round3_mono; [|exact Hq|exact Hq']. destruct Hm as [(z' & Hz' & E') _]. rewrite <- E'. apply Hle. apply elem_of_list_In, in_concat. exists l.
      split; apply elem_of_list_In; [by eapply elem_of_list_lookup_2|done].
  - intros a Ha. apply elem_of_list_lookup in Ha as [i Hi]. destruct (Forall2_lookup_r _ _ _ _ _ H Hi) as (l & Hl & Hc).
    destruct Hc as [[_ E]|(m' & q' & Hm & Hq' & E)]; [done|]. injection E as ->. eapply round3_mono; [|exact Hq|exact Hq'].
    destruct Hm as [(z' & Hz' & E') _]. rewrite <- E'. apply Hle. apply elem_of_list_In, in_concat. exists l. split; apply elem_of_list_In; [by eapply elem_of_list_lookup_2|done].
Qed.
Lemma some_low ls K : concat ls <> [] -> (sumQ (concat ls) <= K * numQ (length (concat ls)))%Q -> exists l, l ∈ ls /\ l <> [] /\ (sumQ l <= K * numQ (length l))%Q.
Proof.
  induction ls as [|l ls IH]; cbn [concat]; [done|]. intros Hne Hs. rewrite sum_app, app_length, num_add in Hs. destruct (decide (l = [])) as [->|Hl].
  - destruct IH as (l' & A & B); [done| |exists l'; split; [by right|done]]. change (sumQ []) with 0%Q in Hs. change (numQ (length (@nil Q))) with 0%Q in Hs. lra.
  - destruct (Qlt_le_dec (K * numQ (length l)) (sumQ l)) as [D|D]; [|exists l; split; [left|done]].
    destruct IH as (l' & A & B); [intros E; rewrite E in Hs; change (sumQ []) with 0%Q in Hs; change (numQ (length (@nil Q))) with 0%Q in Hs; lra|lra|exists l'; split; [by right|done]].
Qed.
Lemma some_high ls K : concat ls <> [] -> (K * numQ (length (concat ls)) <= sumQ (concat ls))%Q -> exists l, l ∈ ls /\ l <> [] /\ (K * numQ (length l) <= sumQ l)%Q.
Proof.
  induction ls as [|l ls IH]; cbn [concat]; [done|]. intros Hne Hs. rewrite sum_app, app_length, num_add in Hs. destruct (decide (l = [])) as [->|Hl].
  - destruct IH as (l' & A & B); [done| |exists l'; split; [by right|done]]. change (sumQ []) with 0%Q in Hs. change (numQ (length (@nil Q))) with 0%Q in Hs. lra.
  - destruct (Qlt_le_dec (sumQ l) (K * numQ (length l))) as [D|D]; [|exists l; split; [left|done]].
    destruct IH as (l' & A & B); [intros E; rewrite E in Hs; change (sumQ []) with 0%Q in Hs; change (numQ (length (@nil Q))) with 0%Q in Hs; lra|lra|exists l'; split; [by right|done]].
Qed.
Lemma mean_all ls vs w : Forall2 mean_cell ls vs -> mean_cell (concat ls) w -> between_of vs w.
Proof.
  intros H [[E ->]|(m & q & [Hne Hm] & Hq & ->)]; [cbn; eapply none_cells; eauto|]. cbn.
  assert (P : forall l : list Q, l <> [] -> (0 < numQ (length l))%Q) by (intros l Hl; apply numQ_pos; destruct l; [done|cbn; lia]). split.
  - destruct (some_low ls m) as (l & Hl & Hn & Hs); [done|lra|]. apply elem_of_list_lookup in Hl as [i Hi]. destruct (Forall2_lookup_l _ _ _ _ _ H Hi) as (v & Hv & Hc).
    destruct Hc as [[-> _]|(m' & q' & [_ Hm'] & Hq' & ->)]; [done|]. exists q'. split; [by eapply elem_of_list_lookup_2|]. eapply round3_mono; [|exact Hq'|exact Hq].
    specialize (P l Hn). rewrite <- Hm' in Hs. by apply Qmult_lt_0_le_reg_r in Hs.
  - destruct (some_high ls m) as (l & Hl & Hn & Hs); [done|lra|]. apply elem_of_list_lookup in Hl as [i Hi]. destruct (Forall2_lookup_l _ _ _ _ _ H Hi) as (v & Hv & Hc).
    destruct Hc as [[-> _]|(m' & q' & [_ Hm'] & Hq' & ->)]; [done|]. exists q'. split; [by eapply elem_of_list_lookup_2|]. eapply round3_mono; [|exact Hq|exact Hq'].
    specialize (P l Hn). rewrite <- Hm' in Hs. by apply Qmult_lt_0_le_reg_r in Hs.
Qed.

Section gridded.
  Context (e : env) (alg : string) (r : Z) (ct : content) (T : Type) (O : tile_ops T) (g : grid T) (Halg : alg = "mean" \/ alg = "shoalest") (Hr : 0 < r) (Hne : ct <> []) (HG : gridded e alg r ct T O g) (HP : plain_names ct).
  Lemma container_answers c d : (c, d) ∈ ct -> exists g3, answers_to O e g c r (m_positive_up (g_meta g)) d (depth_by alg) g3.
  Proof using Halg Hr Hne HG HP.
    intros Hc. unfold plain_names in HP. rewrite Forall_forall in HP. specialize (HP _ Hc).
    destruct HG as [size zarr disk g0 a dask g' Hs Hm HC Ha Hu Hx Hq|size sub zarr disk g0 a dask g' Hs Hsub Hm1 Hm2 HC Ha Hu Hx Hq].
    - destruct (C45_sr e alg r size false zarr disk g0 ct a dask g' c (m_positive_up (g_meta g'))) as (g3 & _ & A & _); auto. by exists g3; apply A.
    - destruct (C45_vr e alg r size sub false zarr disk g0 ct a dask g' c (m_positive_up (g_meta g'))) as (g3 & _ & A & _); auto. by exists g3; apply A.
  Qed.
  Lemma container_cell c d x y v : (c, d) ∈ ct -> container_at O e g c r x y v -> depth_by alg (points_at r x y d) v.
  Proof using Halg Hr Hne HG HP.
    intros Hc (X & a & R & C & g' & Hx & Hq & -> & -> & Hv). destruct (container_answers c d Hc) as (g3 & X2 & a2 & Hx2 & Hq2 & _ & _ & _ & HW).
    rewrite Hx in Hx2. injection Hx2 as <-. rewrite Hq in Hq2. injection Hq2 as _ <-.
    pose proof (nd_get_Some_lt _ _ _ _ Hv) as [L1 L2]. destruct (HW R C L1 L2) as (u & Hu & HD). rewrite Hv in Hu. injection Hu as <-. by rewrite points_in_cell_at in HD.
  Qed.
  Lemma container_there x y w : cell_at O e g "depth" r x y w -> exists vs, Forall2 (fun cd v => container_at O e g cd.1 r x y v) ct vs.
  Proof using Halg Hr Hne HG HP.
    intros (X & a & R & C & Hx & Hq & -> & -> & Hv). pose proof (nd_get_Some_lt _ _ _ _ Hv) as [L1 L2].
    destruct (gridded_settled e alg r ct T O g Halg Hr Hne HG) as [_ _ HA]. destruct (HA "depth" (or_introl eq_refl)) as (X2 & a2 & Hx2 & Hq2 & _ & HY & HX & _).
    rewrite Hx in Hx2. injection Hx2 as <-. rewrite Hq in Hq2. injection Hq2 as <-.
    assert (H : Forall (fun cd => exists v, container_at O e g cd.1 r (x0 X + Z.of_nat C * r) (y0 X + Z.of_nat R * r) v) ct).
    { apply Forall_forall. intros [c d] Hc. destruct (container_answers c d Hc) as (g3 & X2 & a2 & Hx2 & Hq2 & _ & HY2 & HX2 & HW). rewrite Hx in Hx2. injection Hx2 as <-.
      assert (nrows a2 = nrows a) by nia. assert (ncols a2 = ncols a) by nia. destruct (HW R C) as (v & Hv2 & _); [lia|lia|]. exists v, X, a2, R, C, g3. done. }
    clear - H. induction H as [|cd l [v Hv] _ [vs IH]]; [by exists []|]. exists (v :: vs). by constructor.
  Qed.
  Lemma container_points x y vs : Forall2 (fun cd v => container_at O e g cd.1 r x y v) ct vs ->
    Forall2 (fun l v => (if bool_decide (alg = "mean") then mean_cell l v else least_cell l v)) (map (fun cd => map pz (points_at r x y cd.2)) ct) vs.
  Proof using Halg Hr Hne HG HP.
    intros H. assert (K : Forall2 (fun (cd : string * list point) v => depth_by alg (points_at r x y cd.2) v) ct vs).
    { apply Forall2_same_length_lookup. split; [by eapply Forall2_length|]. intros i [c d] v Hi Hj.
      apply (container_cell c d); [by eapply elem_of_list_lookup_2|]. exact (Forall2_lookup_lr _ _ _ _ _ _ H Hi Hj). }
    clear - K. induction K as [|cd v l vs Hv _ IH]; [constructor|]. cbn [map]. constructor; [|done]. unfold depth_by in Hv. by case_bool_decide.
  Qed.
  Lemma points_all x y : map pz (points_at r x y (all_points ct)) = concat (map (fun cd : string * list point => map pz (points_at r x y cd.2)) ct).
  Proof using. clear. unfold all_points. induction ct as [|[c d] l IH]; [done|]. change (((c, d) :: l).*2) with (d :: l.*2). change (concat (d :: l.*2)) with (d ++ concat l.*2). rewrite points_at_app, map_app, IH. reflexivity. Qed.
End gridded.
