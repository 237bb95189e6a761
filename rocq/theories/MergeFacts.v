(** Facts about grids of two sets of soundings (C129) and about cells with the same soundings (C130). *)
From Coq Require Import Lqa.
From Verif Require Import Py Nd Numpy Point Bin Algorithms Tile Time Meta Disk Grid GridRun GridQuery GridOps Export
  Spec TileExec GridExec WholeSpec SameSpec CompareSpec MergeSpec GridSameFacts CompareFacts.
Open Scope Z_scope.

Lemma sum_app l l' : (sumQ (l ++ l') == sumQ l + sumQ l')%Q.
Proof. unfold sumQ. induction l as [|x l IH]; cbn [app fold_right]; [lra|]. rewrite IH. lra. Qed.
Lemma num_add a b : (numQ (a + b) == numQ a + numQ b)%Q.
Proof. unfold numQ. by rewrite Nat2Z.inj_add, inject_Z_plus. Qed.
Lemma mean_both l1 l2 v1 v2 w : mean_cell l1 v1 -> mean_cell l2 v2 -> mean_cell (l1 ++ l2) w -> mean_of_both (numQ (length l1)) (numQ (length l2)) v1 v2 w.
Proof.
  intros H1 H2 H. pose proof H1 as H1'. pose proof H2 as H2'. destruct H1 as [[-> ->]|(m1 & a & M1 & R1 & ->)].
  - cbn [app] in H. pose proof (mean_cell_same _ _ _ _ (reflexivity l2) H2 H) as E. destruct v2, w; done.
  - destruct H2 as [[-> ->]|(m2 & b & M2 & R2 & ->)].
    + rewrite app_nil_r in H. pose proof (mean_cell_same _ _ _ _ (reflexivity l1) H1' H) as E. by destruct w.
    + destruct H as [[E _]|(m & c & M & R & ->)]; [destruct M1 as [M1 _]; by destruct l1|]. cbn [mean_of_both].
      destruct M1 as [N1 E1], M2 as [N2 E2], M as [_ E]. rewrite app_length, num_add, sum_app, <- E1, <- E2 in E.
      assert (P1 : (0 < numQ (length l1))%Q) by (apply numQ_pos; destruct l1; [done|cbn; lia]). assert (P2 : (0 < numQ (length l2))%Q) by (apply numQ_pos; destruct l2; [done|cbn; lia]).
      set (n1 := numQ (length l1)) in *. set (n2 := numQ (length l2)) in *. clearbody n1 n2. clear H1' H2' E1 E2 N1 N2. split.
      * destruct R1 as (_ & _ & B1 & _), R2 as (_ & _ & B2 & _), R as (_ & _ & B & _). apply Qabs_Qle_condition in B1, B2, B. apply Qabs_Qle_condition. nra.
      * destruct (Qlt_le_dec m2 m1) as [D|D].
        -- assert (L1 : (m2 <= m)%Q) by nra. assert (L2 : (m <= m1)%Q) by nra. split; [right; exact (round3_mono _ _ _ _ L1 R2 R)|left; exact (round3_mono _ _ _ _ L2 R R1)].
        -- assert (L1 : (m1 <= m)%Q) by nra. assert (L2 : (m <= m2)%Q) by nra. split; [left; exact (round3_mono _ _ _ _ L1 R1 R)|right; exact (round3_mono _ _ _ _ L2 R R2)].
Qed.
Lemma least_both l1 l2 v1 v2 w : least_cell l1 v1 -> least_cell l2 v2 -> least_cell (l1 ++ l2) w -> least_of [v1; v2] w.
Proof.
  intros H1 H2 [[[-> ->]%app_nil ->]|(m & c & M & R & ->)].
  - cbn. repeat constructor; [destruct H1 as [[_ ->]|(m & q & Hm & _)]|destruct H2 as [[_ ->]|(m & q & Hm & _)]]; try done; by apply is_min_nil in Hm.
  - cbn. assert (B : forall l v a, least_cell l v -> v = Some a -> (forall z, z ∈ l -> z ∈ l1 ++ l2) -> (c <= a)%Q).
    { intros l v a [[_ ->]|(m' & q & Hm & Hq & ->)] Ev Hs; [done|]. injection Ev as ->. eapply round3_mono; [|exact R|exact Hq]. by eapply min_more. }
    split.
    + destruct M as [(z & Hz & Ez) Hle]. apply elem_of_app in Hz as [Hz|Hz].
      * destruct H1 as [[-> _]|(m' & q & Hm & Hq & ->)]; [by apply elem_of_nil in Hz|]. exists q. split; [left|].
        apply Qle_antisym; [|apply (B l1 (Some q) q); [right; by exists m', q|done|intros; apply elem_of_app; by left]]. eapply round3_mono; [|exact Hq|exact R]. rewrite <- Ez. by apply Hm.
      * destruct H2 as [[-> _]|(m' & q & Hm & Hq & ->)]; [by apply elem_of_nil in Hz|]. exists q. split; [right; left|].
        apply Qle_antisym; [|apply (B l2 (Some q) q); [right; by exists m', q|done|intros; apply elem_of_app; by right]]. eapply round3_mono; [|exact Hq|exact R]. rewrite <- Ez. by apply Hm.
    + intros a Ha. apply elem_of_cons in Ha as [Ha|Ha]; [apply (B l1 v1 a); [done|done|intros; apply elem_of_app; by left]|].
      apply elem_of_list_singleton in Ha. apply (B l2 v2 a); [done|done|intros; apply elem_of_app; by right].
Qed.

Section three.
  Context {T1 T2 T : Type} (O1 : tile_ops T1) (O2 : tile_ops T2) (O : tile_ops T) (e : env) (r : Z) (d1 d2 d : list point) (g1 : grid T1) (g2 : grid T2) (g : grid T) (x y : Z).
  Context (Hd : d ≡ₚ d1 ++ d2).
  Local Lemma here : points_at r x y d ≡ₚ points_at r x y d1 ++ points_at r x y d2.
  Proof using Hd. rewrite (points_at_perm _ _ _ _ _ Hd). by rewrite points_at_app. Qed.
  Lemma both_shoalest v1 v2 w : settled O1 e "shoalest" r d1 g1 -> settled O2 e "shoalest" r d2 g2 -> settled O e "shoalest" r d g ->
    cell_at O1 e g1 "depth" r x y v1 -> cell_at O2 e g2 "depth" r x y v2 -> cell_at O e g "depth" r x y w -> least_of [v1; v2] w.
  Proof using Hd.
    intros S1 S2 S H1 H2 H. destruct (settled_cell _ _ _ _ _ _ _ S1 (or_introl eq_refl) _ _ _ H1) as [A1 _]. destruct (settled_cell _ _ _ _ _ _ _ S2 (or_introl eq_refl) _ _ _ H2) as [A2 _].
    destruct (settled_cell _ _ _ _ _ _ _ S (or_introl eq_refl) _ _ _ H) as [A _]. apply (says_perm _ _ _ _ _ here) in A.
    change (least_cell (map pz (points_at r x y d1)) v1) in A1. change (least_cell (map pz (points_at r x y d2)) v2) in A2. change (least_cell (map pz (points_at r x y d1 ++ points_at r x y d2)) w) in A.
    rewrite map_app in A. by eapply least_both.
  Qed.
  Lemma both_density alg1 alg2 alg v1 v2 w : settled O1 e alg1 r d1 g1 -> settled O2 e alg2 r d2 g2 -> settled O e alg r d g ->
    cell_at O1 e g1 "density" r x y v1 -> cell_at O2 e g2 "density" r x y v2 -> cell_at O e g "density" r x y w ->
    exists a b c, v1 = Some a /\ v2 = Some b /\ w = Some c /\ (c == a + b)%Q.
  Proof using Hd.
    intros S1 S2 S H1 H2 H. destruct (settled_cell _ _ _ _ _ _ _ S1 (or_intror (or_introl eq_refl)) _ _ _ H1) as [A1 _]. destruct (settled_cell _ _ _ _ _ _ _ S2 (or_intror (or_introl eq_refl)) _ _ _ H2) as [A2 _].
    destruct (settled_cell _ _ _ _ _ _ _ S (or_intror (or_introl eq_refl)) _ _ _ H) as [A _].
    change (v1 = Some (numQ (length (points_at r x y d1)))) in A1. change (v2 = Some (numQ (length (points_at r x y d2)))) in A2. change (w = Some (numQ (length (points_at r x y d)))) in A.
    subst. do 3 eexists. split; [done|]. split; [done|]. split; [done|]. by rewrite here, app_length, num_add.
  Qed.
  Lemma both_mean l v1 v2 n1 n2 w : settled O1 e "mean" r d1 g1 -> settled O2 e "mean" r d2 g2 -> settled O e "mean" r d g -> kept_layer e "mean" l -> l <> "density" ->
    cell_at O1 e g1 l r x y v1 -> cell_at O2 e g2 l r x y v2 -> cell_at O e g l r x y w ->
    cell_at O1 e g1 "density" r x y (Some n1) -> cell_at O2 e g2 "density" r x y (Some n2) -> mean_of_both n1 n2 v1 v2 w.
  Proof using Hd.
    intros S1 S2 S Hl Hnd H1 H2 H D1 D2. destruct (settled_cell _ _ _ _ _ _ _ S1 Hl _ _ _ H1) as [A1 _]. destruct (settled_cell _ _ _ _ _ _ _ S2 Hl _ _ _ H2) as [A2 _].
    destruct (settled_cell _ _ _ _ _ _ _ S Hl _ _ _ H) as [A _]. apply (says_perm _ _ _ _ _ here) in A.
    destruct (settled_cell _ _ _ _ _ _ _ S1 (or_intror (or_introl eq_refl)) _ _ _ D1) as [B1 _]. destruct (settled_cell _ _ _ _ _ _ _ S2 (or_intror (or_introl eq_refl)) _ _ _ D2) as [B2 _].
    change (Some n1 = Some (numQ (length (points_at r x y d1)))) in B1. change (Some n2 = Some (numQ (length (points_at r x y d2)))) in B2. injection B1 as ->. injection B2 as ->.
    assert (E : exists f : point -> Q, forall d' v, says "mean" l d' v <-> mean_cell (map f d') v).
    { destruct Hl as [->|[->|[(-> & _)|(-> & _)]]]; [by exists pz|done|by exists ptvu|by exists pthu]. }
    destruct E as [f E]. apply E in A1, A2, A. rewrite map_app in A. rewrite <- (map_length f (points_at r x y d1)), <- (map_length f (points_at r x y d2)). by apply mean_both.
  Qed.
End three.
Lemma local_same {T1 T2} (O1 : tile_ops T1) (O2 : tile_ops T2) e alg r d1 d2 g1 g2 l x y v w :
  settled O1 e alg r d1 g1 -> settled O2 e alg r d2 g2 -> points_at r x y d1 ≡ₚ points_at r x y d2 -> kept_layer e alg l ->
  cell_at O1 e g1 l r x y v -> cell_at O2 e g2 l r x y w -> same_cell v w.
Proof.
  intros S1 S2 Hd Hl H1 H2. destruct (settled_cell _ _ _ _ _ _ _ S1 Hl _ _ _ H1) as [A1 _]. destruct (settled_cell _ _ _ _ _ _ _ S2 Hl _ _ _ H2) as [A2 _]. by eapply says_same.
Qed.
