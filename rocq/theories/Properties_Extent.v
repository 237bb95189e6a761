(** How near the extents of a grid are to its soundings: C140. *)
From Verif Require Import Py Nd Numpy Point Bin Algorithms Tile Time Meta Disk Grid GridRun GridQuery GridOps
  Spec TileExec GridExec ExtentSpec Samples GridSamples PyFacts GridInvFacts GridRootFacts GridSrFacts GridPropFacts GridHistFacts ExtentFacts Properties_Grid.
Open Scope Z_scope.

(** ** C140: false; every call of add_points moves the upper sides, if they do not move for the soundings *)
Lemma around_intro {T} size (g : grid T) seen n y :
  0 < size -> extents_ok size (g_meta g) seen -> m_ext (g_meta g) = Some y -> near (new_sr_meta 0 0 size false false) n seen y -> around size n seen y.
Proof.
  intros Hs (a & b & c & d & E & A1 & A2 & A3 & A4 & HF & _) Hy (_ & _ & N). rewrite E in Hy. injection Hy as <-. rewrite Forall_forall in HF.
  split; [done|]. split; [done|]. split; [done|]. split; [done|]. split; [exact HF|exact N].
Qed.
(** After [n] calls of add_points the lower sides are those of the tiles of the least coordinates, and the upper sides have less than [n]
    tiles to spare. *)
Theorem C140_sr_partial size b zarr disk g ds :
  0 < size -> added sr_ops (create_sr size b zarr disk) g ds -> ds <> [] ->
  exists x, m_ext (g_meta g) = Some x /\ around size (length ds) (concat ds) x.
Proof.
  intros Hs H Hne. destruct (added_history sr_ops env_s _ _ _ H) as (ct & Hh & Hct). specialize (Hct Hne).
  destruct (C12_sr_extents env_s size b zarr disk g ct _ _ Hs Hh Hct) as [HE _]. pose proof HE as (X0 & Y0 & X1 & Y1 & Hx & _). eexists. split; [exact Hx|].
  apply (around_intro size g); [done|done|done|]. pose proof (sr_inv env_s size b zarr disk Hs _ _ _ _ Hh) as HI.
  assert (Ht : exists a, g_tiles g = Some a). { destruct HI as [_ [(_ & -> & _)|(_ & ? & ? & ? & ? & a & [] & _)]]; [done|by exists a]. }
  destruct Ht as [a Ha]. eapply (added_near sr_ops (new_sr_meta 0 0 size b zarr) _ (create_sr size b zarr disk) (sr_laws (new_sr_meta 0 0 size b zarr)) Hs eq_refl eq_refl eq_refl); [reflexivity| |exact H|exact Ha|exact Hx].
  intros g1 ds1 H1. destruct (added_history sr_ops env_s _ _ _ H1) as (ct1 & Hh1 & _). eexists _, _, _. exact (sr_inv env_s size b zarr disk Hs _ _ _ _ Hh1).
Qed.
Theorem C140_vr_partial size sub b zarr disk g ds :
  0 < size -> 0 < sub -> added vr_ops (create_vr size sub b zarr disk) g ds -> ds <> [] ->
  exists x, m_ext (g_meta g) = Some x /\ around size (length ds) (concat ds) x.
Proof.
  intros Hs Hsub H Hne. destruct (added_history vr_ops env_s _ _ _ H) as (ct & Hh & Hct). specialize (Hct Hne).
  destruct (C12_vr_extents env_s size sub b zarr disk g ct _ _ Hs Hsub Hh Hct) as [HE _]. pose proof HE as (X0 & Y0 & X1 & Y1 & Hx & _). eexists. split; [exact Hx|].
  apply (around_intro size g); [done|done|done|]. pose proof (vr_inv env_s size sub b zarr disk Hs Hsub _ _ _ _ Hh) as HI.
  assert (Ht : exists a, g_tiles g = Some a). { destruct HI as [_ [(_ & -> & _)|(_ & ? & ? & ? & ? & a & [] & _)]]; [done|by exists a]. }
  destruct Ht as [a Ha]. eapply (added_near vr_ops (new_vr_meta 0 0 size sub b zarr) _ (create_vr size sub b zarr disk) (vr_laws size sub b zarr Hs Hsub) Hs eq_refl eq_refl eq_refl); [reflexivity| |exact H|exact Ha|exact Hx].
  intros g1 ds1 H1. destruct (added_history vr_ops env_s _ _ _ H1) as (ct1 & Hh1 & _). eexists _, _, _. exact (vr_inv env_s size sub b zarr disk Hs Hsub _ _ _ _ Hh1).
Qed.
(** So the lower sides do not depend on how the soundings come in, and after one call nor do the upper sides. *)
Theorem C140_order_partial size n1 n2 d1 d2 x y :
  0 < size -> d1 ≡ₚ d2 -> around size n1 d1 x -> around size n2 d2 y ->
  x0 x = x0 y /\ y0 x = y0 y /\ x1 x - x1 y < Z.of_nat n1 * size /\ y1 x - y1 y < Z.of_nat n1 * size.
Proof.
  intros Hs Hp ([a Ea] & [b Eb] & _ & _ & I1 & (p1 & P1 & L1) & (p2 & P2 & L2) & (p3 & P3 & L3) & (p4 & P4 & L4))
    ([a' Ea'] & [b' Eb'] & _ & _ & I2 & (q1 & Q1 & M1) & (q2 & Q2 & M2) & _).
  rewrite Hp in P1, P2, P3, P4. rewrite <- Hp in Q1, Q2. apply I1 in Q1, Q2. apply I2 in P1, P2, P3, P4.
  split; [rewrite Ea, Ea' in *; assert (a = a') by nia; congruence|]. split; [rewrite Eb, Eb' in *; assert (b = b') by nia; congruence|]. lia.
Qed.
(** The same two lists of soundings in the two orders, with different extents. *)
Definition left_pts : list point := [Point 1 1 5 1 1].
Definition right_pts : list point := [Point 17 1 5 1 1].
Definition ext_new := create_sr 8 false false false.
Definition ext_lr := sr_add (sr_add ext_new left_pts "left") right_pts "right".
Definition ext_rl := sr_add (sr_add ext_new right_pts "right") left_pts "left".
Lemma ext_lr_added : added sr_ops ext_new ext_lr [left_pts; right_pts].
Proof. apply (Added_more _ _ _ [left_pts]); [apply (Added_more _ _ _ []); [apply Added_none|vm_compute; reflexivity]|vm_compute; reflexivity]. Qed.
Lemma ext_rl_added : added sr_ops ext_new ext_rl [right_pts; left_pts].
Proof. apply (Added_more _ _ _ [right_pts]); [apply (Added_more _ _ _ []); [apply Added_none|vm_compute; reflexivity]|vm_compute; reflexivity]. Qed.
Theorem C140_refuted : exists g1 g2 d1 d2, added sr_ops (create_sr 8 false false false) g1 [d1; d2] /\ added sr_ops (create_sr 8 false false false) g2 [d2; d1] /\
  m_ext (g_meta g1) = Some (Ext 0 0 24 16) /\ m_ext (g_meta g2) = Some (Ext 0 0 32 16).
Proof.
  exists ext_lr, ext_rl, left_pts, right_pts. split; [apply ext_lr_added|]. split; [apply ext_rl_added|]. split; vm_compute; reflexivity.
Qed.
Print Assumptions C140_sr_partial.
Print Assumptions C140_vr_partial.
Print Assumptions C140_order_partial.
Print Assumptions C140_refuted.

(** One call with both: no tile to spare. *)
Example C140_case : added sr_ops ext_new (sr_add ext_new (left_pts ++ right_pts) "both") [left_pts ++ right_pts] /\
  m_ext (g_meta (sr_add ext_new (left_pts ++ right_pts) "both")) = Some (Ext 0 0 24 8) /\ around 8 1 (left_pts ++ right_pts) (Ext 0 0 24 8).
Proof.
  split; [apply (Added_more _ _ _ []); [apply Added_none|vm_compute; reflexivity]|]. split; [vm_compute; reflexivity|].
  destruct (C140_sr_partial 8 false false false (sr_add ext_new (left_pts ++ right_pts) "both") [left_pts ++ right_pts]) as (x & Hx & HA);
    [lia|apply (Added_more _ _ _ []); [apply Added_none|vm_compute; reflexivity]|done|].
  vm_compute in Hx. injection Hx as <-. cbn [concat length] in HA. by rewrite app_nil_r in HA.
Qed.
