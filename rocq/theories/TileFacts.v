(** Tile point storage: containers, removal, the index cache. *)
From Verif Require Import Py Nd Numpy Point Bin Algorithms Tile Spec PyFacts NdFacts NumpyFacts AlgFacts BinFacts.
Open Scope Z_scope.
Ltac Zify.zify_post_hook ::= Z.div_mod_to_equations.

Implicit Types ct : content.

Definition pts (t : tile) : list point := default [] (t_data t).

Record tile_rep (t : tile) (ct : content) : Prop := {
  tr_nodup : NoDup ct.*1;
  tr_data : pts t = all_points ct;
  tr_none : t_data t = None -> ct = [];
  tr_cont : t_container t = ranges 0 ct }.

Lemma ranges_keys off ct : dkeys (ranges off ct) = ct.*1.
Proof. revert off. induction ct as [|[c d] ct IH]; intros off; [done|]. unfold dkeys in *. csimpl. by rewrite IH. Qed.
Lemma ranges_app off a b : ranges off (a ++ b) = ranges off a ++ ranges (off + length (all_points a)) b.
Proof.
  revert off. induction a as [|[c d] a IH]; intros off.
  - simpl. by rewrite Nat.add_0_r.
  - cbn [app ranges]. rewrite IH. unfold all_points. csimpl. rewrite app_length. do 3 f_equal. lia.
Qed.
Lemma ranges_bounds off ct c se :
  (c, se) ∈ ranges off ct -> (off <= se.1 /\ se.1 <= se.2 /\ se.2 <= off + length (all_points ct))%nat.
Proof.
  revert off. induction ct as [|[c' d] ct IH]; intros off; simpl; [by intros ?%elem_of_nil|].
  unfold all_points in *. csimpl. rewrite app_length. intros [Heq|H]%elem_of_cons.
  - injection Heq as <- ->. simpl. lia.
  - apply IH in H. lia.
Qed.
Lemma ranges_shift off k ct :
  (k <= off)%nat ->
  dmapv (fun se : nat * nat => (se.1 - k, se.2 - k)%nat) (ranges off ct) = ranges (off - k) ct.
Proof.
  revert off. induction ct as [|[c d] ct IH]; intros off Hk; [done|].
  unfold dmapv in *. csimpl. simpl. rewrite IH by lia. do 2 f_equal; [|f_equal; lia]. f_equal. lia.
Qed.

Lemma drop_c_notin ct c : c ∉ ct.*1 -> drop_c ct c = ct.
Proof.
  unfold drop_c. induction ct as [|[c' d] ct IH]; [done|]. csimpl. rewrite not_elem_of_cons.
  intros [Hne Hnin]. rewrite filter_cons. simpl. rewrite decide_True by congruence. by rewrite IH.
Qed.
Lemma drop_c_split a b c d : c ∉ a.*1 -> c ∉ b.*1 -> drop_c (a ++ (c, d) :: b) c = a ++ b.
Proof.
  intros Ha Hb. unfold drop_c. rewrite filter_app, filter_cons. simpl. rewrite decide_False by naive_solver.
  f_equal; by apply drop_c_notin.
Qed.
Lemma drop_c_keys ct c : (drop_c ct c).*1 = filter (fun x => x <> c) ct.*1.
Proof. apply (dkeys_ddel ct c). Qed.
Lemma drop_c_elem ct c : c ∉ (drop_c ct c).*1.
Proof. rewrite drop_c_keys. intros H. apply elem_of_list_filter in H. naive_solver. Qed.
Lemma drop_c_nodup ct c : NoDup ct.*1 -> NoDup (drop_c ct c).*1.
Proof. rewrite drop_c_keys. apply NoDup_filter. Qed.
Lemma content_split ct c : c ∈ ct.*1 -> NoDup ct.*1 ->
  exists a d b, ct = a ++ (c, d) :: b /\ c ∉ a.*1 /\ c ∉ b.*1.
Proof.
  intros Hin Hnd. apply elem_of_list_fmap in Hin as ([c' d] & -> & Hin).
  apply elem_of_list_split in Hin as (a & b & ->). exists a, d, b. split; [done|].
  rewrite fmap_app in Hnd. csimpl in Hnd. apply NoDup_app in Hnd as (_ & H1 & H2).
  apply NoDup_cons in H2 as [H2 _]. split; [|done]. intros Ha. apply (H1 _ Ha). left.
Qed.

(** Removing positions [s, e) from a list split accordingly. *)
Lemma map_const_in {A B} (f : A -> B) (v : B) l :
  (forall x, x ∈ l -> f x = v) -> map f l = replicate (length l) v.
Proof.
  induction l as [|x l IH]; intros H; simpl; [done|]. rewrite H by left. f_equal. apply IH.
  intros; apply H; by right.
Qed.
Lemma range_mask_app (n1 n2 n3 : nat) :
  range_mask (n1 + n2 + n3) n1 (n1 + n2) = replicate n1 true ++ replicate n2 false ++ replicate n3 true.
Proof.
  unfold range_mask. rewrite <- Nat.add_assoc. rewrite seq_app, seq_app, !map_app. f_equal; [|f_equal].
  - rewrite (map_const_in _ true); [by rewrite seq_length|]. intros i Hi%elem_of_seq.
    by rewrite (proj2 (Nat.leb_gt _ _)) by lia.
  - rewrite (map_const_in _ false); [by rewrite seq_length|]. intros i Hi%elem_of_seq.
    rewrite (proj2 (Nat.leb_le _ _)) by lia. by rewrite (proj2 (Nat.ltb_lt _ _)) by lia.
  - rewrite (map_const_in _ true); [by rewrite seq_length|]. intros i Hi%elem_of_seq.
    rewrite (proj2 (Nat.ltb_ge _ _)) by lia. by rewrite andb_false_r.
Qed.
Lemma mask_select_range {A} (a b c : list A) :
  mask_select (range_mask (length a + length b + length c) (length a) (length a + length b)) (a ++ b ++ c)
  = a ++ c.
Proof.
  rewrite range_mask_app.
  rewrite mask_select_app by apply replicate_length. rewrite mask_select_true by done.
  rewrite mask_select_app by apply replicate_length. rewrite mask_select_false.
  by rewrite mask_select_true by done.
Qed.

Definition clear_temp_cells (cells : dict Z (dict string arr)) (rs : list Z) : dict Z (dict string arr) :=
  foldl (fun cs r => dmapkv (fun r' l => if decide (r' = r) then clear_temp_layers l else l) cs) cells rs.
Lemma clear_temp_all_eq t rs : clear_temp_all t rs = t <| t_cells := clear_temp_cells (t_cells t) rs |>.
Proof.
  unfold clear_temp_all, clear_temp_cells. revert t. induction rs as [|r rs IH]; intros t; simpl.
  - by destruct t.
  - rewrite IH. unfold clear_temp_data. by destruct t.
Qed.
Lemma dget_clear_temp_cells cells rs r :
  dget (clear_temp_cells cells rs) r =
  (fun l => foldl (fun l r' => if decide (r = r') then clear_temp_layers l else l) l rs) <$> dget cells r.
Proof.
  unfold clear_temp_cells. revert cells. induction rs as [|r' rs IH]; intros cells; simpl.
  - by destruct (dget cells r).
  - rewrite IH, dget_dmapkv. by destruct (dget cells r).
Qed.
Lemma dkeys_clear_temp_cells cells rs : dkeys (clear_temp_cells cells rs) = dkeys cells.
Proof.
  unfold clear_temp_cells. revert cells. induction rs as [|r' rs IH]; intros cells; simpl; [done|].
  rewrite IH. apply dkeys_dmapkv.
Qed.

(** Fields other than the points and layers. *)
Definition same_frame (t t' : tile) : Prop :=
  t_min_x t' = t_min_x t /\ t_min_y t' = t_min_y t /\ t_size t' = t_size t /\
  t_backscatter t' = t_backscatter t.
Global Instance same_frame_refl : Reflexive same_frame.
Proof. intros t. done. Qed.
Global Instance same_frame_trans : Transitive same_frame.
Proof. intros a b c (H1 & H2 & H3 & H4) (H5 & H6 & H7 & H8). repeat split; congruence. Qed.

Lemma t_remove_absent t c ct : tile_rep t ct -> c ∉ ct.*1 -> t_remove_points t c = t.
Proof.
  intros HR Hc. unfold t_remove_points. rewrite (tr_cont _ _ HR).
  rewrite (proj2 (dget_None _ _)); [done|]. by rewrite ranges_keys.
Qed.

Lemma t_remove_frame t c : same_frame t (t_remove_points t c).
Proof.
  unfold t_remove_points. destruct (dget (t_container t) c) as [[s e]|]; [|done].
  destruct (t_data t); [|done]. rewrite clear_temp_all_eq. done.
Qed.
Lemma t_add_frame t d c : same_frame t (t_add_points t d c).
Proof.
  unfold t_add_points. destruct (t_data t); [|done]. rewrite clear_temp_all_eq.
  destruct (dmem (t_container t) c); [|done]. apply (t_remove_frame t c).
Qed.

(** Removing a container that is present. *)
Lemma t_remove_present t c ct a d b :
  tile_rep t ct -> ct = a ++ (c, d) :: b -> c ∉ a.*1 -> c ∉ b.*1 ->
  let t' := t_remove_points t c in
  let n1 := length (all_points a) in
  let msk := range_mask (length (pts t)) n1 (n1 + length d) in
  t_data t' = Some (all_points a ++ all_points b) /\
  t_container t' = ranges 0 (a ++ b) /\
  t_indices t' = dmapv (mask_select msk) (t_indices t) /\
  t_cells t' = clear_temp_cells (t_cells t) (dkeys (t_indices t)) /\
  t_changed t' = true /\ t_edges_x t' = t_edges_x t /\ t_edges_y t' = t_edges_y t /\
  t_algorithm t' = t_algorithm t /\ t_params t' = t_params t.
Proof.
  intros HR Hct Ha Hb t' n1 msk.
  assert (Hget : dget (t_container t) c = Some (n1, n1 + length d)%nat).
  { rewrite (tr_cont _ _ HR), Hct, ranges_app, dget_app.
    rewrite (proj2 (dget_None _ _)) by (by rewrite ranges_keys). simpl. by rewrite decide_True. }
  destruct (t_data t) as [dt|] eqn:Hd.
  2: { pose proof (tr_none _ _ HR Hd) as Hn. rewrite Hct in Hn. by destruct a. }
  assert (Hdt : dt = all_points a ++ d ++ all_points b).
  { pose proof (tr_data _ _ HR) as H. unfold pts in H. rewrite Hd in H. simpl in H.
    rewrite H, Hct. unfold all_points. rewrite fmap_app, concat_app. done. }
  assert (Hlen : length dt = (n1 + length d + length (all_points b))%nat)
    by (rewrite Hdt, !app_length; unfold n1; lia).
  assert (Hpts : pts t = dt) by (unfold pts; by rewrite Hd).
  assert (Hchunk : length (slice (range_mask (length dt) n1 (n1 + length d)) n1 (n1 + length d)) = length d).
  { rewrite Hlen, range_mask_app. unfold slice. rewrite drop_app_alt by (by rewrite replicate_length).
    replace (n1 + length d - n1)%nat with (length d) by lia.
    rewrite take_app_alt by (by rewrite replicate_length). apply replicate_length. }
  set (f := fun se : nat * nat =>
        if (n1 + length d <=? se.1)%nat then (se.1 - length d, se.2 - length d)%nat else se).
  assert (Hfa : dmapv f (ranges 0 a) = ranges 0 a).
  { unfold dmapv. rewrite (map_ext_in _ id); [apply map_id|]. intros [c' se] Hin%elem_of_list_In.
    apply ranges_bounds in Hin. fold n1 in Hin. unfold f. simpl.
    destruct (Nat.leb_spec (n1 + length d) se.1); [|done].
    destruct se as [x y]. simpl in *. unfold id. do 2 f_equal; lia. }
  assert (Hfb : dmapv f (ranges (n1 + length d) b) = ranges n1 b).
  { replace n1 with (n1 + length d - length d)%nat at 2 by lia. rewrite <- ranges_shift by lia.
    unfold dmapv. apply map_ext_in. intros [c' se] Hin%elem_of_list_In.
    apply ranges_bounds in Hin. unfold f. simpl. by rewrite (proj2 (Nat.leb_le _ _)) by lia. }
  assert (Hsh : ddel (dmapv f (t_container t)) c = ranges 0 (a ++ b)).
  { rewrite (tr_cont _ _ HR), Hct, !ranges_app. fold n1. unfold dmapv. rewrite map_app.
    change (map _ (ranges 0 a)) with (dmapv f (ranges 0 a)). rewrite Hfa. cbn [ranges map].
    change (map _ (ranges (0 + n1 + length d) b)) with (dmapv f (ranges (n1 + length d) b)).
    rewrite Hfb. unfold ddel. rewrite filter_app, filter_cons. simpl. rewrite decide_False by naive_solver.
    assert (Hk : forall off ct', c ∉ ct'.*1 -> filter (fun kv : string * (nat * nat) => kv.1 <> c) (ranges off ct') = ranges off ct').
    { clear. intros off ct. revert off. induction ct as [|[c' d'] ct IH]; intros off; csimpl; [done|].
      rewrite not_elem_of_cons. intros [H1 H2]. rewrite filter_cons. simpl.
      rewrite decide_True by congruence. f_equal. by apply IH. }
    by rewrite !Hk. }
  unfold t', t_remove_points. rewrite Hget, Hd. cbv zeta.
  rewrite Hchunk. fold f. rewrite clear_temp_all_eq. cbn.
  rewrite Hsh. unfold msk. rewrite Hpts. split; [|done].
  f_equal. rewrite Hlen. rewrite Hdt at 1. apply mask_select_range.
Qed.

Lemma all_points_app a b : all_points (a ++ b) = all_points a ++ all_points b.
Proof. unfold all_points. by rewrite fmap_app, concat_app. Qed.

Lemma tile_rep_remove t ct c : tile_rep t ct -> tile_rep (t_remove_points t c) (drop_c ct c).
Proof.
  intros HR. destruct (decide (c ∈ ct.*1)) as [Hc|Hc].
  - destruct (content_split ct c Hc (tr_nodup _ _ HR)) as (a & d & b & Hct & Ha & Hb).
    destruct (t_remove_present t c ct a d b HR Hct Ha Hb) as (H1 & H2 & _).
    assert (Hdr : drop_c ct c = a ++ b) by (rewrite Hct; by apply drop_c_split).
    split.
    + apply drop_c_nodup, HR.
    + unfold pts. rewrite H1, Hdr, all_points_app. done.
    + rewrite H1. done.
    + by rewrite H2, Hdr.
  - rewrite (t_remove_absent t c ct) by done. by rewrite drop_c_notin.
Qed.

Lemma tile_rep_add t ct d c : tile_rep t ct -> tile_rep (t_add_points t d c) (put_c ct c d).
Proof.
  intros HR. unfold t_add_points, put_c. destruct (t_data t) as [dt|] eqn:Hd.
  - set (t1 := if dmem (t_container t) c then t_remove_points t c else t).
    assert (HR1 : tile_rep t1 (drop_c ct c)).
    { unfold t1. destruct (dmem (t_container t) c) eqn:Hm; [by apply tile_rep_remove|].
      apply dmem_false in Hm. rewrite (tr_cont _ _ HR), ranges_keys in Hm. by rewrite drop_c_notin. }
    rewrite clear_temp_all_eq. split.
    + rewrite fmap_app. apply NoDup_app. split; [apply HR1|]. split; [|csimpl; apply NoDup_singleton].
      csimpl. intros x Hx ->%elem_of_list_singleton. by apply drop_c_elem in Hx.
    + unfold pts. cbn. rewrite all_points_app. f_equal; [apply (tr_data _ _ HR1)|].
      unfold all_points. csimpl. by rewrite app_nil_r.
    + done.
    + cbn. rewrite (tr_cont _ _ HR1). rewrite dset_new by (rewrite ranges_keys; apply drop_c_elem).
      rewrite ranges_app. cbn [ranges]. change (default [] (t_data t1)) with (pts t1).
      rewrite (tr_data _ _ HR1). done.
  - pose proof (tr_none _ _ HR Hd) as ->. split; cbn; try done.
    + apply NoDup_singleton.
    + unfold all_points. csimpl. by rewrite app_nil_r.
Qed.

Lemma new_tile_rep x y s b : tile_rep (new_tile x y s b) [].
Proof. split; cbn; try done. constructor. Qed.

(** ** The cell index cache *)

(** Number of cells along one side of a tile at resolution [r]. *)
Definition ncell (t : tile) (r : Z) : nat := Z.to_nat (ceil_div (t_size t) r).
Definition cellno (t : tile) (r : Z) (p : point) : Z :=
  cell_number (t_min_x t) (t_min_y t) r (ncell t r) (xy_of p).
Definition in_tile (t : tile) (p : point) : Prop :=
  in_square (t_min_x t) (t_min_y t) (t_size t) (px p) (py p).

Definition cache_ok (t : tile) : Prop :=
  forall r idx, dget (t_indices t) r = Some idx ->
    Forall2 (fun p i => i = -1 \/ i = cellno t r p) (pts t) idx.

Lemma same_frame_cellno t t' r p : same_frame t t' -> cellno t' r p = cellno t r p.
Proof. intros (H1 & H2 & H3 & _). unfold cellno, ncell. by rewrite H1, H2, H3. Qed.

Lemma cache_ok_frame t t' :
  same_frame t t' -> t_data t' = t_data t -> t_indices t' = t_indices t -> cache_ok t -> cache_ok t'.
Proof.
  intros Hf Hd Hi H r idx. unfold pts. rewrite Hd, Hi. intros Hg%H. eapply Forall2_impl; [done|].
  intros p i. by rewrite (same_frame_cellno t t').
Qed.

Lemma Forall2_mask_select {A B} (R : A -> B -> Prop) m l k :
  Forall2 R l k -> Forall2 R (mask_select m l) (mask_select m k).
Proof.
  intros H. revert m. induction H as [|x y l k HR H IH]; intros [|[] m]; simpl; try constructor; auto.
Qed.

Lemma cache_ok_remove t ct c : tile_rep t ct -> cache_ok t -> cache_ok (t_remove_points t c).
Proof.
  intros HR HC. destruct (decide (c ∈ ct.*1)) as [Hc|Hc]; [|by rewrite (t_remove_absent t c ct)].
  destruct (content_split ct c Hc (tr_nodup _ _ HR)) as (a & d & b & Hct & Ha & Hb).
  destruct (t_remove_present t c ct a d b HR Hct Ha Hb) as (H1 & H2 & H3 & _).
  intros r idx. rewrite H3, dget_dmapv. intros (idx0 & Hi & Heq)%fmap_Some. simpl in Heq. subst idx.
  specialize (HC r idx0 Hi).
  assert (Hp : pts (t_remove_points t c) =
    mask_select (range_mask (length (pts t)) (length (all_points a)) (length (all_points a) + length d)) (pts t)).
  { unfold pts at 1. rewrite H1. simpl. rewrite (tr_data _ _ HR), Hct, all_points_app.
    change (all_points ((c, d) :: b)) with (d ++ all_points b). rewrite !app_length, Nat.add_assoc.
    symmetry. apply mask_select_range. }
  rewrite Hp. eapply Forall2_impl; [by apply Forall2_mask_select|]. intros p i.
  by rewrite (same_frame_cellno t) by apply t_remove_frame.
Qed.

Lemma cache_ok_add t ct d c : tile_rep t ct -> cache_ok t -> cache_ok (t_add_points t d c).
Proof.
  intros HR HC. unfold t_add_points. destruct (t_data t) as [dt|] eqn:Hd.
  - set (t1 := if dmem (t_container t) c then t_remove_points t c else t).
    assert (HC1 : cache_ok t1).
    { unfold t1. destruct (dmem (t_container t) c); [by eapply cache_ok_remove|done]. }
    rewrite clear_temp_all_eq. intros r idx. cbn. rewrite dget_dmapv.
    intros (idx0 & Hi & ->)%fmap_Some. apply HC1 in Hi. unfold pts. cbn.
    apply Forall2_app; [exact Hi|]. clear. induction d; simpl; constructor; auto.
  - intros r idx. cbn. rewrite dget_dmapv. intros (idx0 & Hi & ->)%fmap_Some.
    unfold pts. cbn. clear. induction d; simpl; constructor; auto.
Qed.

Lemma new_tile_cache x y s b : cache_ok (new_tile x y s b).
Proof. intros r idx H. done. Qed.
