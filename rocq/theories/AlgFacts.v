From Coq Require Import Lqa.
From Verif Require Import Py Nd Numpy Point Algorithms Spec PyFacts NdFacts NumpyFacts.
Open Scope Z_scope.

(** ** Exact rounding *)
Lemma Qred_eq (a b : Q) : (a == b)%Q -> Qred a = Qred b.
Proof. apply Qred_complete. Qed.
Lemma Qcompare_proper (a a' b : Q) : (a == a')%Q -> (a ?= b)%Q = (a' ?= b)%Q.
Proof. intros H. by rewrite H. Qed.

Lemma rint_proper a b : (a == b)%Q -> rint a = rint b.
Proof.
  intros H. unfold rint. rewrite (Qfloor_comp a b H).
  rewrite (Qcompare_proper (a - inject_Z (Qfloor b)) (b - inject_Z (Qfloor b))); [done|].
  by rewrite H.
Qed.
Lemma round3_proper a b : (a == b)%Q -> round3 a = round3 b.
Proof. intros H. unfold round3. by rewrite (rint_proper (a * 1000) (b * 1000)) by (by rewrite H). Qed.

Lemma inject_Z_plus1 z : (inject_Z (z + 1) == inject_Z z + 1)%Q.
Proof. by rewrite inject_Z_plus. Qed.

Lemma rint_bound q :
  (Qabs (q - inject_Z (rint q)) <= 1 # 2)%Q /\
  ((Qabs (q - inject_Z (rint q)) == 1 # 2)%Q -> Z.Even (rint q)).
Proof.
  pose proof (Qfloor_le q) as Hlo. pose proof (Qlt_floor q) as Hhi.
  rewrite inject_Z_plus1 in Hhi. unfold rint. set (f := Qfloor q) in *.
  destruct (Qcompare (q - inject_Z f) (1 # 2)) eqn:E.
  - apply Qeq_alt in E. destruct (Z.even f) eqn:Ev.
    + split; [rewrite E; by apply Qle_refl|]. intros _. by apply Z.even_spec.
    + rewrite inject_Z_plus1. split.
      * assert (Heq : (q - (inject_Z f + 1) == -(1 # 2))%Q) by lra.
        rewrite Heq. by apply Qle_refl.
      * intros _. apply Z.even_spec. rewrite Z.even_add, Ev. done.
  - apply Qlt_alt in E. split.
    + apply Qabs_Qle_condition. split; lra.
    + intros H. exfalso. rewrite Qabs_pos in H by lra. lra.
  - apply Qgt_alt in E. rewrite inject_Z_plus1. split.
    + apply Qabs_Qle_condition. split; lra.
    + intros H. exfalso. rewrite Qabs_neg in H by lra. lra.
Qed.

Lemma round3_spec q : is_round3 q (round3 q).
Proof.
  unfold is_round3, round3. exists (rint (q * 1000)).
  destruct (rint_bound (q * 1000)) as [Hb He]. set (k := rint (q * 1000)) in *.
  assert (Hk : (k # 1000 == inject_Z k * (1 # 1000))%Q).
  { unfold Qeq, inject_Z, Qmult. simpl. lia. }
  assert (Ha : (Qabs (q - Qred (k # 1000)) == Qabs (q * 1000 - inject_Z k) * (1 # 1000))%Q).
  { rewrite Qred_correct, Hk.
    assert (H : (q - inject_Z k * (1 # 1000) == (q * 1000 - inject_Z k) * (1 # 1000))%Q) by ring.
    rewrite H, Qabs_Qmult. by rewrite (Qabs_pos (1 # 1000)) by (compute; discriminate). }
  split; [apply Qred_correct|]. rewrite Ha. split; [lra|]. intros H. apply He. lra.
Qed.

(** A number has one rounding. *)
Lemma is_round3_unique q r r' : is_round3 q r -> is_round3 q r' -> (r == r')%Q.
Proof.
  intros (k & Hk & Hb & He) (k' & Hk' & Hb' & He').
  assert (Heq : forall z, (z # 1000 == inject_Z z * (1 # 1000))%Q).
  { intros z. unfold Qeq, inject_Z, Qmult. simpl. lia. }
  destruct (decide (k = k')) as [->|Hne]; [by rewrite Hk, Hk'|].
  rewrite Hk, Heq in Hb, He. rewrite Hk', Heq in Hb', He'.
  apply Qabs_Qle_condition in Hb as Hb1. apply Qabs_Qle_condition in Hb' as Hb1'.
  assert (Hz : (inject_Z k - inject_Z k' <= 1)%Q) by lra.
  assert (Hz' : (inject_Z k' - inject_Z k <= 1)%Q) by lra.
  assert (Hi : forall a b : Z, (inject_Z a - inject_Z b <= 1)%Q -> a - b <= 1).
  { intros a b H. rewrite Zle_Qle. unfold Zminus. rewrite inject_Z_plus, inject_Z_opp. exact H. }
  pose proof (Hi _ _ Hz). pose proof (Hi _ _ Hz'). exfalso.
  assert (Hodd : forall a b : Z, a = b + 1 -> Z.Even a -> Z.Even b -> False).
  { intros a b -> Ha Hb2. apply Z.even_spec in Ha, Hb2. rewrite Z.even_add, Hb2 in Ha. done. }
  assert (k = k' + 1 \/ k' = k + 1) as [E|E] by lia; subst;
    rewrite inject_Z_plus1 in *.
  - apply (Hodd (k' + 1) k'); [done|apply He|apply He'].
    + rewrite Qabs_neg by lra. lra.
    + rewrite Qabs_pos by lra. lra.
  - apply (Hodd (k + 1) k); [done|apply He'|apply He].
    + rewrite Qabs_neg by lra. lra.
    + rewrite Qabs_pos by lra. lra.
Qed.
Lemma is_round3_opp q r : is_round3 q r -> is_round3 (- q) (- r).
Proof.
  intros (k & Hk & Hb & He). exists (- k).
  assert (Ha : (Qabs (- q - - r) == Qabs (q - r))%Q).
  { assert (H : (- q - - r == - (q - r))%Q) by ring. by rewrite H, Qabs_opp. }
  split; [rewrite Hk; unfold Qeq; simpl; lia|]. rewrite Ha. split; [done|].
  intros H. destruct (He H) as [z ->]. exists (- z). lia.
Qed.
Lemma round3_opp q : (round3 (- q) == - round3 q)%Q.
Proof. eapply is_round3_unique; [apply round3_spec|]. apply is_round3_opp, round3_spec. Qed.
Lemma round3_idem q : (round3 (round3 q) == round3 q)%Q.
Proof.
  destruct (round3_spec q) as (k & Hk & _). eapply is_round3_unique; [apply round3_spec|].
  exists k. split; [done|].
  assert (H : (round3 q - round3 q == 0)%Q) by ring. rewrite H. split; [compute; discriminate|].
  intros C. compute in C. discriminate.
Qed.

(** ** Sums, means, minima *)
Lemma qsum_perm l l' : l ≡ₚ l' -> (qsum l == qsum l')%Q.
Proof.
  induction 1; simpl; try done; try lra; try (by etransitivity).
Qed.
Lemma qsum_app l l' : (qsum (l ++ l') == qsum l + qsum l')%Q.
Proof. induction l; simpl; lra. Qed.
Lemma foldl_Qplus xs x : (foldl Qplus x xs == x + qsum xs)%Q.
Proof. revert x. induction xs as [|y xs IH]; intros x; simpl; [lra|]. rewrite IH. lra. Qed.
Lemma qnat_pos n : (0 < n)%nat -> (0 < qnat n)%Q.
Proof. intros. unfold qnat. change 0%Q with (inject_Z 0). rewrite <- Zlt_Qlt. lia. Qed.

(** Canonical mean of a list. *)
Definition mean_of (l : list Q) : Q := Qred (qsum l / qnat (length l)).
Lemma mean_of_perm l l' : l ≡ₚ l' -> mean_of l = mean_of l'.
Proof. intros H. unfold mean_of. apply Qred_eq. by rewrite (qsum_perm _ _ H), H. Qed.
Lemma mean_of_spec l : l <> [] -> is_mean l (mean_of l).
Proof.
  intros H. split; [done|]. unfold mean_of. rewrite Qred_correct.
  change (sumQ l) with (qsum l). change (numQ (length l)) with (qnat (length l)).
  assert (0 < qnat (length l))%Q by (apply qnat_pos; destruct l; simpl; [done|lia]).
  field. lra.
Qed.
Lemma is_mean_unique l m m' : is_mean l m -> is_mean l m' -> (m == m')%Q.
Proof.
  intros [H1 H2] [_ H3]. rewrite <- H3 in H2.
  assert (Hp : (0 < qnat (length l))%Q) by (apply qnat_pos; destruct l; simpl; [done|lia]).
  change (numQ (length l)) with (qnat (length l)) in *.
  apply Qmult_inj_r in H2; [done|]. lra.
Qed.

Lemma qmin_spec a b : (qmin a b <= a)%Q /\ (qmin a b <= b)%Q /\ (qmin a b = a \/ qmin a b = b).
Proof.
  unfold qmin. destruct (Qle_bool a b) eqn:E.
  - apply Qle_bool_iff in E. split; [apply Qle_refl|]. auto.
  - assert (~ (a <= b)%Q) by (intros H; apply Qle_bool_iff in H; congruence).
    split; [lra|]. split; [lra|auto].
Qed.
Lemma foldl_qmin xs : forall x, is_min (x :: xs) (foldl qmin x xs).
Proof.
  induction xs as [|y xs IH]; intros x; simpl.
  - split; [exists x; split; [left|reflexivity]|]. intros z Hz.
    apply elem_of_list_singleton in Hz as ->. lra.
  - destruct (IH (qmin x y)) as [(z & Hz & Hzm) Hle].
    destruct (qmin_spec x y) as (Hx & Hy & Hor). split.
    + exists z. split; [|done]. apply elem_of_cons in Hz as [->|Hz].
      * destruct Hor as [->| ->]; [left|right; left].
      * right; right; done.
    + intros w Hw. assert (Hm : (foldl qmin (qmin x y) xs <= qmin x y)%Q) by (apply Hle; left).
      apply elem_of_cons in Hw as [->|Hw]; [lra|]. apply elem_of_cons in Hw as [->|Hw]; [lra|].
      apply Hle. by right.
Qed.
Lemma is_min_perm l l' m : l ≡ₚ l' -> is_min l m -> is_min l' m.
Proof. intros H [(x & Hx & Hm) Hle]. split; [exists x; by rewrite <- H|]. intros y. rewrite <- H. apply Hle. Qed.
Lemma is_min_unique l m m' : is_min l m -> is_min l m' -> (m == m')%Q.
Proof.
  intros [(x & Hx & Hm) Hle] [(x' & Hx' & Hm') Hle'].
  apply Hle in Hx'. apply Hle' in Hx. lra.
Qed.

(** ** Grouping *)
Section group.
  Context (s : list nat) (idx : list Z) (rows cols : nat).
  Context (Hs : sorting_perm idx s).
  Context (Hr : Forall (fun k => 0 <= k < Z.of_nat (rows * cols)) idx).

  Lemma sorted_idx_perm : take_idx idx s ≡ₚ idx.
  Proof. apply take_idx_perm, Hs. Qed.

  Lemma unique_range k : k ∈ np_unique (take_idx idx s) -> 0 <= k < Z.of_nat (rows * cols).
  Proof.
    rewrite elem_of_np_unique, sorted_idx_perm. intros H. rewrite Forall_forall in Hr. by apply Hr.
  Qed.

  (** The grouping of the code: unique indices [u], positions, run starts, counts. *)
  Lemma cell_groups_eq :
    let u := np_unique idx in
    cell_groups s idx rows cols =
    Ok (Groups (map (fun k => (k / cols, k mod cols)%nat) (map Z.to_nat u))
               (map (first_index (take_idx idx s)) u) (map (count_of idx) u)).
  Proof.
    intros u. unfold cell_groups.
    assert (Hu : np_unique (take_idx idx s) = u) by (apply np_unique_perm, sorted_idx_perm).
    rewrite Hu.
    assert (Hrm : rmap (unravel_index rows cols) u =
                  Ok (map (fun k => (k / cols, k mod cols)%nat) (map Z.to_nat u))).
    { rewrite map_map. apply rmap_all_Ok. apply Forall_forall. intros k Hk. unfold unravel_index.
      assert (Hk' : 0 <= k < Z.of_nat (rows * cols)) by (apply unique_range; by rewrite Hu).
      rewrite (proj2 (Z.leb_le _ _)) by lia. by rewrite (proj2 (Z.ltb_lt _ _)) by lia. }
    rewrite Hrm. simpl. do 2 f_equal. apply map_ext. intros k. apply count_of_perm, sorted_idx_perm.
  Qed.

  Lemma scatter_groups {A} (g : nd A) (f : Z -> A) (i : nat) :
    nd_wf g -> nrows g = rows -> ncols g = cols ->
    nflat (scatter g (map (fun k => (k / cols, k mod cols)%nat) (map Z.to_nat (np_unique idx)))
             (map f (np_unique idx))) !! i =
    if decide (Z.of_nat i ∈ idx) then Some (f (Z.of_nat i)) else nflat g !! i.
  Proof.
    intros Hwf Hrows Hcols.
    assert (Hpos : forall k, k ∈ np_unique idx -> 0 <= k < Z.of_nat (rows * cols)).
    { intros k Hk. rewrite elem_of_np_unique in Hk. pose proof (proj1 (Forall_forall _ _) Hr k Hk). done. }
    destruct (decide (cols = 0%nat)) as [Hz|Hnz].
    { assert (Hnil : idx = []).
      { destruct idx as [|k r] eqn:E; [done|]. inversion Hr; subst. lia. }
      rewrite Hnil. rewrite decide_False by (apply not_elem_of_nil). done. }
    assert (Hmap : map f (np_unique idx) =
                   map (fun k => f (Z.of_nat k)) (map Z.to_nat (np_unique idx))).
    { rewrite map_map. apply map_ext_in. intros k Hk%elem_of_list_In. f_equal.
      specialize (Hpos k Hk). lia. }
    rewrite Hmap. rewrite <- Hcols. rewrite scatter_lookup.
    - destruct (decide (Z.of_nat i ∈ idx)) as [Hi|Hi].
      + rewrite decide_True; [done|]. apply elem_of_list_fmap. exists (Z.of_nat i).
        split; [lia|]. by apply elem_of_np_unique.
      + rewrite decide_False; [done|]. intros (k & -> & Hk)%elem_of_list_fmap. apply Hi.
        specialize (Hpos k Hk). rewrite elem_of_np_unique in Hk. by rewrite Z2Nat.id by lia.
    - lia.
    - assert (Hnd : forall l : list Z, NoDup l -> (forall k, k ∈ l -> 0 <= k) -> NoDup (map Z.to_nat l)).
      { clear. induction 1 as [|k l Hk Hnd IH]; intros H; simpl; constructor.
        - intros (k' & Heq & Hk')%elem_of_list_fmap. apply Hk.
          assert (0 <= k) by (apply H; left). assert (0 <= k') by (apply H; by right).
          assert (k = k') as -> by lia. done.
        - apply IH. intros; apply H; by right. }
      apply Hnd; [apply np_unique_NoDup|]. intros k Hk. by apply Hpos.
    - apply Forall_forall. intros n (k & -> & Hk)%elem_of_list_fmap. specialize (Hpos k Hk).
      unfold nd_wf in Hwf. rewrite Hwf, Hrows, Hcols. lia.
  Qed.

  Context {V : Type} (vals : list V) (Hl : length vals = length idx).

  Definition group_of (k : Z) : list V := vals_at (zip idx vals) k.
  Definition sorted_group_of (k : Z) : list V := vals_at (zip (take_idx idx s) (take_idx vals s)) k.

  Lemma sorted_group_perm k : sorted_group_of k ≡ₚ group_of k.
  Proof.
    apply vals_at_perm. rewrite <- take_idx_zip by done. apply take_idx_perm.
    rewrite zip_with_length, Hl, Nat.min_id. apply Hs.
  Qed.

  Lemma group_of_nonempty k : k ∈ idx -> group_of k <> [].
  Proof.
    intros Hk H. apply vals_at_nil in H. rewrite fst_zip in H by lia. done.
  Qed.
  Lemma group_of_empty k : k ∉ idx -> group_of k = [].
  Proof. intros Hk. apply vals_at_nil. by rewrite fst_zip by lia. Qed.
  Lemma group_of_length k : length (group_of k) = count_of idx k.
  Proof. unfold group_of. rewrite vals_at_length. by rewrite fst_zip by lia. Qed.
  Lemma sorted_group_nonempty k : k ∈ idx -> sorted_group_of k <> [].
  Proof.
    intros Hk H. apply (group_of_nonempty k Hk). apply Permutation_nil_r.
    by rewrite <- sorted_group_perm, H.
  Qed.

  Lemma split_eq :
    np_split_tail (take_idx vals s) (map (first_index (take_idx idx s)) (np_unique idx)) =
    map sorted_group_of (np_unique idx).
  Proof.
    pose proof (split_groups (np_unique idx) [] (zip (take_idx idx s) (take_idx vals s))) as H.
    simpl in H.
    assert (Hlen : length (take_idx idx s) = length (take_idx vals s)) by (by apply take_idx_length).
    rewrite fst_zip, snd_zip in H by lia. apply H.
    - apply np_unique_sorted.
    - destruct Hs as [_ HS]. revert HS Hlen. generalize (take_idx idx s) (take_idx vals s).
      induction l as [|k l IH]; intros [|v l0] HS Hlen; simpl; try constructor; try done.
      + apply IH; [by inversion HS|simpl in *; lia].
      + inversion HS as [|? ? _ HF]; subst. apply Forall_forall. intros [k' v'] Hin. simpl.
        rewrite Forall_forall in HF. apply HF. eapply elem_of_zip_l. done.
    - intros k. rewrite elem_of_np_unique. by rewrite sorted_idx_perm.
    - intros k _. apply not_elem_of_nil.
  Qed.

  Lemma reduceat_eq (f : V -> V -> V) (d : V) :
    reduceat f (take_idx vals s) (map (first_index (take_idx idx s)) (np_unique idx)) =
    map (fun k => default d (reduce1 f (sorted_group_of k))) (np_unique idx).
  Proof.
    rewrite reduceat_split.
    - rewrite split_eq.
      assert (H : forall k, k ∈ np_unique idx -> sorted_group_of k <> []).
      { intros k Hk. rewrite elem_of_np_unique in Hk. by apply sorted_group_nonempty. }
      revert H. generalize (np_unique idx). induction l as [|k l IH]; intros H; [done|].
      csimpl. destruct (sorted_group_of k) as [|x xs] eqn:E.
      { by destruct (H k ltac:(left)). }
      simpl. f_equal. apply IH. intros; apply H; by right.
    - rewrite split_eq. apply Forall_forall. intros g (k & -> & Hk)%elem_of_list_fmap.
      rewrite elem_of_np_unique in Hk. by apply sorted_group_nonempty.
  Qed.
End group.

(** ** Gridding functions *)
Lemma zip_with_map_map {A B C D} (h : B -> C -> D) (f : A -> B) (g : A -> C) l :
  zip_with h (map f l) (map g l) = map (fun x => h (f x) (g x)) l.
Proof. induction l; simpl; congruence. Qed.

Definition shape_is {A} (g : nd A) (rows cols : nat) : Prop :=
  nd_wf g /\ nrows g = rows /\ ncols g = cols.

Lemma scatter_shape_is {A} (g : nd A) rc vals rows cols :
  shape_is g rows cols -> shape_is (scatter g rc vals) rows cols.
Proof.
  intros (Hw & Hr & Hc). destruct (scatter_shape g rc vals) as (H1 & H2 & _).
  split; [by apply scatter_wf|]. by rewrite H1, H2.
Qed.

(** [b] is [g] with the cells listed in [idx] overwritten by [f]. *)
Definition written {A} (g b : nd A) (idx : list Z) (f : Z -> A) : Prop :=
  nd_wf b /\ nrows b = nrows g /\ ncols b = ncols g /\
  forall i : nat, nflat b !! i = if decide (Z.of_nat i ∈ idx) then Some (f (Z.of_nat i)) else nflat g !! i.

Lemma written_ext {A} (g b b' : nd A) idx idx' f f' :
  written g b idx f -> written g b' idx' f' -> (forall k, k ∈ idx <-> k ∈ idx') ->
  (forall k, k ∈ idx -> f k = f' k) -> b = b'.
Proof.
  intros (Hw & Hr & Hc & H) (Hw' & Hr' & Hc' & H') Hidx Hf.
  destruct b as [r c l], b' as [r' c' l']. simpl in *. subst. f_equal.
  apply list_eq. intros i. rewrite H, H'. destruct (decide (Z.of_nat i ∈ idx)) as [Hi|Hi].
  - rewrite decide_True by (by apply Hidx). by rewrite Hf.
  - rewrite decide_False; [done|]. by rewrite <- Hidx.
Qed.

Section gridding.
  Context (s : list nat) (idx : list Z) (rows cols : nat).
  Context (Hs : sorting_perm idx s).
  Context (Hr : Forall (fun k => 0 <= k < Z.of_nat (rows * cols)) idx).

  Lemma scatter_written {A} (g : nd A) (f : Z -> A) :
    shape_is g rows cols ->
    written g (scatter g (map (fun k => (k / cols, k mod cols)%nat) (map Z.to_nat (np_unique idx)))
                 (map f (np_unique idx))) idx f.
  Proof.
    intros Hsh. destruct (scatter_shape_is g
      (map (fun k => (k / cols, k mod cols)%nat) (map Z.to_nat (np_unique idx)))
      (map f (np_unique idx)) rows cols Hsh) as (H1 & H2 & H3).
    destruct Hsh as (Hw & Hr' & Hc'). split; [done|]. split; [congruence|]. split; [congruence|].
    intros i. by apply (scatter_groups s idx rows cols Hs Hr g f i).
  Qed.

  Lemma scatter_mean_written g vals (grid : arr) :
    cell_groups s idx rows cols = Ok g -> length vals = length idx -> shape_is grid rows cols ->
    written grid (scatter_mean s g vals grid) idx (fun k => Some (mean_of (group_of idx vals k))).
  Proof.
    intros Hg Hl Hsh. rewrite (cell_groups_eq s idx rows cols Hs Hr) in Hg. injection Hg as <-.
    unfold scatter_mean. cbn [gr_rc gr_idx gr_counts].
    rewrite (reduceat_eq s idx Hs vals Hl Qplus 0%Q).
    rewrite zip_with_map_map, (map_map _ Some).
        rewrite (map_ext_in _ (fun k => Some (mean_of (group_of idx vals k)))).
    - by apply scatter_written.
    - intros k Hk%elem_of_list_In. rewrite elem_of_np_unique in Hk. f_equal.
      unfold qdiv_count, mean_of. apply Qred_eq.
      rewrite (group_of_length idx vals Hl).
      pose proof (sorted_group_perm s idx Hs vals Hl k) as HP.
      pose proof (sorted_group_nonempty s idx Hs vals Hl k Hk) as Hne.
      rewrite <- (qsum_perm _ _ HP).
      destruct (sorted_group_of s idx vals k) as [|x xs]; [done|]. simpl.
      by rewrite foldl_Qplus.
  Qed.

  Lemma scatter_counts_written g (grid : arr) :
    cell_groups s idx rows cols = Ok g -> shape_is grid rows cols ->
    written grid (scatter_counts g grid) idx (fun k => Some (qnat (count_of idx k))).
  Proof.
    intros Hg Hsh. rewrite (cell_groups_eq s idx rows cols Hs Hr) in Hg. injection Hg as <-.
    unfold scatter_counts. cbn [gr_rc gr_counts]. rewrite (map_map (count_of idx)). by apply scatter_written.
  Qed.

  Lemma np_grid_mean_with_spec depth (grid density : arr) tvu thu (tvug thug : arr) :
    length depth = length idx ->
    shape_is grid rows cols -> shape_is density rows cols ->
    exists out,
      np_grid_mean_with s depth idx grid density tvu thu tvug thug = Ok out /\
      written grid (o_depth out) idx (fun k => Some (mean_of (group_of idx depth k))) /\
      written density (o_density out) idx (fun k => Some (qnat (count_of idx k))) /\
      (length tvu = length idx -> shape_is tvug rows cols -> idx <> [] -> rows <> 0%nat -> cols <> 0%nat ->
       written tvug (o_tvu out) idx (fun k => Some (mean_of (group_of idx tvu k)))) /\
      (tvu = [] -> o_tvu out = tvug) /\
      (length thu = length idx -> shape_is thug rows cols -> idx <> [] -> rows <> 0%nat -> cols <> 0%nat ->
       written thug (o_thu out) idx (fun k => Some (mean_of (group_of idx thu k)))) /\
      (thu = [] -> o_thu out = thug).
  Proof.
    intros Hl (Hw & Hgr & Hgc) Hd. unfold np_grid_mean_with. rewrite Hgr, Hgc.
    destruct (cell_groups s idx rows cols) as [g|e] eqn:Hg.
    2: { by rewrite (cell_groups_eq s idx rows cols Hs Hr) in Hg. }
    simpl. eexists. split; [reflexivity|]. cbn [o_depth o_density o_tvu o_thu].
    assert (Hen : forall (u : list Q) (ug : arr), length u = length idx -> shape_is ug rows cols ->
       idx <> [] -> rows <> 0%nat -> cols <> 0%nat -> unc_enabled u ug = true).
    { intros u ug Hlu (Hwu & Hru & Hcu) Hne Hr0 Hc0. unfold unc_enabled, nd_size.
      apply andb_true_intro. split; apply Nat.ltb_lt.
      - rewrite Hlu. destruct idx; simpl; [done|lia].
      - unfold nd_wf in Hwu. rewrite Hwu, Hru, Hcu. nia. }
    split; [by apply scatter_mean_written|]. split; [by apply scatter_counts_written|].
    split; [intros; rewrite Hen by done; by apply scatter_mean_written|].
    split; [by intros ->|].
    split; [intros; rewrite Hen by done; by apply scatter_mean_written|].
    by intros ->.
  Qed.

  Definition min_of (l : list Q) : Q := default 0%Q (reduce1 qmin l).
  Lemma min_of_spec l : l <> [] -> is_min l (min_of l).
  Proof. destruct l as [|x xs]; [done|]. intros _. apply foldl_qmin. Qed.

  Lemma np_grid_shoalest_with_depth depth (grid density : arr) tvu thu (tvug thug : arr) out :
    length depth = length idx ->
    shape_is grid rows cols -> shape_is density rows cols ->
    np_grid_shoalest_with s depth idx grid density tvu thu tvug thug = Ok out ->
    written grid (o_depth out) idx (fun k => Some (min_of (sorted_group_of s idx depth k))) /\
    written density (o_density out) idx (fun k => Some (qnat (count_of idx k))).
  Proof.
    intros Hl (Hw & Hgr & Hgc) Hd. unfold np_grid_shoalest_with. rewrite Hgr, Hgc.
    intros H. apply rbind_Ok in H as (g & Hg & H). cbv beta in H.
    apply rbind_Ok in H as (tv & Htv & H). apply rbind_Ok in H as (th & Hth & H).
    injection H as <-. cbn [o_depth o_density]. split; [|by apply scatter_counts_written].
    rewrite (cell_groups_eq s idx rows cols Hs Hr) in Hg. injection Hg as <-.
    cbn [gr_rc gr_idx gr_counts]. rewrite (reduceat_eq s idx Hs depth Hl qmin 0%Q).
    rewrite (map_map _ Some). by apply scatter_written.
  Qed.
End gridding.
