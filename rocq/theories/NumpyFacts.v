(** Lemmas about the one-dimensional numpy primitives. *)
From Verif Require Import Py PyFacts Nd NdFacts Numpy.
Open Scope Z_scope.
Ltac Zify.zify_post_hook ::= Z.div_mod_to_equations.

(** ** arange and uniform edges *)
(** [n] values lo, lo+step, ... *)
Definition uniform (lo step : Z) (n : nat) : list Z := map (fun i => lo + Z.of_nat i * step) (seq 0 n).

Lemma uniform_length lo step n : length (uniform lo step n) = n.
Proof. unfold uniform. by rewrite map_length, seq_length. Qed.
Lemma uniform_lookup lo step n i : (i < n)%nat -> uniform lo step n !! i = Some (lo + Z.of_nat i * step).
Proof. intros. unfold uniform. rewrite list_lookup_fmap, lookup_seq_lt by done. done. Qed.
Lemma uniform_lookup_Some lo step n i v :
  uniform lo step n !! i = Some v <-> (i < n)%nat /\ v = lo + Z.of_nat i * step.
Proof.
  split.
  - intros H. pose proof (lookup_lt_Some _ _ _ H) as Hl. rewrite uniform_length in Hl.
    rewrite uniform_lookup in H by done. by injection H as <-.
  - intros [H ->]. by apply uniform_lookup.
Qed.
Lemma uniform_S lo step n : uniform lo step (S n) = uniform lo step n ++ [lo + Z.of_nat n * step].
Proof. unfold uniform. rewrite seq_S, map_app. done. Qed.
Lemma uniform_cons lo step n : uniform lo step (S n) = lo :: uniform (lo + step) step n.
Proof.
  unfold uniform. rewrite <- cons_seq. cbn [map]. f_equal; [lia|].
  rewrite <- fmap_S_seq, map_map. apply map_ext. intros. lia.
Qed.
Lemma uniform_NoDup lo step n : 0 < step -> NoDup (uniform lo step n).
Proof.
  intros. unfold uniform.
  assert (Inj (=) (=) (fun i => lo + Z.of_nat i * step)) by (intros i j Hij; nia).
  by apply NoDup_fmap_2, NoDup_seq.
Qed.

Lemma arange_uniform lo hi step :
  arange lo hi step = uniform lo step (Z.to_nat (ceil_div (hi - lo) step)).
Proof. done. Qed.

Lemma ceil_div_mult n step : 0 < step -> ceil_div (n * step) step = n.
Proof. intros. unfold ceil_div. rewrite <- Z.mul_opp_l, Z.div_mul by lia. lia. Qed.

Lemma arange_exact lo n step :
  0 < step -> arange lo (lo + Z.of_nat n * step) step = uniform lo step n.
Proof.
  intros. rewrite arange_uniform. f_equal. replace (lo + _ - lo) with (Z.of_nat n * step) by lia.
  rewrite ceil_div_mult by done. lia.
Qed.

Lemma with_last_edge_uniform lo step n :
  (0 < n)%nat -> with_last_edge (uniform lo step n) step = Ok (uniform lo step (S n)).
Proof.
  intros Hn. destruct n as [|n]; [lia|]. unfold with_last_edge.
  rewrite (uniform_S lo step n) at 1. rewrite last_snoc. rewrite (uniform_S _ _ (S n)).
  do 3 f_equal. lia.
Qed.

Lemma ceil_div_spec a b : 0 < b -> (ceil_div a b - 1) * b < a <= ceil_div a b * b.
Proof. intros. unfold ceil_div. nia. Qed.
Lemma ceil_div_pos a b : 0 < b -> 0 < a -> 0 < ceil_div a b.
Proof. intros. pose proof (ceil_div_spec a b). nia. Qed.

(** ** searchsorted *)
Lemma searchsorted_right_le (es : list Z) x : (searchsorted_right es x <= length es)%nat.
Proof. induction es as [|e es IH]; simpl; [lia|]. destruct (e <=? x); lia. Qed.

Lemma searchsorted_right_uniform lo step n x :
  0 < step ->
  searchsorted_right (uniform lo step n) x =
  if decide (x < lo) then 0%nat else Nat.min n (Z.to_nat ((x - lo) / step + 1)).
Proof.
  intros Hs. revert lo. induction n as [|n IH]; intros lo.
  - simpl. destruct (decide (x < lo)); lia.
  - rewrite uniform_cons. cbn [searchsorted_right]. destruct (lo <=? x) eqn:E.
    + rewrite IH. rewrite (decide_False (P := x < lo)) by lia.
      destruct (decide (x < lo + step)).
      * assert ((x - lo) / step = 0) as -> by nia. lia.
      * assert ((x - lo) / step = (x - (lo + step)) / step + 1) as ->.
        { replace (x - lo) with ((x - (lo + step)) + 1 * step) by lia. rewrite Z.div_add by lia. lia. }
        nia.
    + rewrite decide_True by lia. done.
Qed.

Lemma searchsorted_left_q_le (a : list Q) x : (searchsorted_left_q a x <= length a)%nat.
Proof. induction a as [|e a IH]; simpl; [lia|]. destruct (negb _); lia. Qed.
(** Everything before the returned position is < x. *)
Lemma searchsorted_left_q_before (a : list Q) x i v :
  (i < searchsorted_left_q a x)%nat -> a !! i = Some v -> (v < x)%Q.
Proof.
  revert i. induction a as [|e a IH]; intros i; simpl; [lia|].
  destruct (Qle_bool x e) eqn:E; simpl; [lia|].
  destruct i as [|i]; simpl; intros Hi Hv.
  - injection Hv as <-. apply Qnot_le_lt. intros Hle%Qle_bool_iff. congruence.
  - eapply IH; [|done]. lia.
Qed.
(** The entry at the returned position is >= x. *)
Lemma searchsorted_left_q_at (a : list Q) x v :
  a !! searchsorted_left_q a x = Some v -> (x <= v)%Q.
Proof.
  induction a as [|e a IH]; simpl; [done|].
  destruct (Qle_bool x e) eqn:E; simpl.
  - intros [= <-]. by apply Qle_bool_iff.
  - done.
Qed.

(** ** Sorting permutations *)
(** [s] lists every position of [a] once, in an order that sorts [a]. *)
Definition sorting_perm (a : list Z) (s : list nat) : Prop :=
  s ≡ₚ seq 0 (length a) /\ StronglySorted Z.le (take_idx a s).

Lemma take_idx_seq {A} (a : list A) : take_idx a (seq 0 (length a)) = a.
Proof.
  unfold take_idx. induction a as [|x a IH] using rev_ind; [done|].
  rewrite app_length. cbn [length]. rewrite Nat.add_1_r, seq_S, omap_app. simpl.
  rewrite lookup_app_r by lia. rewrite Nat.sub_diag. simpl. f_equal.
  rewrite <- IH at 2. apply list_omap_ext. apply Forall2_same_length_lookup.
  split; [done|]. intros i j k Hi Hj. rewrite Hi in Hj. injection Hj as <-.
  apply lookup_seq in Hi as [-> Hi]. simpl. by rewrite lookup_app_l by lia.
Qed.

Lemma take_idx_map {A B} (f : A -> B) a s : take_idx (map f a) s = map f (take_idx a s).
Proof.
  unfold take_idx. induction s as [|i s IH]; [done|]. cbn [omap list_omap].
  rewrite list_lookup_fmap. destruct (a !! i); simpl; [f_equal|]; apply IH.
Qed.
Lemma take_idx_zip {A B} (a : list A) (b : list B) s :
  length a = length b -> take_idx (zip a b) s = zip (take_idx a s) (take_idx b s).
Proof.
  intros Hl. unfold take_idx. induction s as [|i s IH]; [done|]. cbn [omap list_omap].
  destruct (decide (i < length a)%nat) as [Hi|Hi].
  - destruct (lookup_lt_is_Some_2 a i) as [x Hx]; [done|].
    destruct (lookup_lt_is_Some_2 b i) as [y Hy]; [lia|].
    rewrite Hx, Hy. rewrite (proj2 (lookup_zip_with_Some pair a b i (x, y))) by eauto.
    simpl. f_equal. apply IH.
  - rewrite (lookup_ge_None_2 a), (lookup_ge_None_2 b) by lia.
    rewrite (lookup_ge_None_2 (zip a b)); [apply IH|]. rewrite zip_with_length. lia.
Qed.
Global Instance take_idx_Permutation {A} (a : list A) :
  Proper (Permutation ==> Permutation) (take_idx a).
Proof. intros s s' Hs. unfold take_idx. by rewrite Hs. Qed.
Lemma take_idx_perm {A} (a : list A) s : s ≡ₚ seq 0 (length a) -> take_idx a s ≡ₚ a.
Proof. intros ->. by rewrite take_idx_seq. Qed.
Lemma take_idx_length {A B} (a : list A) (b : list B) s :
  length a = length b -> length (take_idx a s) = length (take_idx b s).
Proof.
  intros Hl. unfold take_idx. induction s as [|i s IH]; [done|]. cbn [omap list_omap].
  destruct (decide (i < length a)%nat) as [Hi|Hi].
  - destruct (lookup_lt_is_Some_2 a i) as [x ->]; [done|].
    destruct (lookup_lt_is_Some_2 b i) as [y ->]; [lia|]. simpl. f_equal. apply IH.
  - rewrite (lookup_ge_None_2 a), (lookup_ge_None_2 b) by lia. apply IH.
Qed.

Lemma StronglySorted_fmap {A B} (R : relation A) (S : relation B) (f : A -> B) l :
  (forall x y, R x y -> S (f x) (f y)) -> StronglySorted R l -> StronglySorted S (f <$> l).
Proof.
  intros H. induction 1; csimpl; constructor; [done|].
  apply Forall_fmap. eapply Forall_impl; [done|]. intros; by apply H.
Qed.

Global Instance key_le_trans : Transitive key_le.
Proof. intros a b c. unfold key_le. lia. Qed.
Global Instance key_le_total : Total key_le.
Proof. intros a b. unfold key_le. lia. Qed.

Lemma argsort_sorting_perm a : sorting_perm a (argsort a).
Proof.
  unfold argsort. set (L := merge_sort key_le (zip a (seq 0 (length a)))).
  assert (HP : L ≡ₚ zip a (seq 0 (length a))) by apply merge_sort_Permutation.
  assert (HS : StronglySorted key_le L) by (apply StronglySorted_merge_sort; apply _).
  assert (HF : Forall (fun p => a !! p.2 = Some p.1) L).
  { rewrite HP. apply Forall_forall. intros [v i] Hin.
    apply elem_of_list_lookup in Hin as [k Hk].
    apply lookup_zip_with_Some in Hk as (x & y & [= -> ->] & Hx & Hy).
    apply lookup_seq in Hy as [-> _]. done. }
  split.
  - rewrite HP. rewrite snd_zip; [done|]. rewrite seq_length. done.
  - assert (take_idx a L.*2 = L.*1) as ->.
    { clear HP HS. induction HF as [|[v i] L Hv HF IH]; [done|].
      unfold take_idx in *. csimpl. simpl in Hv. rewrite Hv. f_equal. apply IH. }
    eapply StronglySorted_fmap; [|done]. intros x y. unfold key_le. done.
Qed.

(** ** unique *)
Lemma elem_of_np_unique a v : v ∈ np_unique a <-> v ∈ a.
Proof. unfold np_unique. rewrite merge_sort_Permutation. apply elem_of_remove_dups. Qed.
Lemma np_unique_NoDup a : NoDup (np_unique a).
Proof. unfold np_unique. rewrite merge_sort_Permutation. apply NoDup_remove_dups. Qed.
Lemma StronglySorted_le_lt l : StronglySorted Z.le l -> NoDup l -> StronglySorted Z.lt l.
Proof.
  induction 1 as [|x l HS IH HF]; intros Hnd; constructor.
  - apply IH. by apply NoDup_cons in Hnd as [_ ?].
  - apply NoDup_cons in Hnd as [Hx _]. rewrite Forall_forall in *. intros y Hy.
    specialize (HF y Hy). destruct (decide (x = y)); [by subst|lia].
Qed.
Lemma np_unique_sorted a : StronglySorted Z.lt (np_unique a).
Proof.
  apply StronglySorted_le_lt; [|apply np_unique_NoDup].
  unfold np_unique. apply StronglySorted_merge_sort; [|apply _]. intros x y z. lia.
Qed.
Lemma np_unique_perm a b : a ≡ₚ b -> np_unique a = np_unique b.
Proof.
  intros H. assert (AntiSymm (=) Z.lt) by (intros x y; lia).
  apply (StronglySorted_unique Z.lt); try apply np_unique_sorted.
  apply NoDup_Permutation; try apply np_unique_NoDup.
  intros x. rewrite !elem_of_np_unique. by rewrite H.
Qed.
Lemma count_of_perm a b v : a ≡ₚ b -> count_of a v = count_of b v.
Proof. intros H. unfold count_of. by rewrite H. Qed.

(** ** Runs of equal keys *)
Lemma first_index_app a b v : v ∉ a -> first_index (a ++ v :: b) v = length a.
Proof.
  induction a as [|x a IH]; intros H; simpl.
  - by rewrite decide_True.
  - apply not_elem_of_cons in H as [Hx Ha]. rewrite decide_False by congruence. by rewrite IH.
Qed.

Lemma exists_cons {A} (l : list A) : l <> [] -> exists x r, l = x :: r.
Proof. destruct l; [done|eauto]. Qed.

Section runs.
  Context {B : Type}.
  Implicit Types L : list (Z * B).

  (** Values carrying key [k], in list order. *)
  Definition vals_at (L : list (Z * B)) (k : Z) : list B := (filter (fun p => p.1 = k) L).*2.

  Lemma vals_at_perm L L' k : L ≡ₚ L' -> vals_at L k ≡ₚ vals_at L' k.
  Proof. intros H. unfold vals_at. by rewrite H. Qed.
  Lemma vals_at_nil L k : vals_at L k = [] <-> k ∉ L.*1.
  Proof.
    unfold vals_at. split.
    - intros H%fmap_nil_inv Hin. apply elem_of_list_fmap in Hin as ([k' v] & -> & Hin).
      assert (Hf : (k', v) ∈ filter (fun p => p.1 = k') L) by (by apply elem_of_list_filter).
      simpl in *. rewrite H in Hf. by apply elem_of_nil in Hf.
    - intros Hn. destruct (filter _ L) as [|[k' v] r] eqn:E; [done|]. exfalso. apply Hn.
      assert (Hin : (k', v) ∈ filter (fun p => p.1 = k) L) by (rewrite E; left).
      apply elem_of_list_filter in Hin as [Hk Hin]. simpl in Hk. subst.
      apply elem_of_list_fmap. by exists (k, v).
  Qed.
  Lemma vals_at_length L k : length (vals_at L k) = count_of L.*1 k.
  Proof.
    unfold vals_at, count_of. rewrite fmap_length.
    induction L as [|[k' v] L IH]; [done|]. rewrite fmap_cons, !filter_cons. simpl.
    destruct (decide (k' = k)); simpl; by rewrite IH.
  Qed.

  Lemma sorted_split_min L k :
    StronglySorted (fun a b => a.1 <= b.1) L -> (forall p, p ∈ L -> k <= p.1) ->
    L = filter (fun p => p.1 = k) L ++ filter (fun p => p.1 <> k) L.
  Proof.
    induction 1 as [|[k' v] L HS IH HF]; intros Hmin; [done|].
    rewrite !filter_cons. simpl. destruct (decide (k' = k)) as [->|Hne].
    - rewrite decide_False by naive_solver. simpl. f_equal. apply IH. intros; apply Hmin; by right.
    - rewrite decide_True by done.
      assert (Hk : k < k') by (specialize (Hmin (k', v) ltac:(left)); simpl in *; lia).
      rewrite Forall_forall in HF. simpl in HF.
      destruct (filter (fun p => p.1 = k) L) as [|q r] eqn:E.
      + simpl. f_equal. rewrite ?E in IH. simpl in IH. apply IH. intros; apply Hmin; by right.
      + exfalso. assert (Hq : q ∈ filter (fun p => p.1 = k) L) by (rewrite E; left).
        apply elem_of_list_filter in Hq as [Hqk Hq]. specialize (HF q Hq). lia.
  Qed.

  Lemma StronglySorted_filter {A} (R : relation A) (P : A -> Prop) `{!forall x, Decision (P x)} l :
    StronglySorted R l -> StronglySorted R (filter P l).
  Proof.
    induction 1 as [|x l HS IH HF]; [constructor|]. rewrite filter_cons. destruct (decide (P x)); [|done].
    constructor; [done|]. rewrite Forall_forall in *. intros y Hy.
    apply elem_of_list_filter in Hy as [_ Hy]. by apply HF.
  Qed.

  Lemma split_groups u : forall P L,
    StronglySorted Z.lt u ->
    StronglySorted (fun a b => a.1 <= b.1) L ->
    (forall k, k ∈ u <-> k ∈ L.*1) ->
    (forall k, k ∈ u -> k ∉ P.*1) ->
    np_split_tail (P ++ L).*2 (map (first_index (P ++ L).*1) u) = map (vals_at L) u.
  Proof.
    induction u as [|k u IH]; intros P L Hu HL Hk HP; [done|].
    assert (Hmin : forall p, p ∈ L -> k <= p.1).
    { intros p Hp. assert (Hin : p.1 ∈ k :: u).
      { apply Hk. apply elem_of_list_fmap. by exists p. }
      apply elem_of_cons in Hin as [->|Hin]; [lia|].
      inversion Hu as [|? ? _ HF]; subst. rewrite Forall_forall in HF. specialize (HF _ Hin). lia. }
    pose proof (sorted_split_min L k HL Hmin) as Hsplit.
    set (G := filter (fun p => p.1 = k) L) in *. set (L2 := filter (fun p => p.1 <> k) L) in *.
    assert (HG : G <> []).
    { assert (Hin : k ∈ L.*1) by (apply Hk; left).
      apply elem_of_list_fmap in Hin as (p & -> & Hp).
      assert (Hp' : p ∈ G) by (unfold G; by apply elem_of_list_filter).
      intros HG. rewrite HG in Hp'. by apply elem_of_nil in Hp'. }
    assert (Hfi : first_index (P ++ L).*1 k = length P).
    { assert (EG : exists k' v G', G = (k', v) :: G').
      { destruct (exists_cons G HG) as ([k' v] & G' & EG). eauto. }
      destruct EG as (k' & v & G' & EG).
      assert (k' = k) as ->.
      { assert (Hin : (k', v) ∈ filter (fun p => p.1 = k) L) by (fold G; rewrite EG; left).
        by apply elem_of_list_filter in Hin as [? _]. }
      rewrite Hsplit, EG. rewrite fmap_app. csimpl. rewrite first_index_app.
      - apply fmap_length.
      - apply HP. left. }
    assert (Hu' : StronglySorted Z.lt u) by (by inversion Hu).
    assert (Hku : k ∉ u).
    { apply StronglySorted_inv in Hu as [_ HF]. rewrite Forall_forall in HF. intros Hin.
      specialize (HF _ Hin). lia. }
    assert (HL2 : StronglySorted (fun a b => a.1 <= b.1) L2) by (by apply StronglySorted_filter).
    assert (Hk2 : forall k', k' ∈ u <-> k' ∈ L2.*1).
    { intros k'. split.
      - intros Hin. assert (Hin' : k' ∈ L.*1) by (apply Hk; by right).
        apply elem_of_list_fmap in Hin' as (p & -> & Hp). apply elem_of_list_fmap. exists p.
        split; [done|]. apply elem_of_list_filter. split; [|done]. intros Heq. rewrite Heq in Hin. done.
      - intros (p & -> & Hp)%elem_of_list_fmap. apply elem_of_list_filter in Hp as [Hne Hp].
        assert (Hin : p.1 ∈ k :: u) by (apply Hk, elem_of_list_fmap; by exists p).
        apply elem_of_cons in Hin as [|]; done. }
    assert (HP2 : forall k', k' ∈ u -> k' ∉ (P ++ G).*1).
    { intros k' Hin. rewrite fmap_app, not_elem_of_app. split.
      - apply HP. by right.
      - intros (p & -> & Hp)%elem_of_list_fmap. apply elem_of_list_filter in Hp as [Hkp _].
        rewrite Hkp in Hin. done. }
    assert (Hassoc : P ++ L = (P ++ G) ++ L2) by (rewrite Hsplit at 1; by rewrite app_assoc).
    specialize (IH (P ++ G) L2 Hu' HL2 Hk2 HP2).
    assert (Hvals : map (vals_at L) u = map (vals_at L2) u).
    { apply map_ext_in. intros k' Hin%elem_of_list_In. unfold vals_at. f_equal. unfold L2.
      rewrite list_filter_filter. apply list_filter_iff. intros p. split; [|tauto].
      intros Heq. split; [done|]. intros Heq'. rewrite <- Heq, Heq' in Hin. done. }
    cbn [map np_split_tail]. rewrite Hfi. rewrite Hvals, <- IH, Hassoc. f_equal.
    assert (He : match map (first_index ((P ++ G) ++ L2).*1) u with
                 | j :: _ => j | [] => length ((P ++ G) ++ L2).*2 end = length (P ++ G)).
    { destruct u as [|k2 u2]; simpl.
      - assert (L2 = []) as ->.
        { apply (fmap_nil_inv fst). apply elem_of_nil_inv. intros x Hx.
          apply Hk2 in Hx. by apply elem_of_nil in Hx. }
        by rewrite app_nil_r, fmap_length.
      - clearbody L2. clear Hsplit Hvals Hassoc IH. destruct L2 as [|[k' v] r].
        + assert (Hin : k2 ∈ (@nil (Z * B)).*1) by (apply Hk2; left). by apply elem_of_nil in Hin.
        + assert (k' = k2) as ->.
          { assert (H1 : k' ∈ k2 :: u2) by (apply Hk2; left).
            assert (H2 : k2 ∈ ((k', v) :: r).*1) by (apply Hk2; left).
            apply elem_of_cons in H1 as [|H1]; [done|].
            inversion Hu' as [|? ? _ HF]; subst. rewrite Forall_forall in HF. specialize (HF _ H1).
            csimpl in *. apply elem_of_cons in H2 as [|H2]; [done|].
            apply elem_of_list_fmap in H2 as (p & -> & Hp).
            inversion HL2 as [|? ? _ HF2]; subst. rewrite Forall_forall in HF2. specialize (HF2 _ Hp).
            simpl in HF2. lia. }
          rewrite fmap_app. csimpl. rewrite first_index_app; [apply fmap_length|].
          apply HP2. left. }
    rewrite He. unfold slice. rewrite !fmap_app. rewrite <- app_assoc.
    rewrite drop_app_alt by (by rewrite fmap_length).
    rewrite take_app_alt; [done|]. rewrite !fmap_length, !app_length. lia.
  Qed.
End runs.

Definition reduce1 {A} (f : A -> A -> A) (g : list A) : option A :=
  match g with [] => None | x :: xs => Some (foldl f x xs) end.

Lemma reduceat_split {A} (f : A -> A -> A) a idx :
  Forall (fun g => g <> []) (np_split_tail a idx) ->
  reduceat f a idx = omap (reduce1 f) (np_split_tail a idx).
Proof.
  induction idx as [|i idx IH]; simpl; [done|]. intros H.
  inversion H as [|? ? Hne HF]; subst. destruct (slice a i _) as [|x xs]; [done|].
  simpl. f_equal. by apply IH.
Qed.

(** ** scatter *)
Lemma scatter_shape {A} (g : nd A) rc vals :
  nrows (scatter g rc vals) = nrows g /\ ncols (scatter g rc vals) = ncols g /\
  length (nflat (scatter g rc vals)) = length (nflat g).
Proof.
  revert g vals. induction rc as [|[r c] rc IH]; intros g [|v vals]; simpl; try done.
  specialize (IH (Nd (nrows g) (ncols g) (<[(r * ncols g + c)%nat := v]> (nflat g))) vals).
  simpl in IH. rewrite insert_length in IH. done.
Qed.
Lemma scatter_wf {A} (g : nd A) rc vals : nd_wf g -> nd_wf (scatter g rc vals).
Proof. unfold nd_wf. destruct (scatter_shape g rc vals) as (-> & -> & ->). done. Qed.

(** Scatter at distinct flat positions. *)
Lemma scatter_lookup {A} (g : nd A) (u : list nat) (f : nat -> A) i :
  (0 < ncols g)%nat -> NoDup u -> Forall (fun k => k < length (nflat g))%nat u ->
  nflat (scatter g (map (fun k => (k / ncols g, k mod ncols g)%nat) u) (map f u)) !! i =
  if decide (i ∈ u) then Some (f i) else nflat g !! i.
Proof.
  intros Hc. revert g Hc. induction u as [|k u IH]; intros g Hc Hnd HF; cbn [map scatter].
  - rewrite decide_False; [done|]. apply not_elem_of_nil.
  - apply NoDup_cons in Hnd as [Hk Hnd]. inversion HF as [|? ? Hkl HF']; subst.
    rewrite <- flat_split by done.
    pose proof (IH (Nd (nrows g) (ncols g) (<[k := f k]> (nflat g)))) as IH'. simpl in IH'.
    rewrite IH'; [|done|done|by rewrite insert_length].
    destruct (decide (i ∈ u)) as [Hi|Hi].
    + rewrite decide_True by (by right). done.
    + destruct (decide (i = k)) as [->|Hne].
      * rewrite decide_True by left. by rewrite list_lookup_insert.
      * rewrite decide_False; [|rewrite not_elem_of_cons; done]. by rewrite list_lookup_insert_ne.
Qed.
