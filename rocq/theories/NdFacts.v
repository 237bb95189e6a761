(** Lemmas about two-dimensional arrays. *)
From Verif Require Import Py PyFacts Nd.
Open Scope nat_scope.

Lemma flat_lt (r c i j : nat) : i < r -> j < c -> i * c + j < r * c.
Proof. nia. Qed.

Lemma flat_div (c i j : nat) : j < c -> (i * c + j) / c = i.
Proof. intros. rewrite Nat.add_comm, Nat.div_add by lia. rewrite Nat.div_small; lia. Qed.
Lemma flat_mod (c i j : nat) : j < c -> (i * c + j) mod c = j.
Proof. intros. rewrite Nat.add_comm, Nat.mod_add by lia. apply Nat.mod_small; lia. Qed.
Lemma flat_split (c k : nat) : 0 < c -> k = k / c * c + k mod c.
Proof. intros. pose proof (Nat.div_mod k c). lia. Qed.
Lemma flat_div_lt (r c k : nat) : k < r * c -> k / c < r /\ k mod c < c.
Proof.
  intros. assert (0 < c) by (destruct c; lia). split.
  - apply Nat.div_lt_upper_bound; lia.
  - apply Nat.mod_upper_bound; lia.
Qed.
Lemma flat_inj (c i j i' j' : nat) :
  j < c -> j' < c -> i * c + j = i' * c + j' -> i = i' /\ j = j'.
Proof.
  intros. assert (Hd : (i * c + j) / c = (i' * c + j') / c) by congruence.
  rewrite !flat_div in Hd by done. split; [done|]. subst. lia.
Qed.

Section nd.
  Context {A : Type}.
  Implicit Types a : nd A.

  Lemma nd_get_Some_lt a r c v : nd_get a r c = Some v -> r < nrows a /\ c < ncols a.
  Proof.
    unfold nd_get. destruct (bool_decide (r < nrows a)) eqn:E1; simpl; [|done].
    destruct (bool_decide (c < ncols a)) eqn:E2; [|done].
    apply bool_decide_eq_true in E1, E2. done.
  Qed.
  Lemma nd_get_in a r c :
    r < nrows a -> c < ncols a -> nd_get a r c = nflat a !! (r * ncols a + c).
  Proof. intros. unfold nd_get. by rewrite !bool_decide_eq_true_2. Qed.
  Lemma nd_get_out a r c : ~ (r < nrows a /\ c < ncols a) -> nd_get a r c = None.
  Proof.
    intros H. unfold nd_get. destruct (decide (r < nrows a)).
    - rewrite (bool_decide_eq_false_2 (c < ncols a)) by tauto. by rewrite andb_false_r.
    - by rewrite (bool_decide_eq_false_2 (r < nrows a)).
  Qed.
  Lemma nd_get_is_Some a r c :
    nd_wf a -> r < nrows a -> c < ncols a -> is_Some (nd_get a r c).
  Proof.
    intros Hwf Hr Hc. rewrite nd_get_in by done. apply lookup_lt_is_Some. rewrite Hwf. by apply flat_lt.
  Qed.

  Lemma nd_full_wf r c (v : A) : nd_wf (nd_full r c v).
  Proof. unfold nd_wf, nd_full. simpl. apply replicate_length. Qed.
  Lemma nd_get_full r c (v : A) i j : i < r -> j < c -> nd_get (nd_full r c v) i j = Some v.
  Proof.
    intros. rewrite nd_get_in by done. simpl. apply lookup_replicate_2. by apply flat_lt.
  Qed.

  Lemma nd_init_wf r c (f : nat -> nat -> A) : nd_wf (nd_init r c f).
  Proof. unfold nd_wf, nd_init. simpl. by rewrite map_length, seq_length. Qed.
  Lemma nd_init_flat r c (f : nat -> nat -> A) k :
    k < r * c -> nflat (nd_init r c f) !! k = Some (f (k / c) (k mod c)).
  Proof.
    intros. unfold nd_init. simpl. rewrite list_lookup_fmap, lookup_seq_lt by done. done.
  Qed.
  Lemma nd_get_init r c (f : nat -> nat -> A) i j :
    i < r -> j < c -> nd_get (nd_init r c f) i j = Some (f i j).
  Proof.
    intros. rewrite nd_get_in by done. cbn [ncols nd_init]. rewrite nd_init_flat by (by apply flat_lt).
    by rewrite flat_div, flat_mod.
  Qed.
  Lemma nd_map_wf {B} (f : A -> B) a : nd_wf a -> nd_wf (nd_map f a).
  Proof. unfold nd_wf, nd_map. simpl. by rewrite map_length. Qed.
  Lemma nd_get_map {B} (f : A -> B) a i j : nd_get (nd_map f a) i j = f <$> nd_get a i j.
  Proof.
    unfold nd_get, nd_map. simpl. destruct (_ && _); [|done]. by rewrite list_lookup_fmap.
  Qed.

  (** Two well-formed arrays of the same shape with equal entries are equal. *)
  Lemma nd_ext a b :
    nd_wf a -> nd_wf b -> nrows a = nrows b -> ncols a = ncols b ->
    (forall i j, i < nrows a -> j < ncols a -> nd_get a i j = nd_get b i j) -> a = b.
  Proof.
    intros Ha Hb Hr Hc H. destruct a as [r c fa], b as [r' c' fb]. simpl in *. subst r' c'.
    unfold nd_wf in *. simpl in *. f_equal. apply list_eq. intros k.
    destruct (decide (k < r * c)) as [Hk|Hk].
    - destruct (flat_div_lt _ _ _ Hk) as [H1 H2].
      specialize (H (k / c) (k mod c) H1 H2). rewrite !nd_get_in in H by done. simpl in H.
      rewrite <- flat_split in H by lia. done.
    - rewrite !lookup_ge_None_2 by lia. done.
  Qed.

  Lemma nd_transpose_get (d : A) a i j :
    nd_wf a -> nd_get (nd_transpose d a) i j = nd_get a j i.
  Proof.
    intros Hwf. unfold nd_transpose. destruct (decide (i < ncols a /\ j < nrows a)) as [[Hi Hj]|Hn].
    - rewrite nd_get_init by done. destruct (nd_get_is_Some a j i Hwf) as [v ->]; done.
    - rewrite !nd_get_out; simpl; tauto.
  Qed.
  Lemma nd_fliplr_get (d : A) a i j :
    nd_wf a -> j < ncols a -> nd_get (nd_fliplr d a) i j = nd_get a i (ncols a - 1 - j).
  Proof.
    intros Hwf Hj. unfold nd_fliplr. destruct (decide (i < nrows a)) as [Hi|Hn].
    - rewrite nd_get_init by done. destruct (nd_get_is_Some a i (ncols a - 1 - j) Hwf) as [v ->]; [done|lia|done].
    - rewrite !nd_get_out; simpl; tauto.
  Qed.
  Lemma nd_flipud_get (d : A) a i j :
    nd_wf a -> i < nrows a -> nd_get (nd_flipud d a) i j = nd_get a (nrows a - 1 - i) j.
  Proof.
    intros Hwf Hi. unfold nd_flipud. destruct (decide (j < ncols a)) as [Hj|Hn].
    - rewrite nd_get_init by done. destruct (nd_get_is_Some a (nrows a - 1 - i) j Hwf) as [v ->]; [lia|done|done].
    - rewrite !nd_get_out; simpl; tauto.
  Qed.
  Lemma nd_slice_get (d : A) a r0 r1 c0 c1 i j :
    nd_wf a -> r0 + i < Nat.min r1 (nrows a) -> c0 + j < Nat.min c1 (ncols a) ->
    nd_get (nd_slice d a r0 r1 c0 c1) i j = nd_get a (r0 + i) (c0 + j).
  Proof.
    intros Hwf Hi Hj. unfold nd_slice. rewrite nd_get_init by lia.
    destruct (nd_get_is_Some a (r0 + i) (c0 + j) Hwf) as [v ->]; [lia|lia|done].
  Qed.
  Lemma nd_blit_Ok (d : A) a r0 r1 c0 c1 b a' :
    nd_blit d a r0 r1 c0 c1 b = Ok a' ->
    nrows a' = nrows a /\ ncols a' = ncols a /\ nd_wf a' /\
    nrows b = Nat.min r1 (nrows a) - r0 /\ ncols b = Nat.min c1 (ncols a) - c0.
  Proof.
    unfold nd_blit. destruct (_ && _) eqn:E; [|done].
    apply andb_true_iff in E as [E1 E2]. apply bool_decide_eq_true in E1, E2.
    intros [= <-]. split; [done|]. split; [done|]. split; [apply nd_init_wf|]. done.
  Qed.
  Lemma nd_blit_get (d : A) a r0 r1 c0 c1 b a' i j :
    nd_wf a -> nd_wf b -> nd_blit d a r0 r1 c0 c1 b = Ok a' -> i < nrows a -> j < ncols a ->
    nd_get a' i j = if decide (r0 <= i < r1 /\ c0 <= j < c1) then nd_get b (i - r0) (j - c0)
                    else nd_get a i j.
  Proof.
    intros Ha Hb H Hi Hj. pose proof (nd_blit_Ok _ _ _ _ _ _ _ _ H) as (_ & _ & _ & Hbr & Hbc).
    unfold nd_blit in H. destruct (_ && _) in H; [|done]. injection H as <-.
    rewrite nd_get_init by done.
    destruct (decide (r0 <= i < r1 /\ c0 <= j < c1)) as [[H1 H2]|Hn].
    - rewrite !bool_decide_eq_true_2 by lia. simpl.
      destruct (nd_get_is_Some b (i - r0) (j - c0) Hb) as [v ->]; [lia|lia|done].
    - destruct (bool_decide (r0 <= i < _)) eqn:E1; simpl.
      + destruct (bool_decide (c0 <= j < _)) eqn:E2; simpl.
        * apply bool_decide_eq_true in E1, E2. lia.
        * destruct (nd_get_is_Some a i j Ha) as [v ->]; done.
      + destruct (nd_get_is_Some a i j Ha) as [v ->]; done.
  Qed.
  Lemma nd_blit_succeeds (d : A) a r0 r1 c0 c1 b :
    nrows b = r1 - r0 -> ncols b = c1 - c0 -> r1 <= nrows a -> c1 <= ncols a ->
    exists a', nd_blit d a r0 r1 c0 c1 b = Ok a'.
  Proof.
    intros. unfold nd_blit. rewrite !bool_decide_eq_true_2 by lia. simpl. eauto.
  Qed.
End nd.

(** ** Meshgrid *)
Lemma concat_const_lookup {A B} (f : B -> list A) (n : nat) (l : list B) k :
  (forall b, b ∈ l -> length (f b) = n) -> 0 < n ->
  concat (map f l) !! k = (b ← l !! (k / n); f b !! (k mod n)).
Proof.
  intros Hlen Hn. revert k. induction l as [|b l IH]; intros k; simpl; [done|].
  assert (Hb : length (f b) = n) by (apply Hlen; left).
  destruct (decide (k < n)) as [Hk|Hk].
  - rewrite lookup_app_l by lia. rewrite Nat.div_small, Nat.mod_small by done. done.
  - rewrite lookup_app_r by lia. rewrite Hb.
    rewrite IH by (intros; apply Hlen; by right).
    assert (Hd : k / n = S ((k - n) / n)).
    { replace k with ((k - n) + 1 * n) at 1 by lia. rewrite Nat.div_add by lia. lia. }
    assert (Hm : k mod n = (k - n) mod n).
    { replace k with ((k - n) + 1 * n) at 1 by lia. by rewrite Nat.mod_add by lia. }
    by rewrite Hd, Hm.
Qed.
Lemma concat_const_length {A B} (f : B -> list A) (n : nat) (l : list B) :
  (forall b, b ∈ l -> length (f b) = n) -> length (concat (map f l)) = length l * n.
Proof.
  intros H. induction l as [|b l IH]; simpl; [done|].
  rewrite app_length, IH, H; [done|left|]. intros; apply H; by right.
Qed.

Lemma meshgrid_x_wf xs ys : nd_wf (meshgrid_x xs ys).
Proof. unfold nd_wf, meshgrid_x. simpl. by apply concat_const_length. Qed.
Lemma meshgrid_y_wf xs ys : nd_wf (meshgrid_y xs ys).
Proof. unfold nd_wf, meshgrid_y. simpl. apply concat_const_length. intros. apply replicate_length. Qed.
Lemma meshgrid_x_flat xs ys k :
  k < length ys * length xs -> nflat (meshgrid_x xs ys) !! k = xs !! (k mod length xs).
Proof.
  intros Hk. destruct (flat_div_lt _ _ _ Hk) as [H1 H2]. simpl.
  rewrite (concat_const_lookup _ (length xs)) by (done || lia).
  destruct (lookup_lt_is_Some_2 _ _ H1) as [y ->]. done.
Qed.
Lemma meshgrid_y_flat xs ys k :
  k < length ys * length xs -> nflat (meshgrid_y xs ys) !! k = ys !! (k / length xs).
Proof.
  intros Hk. destruct (flat_div_lt _ _ _ Hk) as [H1 H2]. simpl.
  rewrite (concat_const_lookup _ (length xs)); [|intros; apply replicate_length|lia].
  destruct (lookup_lt_is_Some_2 _ _ H1) as [y ->]. simpl. by apply lookup_replicate_2.
Qed.

(** ** Boolean masks *)
Lemma mask_select_app {A} (m1 m2 : list bool) (l1 l2 : list A) :
  length m1 = length l1 -> mask_select (m1 ++ m2) (l1 ++ l2) = mask_select m1 l1 ++ mask_select m2 l2.
Proof.
  revert l1. induction m1 as [|b m1 IH]; intros [|x l1] H; simpl in *; try lia; [done|].
  destruct b; rewrite IH by lia; done.
Qed.
Lemma mask_select_true {A} n (l : list A) : length l = n -> mask_select (replicate n true) l = l.
Proof. revert l. induction n; intros [|x l] H; simpl in *; try lia; [done|]. by rewrite IHn by lia. Qed.
Lemma mask_select_false {A} n (l : list A) : mask_select (replicate n false) l = [].
Proof. revert l. induction n; intros [|x l]; simpl; done. Qed.
Lemma mask_select_map {A B} (f : A -> B) m l : mask_select m (map f l) = map f (mask_select m l).
Proof. revert l. induction m as [|[] m IH]; intros [|x l]; simpl; try done. by rewrite IH. Qed.
Lemma mask_select_length {A B} m (l : list A) (k : list B) :
  length l = length k -> length (mask_select m l) = length (mask_select m k).
Proof.
  revert l k. induction m as [|[] m IH]; intros [|x l] [|y k] H; simpl in *; try lia; auto.
Qed.
Lemma mask_select_filter {A} (P : A -> Prop) `{!forall x, Decision (P x)} (l : list A) :
  mask_select (map (fun x => bool_decide (P x)) l) l = filter P l.
Proof.
  induction l as [|x l IH]; simpl; [done|]. rewrite filter_cons.
  destruct (decide (P x)); [rewrite bool_decide_eq_true_2 by done|rewrite bool_decide_eq_false_2 by done]; by rewrite IH.
Qed.
