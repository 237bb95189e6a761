(** Facts about the chunks of tiles used for export. *)
From Verif Require Import Py Nd Numpy Point Bin Algorithms Tile Time Meta Disk Grid GridRun GridQuery GridOps Spec TileExec GridExec PyFacts NdFacts NumpyFacts
  GridBaseFacts GridEvolveFacts GridRunFacts GridLayerFacts.
Open Scope nat_scope.
Local Ltac Zify.zify_post_hook ::= Z.div_mod_to_equations.

(** ** Lists of lists *)
Lemma elem_concat {A} (ls : list (list A)) x : x ∈ concat ls <-> exists l, l ∈ ls /\ x ∈ l.
Proof.
  induction ls as [|l ls IH]; cbn.
  - split; [by intros ?%not_elem_of_nil|]. intros (l & Hl & _). by apply not_elem_of_nil in Hl.
  - rewrite elem_of_app, IH. split.
    + intros [H|(k & Hk & H)]; [exists l; split; [left|done]|exists k; split; [by right|done]].
    + intros (k & Hk & H). apply elem_of_cons in Hk as [->|Hk]; [by left|]. right. eauto.
Qed.
Lemma NoDup_flat {A B} (f : A -> list B) l : NoDup l -> (forall x, x ∈ l -> NoDup (f x)) ->
  (forall x1 x2 y, x1 ∈ l -> x2 ∈ l -> y ∈ f x1 -> y ∈ f x2 -> x1 = x2) -> NoDup (concat (map f l)).
Proof.
  induction 1 as [|x l Hx Hl IH]; intros H1 H2; cbn; [apply NoDup_nil_2|]. apply NoDup_app. split; [apply H1; left|]. split.
  - intros y Hy Hin. apply elem_concat in Hin as (k & Hk & Hyk). apply elem_of_list_fmap in Hk as (x' & -> & Hx').
    assert (x = x') as ->; [|done]. eapply H2; [left|by right|done|done].
  - apply IH; [intros z Hz; apply H1; by right|]. intros x1 x2 y X1 X2. apply H2; by right.
Qed.
Lemma concat_keep {A B} (f : A -> list B) (l : list A) : concat (omap (fun x => match f x with [] => None | k => Some k end) l) = concat (map f l).
Proof.
  induction l as [|x l IH]; [done|]. change (omap _ (x :: l)) with (match (match f x with [] => None | k => Some k end) with Some y => y :: omap (fun x => match f x with [] => None | k => Some k end) l | None => omap (fun x => match f x with [] => None | k => Some k end) l end).
  cbn [map concat]. rewrite <- IH. by destruct (f x).
Qed.
Lemma elem_keep {A B} (f : A -> list B) (l : list A) (k : list B) : k ∈ omap (fun x => match f x with [] => None | k => Some k end) l <-> k <> [] /\ exists x, x ∈ l /\ f x = k.
Proof.
  rewrite elem_of_list_omap. split.
  - intros (x & Hx & E). destruct (f x) eqn:Ef; [done|]. injection E as <-. split; [done|]. eauto.
  - intros (Hk & x & Hx & E). exists x. split; [done|]. rewrite E. by destruct k.
Qed.
Lemma nat_min_spec l m : nat_min l = Some m -> m ∈ l /\ forall x, x ∈ l -> m <= x.
Proof.
  destruct l as [|a l]; [done|]. intros [= <-].
  assert (H : forall l a, (foldl Nat.min a l = a \/ foldl Nat.min a l ∈ l) /\ foldl Nat.min a l <= a /\ forall x, x ∈ l -> foldl Nat.min a l <= x).
  { clear. induction l as [|b l IH]; intros a; cbn.
    - split; [by left|]. split; [done|]. by intros x ?%not_elem_of_nil.
    - destruct (IH (Nat.min a b)) as (H1 & H2 & H3). split.
      + destruct H1 as [H1|H1]; [|right; by right]. destruct (Nat.min_spec a b) as [[? E]|[? E]]; rewrite E in *; [by left|]. right. rewrite H1. left.
      + split; [lia|]. intros x [->|Hx]%elem_of_cons; [lia|by apply H3]. }
  destruct (H l a) as (H1 & H2 & H3). split; [destruct H1 as [->|H1]; [left|by right]|]. by intros x [->|Hx]%elem_of_cons; [|apply H3].
Qed.
Lemma nat_max_spec l m : nat_max l = Some m -> m ∈ l /\ forall x, x ∈ l -> x <= m.
Proof.
  destruct l as [|a l]; [done|]. intros [= <-].
  assert (H : forall l a, (foldl Nat.max a l = a \/ foldl Nat.max a l ∈ l) /\ a <= foldl Nat.max a l /\ forall x, x ∈ l -> x <= foldl Nat.max a l).
  { clear. induction l as [|b l IH]; intros a; cbn.
    - split; [by left|]. split; [done|]. by intros x ?%not_elem_of_nil.
    - destruct (IH (Nat.max a b)) as (H1 & H2 & H3). split.
      + destruct H1 as [H1|H1]; [|right; by right]. destruct (Nat.max_spec a b) as [[? E]|[? E]]; rewrite E in *; [|by left]. right. rewrite H1. left.
      + split; [lia|]. intros x [->|Hx]%elem_of_cons; [lia|by apply H3]. }
  destruct (H l a) as (H1 & H2 & H3). split; [destruct H1 as [->|H1]; [left|by right]|]. by intros x [->|Hx]%elem_of_cons; [|apply H3].
Qed.

(** ** Sections of a range *)
Lemma sections_cover sizes : forall start i, start <= i < start + sum_list sizes -> exists s k, (s, k) ∈ sections start sizes /\ s <= i < s + k.
Proof.
  induction sizes as [|k sizes IH]; intros start i H; cbn in *; [lia|]. destruct (decide (i < start + k)).
  - exists start, k. split; [left|lia].
  - destruct (IH (start + k) i) as (s & k' & H1 & H2); [lia|]. exists s, k'. split; [by right|done].
Qed.
Lemma sections_in sizes : forall start s k, (s, k) ∈ sections start sizes -> start <= s /\ s + k <= start + sum_list sizes /\ k ∈ sizes.
Proof.
  induction sizes as [|k0 sizes IH]; intros start s k H; cbn in *; [by apply not_elem_of_nil in H|]. apply elem_of_cons in H as [[= -> ->]|H].
  - split; [lia|]. split; [lia|left].
  - apply IH in H as (H1 & H2 & H3). split; [lia|]. split; [lia|by right].
Qed.
Lemma sections_once sizes : forall start a b i, a ∈ sections start sizes -> b ∈ sections start sizes ->
  a.1 <= i < a.1 + a.2 -> b.1 <= i < b.1 + b.2 -> a = b.
Proof.
  induction sizes as [|k0 sizes IH]; intros start a b i Ha Hb; cbn in *; [by apply not_elem_of_nil in Ha|].
  apply elem_of_cons in Ha, Hb. destruct Ha as [->|Ha], Hb as [->|Hb]; cbn.
  - done.
  - destruct b as [s k]. apply sections_in in Hb as (H1 & _). cbn. lia.
  - destruct a as [s k]. apply sections_in in Ha as (H1 & _). cbn. lia.
  - by apply (IH (start + k0) a b i).
Qed.
Lemma sections_nodup sizes : forall start, Forall (fun k => 0 < k) sizes -> NoDup (sections start sizes).
Proof.
  induction sizes as [|k sizes IH]; intros start H; cbn; [apply NoDup_nil_2|]. inversion H; subst. constructor; [|by apply IH].
  intros Hin. apply sections_in in Hin as (H1 & _). lia.
Qed.
Lemma sum_list_replicate n x : sum_list (replicate n x) = n * x.
Proof. induction n; cbn; lia. Qed.
Lemma sum_list_app' l k : sum_list (l ++ k) = sum_list l + sum_list k.
Proof. induction l; cbn; lia. Qed.
Lemma split_sum len n : 0 < n -> sum_list (split_sizes len n) = len.
Proof.
  intros Hn. unfold split_sizes. rewrite sum_list_app', !sum_list_replicate.
  pose proof (Nat.div_mod len n ltac:(lia)). pose proof (Nat.mod_upper_bound len n ltac:(lia)). nia.
Qed.
Lemma ceil_spec a b : 0 < b -> a <= nat_ceil_div a b * b /\ (0 < a -> 0 < nat_ceil_div a b <= a).
Proof.
  intros Hb. unfold nat_ceil_div. pose proof (Nat.div_mod (a + b - 1) b ltac:(lia)). pose proof (Nat.mod_upper_bound (a + b - 1) b ltac:(lia)).
  split; [nia|]. intros Ha. split; [apply Nat.div_str_pos; lia|]. apply Nat.div_le_upper_bound; nia.
Qed.
Lemma split_bounds len s k : 0 < s -> 0 < len -> k ∈ split_sizes len (nat_ceil_div len s) -> 0 < k <= s.
Proof.
  intros Hs Hl. destruct (ceil_spec len s Hs) as [H1 H2]. specialize (H2 Hl). set (n := nat_ceil_div len s) in *. clearbody n.
  unfold split_sizes. pose proof (Nat.div_mod len n ltac:(lia)) as Hd. pose proof (Nat.mod_upper_bound len n ltac:(lia)) as Hm.
  assert (Hq : 0 < len / n) by (apply Nat.div_str_pos; lia). set (q := len / n) in *. set (m := len mod n) in *. clearbody q m.
  rewrite elem_of_app, !elem_of_replicate. intros [[-> Hm0]|[-> _]]; split; try lia; nia.
Qed.

(** ** The blocks of an array *)
Definition block := ((nat * nat) * (nat * nat))%type.
Definition in_block (b : block) (i j : nat) : Prop := b.1.1 <= i < b.1.1 + b.1.2 /\ b.2.1 <= j < b.2.1 + b.2.2.
Definition blocks_of {A} (a : nd (option A)) (shape : nat * nat) : list block :=
  if tuple_ge shape (nrows a, ncols a) then [((0, nrows a), (0, ncols a))]
  else concat (map (fun r => map (fun c => (r, c)) (sections 0 (split_sizes (ncols a) (nat_ceil_div (ncols a) shape.2))))
    (sections 0 (split_sizes (nrows a) (nat_ceil_div (nrows a) shape.1)))).
Definition values_in {A} (a : nd (option A)) (b : block) : list A := block_values a b.1.1 b.1.2 b.2.1 b.2.2.

Lemma split_blocks {A} (a : nd (option A)) shape :
  split_to_approx_shape a shape = omap (fun b => match values_in a b with [] => None | k => Some k end) (blocks_of a shape).
Proof.
  unfold split_to_approx_shape, blocks_of. destruct (tuple_ge _ _); [|done].
  change (omap _ [?b]) with (match (match values_in a b with [] => None | k => Some k end) with Some y => [y] | None => [] end).
  unfold values_in. cbn [fst snd]. by destruct (block_values _ _ _ _ _).
Qed.
Lemma blocks_elem {A} (a : nd (option A)) shape b : tuple_ge shape (nrows a, ncols a) = false ->
  b ∈ blocks_of a shape <-> b.1 ∈ sections 0 (split_sizes (nrows a) (nat_ceil_div (nrows a) shape.1)) /\ b.2 ∈ sections 0 (split_sizes (ncols a) (nat_ceil_div (ncols a) shape.2)).
Proof.
  intros Ht. unfold blocks_of. rewrite Ht, elem_concat. split.
  - intros (l & Hl & Hb). apply elem_of_list_fmap in Hl as (r & -> & Hr). apply elem_of_list_fmap in Hb as (c & -> & Hc). done.
  - intros [Hr Hc]. eexists. split; [apply elem_of_list_fmap; by exists b.1|]. apply elem_of_list_fmap. exists b.2. by destruct b.
Qed.
Section blocks.
  Context {A : Type} (a : nd (option A)) (s : nat) (Hs : 0 < s) (Hr : 0 < nrows a) (Hc : 0 < ncols a).
  Notation bs := (blocks_of a (s, s)).

  Lemma blocks_cover i j : i < nrows a -> j < ncols a -> exists b, b ∈ bs /\ in_block b i j.
  Proof using Hs Hr Hc.
    intros Hi Hj. destruct (tuple_ge (s, s) (nrows a, ncols a)) eqn:E.
    - unfold blocks_of. rewrite E. eexists. split; [left|]. unfold in_block. cbn. lia.
    - destruct (sections_cover (split_sizes (nrows a) (nat_ceil_div (nrows a) s)) 0 i) as (r & k & R1 & R2).
      { rewrite split_sum; [lia|]. by apply ceil_spec. }
      destruct (sections_cover (split_sizes (ncols a) (nat_ceil_div (ncols a) s)) 0 j) as (c & k' & C1 & C2).
      { rewrite split_sum; [lia|]. by apply ceil_spec. }
      exists ((r, k), (c, k')). split; [by apply blocks_elem|]. done.
  Qed.
  Lemma blocks_once b b' i j : b ∈ bs -> b' ∈ bs -> in_block b i j -> in_block b' i j -> b = b'.
  Proof.
    destruct (tuple_ge (s, s) (nrows a, ncols a)) eqn:E.
    - unfold blocks_of. rewrite E. by intros ->%elem_of_list_singleton ->%elem_of_list_singleton.
    - rewrite !(blocks_elem a (s, s)) by done. intros [B1 B2] [B3 B4] [I1 I2] [I3 I4]. destruct b as [p q], b' as [p' q']. f_equal.
      + by eapply sections_once.
      + by eapply sections_once.
  Qed.
  Lemma blocks_nodup : NoDup bs.
  Proof using Hs Hr Hc.
    unfold blocks_of. destruct (tuple_ge _ _); [apply NoDup_singleton|]. apply NoDup_flat.
    - apply sections_nodup, Forall_forall. intros k Hk%split_bounds; [lia|done..].
    - intros x _. apply NoDup_fmap_2; [by intros ?? [= ->]|]. apply sections_nodup, Forall_forall. intros k Hk%split_bounds; [lia|done..].
    - intros x1 x2 y _ _ H1 H2. apply elem_of_list_fmap in H1 as (? & -> & _). by apply elem_of_list_fmap in H2 as (? & [= -> _] & _).
  Qed.
  (** How many rows and columns a block has. *)
  Lemma blocks_size b : b ∈ bs -> b.1.2 <= s /\ (s <= nrows a \/ ncols a <= s -> b.2.2 <= s).
  Proof using Hs Hr Hc.
    destruct (tuple_ge (s, s) (nrows a, ncols a)) eqn:E.
    - unfold blocks_of. rewrite E. intros ->%elem_of_list_singleton. cbn. unfold tuple_ge in E. cbn in E.
      apply orb_true_iff in E as [E|E]; [apply Nat.ltb_lt in E; lia|]. apply andb_true_iff in E as [E1 E2].
      apply Nat.eqb_eq in E1. apply Nat.leb_le in E2. lia.
    - rewrite (blocks_elem a (s, s)) by done. destruct b as [[r k] [c k']]. cbn. intros [H1 H2]. apply sections_in in H1 as (_ & _ & H1). apply sections_in in H2 as (_ & _ & H2).
      apply split_bounds in H1, H2; [lia|done..].
  Qed.
End blocks.

Lemma values_elem {A} (a : nd (option A)) b v : v ∈ values_in a b <-> exists i j, in_block b i j /\ nd_get a i j = Some (Some v).
Proof.
  unfold values_in, block_values. rewrite elem_concat. split.
  - intros (l & Hl & Hv). apply elem_of_list_fmap in Hl as (i & -> & Hi%elem_of_seq). apply elem_of_list_omap in Hv as (j & Hj%elem_of_seq & Hv).
    exists i, j. split; [done|]. by destruct (nd_get a i j) as [[w|]|]; cbn in Hv; [injection Hv as ->|..].
  - intros (i & j & [Hi Hj] & Hv). eexists. split; [apply elem_of_list_fmap; exists i; split; [done|by apply elem_of_seq]|].
    apply elem_of_list_omap. exists j. split; [by apply elem_of_seq|]. by rewrite Hv.
Qed.
Lemma values_nodup {A} (a : nd (option A)) b :
  (forall i j i' j' v, nd_get a i j = Some (Some v) -> nd_get a i' j' = Some (Some v) -> i = i' /\ j = j') -> NoDup (values_in a b).
Proof.
  intros Hinj. unfold values_in, block_values. apply NoDup_flat; [apply NoDup_seq| |].
  - intros i _. generalize (NoDup_seq b.2.1 b.2.2). generalize (seq b.2.1 b.2.2). induction 1 as [|j l Hj Hl IH]; [apply NoDup_nil_2|].
    change (omap _ (j :: l)) with (match mjoin (nd_get a i j) with Some y => y :: omap (fun c => mjoin (nd_get a i c)) l | None => omap (fun c => mjoin (nd_get a i c)) l end).
    destruct (nd_get a i j) as [[v|]|] eqn:E; cbn [mjoin option_join]; [|done..]. constructor; [|done].
    intros (j' & Hj' & Hv)%elem_of_list_omap. destruct (nd_get a i j') as [[w|]|] eqn:E'; cbn in Hv; [injection Hv as ->|done..].
    destruct (Hinj _ _ _ _ _ E E') as [_ ->]. done.
  - intros i i' v _ _ (j & _ & H1)%elem_of_list_omap (j' & _ & H2)%elem_of_list_omap.
    destruct (nd_get a i j) as [[w|]|] eqn:E; cbn in H1; [injection H1 as ->|done..].
    destruct (nd_get a i' j') as [[w|]|] eqn:E'; cbn in H2; [injection H2 as ->|done..].
    by destruct (Hinj _ _ _ _ _ E E').
Qed.

(** ** The chunks of a grid *)
Section chunks.
  Context {T : Type} (g : grid T) (a : nd (option T)) (Ha : g_tiles g = Some a) (Hw : nd_wf a).

  Definition live (rc : nat * nat) : Prop := exists t, nd_get a rc.1 rc.2 = Some (Some t).
  Lemma live_elem rc : rc ∈ live_positions a <-> live rc.
  Proof using Hw.
    unfold live_positions, live. rewrite elem_of_list_omap. split.
    - intros (k & Hk%elem_of_seq & H). rewrite Hw in Hk.
      destruct (flat_div_lt (nrows a) (ncols a) k) as [K1 K2]; [lia|]. destruct (nflat a !! k) as [[t|]|] eqn:E; cbn in H; [injection H as <-|done..].
      exists t. rewrite nd_get_in by done. cbn [fst snd]. rewrite <- flat_split; [done|]. destruct (ncols a); lia.
    - intros [t Ht]. destruct rc as [r c]. cbn [fst snd] in Ht. destruct (nd_get_Some_lt _ _ _ _ Ht) as [H1 H2]. rewrite nd_get_in in Ht by done.
      exists (r * ncols a + c). split; [apply elem_of_seq; rewrite Hw; pose proof (flat_lt _ _ _ _ H1 H2); lia|]. rewrite Ht. cbn. by rewrite flat_div, flat_mod.
  Qed.

  (** The smallest rectangle with all live tiles, and the array of their positions in it. *)
  Record bounds (r0 c0 r1 c1 : nat) : Prop := {
    bo_in : forall rc, live rc -> r0 <= rc.1 <= r1 /\ c0 <= rc.2 <= c1;
    bo_r0 : exists c, live (r0, c); bo_r1 : exists c, live (r1, c); bo_c0 : exists r, live (r, c0); bo_c1 : exists r, live (r, c1) }.
  Definition window (r0 c0 r1 c1 : nat) : nd (option (nat * nat)) := nd_slice None (index_array a) r0 (r1 + 1) c0 (c1 + 1).
  Definition chunk_tiles (mx : Z) : nat := Z.to_nat (Z.max (floor_div mx (m_tile_size (g_meta g))) 1).

  Lemma chunks_window mx chunks : tile_chunk_indices g mx = Ok chunks ->
    exists r0 c0 r1 c1, bounds r0 c0 r1 c1 /\ chunks = split_to_approx_shape (window r0 c0 r1 c1) (chunk_tiles mx, chunk_tiles mx).
  Proof using Ha Hw.
    unfold tile_chunk_indices. rewrite Ha. cbn [rofopt rbind]. intros (r0 & H1 & H)%rbind_Ok. apply rbind_Ok in H as (c0 & H2 & H).
    apply rbind_Ok in H as (r1 & H3 & H). apply rbind_Ok in H as (c1 & H4 & H). injection H as <-.
    destruct (nat_min (map fst _)) as [?|] eqn:E1 in H1; [injection H1 as ->|done]. destruct (nat_min (map snd _)) as [?|] eqn:E2 in H2; [injection H2 as ->|done].
    destruct (nat_max (map fst _)) as [?|] eqn:E3 in H3; [injection H3 as ->|done]. destruct (nat_max (map snd _)) as [?|] eqn:E4 in H4; [injection H4 as ->|done].
    apply nat_min_spec in E1 as [M1 N1], E2 as [M2 N2]. apply nat_max_spec in E3 as [M3 N3], E4 as [M4 N4].
    exists r0, c0, r1, c1. split; [|done]. split.
    - intros rc Hrc%live_elem. split; split.
      + apply N1, elem_of_list_fmap. eauto.
      + apply N3, elem_of_list_fmap. eauto.
      + apply N2, elem_of_list_fmap. eauto.
      + apply N4, elem_of_list_fmap. eauto.
    - apply elem_of_list_fmap in M1 as ([r c] & -> & Hrc%live_elem). eauto.
    - apply elem_of_list_fmap in M3 as ([r c] & -> & Hrc%live_elem). eauto.
    - apply elem_of_list_fmap in M2 as ([r c] & -> & Hrc%live_elem). eauto.
    - apply elem_of_list_fmap in M4 as ([r c] & -> & Hrc%live_elem). eauto.
  Qed.
  Lemma chunks_exist mx rc : live rc -> exists chunks, tile_chunk_indices g mx = Ok chunks.
  Proof using Ha Hw.
    intros H%live_elem. unfold tile_chunk_indices. rewrite Ha. cbn [rofopt rbind]. destruct (live_positions a) as [|p l]; [by apply not_elem_of_nil in H|]. cbn. eauto.
  Qed.

  Lemma window_shape r0 c0 r1 c1 : bounds r0 c0 r1 c1 -> nrows (window r0 c0 r1 c1) = r1 + 1 - r0 /\ ncols (window r0 c0 r1 c1) = c1 + 1 - c0 /\
    r0 <= r1 /\ c0 <= c1 /\ r1 < nrows a /\ c1 < ncols a.
  Proof.
    intros HB. destruct (bo_r1 _ _ _ _ HB) as [c Hc]. destruct (bo_c1 _ _ _ _ HB) as [r Hr].
    pose proof (bo_in _ _ _ _ HB _ Hc) as B1. pose proof (bo_in _ _ _ _ HB _ Hr) as B2. cbn in B1, B2. destruct Hc as [? Hc], Hr as [? Hr].
    apply nd_get_Some_lt in Hc, Hr. cbn in Hc, Hr. unfold window, nd_slice. cbn [nrows ncols nd_init index_array]. rewrite !Nat.min_l by lia. lia.
  Qed.
  Lemma index_get i j : nd_get (index_array a) i j = match nd_get a i j with Some (Some _) => Some (Some (i, j)) | Some None => Some None | None => None end.
  Proof using Hw.
    unfold index_array. destruct (decide (i < nrows a /\ j < ncols a)) as [[H1 H2]|H].
    - rewrite nd_get_init by done. destruct (nd_get_is_Some a i j Hw H1 H2) as [[t|] ->]; done.
    - rewrite !nd_get_out; done.
  Qed.
  Lemma window_get r0 c0 r1 c1 i j rc : bounds r0 c0 r1 c1 ->
    nd_get (window r0 c0 r1 c1) i j = Some (Some rc) <-> rc = (r0 + i, c0 + j) /\ live rc.
  Proof using Hw.
    intros HB. destruct (window_shape _ _ _ _ HB) as (W1 & W2 & W3 & W4 & W5 & W6). split.
    - intros H. pose proof (nd_get_Some_lt _ _ _ _ H) as [I1 I2]. rewrite W1 in I1. rewrite W2 in I2.
      unfold window in H. rewrite nd_slice_get in H; [|apply nd_init_wf|cbn [nrows index_array nd_init]; lia|cbn [ncols index_array nd_init]; lia].
      rewrite index_get in H. destruct (nd_get a (r0 + i) (c0 + j)) as [[t|]|] eqn:E; [|done..]. injection H as <-. split; [done|]. by exists t.
    - intros [-> Hl]. pose proof (bo_in _ _ _ _ HB _ Hl) as B. cbn in B. destruct Hl as [t Ht]. cbn in Ht.
      unfold window. rewrite nd_slice_get; [|apply nd_init_wf|cbn [nrows index_array nd_init]; lia|cbn [ncols index_array nd_init]; lia].
      by rewrite index_get, Ht.
  Qed.
  Lemma chunk_tiles_pos mx : 0 < chunk_tiles mx.
  Proof. unfold chunk_tiles. lia. Qed.

  (** A chunk is the list of the live tiles in a rectangle. *)
  Lemma chunk_box mx chunks chunk : tile_chunk_indices g mx = Ok chunks -> chunk ∈ chunks ->
    chunk <> [] /\ NoDup chunk /\ exists b : block, (forall rc, rc ∈ chunk <-> live rc /\ in_block b rc.1 rc.2) /\
      b.1.2 <= chunk_tiles mx /\
      ((exists p q, live p /\ live q /\ p.1 + chunk_tiles mx <= q.1 + 1) \/ (forall p q, live p -> live q -> p.2 < q.2 + chunk_tiles mx) -> b.2.2 <= chunk_tiles mx).
  Proof using Ha Hw.
    intros (r0 & c0 & r1 & c1 & HB & ->)%chunks_window Hc. destruct (window_shape _ _ _ _ HB) as (W1 & W2 & W3 & W4 & W5 & W6).
    rewrite split_blocks in Hc. apply elem_keep in Hc as (Hne & b & Hb & Hv). split; [done|]. subst chunk. split.
    - apply values_nodup. intros i j i' j' v H1 H2. apply (window_get _ _ _ _ _ _ _ HB) in H1 as [-> _], H2 as [[= H3 H4] _]. lia.
    - exists ((r0 + b.1.1, b.1.2), (c0 + b.2.1, b.2.2)). split; [|split].
      + intros rc. rewrite values_elem. split.
        * intros (i & j & Hin & H). apply (window_get _ _ _ _ _ _ _ HB) in H as [-> Hl]. split; [done|]. unfold in_block in *. cbn in *. lia.
        * intros [Hl Hin]. pose proof (bo_in _ _ _ _ HB _ Hl) as B. exists (rc.1 - r0), (rc.2 - c0). split; [unfold in_block in *; cbn in *; lia|].
          apply (window_get _ _ _ _ _ _ _ HB). split; [|done]. destruct rc as [r c]. cbn in *. f_equal; lia.
      + eapply (proj1 (blocks_size (window r0 c0 r1 c1) (chunk_tiles mx) (chunk_tiles_pos mx) ltac:(lia) ltac:(lia) b Hb)).
      + intros H. eapply (proj2 (blocks_size (window r0 c0 r1 c1) (chunk_tiles mx) (chunk_tiles_pos mx) ltac:(lia) ltac:(lia) b Hb)).
        rewrite W1, W2. destruct H as [(p & q & Hp & Hq & H)|H].
        * left. pose proof (bo_in _ _ _ _ HB _ Hp). pose proof (bo_in _ _ _ _ HB _ Hq). lia.
        * right. destruct (bo_c0 _ _ _ _ HB) as [r Hr]. destruct (bo_c1 _ _ _ _ HB) as [r' Hr']. specialize (H _ _ Hr' Hr). cbn in H. lia.
  Qed.
  Lemma chunks_once mx chunks : tile_chunk_indices g mx = Ok chunks -> NoDup (concat chunks) /\ [] ∉ chunks /\ forall rc, rc ∈ concat chunks <-> live rc.
  Proof using Ha Hw.
    intros (r0 & c0 & r1 & c1 & HB & ->)%chunks_window. destruct (window_shape _ _ _ _ HB) as (W1 & W2 & W3 & W4 & W5 & W6). rewrite split_blocks.
    split; [|split].
    - rewrite concat_keep. apply NoDup_flat.
      + apply blocks_nodup; [apply chunk_tiles_pos|lia|lia].
      + intros b _. apply values_nodup. intros i j i' j' v H1 H2. apply (window_get _ _ _ _ _ _ _ HB) in H1 as [-> _], H2 as [[= H3 H4] _]. lia.
      + intros b b' rc Hb Hb' H1 H2. apply values_elem in H1 as (i & j & Hij & H1). apply values_elem in H2 as (i' & j' & Hij' & H2).
        apply (window_get _ _ _ _ _ _ _ HB) in H1 as [-> _], H2 as [[= H3 H4] _]. assert (i' = i) as -> by lia. assert (j' = j) as -> by lia.
        by eapply (blocks_once (window r0 c0 r1 c1)).
    - intros (H & _)%elem_keep. done.
    - intros rc. rewrite concat_keep, elem_concat. split.
      + intros (l & Hl & H). apply elem_of_list_fmap in Hl as (b & -> & _). apply values_elem in H as (i & j & _ & H). by apply (window_get _ _ _ _ _ _ _ HB) in H as [_ ?].
      + intros Hl. pose proof (bo_in _ _ _ _ HB _ Hl) as B. destruct (blocks_cover (window r0 c0 r1 c1) (chunk_tiles mx) (chunk_tiles_pos mx) ltac:(lia) ltac:(lia) (rc.1 - r0) (rc.2 - c0)) as (b & Hb & Hin); [lia|lia|].
        eexists. split; [apply elem_of_list_fmap; by exists b|]. apply values_elem. eexists _, _. split; [exact Hin|]. apply (window_get _ _ _ _ _ _ _ HB).
        split; [|done]. destruct rc as [r c]. cbn in *. f_equal; lia.
  Qed.
End chunks.
